(* Membership in namespace groups: xmp/namespace.go:80-101. *)
From Coq Require Import List Bool Ascii String.
From Verif Require Import GoStr GoMap Names RegistryM.
Import ListNotations.
Local Open Scope string_scope.

(* xmp/namespace.go:80-83 Namespaces: the error of an unknown group is dropped *)
Definition group_namespaces (r : registry) (g : string) : list namespace :=
  match get_group_namespaces r g with Ok l => l | _ => [] end.
(* xmp/namespace.go:85-92 *)
Definition group_contains (r : registry) (g : string) (ns : namespace) : bool :=
  existsb (fun v => ns_name v =? ns_name ns) (group_namespaces r g).
(* xmp/namespace.go:94-101 *)
Definition groups_contain (r : registry) (l : list string) (ns : namespace) : bool :=
  existsb (fun g => group_contains r g ns) l.
