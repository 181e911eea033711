(* Specification of filter strings *)
From Coq Require Import List Arith ZArith Bool Ascii String.
From Verif Require Import GoStr Names RegistryM FilterM Spec.
Local Open Scope string_scope.

(* the names of the metadata groups, xmp/namespace.go:46-54 *)
Definition group_keywords : list string :=
  ["xmp"; "image"; "music"; "movie"; "sound"; "camera"; "vfx"; "rights"].

(* an item of a filter string: exclude?, name *)
Definition item := (bool * string)%type.
(* how a non-empty comma separated part is read *)
Definition item_of (part : string) : item :=
  match part with
  | String "-"%char n => (true, n)
  | String "+"%char n => (false, n)
  | n => (false, n)
  end.
Definition items (s : string) : list item :=
  map item_of (filter (fun p => negb (emptyb p)) (split_char "," s)).

(* the namespaces a name stands for in registry r *)
Inductive stands_for (r : registry) (n : string) : list namespace -> Prop :=
| sf_group l : In n group_keywords -> get_group_namespaces r n = Ok l -> stands_for r n l
| sf_group_empty e : In n group_keywords -> get_group_namespaces r n = Err e -> stands_for r n []
| sf_ns ns : ~ In n group_keywords -> get_namespace r n = Ok ns -> stands_for r n [ns].

(* f is what the items say: included and excluded namespaces in order *)
Definition denotes (r : registry) (l : list item) (f : filter_t) : Prop :=
  exists lists, Forall2 (fun it ns => stands_for r (snd it) ns) l lists /\
    f_include f = flat_map (fun p : item * list namespace => if fst (fst p) then [] else snd p) (combine l lists) /\
    f_exclude f = flat_map (fun p : item * list namespace => if fst (fst p) then snd p else []) (combine l lists).

Definition names (l : list namespace) : list string := map ns_name l.
