(* Names and namespaces: xmp/namespace.go *)
From Coq Require Import List Arith ZArith Bool Ascii String.
From Verif Require Import GoStr.
Local Open Scope string_scope.

(* xml.Name *)
Record xname := XName { x_space : string; x_local : string }.

(* xmp/namespace.go:35-39 Namespace. The factory (a Go func value) is modelled by an identifier;
   None is a nil factory. The model-creating behaviour of factory ids is a parameter of the document model. *)
Record namespace := Namespace { ns_name : string; ns_uri : string; ns_factory : option nat }.

(* xmp/namespace.go:207-212 *)
Definition strip_prefix (n : string) : string :=
  match index_char ":" n with Some i => sdrop (S i) n | None => n end.

(* xmp/namespace.go:214-219 *)
Definition get_prefix (n : string) : string :=
  match index_char ":" n with Some i => stake i n | None => n end.

(* xmp/namespace.go:222-224 *)
Definition has_prefix (n : string) : bool :=
  match index_char ":" n with Some (S _) => true | _ => false end.

(* xmp/namespace.go:122-127 *)
Definition match_xml_name (n : namespace) (x : xname) : bool :=
  if negb (emptyb (x_space x)) then x_space x =? ns_uri n
  else get_prefix (x_local x) =? ns_name n.

(* xmp/namespace.go:118-120 *)
Definition match_attr_name (n : namespace) (name : string) : bool := get_prefix name =? ns_name n.

(* xmp/namespace.go:129-134 *)
Definition expand (n : namespace) (local : string) : string :=
  if emptyb local then ns_name n else join ":" [ns_name n; local].

(* xmp/namespace.go:152-157 *)
Definition ns_xml_name (n : namespace) (local : string) : xname := XName "" (expand n local).

(* xmp/namespace.go:159-164 *)
Definition ns_root_name (n : namespace) : xname := XName "" (ns_name n).

(* xmp/namespace.go:168-178 NamespaceList.Contains; the argument is a possibly nil pointer *)
Definition nsl_contains (l : list namespace) (ns : option namespace) : bool :=
  match ns with
  | None => false
  | Some n => existsb (fun v => ns_name v =? ns_name n) l
  end.

(* xmp/namespace.go:180-190 *)
Definition nsl_contains_name (l : list namespace) (n : string) : bool :=
  if emptyb n then false else existsb (fun v => ns_name v =? n) l.

(* xmp/namespace.go:192-205 RemoveDups: in-place compaction with a found-map of URIs.
   The in-place writes (j <= i) only overwrite already visited slots, so the result is this fold. *)
Fixpoint remove_dups_from (found : list string) (l : list namespace) : list namespace :=
  match l with
  | [] => []
  | v :: r =>
      if existsb (String.eqb (ns_uri v)) found then remove_dups_from found r
      else v :: remove_dups_from (ns_uri v :: found) r
  end.
Definition remove_dups (l : list namespace) : list namespace := remove_dups_from [] l.

(* xmp/namespace.go:42-78 namespace groups; "" is NoMetadata *)
Definition parse_group (s : string) : string :=
  if (s =? "xmp") || (s =? "image") || (s =? "music") || (s =? "movie") || (s =? "sound")
     || (s =? "camera") || (s =? "vfx") || (s =? "rights")
  then s else "".
