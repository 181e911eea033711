(* Lists that may be written as a single text: xmp.DateList (xmp/xmp_types.go:226-239) and LocaleArray
   (models/dc/types.go:56-62). ModelTypes has both as arrays without this special case. *)
From Coq Require Import List Arith Bool Ascii String.
From Verif Require Import GoStr GoMap Names Semver RegistryM NodeM ArrayM CodecM TypeM DecodeM.
Import ListNotations.
Local Open Scope string_scope.

Section Env.
Context {X M : Type}.
Notation node := (node M).
Variable ver : version.
Variable reg : registry.
Variables imap emap : gomap namespace.
Notation unmarshal := (@unmarshal X M ver reg imap emap).

(* a node without children and with a text: the text is read by [one] and appended; else UnmarshalArray *)
Definition lenient_unmarshal (i : arr_info X) (t : ty X) (one : string -> result (gval X)) (old : gval X) (n : node) : result (gval X) :=
  if Nat.eqb (List.length (n_nodes n)) 0 && negb (emptyb (n_value n))
  then bind (one (n_value n)) (fun w => Ok (arr_append old w))
  else unmarshal n (TArr i t) false old.

(* models/dc/types.go:40, 49-62 LocaleArray: a Bag of strings; the text is taken as it is *)
Definition locale_unmarshal (old : gval X) (n : node) : result (gval X) :=
  lenient_unmarshal (ArrInfo _ "Bag" true None false) TStr (fun s => Ok (VStr s)) old n.
(* xmp/xmp_types.go:217-239 DateList: a Seq of dates; [c] is the text codec of Date. ParseDate is what UnmarshalText of
   Date does with a text that is not empty (204-215). *)
Definition date_list_unmarshal (c : codec X) (old : gval X) (n : node) : result (gval X) :=
  lenient_unmarshal (ArrInfo _ "Seq" true None false) (TText c) (fun s => c_dec c (zero (TText c)) s) old n.
End Env.
