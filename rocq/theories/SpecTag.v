(* Specification of struct tags and field lookup; used in PropTag *)
From Coq Require Import List Arith ZArith Bool Ascii String.
From Verif Require Import GoStr Semver TagM SpecBasic.
Import ListNotations.
Local Open Scope string_scope.

(* the documented options of a tag (typeinfo.go:221-225); versions are given by their text *)
Inductive tag_opt :=
| OAttr | OEmpty | OOmit | OAny | OFlat
| OOnly (t : string)               (* v1.0: only in this version *)
| OFrom (t : string)               (* v1.0+: from this version on *)
| OUpTo (t : string)               (* v1.0-: up to this version *)
| OBetween (t u : string)          (* v1.0<1.2 *)
| OOther (s : string).             (* anything else *)

Definition opt_text (o : tag_opt) : string :=
  match o with
  | OAttr => "attr" | OEmpty => "empty" | OOmit => "omit" | OAny => "any" | OFlat => "flat"
  | OOnly t => "v" ++ t
  | OFrom t => "v" ++ t ++ "+"
  | OUpTo t => "v" ++ t ++ "-"
  | OBetween t u => "v" ++ t ++ "<" ++ u
  | OOther s => s
  end.

(* a version text: a version without any of the signs with a meaning *)
Definition plain_version (t : string) (v : version) : Prop :=
  parse_version t = Ok v /\ no_char "," t /\ no_char "+" t /\ no_char "-" t /\ no_char "<" t.

Definition opt_ok (o : tag_opt) : Prop :=
  match o with
  | OOnly t | OFrom t | OUpTo t => exists v, plain_version t v
  | OBetween t u => (exists v, plain_version t v) /\ exists w, plain_version u w
  | OOther s => no_char "," s /\ (forall r, s <> "v" ++ r) /\ ~ In s ["attr"; "empty"; "omit"; "any"; "flat"]
  | _ => True
  end.

(* what an option says about the lower and the upper version bound, if anything *)
Definition says_min (o : tag_opt) (v : version) : Prop :=
  match o with OOnly t | OFrom t | OBetween t _ => parse_version t = Ok v | _ => False end.
Definition says_max (o : tag_opt) (v : version) : Prop :=
  match o with OOnly t | OUpTo t | OBetween _ t => parse_version t = Ok v | _ => False end.

(* the last option that says something wins; without one there is no bound *)
Definition bound (says : tag_opt -> version -> Prop) (l : list tag_opt) (v : version) : Prop :=
  (exists a o b, l = (a ++ o :: b)%list /\ says o v /\ forall o' w, In o' b -> ~ says o' w)
  \/ (v = Version 0 0 0 /\ forall o' w, In o' l -> ~ says o' w).

(* the text of a tag: name, then the options, separated by commas *)
Definition tag_text (name : string) (l : list tag_opt) : string := join "," (name :: map opt_text l).

(* the local part of a field name *)
Definition local_name_of (f name : string) : Prop :=
  (no_char ":" f /\ f = name) \/ (exists p, no_char ":" p /\ f = p ++ ":" ++ name).
(* a name with a namespace prefix *)
Definition prefixed (name : string) : Prop := exists p l, p <> "" /\ no_char ":" p /\ name = p ++ ":" ++ l.

(* the field a name asks for *)
Definition asked (name f : string) : Prop :=
  (prefixed name /\ f = name) \/ (~ prefixed name /\ local_name_of f name).

(* j is the first index of an element with P *)
Definition first_such {A} (P : A -> Prop) (l : list A) (j : nat) : Prop :=
  (exists x, nth_error l j = Some x /\ P x) /\ forall i x, i < j -> nth_error l i = Some x -> ~ P x.
Definition last_such {A} (P : A -> Prop) (l : list A) (j : nat) : Prop :=
  (exists x, nth_error l j = Some x /\ P x) /\ forall i x, j < i -> nth_error l i = Some x -> ~ P x.

(* the version range of a field: zero bounds are open *)
Definition in_range (v mn mx : version) : Prop :=
  (mn = Version 0 0 0 \/ v_le mn v) /\ (mx = Version 0 0 0 \/ v_le v mx).
(* two fields with the same name that apply to a common version *)
Definition clash (a b : tag_info) : Prop :=
  ti_name a = ti_name b /\ exists v, in_range v (ti_min a) (ti_max a) /\ in_range v (ti_min b) (ti_max b).

(* a version as tags write them *)
Definition small_version (v : version) : Prop :=
  (0 <= v_major v < 2 ^ 61 /\ 0 <= v_minor v < 2 ^ 61 /\ 0 <= v_patch v < 2 ^ 61)%Z.
(* a field that applies to some version *)
Definition proper (i : tag_info) : Prop :=
  small_version (ti_min i) /\ small_version (ti_max i)
  /\ (ti_max i = Version 0 0 0 \/ v_le (ti_min i) (ti_max i)).
