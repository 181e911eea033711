(* What a user expects of native tags, stated without the accessors; used in PropNative.v *)
From Coq Require Import List Arith ZArith Bool Ascii String.
From Verif Require Import GoStr Names ArrayM TypeM NativeM SpecBasic SpecTag SpecType SpecTPath.
Import ListNotations.
Local Open Scope string_scope.

Section S.
Context {X : Type}.
Notation gval := (gval X).
Notation ty := (ty X).

(* the field a tag name selects: the first one the name asks for; if there is none, the last catch-all field *)
Definition selects (fs : list (finfo * ty)) (name : string) (j : nat) : Prop :=
  first_such (fun g => asked name (f_name (fst g))) fs j
  \/ (Forall (fun g => ~ asked name (f_name (fst g))) fs /\ last_such (fun g => f_any (fst g) = true) fs j).
Definition the_field (fs : list (finfo * ty)) (vs : list gval) (name : string) (j : nat) (f : finfo) (t : ty) (v : gval) : Prop :=
  selects fs name j /\ nth_error fs j = Some (f, t) /\ nth_error vs j = Some v.

(* nothing is stored: a nil pointer, or a blank value of a field that is not flagged empty *)
Definition unset (f : finfo) (t : ty) (v : gval) : Prop := v = VNil \/ (f_empty f = false /\ blank_value t v = true).

(* byte slices have no native text behind pointers *)
Definition plain_bytes (t t' : ty) : Prop := t' = TBytes -> is_ptr t = false.

(* vs' is vs with w in place j *)
Definition changed_at (vs vs' : list gval) (j : nat) (w : gval) : Prop :=
  List.length vs' = List.length vs /\ nth_error vs' j = Some w /\ forall i, i <> j -> nth_error vs' i = nth_error vs i.

(* the tags of one field: one per language, or one with the text of the value, none for an empty text *)
Inductive tags_of (f : finfo) (t : ty) (v : gval) : list tag -> Prop :=
| tg_unset : unset f t v -> tags_of f t v []
| tg_alt m a : ~ unset f t v -> under t v (TAlt m) (VAlt a) ->
    tags_of f t v (map (fun i => Tag (f_name f) (ai_value i) (ai_lang i)) a)
| tg_text t' v' s : ~ unset f t v -> under t v t' v' -> t' <> TBytes -> shows_as t' v' s -> s <> "" ->
    tags_of f t v [Tag (f_name f) s ""]
| tg_empty t' v' : ~ unset f t v -> under t v t' v' -> t' <> TBytes -> shows_as t' v' "" -> tags_of f t v []
| tg_none t' v' c : ~ unset f t v -> under t v t' v' ->
    (t' = TText c \/ exists i te, t' = TArr i te /\ ar_text i = Some c) -> c_enc c v' = Ok None -> tags_of f t v [].

(* the names of the fields select their fields *)
Definition own_names (fs : list (finfo * ty)) : Prop :=
  forall j f t, nth_error fs j = Some (f, t) -> selects fs (f_name f) j.
End S.
