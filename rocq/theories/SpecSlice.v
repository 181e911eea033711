(* What the properties of the iXML dictionaries speak about, without the helpers of the model. *)
From Coq Require Import List Arith ZArith Bool Ascii String.
From Verif Require Import SliceM.
Import ListNotations.
Local Open Scope string_scope.

(* a header a running program can hold: its array exists and has just its capacity *)
Definition valid (h : heap) (x : slice) : Prop :=
  s_arr x < List.length h /\ s_len x <= s_cap x /\ s_cap x = List.length (nth (s_arr x) h []).
(* two headers of different arrays *)
Definition apart (x y : slice) : Prop := s_arr x <> s_arr y.
(* the elements of l that p allows, in their order *)
Inductive keeps (p : string -> Prop) : list string -> list string -> Prop :=
| keeps_nil : keeps p [] []
| keeps_yes e l r : p e -> keeps p l r -> keeps p (e :: l) (e :: r)
| keeps_no e l r : ~ p e -> keeps p l r -> keeps p (e :: l) r.
