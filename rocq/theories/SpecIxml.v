(* XML content as trees, independent of the model of the decoder *)
From Coq Require Import List Arith ZArith Bool Ascii String.
From Verif Require Import IxmlM.
Import ListNotations.
Local Open Scope string_scope.

Inductive xml := Text (s : string) | El (n : string) (c : list xml).
Fixpoint tokens (x : xml) : list tok :=
  match x with
  | Text s => [TChar s]
  | El n c => (TStart n :: (fix all l := match l with [] => [] | y :: r => tokens y ++ all r end) c ++ [TEnd n])%list
  end.
Fixpoint all_tokens (l : list xml) : list tok := match l with [] => [] | y :: r => (tokens y ++ all_tokens r)%list end.

(* the content of the elements of that name, in order *)
Fixpoint entries (item : string) (l : list xml) : list (list xml) :=
  match l with
  | [] => []
  | El n c :: r => if String.eqb n item then c :: entries item r else entries item r
  | Text _ :: r => entries item r
  end.
