(* Small vocabulary used in theorem statements; independent of the model. *)
From Coq Require Import List Arith ZArith Bool Ascii String.
Import ListNotations.

(* [l] is [m] with some elements dropped, order kept *)
Inductive subseq {A} : list A -> list A -> Prop :=
| subseq_nil : subseq [] []
| subseq_keep x l m : subseq l m -> subseq (x :: l) (x :: m)
| subseq_drop x l m : subseq l m -> subseq l (x :: m).

(* [v] is the first element of [l] with its key *)
Definition first_by {A K} (key : A -> K) (v : A) (l : list A) : Prop :=
  exists pre post, l = pre ++ v :: post /\ Forall (fun w => key w <> key v) pre.

(* [v] is the last element of [l] with its key *)
Definition last_by {A K} (key : A -> K) (v : A) (l : list A) : Prop :=
  exists pre post, l = pre ++ v :: post /\ Forall (fun w => key w <> key v) post.

(* character-level predicates on strings *)
Definition lacks (c : ascii) (s : string) : Prop := ~ exists a b, s = append a (String c b).
