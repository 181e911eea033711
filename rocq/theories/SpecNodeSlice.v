(* What the properties of node lists speak about *)
From Coq Require Import List Arith ZArith Bool Ascii String.
From Verif Require Import SliceM SpecSlice.
Import ListNotations.
Local Open Scope string_scope.

(* what remains when a program removes each node of a list it walks, while the removal moves the nodes under its hands:
   every other node but the last *)
Fixpoint skipped (l : list string) : list string :=
  match l with
  | _ :: b :: t => match t with [] => [] | _ => b :: skipped t end
  | _ => []
  end.

(* reach g a b: b is a child of a, or of a child of a, and so on *)
Inductive reach (g : string -> list string) : string -> string -> Prop :=
| reach_child a b : In b (g a) -> reach g a b
| reach_step a b c : In b (g a) -> reach g b c -> reach g a c.
Definition no_loop (g : string -> list string) : Prop := forall a, ~ reach g a a.
