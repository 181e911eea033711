(* Go maps with string keys, modelled as association lists. The order of the list is the (arbitrary)
   iteration order of the Go map; lookups do not depend on it. *)
From Coq Require Import List Arith ZArith Bool Ascii String.
From Verif Require Import GoStr.
Local Open Scope string_scope.

Definition gomap (V : Type) := list (string * V).

(* v, ok := m[k] *)
Fixpoint map_get {V} (m : gomap V) (k : string) : option V :=
  match m with
  | [] => None
  | (k', v) :: r => if k' =? k then Some v else map_get r k
  end.

(* m[k] = v *)
Fixpoint map_set {V} (m : gomap V) (k : string) (v : V) : gomap V :=
  match m with
  | [] => [(k, v)]
  | (k', v') :: r => if k' =? k then (k, v) :: r else (k', v') :: map_set r k v
  end.

(* delete(m, k) *)
Definition map_del {V} (m : gomap V) (k : string) : gomap V :=
  filter (fun e => negb (fst e =? k)) m.
