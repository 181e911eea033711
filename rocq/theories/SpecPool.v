(* Specification of node recycling and copying; used in PropPool *)
From Coq Require Import List Arith Bool String.
From Verif Require Import GoStr Names NodeM PoolM.
Local Open Scope string_scope.

Section S.
Context {M : Type}.

(* a is in use after the events: returned by NewNode and not closed since *)
Fixpoint live_from (b : bool) (tr : list (event (M := M))) (a : addr) : bool :=
  match tr with
  | [] => b
  | ENew _ x _ _ :: r => live_from (if Nat.eqb x a then true else b) r a
  | EClose _ x :: r => live_from (if Nat.eqb x a then false else b) r a
  | EWrite _ _ :: r => live_from b r a
  end.
Definition live := live_from false.

(* the users close and write only nodes in use *)
Definition disciplined (tr : list (event (M := M))) : Prop :=
  (forall pre t a post, tr = (pre ++ EClose t a :: post)%list -> live pre a = true) /\
  (forall pre t a post, tr = (pre ++ EWrite t a :: post)%list -> live pre a = true).

(* the tree n is stored at address a *)
Inductive rep (s : store M) : addr -> node M -> Prop :=
| Rep a l : Forall2 (rep s) (c_kids (s_cells s a)) l ->
    rep s a (Node (c_name (s_cells s a)) (attrs_at s (c_attr (s_cells s a))) (c_model (s_cells s a)) (c_value (s_cells s a)) l).

(* addresses of the nodes and attribute arrays of the tree at a *)
Inductive reach (s : store M) (a : addr) : addr -> Prop :=
| reach_here : reach s a a
| reach_kid k x : In k (c_kids (s_cells s a)) -> reach s k x -> reach s a x.
Definition reach_arr (s : store M) (a r : addr) : Prop := exists x, reach s a x /\ c_attr (s_cells s x) = Some r.

(* the addresses of the tree at a, one for every node of the tree: an address occurs twice if two parents share it *)
Inductive lists (s : store M) : addr -> list addr -> Prop :=
| Lists a ls : Forall2 (lists s) (c_kids (s_cells s a)) ls -> lists s a (a :: List.concat ls).

(* the tree at a consists of allocated nodes that are not in the pool *)
Definition in_use (s : store M) (a : addr) : Prop :=
  (forall x, reach s a x -> x < s_next s /\ ~ In x (s_pool s)) /\ (forall r, reach_arr s a r -> r < s_anext s).

Fixpoint depth (n : node M) : nat := let 'Node _ _ _ _ l := n in S (fold_right Nat.max 0 (map depth l)).

(* later assignments to a node or to an element of an attribute array *)
Inductive write := WCell (a : addr) (c : cell M) | WArr (r : addr) (l : list attr).
Definition do_write (s : store M) (w : write) : store M :=
  match w with WCell a c => set_cell s a c | WArr r l => set_arr s r l end.
End S.
