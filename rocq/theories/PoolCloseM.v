(* Giving nodes back: Close and Clear of nodes (xmp/node.go:103-118, 270-275) and Close of a document
   (xmp/document.go:60-68) on the memory of PoolM.v, as uninterrupted calls. [cap] is the capacity of the channel
   nodePool (5000 in xmp/node.go:26); the counters of dump.go are not modelled. *)
From Coq Require Import List Arith Bool String.
From Verif Require Import GoStr Names NodeM PoolM.
Import ListNotations.
Local Open Scope string_scope.

Section C.
Context {M : Type}.
Notation store := (store M).
Variable cap : nat.

Definition set_pool (s : store) (l : list addr) : store := Store (s_cells s) (s_arrs s) (s_next s) (s_anext s) l.

(* xmp/node.go:107-117: the fields are cleared, then the node is put into the pool unless it is full *)
Definition give_back (s : store) (a : addr) : store :=
  let s := set_cell s a (clean empty_name) in
  if Nat.ltb (List.length (s_pool s)) cap then set_pool s (s_pool s ++ [a])%list else s.

(* xmp/node.go:103-118 Close; fuel bounds the depth of the recursion *)
Fixpoint mem_close (fuel : nat) (s : store) (a : addr) : option store :=
  match fuel with
  | 0 => None
  | S f =>
      match (fix go (s : store) (l : list addr) : option store :=
               match l with
               | [] => Some s
               | v :: rest => match mem_close f s v with Some s' => go s' rest | None => None end
               end) s (c_kids (s_cells s a)) with
      | Some s' => Some (give_back s' a)
      | None => None
      end
  end.

(* for _, v := range l { v.Close() } *)
Fixpoint close_all (fuel : nat) (s : store) (l : list addr) : option store :=
  match l with
  | [] => Some s
  | v :: rest => match mem_close fuel s v with Some s' => close_all fuel s' rest | None => None end
  end.

(* xmp/document.go:60-68; [d] are the pointers in d.nodes. The pair is the memory and d.nodes afterwards. *)
Definition doc_close (fuel : nat) (s : store) (d : list addr) : option (store * list addr) :=
  match close_all fuel s d with Some s' => Some (s', []) | None => None end.

(* xmp/node.go:270-275 Clear *)
Definition node_clear (fuel : nat) (s : store) (a : addr) : option store :=
  match close_all fuel s (c_kids (s_cells s a)) with
  | Some s' => let c := s_cells s' a in Some (set_cell s' a (Cell (c_name c) (c_attr c) (c_model c) (c_value c) []))
  | None => None
  end.
End C.
