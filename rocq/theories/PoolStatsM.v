(* The statistics of the node pool: the counters of xmp/node.go:27 as NewNode and Close change them, and the two numbers
   DumpStats (xmp/dump.go:61-68) computes from them. Counters are unbounded; the calls are uninterrupted except in the
   last part, where ++ is a load and a store. *)
From Coq Require Import List Arith ZArith Bool String.
From Verif Require Import GoStr Names NodeM PoolM PoolCloseM.
Import ListNotations.
Local Open Scope string_scope.

(* xmp/node.go:27 *)
Record stats := Stats { st_allocs : Z; st_frees : Z; st_hits : Z; st_returns : Z }.

(* xmp/units.go:469-475 Max64 *)
Definition max64 (x y : Z) : Z := if (x <? y)%Z then y else x.
(* xmp/dump.go:66 *)
Definition in_use_number (st : stats) : Z := (st_allocs st + st_hits st - st_returns st - st_frees st)%Z.
(* xmp/dump.go:67 *)
Definition in_pool_number (st : stats) : Z := max64 0 (st_returns st - st_hits st).

(* what happened to nodes, oldest first; kept to state the theorems *)
Inductive did := DNew (a : addr) | DClosed (a : addr).

Section W.
Context {M : Type}.
Variable cap : nat.
Record world := World { w_mem : store M; w_stats : stats; w_log : list did }.

(* xmp/node.go:79-101 NewNode: 83 and 90 count *)
Definition count_new (w : world) (x : xname) : world * addr :=
  let st := w_stats w in
  let '(s, a) := mem_new (w_mem w) x in
  (World s (match s_pool (w_mem w) with
            | _ :: _ => Stats (st_allocs st) (st_frees st) (st_hits st + 1) (st_returns st)
            | [] => Stats (st_allocs st + 1) (st_frees st) (st_hits st) (st_returns st)
            end) (w_log w ++ [DNew a])%list, a).

(* xmp/node.go:107-117: 114 and 116 count *)
Definition count_back (w : world) (a : addr) : world :=
  let st := w_stats w in
  World (give_back cap (w_mem w) a)
        (if Nat.ltb (List.length (s_pool (w_mem w))) cap
         then Stats (st_allocs st) (st_frees st) (st_hits st) (st_returns st + 1)
         else Stats (st_allocs st) (st_frees st + 1) (st_hits st) (st_returns st)) (w_log w ++ [DClosed a])%list.

(* xmp/node.go:103-118 Close; fuel bounds the depth of the recursion *)
Fixpoint count_close (fuel : nat) (w : world) (a : addr) : option world :=
  match fuel with
  | 0 => None
  | S f =>
      match (fix go (w : world) (l : list addr) : option world :=
               match l with
               | [] => Some w
               | v :: rest => match count_close f w v with Some w' => go w' rest | None => None end
               end) w (c_kids (s_cells (w_mem w) a)) with
      | Some w' => Some (count_back w' a)
      | None => None
      end
  end.

(* what a program does: get a node, assign its fields, close it *)
Inductive use := UNew (x : xname) | USet (a : addr) (c : cell M) | UClose (a : addr).
Definition use_step (fuel : nat) (w : world) (u : use) : option world :=
  match u with
  | UNew x => Some (fst (count_new w x))
  | USet a c => Some (World (set_cell (w_mem w) a c) (w_stats w) (w_log w))
  | UClose a => count_close fuel w a
  end.
Fixpoint use_run (fuel : nat) (w : world) (h : list use) : option world :=
  match h with
  | [] => Some w
  | u :: r => match use_step fuel w u with Some w' => use_run fuel w' r | None => None end
  end.
(* the start of the program *)
Definition use_start (cells : addr -> cell M) (arrs : addr -> list attr) : world :=
  World (Store cells arrs 0 0 []) (Stats 0 0 0 0) [].
End W.

(* A counter that goroutines increase without a lock (xmp/node.go:83, 90, 114, 116): load, then store. A goroutine with
   a number in [k_reg] has loaded. [k_done] counts the finished increments. *)
Record counter := Counter { k_value : Z; k_reg : nat -> option Z; k_done : Z }.
Definition k_step (k : counter) (t : nat) : counter :=
  match k_reg k t with
  | None => Counter (k_value k) (upd (k_reg k) t (Some (k_value k))) (k_done k)
  | Some v => Counter (v + 1) (upd (k_reg k) t None) (k_done k + 1)
  end.
Definition k_run (schedule : list nat) : counter := fold_left k_step schedule (Counter 0 (fun _ => None) 0).
