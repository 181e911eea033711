(* Nodes in memory: addresses, recycling (xmp/node.go:25-118) and copying (xmp/node.go:120-136).
   Node and attribute-array addresses are natural numbers. A model value is any type [M]. *)
From Coq Require Import List Arith Bool String.
From Verif Require Import GoStr Names NodeM.
Local Open Scope string_scope.

Definition addr := nat.

(* the Node struct in memory, xmp/node.go:31-37: children are pointers, Attr is a slice of a backing array
   (None is nil) *)
Record cell (M : Type) := Cell {
  c_name : xname; c_attr : option addr; c_model : option M; c_value : string; c_kids : list addr }.
Arguments Cell {M}. Arguments c_name {M}. Arguments c_attr {M}. Arguments c_model {M}.
Arguments c_value {M}. Arguments c_kids {M}.

(* the fields written by NewNode and Close *)
Definition clean {M} (x : xname) : cell M := Cell x None None "" [].

(* memory: node cells, attribute arrays, the next free addresses, and the channel nodePool (first in, first out) *)
Record store (M : Type) := Store {
  s_cells : addr -> cell M; s_arrs : addr -> list attr; s_next : addr; s_anext : addr; s_pool : list addr }.
Arguments Store {M}. Arguments s_cells {M}. Arguments s_arrs {M}. Arguments s_next {M}.
Arguments s_anext {M}. Arguments s_pool {M}.

Definition upd {A} (f : addr -> A) (a : addr) (v : A) : addr -> A := fun x => if Nat.eqb x a then v else f x.

Section P.
Context {M : Type}.
Notation store := (store M).
Notation cell := (cell M).

Definition set_cell (s : store) (a : addr) (c : cell) : store :=
  Store (upd (s_cells s) a c) (s_arrs s) (s_next s) (s_anext s) (s_pool s).
Definition set_arr (s : store) (r : addr) (l : list attr) : store :=
  Store (s_cells s) (upd (s_arrs s) r l) (s_next s) (s_anext s) (s_pool s).
(* make([]Attr, ...) *)
Definition alloc_arr (s : store) (l : list attr) : store * addr :=
  (Store (s_cells s) (upd (s_arrs s) (s_anext s) l) (s_next s) (S (s_anext s)) (s_pool s), s_anext s).

(* xmp/node.go:79-101 NewNode as one uninterrupted call *)
Definition mem_new (s : store) (x : xname) : store * addr :=
  match s_pool s with
  | n :: r => (set_cell (Store (s_cells s) (s_arrs s) (s_next s) (s_anext s) r) n (clean x), n)
  | [] => (Store (upd (s_cells s) (s_next s) (clean x)) (s_arrs s) (S (s_next s)) (s_anext s) [], s_next s)
  end.

Definition attrs_at (s : store) (o : option addr) : list attr :=
  match o with Some r => s_arrs s r | None => [] end.

(* xmp/node.go:120-136 copyNode and copyNodes; fuel bounds the depth of the recursion *)
Fixpoint mem_copy (fuel : nat) (s : store) (a : addr) : option (store * addr) :=
  match fuel with
  | 0 => None
  | S f =>
      let '(s, n) := mem_new s (c_name (s_cells s a)) in
      let x := s_cells s a in
      let s := set_cell s n (Cell (c_name (s_cells s n)) None (c_model x) (c_value x) []) in
      let '(s, r) := alloc_arr s (attrs_at s (c_attr x)) in
      let c := s_cells s n in
      let s := set_cell s n (Cell (c_name c) (Some r) (c_model c) (c_value c) []) in
      match (fix go (s : store) (l : list addr) (acc : list addr) : option (store * list addr) :=
               match l with
               | [] => Some (s, acc)
               | v :: rest => match mem_copy f s v with
                              | Some (s', v') => go s' rest (acc ++ [v'])%list
                              | None => None
                              end
               end) s (c_kids x) [] with
      | Some (s, kids) =>
          let c := s_cells s n in
          Some (set_cell s n (Cell (c_name c) (c_attr c) (c_model c) (c_value c) kids), n)
      | None => None
      end
  end.

(* ---- any number of goroutines using NewNode and Close ---------------------------------------
   Channel operations are atomic. The field assignments of NewNode and Close are one step each: no other
   goroutine may touch the node between them unless it breaks the protocol (which the theorems exclude). *)
Inductive pc :=
| PIdle
| PInit (a : addr) (x : xname)                         (* received from the pool, fields not yet reset *)
| PRet (a : addr) (x : xname)                          (* about to return the node *)
| PClose (frames : list (addr * list addr))            (* Close calls in progress, innermost first, each with
                                                          the children still to be closed *)
| PSend (a : addr) (frames : list (addr * list addr)). (* fields cleared, about to put a back *)

Inductive event :=
| ENew (t : nat) (a : addr) (x : xname) (c : cell)     (* NewNode(x) returned a, whose fields are c *)
| EClose (t : nat) (a : addr)                          (* Close called on a, by the user or by Close of its parent *)
| EWrite (t : nat) (a : addr).                         (* a field of a assigned by the user *)

Record machine := Machine { m_cells : addr -> cell; m_next : addr; m_pool : list addr; m_pc : nat -> pc; m_trace : list event }.

(* what the scheduler and the users choose *)
Inductive action :=
| ANew (t : nat) (x : xname)
| AWrite (t : nat) (a : addr) (c : cell)
| AClose (t : nat) (a : addr)
| AStep (t : nat).                                     (* let goroutine t continue *)

Definition emit (m : machine) (t : nat) (p : pc) (e : list event) : machine :=
  Machine (m_cells m) (m_next m) (m_pool m) (upd (m_pc m) t p) (m_trace m ++ e)%list.
Definition with_cell (m : machine) (a : addr) (c : cell) : machine :=
  Machine (upd (m_cells m) a c) (m_next m) (m_pool m) (m_pc m) (m_trace m).
Definition with_pool (m : machine) (l : list addr) : machine :=
  Machine (m_cells m) (m_next m) l (m_pc m) (m_trace m).

(* cap is the capacity of nodePool (5000 in xmp/node.go:26) *)
Variable cap : nat.

Definition mstep (m : machine) (act : action) : option machine :=
  match act with
  | ANew t x =>
      match m_pc m t with
      | PIdle =>
          match m_pool m with
          | a :: r => Some (emit (with_pool m r) t (PInit a x) [])                         (* node.go:82 *)
          | [] => Some (emit (Machine (upd (m_cells m) (m_next m) (clean x)) (S (m_next m)) [] (m_pc m) (m_trace m))
                             t (PRet (m_next m) x) [])                                     (* node.go:90-97 *)
          end
      | _ => None
      end
  | AWrite t a c =>
      match m_pc m t with
      | PIdle => Some (emit (with_cell m a c) t PIdle [EWrite t a])
      | _ => None
      end
  | AClose t a =>
      match m_pc m t with
      | PIdle => Some (emit m t (PClose [(a, c_kids (m_cells m a))]) [EClose t a])         (* node.go:103-104 *)
      | _ => None
      end
  | AStep t =>
      match m_pc m t with
      | PIdle => None
      | PInit a x => Some (emit (with_cell m a (clean x)) t (PRet a x) [])                 (* node.go:84-88 *)
      | PRet a x => Some (emit m t PIdle [ENew t a x (m_cells m a)])                       (* node.go:100 *)
      | PClose [] => Some (emit m t PIdle [])
      | PClose ((a, v :: rest) :: fs) =>
          Some (emit m t (PClose ((v, c_kids (m_cells m v)) :: (a, rest) :: fs)) [EClose t v])  (* node.go:104-106 *)
      | PClose ((a, []) :: fs) => Some (emit (with_cell m a (clean empty_name)) t (PSend a fs) [])  (* node.go:107-111 *)
      | PSend a fs =>
          if Nat.ltb (List.length (m_pool m)) cap
          then Some (emit (with_pool m (m_pool m ++ [a])%list) t (PClose fs) [])           (* node.go:113 *)
          else Some (emit m t (PClose fs) [])                                              (* node.go:115 *)
      end
  end.

(* actions that are not possible are skipped *)
Fixpoint mrun (m : machine) (l : list action) : machine :=
  match l with
  | [] => m
  | act :: r => mrun (match mstep m act with Some m' => m' | None => m end) r
  end.

(* an arbitrary initial memory without any node in use *)
Definition minit (cells : addr -> cell) : machine := Machine cells 0 [] (fun _ => PIdle) [].
End P.
Arguments mstep {M}. Arguments mrun {M}.
