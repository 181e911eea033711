(* The node lists of documents as Go slices (SliceM): Document.Nodes() hands out the header of the document's own list.
   A node is known by its identity, a text; its XMLName.Local is given by the function local and does not change, but for nodes
   that were closed, whose name is empty (xmp/node.go:105-109). The node pool is not modelled here (PoolM). *)
From Coq Require Import List Arith ZArith Bool Ascii String.
From Verif Require Import GoStr Names SliceM.
Import ListNotations.
Local Open Scope string_scope.

Section N.
Variable local : string -> string.
(* is there a namespace with this prefix, xmp/document.go:269-284 findNsByPrefix *)
Variable registered : string -> bool.
Variable grow : nat -> nat.

(* d.nodes, and the nodes that were closed *)
Record world := World { w_heap : heap; w_nodes : slice; w_closed : list string }.
Definition nodes (w : world) : list string := view (w_heap w) (w_nodes w).

(* xmp/document.go:122-124 Document.Nodes *)
Definition take_nodes (w : world) : slice := w_nodes w.

(* xmp/node.go:198-200 Node.Name *)
Definition node_name (w : world) (v : string) : string :=
  if contains (w_closed w) v then "" else strip_prefix (local v).
Definition local_name (w : world) (v : string) : string := if contains (w_closed w) v then "" else local v.

Fixpoint first_index (p : string -> bool) (i : nat) (l : list string) : option nat :=
  match l with
  | [] => None
  | v :: r => if p v then Some i else first_index p (S i) r
  end.

(* xmp/node.go:150-153 NodeList.AppendNode; as well document.go:159 (MakeModel) and 183 (AddModel, new node) *)
Definition append_node (w : world) (n : string) : world :=
  let '(h, x) := append_one grow (w_heap w) (w_nodes w) n in World h x (w_closed w).

(* xmp/node.go:140-148 NodeList.AddNode *)
Definition add_node (w : world) (n : string) : world :=
  let x := w_nodes w in
  match first_index (fun v => local_name w v =? local_name w n) 0 (nodes w) with
  | Some i => World (put (s_arr x) (put i n (array (w_heap w) (s_arr x))) (w_heap w)) x (w_closed w)
  | None => append_node w n
  end.

(* xmp/node.go:171-178 NodeList.Index, 180-185 NodeList.RemoveNode *)
Definition remove_node (w : world) (n : string) : world :=
  match first_index (fun v => v =? n) 0 (nodes w) with
  | Some i => let '(h, x) := cut (w_heap w) (w_nodes w) i in World h x (w_closed w)
  | None => w
  end.

(* xmp/document.go:189-206 RemoveNamespace: the slice and the closing of the node; the maps of namespaces are in DocM *)
Definition remove_namespace (w : world) (name : string) : world :=
  match first_index (fun v => node_name w v =? name) 0 (nodes w) with
  | Some i => let '(h, x) := cut (w_heap w) (w_nodes w) i in World h x (nth i (nodes w) "" :: w_closed w)
  | None => w
  end.
(* xmp/document.go:208-211 RemoveNamespaceByName *)
Definition remove_by_name (w : world) (name : string) : world := if registered name then remove_namespace w name else w.

(* a program: for _, n := range list { d.RemoveNamespaceByName(n.Name()) }. Go evaluates the header of the list once and its
   elements when they are reached. *)
Fixpoint walk (n i : nat) (w : world) (list : slice) : world :=
  match n with
  | 0 => w
  | S m => walk m (S i) (remove_by_name w (node_name w (nth i (array (w_heap w) (s_arr list)) ""))) list
  end.
Definition remove_each (w : world) (list : slice) : world := walk (s_len list) 0 w list.

(* the same with the names collected before, as FilterNamespaces does, xmp/document.go:228-240 *)
Definition remove_names (w : world) (names : list string) : world := fold_left remove_by_name names w.
End N.

(* ---- the check for node loops ----------------------------------------------------------------------------- *)

(* the children of each node; xmp/node.go:254-268 Node.AddNode and Node.AppendNode. None is the panic. *)
Definition children := string -> list string.
Definition append_child (g : children) (n x : string) : option children :=
  if x =? n then None else Some (fun v => if v =? n then (g n ++ [x])%list else g v).
