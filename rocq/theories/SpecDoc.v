(* Specifications for documents; used in PropDoc *)
From Coq Require Import List Arith ZArith Bool Ascii String.
From Verif Require Import GoStr GoMap Names PathM SyncFlags PVList RegistryM NodeM FilterM DocM Spec SpecBasic.
Import ListNotations.
Local Open Scope string_scope.

(* the first element with property P stands at index i *)
Definition first_at {A} (P : A -> Prop) (l : list A) (i : nat) (x : A) : Prop :=
  nth_error l i = Some x /\ P x /\ forall j y, j < i -> nth_error l j = Some y -> ~ P y.

(* l' is l with the element at index i changed from x to x' *)
Definition changed_at {A} (l : list A) (i : nat) (x x' : A) (l' : list A) : Prop :=
  exists pre post, List.length pre = i /\ l = (pre ++ x :: post)%list /\ l' = (pre ++ x' :: post)%list.

(* registries as RegisterNamespace builds them: a namespace is filed under its own name *)
Definition reg_ok (reg : registry) : Prop :=
  forall p ns, get_namespace reg p = Ok ns -> ns_name ns = p.

Section S.
Context {M : Type}.
Variable ops : model_ops M.
Implicit Types (d : doc M) (n : node M).

(* top-level nodes as the library creates them: named by a prefix, each once *)
Definition plain_top d : Prop :=
  Forall (fun n => x_space (n_name n) = "" /\ no_char ":" (x_local (n_name n))) (d_nodes d) /\
  NoDup (map (fun n => x_local (n_name n)) (d_nodes d)).

(* the prefix belongs to a namespace of the document or of the registry *)
Definition knows (reg : registry) d (pre : string) : Prop :=
  exists ns, ns_name ns = pre /\
    (In ns (map snd (d_int d)) \/ In ns (map snd (d_ext d)) \/ get_namespace reg pre = Ok ns).

Definition mentions (l : list namespace) (pre : string) : Prop := exists ns, In ns l /\ ns_name ns = pre.

(* the node survives the filter *)
Definition passes (f : filter_t) n : Prop :=
  (f_include f = [] \/ mentions (f_include f) (x_local (n_name n))) /\
  ~ mentions (f_exclude f) (x_local (n_name n)).

(* the node carries a model for the prefix *)
Definition serves (pre : string) n : Prop := exists m, n_model n = Some m /\ mo_can ops m pre = true.
(* the node holds the properties of the prefix *)
Definition home (pre : string) n : Prop := node_local n = pre \/ serves pre n.

(* the document has settled on one node, at index i, for the properties of the namespace: a node with a model
   for it, or a raw node and there is no model to be had for it *)
Definition settled d (ns : namespace) (i : nat) n : Prop :=
  first_at (home (ns_name ns)) (d_nodes d) i n /\
  (serves (ns_name ns) n \/
   n_model n = None /\ (forall n', In n' (d_nodes d) -> ~ serves (ns_name ns) n') /\ new_model ops ns = None).

(* the flags SetPath works with *)
Definition effective (flags : Z) : Z := if (flags =? 0)%Z then DEFAULT else flags.
Definition any_of (flags : Z) (l : list Z) : Prop := exists f, In f l /\ on flags f = true.
Definition none_of (flags : Z) (l : list Z) : Prop := forall f, In f l -> on flags f = false.

(* runs of SyncToXMP: the models of the nodes with the given indices, in that order, all successful *)
Inductive sync_run : doc M -> list nat -> doc M -> Prop :=
| sr_nil d : sync_run d [] d
| sr_cons d i n m d1 l d2 :
    nth_error (d_nodes d) i = Some n -> n_model n = Some m ->
    mo_sync_to ops m i d = (d1, Ok tt) -> sync_run d1 l d2 -> sync_run d (i :: l) d2.

(* SyncToXMP neither adds nor removes models while the loop runs (it may change their contents, and append
   nodes), as far as the nodes present at the start are concerned *)
Definition sync_keeps_models : Prop :=
  forall m i d d' e j, mo_sync_to ops m i d = (d', e) -> j < List.length (d_nodes d) ->
    (model_at d' j = None <-> model_at d j = None) /\ List.length (d_nodes d) <= List.length (d_nodes d').

(* SyncToXMP does not clear the dirty flag *)
Definition sync_keeps_dirty : Prop :=
  forall m i d d' e, mo_sync_to ops m i d = (d', e) -> d_dirty d = true -> d_dirty d' = true.

(* the indices below k of the nodes with a model *)
Definition model_indices d : list nat :=
  List.filter (fun i => match model_at d i with Some _ => true | None => false end) (seq 0 (List.length (d_nodes d))).

End S.

(* Sync may copy the value sv over the value dv *)
Definition sync_may (sv dv : string) (flags : Z) : Prop :=
  sv <> dv /\ (sv = "" -> on flags DELETE = true) /\ (dv = "" -> on flags CREATE = true) /\
  (dv <> "" -> any_of flags [REPLACE; DELETE; APPEND; UNIQUE]).

(* the outcome of a call that the flags do not allow *)
Definition refused (flags : Z) (r : result unit) : Prop :=
  if on flags NOFAIL then r = Ok tt else exists e, r = Err e.

(* the path names a property, or nothing may be deleted *)
Definition keeps_node (p : path) (flags : Z) : Prop := path_len p <> 0 \/ on flags DELETE = false.

(* SetPath may replace the value old *)
Definition allowed (old : string) (flags : Z) : Prop :=
  (old = "" -> any_of flags [CREATE; APPEND; UNIQUE]) /\ (old <> "" -> any_of flags [REPLACE; DELETE; APPEND; UNIQUE]).

Section L.
Context {M : Type}.
Variable ops : model_ops M.

(* the model answers a successful assignment with the assigned value, and a property it does not have stays
   unknown to it *)
Definition answers (m : M) (p : path) (v : string) (flags : Z) : Prop :=
  forall m' e, mo_set ops m p v flags = (m', e) ->
    (forall s, mo_can ops m' s = mo_can ops m s) /\
    (e = Ok tt -> mo_get ops m' p = Ok v) /\
    (is_not_found e = true -> is_not_found (mo_get ops m' p) = true).

(* reading the path fails with error e *)
Definition reading_fails (p : path) (e : string) : Prop :=
  (exists m, mo_get ops m p = Err e) \/ (exists n, node_get_path (mo_can ops) n p = Err e).

(* an assignment does not change the namespaces a model stands for *)
Definition keeps_can : Prop :=
  forall m p v flags m' e, mo_set ops m p v flags = (m', e) -> forall s, mo_can ops m' s = mo_can ops m s.

(* every path of the list has its place in the document; place v is the index of the node *)
Definition placed (reg : registry) (d : doc M) (flags : Z) (place : path_value -> nat) (l : list path_value) : Prop :=
  forall v, In v l -> keeps_node (pv_path v) flags /\
    exists ns n, path_namespace reg d (pv_path v) = Some ns /\ settled ops d ns (place v) n.

End L.
