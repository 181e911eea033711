(* Documents that do not have the namespace of a path yet; used in PropCreate.v *)
From Coq Require Import List Arith ZArith Bool Ascii String.
From Verif Require Import GoStr GoMap Names PathM SyncFlags PVList RegistryM NodeM FilterM DocM Spec SpecBasic SpecDoc.
Import ListNotations.
Local Open Scope string_scope.

Section S.
Context {M : Type}.
Variable ops : model_ops M.

(* no node of the document holds properties of the prefix *)
Definition unused (d : doc M) (pre : string) : Prop := forall n, In n (d_nodes d) -> ~ home ops pre n.

(* a new model for the namespace: it stands for the namespace, none of its namespaces has another meaning in the document, and
   the document has no node for its first namespace, after which the node is named *)
Definition new_model_for (d : doc M) (ns : namespace) (m : M) : Prop :=
  new_model ops ns = Some m /\ mo_can ops m (ns_name ns) = true /\
  In ns (mo_namespaces ops m) /\ NoDup (map ns_uri (mo_namespaces ops m)) /\
  (forall v, In v (mo_namespaces ops m) -> ns_name v = ns_name ns -> v = ns) /\
  (forall v, In v (map snd (d_int d)) -> ns_name v = ns_name ns -> v = ns) /\
  exists ns0 rest, mo_namespaces ops m = ns0 :: rest /\ unused d (ns_name ns0).

(* d' is d with the node n at the end; the namespaces of d stay, unless those given share their URI *)
Definition extended (d : doc M) (n : node M) (added : list namespace) (d' : doc M) : Prop :=
  d_nodes d' = (d_nodes d ++ [n])%list /\ d_ext d' = d_ext d /\ d_about d' = d_about d /\ d_toolkit d' = d_toolkit d /\
  (forall u, map_get (d_int d') u = match find (fun v => ns_uri v =? u) added with Some v => Some v | None => map_get (d_int d) u end).
End S.
