(* Merge into documents that do not have all namespaces yet; used in PropMergeNew.v *)
From Coq Require Import List Arith ZArith Bool Ascii String.
From Verif Require Import GoStr GoMap Names PathM SyncFlags PVList RegistryM NodeM FilterM DocM Spec SpecBasic SpecDoc SpecCreate.
Import ListNotations.
Local Open Scope string_scope.

Section S.
Context {M K : Type}.
Variables (ops : model_ops M) (reg : registry) (W : namespace -> Prop).
Variables (good : K -> M -> Prop) (watched : K -> path -> Prop).

(* the namespaces W: each prefix and each URI has one meaning, and prefixes have no colon *)
Definition one_meaning : Prop :=
  (forall v, W v -> no_char ":" (ns_name v)) /\
  (forall v w, W v -> W w -> ns_name v = ns_name w \/ ns_uri v = ns_uri w -> v = w).
(* the document and the registry know only these, each filed under its URI or its name *)
Definition known (d : doc M) : Prop :=
  (forall u v, In (u, v) (d_int d) -> u = ns_uri v /\ W v) /\
  (forall u v, In (u, v) (d_ext d) -> W v) /\
  (forall p v, get_namespace reg p = Ok v -> ns_name v = p /\ W v).

(* the path is answered by a model of the document that is in a good state of kind k *)
Definition held (d : doc M) (p : path) (k : K) : Prop :=
  watched k p /\ exists i ns n m, path_namespace reg d p = Some ns /\ settled ops d ns i n /\ n_model n = Some m /\ good k m.
(* the document has nothing for the namespaces of the new model m, which answers the path and says nothing under it *)
Definition absent (d : doc M) (p : path) (ns : namespace) (m : M) (k : K) : Prop :=
  path_namespace reg d p = Some ns /\ new_model ops ns = Some m /\ mo_can ops m (ns_name ns) = true /\
  In ns (mo_namespaces ops m) /\ NoDup (map ns_uri (mo_namespaces ops m)) /\ Forall W (mo_namespaces ops m) /\
  (forall v, In v (mo_namespaces ops m) -> unused ops d (ns_name v)) /\
  watched k p /\ good k m /\ mo_get ops m p = Ok "".

(* new models for different prefixes of the list have nothing to do with each other *)
Definition apart (m m' : M) : Prop :=
  forall v, In v (mo_namespaces ops m') -> ~ In v (mo_namespaces ops m) /\ mo_can ops m (ns_name v) = false.
Definition models_apart (l : list path_value) : Prop :=
  forall x y ns ns' m m', In x l -> In y l -> W ns -> W ns' -> ns_name ns = namespace_prefix (pv_path x) -> ns_name ns' = namespace_prefix (pv_path y) ->
    new_model ops ns = Some m -> new_model ops ns' = Some m' -> ns = ns' \/ apart m m'.

(* the document says nothing under the path *)
Definition silent (d : doc M) (p : path) : Prop :=
  (exists k, held d p k) /\ doc_get_path ops reg d p = Ok "" \/ exists ns m k, absent d p ns m k.
End S.
