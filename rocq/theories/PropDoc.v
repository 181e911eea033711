(* Property theorems C15, C25-C33: documents, for every type M of models with any behaviour [ops] *)
From Coq Require Import List Arith ZArith Bool Ascii String Lia.
From Verif Require Import GoStr GoStrFacts GoMap Names PathM SyncFlags PVList RegistryM NodeM FilterM DocM Spec SpecBasic SpecNode
  NodeFacts NodeMoreFacts NodePathFacts NodeListFacts SpecDoc DocFacts DocPathFacts DocSetFacts DocSyncFacts SortFacts.
From Verif Require BasicFacts.
Import ListNotations.
Local Open Scope string_scope.

(* ---- a concrete model type for the examples: two text properties of one namespace ------------- *)
Definition toy : Type := (string * (string * string))%type.                (* prefix, title, format *)
Definition toy_ns (pre : string) : namespace := Namespace pre ("uri:" ++ pre) (Some 0).
Definition toy_get (m : toy) (p : path) : result string :=
  let '(pre, (t, f)) := m in
  if strip_prefix p =? "title" then Ok t else if strip_prefix p =? "format" then Ok f else Err errNotFound.
Definition toy_set (m : toy) (p : path) (v : string) (flags : Z) : toy * result unit :=
  let '(pre, (t, f)) := m in
  if strip_prefix p =? "title" then ((pre, (v, f)), Ok tt)
  else if strip_prefix p =? "format" then ((pre, (t, v)), Ok tt) else (m, Err errNotFound).
Definition toy_ops : model_ops toy := {|
  mo_can := fun m s => s =? fst m;
  mo_namespaces := fun m => [toy_ns (fst m)];
  mo_new := fun k s => Some (s, ("", ""));
  mo_get := toy_get;
  mo_set := toy_set;
  mo_list := fun m => Ok [PathValue (fst m ++ ":title") "" (fst (snd m)) 0];
  mo_sync_to := fun m i d => (d, Ok tt)
|}.

Definition dc := toy_ns "dc".
Definition pdf := toy_ns "pdf".
Definition toy_reg : registry := registry_of [(dc, []); (pdf, [])].
Definition empty_doc : doc toy := Doc "" [] false "" [] [].
Definition top (pre : string) (m : option toy) (v : string) (l : list (node toy)) : node toy := Node (XName "" pre) [] m v l.
Definition rawleaf (name v : string) : node toy := Node (new_name name) [] None v [].

(* ---- C15 ---- *)
(* missing for the full property: with an include list, nodes whose prefix no namespace of the document or the
   registry has are kept (refuted below) *)
Theorem C15_filter_keeps_exactly_partial {M} reg f (d : doc M) : reg_ok reg -> plain_top d ->
  (f_include f = [] \/
   forall n, In n (d_nodes d) -> mentions (f_include f) (x_local (n_name n)) \/ knows reg d (x_local (n_name n))) ->
  let (d', changed) := filter_apply reg f d in
  (exists t, (forall n, t n = true <-> passes f n) /\ d_nodes d' = filter t (d_nodes d)) /\
  (changed = true <-> List.length (d_nodes d') < List.length (d_nodes d)) /\
  (changed = false -> d' = d) /\
  filter_apply reg f d' = (d', false).
Proof.
  intros H1 H2 H3. pose proof (filter_apply_spec reg f d H1 H2 H3) as K. pose proof (filter_again reg f d H1 H2 H3) as K5.
  destruct (filter_apply reg f d) as [d' b]. cbv zeta in K. cbn [fst snd] in *. destruct K as (K1 & K2 & K3 & K4). split; [|split; [auto|split; [|auto]]].
  - exists (passb f). split; auto. intros n. apply passb_iff.
  - intros ->. apply K4. assert (List.length (d_nodes d') <= List.length (d_nodes d)) by (rewrite K1; apply filter_length_le).
    assert (~ List.length (d_nodes d') < List.length (d_nodes d)) by (rewrite <- K3; discriminate). lia.
Qed.
Print Assumptions C15_filter_keeps_exactly_partial.

Theorem C15_unknown_prefix_is_kept_refuted : exists reg f (d : doc toy), reg_ok reg /\ plain_top d /\
  exists n, In n (d_nodes (fst (filter_apply reg f d))) /\ ~ passes f n.
Proof.
  exists toy_reg, (Filter [dc] []), (with_nodes empty_doc [top "dc" None "" []; top "zz" None "" []]).
  split; [|split].
  - apply reg_ok_of_history.
  - split; [repeat constructor|]. repeat constructor; cbn; intuition discriminate.
  - exists (top "zz" None "" []). split; [vm_compute; auto|]. intros [[H|(ns & [<-|[]] & H)] _]; discriminate.
Qed.
Print Assumptions C15_unknown_prefix_is_kept_refuted.

Example C15_hyps :
  let d := with_nodes empty_doc [top "dc" None "" []; top "pdf" None "" []; top "zz" None "" []] in
  reg_ok toy_reg /\ plain_top d /\
  d_nodes (fst (filter_apply toy_reg (Filter [] [pdf]) d)) = [top "dc" None "" []; top "zz" None "" []] /\
  snd (filter_apply toy_reg (Filter [] [pdf]) d) = true.
Proof.
  split; [apply reg_ok_of_history|]. split; [|split; reflexivity].
  split; [repeat constructor|]. repeat constructor; cbn; intuition discriminate.
Qed.

(* ---- C25 ---- *)
Theorem C25_make_model {M} (ops : model_ops M) d ns d' r : make_model ops d ns = (d', r) ->
  (exists i n, r = Ok i /\ d' = d /\ first_at (serves ops (ns_name ns)) (d_nodes d) i n) \/
  ((forall n, In n (d_nodes d) -> ~ serves ops (ns_name ns) n) /\
   ((exists m, new_model ops ns = Some m /\ r = Ok (List.length (d_nodes d)) /\
      d_nodes d' = (d_nodes d ++ [Node (XName "" (ns_name ns)) [] (Some m) "" []])%list /\ d_dirty d' = true /\
      d_toolkit d' = d_toolkit d /\ d_about d' = d_about d /\ d_ext d' = d_ext d /\
      (forall u, map_get (d_int d') u =
         match find (fun v => ns_uri v =? u) (rev (mo_namespaces ops m)) with Some v => Some v | None => map_get (d_int d) u end)) \/
    (new_model ops ns = None /\ d' = d /\ exists e, r = Err e))).
Proof. exact (make_model_spec ops d ns d' r). Qed.
Print Assumptions C25_make_model.

(* the returned model is then found, and making it again changes nothing *)
Theorem C25_make_model_again {M} (ops : model_ops M) d ns d' i : make_model ops d ns = (d', Ok i) ->
  (forall m, new_model ops ns = Some m -> mo_can ops m (ns_name ns) = true) ->
  doc_find_model ops d' ns = Some i /\ make_model ops d' ns = (d', Ok i).
Proof. exact (make_model_finds ops d ns d' i). Qed.
Print Assumptions C25_make_model_again.

(* AddModel puts the model on the node of its first namespace, or on a new node; nothing else changes *)
Theorem C25_add_model {M} (ops : model_ops M) d m d' r : add_model ops d m = (d', r) ->
  (mo_namespaces ops m = [] /\ d' = d /\ exists e, r = Err e) \/
  (exists ns0 rest i, mo_namespaces ops m = ns0 :: rest /\ r = Ok i /\ d_dirty d' = true /\
    d_toolkit d' = d_toolkit d /\ d_about d' = d_about d /\ d_ext d' = d_ext d /\
    (forall u, map_get (d_int d') u =
       match find (fun v => ns_uri v =? u) (rev (mo_namespaces ops m)) with Some v => Some v | None => map_get (d_int d) u end) /\
    ((exists n, first_at (home ops (ns_name ns0)) (d_nodes d) i n /\
        changed_at (d_nodes d) i n (Node (n_name n) (n_attrs n) (Some m) (n_value n) (n_nodes n)) (d_nodes d')) \/
     ((forall n, In n (d_nodes d) -> ~ home ops (ns_name ns0) n) /\ i = List.length (d_nodes d) /\
        d_nodes d' = (d_nodes d ++ [Node (XName "" (ns_name ns0)) [] (Some m) "" []])%list))).
Proof. exact (add_model_spec ops d m d' r). Qed.
Print Assumptions C25_add_model.

(* "AddModel never discards another model's data" fails: the model of the node is replaced *)
Theorem C25_add_model_discards_refuted : exists (d d' : doc toy) (m : toy) i,
  doc_get_path toy_ops toy_reg d "dc:title" = Ok "kept" /\ add_model toy_ops d m = (d', Ok i) /\
  doc_get_path toy_ops toy_reg d' "dc:title" = Ok "".
Proof.
  exists (with_nodes empty_doc [top "dc" (Some ("dc", ("kept", ""))) "" []]). eexists. exists ("dc", ("", "")), 0.
  split; [vm_compute; reflexivity|]. split; vm_compute; reflexivity.
Qed.
Print Assumptions C25_add_model_discards_refuted.

Example C25_hyps :
  let (d, r) := make_model toy_ops (with_nodes empty_doc [top "pdf" None "x" []]) dc in
  r = Ok 1 /\ d_nodes d = [top "pdf" None "x" []; top "dc" (Some ("dc", ("", ""))) "" []] /\ d_dirty d = true /\
  (forall m, new_model toy_ops dc = Some m -> mo_can toy_ops m (ns_name dc) = true) /\
  fst (make_model toy_ops d dc) = d.
Proof. vm_compute. repeat split. intros m H; inversion H; reflexivity. Qed.

(* ---- C26 ---- *)
Theorem C26_remove_namespace {M} (d : doc M) ns :
  (exists i n pre post d',
     first_at (fun n => node_local n = ns_name ns) (d_nodes d) i n /\
     d_nodes d = (pre ++ n :: post)%list /\ List.length pre = i /\
     remove_namespace d ns = (d', true) /\ d_nodes d' = (pre ++ post)%list /\ d_dirty d' = true /\
     d_toolkit d' = d_toolkit d /\ d_about d' = d_about d /\
     (forall u, map_get (d_int d') u = if u =? ns_uri ns then None else map_get (d_int d) u) /\
     (forall u, map_get (d_ext d') u = if u =? ns_uri ns then None else map_get (d_ext d) u)) \/
  ((forall n, In n (d_nodes d) -> node_local n <> ns_name ns) /\ remove_namespace d ns = (d, false)).
Proof.
  destruct (remove_namespace_spec d ns) as [(i & n & pre & post & d' & H1 & H2 & H3 & _ & H)|(H1 & H2 & _)].
  - left. exists i, n, pre, post, d'. auto.
  - right. auto.
Qed.
Print Assumptions C26_remove_namespace.

Example C26_hyps :
  let d := with_nodes empty_doc [top "pdf" None "x" []; top "dc" None "y" []; top "dc" None "z" []] in
  d_nodes (fst (remove_namespace d dc)) = [top "pdf" None "x" []; top "dc" None "z" []] /\
  remove_namespace d (toy_ns "tiff") = (d, false).
Proof. split; reflexivity. Qed.

(* ---- C27 ---- *)
Theorem C27_sync_before_export {M} (ops : model_ops M) d d' e : sync_keeps_models ops -> sync_keeps_dirty ops ->
  sync_to_xmp ops d = (d', e) ->
  (d_dirty d = false /\ d' = d /\ e = Ok tt) \/
  (d_dirty d = true /\
   ((e = Ok tt /\ exists d1, sync_run ops d (model_indices d) d1 /\ d' = with_dirty d1 false) \/
    (e <> Ok tt /\ d_dirty d' = true /\
     exists done j rest d1 n m, model_indices d = (done ++ j :: rest)%list /\ sync_run ops d done d1 /\
       nth_error (d_nodes d1) j = Some n /\ n_model n = Some m /\ mo_sync_to ops m j d1 = (d', e)))).
Proof. intros Hk Hd. exact (sync_to_xmp_spec ops Hk Hd d d' e). Qed.
Print Assumptions C27_sync_before_export.

(* a successful SetPath changes nothing or marks the document; missing for the full property: NOFAIL (refuted
   below), and paths whose namespace has no node yet *)
Theorem C27_set_path_marks_partial {M} (ops : model_ops M) reg d p x v fl ns i n reg' d' :
  path_namespace reg d p = Some ns -> settled ops d ns i n -> keeps_node p (effective fl) ->
  on (effective fl) NOFAIL = false ->
  doc_set_path ops reg d (PathValue p x v fl) = (reg', d', Ok tt) -> d' = d \/ d_dirty d' = true.
Proof. exact (set_ok_dirty ops reg d p x v fl ns i n reg' d'). Qed.
Print Assumptions C27_set_path_marks_partial.

(* with NOFAIL a raw node can be added without marking the document *)
Theorem C27_nofail_set_path_does_not_mark_refuted : exists (d d' : doc toy) reg p x fl reg',
  on fl NOFAIL = true /\ doc_set_path toy_ops reg d (PathValue p x "" fl) = (reg', d', Ok tt) /\
  d_dirty d' = false /\ List.length (d_nodes d') = S (List.length (d_nodes d)).
Proof.
  exists empty_doc, (with_nodes empty_doc [top "zz" None "" []]), empty_registry, "zz:a", "uri:zz", (Z.lor CREATE NOFAIL).
  eexists. split; [reflexivity|]. split; [vm_compute; reflexivity|]. split; reflexivity.
Qed.
Print Assumptions C27_nofail_set_path_does_not_mark_refuted.

Example C27_hyps : sync_keeps_models toy_ops /\ sync_keeps_dirty toy_ops /\
  let d := with_dirty (with_nodes empty_doc [top "dc" (Some ("dc", ("a", ""))) "" []; top "pdf" None "" []; top "x" (Some ("x", ("", ""))) "" []]) true in
  model_indices d = [0; 2] /\ sync_to_xmp toy_ops d = (with_dirty d false, Ok tt).
Proof.
  split; [|split; [|split; reflexivity]].
  - intros m i d d' e j H Hj. inversion H; subst. split; [tauto|lia].
  - intros m i d d' e H. inversion H; subst. auto.
Qed.

(* ---- C28 ---- *)
Theorem C28_empty_value_needs_delete {M} (ops : model_ops M) reg d p x fl ns i n :
  path_namespace reg d p = Some ns -> settled ops d ns i n ->
  on (effective fl) DELETE = false ->
  exists r, doc_set_path ops reg d (PathValue p x "" fl) = (reg, d, r) /\ refused (effective fl) r.
Proof. exact (set_empty_needs_delete ops reg d p x fl ns i n). Qed.
Print Assumptions C28_empty_value_needs_delete.

Theorem C28_existing_value_needs_update_flag {M} (ops : model_ops M) reg d p x v fl ns i n old :
  path_namespace reg d p = Some ns -> settled ops d ns i n ->
  doc_get_path ops reg d p = Ok old -> old <> "" -> old <> v ->
  none_of (effective fl) [REPLACE; DELETE; APPEND; UNIQUE] ->
  exists r, doc_set_path ops reg d (PathValue p x v fl) = (reg, d, r) /\ refused (effective fl) r.
Proof.
  intros H1 H2 H3 H4 H5 H6. eapply set_blocked; eauto. right. apply H6. cbn; auto.
Qed.
Print Assumptions C28_existing_value_needs_update_flag.

Theorem C28_new_value_needs_create_flag {M} (ops : model_ops M) reg d p x v fl ns i n :
  path_namespace reg d p = Some ns -> settled ops d ns i n ->
  doc_get_path ops reg d p = Ok "" -> v <> "" -> keeps_node p (effective fl) ->
  none_of (effective fl) [CREATE; APPEND; UNIQUE] ->
  exists r, doc_set_path ops reg d (PathValue p x v fl) = (reg, d, r) /\ refused (effective fl) r.
Proof. intros H1 H2 H3 H4 H5 H6. eapply set_blocked; eauto. Qed.
Print Assumptions C28_new_value_needs_create_flag.

Theorem C28_new_namespace_needs_create {M} (ops : model_ops M) reg d p x v fl ns :
  path_namespace reg d p = Some ns ->
  (forall n, In n (d_nodes d) -> ~ home ops (ns_name ns) n) -> on (effective fl) CREATE = false ->
  exists r, doc_set_path ops reg d (PathValue p x v fl) = (reg, d, r) /\ refused (effective fl) r.
Proof. exact (set_absent_needs_create ops reg d p x v fl ns). Qed.
Print Assumptions C28_new_namespace_needs_create.

Theorem C28_equal_value_is_no_change {M} (ops : model_ops M) reg d p x v fl ns i n :
  path_namespace reg d p = Some ns -> settled ops d ns i n ->
  doc_get_path ops reg d p = Ok v -> (v = "" -> on (effective fl) DELETE = true) -> keeps_node p (effective fl) ->
  doc_set_path ops reg d (PathValue p x v fl) = (reg, d, Ok tt).
Proof. exact (set_equal_noop ops reg d p x v fl ns i n). Qed.
Print Assumptions C28_equal_value_is_no_change.

(* ... and when the flags allow it, the assignment is carried out *)
Theorem C28_allowed_change_reaches_the_model {M} (ops : model_ops M) reg d p x v fl ns i n old m m' :
  path_namespace reg d p = Some ns -> settled ops d ns i n ->
  doc_get_path ops reg d p = Ok old -> old <> v -> (v = "" -> on (effective fl) DELETE = true) -> keeps_node p (effective fl) ->
  allowed old (effective fl) -> n_model n = Some m -> mo_set ops m p v (effective fl) = (m', Ok tt) ->
  exists d', doc_set_path ops reg d (PathValue p x v fl) = (reg, d', Ok tt) /\ d_dirty d' = true /\
    changed_at (d_nodes d) i n (set_model n (Some m')) (d_nodes d') /\
    d_int d' = d_int d /\ d_ext d' = d_ext d.
Proof. exact (set_allowed_model ops reg d p x v fl ns i n old m m'). Qed.
Print Assumptions C28_allowed_change_reaches_the_model.

Theorem C28_allowed_change_reaches_the_raw_node {M} (ops : model_ops M) reg d p x v fl ns i n old n' :
  path_namespace reg d p = Some ns -> settled ops d ns i n ->
  doc_get_path ops reg d p = Ok old -> old <> v -> (v = "" -> on (effective fl) DELETE = true) -> keeps_node p (effective fl) ->
  allowed old (effective fl) -> n_model n = None -> node_set_path (mo_can ops) reg n p v (effective fl) = (n', Ok tt) ->
  exists d', doc_set_path ops reg d (PathValue p x v fl) = (reg, d', Ok tt) /\ d_dirty d' = true /\
    changed_at (d_nodes d) i n n' (d_nodes d') /\ d_int d' = d_int d /\ d_ext d' = d_ext d.
Proof. exact (set_allowed_raw ops reg d p x v fl ns i n old n'). Qed.
Print Assumptions C28_allowed_change_reaches_the_raw_node.

(* the path names a property: only then is the flag check what decides. A path that is just a namespace, with
   the default flags and a value, removes the namespace with all its properties *)
Theorem C28_namespace_path_removes_everything_refuted : exists (d d' : doc toy) reg,
  doc_get_path toy_ops reg d "zz:title" = Ok "text" /\
  doc_set_path toy_ops reg d (PathValue "zz:" "" "value" 0) = (reg, d', Ok tt) /\
  d_nodes d' = [].
Proof.
  exists (with_nodes empty_doc [top "zz" None "" [rawleaf "zz:title" "text"]]).
  eexists. exists (registry_of [(Namespace "zz" "uri:zz" None, [])]). split; [vm_compute; reflexivity|]. split; vm_compute; reflexivity.
Qed.
Print Assumptions C28_namespace_path_removes_everything_refuted.

Definition some_doc : doc toy :=
  with_nodes empty_doc [top "dc" (Some ("dc", ("old", ""))) "" [rawleaf "dc:extra" "e"]; top "zz" None "" [rawleaf "zz:title" "text"]].
Definition some_reg : registry := registry_of [(dc, []); (Namespace "zz" "uri:zz" None, [])].
Lemma some_settled_dc : settled toy_ops some_doc dc 0 (top "dc" (Some ("dc", ("old", ""))) "" [rawleaf "dc:extra" "e"]).
Proof.
  split.
  - split; [reflexivity|]. split; [now left|]. intros j y Hj. lia.
  - left. eexists. split; reflexivity.
Qed.
Lemma some_settled_zz : settled toy_ops some_doc (Namespace "zz" "uri:zz" None) 1 (top "zz" None "" [rawleaf "zz:title" "text"]).
Proof.
  split.
  - split; [reflexivity|]. split; [now left|]. intros [|j] y Hj; [|lia]. intros H; inversion H; subst.
    intros [K|(m & K & K2)]; [discriminate|]. inversion K; subst. discriminate.
  - right. split; [reflexivity|]. split; [|reflexivity]. intros n [<-|[<-|[]]] (m & Hm & Hc); [|discriminate].
    inversion Hm; subst. discriminate.
Qed.
Example C28_hyps :
  path_namespace some_reg some_doc "dc:title" = Some dc /\ path_namespace some_reg some_doc "zz:title" = Some (Namespace "zz" "uri:zz" None) /\
  doc_get_path toy_ops some_reg some_doc "dc:title" = Ok "old" /\ doc_get_path toy_ops some_reg some_doc "dc:extra" = Ok "e" /\
  doc_get_path toy_ops some_reg some_doc "zz:title" = Ok "text" /\
  snd (doc_set_path toy_ops some_reg some_doc (PathValue "dc:title" "" "new" CREATE)) = Err "update flag required" /\
  snd (doc_set_path toy_ops some_reg some_doc (PathValue "dc:title" "" "new" REPLACE)) = Ok tt /\
  none_of (effective CREATE) [REPLACE; DELETE; APPEND; UNIQUE] /\ allowed "old" (effective REPLACE) /\ keeps_node "dc:title" (effective 0).
Proof.
  do 7 (split; [vm_compute; reflexivity|]). split; [|split].
  - intros f [<-|[<-|[<-|[<-|[]]]]]; reflexivity.
  - split; [discriminate|]. intros _. exists REPLACE. split; [now left|reflexivity].
  - left. vm_compute. discriminate.
Qed.

(* ---- C29 ---- *)
(* missing for the full property: NOFAIL (an error is hidden), namespaces without a node, raw properties that
   are not addressable in the sense of C20 *)
Theorem C29_set_then_get_partial {M} (ops : model_ops M) reg d p x v fl ns i n reg' d' segs :
  path_namespace reg d p = Some ns -> settled ops d ns i n ->
  p = render (ns_name ns) segs -> Forall pseg_ok segs -> no_char ":" (ns_name ns) -> segs <> [] ->
  v <> "" -> on (effective fl) (Z.lor REPLACE CREATE) = true -> on (effective fl) NOFAIL = false ->
  (forall m, n_model n = Some m -> answers ops m p v (effective fl)) ->
  raw (set_model n None) -> addressable reg (effective fl) (set_model n None) segs ->
  doc_set_path ops reg d (PathValue p x v fl) = (reg', d', Ok tt) ->
  reg' = reg /\ doc_get_path ops reg d' p = Ok v.
Proof. exact (set_then_get_doc ops reg d p x v fl ns i n reg' d' segs). Qed.
Print Assumptions C29_set_then_get_partial.

(* with NOFAIL success does not mean that the value was stored *)
Theorem C29_nofail_refuted : exists (d : doc toy) reg p v fl,
  v <> "" /\ on fl (Z.lor REPLACE CREATE) = true /\ doc_set_path toy_ops reg d (PathValue p "" v fl) = (reg, d, Ok tt) /\
  doc_get_path toy_ops reg d p <> Ok v.
Proof.
  exists some_doc, some_reg, "dc:title", "new", (Z.lor CREATE NOFAIL). split; [discriminate|]. split; [reflexivity|].
  split; [vm_compute; reflexivity|vm_compute; discriminate].
Qed.
Print Assumptions C29_nofail_refuted.

Example C29_hyps :
  let n := top "zz" None "" [rawleaf "zz:title" "text"] in
  let segs := [PSeg None "title" SAll] in
  render "zz" segs = "zz:title" /\ Forall pseg_ok segs /\ raw (set_model n None) /\
  addressable some_reg (effective 0) (set_model n None) segs /\
  (forall m : toy, answers toy_ops m "dc:title" "new" (effective 0)) /\
  snd (doc_set_path toy_ops some_reg some_doc (PathValue "zz:title" "" "new" 0)) = Ok tt.
Proof.
  cbv zeta. split; [reflexivity|]. split; [|split; [apply rawb_ok; reflexivity|split; [|split; [|vm_compute; reflexivity]]]].
  - repeat constructor; try discriminate.
  - eapply addr_prop with (c := rawleaf "zz:title" "text").
    + intros _ a Ha. destruct Ha.
    + split; [reflexivity|]. exists [], []. split; [reflexivity|]. constructor.
    + reflexivity.
    + intros (x0 & H0 & _). discriminate H0.
    + constructor.
  - intros [pre [t f]] m' e H. inversion H; subst. repeat split; auto; discriminate.
Qed.

(* ---- C30 ---- *)
(* an error under NOFAIL comes from reading the old value, from an unknown namespace, or from a malformed path *)
Theorem C30_nofail_errors_partial {M} (ops : model_ops M) reg d p x v fl reg' d' e : on fl NOFAIL = true ->
  doc_set_path ops reg d (PathValue p x v fl) = (reg', d', Err e) ->
  is_xmp_path p = false \/ (path_namespace reg d p = None /\ x = "") \/ reading_fails ops p e.
Proof. exact (set_nofail ops reg d p x v fl reg' d' e). Qed.
Print Assumptions C30_nofail_errors_partial.

(* both happen for syntactically valid paths *)
Theorem C30_unknown_namespace_refuted : exists (d : doc toy) reg p v fl e,
  is_xmp_path p = true /\ on fl NOFAIL = true /\ snd (doc_set_path toy_ops reg d (PathValue p "" v fl)) = Err e.
Proof. exists empty_doc, empty_registry, "zz:a", "v", (Z.lor CREATE NOFAIL), "invalid path". repeat split. Qed.
Print Assumptions C30_unknown_namespace_refuted.
Theorem C30_reading_fails_refuted : exists (d : doc toy) reg p v fl e,
  is_xmp_path p = true /\ path_namespace reg d p <> None /\ on fl NOFAIL = true /\
  snd (doc_set_path toy_ops reg d (PathValue p "" v fl)) = Err e.
Proof.
  exists some_doc, some_reg, "zz:title[-2]", "v", (Z.lor CREATE NOFAIL). eexists. split; [reflexivity|]. split; [vm_compute; discriminate|].
  split; [reflexivity|vm_compute; reflexivity].
Qed.
Print Assumptions C30_reading_fails_refuted.
Example C30_hyps :
  snd (doc_set_path toy_ops some_reg some_doc (PathValue "dc:title" "" "" (Z.lor CREATE NOFAIL))) = Ok tt /\
  snd (doc_set_path toy_ops some_reg some_doc (PathValue "dc:title" "" "" CREATE)) = Err "delete flag required" /\
  snd (doc_set_path toy_ops some_reg some_doc (PathValue "zz:title[-2]" "" "v" (Z.lor CREATE NOFAIL))) <> Ok tt.
Proof. split; [reflexivity|]. split; [reflexivity|vm_compute; discriminate]. Qed.

(* ---- C31 ---- *)
(* missing for the full property: namespaces without a node (refuted below), a model or raw node that is left
   half changed by its own failing assignment *)
Theorem C31_failing_set_path_changes_nothing_partial {M} (ops : model_ops M) reg d p x v fl ns i n reg' d' e :
  path_namespace reg d p = Some ns -> settled ops d ns i n -> keeps_node p (effective fl) ->
  (forall m m' s, n_model n = Some m -> mo_set ops m p v (effective fl) = (m', Err s) -> m' = m) ->
  (forall n' s, node_set_path (mo_can ops) reg n p v (effective fl) = (n', Err s) -> n' = n) ->
  doc_set_path ops reg d (PathValue p x v fl) = (reg', d', Err e) -> reg' = reg /\ d' = d.
Proof. exact (set_error_unchanged ops reg d p x v fl ns i n reg' d' e). Qed.
Print Assumptions C31_failing_set_path_changes_nothing_partial.

(* whatever happens, only the node of the namespace is touched *)
Theorem C31_only_the_node_of_the_namespace {M} (ops : model_ops M) reg d p x v fl ns i n reg' d' r :
  path_namespace reg d p = Some ns -> settled ops d ns i n -> keeps_node p (effective fl) ->
  doc_set_path ops reg d (PathValue p x v fl) = (reg', d', r) ->
  reg' = reg /\ d_int d' = d_int d /\ d_ext d' = d_ext d /\ d_about d' = d_about d /\ d_toolkit d' = d_toolkit d /\
  exists n', n_name n' = n_name n /\ changed_at (d_nodes d) i n n' (d_nodes d').
Proof. exact (set_settled_frame ops reg d p x v fl ns i n reg' d' r). Qed.
Print Assumptions C31_only_the_node_of_the_namespace.

Theorem C31_failing_create_adds_a_model_refuted : exists (d d' : doc toy) reg p fl e,
  doc_set_path toy_ops reg d (PathValue p "" "" fl) = (reg, d', Err e) /\
  d_nodes d = [] /\ List.length (d_nodes d') = 1 /\ d_dirty d = false /\ d_dirty d' = true.
Proof.
  exists empty_doc. eexists. exists toy_reg, "dc:title", CREATE. eexists. split; [vm_compute; reflexivity|]. repeat split.
Qed.
Print Assumptions C31_failing_create_adds_a_model_refuted.

Example C31_hyps :
  (forall m m' s fl, mo_set toy_ops m "dc:title" "v" fl = (m', Err s) -> m' = m) /\
  (exists e, doc_set_path toy_ops some_reg some_doc (PathValue "dc:title" "" "v" CREATE) = (some_reg, some_doc, Err e)).
Proof.
  split; [intros [pre [t f]] m' s fl H; inversion H|]. eexists. vm_compute. reflexivity.
Qed.

(* ---- C32 ---- *)
(* [endpoints]: the source path is served by the model sm of node si, the destination path by dm of node di *)
Theorem C32_sync_copies_when_allowed {M} (ops : model_ops M) reg d sp dp fl conv si sn sm di dn dm sv dv dm' e :
  endpoints ops reg d sp dp si sn sm di dn dm ->
  mo_get ops sm sp = Ok sv -> mo_get ops dm dp = Ok dv -> sync_may sv dv (effective fl) ->
  mo_set ops dm dp (match conv with Some f => f sv | None => sv end) (effective fl) = (dm', e) ->
  exists d', doc_sync ops reg d sp dp fl None conv = (d', nofail (effective fl) e) /\
    changed_at (d_nodes d) di dn (set_model dn (Some dm')) (d_nodes d') /\
    d_int d' = d_int d /\ d_ext d' = d_ext d /\ d_about d' = d_about d /\ d_toolkit d' = d_toolkit d /\
    (e = Ok tt -> d_dirty d' = true) /\ (e <> Ok tt -> d_dirty d' = d_dirty d).
Proof. exact (sync_allowed ops reg d sp dp fl conv si sn sm di dn dm sv dv dm' e). Qed.
Print Assumptions C32_sync_copies_when_allowed.

Theorem C32_sync_does_nothing_when_not_allowed {M} (ops : model_ops M) reg d sp dp fl conv si sn sm di dn dm sv dv :
  endpoints ops reg d sp dp si sn sm di dn dm ->
  mo_get ops sm sp = Ok sv -> mo_get ops dm dp = Ok dv -> ~ sync_may sv dv (effective fl) ->
  doc_sync ops reg d sp dp fl None conv = (d, Ok tt).
Proof. exact (sync_not_allowed ops reg d sp dp fl conv si sn sm di dn dm sv dv). Qed.
Print Assumptions C32_sync_does_nothing_when_not_allowed.

Theorem C32_sync_source_is_kept {M} (ops : model_ops M) reg d sp dp fl conv si sn sm di dn dm :
  endpoints ops reg d sp dp si sn sm di dn dm -> si <> di ->
  nth_error (d_nodes (fst (doc_sync ops reg d sp dp fl None conv))) si = Some sn.
Proof. exact (sync_source_kept ops reg d sp dp fl conv si sn sm di dn dm). Qed.
Print Assumptions C32_sync_source_is_kept.

Theorem C32_sync_reading_error {M} (ops : model_ops M) reg d sp dp fl conv si sn sm di dn dm e :
  endpoints ops reg d sp dp si sn sm di dn dm ->
  mo_get ops sm sp = Err e \/ (exists sv, mo_get ops sm sp = Ok sv /\ mo_get ops dm dp = Err e) ->
  doc_sync ops reg d sp dp fl None conv = (d, if on (effective fl) NOFAIL then Ok tt else Err e).
Proof. exact (sync_read_error ops reg d sp dp fl conv si sn sm di dn dm e). Qed.
Print Assumptions C32_sync_reading_error.

(* with the destination model passed in by the caller: the same, if its first namespace is that of the path *)
Theorem C32_sync_given_model {M} (ops : model_ops M) reg d sp dp fl conv si sn sm di dn dm dns rest :
  endpoints ops reg d sp dp si sn sm di dn dm -> mo_namespaces ops dm = dns :: rest ->
  doc_sync ops reg d sp dp fl (Some di) conv =
  if namespace_prefix dp =? ns_name dns then doc_sync ops reg d sp dp fl None conv else (d, Ok tt).
Proof.
  intros He Hn. rewrite (sync_endpoints_given _ _ _ _ _ _ _ _ _ _ _ _ _ _ _ He Hn). now rewrite (sync_endpoints _ _ _ _ _ _ _ _ _ _ _ _ _ He).
Qed.
Print Assumptions C32_sync_given_model.

Theorem C32_sync_without_source_or_destination {M} (ops : model_ops M) reg d sp dp fl conv :
  path_namespace reg d sp = None \/ path_namespace reg d dp = None \/
  (exists sns, path_namespace reg d sp = Some sns /\ forall n, In n (d_nodes d) -> ~ serves ops (ns_name sns) n) \/
  (exists dns, path_namespace reg d dp = Some dns /\ (forall n, In n (d_nodes d) -> ~ serves ops (ns_name dns) n) /\ on (effective fl) CREATE = false) ->
  doc_sync ops reg d sp dp fl None conv = (d, Ok tt).
Proof.
  intros [H|[H|[(ns & H1 & H2)|(ns & H1 & H2 & H3)]]].
  - apply sync_unknown. now left.
  - apply sync_unknown. now right.
  - eapply sync_no_source; eauto.
  - eapply sync_no_dest; eauto.
Qed.
Print Assumptions C32_sync_without_source_or_destination.

(* a destination namespace without a model type, with CREATE: Sync panics *)
Theorem C32_sync_without_model_type_refuted : exists (d : doc toy) reg sp dp fl,
  path_namespace reg d dp <> None /\ on fl CREATE = true /\ snd (doc_sync toy_ops reg d sp dp fl None None) = Panic.
Proof.
  exists some_doc, some_reg, "dc:title", "zz:title", CREATE. split; [vm_compute; discriminate|]. split; reflexivity.
Qed.
Print Assumptions C32_sync_without_model_type_refuted.

Definition two_models : doc toy :=
  with_nodes empty_doc [top "dc" (Some ("dc", ("src", ""))) "" []; top "pdf" (Some ("pdf", ("", "dst"))) "" []].
Example C32_hyps :
  endpoints toy_ops toy_reg two_models "dc:title" "pdf:format" 0 (top "dc" (Some ("dc", ("src", ""))) "" []) ("dc", ("src", ""))
    1 (top "pdf" (Some ("pdf", ("", "dst"))) "" []) ("pdf", ("", "dst")) /\
  sync_may "src" "dst" (effective REPLACE) /\ ~ sync_may "src" "dst" (effective CREATE) /\ ~ sync_may "" "dst" (effective REPLACE) /\
  ~ sync_may "src" "" (effective APPEND) /\
  doc_get_path toy_ops toy_reg (fst (doc_sync toy_ops toy_reg two_models "dc:title" "pdf:format" REPLACE None (Some to_lower))) "pdf:format" = Ok "src".
Proof.
  split; [|split; [|split; [|split; [|split; [|reflexivity]]]]].
  - split; [|split; [reflexivity|split; [|reflexivity]]].
    + exists dc. split; [reflexivity|]. split; [reflexivity|]. split; [eexists; split; reflexivity|intros; lia].
    + exists pdf. split; [reflexivity|]. split; [reflexivity|]. split; [eexists; split; reflexivity|].
      intros [|j] y Hj; [|lia]. intros H; inversion H; subst. intros (m & Hm & Hc). inversion Hm; subst. discriminate.
  - repeat split; try discriminate. intros _. exists REPLACE. split; [now left|reflexivity].
  - intros (_ & _ & _ & H). destruct (H ltac:(discriminate)) as (f & [<-|[<-|[<-|[<-|[]]]]] & Hf); discriminate.
  - intros (_ & H & _). discriminate (H eq_refl).
  - intros (_ & _ & H & _). discriminate (H eq_refl).
Qed.

(* ---- C33 ---- *)
Theorem C33_merge_source {M} (ops : model_ops M) sortf reg d b fl reg' d' b' r : doc_merge ops sortf reg d b fl = (reg', d', b', r) ->
  d_dirty b = false -> b' = b.
Proof. intros H. exact (proj2 (merge_source ops reg d b fl sortf reg' d' b' r H)). Qed.
Print Assumptions C33_merge_source.

(* merging values that are there already changes no node *)
Theorem C33_merge_of_present_values_partial {M} (ops : model_ops M) sortf reg d b fl l place : fl <> 0%Z ->
  snd (doc_list_paths ops sortf reg b) = Ok l ->
  let b' := fst (doc_list_paths ops sortf reg b) in
  let d1 := with_maps d (copy_map (d_int b') (d_int d)) (copy_map (d_ext b') (d_ext d)) in
  placed ops reg d1 fl place l ->
  (forall v, In v l -> pv_value v <> "" /\ doc_get_path ops reg d1 (pv_path v) = Ok (pv_value v)) ->
  doc_merge ops sortf reg d b fl = (reg, set_dirty d1, b', Ok tt).
Proof.
  intros Hf Hl b' d1 Hp Hv. unfold doc_merge. subst d1 b'. destruct (doc_list_paths ops sortf reg b) as [b' r]. cbn [fst snd] in *. subst r.
  now rewrite (merge_loop_same ops _ _ _ _ _ Hf Hp Hv).
Qed.
Print Assumptions C33_merge_of_present_values_partial.

(* merging does not touch the nodes of the namespaces that the merged document has no paths in *)
Theorem C33_merge_keeps_other_namespaces_partial {M} (ops : model_ops M) sortf reg d b fl l place reg' d' b' r : fl <> 0%Z -> keeps_can ops ->
  snd (doc_list_paths ops sortf reg b) = Ok l ->
  placed ops reg (with_maps d (copy_map (d_int b') (d_int d)) (copy_map (d_ext b') (d_ext d))) fl place l ->
  doc_merge ops sortf reg d b fl = (reg', d', b', r) ->
  forall j, (forall v, In v l -> place v <> j) -> nth_error (d_nodes d') j = nth_error (d_nodes d) j.
Proof.
  intros Hf Hc Hl Hp H j Hj. unfold doc_merge in H. destruct (doc_list_paths ops sortf reg b) as [b1 r1]. cbn [fst snd] in *. subst r1.
  destruct (merge_loop ops reg (with_maps d (copy_map (d_int b1) (d_int d)) (copy_map (d_ext b1) (d_ext d))) l fl) as [[reg2 d2] e2] eqn:E.
  assert (b1 = b') by (destruct e2; inversion H; auto). subst b1.
  pose proof (merge_loop_others ops Hc reg fl place Hf l _ _ _ _ Hp E j Hj) as K. destruct e2; inversion H; subst; exact K.
Qed.
Print Assumptions C33_merge_keeps_other_namespaces_partial.

(* "keeps every non-empty simple value" fails for raw nodes: UNIQUE lets SetPath overwrite them *)
Theorem C33_merge_overwrites_refuted : exists (d b d' b' : doc toy) reg reg',
  doc_get_path toy_ops reg d "zz:title" = Ok "text" /\ doc_get_path toy_ops reg b "zz:title" = Ok "other" /\
  doc_merge toy_ops isort reg d b MERGE = (reg', d', b', Ok tt) /\
  doc_get_path toy_ops reg' d' "zz:title" = Ok "other".
Proof.
  exists (with_nodes empty_doc [top "zz" None "" [rawleaf "zz:title" "text"]]), (with_nodes empty_doc [top "zz" None "" [rawleaf "zz:title" "other"]]).
  eexists; eexists. exists (registry_of [(Namespace "zz" "uri:zz" None, [])]). eexists.
  split; [vm_compute; reflexivity|]. split; [vm_compute; reflexivity|]. split; vm_compute; reflexivity.
Qed.
Print Assumptions C33_merge_overwrites_refuted.

Example C33_hyps : sorts isort /\ keeps_can toy_ops /\
  let b := with_nodes empty_doc [top "zz" None "" [rawleaf "zz:title" "text"]] in
  snd (doc_list_paths toy_ops isort some_reg b) = Ok [PathValue "zz:title" "" "text" 0] /\
  (forall v, In v [PathValue "zz:title" "" "text" 0] -> pv_value v <> "" /\ doc_get_path toy_ops some_reg some_doc (pv_path v) = Ok (pv_value v)) /\
  placed toy_ops some_reg some_doc MERGE (fun _ => 1) [PathValue "zz:title" "" "text" 0].
Proof.
  split; [apply isort_sorts|]. split; [|split; [|split]].
  - intros [pre [t f]] p v fl m' e. cbn. destruct (strip_prefix p =? "title"); [|destruct (strip_prefix p =? "format")]; intros H; inversion H; reflexivity.
  - vm_compute. reflexivity.
  - intros v [<-|[]]. split; [discriminate|vm_compute; reflexivity].
  - intros v [<-|[]]. split; [left; vm_compute; discriminate|]. eexists; eexists. split; [vm_compute; reflexivity|]. exact some_settled_zz.
Qed.

(* ---- C74 ---- *)
(* the model of node n, or its own attributes and elements, list this entry *)
Definition lists {M} (ops : model_ops M) sortf reg (n : node M) (v : path_value) : Prop :=
  (exists m a, n_model n = Some m /\ mo_list ops m = Ok a /\ In v a)
  \/ In v (list_paths reg sortf n (new_path (node_local n) [])).
Lemma nodes_listed {M} (ops : model_ops M) sortf reg nl : forall l, list_nodes ops sortf reg nl = Ok l ->
  forall v, In v l <-> exists n, In n nl /\ lists ops sortf reg n v.
Proof.
  induction nl as [|n nl IH]; intros l; cbn [list_nodes]; [intros [= <-] v; split; [intros []|intros (? & [] & _)]|].
  assert (G : forall l1 t, list_nodes ops sortf reg nl = Ok t -> (forall v, In v l1 <-> lists ops sortf reg n v) ->
              forall v, In v (l1 ++ t)%list <-> exists n', In n' (n :: nl) /\ lists ops sortf reg n' v).
  { intros l1 t E H v. rewrite in_app_iff, H, (IH t E). split.
    - intros [K|(n' & K1 & K2)]; [exists n; split; [now left|exact K]|exists n'; split; [now right|exact K2]].
    - intros (n' & [<-|K1] & K2); [now left|right; exists n'; auto]. }
  destruct (n_model n) as [m|] eqn:Em.
  - destruct (mo_list ops m) as [a| |] eqn:Ea; try discriminate. destruct (list_nodes ops sortf reg nl) as [t| |]; try discriminate. intros [= <-]. rewrite List.app_assoc.
    apply G; [reflexivity|]. intros v. rewrite in_app_iff. unfold lists. split.
    + intros [K|K]; [left; exists m, a; auto|now right].
    + intros [(m' & a' & K1 & K2 & K3)|K]; [|now right]. rewrite Em in K1. injection K1 as <-. rewrite Ea in K2. injection K2 as <-. now left.
  - destruct (list_nodes ops sortf reg nl) as [t| |]; try discriminate. intros [= <-]. apply G; [reflexivity|]. intros v. unfold lists. split; [auto|].
    intros [(m' & a' & K1 & _)|K]; [congruence|exact K].
Qed.
Lemma first_exists (l : list path_value) : forall v, In v l -> exists w, first_by pv_path w l /\ pv_path w = pv_path v.
Proof.
  induction l as [|a l IH]; intros v [].
  - subst a. exists v. split; [exists [], l; split; [reflexivity|constructor]|reflexivity].
  - destruct (String.eqb_spec (pv_path a) (pv_path v)) as [E|E]; [exists a; split; [exists [], l; split; [reflexivity|constructor]|exact E]|].
    destruct (IH v H) as (w & (pre & post & -> & F) & Ew). exists w. split; [|exact Ew]. exists (a :: pre), post. split; [reflexivity|]. constructor; [congruence|exact F].
Qed.
(* ListPaths: what the nodes of the document list after the synchronisation, every path once, in order *)
Theorem C74_document_listing {M} (ops : model_ops M) sortf reg d l : sorts sortf ->
  snd (doc_list_paths ops sortf reg d) = Ok l ->
  Sorted.StronglySorted path_le l /\ NoDup (map pv_path l)
  /\ (forall v, In v l -> pv_path v <> "" /\ exists n, In n (d_nodes (fst (doc_list_paths ops sortf reg d))) /\ lists ops sortf reg n v)
  /\ (forall n v, In n (d_nodes (fst (doc_list_paths ops sortf reg d))) -> lists ops sortf reg n v -> pv_path v <> "" ->
        exists w, In w l /\ pv_path w = pv_path v).
Proof.
  intros Hs. unfold doc_list_paths. destruct (sync_to_xmp ops d) as [d' [u| |]]; cbn [fst snd]; try discriminate.
  destruct (list_nodes ops sortf reg (d_nodes d')) as [t| |] eqn:E; try discriminate. intros [= <-].
  destruct (Hs t) as [P S]. destruct (BasicFacts.unique_spec (sortf t) S) as (U1 & U2 & U3). assert (L := nodes_listed ops sortf reg _ t E).
  split; [|split; [exact U2|split]].
  - clear -U1 S. revert U1. generalize (pvl_unique (sortf t)). intros l0 U1. revert S. induction U1 as [|x l m H IH|x l m H IH]; intros S; [constructor| |]; inversion S as [|? ? S1 S2]; subst; [|auto]. constructor; [auto|].
    clear -H S2. induction H; auto; inversion S2; subst; auto.
  - intros v Hv. apply U3 in Hv. destruct Hv as [V1 (pre & post & V2 & _)]. split; [exact V1|]. apply L.
    apply (Permutation.Permutation_in (l := sortf t)); [exact P|]. rewrite V2. apply in_or_app. right. now left.
  - intros n v Hn Hv Ne. assert (K : In v (sortf t)).
    { apply (Permutation.Permutation_in (l := t)); [now apply Permutation.Permutation_sym|]. apply L. eauto. }
    destruct (first_exists _ v K) as (w & W1 & W2). exists w. split; [|exact W2]. apply U3. split; [now rewrite W2|exact W1].
Qed.
Print Assumptions C74_document_listing.
Example C74_hyps :
  let d := with_nodes empty_doc [top "zz" None "" [rawleaf "zz:title" "text"; rawleaf "zz:alt" "t"]; top "dc" (Some ("dc", ("a", "b"))) "" [rawleaf "dc:title" "old"]] in
  sorts isort /\ snd (doc_list_paths toy_ops isort some_reg d)
    = Ok [PathValue "dc:title" "" "a" 0; PathValue "zz:alt" "" "t" 0; PathValue "zz:title" "" "text" 0].
Proof. split; [apply isort_sorts|vm_compute; reflexivity]. Qed.
