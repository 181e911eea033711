(* C33: Merge into a document that does not have all namespaces of the other one: the models are added *)
From Coq Require Import List Arith ZArith Bool Ascii String Lia.
From Verif Require Import GoStr GoMap Names PathM SyncFlags PVList RegistryM NodeM FilterM DocM SpecBasic SpecNode SpecDoc SpecMerge SpecCreate SpecMergeNew MergeFacts MergeNewFacts ArrayM TypeM SpecTag SpecType SpecTPath DecodeM
  ModelTypes SyncModelsM SortFacts SpecTrip SpecLib SpecSync PropLib PropSync PropMerge.
From Verif Require PropDoc.
Import ListNotations.
Local Open Scope string_scope.

(* Merge(b, MERGE) into d. Every path that b lists is either answered in d by a model that holds simple values, or d has nothing for
   its namespace and a new model of this kind answers it. Then Merge succeeds, what d says stays, what d did not say and b lists, d
   says after it, and what b does not list, d answers as before. Partial: raw nodes, lists and language alternatives are not models
   of this kind (see C33_merge_replaces_lists_refuted). *)
Theorem C33_merge_new_partial {M K} (ops : model_ops M) sortf reg W (good : K -> M -> Prop) watched fits d b b' l :
  sorts sortf -> keeps_can ops -> (forall k, holds_values ops (good k) (watched k) (fits k)) ->
  one_meaning W -> (forall k k' m, good k m -> good k' m -> k = k') ->
  doc_list_paths ops sortf reg b = (b', Ok l) ->
  let d1 := with_namespaces_of b' d in
  known reg W d1 -> models_apart ops W l ->
  (forall x, In x l -> pv_value x <> "" /\ exists k, fits k (pv_path x) (pv_value x)
     /\ (held ops reg good watched d1 (pv_path x) k \/ exists ns m, absent ops reg W good watched d1 (pv_path x) ns m k)) ->
  exists d', doc_merge ops sortf reg d b MERGE = (reg, d', b', Ok tt)
    /\ (forall q k s, held ops reg good watched d1 q k -> doc_get_path ops reg d1 q = Ok s -> s <> "" -> doc_get_path ops reg d' q = Ok s)
    /\ (forall x, In x l -> silent ops reg W good watched d1 (pv_path x) -> doc_get_path ops reg d' (pv_path x) = Ok (pv_value x))
    /\ (forall q k, held ops reg good watched d1 q k -> ~ In q (map pv_path l) -> doc_get_path ops reg d' q = doc_get_path ops reg d1 q).
Proof.
  intros Hs Hc Hh Ho Hex Hl d1 Kd Ha Hr. assert (N : NoDup (map pv_path l)).
  { assert (K0 : snd (doc_list_paths ops sortf reg b) = Ok l) by now rewrite Hl. exact (proj1 (proj2 (PropDoc.C74_document_listing ops sortf reg b l Hs K0))). }
  destruct (loop_new ops reg W good watched fits Hc Hh Ho Hex l d1 Kd Hr Ha N) as (d2 & E & _ & _ & _ & _ & P & A & F & _).
  exists (set_dirty d2). split; [|split; [|split]].
  - unfold doc_merge. rewrite Hl. fold (with_namespaces_of b' d). change (with_namespaces_of b' d) with d1. now rewrite E.
  - exact P.
  - exact A.
  - exact F.
Qed.
Print Assumptions C33_merge_new_partial.

(* Merging again changes nothing: no model is added twice. *)
Theorem C33_merge_new_again_partial {M K} (ops : model_ops M) sortf reg W (good : K -> M -> Prop) watched fits d b b' l d' :
  sorts sortf -> keeps_can ops -> (forall k, holds_values ops (good k) (watched k) (fits k)) ->
  one_meaning W -> (forall k k' m, good k m -> good k' m -> k = k') ->
  doc_list_paths ops sortf reg b = (b', Ok l) -> maps_ok b' ->
  known reg W (with_namespaces_of b' d) -> models_apart ops W l ->
  (forall x, In x l -> pv_value x <> "" /\ exists k, fits k (pv_path x) (pv_value x)
     /\ (held ops reg good watched (with_namespaces_of b' d) (pv_path x) k \/ exists ns m, absent ops reg W good watched (with_namespaces_of b' d) (pv_path x) ns m k)) ->
  doc_merge ops sortf reg d b MERGE = (reg, d', b', Ok tt) -> doc_merge ops sortf reg d' b' MERGE = (reg, d', b', Ok tt).
Proof.
  intros Hs Hc Hh Ho Hex Hl [N1 N2] Kd Ha Hr Hm. assert (N : NoDup (map pv_path l)).
  { assert (K0 : snd (doc_list_paths ops sortf reg b) = Ok l) by now rewrite Hl. exact (proj1 (proj2 (PropDoc.C74_document_listing ops sortf reg b l Hs K0))). }
  destruct (loop_new ops reg W good watched fits Hc Hh Ho Hex l _ Kd Hr Ha N) as (d2 & E & K2 & X2 & I2 & Kh & P & A & F & Hl2).
  unfold doc_merge in Hm. rewrite Hl in Hm. fold (with_namespaces_of b' d) in Hm. rewrite E in Hm. assert (d' = set_dirty d2) by (inversion Hm; auto). subst d'. clear Hm.
  unfold doc_merge. rewrite (relist ops sortf reg b b' l Hl).
  assert (W2 : with_maps (set_dirty d2) (copy_map (d_int b') (d_int (set_dirty d2))) (copy_map (d_ext b') (d_ext (set_dirty d2))) = set_dirty d2).
  { destruct d2 as [t2 n2 dr2 a2 i2 x2]. cbn in I2, X2. subst x2. cbn. rewrite (copy_twice _ _ N2). assert (C : copy_map (d_int b') i2 = i2) by (apply copy_noop; intros u v I; apply I2; now apply copy_get). now rewrite C. }
  rewrite W2. rewrite (loop_there ops reg good watched fits Hh l (set_dirty d2)).
  - destruct d2; reflexivity.
  - intros x Hx. destruct (Hl2 x Hx) as (k & Hk & Fk). destruct (Hr x Hx) as (Vx & k0 & _ & Hk0).
    assert (S : silent ops reg W good watched (with_namespaces_of b' d) (pv_path x) \/ exists s, s <> "" /\ held ops reg good watched (with_namespaces_of b' d) (pv_path x) k0 /\ doc_get_path ops reg (with_namespaces_of b' d) (pv_path x) = Ok s).
    { destruct Hk0 as [H0|(ns & m & H0)]; [|left; right; eauto]. destruct (held_reads ops reg good watched fits Hh _ _ _ H0) as (s & Es). destruct (string_dec s "") as [->|Ns]; [left; left; eauto|right; eauto]. }
    destruct S as [S|(s & Ns & H0 & Es)].
    + exists k, (pv_value x). split; [exact Hk|]. split; [exact Fk|]. split; [exact Vx|exact (A x Hx S)].
    + exists k, s. split; [exact Hk|]. split; [exact Fk|]. split; [exact Ns|exact (P _ _ _ H0 Es Ns)].
Qed.
Print Assumptions C33_merge_new_again_partial.

(* ---- an example: the document has no Photo Mechanic data ------------------------------------------------- *)
Definition k_pm := k_pm_Photomechanic plain.
Definition both_doc := doc_of [("dc", from_dc); ("photomechanic", fill k_pm [("photomechanic:EditStatus", VStr "done"); ("photomechanic:CountryCode", VStr "NZL")])].
Definition both_reg := registry_of [(ns_dc_NsDc, []); (ns_pm_NsPm, [])].
Definition both_list := [PathValue "dc:format" "" "image/png" 0; PathValue "dc:source" "" "theirs" 0;
  PathValue "photomechanic:CountryCode" "" "NZL" 0; PathValue "photomechanic:EditStatus" "" "done" 0].
Definition both_ns (v : namespace) : Prop := v = ns_dc_NsDc \/ v = ns_pm_NsPm.
Definition both_to : doc (tmodel unit) := with_namespaces_of (with_dirty both_doc false) to_doc.

Lemma both_one : one_meaning both_ns.
Proof.
  split; [intros v [->| ->]; reflexivity|]. intros v w [->| ->] [->| ->] [H|H]; try reflexivity; discriminate H.
Qed.
Lemma both_known : known both_reg both_ns both_to.
Proof.
  split; [intros u v []|]. split; [intros u v []|]. intros p v. unfold get_namespace. change (r_names both_reg) with [("dc", ns_dc_NsDc); ("photomechanic", ns_pm_NsPm)]. cbn [map_get].
  destruct (eqb_spec "dc" p) as [<-|_]; [intros [= <-]; split; [reflexivity|now left]|]. destruct (eqb_spec "photomechanic" p) as [<-|_]; [intros [= <-]; split; [reflexivity|now right]|discriminate].
Qed.
Definition new_pm : tmodel unit := TModel k_pm (k_init k_pm).
Lemma new_dc_is m : new_model lops ns_dc_NsDc = Some m -> k_namespaces (tm_kind m) = [ns_dc_NsDc] /\ k_can (tm_kind m) "photomechanic" = false.
Proof. intros H. assert (E : new_model lops ns_dc_NsDc = Some (TModel k_dc (k_init k_dc))) by reflexivity. rewrite E in H. injection H as <-. split; reflexivity. Qed.
Lemma new_pm_is : new_model lops ns_pm_NsPm = Some new_pm. Proof. reflexivity. Qed.
Lemma both_apart l : models_apart lops both_ns l.
Proof.
  intros x y ns ns' m m' _ _ [->| ->] [->| ->] _ _ H H'; try (left; reflexivity); right.
  - apply new_dc_is in H as [E C]. rewrite new_pm_is in H'. injection H' as <-. intros v Hv. change (mo_namespaces lops new_pm) with [ns_pm_NsPm] in Hv. destruct Hv as [<-|[]].
    split; [|exact C]. change (~ In ns_pm_NsPm (k_namespaces (tm_kind m))). rewrite E. intros [K|[]]. discriminate K.
  - apply new_dc_is in H' as [E C]. rewrite new_pm_is in H. injection H as <-. intros v Hv. change (mo_namespaces lops m') with (k_namespaces (tm_kind m')) in Hv. rewrite E in Hv. destruct Hv as [<-|[]].
    split; [|reflexivity]. change (mo_namespaces lops new_pm) with [ns_pm_NsPm]. intros [K|[]]. discriminate K.
Qed.
Lemma pm_property n : n = "EditStatus" \/ n = "CountryCode" -> exists f, property (X := unit) (k_fields k_pm) "photomechanic" n f TStr.
Proof.
  intros [->| ->].
  - apply (property_from _ _ _ (position (k_fields k_pm) "EditStatus")); [reflexivity|repeat split; (reflexivity || discriminate)|vm_compute; reflexivity].
  - apply (property_from _ _ _ (position (k_fields k_pm) "CountryCode")); [reflexivity|repeat split; (reflexivity || discriminate)|vm_compute; reflexivity].
Qed.
Lemma pm_state : simple_state k_pm new_pm.
Proof. apply (fine_state k_pm); vm_compute; reflexivity. Qed.
Lemma pm_absent n : n = "EditStatus" \/ n = "CountryCode" -> absent lops both_reg both_ns simple_state simple_path both_to (path_of "photomechanic" n) ns_pm_NsPm new_pm k_pm.
Proof.
  intros Hn. split; [destruct Hn as [->| ->]; vm_compute; reflexivity|]. split; [exact new_pm_is|]. split; [reflexivity|]. change (mo_namespaces lops new_pm) with [ns_pm_NsPm].
  split; [now left|]. split; [repeat constructor; intros []|]. split; [repeat constructor; now right|]. split; [|split; [|split; [exact pm_state|]]].
  - intros v [<-|[]] y [<-|[]] [H|(m & [= <-] & H)]; discriminate H.
  - destruct (pm_property n Hn) as (f & P). exists "photomechanic", n, f, TStr. auto.
  - destruct Hn as [->| ->]; vm_compute; reflexivity.
Qed.
Lemma both_held n (t : ty unit) : In (n, t) [("format", TStr); ("source", TStr); ("coverage", TStr)] -> held lops both_reg simple_state simple_path both_to (path_of "dc" n) k_dc.
Proof.
  intros H. split.
  - destruct (dc_property n t H) as (f & P). exists "dc", n, f, t. auto.
  - exists 0, ns_dc_NsDc, (lib_node "dc" to_dc), to_dc. split.
    + destruct H as [E|[E|[E|[]]]]; inversion E; subst n t; vm_compute; reflexivity.
    + split; [|split; [reflexivity|apply to_state]]. split.
      * split; [reflexivity|]. split; [now left|]. intros j y Hj. lia.
      * left. exists to_dc. split; reflexivity.
Qed.
Lemma dc_text n (t : ty unit) s : In (n, t) [("format", TStr); ("source", TStr); ("coverage", TStr)] -> s <> "" -> trim_space s = s -> SpecMerge.simple_text k_dc (path_of "dc" n) s.
Proof.
  intros H Hs Ht. assert (t = TStr) by (destruct H as [E|[E|[E|[]]]]; inversion E; reflexivity). subst t.
  destruct (dc_property n TStr H) as (f & P). exists "dc", n, f, TStr. split; [exact P|]. split; [reflexivity|]. now apply str_texts.
Qed.
Lemma pm_text n s : n = "EditStatus" \/ n = "CountryCode" -> s <> "" -> trim_space s = s -> SpecMerge.simple_text k_pm (path_of "photomechanic" n) s.
Proof. intros H Hs Ht. destruct (pm_property n H) as (f & P). exists "photomechanic", n, f, TStr. split; [exact P|]. split; [reflexivity|]. now apply str_texts. Qed.

Example C33_new_hyps :
  (forall k k' (m : tmodel unit), simple_state k m -> simple_state k' m -> k = k') /\ one_meaning both_ns
  /\ doc_list_paths lops isort both_reg both_doc = (with_dirty both_doc false, Ok both_list) /\ maps_ok (with_dirty both_doc false)
  /\ known both_reg both_ns both_to /\ models_apart lops both_ns both_list
  /\ (forall x, In x both_list -> pv_value x <> "" /\ exists k, SpecMerge.simple_text k (pv_path x) (pv_value x)
        /\ (held lops both_reg simple_state simple_path both_to (pv_path x) k \/ exists ns m, absent lops both_reg both_ns simple_state simple_path both_to (pv_path x) ns m k))
  /\ (let d' := snd (fst (fst (doc_merge lops isort both_reg to_doc both_doc MERGE))) in
      map (doc_get_path lops both_reg d') ["dc:format"; "dc:source"; "dc:coverage"; "photomechanic:EditStatus"; "photomechanic:CountryCode"]
      = [Ok "image/png"; Ok "mine"; Ok "world"; Ok "done"; Ok "NZL"]).
Proof.
  split; [intros k k' m (A & _) (B & _); congruence|]. split; [exact both_one|]. split; [|split; [split; constructor|split; [exact both_known|split; [apply both_apart|split]]]].
  - assert (E : fst (doc_list_paths lops isort both_reg both_doc) = with_dirty both_doc false) by reflexivity.
    assert (F : snd (doc_list_paths lops isort both_reg both_doc) = Ok both_list) by (vm_compute; reflexivity).
    rewrite <- E, <- F. destruct (doc_list_paths lops isort both_reg both_doc); reflexivity.
  - intros x [<-|[<-|[<-|[<-|[]]]]]; cbn [pv_path pv_value]; (split; [discriminate|]).
    + exists k_dc. split; [apply (dc_text "format" TStr); [cbn; auto|discriminate|reflexivity]|]. left. apply (both_held "format" TStr). cbn; auto.
    + exists k_dc. split; [apply (dc_text "source" TStr); [cbn; auto|discriminate|reflexivity]|]. left. apply (both_held "source" TStr). cbn; auto.
    + exists k_pm. split; [apply (pm_text "CountryCode"); [auto|discriminate|reflexivity]|]. right. exists ns_pm_NsPm, new_pm. apply (pm_absent "CountryCode"). auto.
    + exists k_pm. split; [apply (pm_text "EditStatus"); [auto|discriminate|reflexivity]|]. right. exists ns_pm_NsPm, new_pm. apply (pm_absent "EditStatus"). auto.
  - vm_compute. reflexivity.
Qed.
