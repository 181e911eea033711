(* C33 on models with simple values: Merge adds what is missing, keeps what is there, and merging again changes nothing *)
From Coq Require Import List Arith ZArith Bool Ascii String Lia.
From Verif Require Import GoStr GoMap Names PathM SyncFlags PVList RegistryM NodeM FilterM DocM SpecBasic SpecNode SpecDoc SpecMerge MergeFacts ArrayM TypeM SpecTag TagFacts SpecType SpecTPath DecodeM
  ModelTypes SyncModelsM MergeTypedFacts SortFacts SpecTrip SpecLib SpecSync PropLib PropSync.
From Verif Require PropDoc.
Import ListNotations.
Local Open Scope string_scope.

(* Merge(b, MERGE) into d, if every path that b lists is answered in d by a model that holds simple values: it succeeds, what d says
   under a watched path stays (listed or not), and what d did not say and b lists, d says after it. Partial: raw nodes, lists and
   language alternatives are not models of this kind (see the refuted parts), and no namespace is missing in d. *)
Theorem C33_merge_values_partial {M} (ops : model_ops M) sortf reg good watched fits place d b b' l :
  sorts sortf -> keeps_can ops -> (forall i, holds_values ops (good i) (watched i) (fits i)) ->
  doc_list_paths ops sortf reg b = (b', Ok l) ->
  let d1 := with_namespaces_of b' d in
  (forall x, In x l -> seated ops reg good watched d1 (pv_path x) (place x) /\ fits (place x) (pv_path x) (pv_value x) /\ pv_value x <> "") ->
  exists d', doc_merge ops sortf reg d b MERGE = (reg, d', b', Ok tt)
    /\ (forall q i s, seated ops reg good watched d1 q i -> doc_get_path ops reg d1 q = Ok s -> s <> "" -> doc_get_path ops reg d' q = Ok s)
    /\ (forall x, In x l -> doc_get_path ops reg d1 (pv_path x) = Ok "" -> doc_get_path ops reg d' (pv_path x) = Ok (pv_value x))
    /\ (forall q i, seated ops reg good watched d1 q i -> ~ In q (map pv_path l) -> doc_get_path ops reg d' q = doc_get_path ops reg d1 q).
Proof.
  intros Hs Hc Hh Hl d1 Hr. assert (N : NoDup (map pv_path l)).
  { assert (K : snd (doc_list_paths ops sortf reg b) = Ok l) by now rewrite Hl. exact (proj1 (proj2 (PropDoc.C74_document_listing ops sortf reg b l Hs K))). }
  destruct (loop_values ops reg good watched fits Hc Hh place l d1 Hr N) as (d2 & E & _ & _ & _ & P & A & F).
  exists (set_dirty d2). split; [|split; [|split]].
  - unfold doc_merge. rewrite Hl. fold (with_namespaces_of b' d). change (with_namespaces_of b' d) with d1. now rewrite E.
  - exact P.
  - exact A.
  - exact F.
Qed.
Print Assumptions C33_merge_values_partial.

(* Merging the same document again succeeds and changes no node. *)
Theorem C33_merge_again_partial {M} (ops : model_ops M) sortf reg good watched fits place d b b' l d' :
  sorts sortf -> keeps_can ops -> (forall i, holds_values ops (good i) (watched i) (fits i)) ->
  doc_list_paths ops sortf reg b = (b', Ok l) -> maps_ok b' ->
  (forall x, In x l -> seated ops reg good watched (with_namespaces_of b' d) (pv_path x) (place x) /\ fits (place x) (pv_path x) (pv_value x) /\ pv_value x <> "") ->
  doc_merge ops sortf reg d b MERGE = (reg, d', b', Ok tt) -> doc_merge ops sortf reg d' b' MERGE = (reg, d', b', Ok tt).
Proof.
  intros Hs Hc Hh Hl [N1 N2] Hr Hm. assert (N : NoDup (map pv_path l)).
  { assert (K : snd (doc_list_paths ops sortf reg b) = Ok l) by now rewrite Hl. exact (proj1 (proj2 (PropDoc.C74_document_listing ops sortf reg b l Hs K))). }
  destruct (loop_values ops reg good watched fits Hc Hh place l _ Hr N) as (d2 & E & I1 & X1 & K & P & A & F).
  unfold doc_merge in Hm. rewrite Hl in Hm. fold (with_namespaces_of b' d) in Hm. rewrite E in Hm. assert (d' = set_dirty d2) by (inversion Hm; auto). subst d'. clear Hm.
  unfold doc_merge. rewrite (relist ops sortf reg b b' l Hl).
  assert (W : with_maps (set_dirty d2) (copy_map (d_int b') (d_int (set_dirty d2))) (copy_map (d_ext b') (d_ext (set_dirty d2))) = set_dirty d2).
  { destruct d2 as [t2 n2 dr2 a2 i2 x2]. cbn in I1, X1. subst i2 x2. cbn. rewrite (copy_twice _ _ N1), (copy_twice _ _ N2). reflexivity. }
  rewrite W. rewrite (loop_present ops reg good watched fits Hh place l (set_dirty d2)).
  - destruct d2; reflexivity.
  - intros x Hx. destruct (Hr x Hx) as (S1 & S2 & S3). split; [exact (K _ _ S1)|auto].
  - intros x Hx. destruct (Hr x Hx) as (S1 & S2 & S3). destruct (seated_reads ops reg good watched fits Hh _ _ _ S1) as (s & Es).
    destruct (string_dec s "") as [->|Hne].
    + exists (pv_value x). split; [exact S3|exact (A x Hx Es)].
    + exists s. split; auto. exact (P _ _ _ S1 Es Hne).
Qed.
Print Assumptions C33_merge_again_partial.

(* The models of the library are models of this kind, for their properties of simple types. *)
Theorem C33_library_models_partial X kinds growth sortf conv (k : mkind X) :
  holds_values (lib_ops kinds growth sortf conv) (simple_state k) (simple_path k) (SpecMerge.simple_text k)
  /\ keeps_can (lib_ops kinds growth sortf conv).
Proof.
  split.
  - destruct (typed_holds kinds growth sortf k) as [A B C]. split; [exact A|exact B|exact C].
  - exact (base_keeps_can kinds growth sortf).
Qed.
Print Assumptions C33_library_models_partial.

(* ---- an example: source is there, format is missing, coverage stays ------------------------------------ *)
Definition m_reg := registry_of lib_h.
Definition to_dc := fill (k_dc_DublinCore plain) [("dc:source", VStr "mine"); ("dc:coverage", VStr "world")].
Definition from_dc := fill (k_dc_DublinCore plain) [("dc:source", VStr "theirs"); ("dc:format", VStr "image/png")].
Definition to_doc := doc_of [("dc", to_dc)].
Definition from_doc := doc_of [("dc", from_dc)].
Definition from_list := [PathValue "dc:format" "" "image/png" 0; PathValue "dc:source" "" "theirs" 0].
Definition k_dc := k_dc_DublinCore plain.

Lemma str_texts s : s <> "" -> trim_space s = s -> storable_text (X := unit) TStr s.
Proof.
  intros Hs Ht. split; auto. intros v _. exists (VStr s). split; [rewrite <- Ht at 2; constructor|]. split; [constructor|]. split; [|discriminate].
  destruct s; [congruence|reflexivity].
Qed.
Definition is_property (fs : list (finfo * ty unit)) (p n : string) (j : nat) : bool :=
  match nth_error fs j with
  | Some (f, TStr) => (f_name f =? p ++ ":" ++ n) && negb (f_omit f) && negb (f_empty f)
                      && forallb (fun g => negb (strip_prefix (f_name (fst g)) =? n)) (firstn j fs)
  | _ => false
  end.
Lemma property_from fs p n j : no_char ":" p -> plain_name n -> is_property fs p n j = true -> exists f, property fs p n f TStr.
Proof.
  intros Hp Hn. unfold is_property. destruct (nth_error fs j) as [[f t]|] eqn:E; [|discriminate]. destruct t; try discriminate.
  intros H. apply andb_true_iff in H as [H F]. apply andb_true_iff in H as [H He]. apply andb_true_iff in H as [H Ho].
  apply String.eqb_eq in H. apply negb_true_iff in He. apply negb_true_iff in Ho. exists f. split; [|auto 10].
  exists (firstn j fs), (skipn (S j) fs). split.
  - clear - E. revert j E. induction fs as [|g fs IH]; intros [|j] E; cbn in *; try discriminate; [congruence|]. now rewrite <- IH.
  - apply Forall_forall. intros g Hg K. rewrite forallb_forall in F. specialize (F g Hg). apply TagFacts.local_iff in K. rewrite K, String.eqb_refl in F. discriminate.
Qed.
Definition position (fs : list (finfo * ty unit)) (n : string) : nat :=
  match find (fun x => strip_prefix (f_name (fst (snd x))) =? n) (combine (seq 0 (List.length fs)) fs) with Some (j, _) => j | None => 0 end.
Lemma dc_property n t : In (n, t) [("format", TStr); ("source", TStr); ("coverage", TStr)] ->
  exists f, property (X := unit) (k_fields k_dc) "dc" n f t.
Proof.
  intros [E|[E|[E|[]]]]; inversion E; subst n t; clear E.
  - apply (property_from _ _ _ (position (k_fields k_dc) "format")); [reflexivity|repeat split; (reflexivity || discriminate)|vm_compute; reflexivity].
  - apply (property_from _ _ _ (position (k_fields k_dc) "source")); [reflexivity|repeat split; (reflexivity || discriminate)|vm_compute; reflexivity].
  - apply (property_from _ _ _ (position (k_fields k_dc) "coverage")); [reflexivity|repeat split; (reflexivity || discriminate)|vm_compute; reflexivity].
Qed.
Definition fine (x : finfo * ty unit * gval unit) : bool :=
  let '(_, t, v) := x in negb (single t) || blank_value t v || match t, v with TStr, VStr (String _ _) => true | _, _ => false end.
Lemma fine_state k vs : List.length vs = List.length (k_fields k) -> forallb fine (combine (k_fields k) vs) = true -> simple_state k (TModel k vs).
Proof.
  intros L H. split; [reflexivity|]. split; [exact L|]. cbn [tm_vals]. intros j f t v Hj Hs Hv.
  assert (K : fine (f, t, v) = true).
  { rewrite forallb_forall in H. apply H. clear - Hj Hv. revert vs j Hj Hv. generalize (k_fields k). induction l as [|g fs IH]; intros [|w vs] [|j] Hj Hv; try discriminate.
    - cbn in Hj, Hv. inversion Hj; inversion Hv; subst. now left.
    - right. exact (IH vs j Hj Hv). }
  unfold fine in K. rewrite Hs in K. cbn [negb orb] in K. apply orb_true_iff in K as [K|K]; [now left|right].
  destruct t; try discriminate. destruct v as [s| | | | | | | |]; try discriminate. destruct s as [|c s]; try discriminate.
  split; [discriminate|]. exists (String c s). split; [discriminate|constructor].
Qed.
Lemma to_state : simple_state k_dc to_dc.
Proof. apply (fine_state k_dc); vm_compute; reflexivity. Qed.
Lemma dc_settled m : tm_kind m = k_dc -> settled lops (with_namespaces_of (with_dirty from_doc false) (doc_of [("dc", m)])) ns_dc_NsDc 0 (lib_node "dc" m).
Proof.
  intros Hk. split.
  - split; [reflexivity|]. split; [now left|]. intros j y Hj. lia.
  - left. exists m. split; [reflexivity|]. cbn. unfold tm_can. rewrite Hk. reflexivity.
Qed.
Lemma dc_seated n (t : ty unit) : In (n, t) [("format", TStr); ("source", TStr); ("coverage", TStr)] ->
  seated lops m_reg (fun _ => simple_state k_dc) (fun _ => simple_path k_dc) (with_namespaces_of (with_dirty from_doc false) to_doc) (path_of "dc" n) 0.
Proof.
  intros H. split.
  - destruct (dc_property n t H) as (f & P). exists "dc", n, f, t. auto.
  - exists ns_dc_NsDc, (lib_node "dc" to_dc), to_dc. split.
    + destruct H as [E|[E|[E|[]]]]; inversion E; subst n t; vm_compute; reflexivity.
    + split; [apply dc_settled; reflexivity|]. split; [reflexivity|apply to_state].
Qed.
Example C33_values_hyps :
  doc_list_paths lops isort m_reg from_doc = (with_dirty from_doc false, Ok from_list) /\ maps_ok (with_dirty from_doc false)
  /\ (forall x, In x from_list ->
        seated lops m_reg (fun _ => simple_state k_dc) (fun _ => simple_path k_dc) (with_namespaces_of (with_dirty from_doc false) to_doc) (pv_path x) 0
        /\ SpecMerge.simple_text k_dc (pv_path x) (pv_value x) /\ pv_value x <> "")
  /\ (let d' := snd (fst (fst (doc_merge lops isort m_reg to_doc from_doc MERGE))) in
      map (doc_get_path lops m_reg d') ["dc:format"; "dc:source"; "dc:coverage"] = [Ok "image/png"; Ok "mine"; Ok "world"]).
Proof.
  split; [|split; [split; constructor|split]].
  - assert (E : fst (doc_list_paths lops isort m_reg from_doc) = with_dirty from_doc false) by reflexivity.
    assert (F : snd (doc_list_paths lops isort m_reg from_doc) = Ok from_list) by (vm_compute; reflexivity).
    rewrite <- E, <- F. destruct (doc_list_paths lops isort m_reg from_doc); reflexivity.
  - intros x [<-|[<-|[]]]; cbn [pv_path pv_value].
    + split; [apply (dc_seated "format" TStr); cbn; auto|]. split; [|discriminate].
      destruct (dc_property "format" TStr (or_introl eq_refl)) as (f & P). exists "dc", "format", f, TStr. split; [exact P|]. split; [reflexivity|]. apply str_texts; [discriminate|reflexivity].
    + split; [apply (dc_seated "source" TStr); cbn; auto|]. split; [|discriminate].
      destruct (dc_property "source" TStr (or_intror (or_introl eq_refl))) as (f & P). exists "dc", "source", f, TStr. split; [exact P|]. split; [reflexivity|]. apply str_texts; [discriminate|reflexivity].
  - vm_compute. reflexivity.
Qed.

(* Not so lists: the creators of d are replaced by those of b, and if b has fewer, both are mixed. *)
Definition by_doc (l : list string) := doc_of [("dc", fill (k_dc_DublinCore plain) [("dc:creator", VArr (map VStr l) [])])].
Theorem C33_merge_replaces_lists_refuted : exists d d' b', 
  library_values plain no_den d /\ d = by_doc ["Ann"; "Bob"] /\
  doc_merge lops isort m_reg d (by_doc ["Eve"]) MERGE = (m_reg, d', b', Ok tt) /\
  map (doc_get_path lops m_reg d) ["dc:creator[0]"; "dc:creator[1]"] = [Ok "Ann"; Ok "Bob"] /\
  map (doc_get_path lops m_reg d') ["dc:creator[0]"; "dc:creator[1]"] = [Ok "Eve"; Ok "Bob"].
Proof.
  exists (by_doc ["Ann"; "Bob"]). set (r := doc_merge lops isort m_reg (by_doc ["Ann"; "Bob"]) (by_doc ["Eve"]) MERGE).
  exists (snd (fst (fst r))), (snd (fst r)). split; [apply Forall_cons; [a_model (k_dc_DublinCore plain)|apply Forall_nil]|]. split; [reflexivity|].
  split; [|split; vm_compute; reflexivity].
  assert (E : fst (fst (fst r)) = m_reg) by reflexivity. assert (F : snd r = Ok tt) by (vm_compute; reflexivity).
  rewrite <- E, <- F. fold r. destruct r as [[[? ?] ?] ?]. reflexivity.
Qed.
Print Assumptions C33_merge_replaces_lists_refuted.
