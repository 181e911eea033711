(* C127: identifiers known to other models are collected in xmp:Identifier *)
From Coq Require Import List Arith ZArith Bool Ascii String.
From Verif Require Import GoStr GoMap Names Semver RegistryM PathM PVList SyncFlags NodeM DocM TypeM TagM DecodeM TPathM ModelTypes SyncModelsM
  SpecDoc DocFacts IdSyncM SpecIdSync IdSyncFacts PropLib PropSync.
Import ListNotations.
Local Open Scope string_scope.

Lemma base_shape {X} (cdc : string -> codec X) d i n m l : has_ids cdc d i n m l ->
  exists vs sp, m = TModel (k_base cdc) vs /\ nth_error (d_nodes d) i = Some n /\ n_model n = Some (TModel (k_base cdc) vs) /\ nth_error vs 4 = Some (identifiers l sp).
Proof.
  intros (Hn & Hm & K & sp & G). destruct m as [k vs]. cbn [tm_kind] in K. subst k. exists vs, sp. do 3 (split; [auto|]).
  unfold get_field in G. cbn [tm_kind k_base k_fields tm_vals] in G. rewrite (id_index cdc), (id_field cdc) in G.
  destruct (nth_error vs 4); [|discriminate]. now injection G as ->.
Qed.
Lemma put_ids {X} (cdc : string -> codec X) vs w : put_field (TModel (k_base cdc) vs) "xmp:Identifier" w = TModel (k_base cdc) (set_nth 4 w vs).
Proof. unfold put_field. cbn [tm_kind k_base k_fields tm_vals]. rewrite (id_index cdc). reflexivity. Qed.

(* SyncModels keeps the identifiers the document has, in order, and appends those other models know, each with its mark and
   each once; nothing else in the document changes. An identifier other models know is there afterwards, unless the text
   of the first identifier is the value without the mark (see C127_same_text_refuted). *)
Theorem C127_collects_partial {X} (cdc : string -> codec X) kinds growth sortf reg d i n m l d' r :
  let ops := base_ops kinds growth sortf in
  reg_ok reg -> knows_xmp reg d -> safe_to_ask ops reg d -> sole_base d i -> has_ids cdc d i n m l ->
  sync_models kinds growth sortf reg d = (d', r) ->
  r = Ok tt /\ exists added sp,
    let l' := (l ++ map (fun t => Ident t "") added)%list in
    changed_at (d_nodes d) i n (set_model n (Some (put_field m "xmp:Identifier" (identifiers l' sp)))) (d_nodes d') /\
    d_toolkit d' = d_toolkit d /\ d_about d' = d_about d /\ d_int d' = d_int d /\ d_ext d' = d_ext d /\
    (added = [] -> d_dirty d' = d_dirty d) /\ (added <> [] -> d_dirty d' = true) /\
    NoDup added /\ (forall t, In t added -> ~ In t (map ident_text l)) /\
    (forall t, In t added -> exists p mark v, In (p, mark) id_sources /\ answers ops reg d p v /\ v <> "" /\ t = marked mark v) /\
    (forall p mark v, In (p, mark) id_sources -> answers ops reg d p v -> v <> "" ->
       In (marked mark v) (map ident_text l') \/ exists x y, l' = x :: y /\ ident_text x = v).
Proof.
  intros ops HR HX HS SB HI E. destruct (base_shape _ _ _ _ _ _ HI) as (vs & sp0 & -> & Hn & Hm & Hv).
  destruct (all_nodes cdc kinds growth sortf reg HR d i n vs Hn Hm _ Hv HX l sp0 (d_dirty d) SB) as (sp & b & E' & A & B).
  { apply Forall_forall. intros [p k] I S. apply source_asked in S. destruct S as (m & M1 & M2). exact (HS p k m I M1 M2). }
  erewrite D_start in E' by eassumption. rewrite E in E'. apply pair_equal_spec in E'. destruct E' as [-> ->]. split; [reflexivity|].
  destruct (steps_added kinds growth sortf reg d id_sources l) as (added & EA & ND & FR & SR).
  pose proof (steps_cover kinds growth sortf reg d id_sources l) as CO. rewrite EA in *. exists added, sp. cbv zeta.
  split; [rewrite put_ids; now apply changed_at_replace|]. do 4 (split; [reflexivity|]).
  split; [intros ->; cbn [D d_dirty]; apply A; apply List.app_nil_r|].
  split; [intros NE; cbn [D d_dirty]; apply B; intros F; rewrite <- (List.app_nil_r l) in F at 2; apply app_inv_head, map_eq_nil in F; contradiction|].
  split; [assumption|]. split; [assumption|]. split.
  - intros t I. destruct (SR t I) as (p & k & H1 & H2 & H3). exists p, k, (source_text kinds growth sortf reg d p). split; [assumption|]. split; [|auto].
    unfold source_text in *. destruct (source kinds growth sortf reg d p) as [[v| |]|] eqn:ES; try contradiction. apply source_asked in ES. exact ES.
  - intros p k v I AN NE. apply source_asked in AN. pose proof (proj1 (Forall_forall _ _) CO _ I) as C. unfold covered, source_text in C. cbn [fst snd] in C.
    rewrite AN in C. destruct C as [C|[C|C]]; [contradiction| |auto]. right.
    destruct (l ++ map (fun t : string => Ident t "") added)%list as [|x y]; cbn in C; [contradiction|eauto].
Qed.
Print Assumptions C127_collects_partial.

(* A second call changes nothing. *)
Theorem C127_again {X} (cdc : string -> codec X) kinds growth sortf reg d i n m l d' r :
  reg_ok reg -> knows_xmp reg d -> safe_to_ask (base_ops kinds growth sortf) reg d -> sole_base d i -> has_ids cdc d i n m l ->
  sync_models kinds growth sortf reg d = (d', r) -> sync_models kinds growth sortf reg d' = (d', Ok tt).
Proof.
  intros HR HX HS SB HI E. destruct (base_shape _ _ _ _ _ _ HI) as (vs & sp0 & -> & Hn & Hm & Hv).
  assert (P : Forall (fun x => source kinds growth sortf reg d (fst x) <> Some Panic) id_sources).
  { apply Forall_forall. intros [p k] I S. apply source_asked in S. destruct S as (m & M1 & M2). exact (HS p k m I M1 M2). }
  destruct (all_nodes cdc kinds growth sortf reg HR d i n vs Hn Hm _ Hv HX l sp0 (d_dirty d) SB P) as (sp & b & E' & _).
  erewrite D_start in E' by eassumption. rewrite E in E'. apply pair_equal_spec in E'. destruct E' as [-> ->].
  pose proof (covered_fold kinds growth sortf reg d _ _ (steps_cover kinds growth sortf reg d id_sources l)) as F.
  destruct (all_nodes cdc kinds growth sortf reg HR d i n vs Hn Hm _ Hv HX (steps_of kinds growth sortf reg d l id_sources) sp b SB P) as (sp2 & b2 & E2 & A & _).
  rewrite F in *. destruct (A eq_refl) as [-> ->]. exact E2.
Qed.
Print Assumptions C127_again.

Lemma collects_nothing {X} (cdc : string -> codec X) kinds growth sortf reg d i n m l :
  reg_ok reg -> knows_xmp reg d -> safe_to_ask (base_ops kinds growth sortf) reg d -> sole_base d i -> has_ids cdc d i n m l ->
  Forall (covered kinds growth sortf reg d l) id_sources -> sync_models kinds growth sortf reg d = (d, Ok tt).
Proof.
  intros HR HX HS SB HI C. destruct (base_shape _ _ _ _ _ _ HI) as (vs & sp0 & -> & Hn & Hm & Hv).
  destruct (all_nodes cdc kinds growth sortf reg HR d i n vs Hn Hm _ Hv HX l sp0 (d_dirty d) SB) as (sp & b & E' & A & _).
  { apply Forall_forall. intros [p k] I S. apply source_asked in S. destruct S as (m & M1 & M2). exact (HS p k m I M1 M2). }
  rewrite (covered_fold _ _ _ _ _ _ _ C) in *. destruct (A eq_refl) as [-> ->]. erewrite D_start in E' by eassumption. exact E'.
Qed.

(* The models of the library and the properties of them that are collected: a text in such a field is what the model answers. *)
Definition library_ids {X} (cdc : string -> codec X) : list (mkind X * string) :=
  [(k_exif_ExifInfo cdc, "exif:ImageUniqueID"); (k_ixml_IXML cdc, "iXML:fileUid"); (k_itunes_ITunesMetadata cdc, "iTunes:StoreFrontID");
   (k_id3_ID3 cdc, "id3:podcastID"); (k_id3_ID3 cdc, "id3:uniqueFileIdentifier")].
Theorem C127_library_ids {X} (cdc : string -> codec X) kinds growth sortf k p m t v :
  In (k, p) (library_ids cdc) -> tm_kind m = k -> get_field m p = Some (t, VStr v) -> v <> "" ->
  mo_get (base_ops kinds growth sortf) m p = Ok v.
Proof.
  intros I K G V. destruct m as [k' vs]. cbn [tm_kind] in K. subst k'. cbn [base_ops mo_get tm_kind tm_vals].
  assert (W : exists s j f, steps p = [(s, false)] /\ parse_segment s = (s, -1, "")%Z /\ field_index (k_fields k) p = Some j /\
    lookup (k_fields k) s = Some j /\ nth_error (k_fields k) j = Some (f, TStr) /\ f_omit f = false).
  { cbn [library_ids In] in I. repeat (destruct I as [I|I]; [injection I as <- <-|]); [..|destruct I].
    all: do 3 eexists; (split; [vm_compute; reflexivity|]); (split; [vm_compute; reflexivity|]); (split; [vm_compute; reflexivity|]);
      (split; [vm_compute; reflexivity|]); (split; [vm_compute; reflexivity|]); reflexivity. }
  destruct W as (s & j & f & S & P & FI & L & N & O). unfold get_field in G. cbn [tm_kind tm_vals] in G. rewrite FI, N in G.
  destruct (nth_error vs j) as [w|] eqn:E; [|discriminate]. injection G as <- ->.
  unfold TPathM.get_model_path. rewrite S. cbn [get_steps]. rewrite P. change (-1 <? -1)%Z with false. cbv iota beta. rewrite L, N, E, O.
  destruct v as [|c v]; [contradiction|]. cbn [is_nil orb is_empty negb andb drill]. destruct (f_empty f); reflexivity.
Qed.
Print Assumptions C127_library_ids.

(* Of QuickTime models four identifiers are never collected, whatever the model holds: the paths name fields QtInfo does not have. *)
Theorem C127_quicktime_refuted {X} (cdc : string -> codec X) kinds growth sortf vs p :
  In p ["qt:GUID"; "qt:ISRCCode"; "qt:ContentID"; "qt:ClipID"] -> mo_get (base_ops kinds growth sortf) (TModel (k_qt_QtInfo cdc) vs) p = Err errNotFound.
Proof.
  cbn [base_ops mo_get tm_kind tm_vals]. unfold TPathM.get_model_path. intros [<-|[<-|[<-|[<-|[]]]]].
  all: match goal with |- context [steps ?p] => let y := eval vm_compute in (steps p) in change (steps p) with y end; cbn [get_steps];
    match goal with |- context [parse_segment ?p] => let y := eval vm_compute in (parse_segment p) in change (parse_segment p) with y end; change (-1 <? -1)%Z with false; cbv iota beta;
    match goal with |- context [lookup ?a ?b] => replace (lookup a b) with (@None nat) by (vm_compute; reflexivity) end; reflexivity.
Qed.
Print Assumptions C127_quicktime_refuted.

(* ---- concrete documents ---- *)
Definition id_reg : registry := registry_of lib_h.
Definition id_base (l : list ident) := fill (k_base plain) [("xmp:Identifier", identifiers l []); ("xmp:Label", VStr "keep")].
Definition id_exif := fill (k_exif_ExifInfo plain) [("exif:ImageUniqueID", VStr "42")].
Definition id_ixml := fill (k_ixml_IXML plain) [("iXML:fileUid", VStr "f7")].
Definition id_doc (l : list ident) := doc_of [("exif", id_exif); ("xmp", id_base l); ("iXML", id_ixml)].
Definition collect (d : doc (tmodel unit)) := sync_models lib_k grow1 (fun l => l) id_reg d.
Definition ids_after (d : doc (tmodel unit)) : option (gval unit) :=
  match model_at (fst (collect d)) 1 with Some m => option_map snd (get_field m "xmp:Identifier") | None => None end.

Lemma safe_of d : Forall (fun x => source lib_k grow1 (fun l => l) id_reg d (fst x) <> Some Panic) id_sources -> safe_to_ask (base_ops lib_k grow1 (fun l => l)) id_reg d.
Proof. intros H p k m I A E. apply (proj1 (Forall_forall _ _) H _ I). cbn [fst]. apply source_asked. eauto. Qed.
Lemma id_safe l : safe_to_ask (base_ops lib_k grow1 (fun l => l)) id_reg (id_doc l).
Proof. apply safe_of. repeat constructor; vm_compute; discriminate. Qed.
Lemma id_has l : has_ids plain (id_doc l) 1 (lib_node "xmp" (id_base l)) (id_base l) l.
Proof. split; [reflexivity|]. split; [reflexivity|]. split; [reflexivity|]. exists []. reflexivity. Qed.
Lemma id_sole l : sole_base (id_doc l) 1.
Proof.
  intros [|[|[|j]]] n m Hn Hm (ns & r & K & Nm); [| reflexivity | |destruct j; discriminate].
  all: injection Hn as <-; injection Hm as <-; injection K as <- <-; discriminate.
Qed.
Example C127_hyps : reg_ok id_reg /\ knows_xmp id_reg (id_doc [Ident "a" "s"]) /\ safe_to_ask (base_ops lib_k grow1 (fun l => l)) id_reg (id_doc [Ident "a" "s"]) /\
  sole_base (id_doc [Ident "a" "s"]) 1 /\ has_ids plain (id_doc [Ident "a" "s"]) 1 (lib_node "xmp" (id_base [Ident "a" "s"])) (id_base [Ident "a" "s"]) [Ident "a" "s"] /\
  answers (base_ops lib_k grow1 (fun l => l)) id_reg (id_doc [Ident "a" "s"]) "exif:ImageUniqueID" "42".
Proof.
  split; [apply reg_ok_of_history|]. split; [eexists; vm_compute; reflexivity|]. split; [apply id_safe|]. split; [apply id_sole|]. split; [apply id_has|].
  apply source_asked. vm_compute. reflexivity.
Qed.
Example C127_collected : ids_after (id_doc [Ident "a" "s"]) =
  Some (identifiers [Ident "a" "s"; Ident "uuid:exif:42" ""; Ident "uuid:ixml:f7" ""] [ident_value "" ""]).
Proof. vm_compute. reflexivity. Qed.

(* Every identifier other models know is found among the identifiers afterwards: false if the first identifier is that value without the mark ... *)
Definition two (p : string) (m : tmodel unit) (l : list ident) := doc_of [(p, m); ("xmp", id_base l)].
Lemma two_has p m l : has_ids plain (two p m l) 1 (lib_node "xmp" (id_base l)) (id_base l) l.
Proof. split; [reflexivity|]. split; [reflexivity|]. split; [reflexivity|]. exists []. reflexivity. Qed.
Lemma two_sole p m l : (forall ns r, k_namespaces (tm_kind m) = ns :: r -> ns_name ns <> "xmp") -> sole_base (two p m l) 1.
Proof.
  intros H [|[|j]] n m' Hn Hm (ns & r & K & Nm); [|reflexivity|destruct j; discriminate].
  injection Hn as <-. injection Hm as <-. exfalso. exact (H _ _ K Nm).
Qed.
Lemma two_same p m l : (forall ns r, k_namespaces (tm_kind m) = ns :: r -> ns_name ns <> "xmp") ->
  Forall (fun x => source lib_k grow1 (fun l => l) id_reg (two p m l) (fst x) <> Some Panic) id_sources ->
  Forall (covered lib_k grow1 (fun l => l) id_reg (two p m l) l) id_sources -> collect (two p m l) = (two p m l, Ok tt).
Proof.
  intros H S C. unfold collect. eapply (collects_nothing plain); [apply reg_ok_of_history| |apply safe_of, S|apply two_sole, H|apply two_has|exact C].
  eexists. vm_compute. reflexivity.
Qed.
Theorem C127_same_text_refuted : exists d d' v,
  answers (base_ops lib_k grow1 (fun l => l)) id_reg d "exif:ImageUniqueID" v /\ v <> "" /\ collect d = (d', Ok tt) /\
  exists n m l, has_ids plain d' 1 n m l /\ ~ In ("uuid:exif:" ++ v) (map ident_text l).
Proof.
  exists (two "exif" id_exif [Ident "42" ""]), (two "exif" id_exif [Ident "42" ""]), "42".
  split; [apply source_asked; vm_compute; reflexivity|]. split; [discriminate|]. split.
  - apply two_same; [intros ns r K; injection K as <- <-; discriminate|repeat constructor; vm_compute; discriminate|].
    repeat (apply Forall_cons; [first [left; vm_compute; reflexivity|right; left; vm_compute; reflexivity]|]). apply Forall_nil.
  - do 2 eexists. exists [Ident "42" ""]. split; [apply two_has|]. cbn. intros [H|[]]. discriminate.
Qed.
Print Assumptions C127_same_text_refuted.

(* ... and for identifiers in the user data of a QuickTime file. *)
Definition id_qt := fill (k_qt_QtInfo plain) [("qt:udta", VPtr (record (fs_qt_QtUserdata plain) [("qt:GUID", VStr "g1")]))].
Example C127_quicktime_document :
  mo_get (base_ops lib_k grow1 (fun l => l)) id_qt "qt:udta/GUID" = Ok "g1" /\ collect (two "qt" id_qt []) = (two "qt" id_qt [], Ok tt).
Proof.
  split; [vm_compute; reflexivity|]. apply two_same; [intros ns r K; injection K as <- <-; discriminate|repeat constructor; vm_compute; discriminate|].
  repeat (apply Forall_cons; [left; vm_compute; reflexivity|]). apply Forall_nil.
Qed.

(* A text that is written over an identifier of the list becomes its id, and its scheme stays: the text is then scheme:id. *)
Theorem C127_overwritten X id sc s : exists w, c_dec (@ident_codec X) (VStruct [VStr id; VStr sc]) s = Ok w
  /\ c_enc (@ident_codec X) w = Ok (Some (if emptyb sc then s else sc ++ ":" ++ s)).
Proof. eexists. split; [reflexivity|]. cbn. destruct (emptyb sc); [reflexivity|]. do 2 f_equal. apply GoStrFacts.app_assoc. Qed.
Print Assumptions C127_overwritten.
