(* C133: working with documents never crashes, but for known reasons *)
From Coq Require Import List Arith ZArith Bool Ascii String Lia.
From Verif Require Import GoStr GoStrFacts GoMap Names Semver RegistryM FilterM PathM PVList SyncFlags NodeM DocM ArrayM SpecArray TypeM TagM DecodeM ModelTypes TPathM SyncModelsM IdSyncM SpecDoc SpecIdSync
  SpecSafePath SafePathFacts PropSafePath SpecSafeDoc SafeDocFacts.
Import ListNotations.
Local Open Scope string_scope.

(* After any history of calls, failed and crashed ones included, the models of a document are good, and the next call crashes only for one of the known reasons. *)
Theorem C133_history_partial {M} (ops : model_ops M) sortf good reg d cs c : safe_models ops good ->
  good_doc good d -> Forall (good_call good) cs -> good_call good c ->
  let '(reg', d') := doc_run ops sortf reg d cs in
  good_doc good d' /\ (snd (doc_outcome ops sortf reg' d' c) = Panic -> crash_reason ops sortf reg' d' c).
Proof.
  intros S G F C.
  assert (ONE : forall reg d c, good_doc good d -> good_call good c ->
    good_doc good (snd (fst (doc_outcome ops sortf reg d c))) /\ (snd (doc_outcome ops sortf reg d c) = Panic -> crash_reason ops sortf reg d c)).
  { clear reg d cs c G F C. intros reg d c G C. destruct c as [p|desc| |from to flags into conv|other flags|ns|m|f]; cbn [doc_outcome crash_reason good_call] in *.
    - split; [exact G|]. cbn [snd]. pose proof (get_safe ops good S reg d p G). destruct (doc_get_path ops reg d p); cbn [forget]; congruence.
    - now apply set_safe.
    - destruct (list_safe ops good sortf S reg d G) as [A B]. destruct (doc_list_paths ops sortf reg d) as [d' r]. cbn [fst snd] in *. split; [exact A|]. destruct r; cbn [forget]; congruence.
    - destruct (sync_safe ops good sortf S reg d from to flags into conv G) as [A B]. destruct (doc_sync ops reg d from to flags into conv) as [d' r]. auto.
    - unfold doc_merge. destruct (list_safe ops good sortf S reg other C) as [A B]. destruct (doc_list_paths ops sortf reg other) as [o' [l|e|]]; cbn [fst snd] in *; [|split; [exact G|discriminate]|congruence].
      set (d1 := with_maps d _ _). assert (G1 : good_doc good d1) by exact G.
      destruct (merge_loop_safe ops good S l flags reg d1 G1) as [P Q]. destruct (merge_loop ops reg d1 l flags) as [[reg' d2] [u|e|]]; cbn [fst snd] in *; split; auto; try discriminate.
      intros _. destruct (Q eq_refl) as (v & I & D). exists o', l, v. auto.
    - destruct (make_good ops good S d ns G) as [A B]. destruct (make_model ops d ns) as [d' r]. cbn [fst snd] in *. split; [exact A|]. destruct r; cbn [forget]; congruence.
    - destruct (add_good ops good S d m G C) as (d' & i & E & A & _). rewrite E. split; [exact A|discriminate].
    - split; [|discriminate]. now apply filter_safe. }
  revert reg d G F. induction cs as [|x cs IH]; intros reg d G F; cbn [doc_run]; [split; [exact G|]; now apply ONE|].
  inversion F as [|? ? Fx F']; subst. destruct (ONE reg d x G Fx) as [A _]. destruct (doc_outcome ops sortf reg d x) as [[reg' d'] r]. apply IH; auto.
Qed.
Print Assumptions C133_history_partial.

(* The models of the library are good as long as their values fit their types. *)
Definition good_model {X} (text_value : codec X -> gval X -> Prop) (cdc : string -> codec X) den_zero (m : tmodel X) : Prop :=
  In (tm_kind m) (library_models cdc den_zero) /\ well_formed text_value (k_fields (tm_kind m)) (tm_vals m).
Local Opaque fields.
Lemma library_named {X} (cdc : string -> codec X) dz k : In k (library_models cdc dz) -> k_namespaces k <> [].
Proof.
  intros I. unfold library_models in I. cbn [In] in I.
  repeat (destruct I as [<-|I]; [match goal with |- k_namespaces ?k <> [] => let h := head k in unfold h end; cbn [k_namespaces]; discriminate|]). destruct I.
Qed.
Theorem C133_library {X} text_value (cdc : string -> codec X) den_zero kinds growth sortf : calm_texts text_value cdc ->
  (forall f p k, kinds f p = Some k -> In k (library_models cdc den_zero)) ->
  safe_models (base_ops kinds growth sortf) (good_model text_value cdc den_zero).
Proof.
  intros T K. assert (C : forall m : tmodel X, In (tm_kind m) (library_models cdc den_zero) -> calm_model text_value (k_fields (tm_kind m))) by (intros m I; eapply C132_library; eauto).
  constructor.
  - intros m p (I & W). cbn [base_ops mo_get]. eapply C132_get; eauto.
  - intros m p v fl (I & W). cbn [base_ops mo_set]. destruct (C132_set_partial text_value growth (k_fields (tm_kind m)) (tm_vals m) p v fl (C m I) W) as [A B].
    destruct (TPathM.set_model_path growth (k_fields (tm_kind m)) (tm_vals m) p v fl) as [vs r]. cbn [fst snd] in *. split; [split; [exact I|exact A]|exact B].
  - intros m (I & W). cbn [base_ops mo_list]. eapply C132_list; eauto.
  - intros f p m. cbn [base_ops mo_new]. destruct (kinds f p) as [k|] eqn:E; cbn [option_map]; [|discriminate]. intros [= <-]. apply K in E.
    split; cbn [tm_kind tm_vals]; [exact E|]. eapply C132_library; eauto.
  - intros m (I & _). cbn [base_ops mo_namespaces]. eapply library_named; eauto.
  - intros m i d _ G. cbn [base_ops mo_sync_to]. split; [exact G|discriminate].
Qed.
Print Assumptions C133_library.

(* So identifiers can be collected from documents of such models (C127). *)
Theorem C127_library_safe {X} text_value (cdc : string -> codec X) den_zero kinds growth sortf reg d : calm_texts text_value cdc ->
  good_doc (good_model text_value cdc den_zero) d -> safe_to_ask (base_ops kinds growth sortf) reg d.
Proof.
  intros T G p k m _ (ns & i & n & _ & FA & E). assert (I : In n (d_nodes d)) by (destruct FA as [H _]; eapply nth_error_In; exact H).
  destruct (proj1 (Forall_forall _ _) G n I m E) as (L & W). cbn [base_ops mo_get]. eapply C132_get; [eapply C132_library; eauto|exact W].
Qed.
Print Assumptions C127_library_safe.
Local Transparent fields.

(* a registry with one namespace, whose factory makes Dublin Core models *)
Definition dc_ns := Namespace "dc" "http://purl.org/dc/elements/1.1/" (Some 0).
Definition dc_reg := register empty_registry dc_ns [].
Definition dc_kinds (f : nat) (p : string) : option (mkind unit) := if Nat.eqb f 0 then Some dc_k else None.
Definition dc_ops := base_ops dc_kinds (fun n => n) (fun l => l).
Definition one_other := Doc "" [Node (XName "" "my") [] None "" [Node (XName "" "my:a") [] None "1" []]] false "" [] [] : doc (tmodel unit).
Definition dc_history : list (@doc_call (tmodel unit)) :=
  [DSet (PathValue "dc:title[en]" "" "Hello" 0); DSet (PathValue "dc:title[de]" "" "Hallo" 0); DSet (PathValue "my:b" "http://my/" "2" 0); DMerge one_other CREATE; DGet "dc:[[";
   DSet (PathValue "dc:title[fr]" "" "Salut" 0); DSet (PathValue "dc:creator[2]" "" "X" 0); DList;
   DSync "dc:title[de]" "dc:subject" 0 None None; DSync "dc:title" "my:c" CREATE None None].
Example C133_hyps : safe_models dc_ops (good_model any_value demo_cdc (fun _ => false)) /\
  good_doc (good_model any_value demo_cdc (fun _ => false)) (new_document "") /\
  Forall (good_call (good_model any_value demo_cdc (fun _ => false))) dc_history /\
  let '(reg, d) := doc_run dc_ops (fun l => l) dc_reg (new_document "") dc_history in
  map (fun p => doc_get_path dc_ops reg d p) ["dc:title[de]"; "dc:subject[0]"; "dc:creator[2]"; "my:b"; "my:a"; "dc:none"] =
    [Ok "Hallo"; Ok "Hallo"; Ok "X"; Ok "2"; Ok "1"; Ok ""].
Proof.
  split; [|split; [|split]].
  - apply C133_library; [exact (proj1 C132_hyps)|]. intros f p k. unfold dc_kinds. destruct (Nat.eqb f 0); [|discriminate]. intros [= <-]. exact (proj1 (proj2 C132_hyps)).
  - constructor.
  - assert (O : good_doc (good_model any_value demo_cdc (fun _ => false)) one_other) by (apply Forall_cons; [intros m E; discriminate E|apply Forall_nil]).
    repeat (apply Forall_cons; [first [exact I|exact O]|]). apply Forall_nil.
  - vm_compute. reflexivity.
Qed.

(* Both reasons occur: deleting the default text of three, and synchronizing to a namespace without a model. *)
Theorem C133_delete_language_refuted : let '(reg, d) := doc_run dc_ops (fun l => l) dc_reg (new_document "") dc_history in
  snd (doc_outcome dc_ops (fun l => l) reg d (DSet (PathValue "dc:title[en]" "" "" 0))) = Panic.
Proof. vm_compute. reflexivity. Qed.
Print Assumptions C133_delete_language_refuted.
Theorem C133_sync_refuted : let '(reg, d) := doc_run dc_ops (fun l => l) dc_reg (new_document "") dc_history in
  snd (doc_outcome dc_ops (fun l => l) reg d (DSync "dc:title" "my:c" CREATE None None)) = Panic.
Proof. vm_compute. reflexivity. Qed.
Print Assumptions C133_sync_refuted.
