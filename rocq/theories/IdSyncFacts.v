(* Lemmas about IdSyncM.v *)
From Coq Require Import List Arith ZArith Bool Ascii String Lia.
From Verif Require Import GoStr GoStrFacts GoMap Names Semver RegistryM PathM PVList SyncFlags NodeM DocM TypeM TagM DecodeM TPathM ModelTypes SyncModelsM
  SpecDoc DocFacts IdSyncM SpecIdSync.
Import ListNotations.
Local Open Scope string_scope.

Section F.
Context {X : Type}.
Notation gval := (gval X).
Notation doc := (doc (tmodel X)).
Variable cdc : string -> codec X.
Variable kinds : nat -> string -> option (mkind X).
Variable growth : nat -> nat.
Variable sortf : list path_value -> list path_value.
Notation bops := (base_ops kinds growth sortf).
Notation ids := (@identifiers X).

Lemma ident_enc id sc : c_enc (@ident_codec X) (VStruct [VStr id; VStr sc]) = Ok (Some (ident_text (Ident id sc))).
Proof. unfold ident_text. cbn. destruct sc; [reflexivity|]. cbn [emptyb]. rewrite app_assoc. reflexivity. Qed.

Lemma id_lookup : lookup (fs_base cdc) "Identifier" = Some 4. Proof. vm_compute. reflexivity. Qed.
Lemma id_index : field_index (fs_base cdc) "xmp:Identifier" = Some 4. Proof. vm_compute. reflexivity. Qed.
Lemma id_field : nth_error (fs_base cdc) 4 = Some (Finfo "xmp:Identifier" false false false false (Version 0 0 0) (Version 0 0 0), t_ident_array).
Proof. vm_compute. reflexivity. Qed.
Lemma id_steps : steps "xmp:Identifier" = [("Identifier", false)]. Proof. vm_compute. reflexivity. Qed.
Lemma id_parse : parse_segment "Identifier" = ("Identifier", -1, "")%Z. Proof. vm_compute. reflexivity. Qed.

Notation el := (fun x => VStruct [VStr (i_id x); VStr (i_scheme x)] : gval).
Definition first_text (l : list ident) : string := match l with x :: _ => ident_text x | [] => "" end.

Lemma get_ids vs l sp : nth_error vs 4 = Some (ids l sp) -> TPathM.get_model_path (fs_base cdc) vs "xmp:Identifier" = Ok (first_text l).
Proof.
  intros H. unfold TPathM.get_model_path. rewrite id_steps. cbn [get_steps]. rewrite id_parse. change (-1 <? -1)%Z with false. cbv iota beta.
  rewrite id_lookup, id_field, H. unfold identifiers. cbn [is_nil f_omit f_empty negb orb andb].
  destruct l as [|x r]; [reflexivity|]. destruct x as [a b]. unfold t_ident_array. cbn [is_empty map drill ar_xmp Z.to_nat nth_error deref i_id i_scheme].
  unfold leaf_text. cbn [leaf_enc]. rewrite ident_enc. reflexivity.
Qed.

Lemma scan_ids l v : unique_scan (TText (@ident_codec X)) (map el l) v = (map el l, if existsb (fun x => v =? ident_text x) l then UEqual else UNew)
  \/ exists x, In x l /\ ident_text x = v /\ unique_scan (TText (@ident_codec X)) (map el l) v = (map el l, UEqual).
Proof.
  induction l as [|x r IH]; [now left|]. destruct x as [a b]. cbn [map unique_scan deref reref leaf_enc i_id i_scheme]. rewrite ident_enc. cbn [existsb].
  destruct (v =? ident_text (Ident a b)) eqn:E; [now left|]. cbn [orb]. destruct IH as [->|(y & I & T & ->)]; [now left|]. right. exists y. cbn [In]. auto.
Qed.

Lemma set_nth_id i (v : gval) vs : nth_error vs i = Some v -> set_nth i v vs = vs.
Proof. revert vs. induction i; intros [|x vs]; cbn; try discriminate; [congruence|]. intros H. f_equal. auto. Qed.
Lemma set_nth_twice i (v w : gval) vs : set_nth i v (set_nth i w vs) = set_nth i v vs.
Proof. revert vs. induction i; intros [|x vs]; cbn; try reflexivity. now rewrite IHi. Qed.
Lemma set_nth_get i (v w : gval) vs : nth_error vs i = Some w -> nth_error (set_nth i v vs) i = Some v.
Proof. revert vs. induction i; intros [|x vs]; cbn; try discriminate; auto. Qed.

Lemma exists_text l v : existsb (fun x => v =? ident_text x) l = true <-> In v (map ident_text l).
Proof.
  rewrite existsb_exists, in_map_iff. split; intros (x & A & B).
  - apply String.eqb_eq in B. now exists x.
  - exists x. split; [assumption|]. apply String.eqb_eq. auto.
Qed.

Lemma set_ids vs l sp v : nth_error vs 4 = Some (ids l sp) -> v <> "" ->
  exists sp', TPathM.set_model_path growth (fs_base cdc) vs "xmp:Identifier" v MERGE =
    if existsb (fun x => v =? ident_text x) l then (vs, Err "equal value exists")
    else (set_nth 4 (ids (l ++ [Ident v ""]) sp') vs, Ok tt).
Proof.
  intros H V. unfold TPathM.set_model_path. change (is_xmp_path "xmp:Identifier") with true. cbn [negb].
  change (if (MERGE =? 0)%Z then DEFAULT else MERGE) with MERGE. rewrite id_steps. cbn [set_steps]. rewrite id_parse. change (-1 <? -1)%Z with false. cbv iota beta.
  rewrite id_lookup, id_field, H. unfold t_ident_array, identifiers. cbn [deref ar_xmp]. unfold set_slice.
  change (on MERGE UNIQUE) with true. destruct v as [|c v]; [congruence|]. cbn [emptyb negb andb Z.eqb Pos.eqb].
  destruct (scan_ids l (String c v)) as [->|(x & I & T & E)].
  - destruct (existsb _ l) eqn:E.
    + exists []. cbn [reref]. f_equal. now apply set_nth_id.
    + cbn [new_elem ident_codec c_dec c_zero ident_value reref]. unfold slice_append. destruct sp; eexists; rewrite map_app; reflexivity.
  - rewrite E. replace (existsb _ l) with true by (symmetry; apply exists_text; rewrite <- T; now apply in_map).
    exists []. cbn [reref]. f_equal. now apply set_nth_id.
Qed.

(* ---- the document ---- *)
Definition step1 (l : list ident) (v : string) (mark : option string) : list ident :=
  if (v =? "") || (v =? first_text l) then l
  else if existsb (fun x => marked mark v =? ident_text x) l then l
  else (l ++ [Ident (marked mark v) ""])%list.

Variable reg : registry.
Variable Hreg : reg_ok reg.
Variable d0 : doc.
Variables (i : nat) (n : node (tmodel X)) (vs : list gval).
Variable Hn : nth_error (d_nodes d0) i = Some n.
Variable Hm : n_model n = Some (TModel (k_base cdc) vs).
Variable w0 : gval.
Variable Hv : nth_error vs 4 = Some w0.

Definition D (l : list ident) (sp : list gval) (b : bool) : doc :=
  Doc (d_toolkit d0) (replace_nth i (set_model n (Some (TModel (k_base cdc) (set_nth 4 (ids l sp) vs)))) (d_nodes d0)) b (d_about d0) (d_int d0) (d_ext d0).

Lemma set_model_id (k : node (tmodel X)) m : n_model k = Some m -> set_model k (Some m) = k.
Proof. destruct k. cbn. now intros ->. Qed.

Lemma set_model_twice (k : node (tmodel X)) a b : set_model (set_model k a) b = set_model k b. Proof. now destruct k. Qed.
Lemma model_set (k : node (tmodel X)) a : n_model (set_model k a) = a. Proof. now destruct k. Qed.
Lemma D_at l sp b : nth_error (d_nodes (D l sp b)) i = Some (set_model n (Some (TModel (k_base cdc) (set_nth 4 (ids l sp) vs)))).
Proof. cbn [D d_nodes]. apply nth_replace_eq. apply nth_error_Some. congruence. Qed.
Lemma D_model l sp b : model_at (D l sp b) i = Some (TModel (k_base cdc) (set_nth 4 (ids l sp) vs)).
Proof. unfold model_at. rewrite D_at. apply model_set. Qed.
Lemma D_other l sp b j : j <> i -> model_at (D l sp b) j = model_at d0 j.
Proof. intros H. unfold model_at. cbn [D d_nodes]. rewrite nth_replace_neq by auto. reflexivity. Qed.
Lemma D_put l sp b l' sp' : with_nodes (D l sp b) (replace_nth i (set_model (set_model n (Some (TModel (k_base cdc) (set_nth 4 (ids l sp) vs))))
    (Some (TModel (k_base cdc) (set_nth 4 (ids l' sp') (set_nth 4 (ids l sp) vs))))) (d_nodes (D l sp b))) = D l' sp' b.
Proof. unfold with_nodes. cbn [D d_nodes d_toolkit d_dirty d_about d_int d_ext]. rewrite replace_nth_twice, set_nth_twice, set_model_twice. reflexivity. Qed.

Lemma find_index_replace {A} (t : A -> bool) k x y l : nth_error l k = Some y -> t x = t y -> find_index t (replace_nth k x l) = find_index t l.
Proof. revert k. induction l as [|z l IH]; intros [|k]; cbn; try discriminate; intros H E; [injection H as ->; now rewrite E|]. now rewrite IH. Qed.

Lemma D_find l sp b ns : doc_find_model bops (D l sp b) ns = doc_find_model bops d0 ns.
Proof.
  unfold doc_find_model. cbn [D d_nodes]. eapply find_index_replace; [exact Hn|]. unfold model_can. rewrite Hm, model_set. reflexivity.
Qed.

(* what the source of the path says, in the first document *)
Definition source (p : path) : option (result string) :=
  match path_namespace reg d0 p with
  | Some ns => match doc_find_model bops d0 ns with
               | Some j => match model_at d0 j with Some m => Some (mo_get bops m p) | None => None end
               | None => None
               end
  | None => None
  end.
Definition source_text (p : path) : string := match source p with Some (Ok v) => v | _ => "" end.
Definition conv_of_mark (mark : option string) : option (string -> string) := option_map (fun p v => p ++ ":" ++ v) mark.
Lemma conv_marked mark v : match conv_of_mark mark with Some f => f v | None => v end = marked mark v.
Proof. destruct mark; reflexivity. Qed.
Lemma marked_some mark v : v <> "" -> marked mark v <> "".
Proof. destruct mark as [[|c p]|]; cbn; congruence. Qed.

Variable Hxmp : exists ns, path_namespace reg d0 "xmp:Identifier" = Some ns.

Lemma one l sp b p mark : namespace_prefix p <> "xmp" -> source p <> Some Panic ->
  exists sp' b', doc_sync bops reg (D l sp b) p "xmp:Identifier" MERGE (Some i) (conv_of_mark mark) = (D (step1 l (source_text p) mark) sp' b', Ok tt)
    /\ (step1 l (source_text p) mark = l -> sp' = sp /\ b' = b) /\ (step1 l (source_text p) mark <> l -> b' = true).
Proof.
  intros Hp HP. destruct Hxmp as [dns Hd]. unfold doc_sync. change (if (MERGE =? 0)%Z then DEFAULT else MERGE) with MERGE.
  change (is_xmp_path "xmp:Identifier") with true. cbn [negb]. rewrite orb_false_r.
  change (path_namespace reg (D l sp b) p) with (path_namespace reg d0 p). change (path_namespace reg (D l sp b) "xmp:Identifier") with (path_namespace reg d0 "xmp:Identifier").
  assert (NO : source_text p = "" -> exists sp' b', (D l sp b, @Ok unit tt) = (D (step1 l (source_text p) mark) sp' b', Ok tt)
    /\ (step1 l (source_text p) mark = l -> sp' = sp /\ b' = b) /\ (step1 l (source_text p) mark <> l -> b' = true)).
  { intros ->. exists sp, b. cbn [step1 String.eqb orb]. split; [reflexivity|]. split; [auto|congruence]. }
  unfold source_text, source in *. destruct (is_xmp_path p) eqn:XP; cbn [negb]; [|apply NO; unfold path_namespace; now rewrite XP].
  rewrite Hd. destruct (path_namespace reg d0 p) as [ns|] eqn:E; [|now apply NO].
  rewrite D_find. destruct (doc_find_model bops d0 ns) as [j|] eqn:Ej; [|now apply NO].
  cbn [sync_dest]. rewrite D_model. cbn [option_map base_ops mo_namespaces tm_kind k_base k_namespaces].
  change (namespace_prefix "xmp:Identifier" =? ns_name ns_xmpbase_NsXmp) with true.
  assert (NE : ns_name ns <> "xmp").
  { unfold path_namespace in E. rewrite XP in E. apply (find_ns_name _ _ _ _ Hreg) in E. congruence. }
  destruct (find_index_some _ _ _ Ej) as (y & Fy & Ty & _).
  unfold model_can in Ty. destruct (n_model y) as [m|] eqn:Em; [|discriminate].
  assert (ji : j <> i).
  { intros ->. rewrite Hn in Fy. injection Fy as <-. rewrite Hm in Em. injection Em as <-. cbn in Ty. apply String.eqb_eq in Ty. congruence. }
  rewrite (D_other _ _ _ _ ji). unfold model_at in *. rewrite Fy, Em in *. cbv beta iota in *.
  unfold sync_copy. cbn [DocM.get_model_path mref_get]. unfold model_at. rewrite D_at, model_set.
  destruct (mo_get bops m p) as [sv|e|]; [| |now contradiction HP].
  2: { cbn [forget nofail]. change (on MERGE NOFAIL) with true. cbv iota. now apply NO. }
  cbn [DocM.get_model_path].
  assert (G : mo_get bops (TModel (k_base cdc) (set_nth 4 (ids l sp) vs)) "xmp:Identifier" = Ok (first_text l)).
  { cbn [base_ops mo_get tm_kind tm_vals k_base k_fields]. apply (get_ids _ _ sp). now apply (set_nth_get _ _ w0). }
  rewrite G. unfold step1. destruct (sv =? first_text l) eqn:E1.
  { rewrite orb_true_r. exists sp, b. split; [reflexivity|]. split; [auto|congruence]. }
  rewrite orb_false_r. change (on MERGE DELETE) with false. change (on MERGE CREATE) with true.
  change (on MERGE (Z.lor (Z.lor (Z.lor REPLACE DELETE) APPEND) UNIQUE)) with true. cbn [negb]. rewrite !andb_true_r, !andb_false_r.
  destruct sv as [|c sv]; [apply NO; reflexivity|]. cbn [emptyb]. rewrite conv_marked.
  change (String c sv =? "") with false. cbv iota.
  set (v := String c sv) in *. assert (V : v <> "") by discriminate. clearbody v.
  cbn [DocM.set_model_path base_ops mo_set tm_kind tm_vals k_base k_fields].
  destruct (set_ids (set_nth 4 (ids l sp) vs) l sp (marked mark v)) as (sp' & ->); [now apply (set_nth_get _ _ w0)|now apply marked_some|].
  destruct (existsb _ l) eqn:EX.
  - exists sp, b. split; [|split; [auto|congruence]]. cbn [mref_put]. rewrite D_at. cbn [nofail]. change (on MERGE NOFAIL) with true. cbv iota.
    f_equal. pose proof (D_put l sp b l sp) as P. rewrite set_nth_twice in P. exact P.
  - exists sp', true. split; [|split; [intros H; exfalso; apply (f_equal (@List.length _)) in H; rewrite app_length in H; cbn in H; lia|auto]].
    cbn [mref_put]. rewrite D_at. f_equal. rewrite D_put. reflexivity.
Qed.

Notation srcs := (list (string * option string)).
Definition steps_of (l : list ident) (s : srcs) : list ident := fold_left (fun l s => step1 l (source_text (fst s)) (snd s)) s l.

Lemma steps_cons l x s : steps_of l (x :: s) = steps_of (step1 l (source_text (fst x)) (snd x)) s. Proof. reflexivity. Qed.
Lemma step1_grows l v mark : exists a, step1 l v mark = (l ++ a)%list.
Proof.
  unfold step1. destruct (_ || _); [exists []; now rewrite List.app_nil_r|]. destruct (existsb _ l); [exists []; now rewrite List.app_nil_r|]. eauto.
Qed.
Lemma steps_grow s l : exists a, steps_of l s = (l ++ a)%list.
Proof.
  revert l. induction s as [|x s IH]; intros l; [exists []; cbn; now rewrite List.app_nil_r|]. rewrite steps_cons.
  destruct (step1_grows l (source_text (fst x)) (snd x)) as [a ->]. destruct (IH (l ++ a)%list) as [b ->].
  exists (a ++ b)%list. now rewrite List.app_assoc.
Qed.

Lemma multi (s : srcs) l sp b : Forall (fun x => namespace_prefix (fst x) <> "xmp" /\ source (fst x) <> Some Panic) s ->
  exists sp' b', sync_multi kinds growth sortf reg (map (fun x => SyncDesc (fst x) "xmp:Identifier" MERGE (conv_of_mark (snd x))) s) i (D l sp b)
      = (D (steps_of l s) sp' b', Ok tt)
    /\ (steps_of l s = l -> sp' = sp /\ b' = b) /\ (steps_of l s <> l -> b' = true).
Proof.
  revert l sp b. induction s as [|[p mark] s IH]; intros l sp b H; cbn [map sync_multi].
  { exists sp, b. split; [reflexivity|]. split; [auto|]. cbn. congruence. }
  apply Forall_cons_iff in H. destruct H as [[H1 H2] H3]. cbn [fst] in H1, H2. cbn [sd_source sd_dest sd_flags sd_convert fst snd].
  destruct (one l sp b p mark H1 H2) as (sp1 & b1 & -> & A & B).
  destruct (IH (step1 l (source_text p) mark) sp1 b1 H3) as (sp2 & b2 & -> & A2 & B2).
  exists sp2, b2. rewrite steps_cons. cbn [fst snd]. split; [reflexivity|].
  destruct (step1_grows l (source_text p) mark) as [x Hx]. destruct (steps_grow s (step1 l (source_text p) mark)) as [y Hy].
  rewrite Hy in *. rewrite Hx in *. split.
  - intros E. rewrite <- List.app_assoc in E. rewrite <- (List.app_nil_r l) in E at 2. apply app_inv_head in E. apply app_eq_nil in E. destruct E as [-> ->].
    rewrite List.app_nil_r in *. destruct (A eq_refl) as [-> ->]. apply A2. now rewrite !List.app_nil_r.
  - intros E. destruct x as [|x0 x]; [rewrite List.app_nil_r in *; destruct (A eq_refl) as [-> ->]; auto|].
    destruct y as [|y0 y]; [|apply B2; intros F; apply (f_equal (@List.length _)) in F; rewrite app_length in F; cbn in F; lia].
    rewrite List.app_nil_r in *. destruct (A2 eq_refl) as [_ ->]. apply B. intros F. apply (f_equal (@List.length _)) in F. rewrite app_length in F. cbn in F. lia.
Qed.

(* ---- the loop over the nodes ---- *)
Lemma loop_app a c j d : sync_models_from kinds growth sortf reg (a + c) j d =
  match sync_models_from kinds growth sortf reg a j d with (d', Ok _) => sync_models_from kinds growth sortf reg c (a + j) d' | x => x end.
Proof.
  revert j d. induction a as [|a IH]; intros j d; cbn [Nat.add sync_models_from]; [reflexivity|].
  destruct (model_at d j) as [m|].
  - destruct (sync_model kinds growth sortf reg m j d) as [d' [|e|]]; auto. rewrite IH, Nat.add_succ_r. reflexivity.
  - rewrite IH, Nat.add_succ_r. reflexivity.
Qed.
Lemma loop_skips k j d : sole_base d i -> (i < j \/ j + k <= i) -> sync_models_from kinds growth sortf reg k j d = (d, Ok tt).
Proof.
  intros SB. revert j. induction k as [|k IH]; intros j H; cbn [sync_models_from]; [reflexivity|].
  rewrite (IH (S j)) by lia. destruct (model_at d j) as [m|] eqn:E; [|reflexivity].
  unfold sync_model. destruct (SyncModelsM.home m =? "xmp") eqn:EH; [|apply IH; lia]. exfalso. apply String.eqb_eq in EH.
  unfold model_at in E. destruct (nth_error (d_nodes d) j) as [y|] eqn:En; [|discriminate].
  assert (j = i); [|lia]. apply (SB j y m En E). unfold SyncModelsM.home in EH. destruct (k_namespaces (tm_kind m)) as [|ns r]; [discriminate|]. eauto.
Qed.
Lemma D_sole l sp b : sole_base d0 i -> sole_base (D l sp b) i.
Proof.
  intros H j y m Hy Em Hh. destruct (Nat.eq_dec j i) as [|ne]; [assumption|]. cbn [D d_nodes] in Hy. rewrite nth_replace_neq in Hy by auto. eauto.
Qed.

Lemma desc_is : identifier_desc = map (fun x => SyncDesc (fst x) "xmp:Identifier" MERGE (conv_of_mark (snd x))) id_sources.
Proof. reflexivity. Qed.
Lemma sources_elsewhere : Forall (fun x => namespace_prefix (fst x) <> "xmp") id_sources.
Proof. repeat constructor; discriminate. Qed.

Lemma all_nodes l sp b : sole_base d0 i -> Forall (fun x => source (fst x) <> Some Panic) id_sources ->
  exists sp' b', sync_models kinds growth sortf reg (D l sp b) = (D (steps_of l id_sources) sp' b', Ok tt)
    /\ (steps_of l id_sources = l -> sp' = sp /\ b' = b) /\ (steps_of l id_sources <> l -> b' = true).
Proof.
  intros SB HP. unfold sync_models. cbn [D d_nodes]. rewrite replace_nth_length.
  assert (Li : i < List.length (d_nodes d0)) by (apply nth_error_Some; congruence).
  change (Doc (d_toolkit d0) _ _ _ _ _) with (D l sp b).
  replace (List.length (d_nodes d0)) with (i + (1 + (List.length (d_nodes d0) - i - 1))) by lia.
  rewrite loop_app, loop_skips by (auto using D_sole; lia). rewrite loop_app. cbn [sync_models_from]. rewrite Nat.add_0_r, D_model.
  unfold sync_model. change (SyncModelsM.home (TModel (k_base cdc) (set_nth 4 (ids l sp) vs)) =? "xmp") with true. cbv iota. rewrite desc_is.
  destruct (multi id_sources l sp b) as (sp' & b' & -> & A & B).
  { apply Forall_forall. intros x I. split; [exact (proj1 (Forall_forall _ _) sources_elsewhere x I)|exact (proj1 (Forall_forall _ _) HP x I)]. }
  exists sp', b'. split; [|auto]. apply loop_skips; [now apply D_sole|lia].
Qed.

Lemma D_start l sp : nth_error vs 4 = Some (ids l sp) -> D l sp (d_dirty d0) = d0.
Proof.
  intros H. unfold D. rewrite (set_nth_id _ _ _ H), (set_model_id _ _ Hm), (replace_nth_same _ _ _ Hn). destruct d0. reflexivity.
Qed.

(* ---- what the fold gives ---- *)
Definition covered (l : list ident) (s : string * option string) : Prop :=
  source_text (fst s) = "" \/ source_text (fst s) = first_text l \/ In (marked (snd s) (source_text (fst s))) (map ident_text l).
Lemma covered_grows l a s : covered l s -> covered (l ++ a) s.
Proof.
  unfold covered. intros [H|[H|H]]; [auto| |rewrite map_app, in_app_iff; auto]. destruct l; [now left|]. auto.
Qed.
Lemma text_plain t : ident_text (Ident t "") = t. Proof. reflexivity. Qed.
Lemma step1_covers l s : covered (step1 l (source_text (fst s)) (snd s)) s.
Proof.
  unfold covered, step1. destruct (source_text (fst s) =? "") eqn:E1; [apply String.eqb_eq in E1; auto|]. cbn [orb].
  destruct (_ =? first_text l) eqn:E2; [apply String.eqb_eq in E2; auto|].
  destruct (existsb _ l) eqn:E3; [apply exists_text in E3; auto|]. right; right. rewrite map_app, in_app_iff. right. left. reflexivity.
Qed.
Lemma steps_cover s l : Forall (covered (steps_of l s)) s.
Proof.
  revert l. induction s as [|x s IH]; intros l; [constructor|]. rewrite steps_cons. constructor; [|apply IH].
  destruct (steps_grow s (step1 l (source_text (fst x)) (snd x))) as [a ->]. apply covered_grows, step1_covers.
Qed.
Lemma covered_same l s : covered l s -> step1 l (source_text (fst s)) (snd s) = l.
Proof.
  unfold covered, step1. intros [->|[->|H]]; [reflexivity|rewrite String.eqb_refl, orb_true_r; reflexivity|].
  rewrite (proj2 (exists_text _ _) H). destruct (_ || _); reflexivity.
Qed.
Lemma covered_fold l s : Forall (covered l) s -> steps_of l s = l.
Proof. induction 1 as [|x s H _ IH]; [reflexivity|]. rewrite steps_cons, (covered_same _ _ H). exact IH. Qed.
Lemma steps_added s l : exists added, steps_of l s = (l ++ map (fun t => Ident t "") added)%list
  /\ NoDup added /\ (forall t, In t added -> ~ In t (map ident_text l))
  /\ (forall t, In t added -> exists p mark, In (p, mark) s /\ source_text p <> "" /\ t = marked mark (source_text p)).
Proof.
  revert l. induction s as [|[p mark] s IH]; intros l.
  { exists []. cbn. rewrite List.app_nil_r. split; [reflexivity|]. split; [constructor|]. split; intros t []. }
  rewrite steps_cons. cbn [fst snd]. destruct (IH (step1 l (source_text p) mark)) as (added & E & ND & FR & SR). rewrite E.
  assert (SR' : forall t, In t added -> exists p0 mark0, In (p0, mark0) ((p, mark) :: s) /\ source_text p0 <> "" /\ t = marked mark0 (source_text p0)).
  { intros t I. destruct (SR t I) as (p0 & k & A & B & C). exists p0, k. cbn [In]. auto. }
  unfold step1 in *. destruct ((source_text p =? "") || (source_text p =? first_text l)) eqn:E1; [exists added; auto|].
  destruct (existsb _ l) eqn:E2; [exists added; auto|].
  apply orb_false_iff in E1. destruct E1 as [E1 _]. apply String.eqb_neq in E1.
  exists (marked mark (source_text p) :: added). cbn [map]. rewrite <- List.app_assoc. split; [reflexivity|].
  rewrite map_app in FR. cbn [map] in FR. rewrite text_plain in FR.
  split; [|split].
  - constructor; [|assumption]. intros I. apply (FR _ I). rewrite in_app_iff. right. now left.
  - intros t [<-|I]; [|intros J; apply (FR t I); rewrite in_app_iff; auto].
    intros J. apply exists_text in J. congruence.
  - intros t [<-|I]; [exists p, mark; cbn [In]; auto|auto].
Qed.

(* the words of the specification *)
Lemma source_asked p r : source p = Some r <-> exists m, asked_model bops reg d0 p m /\ mo_get bops m p = r.
Proof.
  unfold source, asked_model. split.
  - destruct (path_namespace reg d0 p) as [ns|]; [|discriminate]. destruct (doc_find_model bops d0 ns) as [j|] eqn:E; [|discriminate].
    destruct (model_at d0 j) as [m|] eqn:Em; [|discriminate]. intros H. injection H as <-. exists m. split; [|reflexivity].
    destruct (find_index_some _ _ _ E) as (y & Fy & Ty & Hf). unfold model_at in Em. rewrite Fy in Em.
    exists ns, j, y. split; [reflexivity|]. split; [|assumption]. split; [assumption|]. split; [now apply model_can_iff|].
    intros k z Hk Hz Sz. apply model_can_iff in Sz. specialize (Hf k z Hk Hz). congruence.
  - intros (m & (ns & j & y & -> & F & Em) & <-). unfold doc_find_model.
    rewrite (find_index_first (model_can bops (ns_name ns)) (serves bops (ns_name ns)) _ j y); [|apply model_can_iff|assumption].
    unfold model_at. destruct F as [-> _]. rewrite Em. reflexivity.
Qed.
End F.
