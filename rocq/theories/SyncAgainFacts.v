(* Saving twice; when saving succeeds *)
From Coq Require Import List Arith ZArith Bool Ascii String Lia.
From Verif Require Import GoStr GoMap Names Semver RegistryM PathM PVList NodeM FilterM ArrayM CodecM DocM DocFacts TypeM TagM DecodeM TPathM ModelTypes SpecTrip SpecSync SyncModelsM SyncFacts SyncSpecFacts SyncSavedFacts.
Import ListNotations.
Local Open Scope string_scope.

Section F.
Context {X : Type}.
Variable cdc : string -> codec X.
Variable den_zero : gval X -> bool.
Variable kinds : nat -> string -> option (mkind X).
Variable growth : nat -> nat.
Variable sortf : list path_value -> list path_value.
Variable conv : string -> list (gval X) -> result (gval X).
Hypothesis Hk : forall f p k, library_kinds cdc den_zero f p = Some k -> kinds f p = Some k.
Notation model := (tmodel X).
Notation gval := (gval X).
Notation doc := (doc (tmodel X)).
Notation bops := (base_ops kinds growth sortf).
Notation lops := (lib_ops kinds growth sortf conv).
Notation lib := (library_models cdc den_zero).
Notation okd := (okd cdc den_zero).
Notation V := (V kinds growth sortf).
Notation shareds := (copied cdc ++ overwritten cdc conv)%list.
Notation evo := (evo cdc den_zero kinds growth sortf).
Notation run_step := (run_step kinds growth sortf).
Notation run_steps := (run_steps kinds growth sortf).
Notation evolved := (@evolved X).

(* ---- when saving succeeds ---- *)
Definition step_ok (s : @step X) : Prop :=
  match s with
  | Make _ => True
  | Set_ _ _ _ v => exists w, v = Ok w
  | Stop r => r = Ok tt
  end.
Definition fill_ok (s : @step X) : Prop := match s with Set_ true _ _ v => exists w, v = Ok w | _ => True end.
Ltac split_forall := repeat (first [apply Forall_nil|apply forall_when|apply forall_map; intro|apply Forall_app; split|apply Forall_cons]).
Lemma fills_ok x : Forall fill_ok (steps_to conv x).
Proof.
  unfold steps_to.
  destruct (home x =? "pdf"); [unfold pdf_to; split_forall; cbn; eauto|].
  destruct (home x =? "tiff"); [unfold tiff_to; split_forall; cbn; eauto|].
  destruct (home x =? "riffinfo"); [unfold riff_to; split_forall; cbn; eauto|].
  destruct (home x =? "id3"); [unfold id3_to; split_forall; cbn; eauto|].
  destruct (home x =? "iXML"). { unfold ixml_to. split_forall; try exact I. destruct (value x "iXML:speed"); split_forall; exact I. }
  destruct (home x =? "exif"); [|constructor].
  unfold exif_to. split_forall; try exact I.
  - cbn. unfold new_alt_string. cbn. destruct (emptyb _); cbn; eauto.
  - cbn. unfold new_alt_string. cbn. destruct (emptyb _); cbn; eauto.
  - cbn. eauto.
  - destruct (value x "exif:ISOSpeedRatings") as [| | | | |[|]| | |]; split_forall; exact I.
Qed.

Lemma get_cell (d : doc) j m ns f : okd d -> doc_find_model bops d ns = Some j -> In ns targets -> In f (touched (ns_name ns)) -> model_at d j = Some m -> exists t w, get_field m f = Some (t, w).
Proof.
  intros O E Ht Hf Hm. destruct (fm_model _ _ _ _ _ _ E) as (m' & Hm' & Ha). assert (m' = m) as -> by congruence.
  destruct (O _ _ Hm) as [L N]. apply (touched_field cdc den_zero m f L N). rewrite (home_can cdc den_zero _ _ L) in Ha. apply String.eqb_eq in Ha. now rewrite Ha.
Qed.
(* the models a step needs were made before it *)
Definition needs (d : doc) (s : @step X) : Prop := match s with Set_ _ (Model ns) _ _ => doc_find_model bops d ns <> None | _ => True end.
Lemma set_at_ok (d : doc) i m b f v d' r : model_at d i = Some m -> (exists t w, get_field m f = Some (t, w)) -> set_at d i b f v = (d', r) ->
  ((exists w, v = Ok w) -> r = Ok tt) /\ (b = false -> r = Ok tt -> exists w, v = Ok w).
Proof.
  intros Hm (t & w & G). unfold set_at. rewrite Hm, G. destruct (b && negb (is_empty t w)) eqn:B.
  - intros H. inversion H; subst. split; [auto|]. intros ->. discriminate.
  - destruct v; intros H; inversion H; subst; split; eauto; try discriminate. intros [? ?]. discriminate. intros [? ?]. discriminate.
Qed.
Lemma run_step_ok (d : doc) i x s d' r : okd d -> model_at d i = Some x -> allowed x s -> needs d s -> fill_ok s -> run_step i d s = (d', r) ->
  r = Ok tt <-> step_ok s.
Proof.
  intros O Hx Ha Hn Hf H. destruct s as [ns|b [ns|] f v|q]; cbn [SyncModelsM.run_step allowed needs fill_ok step_ok] in *.
  - split; [auto|]. intros _. destruct (make_model bops d ns) as [d1 r1] eqn:E. destruct (make_out cdc den_zero kinds growth sortf Hk _ _ _ _ Ha E) as [(j & _ & _ & ->)|(_ & m0 & _ & _ & -> & _)]; now inversion H.
  - destruct (doc_find_model bops d ns) as [j|] eqn:E; [|now destruct Hn]. destruct (fm_model _ _ _ _ _ _ E) as (m & Hm & _).
    destruct (set_at_ok _ _ _ _ _ _ _ _ Hm (get_cell _ _ _ _ _ O E (proj1 Ha) (proj2 Ha) Hm) H) as [A B]. split; [|exact A].
    intros Hr. destruct b; [exact Hf|]. now apply B.
  - destruct (O _ _ Hx) as [L N]. destruct (set_at_ok _ _ _ _ _ _ _ _ Hx (touched_field cdc den_zero x f L N (proj1 Ha)) H) as [A B]. split; [|exact A].
    intros Hr. destruct b; [exact Hf|]. now apply B.
  - inversion H; subst. split; auto.
Qed.
(* every assignment to another model comes after the call that makes it *)
Fixpoint made_first (l : list (@step X)) (seen : list string) : bool :=
  match l with
  | [] => true
  | Make ns :: r => made_first r (ns_name ns :: seen)
  | Set_ _ (Model ns) _ _ :: r => existsb (String.eqb (ns_name ns)) seen && made_first r seen
  | _ :: r => made_first r seen
  end.
Lemma mf_more l : forall seen seen', incl seen seen' -> made_first l seen = true -> made_first l seen' = true.
Proof.
  induction l as [|a l IH]; intros s1 s2 Hi H; [reflexivity|]. destruct a as [ns|b [ns|] f v|q]; cbn [made_first] in *.
  - refine (IH _ _ _ H). intros y [->|Hy]; [now left|right; auto].
  - apply andb_true_iff in H. destruct H as [H1 H2]. apply andb_true_iff. split; [|exact (IH _ _ Hi H2)].
    apply existsb_exists in H1. destruct H1 as (y & Hy & E). apply existsb_exists. exists y. auto.
  - exact (IH _ _ Hi H).
  - exact (IH _ _ Hi H).
Qed.
Lemma mf_app a b : forall seen, made_first a seen = true -> made_first b seen = true -> made_first (a ++ b)%list seen = true.
Proof.
  induction a as [|s a IH]; intros seen Ha Hb; [exact Hb|]. destruct s as [ns|c [ns|] f v|q]; cbn [made_first List.app] in *.
  - apply IH; [exact Ha|]. refine (mf_more _ _ _ _ Hb). intros y Hy. now right.
  - apply andb_true_iff in Ha. apply andb_true_iff. split; [apply Ha|]. now apply IH.
  - now apply IH.
  - now apply IH.
Qed.
Lemma mf_when b l seen : made_first l seen = true -> made_first (when b l) seen = true.
Proof. now destruct b. Qed.
Lemma mf_when_app b l r seen : made_first l seen = true -> made_first r seen = true -> made_first (when b l ++ r)%list seen = true.
Proof. intros H1 H2. apply mf_app; [now apply mf_when|exact H2]. Qed.
Lemma mf_map_app g (w : list gval) r seen : (forall v, made_first [g v] seen = true) -> made_first r seen = true -> made_first (map g w ++ r)%list seen = true.
Proof. intros H1 H2. apply mf_app; [|exact H2]. induction w as [|v w IH]; [reflexivity|]. cbn [map]. change (g v :: map g w) with ([g v] ++ map g w)%list. now apply mf_app. Qed.
Lemma mf_map g (w : list gval) seen : (forall v, made_first [g v] seen = true) -> made_first (map g w) seen = true.
Proof. intros H. rewrite <- (List.app_nil_r (map g w)). now apply mf_map_app. Qed.
Ltac made := repeat first [reflexivity|apply mf_map_app; [intro|]|apply mf_map; intro|apply mf_when_app|apply mf_when|progress cbn [List.app made_first ns_name]|rewrite andb_true_iff; split].
Lemma steps_made x : made_first (steps_to conv x) [] = true.
Proof.
  unfold steps_to.
  destruct (home x =? "pdf"); [reflexivity|].
  destruct (home x =? "tiff"). { unfold tiff_to. made. }
  destruct (home x =? "riffinfo"). { unfold riff_to. made. }
  destruct (home x =? "id3"). { unfold id3_to. cbv zeta. made. }
  destruct (home x =? "iXML"). { unfold ixml_to. destruct (value x "iXML:speed"); reflexivity. }
  destruct (home x =? "exif"); [|reflexivity].
  unfold exif_to. cbv zeta. destruct (value x "exif:ISOSpeedRatings") as [| | | | |[|]| | |]; made.
Qed.

Definition has_models (d : doc) (seen : list string) : Prop := forall ns, In ns targets -> In (ns_name ns) seen -> doc_find_model bops d ns <> None.
Lemma has_evo I d d' seen : evo I d d' -> has_models d seen -> has_models d' seen.
Proof. intros E H ns Ht Hi. specialize (H ns Ht Hi). destruct (doc_find_model bops d ns) eqn:F; [|now destruct H]. now rewrite (evo_found _ _ _ _ _ _ _ _ _ _ E F). Qed.
Lemma make_found d ns d' r : In ns targets -> make_model bops d ns = (d', r) -> doc_find_model bops d' ns <> None.
Proof.
  intros Ht H. destruct (make_out cdc den_zero kinds growth sortf Hk _ _ _ _ Ht H) as [(j & E & -> & _)|(N & m0 & _ & F & _ & _ & _ & _ & n & En & Em)]; [congruence|].
  intros C. rewrite fm_none in C. specialize (C (List.length (d_nodes d)) m0). rewrite (model_at_snoc d d' n _ En), Nat.ltb_irrefl, Nat.eqb_refl in C. specialize (C Em).
  rewrite (home_can cdc den_zero) in C by apply F. rewrite (new_home _ _ _ _ F) in C. now rewrite String.eqb_refl in C.
Qed.
Lemma run_steps_ok i l : forall (d : doc) x d' r seen, okd d -> model_at d i = Some x -> Forall (allowed x) l -> Forall fill_ok l ->
  made_first l seen = true -> has_models d seen -> run_steps i l d = (d', r) -> r = Ok tt <-> Forall step_ok l.
Proof.
  induction l as [|s l IH]; intros d x d' r seen O Hx Ha Hf Hm Hs H; cbn [SyncModelsM.run_steps] in H.
  - inversion H; subst. split; auto.
  - inversion Ha as [|? ? A1 A2]; subst. inversion Hf as [|? ? F1 F2]; subst.
    destruct (run_step i d s) as [d1 r1] eqn:E.
    assert (Hn : needs d s).
    { destruct s as [ns|b [ns|] f v|q]; cbn [needs]; auto. cbn [made_first] in Hm. apply andb_true_iff in Hm. destruct Hm as [Hm _].
      apply existsb_exists in Hm. destruct Hm as (y & Hy & Ey). apply String.eqb_eq in Ey. subst y. apply Hs; [apply A1|exact Hy]. }
    pose proof (run_step_ok _ _ _ _ _ _ O Hx A1 Hn F1 E) as K.
    pose proof (run_step_evo cdc den_zero kinds growth sortf conv Hk _ _ _ _ _ _ O Hx A1 E) as E1.
    destruct r1 as [[]|e|].
    + destruct (e_old _ _ _ _ _ _ _ _ E1 i x Hx) as (x1 & Hx1 & Ev). pose proof (evolved_home _ _ _ Ev) as Eh.
      assert (Hm' : exists seen', made_first l seen' = true /\ has_models d1 seen').
      { destruct s as [ns|b [ns|] f v|q]; cbn [made_first] in Hm.
        - exists (ns_name ns :: seen). split; [exact Hm|]. intros ns' Ht' [En|Hi].
          + apply targets_named in En; [subst ns'|exact A1|exact Ht']. cbn [SyncModelsM.run_step] in E.
            destruct (make_model bops d ns) as [d2 [r2| |]] eqn:Em; inversion E; subst. exact (make_found _ _ _ _ A1 Em).
          + exact (has_evo _ _ _ _ E1 Hs ns' Ht' Hi).
        - exists seen. apply andb_true_iff in Hm. split; [apply Hm|exact (has_evo _ _ _ _ E1 Hs)].
        - exists seen. split; [exact Hm|exact (has_evo _ _ _ _ E1 Hs)].
        - exists seen. split; [exact Hm|exact (has_evo _ _ _ _ E1 Hs)]. }
      destruct Hm' as (seen' & M1 & M2).
      rewrite (IH d1 x1 d' r seen' (evo_okd _ _ _ _ _ _ _ _ O E1) Hx1 (Forall_impl _ (fun s => allowed_home x x1 s Eh) A2) F2 M1 M2 H).
      rewrite Forall_cons_iff. tauto.
    + inversion H; subst. rewrite Forall_cons_iff, <- K. split; [discriminate|intros [F _]; discriminate].
    + inversion H; subst. rewrite Forall_cons_iff, <- K. split; [discriminate|intros [F _]; discriminate].
Qed.
Lemma loop_ok k : forall i (d d' : doc) r, okd d -> sync_to_loop lops k i d = (d', r) ->
  r = Ok tt <-> Forall step_ok (flat_map (steps_at conv d) (seq i k)).
Proof.
  induction k as [|k IH]; intros i d d' r O H; cbn [sync_to_loop] in H.
  - inversion H; subst. split; constructor.
  - cbn [seq flat_map]. rewrite Forall_app. unfold steps_at at 1. destruct (model_at d i) as [x|] eqn:Hx.
    2:{ rewrite (IH _ _ _ _ O H). split; [intros F; split; [constructor|exact F]|tauto]. }
    cbn [lib_ops mo_sync_to] in H. destruct (run_steps i (steps_to conv x) d) as [d1 r1] eqn:E.
    pose proof (run_steps_ok _ _ _ _ _ _ _ O Hx (steps_allowed conv x) (fills_ok x) (steps_made x) (fun ns _ F => match F with end) E) as K.
    pose proof (run_steps_evo cdc den_zero kinds growth sortf conv Hk _ _ _ _ _ _ O Hx (steps_allowed conv x) E) as E1.
    destruct r1 as [[]|e|].
    + rewrite (IH _ _ _ _ (evo_okd _ _ _ _ _ _ _ _ O E1) H).
      assert (G : forall l, ~ In i l -> flat_map (steps_at conv d1) l = flat_map (steps_at conv d) l).
      { intros l. induction l as [|j l IHl]; intros N; [reflexivity|]. cbn [flat_map]. rewrite IHl by (intros F; apply N; now right).
        f_equal. apply (steps_at_evo _ _ _ _ _ _ _ _ _ _ E1). intros ->. apply N. now left. }
      rewrite G by (rewrite in_seq; lia). tauto.
    + inversion H; subst. rewrite <- K. split; [discriminate|intros [F _]; discriminate].
    + inversion H; subst. rewrite <- K. split; [discriminate|intros [F _]; discriminate].
Qed.

(* ---- fields of the models of a document; D: a later state of it ---- *)
Definition fresh (m : model) : model := TModel (tm_kind m) (k_init (tm_kind m)).
Definition cell (D d : doc) (j : nat) (f : string) : option (ty X * gval) :=
  match model_at d j with
  | Some m => get_field m f
  | None => match model_at D j with Some m => get_field (fresh m) f | None => None end
  end.
Definition op_at (D : doc) (i j : nat) (f : string) (s : @step X) : list (@op X) :=
  match s with
  | Set_ b (Model ns) f' v => if match doc_find_model bops D ns with Some k => Nat.eqb k j | None => false end && (f' =? f) then [(b, v)] else []
  | Set_ b Self f' v => if Nat.eqb i j && (f' =? f) then [(b, v)] else []
  | _ => []
  end.
Definition ops_at D i j f l := flat_map (op_at D i j f) l.
Lemma set_at_cell D (d : doc) k m b f' v d' j f : model_at d k = Some m -> set_at d k b f' v = (d', Ok tt) ->
  cell D d' j f = fold_left apply_op (if Nat.eqb k j && (f' =? f) then [(b, v)] else []) (cell D d j f).
Proof.
  intros Hm H. destruct (set_at_get _ _ _ _ _ _ _ Hm H) as (m' & Hm' & G1 & G2 & G3). unfold cell. destruct (Nat.eqb_spec k j) as [->|N].
  - rewrite Hm, Hm'. destruct (String.eqb_spec f' f) as [->|Nf]; cbn [andb fold_left]; [exact G1|]. apply G2. congruence.
  - cbn [andb fold_left]. rewrite G3 by congruence. reflexivity.
Qed.
Lemma run_step_cell I D (d : doc) i x s d' j f : okd d -> model_at d i = Some x -> allowed x s -> run_step i d s = (d', Ok tt) -> evo I d' D ->
  cell D d' j f = fold_left apply_op (op_at D i j f s) (cell D d j f).
Proof.
  intros O Hx Ha H Ev. destruct s as [ns|b [ns|] f' v|q]; cbn [SyncModelsM.run_step allowed op_at] in *.
  - destruct (make_model bops d ns) as [d1 r1] eqn:E. cbn [fold_left]. destruct r1; inversion H; subst.
    destruct (make_out cdc den_zero kinds growth sortf Hk _ _ _ _ Ha E) as [(k & _ & -> & _)|(_ & m0 & _ & F & _ & _ & _ & _ & n & En & Em)]; [reflexivity|].
    unfold cell. rewrite (model_at_snoc d d' n _ En). destruct (Nat.ltb_spec j (List.length (d_nodes d))) as [L|L]; [reflexivity|].
    assert (Hj : model_at d j = None). { unfold model_at. now rewrite (proj2 (nth_error_None _ _) L). }
    rewrite Hj. destruct (Nat.eqb_spec j (List.length (d_nodes d))) as [->|N]; [|reflexivity]. rewrite Em.
    destruct (e_old _ _ _ _ _ _ _ _ Ev (List.length (d_nodes d)) m0) as (m & Hm & V).
    { rewrite (model_at_snoc d d' n _ En), Nat.ltb_irrefl, Nat.eqb_refl. exact Em. }
    rewrite Hm. destruct V as (K & _). unfold fresh. rewrite K. destruct F as (_ & _ & _ & F & _). rewrite <- F. now destruct m0.
  - destruct (doc_find_model bops d ns) as [k|] eqn:E; [|discriminate]. destruct (fm_model _ _ _ _ _ _ E) as (m & Hm & _).
    rewrite (set_at_cell D _ _ _ _ _ _ _ j f Hm H).
    assert (E' : doc_find_model bops d' ns = Some k).
    { refine (evo_found cdc den_zero kinds growth sortf _ _ _ _ _ (set_at_evo cdc den_zero kinds growth sortf conv (fun _ => True) _ _ _ _ _ _ _ _ Hm _ _ H) E).
      - destruct (fm_model _ _ _ _ _ _ E) as (m2 & Hm2 & Hc). assert (m2 = m) as -> by congruence. rewrite (home_can cdc den_zero _ _ (proj1 (O _ _ Hm))) in Hc.
        apply String.eqb_eq in Hc. rewrite Hc. apply Ha.
      - now right. }
    rewrite (evo_found _ _ _ _ _ _ _ _ _ _ Ev E'). reflexivity.
  - rewrite (set_at_cell D _ _ _ _ _ _ _ j f Hx H). reflexivity.
  - inversion H; subst. reflexivity.
Qed.
Lemma run_steps_cell D i l : forall I (d : doc) x d' j f, okd d -> model_at d i = Some x -> Forall (allowed x) l -> run_steps i l d = (d', Ok tt) -> evo I d' D ->
  cell D d' j f = fold_left apply_op (ops_at D i j f l) (cell D d j f).
Proof.
  induction l as [|s l IH]; intros I d x d' j f O Hx Ha H Ev; cbn [SyncModelsM.run_steps] in H.
  - inversion H; subst. reflexivity.
  - inversion Ha as [|? ? A1 A2]; subst. destruct (run_step i d s) as [d1 [[]|e|]] eqn:E; try discriminate.
    pose proof (run_step_evo cdc den_zero kinds growth sortf conv Hk _ _ _ _ _ _ O Hx A1 E) as E1. pose proof (evo_okd _ _ _ _ _ _ _ _ O E1) as O1.
    destruct (e_old _ _ _ _ _ _ _ _ E1 i x Hx) as (x1 & Hx1 & V1). pose proof (evolved_home _ _ _ V1) as Eh.
    pose proof (Forall_impl _ (fun s => allowed_home x x1 s Eh) A2) as A3.
    pose proof (run_steps_evo cdc den_zero kinds growth sortf conv Hk _ _ _ _ _ _ O1 Hx1 A3 H) as E2.
    rewrite (IH I d1 x1 d' j f O1 Hx1 A3 H Ev). rewrite (run_step_cell _ D _ _ _ _ _ j f O Hx A1 E (evo_trans _ _ _ _ _ _ _ _ _ _ E2 Ev)).
    unfold ops_at. cbn [flat_map]. now rewrite fold_left_app.
Qed.
Definition loop_ops (D d : doc) i k j f := flat_map (fun a => ops_at D a j f (steps_at conv d a)) (seq i k).
Lemma loop_cell D k : forall I i (d d' : doc) j f, okd d -> sync_to_loop lops k i d = (d', Ok tt) -> evo I d' D ->
  cell D d' j f = fold_left apply_op (loop_ops D d i k j f) (cell D d j f).
Proof.
  induction k as [|k IH]; intros I i d d' j f O H Ev; cbn [sync_to_loop] in H.
  - inversion H; subst. reflexivity.
  - unfold loop_ops. cbn [seq flat_map]. unfold steps_at at 1. destruct (model_at d i) as [x|] eqn:Hx; [|exact (IH _ _ _ _ _ _ O H Ev)].
    cbn [lib_ops mo_sync_to] in H. destruct (run_steps i (steps_to conv x) d) as [d1 [[]|e|]] eqn:E; try discriminate.
    pose proof (run_steps_evo cdc den_zero kinds growth sortf conv Hk _ _ _ _ _ _ O Hx (steps_allowed conv x) E) as E1.
    pose proof (evo_okd _ _ _ _ _ _ _ _ O E1) as O1. pose proof (loop_evo cdc den_zero kinds growth sortf conv Hk _ _ _ _ _ O1 H) as E2.
    rewrite (IH _ _ _ _ _ _ O1 H Ev), fold_left_app.
    rewrite (run_steps_cell D _ _ _ _ _ _ j f O Hx (steps_allowed conv x) E (evo_trans _ _ _ _ _ _ _ _ _ _ E2 Ev)).
    f_equal. unfold loop_ops.
    assert (G : forall l, ~ In i l -> flat_map (fun a => ops_at D a j f (steps_at conv d1 a)) l = flat_map (fun a => ops_at D a j f (steps_at conv d a)) l).
    { intros l. induction l as [|a l IHl]; intros N; [reflexivity|]. cbn [flat_map]. rewrite IHl by (intros F; apply N; now right).
      f_equal. f_equal. apply (steps_at_evo _ _ _ _ _ _ _ _ _ _ E1). intros ->. apply N. now left. }
    apply G. rewrite in_seq. lia.
Qed.
(* applying a list of assignments twice is applying it once *)
Notation run L := (fold_left apply_op L).
Lemma run_none (L : list (@op X)) : run L (@None (ty X * gval)) = None.
Proof. now induction L. Qed.
Lemma run_kept t (L : list (@op X)) : forall c, is_empty t c = false -> run L (Some (t, c)) = Some (t, c) \/ forall a, run L (Some (t, a)) = run L (Some (t, c)).
Proof.
  induction L as [|[b r] L IH]; intros c Hc; [now left|]. destruct b.
  - cbn [fold_left]. unfold apply_op at 2 4 6. cbn [fst snd]. rewrite Hc. cbn [andb negb]. destruct (IH c Hc) as [E|E]; [now left|right].
    intros a. unfold apply_op at 2. cbn. destruct (negb (is_empty t a)); [apply E|]. destruct r; apply E.
  - destruct r as [v| |]; [right; reflexivity|exact (IH c Hc)..].
Qed.
Lemma run_full t (L : list (@op X)) : forall a, is_empty t a = false ->
  (exists A, run L (Some (t, a)) = Some (t, A) /\ is_empty t A = false) \/ forall b, run L (Some (t, b)) = run L (Some (t, a)).
Proof.
  induction L as [|[b r] L IH]; intros a Ha; [left; now exists a|]. destruct b.
  - cbn [fold_left]. unfold apply_op at 2 4 6. cbn [fst snd]. rewrite Ha. cbn [andb negb]. destruct (IH a Ha) as [E|E]; [now left|right].
    intros c. unfold apply_op at 2. cbn. destruct (negb (is_empty t c)); [apply E|]. destruct r; apply E.
  - destruct r as [v| |]; [right; reflexivity|exact (IH a Ha)..].
Qed.
Lemma run_void t (L : list (@op X)) : forall b, is_empty t b = true -> (forall c, run L (Some (t, c)) = Some (t, c))
  \/ forall a, run L (Some (t, b)) = run L (Some (t, a)) \/ exists A, run L (Some (t, a)) = Some (t, A) /\ is_empty t A = false.
Proof.
  induction L as [|[k r] L IH]; intros b Hb; [now left|]. destruct r as [v| |].
  - right. intros a. cbn [fold_left]. unfold apply_op at 2 4 6. cbn [fst snd]. destruct k; [|now left]. rewrite Hb. cbn [andb negb].
    destruct (is_empty t a) eqn:Ea; cbn [negb]; [now left|]. destruct (run_full t L a Ea) as [E|E]; [now right|left; apply E].
  - assert (Q : forall c, run ((k, Err e) :: L) (Some (t, c)) = run L (Some (t, c))).
    { intros c. cbn [fold_left]. unfold apply_op at 2. cbn. now destruct (k && _). }
    destruct (IH b Hb) as [E|E]; [left; intros c; now rewrite Q|right; intros a; rewrite !Q; apply E].
  - assert (Q : forall c, run ((k, Panic) :: L) (Some (t, c)) = run L (Some (t, c))).
    { intros c. cbn [fold_left]. unfold apply_op at 2. cbn. now destruct (k && _). }
    destruct (IH b Hb) as [E|E]; [left; intros c; now rewrite Q|right; intros a; rewrite !Q; apply E].
Qed.
Lemma run_some t (L : list (@op X)) : forall w, exists w', run L (Some (t, w)) = Some (t, w').
Proof.
  induction L as [|[b r] L IH]; intros w; [now exists w|]. cbn [fold_left]. unfold apply_op at 2. cbn [fst snd].
  destruct (b && _); [apply IH|]. destruct r; apply IH.
Qed.
Lemma run_twice (L : list (@op X)) (o : option (ty X * gval)) : run L (run L o) = run L o.
Proof.
  destruct o as [[t w]|]; [|now rewrite !run_none]. destruct (run_some t L w) as [A HA]. rewrite HA. destruct (is_empty t A) eqn:E.
  - destruct (run_void t L A E) as [V|V]; [apply V|]. destruct (V w) as [V'|(B & HB & EB)]; [now rewrite V'|congruence].
  - destruct (run_kept t L A E) as [V|V]; [exact V|]. now rewrite <- (V w), HA.
Qed.

(* ---- the second time ---- *)
Lemma steps_evolved (P : Prop) m m' : evolved P m m' -> steps_to conv m' = steps_to conv m.
Proof.
  intros Ev. destruct (in_dec String.string_dec (home m) target_names) as [H|N].
  { rewrite !steps_nil; auto. now rewrite (evolved_home _ _ _ Ev). }
  pose proof (evolved_home _ _ _ Ev) as Eh. destruct Ev as (K & _ & G & _). unfold steps_to. rewrite Eh.
  assert (Gv : forall f, ~ In f (touched (home m)) -> value m' f = value m f /\ unset m' f = unset m f).
  { intros f Hf. unfold value, unset. now rewrite G. }
  assert (T : home m <> "exif" -> home m <> "riffinfo" -> touched (home m) = []).
  { intros Ne Nr. unfold touched. unfold target_names, targets in N. cbn in N.
    destruct (String.eqb_spec (home m) "exif") as [E|_]; [contradiction|]. destruct (String.eqb_spec (home m) "riffinfo") as [E|_]; [contradiction|].
    destruct (String.eqb_spec (home m) "xmpDM") as [E|_]; [rewrite E in N; tauto|].
    destruct (String.eqb_spec (home m) "dc") as [E|_]; [rewrite E in N; tauto|].
    destruct (String.eqb_spec (home m) "xmp") as [E|_]; [rewrite E in N; tauto|].
    destruct (String.eqb_spec (home m) "xmpRights") as [E|_]; [rewrite E in N; tauto|]. reflexivity. }
  destruct (String.eqb_spec (home m) "exif") as [E|Ne].
  - rewrite E. cbn [String.eqb Ascii.eqb Bool.eqb]. unfold exif_to. cbv zeta.
    rewrite E in Gv.
    repeat match goal with |- context [unset m' ?f] => rewrite (proj2 (Gv f ltac:(cbn; intuition discriminate))) end.
    repeat match goal with |- context [value m' ?f] => rewrite (proj1 (Gv f ltac:(cbn; intuition discriminate))) end. reflexivity.
  - destruct (String.eqb_spec (home m) "riffinfo") as [E|Nr].
    { rewrite E. cbn [String.eqb Ascii.eqb Bool.eqb]. unfold riff_to. rewrite E in Gv.
      now rewrite (proj1 (Gv "riffinfo:name" ltac:(cbn; intuition discriminate))). }
    assert (Gv' : forall f, value m' f = value m f /\ unset m' f = unset m f). { intros f. apply Gv. now rewrite (T Ne Nr). }
    assert (Q1 : forall f, value m' f = value m f) by (intros f; apply Gv'). assert (Q2 : forall f, unset m' f = unset m f) by (intros f; apply Gv').
    destruct (home m =? "pdf"); [unfold pdf_to; now rewrite !Q1|].
    destruct (home m =? "tiff"); [unfold tiff_to; now rewrite !Q1, !Q2|].
    destruct (home m =? "id3"); [unfold id3_to; cbv zeta; now rewrite !Q1, !Q2|].
    destruct (home m =? "iXML"); [unfold ixml_to; now rewrite !Q1|]. reflexivity.
Qed.

Lemma steps_at_all I d d' j : evo I d d' -> steps_at conv d' j = steps_at conv d j.
Proof.
  intros E. unfold steps_at. destruct (model_at d j) as [m|] eqn:Hm.
  - destruct (e_old _ _ _ _ _ _ _ _ E j m Hm) as (m' & -> & Ev). exact (steps_evolved _ _ _ Ev).
  - destruct (Nat.lt_ge_cases j (List.length (d_nodes d))) as [L|L]; [now rewrite (e_none _ _ _ _ _ _ _ _ E j L Hm)|].
    destruct (model_at d' j) as [m'|] eqn:Hm'; [|reflexivity].
    destruct (e_new _ _ _ _ _ _ _ _ E j L (model_at_lt _ _ _ Hm')) as (m & ns & m0 & H1 & Ht & _ & Hh & _ & _ & Ev & _).
    rewrite H1 in Hm'. inversion Hm'; subst. apply steps_nil. rewrite (evolved_home _ _ _ Ev), Hh. now apply in_map.
Qed.
Lemma steps_beyond d j : List.length (d_nodes d) <= j -> steps_at conv d j = [].
Proof. intros L. unfold steps_at, model_at. now rewrite (proj2 (nth_error_None _ _) L). Qed.
Lemma plan_longer {B} (d : doc) (g : nat -> list (@step X) -> list B) k : (forall a, g a [] = []) -> List.length (d_nodes d) <= k ->
  flat_map (fun a => g a (steps_at conv d a)) (seq 0 k) = flat_map (fun a => g a (steps_at conv d a)) (seq 0 (List.length (d_nodes d))).
Proof.
  intros Hg L. replace k with (List.length (d_nodes d) + (k - List.length (d_nodes d))) by lia. rewrite seq_app, flat_map_app. cbn [Nat.add].
  rewrite <- (List.app_nil_r (flat_map _ (seq 0 (List.length (d_nodes d))))) at 2. f_equal.
  remember (k - _) as n. clear Heqn L. assert (forall a, List.length (d_nodes d) <= a -> flat_map (fun a => g a (steps_at conv d a)) (seq a n) = []) as Q; [|apply Q; lia].
  induction n as [|n IH]; intros a La; [reflexivity|]. cbn. rewrite steps_beyond, Hg by assumption. apply IH. lia.
Qed.
Lemma run_steps_made i l : forall (d : doc) x d', okd d -> model_at d i = Some x -> Forall (allowed x) l -> run_steps i l d = (d', Ok tt) ->
  forall ns, In (Make ns) l -> doc_find_model bops d' ns <> None.
Proof.
  induction l as [|s l IH]; intros d x d' O Hx Ha H ns [].
  - subst s. cbn [SyncModelsM.run_steps] in H. inversion Ha as [|? ? A1 A2]; subst. destruct (run_step i d (Make ns)) as [d1 [[]|e|]] eqn:E; try discriminate.
    pose proof (run_step_evo cdc den_zero kinds growth sortf conv Hk _ _ _ _ _ _ O Hx A1 E) as E1. pose proof (evo_okd _ _ _ _ _ _ _ _ O E1) as O1.
    destruct (e_old _ _ _ _ _ _ _ _ E1 i x Hx) as (x1 & Hx1 & V1). pose proof (evolved_home _ _ _ V1) as Eh.
    pose proof (run_steps_evo cdc den_zero kinds growth sortf conv Hk _ _ _ _ _ _ O1 Hx1 (Forall_impl _ (fun s => allowed_home x x1 s Eh) A2) H) as E2.
    cbn [SyncModelsM.run_step allowed] in *. destruct (make_model bops d ns) as [d2 r2] eqn:Em. pose proof (make_found _ _ _ _ A1 Em) as F.
    assert (d2 = d1) as -> by (destruct r2; inversion E; reflexivity).
    destruct (doc_find_model bops d1 ns) eqn:Q; [|now destruct F]. now rewrite (evo_found _ _ _ _ _ _ _ _ _ _ E2 Q).
  - cbn [SyncModelsM.run_steps] in H. inversion Ha as [|? ? A1 A2]; subst. destruct (run_step i d s) as [d1 [[]|e|]] eqn:E; try discriminate.
    pose proof (run_step_evo cdc den_zero kinds growth sortf conv Hk _ _ _ _ _ _ O Hx A1 E) as E1. pose proof (evo_okd _ _ _ _ _ _ _ _ O E1) as O1.
    destruct (e_old _ _ _ _ _ _ _ _ E1 i x Hx) as (x1 & Hx1 & V1). pose proof (evolved_home _ _ _ V1) as Eh.
    exact (IH _ _ _ O1 Hx1 (Forall_impl _ (fun s => allowed_home x x1 s Eh) A2) H ns H0).
Qed.
Lemma loop_made k : forall i (d d' : doc), okd d -> sync_to_loop lops k i d = (d', Ok tt) ->
  forall a ns, In a (seq i k) -> In (Make ns) (steps_at conv d a) -> doc_find_model bops d' ns <> None.
Proof.
  induction k as [|k IH]; intros i d d' O H a ns Ha Hs; [contradiction|]. cbn [sync_to_loop] in H. cbn [seq] in Ha. destruct (model_at d i) as [x|] eqn:Hx.
  2:{ destruct Ha as [<-|Ha]; [unfold steps_at in Hs; rewrite Hx in Hs; contradiction|]. exact (IH _ _ _ O H a ns Ha Hs). }
  cbn [lib_ops mo_sync_to] in H. destruct (run_steps i (steps_to conv x) d) as [d1 [[]|e|]] eqn:E; try discriminate.
  pose proof (run_steps_evo cdc den_zero kinds growth sortf conv Hk _ _ _ _ _ _ O Hx (steps_allowed conv x) E) as E1.
  pose proof (evo_okd _ _ _ _ _ _ _ _ O E1) as O1. pose proof (loop_evo cdc den_zero kinds growth sortf conv Hk _ _ _ _ _ O1 H) as E2.
  destruct Ha as [<-|Ha].
  - unfold steps_at in Hs. rewrite Hx in Hs. pose proof (run_steps_made _ _ _ _ _ O Hx (steps_allowed conv x) E ns Hs) as F.
    destruct (doc_find_model bops d1 ns) eqn:Q; [|now destruct F]. now rewrite (evo_found _ _ _ _ _ _ _ _ _ _ E2 Q).
  - apply (IH _ _ _ O1 H a ns Ha). now rewrite (steps_at_all _ _ _ a E1).
Qed.
Lemma put_model_len (d : doc) i m : List.length (d_nodes (put_model d i m)) = List.length (d_nodes d).
Proof. unfold put_model. destruct (nth_error (d_nodes d) i) eqn:E; [|reflexivity]. cbn. apply replace_nth_length. Qed.
Lemma set_at_len (d : doc) i b f v d' r : set_at d i b f v = (d', r) -> List.length (d_nodes d') = List.length (d_nodes d).
Proof.
  unfold set_at. destruct (model_at d i); [|intros H; now inversion H]. destruct (get_field t f) as [[u w]|]; [|intros H; now inversion H].
  destruct (b && _); [intros H; now inversion H|]. destruct v; intros H; inversion H; subst; auto using put_model_len.
Qed.
Lemma run_step_len (d : doc) i s d' r : (forall ns, s = Make ns -> doc_find_model bops d ns <> None) -> run_step i d s = (d', r) -> List.length (d_nodes d') = List.length (d_nodes d).
Proof.
  intros Hm H. destruct s as [ns|b [ns|] f v|q]; cbn [SyncModelsM.run_step] in H.
  - specialize (Hm ns eq_refl). unfold make_model in H. destruct (doc_find_model bops d ns); [|now destruct Hm]. now inversion H.
  - destruct (doc_find_model bops d ns); [exact (set_at_len _ _ _ _ _ _ _ H)|now inversion H].
  - exact (set_at_len _ _ _ _ _ _ _ H).
  - now inversion H.
Qed.
Lemma run_steps_len i l : forall (d : doc) x d' r, okd d -> model_at d i = Some x -> Forall (allowed x) l ->
  (forall ns, In (Make ns) l -> doc_find_model bops d ns <> None) -> run_steps i l d = (d', r) -> List.length (d_nodes d') = List.length (d_nodes d).
Proof.
  induction l as [|s l IH]; intros d x d' r O Hx Ha Hm H; cbn [SyncModelsM.run_steps] in H; [now inversion H|].
  inversion Ha as [|? ? A1 A2]; subst. destruct (run_step i d s) as [d1 r1] eqn:E.
  assert (L1 : List.length (d_nodes d1) = List.length (d_nodes d)). { apply (run_step_len _ _ _ _ _ (fun ns Q => Hm ns (or_introl Q)) E). }
  pose proof (run_step_evo cdc den_zero kinds growth sortf conv Hk _ _ _ _ _ _ O Hx A1 E) as E1. pose proof (evo_okd _ _ _ _ _ _ _ _ O E1) as O1.
  destruct r1 as [[]|e|]; [|inversion H; subst; exact L1..]. destruct (e_old _ _ _ _ _ _ _ _ E1 i x Hx) as (x1 & Hx1 & V1). pose proof (evolved_home _ _ _ V1) as Eh.
  rewrite <- L1. apply (IH d1 x1 d' r O1 Hx1 (Forall_impl _ (fun s => allowed_home x x1 s Eh) A2)); [|exact H].
  intros ns Hn. specialize (Hm ns (or_intror Hn)). destruct (doc_find_model bops d ns) eqn:Q; [|now destruct Hm]. now rewrite (evo_found _ _ _ _ _ _ _ _ _ _ E1 Q).
Qed.
Lemma loop_len k : forall i (d d' : doc) r, okd d -> (forall a ns, In (Make ns) (steps_at conv d a) -> doc_find_model bops d ns <> None) ->
  sync_to_loop lops k i d = (d', r) -> List.length (d_nodes d') = List.length (d_nodes d).
Proof.
  induction k as [|k IH]; intros i d d' r O Hm H; cbn [sync_to_loop] in H; [now inversion H|]. destruct (model_at d i) as [x|] eqn:Hx; [|exact (IH _ _ _ _ O Hm H)].
  cbn [lib_ops mo_sync_to] in H. destruct (run_steps i (steps_to conv x) d) as [d1 r1] eqn:E.
  pose proof (run_steps_evo cdc den_zero kinds growth sortf conv Hk _ _ _ _ _ _ O Hx (steps_allowed conv x) E) as E1.
  assert (L1 : List.length (d_nodes d1) = List.length (d_nodes d)).
  { apply (run_steps_len _ _ _ _ _ _ O Hx (steps_allowed conv x)) in E; [exact E|]. intros ns Hn. apply (Hm i ns). unfold steps_at. now rewrite Hx. }
  destruct r1 as [[]|e|]; [|inversion H; subst; exact L1..]. rewrite <- L1. apply (IH _ _ _ _ (evo_okd _ _ _ _ _ _ _ _ O E1)) in H; [exact H|].
  intros a ns Ha. rewrite (steps_at_all _ _ _ a E1) in Ha. specialize (Hm a ns Ha). destruct (doc_find_model bops d ns) eqn:Q; [|now destruct Hm].
  now rewrite (evo_found _ _ _ _ _ _ _ _ _ _ E1 Q).
Qed.
End F.
