(* What saving changes, saving twice, and when saving succeeds, in the terms of SpecSync.v *)
From Coq Require Import List Arith ZArith Bool Ascii String Lia.
From Verif Require Import GoStr GoMap Names Semver RegistryM PathM PVList NodeM FilterM ArrayM CodecM DocM DocFacts TypeM TagM DecodeM TPathM ModelTypes SpecTrip SpecSync SyncModelsM SyncFacts SyncSpecFacts SyncSavedFacts SyncAgainFacts.
Import ListNotations.
Local Open Scope string_scope.

Section F.
Context {X : Type}.
Variable cdc : string -> codec X.
Variable den_zero : gval X -> bool.
Variable kinds : nat -> string -> option (mkind X).
Variable growth : nat -> nat.
Variable sortf : list path_value -> list path_value.
Variable conv : string -> list (gval X) -> result (gval X).
Hypothesis Hk : forall f p k, library_kinds cdc den_zero f p = Some k -> kinds f p = Some k.
Notation model := (tmodel X).
Notation gval := (gval X).
Notation doc := (doc (tmodel X)).
Notation bops := (base_ops kinds growth sortf).
Notation lops := (lib_ops kinds growth sortf conv).
Notation lib := (library_models cdc den_zero).
Notation okd := (okd cdc den_zero).
Notation V := (V kinds growth sortf).
Notation shareds := (copied cdc ++ overwritten cdc conv)%list.
Notation evo := (evo cdc den_zero kinds growth sortf).
Notation run_step := (run_step kinds growth sortf).
Notation run_steps := (run_steps kinds growth sortf).
Notation evolved := (@evolved X).


Lemma row_named (m : model) p f : In (tm_kind m) lib -> home m = p -> existsb (fun s => (sh_prefix s =? p) && (sh_name s =? f)) shareds = true ->
  Exists (fun s => is_a m (sh_prefix s) = true /\ sh_name s = f) shareds.
Proof.
  intros L <- H. apply existsb_exists in H. destruct H as (s & Hs & E). apply andb_true_iff in E. destruct E as [E1 E2]. apply String.eqb_eq in E1, E2.
  apply Exists_exists. exists s. split; [exact Hs|]. rewrite (home_can cdc den_zero) by assumption. rewrite E1, String.eqb_refl. auto.
Qed.
Ltac named E H := left; cbn in H; repeat (destruct H as [<-|H]; [apply (row_named _ _ _ ltac:(eassumption) E); reflexivity|]); contradiction.
Lemma touched_changes (m : model) f : In (tm_kind m) lib -> In f (touched (home m)) -> saving_changes cdc conv m f.
Proof.
  intros L. unfold touched, saving_changes.
  destruct (String.eqb_spec (home m) "exif") as [E|_]. { intros H; right; right; left. now rewrite (home_can cdc den_zero), E by assumption. }
  destruct (String.eqb_spec (home m) "riffinfo") as [E|_]. { intros H; right; right; right. now rewrite (home_can cdc den_zero), E by assumption. }
  destruct (String.eqb_spec (home m) "xmpDM") as [E|_].
  { intros [<-|[<-|H]]; [right; left; rewrite (home_can cdc den_zero), E by assumption; cbn; tauto..|]. named E H. }
  destruct (String.eqb_spec (home m) "dc") as [E|_]. { intros H. named E H. }
  destruct (String.eqb_spec (home m) "xmp") as [E|_]. { intros H. named E H. }
  destruct (String.eqb_spec (home m) "xmpRights") as [E|_]. { intros H. named E H. }
  contradiction.
Qed.
Lemma evo_same I (changes : model -> string -> Prop) d d' : okd d -> evo I d d' -> (forall m f, In (tm_kind m) lib -> In f (touched (home m)) -> changes m f) ->
  same_but cdc den_zero changes ["dc"; "xmp"; "xmpDM"; "xmpRights"] d d'.
Proof.
  intros O E Hc. pose proof E as E0. destruct E as [E1 E2 E3 E4 E5 E6 E7 E8]. repeat (split; [assumption|]). split.
  - intros i n Hn. assert (Li : i < List.length (d_nodes d)) by (apply nth_error_Some; congruence).
    destruct (nth_error (d_nodes d') i) as [n'|] eqn:Hn'; [|apply nth_error_None in Hn'; lia]. exists n'. split; [reflexivity|].
    pose proof (E5 i n n' Hn Hn') as S. unfold shell in S. inversion S as [[S1 S2 S3 S4]]. repeat (split; [reflexivity|]).
    specialize (E6 i Li). specialize (E7 i). unfold model_at in E6, E7. rewrite Hn, Hn' in *. destruct (n_model n) as [m|] eqn:Em; [|auto].
    destruct (E7 m eq_refl) as (m' & -> & (K & N & G & _)). exists m'. repeat (split; [auto|]). intros f Hf. rewrite <- !get_field_field. apply G.
    intros Hi. apply Hf, Hc; [|exact Hi]. apply (O i). unfold model_at. now rewrite Hn.
  - intros i n' Hn' L. assert (Li : i < List.length (d_nodes d')) by (apply nth_error_Some; congruence).
    destruct (E8 i L Li) as (m & ns & m0 & Hm & Ht & Hw & Hh & Hl & Hn & (K & _ & G & _) & Fn). exists m, (ns_name ns).
    unfold model_at in Hm. rewrite Hn' in Hm. split; [exact Hm|]. split.
    { unfold targets in Ht. cbn in Ht. cbn. destruct Ht as [<-|[<-|[<-|[<-|[]]]]]; cbn; tauto. }
    destruct (target_new cdc den_zero kinds growth sortf Hk ns Ht) as (m1 & Hm1 & F). assert (m1 = m0) as -> by (unfold new_of in *; congruence).
    assert (K' : In (tm_kind m) lib) by now rewrite K.
    split. { rewrite (home_can cdc den_zero) by exact K'. unfold home at 1. rewrite K. fold (home m0). rewrite Hh. apply String.eqb_refl. }
    split; [exact K'|]. split.
    + intros f Hf. rewrite <- !get_field_field. rewrite K. destruct F as (_ & _ & _ & F & _). rewrite <- F. destruct m0 as [k0 v0]. cbn [tm_kind tm_vals]. apply G.
      intros Hi. apply Hf, Hc; [exact K'|]. unfold home. rewrite K. exact Hi.
    + apply Forall_forall. intros y Hy. apply in_models_of in Hy. destruct Hy as [j Hj]. rewrite fm_none in Fn. exact (Fn _ _ Hj).
Qed.
Lemma dirty_same changes made (d d1 : doc) b : same_but cdc den_zero changes made d d1 -> same_but cdc den_zero changes made d (with_dirty d1 b).
Proof. exact (fun H => H). Qed.
Theorem saved_same (d d' : doc) r : library_values cdc den_zero d -> sync_to_xmp lops d = (d', r) ->
  same_but cdc den_zero (saving_changes cdc conv) ["dc"; "xmp"; "xmpDM"; "xmpRights"] d d'.
Proof.
  intros Hl H. pose proof (proj2 (okd_values cdc den_zero d) Hl) as O. unfold sync_to_xmp in H. destruct (negb (d_dirty d)).
  - inversion H; subst. exact (evo_same (fun _ => False) _ _ _ O (evo_refl _ _ _ _ _ _ _) touched_changes).
  - destruct (sync_to_loop lops (List.length (d_nodes d)) 0 d) as [d1 r1] eqn:E.
    pose proof (evo_same _ _ _ _ O (loop_evo cdc den_zero kinds growth sortf conv Hk _ _ _ _ _ O E) touched_changes) as S.
    destruct r1 as [[]|e|]; inversion H; subst; exact S.
Qed.
Theorem saved_again (d d' d'' : doc) r : library_values cdc den_zero d -> d_dirty d = true -> sync_to_xmp lops d = (d', Ok tt) ->
  sync_to_xmp lops (set_dirty d') = (d'', r) -> r = Ok tt /\ same_but cdc den_zero (fun _ _ => False) [] d' d''.
Proof.
  intros Hl Hd H1 H2. pose proof (proj2 (okd_values cdc den_zero d) Hl) as O. unfold sync_to_xmp in H1, H2. rewrite Hd in H1. cbn [negb set_dirty with_dirty d_dirty] in H1, H2.
  destruct (sync_to_loop lops (List.length (d_nodes d)) 0 d) as [d1 [[]|e|]] eqn:E; inversion H1; subst d'; clear H1.
  pose proof (loop_evo cdc den_zero kinds growth sortf conv Hk _ _ _ _ _ O E) as Ev. pose proof (evo_okd _ _ _ _ _ _ _ _ O Ev) as O1.
  set (d2 := set_dirty (with_dirty d1 false)) in *.
  assert (Ev' : evo (fun j => 0 <= j < 0 + List.length (d_nodes d)) d d2) by (destruct Ev as [a b c e f g h i]; split; [exact a|exact b|exact c|exact e|exact f|exact g|exact h|exact i]).
  assert (O2 : okd d2) by exact O1.
  change (List.length (d_nodes (with_dirty d1 false))) with (List.length (d_nodes d2)) in H2.
  destruct (sync_to_loop lops (List.length (d_nodes d2)) 0 d2) as [d3 r3] eqn:E2.
  pose proof (loop_evo cdc den_zero kinds growth sortf conv Hk _ _ _ _ _ O2 E2) as Ev2.
  assert (Ev2' : evo (fun j => 0 <= j < 0 + List.length (d_nodes d2)) d1 d3) by (destruct Ev2 as [a b c e f g h i]; split; [exact a|exact b|exact c|exact e|exact f|exact g|exact h|exact i]).
  assert (St : forall a, steps_at conv d2 a = steps_at conv d a) by (intros a; exact (steps_at_all _ _ _ _ _ _ _ _ _ a Ev')).
  assert (R3 : r3 = Ok tt).
  { apply (loop_ok cdc den_zero kinds growth sortf conv Hk _ _ _ _ _ O2 E2).
    rewrite (flat_map_ext (steps_at conv d2) (steps_at conv d)) by exact St.
    pose proof (plan_longer conv d (fun _ l => l) (List.length (d_nodes d2)) (fun _ => eq_refl) (e_len _ _ _ _ _ _ _ _ Ev')) as PL.
    cbn beta in PL. change (fun a => steps_at conv d a) with (steps_at conv d) in PL. rewrite PL.
    now apply (loop_ok cdc den_zero kinds growth sortf conv Hk _ _ _ _ _ O E). }
  subst r3. inversion H2; subst d'' r. split; [reflexivity|].
  assert (Len : List.length (d_nodes d3) = List.length (d_nodes d2)).
  { apply (loop_len cdc den_zero kinds growth sortf conv Hk _ _ _ _ _ O2) in E2; [exact E2|]. intros a ns Ha. rewrite St in Ha.
    destruct (Nat.lt_ge_cases a (List.length (d_nodes d))) as [L|L]; [|rewrite steps_beyond in Ha by assumption; contradiction].
    apply (loop_made cdc den_zero kinds growth sortf conv Hk _ _ _ _ O E a ns); [apply in_seq; lia|exact Ha]. }
  assert (C : forall j f, cell d3 d3 j f = cell d3 d2 j f).
  { intros j f. rewrite (loop_cell cdc den_zero kinds growth sortf conv Hk d3 _ (fun _ => False) 0 d2 d3 j f O2 E2 (evo_refl _ _ _ _ _ _ _)).
    assert (Q : cell d3 d2 j f = fold_left apply_op (loop_ops kinds growth sortf conv d3 d 0 (List.length (d_nodes d)) j f) (cell d3 d j f)).
    { change (cell d3 d2 j f) with (cell d3 d1 j f). apply (loop_cell cdc den_zero kinds growth sortf conv Hk d3 _ _ 0 d d1 j f O E Ev2'). }
    rewrite Q at 1. unfold loop_ops at 1.
    rewrite (flat_map_ext (fun a => ops_at kinds growth sortf d3 a j f (steps_at conv d2 a)) (fun a => ops_at kinds growth sortf d3 a j f (steps_at conv d a)))
      by (intros a; now rewrite St).
    rewrite (plan_longer conv d (fun a l => ops_at kinds growth sortf d3 a j f l) (List.length (d_nodes d2)) (fun _ => eq_refl) (e_len _ _ _ _ _ _ _ _ Ev')).
    fold (loop_ops kinds growth sortf conv d3 d 0 (List.length (d_nodes d)) j f). rewrite run_twice. now rewrite Q. }
  destruct Ev2 as [F1 F2 F3 F4 F5 F6 F7 F8]. split; [exact F1|]. split; [exact F2|]. split; [exact F3|]. split.
  - intros i n Hn. change (nth_error (d_nodes d2) i = Some n) in Hn. assert (Li : i < List.length (d_nodes d2)) by (apply nth_error_Some; congruence).
    change (d_nodes (with_dirty d3 false)) with (d_nodes d3).
    destruct (nth_error (d_nodes d3) i) as [n'|] eqn:Hn'; [|apply nth_error_None in Hn'; lia]. exists n'. split; [reflexivity|].
    pose proof (F5 i n n' Hn Hn') as S. unfold shell in S. inversion S as [[S1 S2 S3 S4]]. repeat (split; [reflexivity|]).
    specialize (F6 i Li). specialize (F7 i). unfold model_at in F6, F7. rewrite Hn, Hn' in *. destruct (n_model n) as [m|] eqn:Em; [|auto].
    destruct (F7 m eq_refl) as (m' & Em' & (K & _)). exists m'. split; [exact Em'|]. split; [exact K|]. intros f _. rewrite <- !get_field_field.
    specialize (C i f). unfold cell, model_at in C. now rewrite Hn, Hn', Em, Em' in C.
  - intros i n' Hn' L. exfalso. change (nth_error (d_nodes d3) i = Some n') in Hn'. change (List.length (d_nodes d2) <= i) in L.
    assert (i < List.length (d_nodes d3)) by (apply nth_error_Some; congruence). lia.
Qed.

(* ---- also when saving fails ---- *)
Lemma run_step_stays (d : doc) i x s d' r : okd d -> model_at d i = Some x -> allowed x s -> run_step i d s = (d', r) -> r <> Ok tt -> d' = d.
Proof.
  intros O Hx Ha H N. destruct s as [ns|b [ns|] f v|q]; cbn [SyncModelsM.run_step allowed] in *.
  - destruct (make_model bops d ns) as [d1 r1] eqn:E. destruct (make_out cdc den_zero kinds growth sortf Hk _ _ _ _ Ha E) as [(j & _ & _ & ->)|(_ & m0 & _ & _ & -> & _)]; inversion H; subst; now destruct N.
  - destruct (doc_find_model bops d ns) as [j|]; [|now inversion H]. unfold set_at in H. destruct (model_at d j) as [m|]; [|now inversion H].
    destruct (get_field m f) as [[t w]|]; [|now inversion H]. destruct (b && _); [now inversion H|]. destruct v; inversion H; subst; auto. now destruct N.
  - unfold set_at in H. destruct (model_at d i) as [m|]; [|now inversion H].
    destruct (get_field m f) as [[t w]|]; [|now inversion H]. destruct (b && _); [now inversion H|]. destruct v; inversion H; subst; auto. now destruct N.
  - now inversion H.
Qed.
Lemma run_steps_some i l : forall (d : doc) x d' r ns f, okd d -> model_at d i = Some x -> Forall (allowed x) l -> In ns targets ->
  run_steps i l d = (d', r) -> exists L, incl L (cell_ops ns f l) /\ V d' ns f = fold_left apply_op L (V d ns f).
Proof.
  induction l as [|s l IH]; intros d x d' r ns f O Hx Ha Ht H; cbn [SyncModelsM.run_steps] in H.
  - inversion H; subst. exists []. split; [intros a []|reflexivity].
  - inversion Ha as [|? ? A1 A2]; subst. destruct (run_step i d s) as [d1 r1] eqn:E.
    pose proof (run_step_evo cdc den_zero kinds growth sortf conv Hk _ _ _ _ _ _ O Hx A1 E) as E1. destruct r1 as [[]|e|].
    + destruct (e_old _ _ _ _ _ _ _ _ E1 i x Hx) as (x1 & Hx1 & Ev). pose proof (evolved_home _ _ _ Ev) as Eh.
      destruct (IH d1 x1 d' r ns f (evo_okd _ _ _ _ _ _ _ _ O E1) Hx1 (Forall_impl _ (fun s => allowed_home x x1 s Eh) A2) Ht H) as (L & Hi & HL).
      exists (cell_op ns f s ++ L)%list. split.
      * unfold cell_ops. cbn [flat_map]. apply incl_app; [apply incl_appl, incl_refl|apply incl_appr, Hi].
      * rewrite HL, (run_step_V cdc den_zero kinds growth sortf conv Hk _ _ _ _ _ _ _ O Hx A1 Ht E). now rewrite fold_left_app.
    + inversion H; subst. exists []. split; [intros a []|]. rewrite (run_step_stays _ _ _ _ _ _ O Hx A1 E); [reflexivity|discriminate].
    + inversion H; subst. exists []. split; [intros a []|]. rewrite (run_step_stays _ _ _ _ _ _ O Hx A1 E); [reflexivity|discriminate].
Qed.
Lemma loop_some k ns f : In ns targets -> forall i (d d' : doc) r, okd d -> sync_to_loop lops k i d = (d', r) ->
  exists L, incl L (cell_ops ns f (flat_map (steps_at conv d) (seq i k))) /\ V d' ns f = fold_left apply_op L (V d ns f).
Proof.
  intros Ht. induction k as [|k IH]; intros i d d' r O H; cbn [sync_to_loop] in H.
  - inversion H; subst. exists []. split; [intros a []|reflexivity].
  - cbn [seq flat_map]. unfold steps_at at 1. destruct (model_at d i) as [x|] eqn:Hx; [|now apply IH in H].
    cbn [lib_ops mo_sync_to] in H. destruct (run_steps i (steps_to conv x) d) as [d1 r1] eqn:E. unfold cell_ops. rewrite flat_map_app.
    pose proof (run_steps_evo cdc den_zero kinds growth sortf conv Hk _ _ _ _ _ _ O Hx (steps_allowed conv x) E) as E1.
    destruct (run_steps_some _ _ _ _ _ _ ns f O Hx (steps_allowed conv x) Ht E) as (L1 & I1 & V1).
    destruct r1 as [[]|e|].
    + destruct (IH _ _ _ _ (evo_okd _ _ _ _ _ _ _ _ O E1) H) as (L2 & I2 & V2). exists (L1 ++ L2)%list. split.
      * apply incl_app; [apply incl_appl, I1|apply incl_appr]. intros a Ha. apply I2 in Ha. unfold cell_ops in Ha.
        rewrite (flat_map_ext (steps_at conv d1) (steps_at conv d)) in Ha by (intros j; exact (steps_at_all _ _ _ _ _ _ _ _ _ j E1)). exact Ha.
      * now rewrite V2, V1, fold_left_app.
    + inversion H; subst. exists L1. split; [apply incl_appl, I1|exact V1].
    + inversion H; subst. exists L1. split; [apply incl_appl, I1|exact V1].
Qed.

Hypothesis Hz : c_empty (cdc "xmp.Date") (c_zero (cdc "xmp.Date")) = true /\ c_empty (cdc "xmp.Bool") (c_zero (cdc "xmp.Bool")) = true.
Lemma only_fills t (L : list (@op X)) : puts L = [] -> forall w, is_empty t w = false -> fold_left apply_op L (Some (t, w)) = Some (t, w).
Proof.
  induction L as [|[b r] L IH]; intros Hp w Hw; [reflexivity|]. cbn [fold_left]. unfold apply_op at 2. cbn [fst snd]. rewrite Hw.
  destruct b; cbn [andb negb]; [exact (IH Hp w Hw)|]. destruct r; [discriminate|exact (IH Hp w Hw)..].
Qed.
Lemma puts_incl (L L' : list (@op X)) : incl L' L -> puts L = [] -> puts L' = [].
Proof.
  intros Hi Hp. destruct (puts L') as [|v l] eqn:E; [reflexivity|]. assert (Hv : In v (puts L')) by (rewrite E; now left).
  unfold puts in Hv. apply in_flat_map in Hv. destruct Hv as (o & Ho & Hv). assert (Hv' : In v (puts L)) by (apply in_flat_map; exists o; split; [now apply Hi|exact Hv]).
  now rewrite Hp in Hv'.
Qed.
Theorem said_kept (d d' : doc) r s v : library_values cdc den_zero d -> sync_to_xmp lops d = (d', r) -> In s (copied cdc) ->
  said d (sh_prefix s) (sh_name s) = Some v -> said d' (sh_prefix s) (sh_name s) = Some v.
Proof.
  intros Hl H Hs0 Hv. unfold sync_to_xmp in H. destruct (negb (d_dirty d)); [inversion H; subst; exact Hv|].
  assert (Hs : In s shareds) by (apply in_or_app; now left).
  pose proof (proj2 (okd_values cdc den_zero d) Hl) as O. destruct (sync_to_loop lops (List.length (d_nodes d)) 0 d) as [d1 r1] eqn:E.
  pose proof (loop_evo cdc den_zero kinds growth sortf conv Hk _ _ _ _ _ O E) as Ev. pose proof (evo_okd _ _ _ _ _ _ _ _ O Ev) as O1.
  assert (Q : said d1 (sh_prefix s) (sh_name s) = Some v); [|destruct r1 as [[]|e|]; inversion H; subst; exact Q].
  pose proof (rows_typed cdc den_zero kinds growth sortf conv Hk Hz) as R. rewrite Forall_forall in R. pose proof (R s Hs) as Rs.
  destruct (said_V _ _ _ _ _ s d Rs O) as (ns & Ht & En & S0 & v0 & V0).
  destruct (said_V _ _ _ _ _ s d1 Rs O1) as (ns1 & Ht1 & En1 & S1 & _). assert (ns1 = ns) as -> by (apply targets_named; congruence).
  rewrite S1. rewrite S0, V0 in Hv. cbn [seen_at] in Hv. unfold seen in Hv. destruct (is_empty (sh_type s) v0) eqn:E0; [discriminate|]. inversion Hv; subst v0.
  destruct (loop_some _ ns (sh_name s) Ht _ _ _ _ O E) as (L & Hi & HL). rewrite plan_models in Hi.
  destruct (plan_rows cdc den_zero conv Hz d s ns Hl Hs Ht En) as [P1 _].
  assert (Dn : forall l, flat_map (demands s) l = []).
  { intros l. cbn in Hs0. induction l as [|x l IH]; [reflexivity|]. cbn [flat_map]. rewrite IH. repeat (destruct Hs0 as [<-|Hs0]; [reflexivity|]). contradiction. }
  rewrite Dn in P1. rewrite HL, V0, (only_fills _ L (puts_incl _ _ Hi P1) v E0). cbn [seen_at]. unfold seen. now rewrite E0.
Qed.

Lemma fine_when b (l : list (@step X)) : (b = true -> Forall step_ok l) -> Forall step_ok (when b l).
Proof. destruct b; cbn; auto. Qed.
Ltac fine Hc := repeat (first [apply Forall_nil|lazymatch goal with |- Forall _ (when _ [Stop Panic]) => fail | _ => apply fine_when; intros _ end|apply forall_map; intro|apply Forall_app; split|apply Forall_cons]); cbn [step_ok put fill]; try exact I; try solve [eauto]; try solve [apply Hc].
Lemma set_unset (x : model) f : set_ x f = negb (unset x f).
Proof. unfold set_, unset. rewrite get_field_field. now destruct (field x f) as [[t v]|]. Qed.
Lemma plan_savable x : (forall s v l, exists w, conv s (v :: l) = Ok w) -> In (tm_kind x) lib -> Forall step_ok (steps_to conv x) <-> savable x.
Proof.
  intros Hc L. unfold savable. rewrite (home_can cdc den_zero) by assumption. rewrite !set_unset. unfold steps_to.
  destruct (String.eqb_spec (home x) "id3") as [E|Ne].
  - rewrite E. cbn [String.eqb Ascii.eqb Bool.eqb]. unfold id3_to. cbv zeta. split.
    + rewrite !Forall_app. intros (_ & F & _) _ H1 H2. rewrite H1, H2 in F. destruct (unset x "id3:recordingTime"); [|reflexivity]. cbn in F. inversion F; subst. discriminate.
    + intros F. specialize (F eq_refl). fine Hc.
      apply fine_when. rewrite !andb_true_iff. intros [[H1 H2] H3]. rewrite H1, H2, H3 in F. specialize (F eq_refl eq_refl). discriminate.
  - split; [intros _ F; discriminate|]. intros _.
    destruct (home x =? "pdf"); [unfold pdf_to; fine Hc|].
    destruct (home x =? "tiff"); [unfold tiff_to; fine Hc|].
    destruct (home x =? "riffinfo"); [unfold riff_to; fine Hc|].
    destruct (home x =? "iXML"); [unfold ixml_to; fine Hc; destruct (value x "iXML:speed"); fine Hc|].
    destruct (home x =? "exif"); [|constructor]. unfold exif_to. cbv zeta. fine Hc.
    + unfold new_alt_string. cbn. destruct (emptyb _); cbn; eauto.
    + unfold new_alt_string. cbn. destruct (emptyb _); cbn; eauto.
    + destruct (value x "exif:ISOSpeedRatings") as [| | | | |[|]| | |]; fine Hc.
Qed.
Theorem saves (d d' : doc) r : (forall s v l, exists w, conv s (v :: l) = Ok w) -> library_values cdc den_zero d -> d_dirty d = true -> sync_to_xmp lops d = (d', r) ->
  r = Ok tt <-> Forall (fun x => savable x) (models_of d).
Proof.
  intros Hc Hl Hd H. pose proof (proj2 (okd_values cdc den_zero d) Hl) as O. unfold sync_to_xmp in H. rewrite Hd in H. cbn [negb] in H.
  destruct (sync_to_loop lops (List.length (d_nodes d)) 0 d) as [d1 r1] eqn:E.
  assert (K : r = Ok tt <-> r1 = Ok tt) by (destruct r1 as [[]|e|]; inversion H; subst; tauto). rewrite K.
  rewrite (loop_ok cdc den_zero kinds growth sortf conv Hk _ _ _ _ _ O E), plan_models, Forall_flat_map, !Forall_forall.
  unfold library_values in Hl. rewrite Forall_forall in Hl.
  assert (Q : forall x, In x (models_of d) -> Forall step_ok (steps_to conv x) <-> savable x).
  { intros x Hx. destruct (Hl x Hx) as [L N]. apply plan_savable; assumption. }
  split; intros F x Hx; apply Q; auto.
Qed.
End F.
