(* Proofs about node recycling and copying *)
From Coq Require Import List Arith Bool String Lia.
From Verif Require Import GoStr Names NodeM PoolM SpecPool NodeFacts.
Local Open Scope string_scope.

Lemma upd_same {A} (f : addr -> A) a v : upd f a v a = v.
Proof. unfold upd. now rewrite Nat.eqb_refl. Qed.
Lemma upd_other {A} (f : addr -> A) a v x : x <> a -> upd f a v x = f x.
Proof. intros H. unfold upd. now apply Nat.eqb_neq in H as ->. Qed.

Section P.
Context {M : Type}.
Notation event := (event (M := M)).
Notation machine := (machine (M := M)).

(* ---- recycling ---- *)
Lemma live_from_app tr1 : forall b (tr2 : list event) a, live_from b (tr1 ++ tr2)%list a = live_from (live_from b tr1 a) tr2 a.
Proof. induction tr1 as [|[]]; intros; cbn; auto. Qed.

Lemma live_snoc (tr : list event) e a : live (tr ++ [e])%list a =
  match e with
  | ENew _ x _ _ => if Nat.eqb x a then true else live tr a
  | EClose _ x => if Nat.eqb x a then false else live tr a
  | EWrite _ _ => live tr a
  end.
Proof. unfold live. rewrite live_from_app. destruct e; reflexivity. Qed.

Inductive loc := LFree | LLive | LPool | LClosing (t : nat) | LInit (t : nat) | LGone.

Definition held (p : pc) : list addr :=
  match p with PClose fs => map fst fs | PSend a fs => a :: map fst fs | _ => [] end.
Definition making (p : pc) : option addr :=
  match p with PInit a _ | PRet a _ => Some a | _ => None end.

Record inv (m : machine) (own : addr -> loc) : Prop := Inv {
  i_pool : NoDup (m_pool m);
  i_pool_own : forall a, In a (m_pool m) -> own a = LPool;
  i_held : forall t, NoDup (held (m_pc m t));
  i_held_own : forall t a, In a (held (m_pc m t)) -> own a = LClosing t;
  i_making : forall t a, making (m_pc m t) = Some a -> own a = LInit t;
  i_live : forall a, live (m_trace m) a = true -> own a = LLive;
  i_next : forall a, m_next m <= a -> own a = LFree;
  i_clean : forall t a x, m_pc m t = PRet a x -> m_cells m a = clean x
}.

Definition good (m : machine) : Prop :=
  forall pre t a x c post, m_trace m = (pre ++ ENew t a x c :: post)%list -> live pre a = false /\ c = clean x.

Lemma disciplined_prefix (tr : list event) e : disciplined (tr ++ [e])%list -> disciplined tr.
Proof.
  intros [H1 H2]. split; intros pre t a post ->.
  - apply (H1 pre t a (post ++ [e])%list). now rewrite <- List.app_assoc.
  - apply (H2 pre t a (post ++ [e])%list). now rewrite <- List.app_assoc.
Qed.

Lemma good_snoc m tr e : good m -> m_trace m = tr ->
  (forall t a x c, e = ENew t a x c -> live tr a = false /\ c = clean x) ->
  forall pre t a x c post, (tr ++ [e])%list = (pre ++ ENew t a x c :: post)%list -> live pre a = false /\ c = clean x.
Proof.
  intros Hg Ht He pre t a x c post E. destruct post as [|p0 post] using rev_ind.
  - apply app_inj_tail in E as [<- ->]. eapply He; eauto.
  - rewrite app_comm_cons, List.app_assoc in E. apply app_inj_tail in E as [E _]. eapply Hg. rewrite Ht. exact E.
Qed.

Definition extends (m m' : machine) : Prop := exists l, m_trace m' = (m_trace m ++ l)%list.

Lemma step_extends cap m act m' : mstep cap m act = Some m' -> extends m m'.
Proof.
  unfold extends. destruct act; cbn [mstep]; intros H;
    repeat match goal with H : context [match ?x with _ => _ end] |- _ => destruct x end; inversion H; subst; cbn; eauto.
Qed.

Ltac case_t := match goal with |- context [upd _ ?t _ ?u] => destruct (Nat.eq_dec u t) as [->|?]; [rewrite ?upd_same in *|rewrite ?upd_other in * by auto] end.
Ltac case_t_in H := match type of H with context [upd _ ?t _ ?u] => destruct (Nat.eq_dec u t) as [->|?]; [rewrite ?upd_same in H|rewrite ?upd_other in H by auto] end.

Lemma in_pool_dec (a : addr) l : {In a l} + {~ In a l}.
Proof. apply in_dec. apply Nat.eq_dec. Qed.

Lemma step_inv cap m act m' own : mstep cap m act = Some m' -> inv m own -> good m -> disciplined (m_trace m') ->
  good m' /\ exists own', inv m' own'.
Proof.
  intros Hs Hi Hg Hd. destruct Hi as [P1 P2 H1 H2 K L N C].
  destruct act as [t x|t a c|t a|t]; cbn [mstep] in Hs.
  - (* NewNode *)
    destruct (m_pc m t) eqn:Et; try discriminate. destruct (m_pool m) as [|a r] eqn:Ep; inversion Hs; subst; clear Hs.
    + (* allocate *)
      split. { intros pre u b y c post E. cbn in E. rewrite List.app_nil_r in E. eapply Hg; eauto. }
      exists (upd own (m_next m) (LInit t)).
      assert (Hfree : own (m_next m) = LFree) by (apply N; lia).
      constructor; cbn [m_pool m_pc m_trace m_next m_cells emit].
      * constructor.
      * intros ? [].
      * intros u. case_t; [constructor|apply H1].
      * intros u b Hb. case_t_in Hb; [destruct Hb|]. pose proof (H2 _ _ Hb). rewrite upd_other; auto. congruence.
      * intros u b Hb. case_t_in Hb; [cbn in Hb; inversion Hb; subst; now rewrite upd_same|].
        pose proof (K _ _ Hb). rewrite upd_other; auto. congruence.
      * rewrite List.app_nil_r. intros b Hb. pose proof (L _ Hb). rewrite upd_other; auto. congruence.
      * intros b Hb. rewrite upd_other by lia. apply N. lia.
      * intros u b y Hb. case_t_in Hb; [inversion Hb; subst; now rewrite upd_same|].
        rewrite upd_other; [eapply C; eauto|]. intros ->. pose proof (K u (m_next m)). rewrite Hb in H. specialize (H eq_refl). congruence.
    + (* take from the pool *)
      split. { intros pre u b y c post E. cbn in E. rewrite List.app_nil_r in E. eapply Hg; eauto. }
      exists (upd own a (LInit t)).
      assert (Ha : own a = LPool) by (apply P2; now left).
      inversion P1 as [|? ? Hna Hnr]; subst.
      constructor; cbn [m_pool m_pc m_trace m_next m_cells emit with_pool].
      * auto.
      * intros b Hb. rewrite upd_other; [apply P2; now right|]. intros ->. auto.
      * intros u. case_t; [constructor|apply H1].
      * intros u b Hb. case_t_in Hb; [destruct Hb|]. pose proof (H2 _ _ Hb). rewrite upd_other; auto. congruence.
      * intros u b Hb. case_t_in Hb; [cbn in Hb; inversion Hb; subst; now rewrite upd_same|].
        pose proof (K _ _ Hb). rewrite upd_other; auto. congruence.
      * rewrite List.app_nil_r. intros b Hb. pose proof (L _ Hb). rewrite upd_other; auto. congruence.
      * intros b Hb. rewrite upd_other; auto. intros ->. specialize (N _ Hb). congruence.
      * intros u b y Hb. case_t_in Hb; [discriminate|]. eapply C; eauto.
  - (* a user writes *)
    destruct (m_pc m t) eqn:Et; try discriminate. inversion Hs; subst; clear Hs. cbn [m_trace emit with_cell] in Hd.
    assert (Hl : live (m_trace m) a = true) by (apply (proj2 Hd _ t a []); reflexivity).
    split. { unfold good. cbn [m_trace emit with_cell]. eapply good_snoc; eauto. discriminate. }
    exists own. constructor; cbn [m_pool m_pc m_trace m_next m_cells emit with_cell]; auto.
    + intros u. case_t; [constructor|apply H1].
    + intros u b Hb. case_t_in Hb; [destruct Hb|]. auto.
    + intros u b Hb. case_t_in Hb; [discriminate|]. auto.
    + intros b. rewrite live_snoc. auto.
    + intros u b y Hb. case_t_in Hb; [discriminate|]. rewrite upd_other; [eapply C; eauto|].
      intros ->. pose proof (K u a). rewrite Hb in H. specialize (H eq_refl). rewrite (L _ Hl) in H. discriminate.
  - (* a user closes *)
    destruct (m_pc m t) eqn:Et; try discriminate. inversion Hs; subst; clear Hs. cbn [m_trace emit] in Hd.
    assert (Hl : live (m_trace m) a = true) by (apply (proj1 Hd _ t a []); reflexivity). pose proof (L _ Hl) as Ha.
    split. { unfold good. cbn [m_trace emit]. eapply good_snoc; eauto. discriminate. }
    exists (upd own a (LClosing t)). constructor; cbn [m_pool m_pc m_trace m_next m_cells emit].
    + auto.
    + intros b Hb. pose proof (P2 _ Hb). rewrite upd_other; auto. congruence.
    + intros u. case_t; [|apply H1]. cbn. repeat constructor. auto.
    + intros u b Hb. case_t_in Hb.
      * cbn in Hb. destruct Hb as [<-|[]]. now rewrite upd_same.
      * pose proof (H2 _ _ Hb). rewrite upd_other; auto. congruence.
    + intros u b Hb. case_t_in Hb; [discriminate|]. pose proof (K _ _ Hb). rewrite upd_other; auto. congruence.
    + intros b. rewrite live_snoc. destruct (Nat.eqb a b) eqn:E; [discriminate|]. apply Nat.eqb_neq in E. intros Hb.
      rewrite upd_other by auto. auto.
    + intros b Hb. pose proof (N _ Hb). rewrite upd_other; auto. congruence.
    + intros u b y Hb. case_t_in Hb; [discriminate|]. eapply C; eauto.
  - (* a goroutine continues *)
    destruct (m_pc m t) as [|a x|a x|[|[a [|v rest]] fs]|a fs] eqn:Et; try discriminate.
    + (* reset *)
      inversion Hs; subst; clear Hs.
      split. { intros pre u b y c post E. cbn in E. rewrite List.app_nil_r in E. eapply Hg; eauto. }
      assert (Ha : own a = LInit t) by (apply K; now rewrite Et).
      exists own. constructor; cbn [m_pool m_pc m_trace m_next m_cells emit with_cell]; auto.
      * intros u. case_t; [constructor|apply H1].
      * intros u b Hb. case_t_in Hb; [destruct Hb|]. auto.
      * intros u b Hb. case_t_in Hb; [cbn in Hb; inversion Hb; subst; auto|]. auto.
      * rewrite List.app_nil_r. auto.
      * intros u b y Hb. case_t_in Hb; [inversion Hb; subst; now rewrite upd_same|]. rewrite upd_other; [eapply C; eauto|].
        intros ->. pose proof (K u a). rewrite Hb in H. specialize (H eq_refl). congruence.
    + (* return *)
      inversion Hs; subst; clear Hs.
      assert (Ha : own a = LInit t) by (apply K; now rewrite Et).
      split.
      { unfold good. cbn [m_trace emit]. eapply good_snoc; eauto. intros ? ? ? ? E. inversion E; subst. split.
        - destruct (live (m_trace m) a0) eqn:El; auto. specialize (L _ El). congruence.
        - eapply C; eauto. }
      exists (upd own a LLive). constructor; cbn [m_pool m_pc m_trace m_next m_cells emit]; auto.
      * intros b Hb. pose proof (P2 _ Hb). rewrite upd_other; auto. congruence.
      * intros u. case_t; [constructor|apply H1].
      * intros u b Hb. case_t_in Hb; [destruct Hb|]. pose proof (H2 _ _ Hb). rewrite upd_other; auto. congruence.
      * intros u b Hb. case_t_in Hb; [discriminate|]. pose proof (K _ _ Hb). rewrite upd_other; auto. congruence.
      * intros b. rewrite live_snoc. destruct (Nat.eqb a b) eqn:E.
        -- apply Nat.eqb_eq in E as ->. now rewrite upd_same.
        -- apply Nat.eqb_neq in E. intros Hb. rewrite upd_other; auto.
      * intros b Hb. pose proof (N _ Hb). rewrite upd_other; auto. congruence.
      * intros u b y Hb. case_t_in Hb; [discriminate|]. eapply C; eauto.
    + (* Close returns *)
      inversion Hs; subst; clear Hs.
      split. { intros pre u b y c post E. cbn in E. rewrite List.app_nil_r in E. eapply Hg; eauto. }
      exists own. constructor; cbn [m_pool m_pc m_trace m_next m_cells emit]; auto.
      * intros u. case_t; [constructor|apply H1].
      * intros u b Hb. case_t_in Hb; [destruct Hb|]. auto.
      * intros u b Hb. case_t_in Hb; [discriminate|]. auto.
      * rewrite List.app_nil_r. auto.
      * intros u b y Hb. case_t_in Hb; [discriminate|]. eapply C; eauto.
    + (* clear *)
      inversion Hs; subst; clear Hs.
      split. { intros pre u b y c post E. cbn in E. rewrite List.app_nil_r in E. eapply Hg; eauto. }
      assert (Ha : own a = LClosing t) by (apply H2; rewrite Et; now left).
      exists own. constructor; cbn [m_pool m_pc m_trace m_next m_cells emit with_cell]; auto.
      * intros u. case_t; [|apply H1]. specialize (H1 t). rewrite Et in H1. exact H1.
      * intros u b Hb. case_t_in Hb; [|auto]. apply H2. rewrite Et. exact Hb.
      * intros u b Hb. case_t_in Hb; [discriminate|]. auto.
      * rewrite List.app_nil_r. auto.
      * intros u b y Hb. case_t_in Hb; [discriminate|]. rewrite upd_other; [eapply C; eauto|].
        intros ->. pose proof (K u a). rewrite Hb in H. specialize (H eq_refl). congruence.
    + (* Close of a child *)
      inversion Hs; subst; clear Hs. cbn [m_trace emit] in Hd.
      assert (Hl : live (m_trace m) v = true) by (apply (proj1 Hd _ t v []); reflexivity). pose proof (L _ Hl) as Hv.
      split. { unfold good. cbn [m_trace emit]. eapply good_snoc; eauto. discriminate. }
      assert (Hh : forall b, In b (a :: map fst fs) -> own b = LClosing t) by (intros b0 Hb0; apply H2; rewrite Et; exact Hb0).
      exists (upd own v (LClosing t)). constructor; cbn [m_pool m_pc m_trace m_next m_cells emit].
      * auto.
      * intros b Hb. pose proof (P2 _ Hb). rewrite upd_other; auto. congruence.
      * intros u. case_t; [|apply H1]. cbn [held map fst]. specialize (H1 t). rewrite Et in H1. constructor; auto.
        intros Hb. specialize (Hh _ Hb). congruence.
      * intros u b Hb. case_t_in Hb.
        -- cbn [held map fst] in Hb. destruct Hb as [<-|Hb]; [now rewrite upd_same|].
           pose proof (Hh _ Hb). rewrite upd_other; auto. congruence.
        -- pose proof (H2 _ _ Hb). rewrite upd_other; auto. congruence.
      * intros u b Hb. case_t_in Hb; [discriminate|]. pose proof (K _ _ Hb). rewrite upd_other; auto. congruence.
      * intros b. rewrite live_snoc. destruct (Nat.eqb v b) eqn:E; [discriminate|]. apply Nat.eqb_neq in E. intros Hb.
        rewrite upd_other by auto. auto.
      * intros b Hb. pose proof (N _ Hb). rewrite upd_other; auto. congruence.
      * intros u b y Hb. case_t_in Hb; [discriminate|]. eapply C; eauto.
    + (* send *)
      assert (Ha : own a = LClosing t) by (apply H2; rewrite Et; now left).
      pose proof (H1 t) as H1t. rewrite Et in H1t. cbn [held] in H1t. inversion H1t as [|? ? Hna Hnf]; subst.
      assert (Hh : forall b, In b (map fst fs) -> own b = LClosing t) by (intros b0 Hb0; apply H2; rewrite Et; now right).
      destruct (Nat.ltb _ _); inversion Hs; subst; clear Hs;
        (split; [intros pre u b y c post E; cbn in E; rewrite List.app_nil_r in E; eapply Hg; eauto|]).
      * exists (upd own a LPool). constructor; cbn [m_pool m_pc m_trace m_next m_cells emit with_pool].
        -- clear - P1 P2 Ha. induction (m_pool m) as [|b l IH]; cbn; [repeat constructor; auto|].
           inversion P1; subst. constructor.
           ++ intros Hi. apply in_app_or in Hi as [Hi|[<-|[]]]; auto. specialize (P2 _ (or_introl eq_refl)). congruence.
           ++ apply IH; auto. intros c Hc. apply P2. now right.
        -- intros b Hb. apply in_app_or in Hb as [Hb|[<-|[]]]; [|now rewrite upd_same].
           pose proof (P2 _ Hb). rewrite upd_other; auto. congruence.
        -- intros u. case_t; [exact Hnf|apply H1].
        -- intros u b Hb. case_t_in Hb.
           ++ rewrite upd_other; [now apply Hh|]. intros ->. auto.
           ++ pose proof (H2 _ _ Hb). rewrite upd_other; auto. congruence.
        -- intros u b Hb. case_t_in Hb; [discriminate|]. pose proof (K _ _ Hb). rewrite upd_other; auto. congruence.
        -- rewrite List.app_nil_r. intros b Hb. pose proof (L _ Hb). rewrite upd_other; auto. congruence.
        -- intros b Hb. pose proof (N _ Hb). rewrite upd_other; auto. congruence.
        -- intros u b y Hb. case_t_in Hb; [discriminate|]. eapply C; eauto.
      * exists own. constructor; cbn [m_pool m_pc m_trace m_next m_cells emit]; auto.
        -- intros u. case_t; [exact Hnf|apply H1].
        -- intros u b Hb. case_t_in Hb; [now apply Hh|]. auto.
        -- intros u b Hb. case_t_in Hb; [discriminate|]. auto.
        -- rewrite List.app_nil_r. auto.
        -- intros u b y Hb. case_t_in Hb; [discriminate|]. eapply C; eauto.
Qed.

Lemma disciplined_app (tr l : list event) : disciplined (tr ++ l)%list -> disciplined tr.
Proof.
  induction l as [|e l IH] using rev_ind; [now rewrite List.app_nil_r|].
  rewrite List.app_assoc. intros H. apply IH. eapply disciplined_prefix; eauto.
Qed.

Lemma run_extends cap l : forall m : machine, extends m (mrun cap m l).
Proof.
  induction l as [|act l IH]; intros m; cbn [mrun]; [exists []; now rewrite List.app_nil_r|].
  destruct (mstep cap m act) eqn:E; [|apply IH].
  destruct (step_extends _ _ _ _ E) as [l1 H1]. destruct (IH m0) as [l2 H2]. exists (l1 ++ l2)%list. now rewrite H2, H1, List.app_assoc.
Qed.

Lemma run_good cap l : forall (m : machine) own, inv m own -> good m -> disciplined (m_trace (mrun cap m l)) -> good (mrun cap m l).
Proof.
  induction l as [|act l IH]; intros m own Hi Hg Hd; cbn [mrun] in *; auto.
  destruct (mstep cap m act) as [m'|] eqn:E; [|eapply IH; eauto].
  assert (Hd' : disciplined (m_trace m')).
  { destruct (run_extends cap l m') as [k Hk]. rewrite Hk in Hd. eapply disciplined_app; eauto. }
  destruct (step_inv _ _ _ _ _ E Hi Hg Hd') as [Hg' [own' Hi']]. eapply IH; eauto.
Qed.

Lemma init_inv cells : inv (minit cells) (fun _ => LFree).
Proof.
  constructor; cbn; try discriminate.
  - constructor.
  - intros ? [].
  - constructor.
  - intros ? ? [].
  - auto.
Qed.

Theorem recycled_clean cap (cells : addr -> cell M) l pre t a x c post :
  let tr := m_trace (mrun cap (minit cells) l) in
  disciplined tr -> tr = (pre ++ ENew t a x c :: post)%list -> live pre a = false /\ c = clean x.
Proof.
  intros tr Hd E. eapply (run_good cap l (minit cells)); eauto. { apply init_inv. }
  intros ? ? ? ? ? ? H. cbn in H. destruct pre0; discriminate.
Qed.

(* ---- copying ---- *)
Notation store := (store M).

Section RepInd.
Variable s : store.
Variable P : addr -> node M -> Prop.
Hypothesis H : forall a l, Forall2 (rep s) (c_kids (s_cells s a)) l -> Forall2 P (c_kids (s_cells s a)) l ->
  P a (Node (c_name (s_cells s a)) (attrs_at s (c_attr (s_cells s a))) (c_model (s_cells s a)) (c_value (s_cells s a)) l).
Fixpoint rep_ind' a n (r : rep s a n) {struct r} : P a n :=
  match r with
  | Rep _ a l f => H a l f
      ((fix go ks ls (f : Forall2 (rep s) ks ls) : Forall2 P ks ls :=
          match f with
          | Forall2_nil _ => Forall2_nil P
          | Forall2_cons x y h t => Forall2_cons x y (rep_ind' x y h) (go _ _ t)
          end) _ _ f)
  end.
End RepInd.

(* the stores agree on the tree at a *)
Definition agree (s s' : store) (a : addr) : Prop :=
  (forall x, reach s a x -> s_cells s' x = s_cells s x) /\ (forall r, reach_arr s a r -> s_arrs s' r = s_arrs s r).

Lemma rep_agree s s' a n : rep s a n -> agree s s' a -> rep s' a n.
Proof.
  revert a n. apply (rep_ind' s (fun a n => agree s s' a -> rep s' a n)). intros a l Hk IH [A1 A2].
  assert (E : s_cells s' a = s_cells s a) by (apply A1; constructor).
  assert (Ea : attrs_at s (c_attr (s_cells s a)) = attrs_at s' (c_attr (s_cells s' a))).
  { rewrite E. destruct (c_attr (s_cells s a)) as [r|] eqn:Er; auto. cbn. symmetry. apply A2. exists a. split; [constructor|auto]. }
  rewrite Ea, <- E. constructor. rewrite E.
  assert (Hin : forall k, In k (c_kids (s_cells s a)) -> agree s s' k).
  { intros k Hki. split.
    - intros x Hx. apply A1. eapply reach_kid; eauto.
    - intros r (x & Hx & Hr). apply A2. exists x. split; auto. eapply reach_kid; eauto. }
  clear - IH Hin. induction IH; constructor; auto.
  - apply H. apply Hin. now left.
  - apply IHIH. intros; apply Hin; now right.
Qed.

Lemma reach_agree s s' a x : agree s s' a -> reach s' a x <-> reach s a x.
Proof.
  intros [A1 A2]. split.
  - intros H. revert A1 A2. induction H as [a|a k x Hk Hx IH]; intros; [constructor|].
    rewrite A1 in Hk by constructor. eapply reach_kid; eauto. apply IH.
    + intros y Hy. apply A1. eapply reach_kid; eauto.
    + intros r (y & Hy & Hr). apply A2. exists y. split; auto. eapply reach_kid; eauto.
  - intros H. revert A1 A2. induction H as [a|a k x Hk Hx IH]; intros; [constructor|].
    eapply reach_kid. { rewrite A1 by constructor. exact Hk. } apply IH.
    + intros y Hy. apply A1. eapply reach_kid; eauto.
    + intros r (y & Hy & Hr). apply A2. exists y. split; auto. eapply reach_kid; eauto.
Qed.

Lemma reach_arr_agree s s' a r : agree s s' a -> reach_arr s' a r <-> reach_arr s a r.
Proof.
  intros H. split; intros (x & Hx & Hr); exists x.
  - apply (reach_agree _ _ _ _ H) in Hx. split; auto. destruct H as [A1 _]. now rewrite <- A1.
  - split; [now apply (reach_agree _ _ _ _ H)|]. destruct H as [A1 _]. now rewrite A1.
Qed.

Section ListsInd.
Variable s : store.
Variable P : addr -> list addr -> Prop.
Hypothesis step : forall a ls, Forall2 (lists s) (c_kids (s_cells s a)) ls -> Forall2 P (c_kids (s_cells s a)) ls ->
  P a (a :: List.concat ls).
Fixpoint lists_ind' a xs (H : lists s a xs) : P a xs :=
  match H with
  | Lists _ a ls f =>
      step a ls f ((fix go l1 l2 (f : Forall2 (lists s) l1 l2) : Forall2 P l1 l2 :=
          match f with
          | Forall2_nil _ => Forall2_nil _
          | Forall2_cons x y h t => Forall2_cons x y (lists_ind' x y h) (go _ _ t)
          end) _ _ f)
  end.
End ListsInd.

Lemma lists_reach (s : store) a xs : lists s a xs -> forall x, In x xs <-> reach s a x.
Proof.
  revert a xs. apply (lists_ind' s (fun a xs => forall x, In x xs <-> reach s a x)). intros a ls _ IH x. cbn [In]. split.
  - intros [<-|Hx]; [constructor|]. apply in_concat in Hx. destruct Hx as (l & Hl & Hx).
    assert (exists k, In k (c_kids (s_cells s a)) /\ reach s k x) as (k & Hk & Hr); [|eapply reach_kid; eauto].
    clear - IH Hl Hx. induction IH as [|k y l1 l2 E _ IH]; [destruct Hl|]. destruct Hl as [->|Hl].
    + exists k. split; [now left|now apply E].
    + destruct (IH Hl) as (k' & Hk & Hr). exists k'. split; [now right|auto].
  - intros H. inversion H as [|k y Hk Hr]; subst; [now left|right]. apply in_concat.
    clear - IH Hk Hr. induction IH as [|k' y l1 l2 E _ IH]; [destruct Hk|]. destruct Hk as [->|Hk].
    + exists y. split; [now left|now apply E].
    + destruct (IH Hk) as (l & Hl & Hx). exists l. split; [now right|auto].
Qed.

Lemma lists_cells (s s' : store) a xs : lists s a xs -> (forall x, In x xs -> s_cells s' x = s_cells s x) -> lists s' a xs.
Proof.
  revert a xs. apply (lists_ind' s (fun a xs => (forall x, In x xs -> s_cells s' x = s_cells s x) -> lists s' a xs)).
  intros a ls _ IH H. constructor. rewrite H by now left.
  assert (H' : forall x, In x (List.concat ls) -> s_cells s' x = s_cells s x) by (intros x Hx; apply H; now right).
  clear H. induction IH as [|k y l1 l2 E _ IH]; constructor.
  - apply E. intros x Hx. apply H'. cbn. apply in_or_app. now left.
  - apply IH. intros x Hx. apply H'. cbn. apply in_or_app. now right.
Qed.

Lemma NoDup_app_intro {A} (l1 l2 : list A) : NoDup l1 -> NoDup l2 -> (forall x, In x l1 -> ~ In x l2) -> NoDup (l1 ++ l2)%list.
Proof.
  intros H1 H2 H. induction H1 as [|x l Hx H1 IH]; cbn; auto. constructor.
  - intros Hi. apply in_app_or in Hi. destruct Hi; [auto|]. apply (H x); [now left|auto].
  - apply IH. intros y Hy. apply H. now right.
Qed.

(* an address that NewNode may still return *)
Definition avail (s : store) (x : addr) : Prop := In x (s_pool s) \/ s_next s <= x.
Definition pool_ok (s : store) : Prop := NoDup (s_pool s) /\ forall x, In x (s_pool s) -> x < s_next s.

(* s' differs from s only in places that were available *)
Record grows (s s' : store) : Prop := Grows {
  g_pool : pool_ok s';
  g_avail : forall x, avail s' x -> avail s x;
  g_arr : s_anext s <= s_anext s';
  g_cells : forall x, ~ avail s x -> s_cells s' x = s_cells s x;
  g_arrs : forall r, r < s_anext s -> s_arrs s' r = s_arrs s r }.

Lemma grows_refl s : pool_ok s -> grows s s.
Proof. constructor; auto. Qed.
Lemma grows_trans s1 s2 s3 : grows s1 s2 -> grows s2 s3 -> grows s1 s3.
Proof.
  intros [P1 A1 R1 C1 D1] [P2 A2 R2 C2 D2]. constructor; auto; try lia.
  - intros x Hx. rewrite C2 by auto. auto.
  - intros r Hr. rewrite D2 by lia. auto.
Qed.

Lemma in_use_avail s a x : in_use s a -> reach s a x -> ~ avail s x.
Proof. intros [H _] Hx [Hp|Hn]; destruct (H x Hx); auto; lia. Qed.

Lemma in_use_agree s s' a : in_use s a -> grows s s' -> agree s s' a.
Proof.
  intros Hu [_ _ _ C D]. split.
  - intros x Hx. apply C. eapply in_use_avail; eauto.
  - intros r Hr. apply D. now apply Hu.
Qed.

Lemma in_use_grows s s' a : in_use s a -> grows s s' -> (forall x, reach s a x -> x < s_next s') -> in_use s' a.
Proof.
  intros Hu Hg Hn. pose proof (in_use_agree _ _ _ Hu Hg) as Ha. split.
  - intros x Hx. apply (reach_agree _ _ _ _ Ha) in Hx. split; auto.
    intros Hp. apply (in_use_avail _ _ _ Hu Hx). apply Hg. now left.
  - intros r Hr. apply (reach_arr_agree _ _ _ _ Ha) in Hr. destruct Hg. destruct Hu as [_ Hu]. specialize (Hu r Hr). lia.
Qed.

(* the tree at a' was made from places that were available in s, and they are not available in s' any more *)
Definition made (s s' : store) (a' : addr) : Prop :=
  (forall x, reach s' a' x -> avail s x) /\ (forall r, reach_arr s' a' r -> s_anext s <= r) /\ in_use s' a'.

Lemma mem_new_spec s x s' n : pool_ok s -> mem_new s x = (s', n) ->
  grows s s' /\ avail s n /\ ~ avail s' n /\ n < s_next s' /\ s_next s <= s_next s' /\ s_anext s' = s_anext s /\ s_cells s' n = clean x
  /\ (forall y, avail s y -> y <> n -> avail s' y).
Proof.
  unfold mem_new. intros [Hd Hl] H. destruct (s_pool s) as [|a r] eqn:Ep; inversion H; subst; clear H; cbn.
  - split; [constructor; cbn|].
    + split; [constructor|intros ? []].
    + intros y [Hy|Hy]; [destruct Hy|]. right. cbn in Hy. lia.
    + lia.
    + intros y Hy. rewrite upd_other; auto. intros ->. apply Hy. right. lia.
    + auto.
    + split; [right; lia|]. split; [intros [Hi|Hi]; [destruct Hi|cbn in Hi; lia]|].
      repeat split; try lia; [now rewrite upd_same|].
      intros y [Hy|Hy] Hne; [rewrite Ep in Hy; destruct Hy|]. right. cbn. lia.
  - inversion Hd; subst. split; [constructor; cbn|].
    + split; auto. intros y Hy. apply Hl. now right.
    + intros y [Hy|Hy]; [left; rewrite Ep; now right|]. right. exact Hy.
    + lia.
    + intros y Hy. rewrite upd_other; auto. intros ->. apply Hy. left. rewrite Ep. now left.
    + auto.
    + split; [left; rewrite Ep; now left|]. split.
      { intros [Hi|Hi]; cbn in Hi; auto. specialize (Hl n (or_introl eq_refl)). lia. }
      split; [apply Hl; now left|]. repeat split; try lia; [now rewrite upd_same|].
      intros y [Hy|Hy] Hne; [|right; exact Hy]. left. cbn. rewrite Ep in Hy. destruct Hy; congruence.
Qed.

Lemma set_cell_grows s0 s n c : grows s0 s -> avail s0 n -> grows s0 (set_cell s n c).
Proof.
  intros [P A R C D] Hn. constructor; cbn; auto. intros x Hx. rewrite upd_other; auto. intros ->. auto.
Qed.

Definition copy_kids (f : nat) :=
  (fix go (s : store) (l : list addr) (acc : list addr) : option (store * list addr) :=
               match l with
               | [] => Some (s, acc)
               | v :: rest => match mem_copy f s v with
                              | Some (s', v') => go s' rest (acc ++ [v'])%list
                              | None => None
                              end
               end).

Definition copies (f : nat) : Prop := forall s a n, pool_ok s -> rep s a n -> in_use s a -> depth n <= f ->
  exists s' a', mem_copy f s a = Some (s', a') /\ rep s' a' n /\ grows s s' /\ made s s' a' /\ s_next s <= s_next s' /\
    exists xs, lists s' a' xs /\ NoDup xs.

Lemma made_grows s s1 s2 k : made s s1 k -> grows s1 s2 -> s_next s1 <= s_next s2 -> made s s2 k.
Proof.
  intros (H1 & H2 & H3) Hg Hn. pose proof (in_use_agree _ _ _ H3 Hg) as Ha. split; [|split].
  - intros x Hx. apply H1. now apply (reach_agree _ _ _ _ Ha).
  - intros r Hr. apply H2. now apply (reach_arr_agree _ _ _ _ Ha).
  - apply (in_use_grows _ _ _ H3 Hg). intros x Hx. destruct H3 as [H3 _]. destruct (H3 x Hx). lia.
Qed.

Lemma made_from s0 s s' k : grows s0 s -> made s s' k -> made s0 s' k.
Proof.
  intros [P A R C D] (H1 & H2 & H3). split; [|split]; auto. intros r Hr. specialize (H2 r Hr). lia.
Qed.

Lemma copy_kids_spec f : copies f -> forall l ns s acc, pool_ok s -> Forall2 (rep s) l ns -> Forall (in_use s) l ->
  Forall (fun n => depth n <= f) ns ->
  exists s' l', copy_kids f s l acc = Some (s', (acc ++ l')%list) /\ Forall2 (rep s') l' ns /\ grows s s' /\ s_next s <= s_next s' /\
    Forall (made s s') l' /\ exists xss, Forall2 (lists s') l' xss /\ NoDup (List.concat xss).
Proof.
  intros Hf. induction l as [|v rest IH]; intros ns s acc Hp Hr Hu Hd.
  - inversion Hr; subst. exists s, []. cbn. rewrite List.app_nil_r. repeat split; auto; try constructor; try apply grows_refl; auto; try apply Hp.
    exists []. split; constructor.
  - inversion Hr as [|? n ? ns' R1 R2]; subst. inversion Hu as [|? ? U1 U2]; subst. inversion Hd as [|? ? D1 D2]; subst.
    destruct (Hf s v n Hp R1 U1 D1) as (s1 & v' & E & Rv & G1 & M1 & L1 & xs & X1 & X2).
    destruct (IH ns' s1 (acc ++ [v'])%list) as (s2 & l' & E2 & R & G2 & L2 & M2 & xss & X3 & X4); auto.
    + apply G1.
    + clear - R2 U2 G1. induction R2; constructor; auto.
      * inversion U2; subst. eapply rep_agree; eauto. now apply in_use_agree.
      * inversion U2; subst. auto.
    + clear - U2 G1 L1. induction U2 as [|w l U _ IH]; constructor; auto. apply (in_use_grows s); auto.
      intros x Hx. destruct U as [U _]. destruct (U x Hx). lia.
    + exists s2, (v' :: l'). split; [|split; [|split; [|split; [|split]]]].
      * cbn [copy_kids]. rewrite E. fold (copy_kids f). rewrite E2. now rewrite <- List.app_assoc.
      * constructor; auto. eapply rep_agree; eauto. apply in_use_agree; auto. apply M1.
      * eapply grows_trans; eauto.
      * lia.
      * constructor.
        -- eapply made_grows; eauto.
        -- eapply Forall_impl; [|exact M2]. intros k Hk. eapply made_from; eauto.
      * exists (xs :: xss). pose proof M1 as (_ & _ & U). split.
        -- constructor; auto. apply (lists_cells s1); auto. intros x Hx. apply (in_use_agree _ _ _ U G2). now apply (lists_reach _ _ _ X1).
        -- cbn [List.concat]. apply NoDup_app_intro; auto. intros x Hx Hy. apply (lists_reach _ _ _ X1) in Hx.
           apply (in_use_avail _ _ _ U Hx). apply in_concat in Hy. destruct Hy as (l0 & Hl0 & Hy).
           clear - X3 M2 Hl0 Hy. induction X3 as [|k y l1 l2 Q _ IH]; [destruct Hl0|]. inversion M2 as [|? ? (K1 & _) M3]; subst.
           destruct Hl0 as [->|Hl0]; [|auto]. apply K1. now apply (lists_reach _ _ _ Q).
Qed.

Lemma depth_kids l k : depth (Node (XName "" "") [] None "" l : node M) <= S k -> Forall (fun n => depth n <= k) l.
Proof.
  cbn [depth]. intros H. apply le_S_n in H. induction l as [|n l IH]; cbn in *; constructor; [lia|apply IH; lia].
Qed.

Lemma mem_copy_copies f : copies f.
Proof.
  induction f as [|f IH]; intros s a n Hp Hr Hu Hd.
  { destruct n. cbn in Hd. lia. }
  inversion Hr as [a' l Hk]; subst. set (x := s_cells s a) in *.
  cbn [mem_copy]. fold (copy_kids f). fold x.
  destruct (mem_new s (c_name x)) as [s1 n] eqn:En.
  destruct (mem_new_spec s (c_name x) s1 n Hp En) as (G1 & A1 & A2 & Hlt & Hnx & Han & Hc & Hav).
  assert (Hxa : s_cells s1 a = x).
  { apply G1. apply (in_use_avail _ _ _ Hu). constructor. }
  cbv zeta. rewrite Hxa, Hc. cbn [c_name clean].
  assert (Hna : a <> n). { intros ->. apply (in_use_avail _ _ n Hu); [constructor|auto]. }
  set (s2 := set_cell s1 n (Cell (c_name x) None (c_model x) (c_value x) [])).
  assert (Hat : attrs_at s2 (c_attr x) = attrs_at s (c_attr x)).
  { destruct (c_attr x) as [r|] eqn:Er; auto. cbn. apply G1. apply Hu. exists a. split; [constructor|auto]. }
  rewrite Hat. cbn [alloc_arr s_cells]. set (atts := attrs_at s (c_attr x)).
  assert (Ecell : s_cells s2 n = Cell (c_name x) None (c_model x) (c_value x) []) by (unfold s2; cbn; now rewrite upd_same).
  rewrite Ecell. cbn [c_name c_model c_value].
  set (r := s_anext s2).
  set (s3 := set_cell _ n (Cell (c_name x) (Some r) (c_model x) (c_value x) [])).
  assert (G3 : grows s s3).
  { apply set_cell_grows; auto. assert (G2 : grows s s2) by now apply set_cell_grows.
    destruct G2 as [P2 V2 R2 C2 D2]. constructor; cbn; auto.
    intros r' Hr'. rewrite upd_other by lia. exact (D2 r' Hr'). }
  assert (Hkid : Forall2 (rep s3) (c_kids x) l /\ Forall (in_use s3) (c_kids x)).
  { assert (Hin : forall k, In k (c_kids x) -> in_use s k).
    { intros k Hki. destruct Hu as [Hu1 Hu2]. split.
      - intros y Hy. apply Hu1. eapply reach_kid; eauto.
      - intros r' (y & Hy & Hyr). apply Hu2. exists y. split; auto. eapply reach_kid; eauto. }
    split.
    - clear - Hk Hin G3. induction Hk; constructor; auto.
      + eapply rep_agree; eauto. apply in_use_agree; auto. apply Hin. now left.
      + apply IHHk. intros; apply Hin; now right.
    - apply Forall_forall. intros k Hki. apply (in_use_grows s); auto.
      intros y Hy. destruct (Hin k Hki) as [H _]. destruct (H y Hy). cbn. lia. }
  destruct Hkid as [Hk3 Hu3].
  destruct (copy_kids_spec f IH (c_kids x) l s3 []) as (s4 & l' & E4 & R4 & G4 & L4 & M4 & xss & X3 & X4); auto.
  { apply G3. }
  { apply depth_kids. exact Hd. }
  cbn [app] in E4. rewrite E4. set (c := s_cells s4 n).
  assert (Hav3 : ~ avail s3 n) by (intros [Hi|Hi]; apply A2; [left|right]; exact Hi).
  assert (Ec : c = Cell (c_name x) (Some r) (c_model x) (c_value x) []).
  { unfold c. rewrite (g_cells _ _ G4) by auto. unfold s3. cbn. now rewrite upd_same. }
  rewrite Ec. cbn [c_name c_attr c_model c_value].
  set (s5 := set_cell s4 n (Cell (c_name x) (Some r) (c_model x) (c_value x) l')).
  assert (Hcn : s_cells s5 n = Cell (c_name x) (Some r) (c_model x) (c_value x) l') by (unfold s5; cbn; now rewrite upd_same).
  assert (Hr5 : s_arrs s5 r = atts).
  { unfold s5. cbn. rewrite (g_arrs _ _ G4); [|cbn; lia]. unfold s3. cbn. now rewrite upd_same. }
  (* the copied children do not contain n *)
  assert (Hkn : forall k, In k l' -> agree s4 s5 k).
  { intros k Hki. rewrite Forall_forall in M4. destruct (M4 k Hki) as (K1 & _ & _). split.
    - intros y Hy. unfold s5. cbn. rewrite upd_other; auto. intros ->. apply Hav3. now apply K1.
    - intros r' _. reflexivity. }
  exists s5, n. split; [reflexivity|]. split; [|split; [|split; [|split]]].
  - assert (Hn : rep s5 n (Node (c_name (s_cells s5 n)) (attrs_at s5 (c_attr (s_cells s5 n))) (c_model (s_cells s5 n)) (c_value (s_cells s5 n)) l)).
    { constructor. rewrite Hcn. cbn [c_kids].
      clearbody s5. clear - R4 Hkn. induction R4; constructor; auto.
      - eapply rep_agree; eauto. apply Hkn. now left.
      - apply IHR4. intros; apply Hkn; now right. }
    rewrite Hcn in Hn. cbn [c_name c_attr c_model c_value attrs_at] in Hn. rewrite Hr5 in Hn. exact Hn.
  - apply set_cell_grows; auto. eapply grows_trans; eauto.
  - assert (Hreach : forall y, reach s5 n y -> y = n \/ exists k, In k l' /\ reach s4 k y).
    { intros y Hy. inversion Hy; subst; auto. rewrite Hcn in H. right. exists k. split; auto. now apply (reach_agree s4 s5 k y (Hkn k H)). }
    rewrite Forall_forall in M4. split; [|split].
    + intros y Hy. destruct (Hreach y Hy) as [->|(k & Hki & Hky)]; auto.
      apply G3. destruct (M4 k Hki) as (K1 & _ & _). auto.
    + intros r' (y & Hy & Hyr). destruct (Hreach y Hy) as [->|(k & Hki & Hky)].
      * rewrite Hcn in Hyr. cbn in Hyr. inversion Hyr; subst. unfold r, s2. cbn. lia.
      * destruct (M4 k Hki) as (_ & K2 & _). assert (s_anext s3 <= r'). { apply K2. exists y. split; auto. rewrite <- Hyr. f_equal. symmetry. now apply (proj1 (Hkn k Hki)). }
        cbn in H. lia.
    + split.
      * intros y Hy. unfold s5. cbn [s_next s_pool set_cell]. destruct (Hreach y Hy) as [->|(k & Hki & Hky)].
        -- split; [cbn in L4; lia|]. intros Hpl. apply Hav3. apply G4. now left.
        -- destruct (M4 k Hki) as (_ & _ & [K3 _]). auto.
      * intros r' (y & Hy & Hyr). unfold s5. cbn [s_anext set_cell]. destruct (Hreach y Hy) as [->|(k & Hki & Hky)].
        -- rewrite Hcn in Hyr. cbn in Hyr. inversion Hyr; subst. pose proof (g_arr _ _ G4). cbn in H. unfold r, s2. cbn. lia.
        -- destruct (M4 k Hki) as (_ & _ & [_ K3]). apply K3. exists y. split; auto. rewrite <- Hyr. f_equal. symmetry. now apply (proj1 (Hkn k Hki)).
  - unfold s5. cbn [s_next set_cell]. cbn in L4. lia.
  - assert (Hni : forall k ys, In k l' -> lists s4 k ys -> ~ In n ys).
    { intros k ys Hki Hys Hi. apply (lists_reach _ _ _ Hys) in Hi. rewrite Forall_forall in M4. destruct (M4 k Hki) as (K1 & _). apply Hav3. now apply K1. }
    exists (n :: List.concat xss). split.
    + constructor. rewrite Hcn. cbn [c_kids]. clearbody s5. clear - X3 Hkn. induction X3 as [|k y l1 l2 Q _ IH]; constructor.
      * apply (lists_cells s4); auto. intros x Hx. apply (proj1 (Hkn k (or_introl eq_refl))). now apply (lists_reach _ _ _ Q).
      * apply IH. intros; apply Hkn; now right.
    + constructor; auto. intros Hi. apply in_concat in Hi. destruct Hi as (y & Hy & Hi).
      clear - X3 Hni Hy Hi. induction X3 as [|k z l1 l2 Q _ IH]; [destruct Hy|]. destruct Hy as [->|Hy].
      * apply (Hni k y); auto. now left.
      * apply IH; auto. intros; eapply Hni; eauto. now right.
Qed.

Theorem copy_independent s a n fuel : pool_ok s -> rep s a n -> in_use s a -> depth n <= fuel ->
  exists s' a', mem_copy fuel s a = Some (s', a') /\ rep s' a' n /\ rep s' a n /\ in_use s' a' /\
    (forall x, reach s' a' x -> ~ reach s' a x) /\ (forall r, reach_arr s' a' r -> ~ reach_arr s' a r) /\
    (forall ws, Forall (fun w => match w with
                                 | WCell x _ => reach s' a' x \/ s_next s' <= x
                                 | WArr r _ => reach_arr s' a' r \/ s_anext s' <= r end) ws ->
       rep (fold_left do_write ws s') a n).
Proof.
  intros Hp Hr Hu Hd. destruct (mem_copy_copies fuel s a n Hp Hr Hu Hd) as (s' & a' & E & R & G & (M1 & M2 & M3) & L & _).
  pose proof (in_use_agree _ _ _ Hu G) as Ha.
  assert (Hd1 : forall x, reach s' a' x -> ~ reach s' a x).
  { intros x Hx Hy. apply (reach_agree _ _ _ _ Ha) in Hy. apply (in_use_avail _ _ _ Hu Hy). auto. }
  assert (Hd2 : forall r, reach_arr s' a' r -> ~ reach_arr s' a r).
  { intros r Hx Hy. apply (reach_arr_agree _ _ _ _ Ha) in Hy. destruct Hu as [_ Hu]. specialize (Hu r Hy). specialize (M2 r Hx). lia. }
  exists s', a'. repeat split; auto; try apply M3; auto. { eapply rep_agree; eauto. }
  intros ws Hws. assert (R0 : rep s' a n) by (eapply rep_agree; eauto).
  apply (rep_agree s'); auto.
  assert (Hag : agree s' s' a) by (split; auto). revert Hag.
  generalize s' at 2 4 as s1. intros s1 Hag. revert s1 Hag.
  induction ws as [|w ws IH]; intros s1 Hag; cbn [fold_left]; auto.
  inversion Hws as [|? ? W1 W2]; subst. apply IH; auto. destruct Hag as [B1 B2].
  assert (U' : in_use s' a) by (apply (in_use_grows s); auto; intros x Hx; destruct Hu as [Hu _]; destruct (Hu x Hx); lia).
  split.
  - intros x Hx. rewrite <- B1 by auto. destruct w as [y c|r l]; cbn; auto. rewrite upd_other; auto.
    intros ->. destruct W1 as [W1|W1]; [now apply (Hd1 y)|]. destruct U' as [U' _]. destruct (U' y Hx). lia.
  - intros r Hx. rewrite <- B2 by auto. destruct w as [y c|r' l]; cbn; auto. rewrite upd_other; auto.
    intros ->. destruct W1 as [W1|W1]; [now apply (Hd2 r')|]. destruct U' as [_ U']. specialize (U' r' Hx). lia.
Qed.
End P.
