(* C140: the statistics of the node pool *)
From Coq Require Import List Arith ZArith Lia Bool String.
From Verif Require Import GoStr Names NodeM PoolM PoolFacts PoolCloseM PoolStatsM.
Import ListNotations.
Local Open Scope string_scope.

(* how often nodes were handed out and given back *)
Definition is_new (d : did) : bool := match d with DNew _ => true | _ => false end.
Definition news (l : list did) : Z := Z.of_nat (List.length (filter is_new l)).
Definition closings (l : list did) : Z := Z.of_nat (List.length (filter (fun d => negb (is_new d)) l)).

(* the node was handed out last and not given back since *)
Definition held_after (l : list did) (a : addr) : Prop :=
  exists pre post, l = (pre ++ DNew a :: post)%list /\ ~ In (DClosed a) post.
(* only nodes that are held are given back *)
Definition careful (l : list did) : Prop := forall pre a post, l = (pre ++ DClosed a :: post)%list -> held_after pre a.

Lemma held_snoc_new l a b : held_after (l ++ [DNew b])%list a <-> a = b \/ held_after l a.
Proof.
  split.
  - intros (pre & post & E & H). destruct post as [|d post _] using rev_ind.
    + apply app_inj_tail in E as [_ E]. injection E as ->. now left.
    + rewrite app_comm_cons, List.app_assoc in E. apply app_inj_tail in E as [-> <-]. right. exists pre, post. split; auto.
      intros Hi. apply H, in_or_app. now left.
  - intros [->|(pre & post & -> & H)]; [exists l, []; auto|]. exists pre, (post ++ [DNew b])%list. split; [now rewrite <- List.app_assoc|].
    intros Hi. apply in_app_or in Hi. destruct Hi as [Hi|[Hi|[]]]; [auto|discriminate].
Qed.
Lemma held_snoc_closed l a b : held_after (l ++ [DClosed b])%list a <-> a <> b /\ held_after l a.
Proof.
  split.
  - intros (pre & post & E & H). destruct post as [|d post _] using rev_ind.
    + apply app_inj_tail in E as [_ E]. discriminate.
    + rewrite app_comm_cons, List.app_assoc in E. apply app_inj_tail in E as [-> <-]. split.
      * intros ->. apply H, in_or_app. right. now left.
      * exists pre, post. split; auto. intros Hi. apply H, in_or_app. now left.
  - intros [Hn (pre & post & -> & H)]. exists pre, (post ++ [DClosed b])%list. split; [now rewrite <- List.app_assoc|].
    intros Hi. apply in_app_or in Hi. destruct Hi as [Hi|[Hi|[]]]; [auto|]. injection Hi as ->. auto.
Qed.
Lemma careful_prefix l1 l2 : careful (l1 ++ l2)%list -> careful l1.
Proof. intros H pre a post ->. apply (H pre a (post ++ l2)%list). now rewrite <- List.app_assoc. Qed.

Section F.
Context {M : Type}.
Variable cap : nat.
Notation world := (@world M).

(* a property of worlds kept by every elementary step, and by assignments, holds after every history *)
Section Keep.
Variable P : world -> Prop.
Hypothesis Hnew : forall w x, P w -> P (fst (count_new w x)).
Hypothesis Hback : forall w a, P w -> P (count_back cap w a).
Hypothesis Hset : forall w a c, P w -> P (World (set_cell (w_mem w) a c) (w_stats w) (w_log w)).
Lemma keep_close f : forall w a w', P w -> count_close cap f w a = Some w' -> P w'.
Proof.
  induction f as [|f IH]; intros w a w' H E; [discriminate|]. cbn [count_close] in E.
  match type of E with match ?g w ?k with _ => _ end = _ =>
    assert (G : forall l w1 w2, P w1 -> g w1 l = Some w2 -> P w2); [|destruct (g w k) as [w1|] eqn:E1; [|discriminate]] end.
  - induction l as [|v l IHl]; cbn; intros w1 w2 H1 E2; [now injection E2 as <-|].
    destruct (count_close cap f w1 v) as [w3|] eqn:E3; [|discriminate]. eapply IHl; [|exact E2]. eapply IH; eauto.
  - injection E as <-. apply Hback. eapply G; eauto.
Qed.
Lemma keep_run f h : forall w w', P w -> use_run cap f w h = Some w' -> P w'.
Proof.
  induction h as [|u h IH]; cbn [use_run]; intros w w' H E; [now injection E as <-|].
  destruct (use_step cap f w u) as [w1|] eqn:E1; [|discriminate]. eapply IH; [|exact E].
  destruct u; cbn [use_step] in E1; try (injection E1 as <-; auto; fail). eapply keep_close; eauto.
Qed.
End Keep.

Lemma filter_snoc {A} (p : A -> bool) l x : List.length (filter p (l ++ [x])%list) = List.length (filter p l) + if p x then 1 else 0.
Proof. rewrite filter_app, List.app_length. cbn. now destruct (p x). Qed.

Definition counted (w : world) : Prop :=
  (st_returns (w_stats w) - st_hits (w_stats w) = Z.of_nat (List.length (s_pool (w_mem w))))%Z /\
  in_use_number (w_stats w) = (news (w_log w) - closings (w_log w))%Z.
Lemma counted_new w x : counted w -> counted (fst (count_new w x)).
Proof.
  intros [H1 H2]. unfold counted, count_new, mem_new, in_use_number, news, closings in *.
  destruct (s_pool (w_mem w)) as [|a r] eqn:E; cbn [fst w_stats w_mem w_log s_pool set_cell st_allocs st_frees st_hits st_returns];
    rewrite !filter_snoc; cbn [is_new negb List.length] in *; split; lia.
Qed.
Lemma counted_back w a : counted w -> counted (count_back cap w a).
Proof.
  intros [H1 H2]. unfold counted, count_back, give_back, in_use_number, news, closings in *.
  cbn [s_pool set_cell]. destruct (Nat.ltb (List.length (s_pool (w_mem w))) cap);
    cbn [w_stats w_mem w_log s_pool set_cell set_pool st_allocs st_frees st_hits st_returns];
    rewrite !filter_snoc, ?List.app_length; cbn [is_new negb List.length] in *; split; lia.
Qed.

(* the nodes that are held, and the nodes in the pool *)
Definition tidy (w : world) : Prop := careful (w_log w) ->
  NoDup (s_pool (w_mem w)) /\ (forall a, In a (s_pool (w_mem w)) -> a < s_next (w_mem w) /\ ~ held_after (w_log w) a) /\
  (forall a, held_after (w_log w) a -> a < s_next (w_mem w)) /\
  exists l, NoDup l /\ (forall a, In a l <-> held_after (w_log w) a) /\ (news (w_log w) - closings (w_log w) = Z.of_nat (List.length l))%Z.
Lemma tidy_new w x : tidy w -> tidy (fst (count_new w x)).
Proof.
  intros H C. unfold count_new, mem_new in *. destruct (s_pool (w_mem w)) as [|b r] eqn:E; cbn [fst w_mem w_log s_pool s_next set_cell] in *;
    destruct (H (careful_prefix _ _ C)) as (N & P & L & l & Nl & Il & El); rewrite E in *.
  - assert (F : ~ held_after (w_log w) (s_next (w_mem w))) by (intros Q; apply L in Q; lia).
    split; [constructor|]. split; [intros ? []|]. split.
    + intros a Ha. apply held_snoc_new in Ha. destruct Ha as [->|Ha]; [lia|]. apply L in Ha. lia.
    + exists (s_next (w_mem w) :: l). split; [constructor; auto; now rewrite Il|]. split.
      * intros a. rewrite held_snoc_new, <- Il. cbn. intuition.
      * unfold news, closings in *. rewrite !filter_snoc. cbn [is_new negb List.length]. lia.
  - inversion N as [|? ? N1 N2]; subst. destruct (P b (or_introl eq_refl)) as [P1 P2]. split; [auto|]. split; [|split].
    + intros a Ha. destruct (P a (or_intror Ha)) as [P3 P4]. split; auto. rewrite held_snoc_new. intros [->|Q]; auto.
    + intros a Ha. apply held_snoc_new in Ha. destruct Ha as [->|Ha]; auto.
    + exists (b :: l). split; [constructor; auto; now rewrite Il|]. split.
      * intros a. rewrite held_snoc_new, <- Il. cbn. intuition.
      * unfold news, closings in *. rewrite !filter_snoc. cbn [is_new negb List.length]. lia.
Qed.
Lemma tidy_back w b : tidy w -> tidy (count_back cap w b).
Proof.
  intros H C. unfold count_back in *. cbn [w_mem w_log] in *.
  assert (Hb : held_after (w_log w) b) by (apply (C (w_log w) b []); reflexivity).
  destruct (H (careful_prefix _ _ C)) as (N & P & L & l & Nl & Il & El).
  assert (Pool : forall p, p = s_pool (w_mem w) \/ p = (s_pool (w_mem w) ++ [b])%list ->
    NoDup p /\ forall a, In a p -> a < s_next (w_mem w) /\ ~ held_after (w_log w ++ [DClosed b])%list a).
  { intros p [-> | ->].
    - split; auto. intros a Ha. destruct (P a Ha) as [P1 P2]. split; auto. rewrite held_snoc_closed. tauto.
    - split.
      + apply NoDup_app_intro; auto; [repeat constructor; auto|]. intros a Ha [<-|[]]. now apply (P b Ha).
      + intros a Ha. apply in_app_or in Ha. rewrite held_snoc_closed. destruct Ha as [Ha|[<-|[]]].
        * destruct (P a Ha). tauto.
        * split; [auto|]. intros [Q _]. now apply Q. }
  assert (G : s_next (give_back cap (w_mem w) b) = s_next (w_mem w) /\
              (s_pool (give_back cap (w_mem w) b) = s_pool (w_mem w) \/ s_pool (give_back cap (w_mem w) b) = (s_pool (w_mem w) ++ [b])%list)).
  { unfold give_back. cbn [s_pool set_cell]. destruct (Nat.ltb (List.length (s_pool (w_mem w))) cap); cbn; auto. }
  destruct G as [-> G]. destruct (Pool _ G) as [G1 G2]. split; [auto|]. split; [auto|]. split.
  - intros a Ha. apply held_snoc_closed in Ha. apply L, Ha.
  - apply Il in Hb. apply in_split in Hb. destruct Hb as (l1 & l2 & ->). exists (l1 ++ l2)%list. pose proof (NoDup_remove _ _ _ Nl) as [N1 N2].
    split; [auto|]. split.
    + intros a. rewrite held_snoc_closed, <- Il. split.
      * intros Ha. split; [intros ->; auto|]. apply in_or_app. apply in_app_or in Ha. cbn. tauto.
      * intros [Hn Ha]. apply in_or_app. apply in_app_or in Ha. cbn in Ha. destruct Ha as [|[|]]; auto. congruence.
    + unfold news, closings in *. rewrite !filter_snoc. rewrite !List.app_length in *. cbn [is_new negb List.length] in *. lia.
Qed.
End F.

(* After every history of uninterrupted calls, whatever nodes are closed and for every capacity: the number printed for the
   pool is the number of nodes in the pool, the number printed as in use is the number of nodes handed out minus the
   number of nodes given back. *)
Theorem C140_counts : forall M cap fuel cells arrs (h : list (@use M)) w, use_run cap fuel (use_start cells arrs) h = Some w ->
  in_pool_number (w_stats w) = Z.of_nat (List.length (s_pool (w_mem w))) /\
  in_use_number (w_stats w) = (news (w_log w) - closings (w_log w))%Z.
Proof.
  intros M cap fuel cells arrs h w E.
  assert (C : counted w) by (apply (keep_run cap counted (counted_new) (counted_back cap) ltac:(intros; assumption) fuel h (use_start cells arrs)); auto; split; reflexivity).
  destruct C as [C1 C2]. split; [|exact C2]. unfold in_pool_number, max64. rewrite C1. destruct (Z.ltb_spec 0 (Z.of_nat (List.length (s_pool (w_mem w))))); lia.
Qed.
Print Assumptions C140_counts.

(* If only nodes that are held are closed, the number printed as in use is the number of different nodes that are held. *)
Theorem C140_in_use_partial : forall M cap fuel cells arrs (h : list (@use M)) w, use_run cap fuel (use_start cells arrs) h = Some w ->
  careful (w_log w) ->
  exists l, NoDup l /\ (forall a, In a l <-> held_after (w_log w) a) /\ in_use_number (w_stats w) = Z.of_nat (List.length l).
Proof.
  intros M cap fuel cells arrs h w E C. destruct (C140_counts M cap fuel cells arrs h w E) as [_ ->].
  assert (T : tidy w).
  { apply (keep_run cap tidy tidy_new (tidy_back cap) ltac:(intros; assumption) fuel h (use_start cells arrs)); auto.
    assert (Z0 : forall a, ~ held_after [] a) by (intros a (pre & post & Q & _); destruct pre; discriminate).
    intros _. split; [constructor|]. split; [intros ? []|]. split; [intros a Ha; destruct (Z0 a Ha)|].
    exists []. split; [constructor|]. split; [|reflexivity]. intros a. split; [intros []|intros Ha; destruct (Z0 a Ha)]. }
  destruct (T C) as (_ & _ & _ & R). exact R.
Qed.
Print Assumptions C140_in_use_partial.

(* a node closed twice makes the number negative *)
Theorem C140_closed_twice_refuted : exists (h : list (@use unit)) w,
  use_run 9 9 (use_start (fun _ => clean empty_name) (fun _ => [])) h = Some w /\ (in_use_number (w_stats w) = -1)%Z /\ in_pool_number (w_stats w) = 2%Z.
Proof. exists [UNew (new_name "a"); UClose 0; UClose 0]. eexists. split; [vm_compute; reflexivity|]. split; reflexivity. Qed.
Print Assumptions C140_closed_twice_refuted.

(* The counters are increased without a lock. They never count too much, they are right when the goroutines take turns, but
   increments are lost for some schedules, though the program only uses NewNode. *)
Theorem C140_never_too_much : forall schedule, (k_value (k_run schedule) <= k_done (k_run schedule))%Z.
Proof.
  intros l. unfold k_run.
  assert (H : forall l k, (k_value k <= k_done k)%Z -> (forall t v, k_reg k t = Some v -> (v <= k_done k)%Z) ->
    (k_value (fold_left k_step l k) <= k_done (fold_left k_step l k))%Z).
  { clear. induction l as [|t l IH]; intros k H1 H2; cbn [fold_left]; auto. apply IH; unfold k_step; destruct (k_reg k t) as [v|] eqn:E;
      cbn [k_value k_done k_reg]; auto.
    - specialize (H2 t v E). lia.
    - intros u x. unfold upd. destruct (Nat.eqb u t); [discriminate|]. intros Hx. specialize (H2 u x Hx). lia.
    - intros u x. unfold upd. destruct (Nat.eqb u t); [intros Q; injection Q as <-; auto|apply H2]. }
  apply H; cbn; [lia|discriminate].
Qed.
Print Assumptions C140_never_too_much.
Theorem C140_in_turns : forall ts : list nat,
  let k := k_run (flat_map (fun t => [t; t]) ts) in k_value k = Z.of_nat (List.length ts) /\ k_done k = Z.of_nat (List.length ts).
Proof.
  intros ts. unfold k_run.
  assert (H : forall ts k, k_value k = k_done k -> (forall t, k_reg k t = None) ->
    let k' := fold_left k_step (flat_map (fun t => [t; t]) ts) k in
    k_value k' = (k_value k + Z.of_nat (List.length ts))%Z /\ k_done k' = (k_done k + Z.of_nat (List.length ts))%Z).
  { clear. induction ts as [|t ts IH]; intros k H1 H2; cbn [flat_map List.app fold_left List.length]; [cbn; lia|].
    assert (E : k_step (k_step k t) t = Counter (k_value k + 1) (upd (upd (k_reg k) t (Some (k_value k))) t None) (k_done k + 1)).
    { unfold k_step at 2. rewrite H2. unfold k_step. cbn [k_reg k_value k_done]. now rewrite upd_same. }
    rewrite E. edestruct IH as [A B]; [| |cbv zeta; split; [rewrite A|rewrite B]; cbn [k_value k_done]; lia]; cbn [k_value k_done k_reg].
    - lia.
    - intros u. unfold upd. destruct (Nat.eqb u t); auto. }
  destruct (H ts (Counter 0 (fun _ => None) 0)) as [A B]; auto.
Qed.
Print Assumptions C140_in_turns.
Theorem C140_lost_counts_refuted : forall n : nat, exists schedule,
  k_done (k_run schedule) = (Z.of_nat n + 1)%Z /\ k_value (k_run schedule) = 1%Z.
Proof.
  (* goroutines 0..n all load before the first store *)
  intros n. exists (seq 0 (S n) ++ seq 0 (S n))%list. unfold k_run. rewrite fold_left_app.
  assert (L : forall m b k, (forall t, b <= t -> k_reg k t = None) -> k_value k = 0%Z ->
    let k' := fold_left k_step (seq b m) k in k_value k' = 0%Z /\ k_done k' = k_done k /\
      forall t, k_reg k' t = if (Nat.leb b t && Nat.ltb t (b + m))%bool then Some 0%Z else k_reg k t).
  { clear. induction m as [|m IH]; intros b k H1 H2; cbn [seq fold_left].
    - cbv zeta. repeat split; auto. intros t. destruct (Nat.leb_spec b t), (Nat.ltb_spec t (b + 0)); auto; lia.
    - unfold k_step at 2 4 6. rewrite (H1 b) by lia. rewrite H2.
      destruct (IH (S b) (Counter 0 (upd (k_reg k) b (Some 0%Z)) (k_done k))) as (A & B & C); cbn [k_value k_reg k_done]; auto.
      { intros t Ht. rewrite upd_other by lia. apply H1. lia. }
      cbv zeta. repeat split; auto. intros t. rewrite C. cbn [k_reg]. unfold upd.
      destruct (Nat.eqb_spec t b); destruct (Nat.leb_spec (S b) t), (Nat.ltb_spec t (S b + m)), (Nat.leb_spec b t), (Nat.ltb_spec t (b + S m)); cbn; auto; lia. }
  assert (S' : forall m b k, (forall t, b <= t -> t < b + m -> k_reg k t = Some 0%Z) -> m = 0 \/ True ->
    let k' := fold_left k_step (seq b m) k in k_done k' = (k_done k + Z.of_nat m)%Z /\ (m <> 0 -> k_value k' = 1%Z)).
  { clear. induction m as [|m IH]; intros b k H _; cbn [seq fold_left]; [cbn; split; [lia|congruence]|].
    unfold k_step at 2 4. rewrite (H b) by lia.
    destruct (IH (S b) (Counter (0 + 1) (upd (k_reg k) b None) (k_done k + 1))) as (A & B); auto.
    { intros t H1 H2. cbn [k_reg]. rewrite upd_other by lia. apply H; lia. }
    cbv zeta. cbn [k_done] in A. split; [rewrite A; lia|]. intros _. destruct m; [reflexivity|]. apply B. discriminate. }
  destruct (L (S n) 0 (Counter 0 (fun _ => None) 0)) as (A & B & C); auto.
  destruct (S' (S n) 0 (fold_left k_step (seq 0 (S n)) (Counter 0 (fun _ => None) 0))) as (D & E); auto.
  { intros t _ Ht. rewrite C. destruct (Nat.leb_spec 0 t), (Nat.ltb_spec t (0 + S n)); cbn; auto; lia. }
  split; [rewrite D, B; cbn [k_done]; lia|now apply E].
Qed.
Print Assumptions C140_lost_counts_refuted.

(* three nodes, two of them a tree that is closed; one of its nodes is used again. The pool has room for one. *)
Example C140_hyps : exists w, use_run 1 5 (use_start (fun _ => clean empty_name) (fun _ => []))
    [UNew (new_name "a"); UNew (new_name "b"); UNew (new_name "c"); USet 0 (Cell (new_name "a") None (@None unit) "" [1]); UClose 0; UNew (new_name "d")] = Some w /\
  w_log w = [DNew 0; DNew 1; DNew 2; DClosed 1; DClosed 0; DNew 1] /\ careful (w_log w) /\
  w_stats w = Stats 3 1 1 1 /\ in_use_number (w_stats w) = 2%Z /\ in_pool_number (w_stats w) = 0%Z.
Proof.
  eexists. split; [vm_compute; reflexivity|]. split; [reflexivity|]. split; [|repeat split].
  intros pre a post E. cbn in E. do 3 (destruct pre as [|? pre]; [discriminate|injection E as <- E]).
  destruct pre as [|? pre]; [injection E as <- _; exists [DNew 0], [DNew 2]; split; auto; cbn; intuition discriminate|injection E as <- E].
  destruct pre as [|? pre]; [injection E as <- _; exists [], [DNew 1; DNew 2; DClosed 1]; split; auto; cbn; intuition discriminate|injection E as <- E].
  destruct pre as [|? pre]; [discriminate|injection E as <- E]. destruct pre; discriminate.
Qed.
