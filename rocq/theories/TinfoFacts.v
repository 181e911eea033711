(* Invariants of the cache of type descriptions *)
From Coq Require Import List Arith Bool Ascii String Lia.
From Verif Require Import GoStr GoStrFacts GoMap TinfoM RegistryFacts.
Import ListNotations.
Local Open Scope string_scope.

Section Tinfo.
Context {T : Type}.
Variable info : string -> string -> result T.
Notation tmachine := (@tmachine T).
Notation tpc := (@tpc T).

(* the goroutine holds the read lock / announced or holds the write lock / holds it *)
Definition rheld (p : tpc) : bool :=
  match p with QLook _ _ | QMade _ _ _ | QRead _ _ _ | QGot _ _ _ _ => true | _ => false end.
Definition wheld (p : tpc) : bool :=
  match p with QPut _ _ _ | QUn1 _ _ _ | QStore _ _ _ _ | QUn2 _ _ _ => true | _ => false end.
Definition wwant (p : tpc) : bool :=
  match p with QWait1 _ _ _ | QWait2 _ _ _ _ => true | _ => wheld p end.

Definition lock_inv (s : tmachine) : Prop :=
  (forall k, In k (tm_readers s) <-> rheld (q_pc (tm_threads s k)) = true)
  /\ (forall k, tm_writer s = Some k <-> wwant (q_pc (tm_threads s k)) = true)
  /\ (forall k, wheld (q_pc (tm_threads s k)) = true -> tm_readers s = []).

Definition pc_ok (p : tpc) : Prop :=
  match p with
  | QMade ns _ m | QLock1 ns _ m | QWait1 ns _ m | QPut ns _ m | QUn1 ns _ m | QRl ns _ m | QRead ns _ m | QComp ns _ m => fst m = ns
  | QGot ns t m o => fst m = ns /\ match o with Some i => info ns t = Ok i | None => True end
  | QLock2 ns t m i | QWait2 ns t m i | QStore ns t m i => fst m = ns /\ info ns t = Ok i
  | QUn2 ns t i => info ns t = Ok i
  | QRet ns t r => r = info ns t
  | _ => True
  end.
Definition data_inv (s : tmachine) : Prop :=
  (forall ns m, map_get (tm_ns s) ns = Some m -> fst m = ns)
  /\ (forall m t i, map_get (tm_heap s m) t = Some i -> info (fst m) t = Ok i)
  /\ (forall k, pc_ok (q_pc (tm_threads s k)))
  /\ (forall k ns t r, In (k, (ns, t), r) (tm_trace s) -> r = info ns t).

Lemma tupd_eq f k x : tupd (T:=T) f k x k = x.
Proof. unfold tupd. now rewrite Nat.eqb_refl. Qed.
Lemma tupd_neq f k x j : j <> k -> tupd (T:=T) f k x j = f j.
Proof. intros H. unfold tupd. now rewrite (proj2 (Nat.eqb_neq j k) H). Qed.

Lemma mapid_eqb_eq a b : mapid_eqb a b = true <-> a = b.
Proof.
  destruct a as [a1 a2], b as [b1 b2]. unfold mapid_eqb. cbn [fst snd]. rewrite andb_true_iff, eqb_eq, Nat.eqb_eq.
  split; [intros [-> ->]; reflexivity|intros H; injection H; auto].
Qed.
Lemma heap_upd h m x m' t i : map_get (hupd h m x m') t = Some i ->
  (m' = m /\ map_get x t = Some i) \/ (m' <> m /\ map_get (h m') t = Some (i : T)).
Proof.
  unfold hupd. destruct (mapid_eqb m' m) eqn:E.
  - apply mapid_eqb_eq in E. auto.
  - intros H. right. split; [intros ->; rewrite (proj2 (mapid_eqb_eq m m) eq_refl) in E; discriminate|exact H].
Qed.
Lemma get_set {V} (l : gomap V) k v k' w : map_get (map_set l k v) k' = Some w -> (k' = k /\ w = v) \/ (k' <> k /\ map_get l k' = Some w).
Proof.
  destruct (string_dec k' k) as [->|N].
  - rewrite map_get_set_eq. intros H. injection H as <-. auto.
  - rewrite map_get_set_neq by auto. auto.
Qed.

Lemma data_init progs : data_inv (tinit progs).
Proof.
  unfold data_inv, tinit. cbn. split; [discriminate|]. split; [discriminate|]. split; [auto|]. intros ? ? ? ? [].
Qed.

Lemma threads_ok (s : tmachine) k p todo : (forall j, pc_ok (q_pc (tm_threads s j))) -> pc_ok p ->
  forall j, pc_ok (q_pc (tupd (tm_threads s) k (TThread p todo) j)).
Proof. intros H Hp j. destruct (Nat.eq_dec j k) as [->|N]; [now rewrite tupd_eq|now rewrite tupd_neq]. Qed.

Lemma data_step s k s' : data_inv s -> tstep info s k = Some s' -> data_inv s'.
Proof.
  intros (D1 & D2 & D3 & D4) H. unfold tstep in H. pose proof (D3 k) as Dk.
  destruct (q_pc (tm_threads s k)) as [|ns t|ns t|ns t m|ns t m|ns t m|ns t m|ns t m|ns t m|ns t m|ns t m o|ns t m|ns t m i|ns t m i|ns t m i|ns t i|ns t r] eqn:Epc; cbn [pc_ok] in Dk.
  - destruct (q_todo (tm_threads s k)) as [|[ns t] r]; [discriminate|]. injection H as <-.
    repeat split; auto. now apply threads_ok.
  - destruct (tm_writer s); [discriminate|]. injection H as <-. repeat split; auto. now apply threads_ok.
  - destruct (map_get (tm_ns s) ns) as [m|] eqn:Em.
    + injection H as <-. repeat split; auto. apply threads_ok; auto. cbn. eauto.
    + injection H as <-. repeat split; auto.
      * cbn [tm_heap]. intros m' t' i' Hg. apply heap_upd in Hg as [[_ Hg]|[_ Hg]]; [discriminate|eauto].
      * now apply threads_ok.
  - injection H as <-. repeat split; auto. now apply threads_ok.
  - destruct (tm_writer s); [discriminate|]. injection H as <-. repeat split; auto. now apply threads_ok.
  - destruct (tm_readers s); [|discriminate]. injection H as <-. repeat split; auto. now apply threads_ok.
  - injection H as <-. repeat split; auto; [|now apply threads_ok].
    cbn [tm_ns]. intros ns' m' Hg. apply get_set in Hg as [[-> ->]|[_ Hg]]; eauto.
  - injection H as <-. repeat split; auto. now apply threads_ok.
  - destruct (tm_writer s); [discriminate|]. injection H as <-. repeat split; auto. now apply threads_ok.
  - injection H as <-. repeat split; auto. apply threads_ok; auto. cbn [pc_ok]. split; [exact Dk|].
    destruct (map_get (tm_heap s m) t) eqn:Eg; auto. rewrite <- Dk. eauto.
  - destruct Dk as [Dk Do]. destruct o as [i|]; injection H as <-; repeat split; auto; apply threads_ok; auto. cbn. congruence.
  - destruct (info ns t) as [i|e|] eqn:Ei; injection H as <-; repeat split; auto; apply threads_ok; auto; cbn; auto.
  - destruct (tm_writer s); [discriminate|]. injection H as <-. repeat split; auto. now apply threads_ok.
  - destruct (tm_readers s); [|discriminate]. injection H as <-. repeat split; auto. now apply threads_ok.
  - destruct Dk as [Dk Di]. injection H as <-. repeat split; auto.
    + cbn [tm_heap]. intros m' t' i' Hg. apply heap_upd in Hg as [[-> Hg]|[_ Hg]]; [|eauto].
      apply get_set in Hg as [[-> ->]|[_ Hg]]; [congruence|eauto].
    + now apply threads_ok.
  - injection H as <-. repeat split; auto. apply threads_ok; auto. cbn. congruence.
  - injection H as <-. repeat split; auto.
    + now apply threads_ok.
    + cbn [tm_trace]. intros k' ns' t' r' Hi. apply in_app_iff in Hi as [Hi|[Hi|[]]]; eauto. injection Hi as <- <- <- <-. exact Dk.
Qed.

Lemma lock_init progs : lock_inv (tinit (T:=T) progs).
Proof.
  unfold lock_inv, tinit. cbn. split; [intros k; split; [intros []|discriminate]|]. split; [|auto].
  intros k. split; discriminate.
Qed.

Lemma lock_step s k s' : lock_inv s -> tstep info s k = Some s' -> lock_inv s'.
Proof.
  intros (L1 & L2 & L3) H. unfold tstep in H.
  assert (R : forall p td rs, rheld p = false -> (forall j, In j rs <-> (In j (tm_readers s) /\ j <> k)) ->
     forall j, In j rs <-> rheld (q_pc (tupd (tm_threads s) k (TThread p td) j)) = true).
  { intros p td rs Hp Hr j. rewrite Hr, L1. destruct (Nat.eq_dec j k) as [->|N].
    - rewrite tupd_eq. cbn [q_pc]. rewrite Hp. split; [intros [_ ?]; congruence|discriminate].
    - rewrite tupd_neq by auto. tauto. }
  assert (RR : forall p td, rheld p = true ->
     forall j, In j (k :: tm_readers s) <-> rheld (q_pc (tupd (tm_threads s) k (TThread p td) j)) = true).
  { intros p td Hp j. cbn [In]. rewrite L1. destruct (Nat.eq_dec j k) as [->|N].
    - rewrite tupd_eq. cbn [q_pc]. rewrite Hp. split; auto.
    - rewrite tupd_neq by auto. split; [intros [<-|?]; [congruence|auto]|auto]. }
  assert (RS : forall p td, rheld p = rheld (q_pc (tm_threads s k)) ->
     forall j, In j (tm_readers s) <-> rheld (q_pc (tupd (tm_threads s) k (TThread p td) j)) = true).
  { intros p td Hp j. rewrite L1. destruct (Nat.eq_dec j k) as [->|N];
      [rewrite tupd_eq; cbn [q_pc]; now rewrite Hp|now rewrite tupd_neq]. }
  assert (WS : forall p td, wwant p = wwant (q_pc (tm_threads s k)) ->
     forall j, tm_writer s = Some j <-> wwant (q_pc (tupd (tm_threads s) k (TThread p td) j)) = true).
  { intros p td Hp j. rewrite L2. destruct (Nat.eq_dec j k) as [->|N];
      [rewrite tupd_eq; cbn [q_pc]; now rewrite Hp|now rewrite tupd_neq]. }
  assert (WA : forall p td, tm_writer s = None -> wwant p = true ->
     forall j, Some k = Some j <-> wwant (q_pc (tupd (tm_threads s) k (TThread p td) j)) = true).
  { intros p td Hw Hp j. destruct (Nat.eq_dec j k) as [->|N].
    - rewrite tupd_eq. cbn [q_pc]. rewrite Hp. tauto.
    - rewrite tupd_neq by auto. rewrite <- L2, Hw. split; congruence. }
  assert (WR : forall p td, wwant (q_pc (tm_threads s k)) = true -> wwant p = false ->
     forall j, None = Some j <-> wwant (q_pc (tupd (tm_threads s) k (TThread p td) j)) = true).
  { intros p td Hw Hp j. apply L2 in Hw. destruct (Nat.eq_dec j k) as [->|N].
    - rewrite tupd_eq. cbn [q_pc]. rewrite Hp. split; discriminate.
    - rewrite tupd_neq by auto. rewrite <- L2, Hw. split; congruence. }
  assert (HS : forall p td (rs : list nat), (wheld p = true -> rs = []) -> (forall j, wheld (q_pc (tm_threads s j)) = true -> j <> k -> rs = []) ->
     forall j, wheld (q_pc (tupd (tm_threads s) k (TThread p td) j)) = true -> rs = []).
  { intros p td rs Hp Ho j. destruct (Nat.eq_dec j k) as [->|N].
    - rewrite tupd_eq. cbn [q_pc]. auto.
    - rewrite tupd_neq by auto. eauto. }
  assert (WH : forall p, wheld p = true -> wwant p = true) by (intros [] E; auto).
  assert (HN : forall j, tm_writer s = None -> wheld (q_pc (tm_threads s j)) = true -> False).
  { intros j Hw Hj. apply WH, L2 in Hj. congruence. }
  assert (RM : forall j, In j (remove Nat.eq_dec k (tm_readers s)) <-> (In j (tm_readers s) /\ j <> k)).
  { intros j. split; [apply in_remove|intros [? ?]; now apply in_in_remove]. }
  assert (RK : rheld (q_pc (tm_threads s k)) = true -> forall j, wheld (q_pc (tm_threads s j)) = true -> False).
  { intros Hk j Hj. apply L3 in Hj. apply L1 in Hk. rewrite Hj in Hk. destruct Hk. }
  (* the shapes of steps *)
  assert (S_same : forall p td a b c d, rheld p = rheld (q_pc (tm_threads s k)) -> wwant p = wwant (q_pc (tm_threads s k)) ->
     wheld p = wheld (q_pc (tm_threads s k)) ->
     lock_inv (TMachine (tupd (tm_threads s) k (TThread p td)) (tm_readers s) (tm_writer s) a b c d)).
  { intros p td a b c d E1 E2 E3. unfold lock_inv. cbn [tm_readers tm_writer tm_threads]. split; [now apply RS|]. split; [now apply WS|].
    apply HS; [rewrite E3; eauto|eauto]. }
  assert (S_rlock : forall p td a b c d, tm_writer s = None -> rheld p = true -> wwant p = false -> wwant (q_pc (tm_threads s k)) = false ->
     lock_inv (TMachine (tupd (tm_threads s) k (TThread p td)) (k :: tm_readers s) None a b c d)).
  { intros p td a b c d E0 E1 E2 E3. unfold lock_inv. cbn [tm_readers tm_writer tm_threads]. split; [now apply RR|]. split.
    - rewrite <- E0. apply WS. congruence.
    - apply HS; [intros E; apply WH in E; congruence|]. intros j Hj _. exfalso. eauto. }
  assert (S_runlock : forall p td a b c d, rheld (q_pc (tm_threads s k)) = true -> rheld p = false -> wwant p = false -> wwant (q_pc (tm_threads s k)) = false ->
     lock_inv (TMachine (tupd (tm_threads s) k (TThread p td)) (remove Nat.eq_dec k (tm_readers s)) (tm_writer s) a b c d)).
  { intros p td a b c d E0 E1 E2 E3. unfold lock_inv. cbn [tm_readers tm_writer tm_threads]. split; [now apply R|]. split.
    - apply WS. congruence.
    - apply HS; [intros E; apply WH in E; congruence|]. intros j Hj _. exfalso. eauto. }
  assert (S_ann : forall p td a b c d, tm_writer s = None -> rheld p = false -> rheld (q_pc (tm_threads s k)) = false -> wwant p = true -> wheld p = false ->
     lock_inv (TMachine (tupd (tm_threads s) k (TThread p td)) (tm_readers s) (Some k) a b c d)).
  { intros p td a b c d E0 E1 E2 E3 E4. unfold lock_inv. cbn [tm_readers tm_writer tm_threads]. split; [apply RS; congruence|]. split; [now apply WA|].
    apply HS; [congruence|eauto]. }
  assert (S_wait : forall p td a b c d, tm_readers s = [] -> rheld p = false -> rheld (q_pc (tm_threads s k)) = false -> wwant p = true -> wwant (q_pc (tm_threads s k)) = true ->
     lock_inv (TMachine (tupd (tm_threads s) k (TThread p td)) [] (tm_writer s) a b c d)).
  { intros p td a b c d E0 E1 E2 E3 E4. unfold lock_inv. cbn [tm_readers tm_writer tm_threads]. split; [rewrite <- E0; apply RS; congruence|].
    split; [apply WS; congruence|]. auto. }
  assert (S_un : forall p td a b c d, wheld (q_pc (tm_threads s k)) = true -> rheld p = false -> rheld (q_pc (tm_threads s k)) = false -> wwant p = false ->
     lock_inv (TMachine (tupd (tm_threads s) k (TThread p td)) (tm_readers s) None a b c d)).
  { intros p td a b c d E0 E1 E2 E3. unfold lock_inv. cbn [tm_readers tm_writer tm_threads]. split; [apply RS; congruence|].
    split; [apply WR; auto|]. apply HS; [intros E; apply WH in E; congruence|eauto]. }
  destruct (q_pc (tm_threads s k)) as [|ns t|ns t|ns t m|ns t m|ns t m|ns t m|ns t m|ns t m|ns t m|ns t m o|ns t m|ns t m i|ns t m i|ns t m i|ns t i|ns t r] eqn:Epc.
  - destruct (q_todo (tm_threads s k)) as [|[ns t] r]; [discriminate|]. injection H as <-. now apply S_same.
  - destruct (tm_writer s) eqn:Ew; [discriminate|]. injection H as <-. now apply S_rlock.
  - destruct (map_get (tm_ns s) ns) as [m|] eqn:Em; injection H as <-; now apply S_same.
  - injection H as <-. now apply S_runlock.
  - destruct (tm_writer s) eqn:Ew; [discriminate|]. injection H as <-. now apply S_ann.
  - destruct (tm_readers s) eqn:Er; [|discriminate]. injection H as <-. now apply S_wait.
  - injection H as <-. now apply S_same.
  - injection H as <-. now apply S_un.
  - destruct (tm_writer s) eqn:Ew; [discriminate|]. injection H as <-. now apply S_rlock.
  - injection H as <-. now apply S_same.
  - destruct o as [i|]; injection H as <-; now apply S_runlock.
  - destruct (info ns t) as [i|e|]; injection H as <-; now apply S_same.
  - destruct (tm_writer s) eqn:Ew; [discriminate|]. injection H as <-. now apply S_ann.
  - destruct (tm_readers s) eqn:Er; [|discriminate]. injection H as <-. now apply S_wait.
  - injection H as <-. now apply S_same.
  - injection H as <-. now apply S_un.
  - injection H as <-. now apply S_same.
Qed.

Lemma run_inv (P : tmachine -> Prop) : (forall s k s', P s -> tstep info s k = Some s' -> P s') ->
  forall sched s, P s -> P (trun info s sched).
Proof.
  intros Hs. induction sched as [|k r IH]; intros s H; cbn [trun]; [exact H|].
  apply IH. destruct (tstep info s k) eqn:E; eauto.
Qed.

Lemma cache_sound progs sched k ns t r :
  In (k, (ns, t), r) (tm_trace (trun info (tinit progs) sched)) -> r = info ns t.
Proof.
  destruct (run_inv data_inv data_step sched _ (data_init progs)) as (_ & _ & _ & H). apply H.
Qed.

Lemma race_free progs sched i j :
  let s := trun info (tinit progs) sched in
  i <> j -> writing (q_pc (tm_threads s i)) = true ->
  reading (q_pc (tm_threads s j)) = false /\ writing (q_pc (tm_threads s j)) = false.
Proof.
  intros s N Hi. destruct (run_inv lock_inv lock_step sched _ (lock_init progs)) as (L1 & L2 & L3). fold s in L1, L2, L3.
  assert (Hw : wheld (q_pc (tm_threads s i)) = true) by (destruct (q_pc (tm_threads s i)); auto).
  assert (Hw' : wwant (q_pc (tm_threads s i)) = true) by (destruct (q_pc (tm_threads s i)); auto).
  apply L2 in Hw'. apply L3 in Hw. split.
  - destruct (reading (q_pc (tm_threads s j))) eqn:E; [|reflexivity]. exfalso.
    assert (X : rheld (q_pc (tm_threads s j)) = true) by (destruct (q_pc (tm_threads s j)); auto; discriminate).
    apply L1 in X. rewrite Hw in X. destruct X.
  - destruct (writing (q_pc (tm_threads s j))) eqn:E; [|reflexivity]. exfalso.
    assert (X : wwant (q_pc (tm_threads s j)) = true) by (destruct (q_pc (tm_threads s j)); auto; discriminate).
    apply L2 in X. congruence.
Qed.

(* outside the writing steps the maps in use do not change *)
Lemma only_writers_write s k s' : tstep info s k = Some s' -> writing (q_pc (tm_threads s k)) = false ->
  tm_ns s' = tm_ns s /\ forall m, snd m < tm_next s -> tm_heap s' m = tm_heap s m.
Proof.
  unfold tstep. intros H W.
  destruct (q_pc (tm_threads s k)) as [|ns t|ns t|ns t m|ns t m|ns t m|ns t m|ns t m|ns t m|ns t m|ns t m o|ns t m|ns t m i|ns t m i|ns t m i|ns t i|ns t r];
    cbn in W; try discriminate.
  - destruct (q_todo (tm_threads s k)) as [|[ns t] r]; [discriminate|]. injection H as <-. auto.
  - destruct (tm_writer s); [discriminate|]. injection H as <-. auto.
  - destruct (map_get _ _); injection H as <-; auto. cbn [tm_ns tm_heap]. split; [reflexivity|].
    intros [a b] Hm. unfold hupd, mapid_eqb. cbn [fst snd] in *. replace (b =? tm_next s)%nat with false; [now rewrite andb_false_r|].
    symmetry. apply Nat.eqb_neq. lia.
  - injection H as <-. auto.
  - destruct (tm_writer s); [discriminate|]. injection H as <-. auto.
  - destruct (tm_readers s); [|discriminate]. injection H as <-. auto.
  - injection H as <-. auto.
  - destruct (tm_writer s); [discriminate|]. injection H as <-. auto.
  - injection H as <-. auto.
  - destruct o; injection H as <-; auto.
  - destruct (info ns t); injection H as <-; auto.
  - destruct (tm_writer s); [discriminate|]. injection H as <-. auto.
  - destruct (tm_readers s); [|discriminate]. injection H as <-. auto.
  - injection H as <-. auto.
  - injection H as <-. auto.
Qed.

Lemma no_deadlock progs sched k :
  let s := trun info (tinit progs) sched in
  (q_pc (tm_threads s k) <> QIdle \/ q_todo (tm_threads s k) <> []) ->
  exists j s', tstep info s j = Some s'.
Proof.
  intros s Hk. destruct (run_inv lock_inv lock_step sched _ (lock_init progs)) as (L1 & L2 & L3). fold s in L1, L2, L3.
  assert (Free : forall j, rheld (q_pc (tm_threads s j)) = true \/ wheld (q_pc (tm_threads s j)) = true -> exists s', tstep info s j = Some s').
  { intros j Hj. unfold tstep. destruct (q_pc (tm_threads s j)) as [|ns t|ns t|ns t m|ns t m|ns t m|ns t m|ns t m|ns t m|ns t m|ns t m o|ns t m|ns t m i|ns t m i|ns t m i|ns t i|ns t r];
      cbn in Hj; try (destruct Hj; discriminate); eauto.
    - destruct (map_get _ _); eauto.
    - destruct o; eauto. }
  destruct (tm_writer s) as [w|] eqn:Ew.
  - pose proof (proj1 (L2 w) eq_refl) as Hw.
    destruct (wheld (q_pc (tm_threads s w))) eqn:Eh; [exists w; apply Free; auto|].
    destruct (tm_readers s) as [|r0 rs] eqn:Er.
    + exists w. unfold tstep. rewrite Er. destruct (q_pc (tm_threads s w)); cbn in *; try congruence; eauto.
    + exists r0. apply Free. left. apply L1. now left.
  - exists k.
    assert (W : wwant (q_pc (tm_threads s k)) = false).
    { destruct (wwant (q_pc (tm_threads s k))) eqn:E; [|reflexivity]. apply L2 in E. discriminate. }
    unfold tstep. rewrite Ew.
    destruct (q_pc (tm_threads s k)) as [|ns t|ns t|ns t m|ns t m|ns t m|ns t m|ns t m|ns t m|ns t m|ns t m o|ns t m|ns t m i|ns t m i|ns t m i|ns t i|ns t r];
      cbn in W; try discriminate; eauto.
    + destruct (q_todo (tm_threads s k)) as [|[ns t] r]; [destruct Hk; congruence|eauto].
    + destruct (map_get _ _); eauto.
    + destruct o; eauto.
    + destruct (info ns t); eauto.
Qed.
End Tinfo.
