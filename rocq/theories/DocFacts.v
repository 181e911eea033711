From Coq Require Import List Arith ZArith Bool Ascii String Lia.
From Verif Require Import GoStr GoStrFacts GoMap Names PathM SyncFlags PVList RegistryM RegistryFacts NodeM FilterM DocM Spec SpecBasic SpecNode NodeFacts SpecDoc.
Import ListNotations.
Local Open Scope string_scope.

(* ---- lists ---- *)
Lemma find_index_some {A} (t : A -> bool) l i : find_index t l = Some i ->
  exists x, first_at (fun x => t x = true) l i x.
Proof.
  revert i; induction l as [|v r IH]; intros i; cbn; [discriminate|]. destruct (t v) eqn:E.
  - intros H; inversion H; subst. exists v. split; [reflexivity|]. split; auto. intros; lia.
  - destruct (find_index t r) as [k|]; cbn; [|discriminate]. intros H; inversion H; subst.
    destruct (IH k eq_refl) as [x (H1 & H2 & H3)]. exists x. split; [exact H1|]. split; auto.
    intros [|j] y Hj Hy; cbn in Hy; [inversion Hy; subst; congruence|]. apply (H3 j); auto; lia.
Qed.

Lemma find_index_none {A} (t : A -> bool) l : find_index t l = None <-> forall x, In x l -> t x = false.
Proof.
  induction l as [|v r IH]; cbn; [split; auto; intros _ x []|]. destruct (t v) eqn:E.
  - split; [discriminate|]. intros H. specialize (H v (or_introl eq_refl)). congruence.
  - destruct (find_index t r); cbn.
    + split; [discriminate|]. intros H. destruct IH as [_ IH]. assert (Some n = None) by (apply IH; auto). discriminate.
    + split; auto. intros _ x [<-|H]; auto. now apply IH.
Qed.

Lemma find_index_first {A} (t : A -> bool) (P : A -> Prop) l i x : (forall y, t y = true <-> P y) -> first_at P l i x ->
  find_index t l = Some i.
Proof.
  intros HP. revert i; induction l as [|v r IH]; intros i (H1 & H2 & H3); [destruct i; discriminate|]. cbn.
  destruct i as [|i]; cbn in H1.
  - inversion H1; subst. now rewrite (proj2 (HP x) H2).
  - destruct (t v) eqn:E; [exfalso; apply (H3 0 v); [lia|reflexivity|now apply HP]|].
    rewrite (IH i); auto. split; auto. split; auto. intros j y Hj Hy. apply (H3 (S j)); auto. lia.
Qed.

Lemma find_find_index {A} (t : A -> bool) l : find t l = match find_index t l with Some i => nth_error l i | None => None end.
Proof.
  induction l as [|v r IH]; cbn; auto. destruct (t v); auto. rewrite IH. destruct (find_index t r); auto.
Qed.

Lemma find_index_lt {A} (t : A -> bool) l i : find_index t l = Some i -> i < List.length l.
Proof. intros H. apply find_index_some in H as [x [H _]]. apply nth_error_Some. congruence. Qed.

Lemma replace_nth_length {A} i (x : A) l : List.length (replace_nth i x l) = List.length l.
Proof. revert i; induction l as [|v r IH]; intros [|i]; cbn; auto. Qed.

Lemma nth_replace_eq {A} i (x : A) l : i < List.length l -> nth_error (replace_nth i x l) i = Some x.
Proof. revert i; induction l as [|v r IH]; intros [|i] H; cbn in *; try lia; auto. apply IH. lia. Qed.
Lemma nth_replace_neq {A} i j (x : A) l : i <> j -> nth_error (replace_nth i x l) j = nth_error l j.
Proof. revert i j; induction l as [|v r IH]; intros [|i] [|j] H; cbn in *; try lia; auto. Qed.
Lemma replace_nth_same {A} i (x : A) l : nth_error l i = Some x -> replace_nth i x l = l.
Proof. revert i; induction l as [|v r IH]; intros [|i] H; cbn in *; try discriminate; auto; [congruence|f_equal; auto]. Qed.
Lemma replace_nth_twice {A} i (x y : A) l : replace_nth i x (replace_nth i y l) = replace_nth i x l.
Proof. revert i; induction l as [|v r IH]; intros [|i]; cbn in *; auto. now rewrite IH. Qed.

Lemma changed_at_replace {A} i (x x' : A) l : nth_error l i = Some x -> changed_at l i x x' (replace_nth i x' l).
Proof.
  revert i; induction l as [|v r IH]; intros [|i] H; cbn in *; try discriminate.
  - inversion H; subst. exists [], r. auto.
  - destruct (IH i H) as (pre & post & H1 & H2 & H3). exists (v :: pre), post. cbn. rewrite H1. repeat split; congruence.
Qed.
Lemma changed_at_replace_iff {A} i (x x' : A) l l' : changed_at l i x x' l' <-> nth_error l i = Some x /\ l' = replace_nth i x' l.
Proof.
  split.
  - intros (pre & post & <- & -> & ->). split.
    + rewrite nth_error_app2 by lia. now rewrite Nat.sub_diag.
    + induction pre; cbn; congruence.
  - intros [H ->]. now apply changed_at_replace.
Qed.

Section F.
Context {M : Type}.
Variable ops : model_ops M.
Implicit Types (d : doc M) (n : node M).

Lemma model_can_iff pre n : model_can ops pre n = true <-> serves ops pre n.
Proof.
  unfold model_can, serves. destruct (n_model n) as [m|]; split; intros H; try discriminate; eauto.
  - destruct H as [m' [E H]]. congruence.
  - destruct H as [m' [E H]]. discriminate.
Qed.
Lemma matches_iff pre n : matches (mo_can ops) pre n = true <-> home ops pre n.
Proof.
  unfold matches, home. rewrite orb_true_iff, String.eqb_eq. fold (model_can ops pre n). now rewrite model_can_iff.
Qed.

(* ---- C26 ---- *)
Lemma remove_nth_app {A} i (l : list A) x : nth_error l i = Some x ->
  exists pre post, List.length pre = i /\ l = (pre ++ x :: post)%list /\ remove_nth i l = (pre ++ post)%list.
Proof.
  unfold remove_nth. revert l; induction i as [|i IH]; intros [|v r] H; cbn in H; try discriminate.
  - inversion H; subst. exists [], r. auto.
  - destruct (IH r H) as (pre & post & H1 & H2 & H3). exists (v :: pre), post. cbn [List.length app].
    split; [lia|]. split; [congruence|]. change (firstn (S i) (v :: r)) with (v :: firstn i r).
    change (skipn (S (S i)) (v :: r)) with (skipn (S i) r). cbn [app]. now rewrite H3.
Qed.

Lemma remove_namespace_spec d ns :
  (exists i n pre post d',
     first_at (fun n => node_local n = ns_name ns) (d_nodes d) i n /\
     d_nodes d = (pre ++ n :: post)%list /\ List.length pre = i /\
     remove_namespace_i d ns = (d', Some i) /\
     remove_namespace d ns = (d', true) /\ d_nodes d' = (pre ++ post)%list /\ d_dirty d' = true /\
     d_toolkit d' = d_toolkit d /\ d_about d' = d_about d /\
     (forall u, map_get (d_int d') u = if u =? ns_uri ns then None else map_get (d_int d) u) /\
     (forall u, map_get (d_ext d') u = if u =? ns_uri ns then None else map_get (d_ext d) u)) \/
  ((forall n, In n (d_nodes d) -> node_local n <> ns_name ns) /\ remove_namespace d ns = (d, false) /\ remove_namespace_i d ns = (d, None)).
Proof.
  unfold remove_namespace, remove_namespace_i. destruct (find_index _ (d_nodes d)) as [i|] eqn:E.
  - left. destruct (find_index_some _ _ _ E) as [n (H1 & H2 & H3)]. destruct (remove_nth_app _ _ _ H1) as (pre & post & L & H4 & H5).
    eexists i, n, pre, post, _. split.
    { split; [exact H1|]. split; [now apply String.eqb_eq|]. intros j y Hj Hy Hn. apply (H3 j y Hj Hy). now apply String.eqb_eq. }
    do 2 (split; [assumption|]). split; [reflexivity|]. split; [reflexivity|]. split; [exact H5|]. split; [reflexivity|].
    split; [reflexivity|]. split; [reflexivity|].
    split; intros u; cbn; rewrite map_get_del, String.eqb_sym; reflexivity.
  - right. split; [|auto]. intros n Hn He. apply (proj1 (find_index_none _ _) E) in Hn.
    rewrite He in Hn. now rewrite String.eqb_refl in Hn.
Qed.

(* ---- C15 ---- *)
Definition nm n : string := x_local (n_name n).
Definition plain n : Prop := x_space (n_name n) = "" /\ no_char ":" (nm n).

Lemma strip_plain s : no_char ":" s -> strip_prefix s = s.
Proof. apply strip_prefix_none. Qed.
Lemma plain_local n : plain n -> node_local n = nm n.
Proof. intros [_ H]. now apply strip_plain. Qed.
Lemma plain_namespace n : plain n -> node_namespace n = nm n.
Proof.
  intros [Hs H]. unfold node_namespace. rewrite Hs. cbn. unfold get_prefix, nm in *.
  now rewrite (proj2 (index_char_none _ _) H).
Qed.

Definition keepb (bad : list string) n : bool := negb (existsb (String.eqb (nm n)) bad).

Lemma filter_all {A} (t : A -> bool) l : (forall x, In x l -> t x = true) -> filter t l = l.
Proof. induction l as [|v r IH]; intros H; cbn; auto. rewrite H by now left. f_equal. apply IH. intros; apply H; now right. Qed.
Lemma filter_filter {A} (f g : A -> bool) l : filter f (filter g l) = filter (fun x => g x && f x) l.
Proof.
  induction l as [|v r IH]; cbn; auto. destruct (g v); cbn; [|auto]. destruct (f v); cbn; now rewrite IH.
Qed.
Lemma filter_length_le {A} (t : A -> bool) l : List.length (filter t l) <= List.length l.
Proof. induction l as [|v r IH]; cbn; auto. destruct (t v); cbn; lia. Qed.

Lemma NoDup_filter_map {A B} (g : A -> B) (t : A -> bool) l : NoDup (map g l) -> NoDup (map g (filter t l)).
Proof.
  induction l as [|v r IH]; cbn; auto. intros H; inversion H; subst. destruct (t v); cbn; auto.
  constructor; auto. intros Hi. apply H2. apply in_map_iff in Hi as [x [E Hx]]. apply filter_In in Hx as [Hx _].
  rewrite <- E. now apply in_map.
Qed.

Lemma remove_one d ns : plain_top d ->
  let d' := fst (remove_namespace d ns) in
  d_nodes d' = filter (keepb [ns_name ns]) (d_nodes d) /\ plain_top d' /\
  (snd (remove_namespace d ns) = true <-> List.length (d_nodes d') < List.length (d_nodes d)) /\
  (List.length (d_nodes d') = List.length (d_nodes d) -> d' = d).
Proof.
  intros [Hp Hn]. destruct (remove_namespace_spec d ns) as [(i & n & pre & post & d' & (Hf & Hf2 & _) & Hd & Hl & _ & E & E2 & _)|(Hno & E & _)]; rewrite E; cbn [fst snd].
  - assert (Hpn : Forall plain (d_nodes d)) by exact Hp.
    rewrite Hd in Hpn. apply Forall_app in Hpn as [Hp1 Hp2]. inversion Hp2 as [|? ? Hpp Hp3]; subst.
    assert (K : forall x, In x pre \/ In x post -> keepb [ns_name ns] x = true).
    { intros x Hx. unfold keepb. cbn. rewrite orb_false_r. rewrite negb_true_iff, String.eqb_neq. intros Ex.
      rewrite plain_local in Hf2 by auto. rewrite Hd in Hn. rewrite map_app in Hn. cbn [map] in Hn. apply NoDup_remove_2 in Hn.
      apply Hn. fold (nm n). rewrite Hf2, <- Ex. apply in_app_iff. destruct Hx; [left|right]; now apply (in_map (fun n => x_local (n_name n))). }
    assert (EF : d_nodes d' = filter (keepb [ns_name ns]) (d_nodes d)).
    { rewrite E2, Hd, filter_app. cbn [filter]. rewrite !filter_all by auto.
      replace (keepb [ns_name ns] n) with false; auto. unfold keepb. cbn. rewrite plain_local in Hf2 by auto.
      rewrite Hf2, String.eqb_refl. reflexivity. }
    split; [exact EF|]. split; [|split].
    + split; rewrite EF.
      * apply Forall_forall. intros x Hx. apply filter_In in Hx as [Hx _]. eapply Forall_forall in Hp; eauto.
      * now apply (NoDup_filter_map (fun n => x_local (n_name n))).
    + rewrite E2, Hd, !app_length. cbn [List.length]. split; auto. intros _. lia.
    + rewrite E2, Hd, !app_length. cbn [List.length]. lia.
  - split; [|split; [split; auto|split; [split; [discriminate|lia]|auto]]].
    rewrite filter_all; auto. intros x Hx. unfold keepb. cbn. rewrite orb_false_r, negb_true_iff, String.eqb_neq.
    intros Ex. apply (Hno x Hx). rewrite plain_local; auto. eapply Forall_forall in Hp; eauto.
Qed.

Lemma remove_many l d b : plain_top d ->
  let r := fold_left (fun '(d, b) ns => let '(d', r) := remove_namespace d ns in (d', b || r)) l (d, b) in
  d_nodes (fst r) = filter (keepb (map ns_name l)) (d_nodes d) /\ plain_top (fst r) /\
  (snd r = true <-> b = true \/ List.length (d_nodes (fst r)) < List.length (d_nodes d)) /\
  (List.length (d_nodes (fst r)) = List.length (d_nodes d) -> fst r = d).
Proof.
  revert d b. induction l as [|ns l IH]; intros d b Hp; cbn [fold_left].
  - cbn. split; [now rewrite filter_all|]. split; auto. split; [split; auto; intros [H|H]; auto; lia|auto].
  - destruct (remove_one d ns Hp) as (H1 & H2 & H3 & H4). destruct (remove_namespace d ns) as [d1 r1] eqn:E. cbn [fst snd] in *.
    specialize (IH d1 (b || r1) H2). cbv zeta in IH.
    destruct (fold_left _ l (d1, b || r1)) as [d2 r2] eqn:E2. cbn [fst snd] in *. destruct IH as (I1 & I2 & I3 & I4).
    assert (L1 : List.length (d_nodes d1) <= List.length (d_nodes d)) by (rewrite H1; apply filter_length_le).
    assert (L2 : List.length (d_nodes d2) <= List.length (d_nodes d1)) by (rewrite I1; apply filter_length_le).
    split; [|split; [auto|split]].
    + rewrite I1, H1, filter_filter. apply filter_ext. intros a. unfold keepb. cbn. rewrite orb_false_r. now rewrite negb_orb.
    + rewrite I3, orb_true_iff, H3. split; intros H; [destruct H as [[H|H]|H]|destruct H as [H|H]]; auto; try (right; lia).
      destruct (Nat.eq_dec (List.length (d_nodes d1)) (List.length (d_nodes d))); [right; lia|left; right; lia].
    + intros H. rewrite I4 by lia. apply H4. lia.
Qed.

Lemma find_ns_name reg d pre ns : reg_ok reg -> find_ns_by_prefix reg d pre = Some ns -> ns_name ns = pre.
Proof.
  intros Hr. unfold find_ns_by_prefix. destruct (find _ (map snd (d_int d))) eqn:E1.
  { intros H; inversion H; subst. apply find_some in E1 as [_ E1]. now apply String.eqb_eq. }
  destruct (find _ (map snd (d_ext d))) eqn:E2.
  { intros H; inversion H; subst. apply find_some in E2 as [_ E2]. now apply String.eqb_eq. }
  destruct (get_namespace reg pre) eqn:E3; intros H; inversion H; subst. now apply Hr.
Qed.
Lemma find_ns_knows reg d pre : knows reg d pre -> exists ns, find_ns_by_prefix reg d pre = Some ns.
Proof.
  intros (ns & Hn & H). unfold find_ns_by_prefix. destruct (find _ (map snd (d_int d))) eqn:E1; eauto.
  destruct (find _ (map snd (d_ext d))) eqn:E2; eauto. destruct H as [H|[H|H]].
  - apply (find_none _ _ E1) in H. rewrite Hn, String.eqb_refl in H. discriminate.
  - apply (find_none _ _ E2) in H. rewrite Hn, String.eqb_refl in H. discriminate.
  - rewrite H. eauto.
Qed.

Lemma filter_loop_is_remove keep l d b :
  fold_left (fun '(d, b) ns => if nsl_contains keep (Some ns) then (d, b)
               else let '(d', r) := remove_namespace d ns in (d', b || r)) l (d, b) =
  fold_left (fun '(d, b) ns => let '(d', r) := remove_namespace d ns in (d', b || r))
            (filter (fun ns => negb (nsl_contains keep (Some ns))) l) (d, b).
Proof.
  revert d b. induction l as [|ns l IH]; intros d b; cbn [fold_left filter]; auto.
  destruct (nsl_contains keep (Some ns)); cbn [negb]; auto. cbn [fold_left]. destruct (remove_namespace d ns). apply IH.
Qed.

Definition inb (l : list namespace) (s : string) : bool := existsb (fun v => ns_name v =? s) l.
Lemma inb_iff l s : inb l s = true <-> mentions l s.
Proof.
  unfold inb, mentions. rewrite existsb_exists. split; intros (x & H1 & H2); exists x; split; auto; now apply String.eqb_eq.
Qed.

Lemma filter_namespaces_spec reg d keep : reg_ok reg -> plain_top d ->
  (forall n, In n (d_nodes d) -> mentions keep (nm n) \/ knows reg d (nm n)) ->
  let r := filter_namespaces reg d keep in
  d_nodes (fst r) = filter (fun n => inb keep (nm n)) (d_nodes d) /\ plain_top (fst r) /\
  (snd r = true <-> List.length (d_nodes (fst r)) < List.length (d_nodes d)) /\
  (List.length (d_nodes (fst r)) = List.length (d_nodes d) -> fst r = d).
Proof.
  intros Hr Hp Hk. cbv zeta. unfold filter_namespaces. rewrite filter_loop_is_remove.
  match goal with |- context [fold_left _ ?l0 _] => set (l := l0) end.
  destruct (remove_many l d false Hp) as (H1 & H2 & H3 & H4). cbv zeta in *.
  match goal with |- context [fold_left ?f ?l0 ?x] => set (r := fold_left f l0 x) in * end.
  split; [|split; [auto|split; [|auto]]].
  - rewrite H1. apply filter_ext_in. intros n Hn. unfold keepb.
    assert (Pn : plain n) by (destruct Hp as [Hp _]; eapply Forall_forall in Hp; eauto).
    destruct (inb keep (nm n)) eqn:E.
    + rewrite negb_true_iff. apply not_true_is_false. intros Hx. apply existsb_exists in Hx as (s & Hs & Es).
      apply String.eqb_eq in Es. subst s. apply in_map_iff in Hs as (ns & En & Hns). apply filter_In in Hns as [_ Hns].
      cbn in Hns. unfold inb in E. rewrite <- En in E. rewrite E in Hns. discriminate.
    + rewrite negb_false_iff. apply existsb_exists. exists (nm n). split; [|apply String.eqb_refl].
      destruct (Hk n Hn) as [Hm|Hkn]; [apply inb_iff in Hm; congruence|].
      destruct (find_ns_knows _ _ _ Hkn) as [ns Hf]. apply in_map_iff. exists ns. split; [eapply find_ns_name; eauto|].
      apply filter_In. split.
      * apply in_flat_map. exists n. split; auto. rewrite plain_namespace by auto. rewrite Hf. now left.
      * cbn. rewrite (find_ns_name _ _ _ _ Hr Hf). unfold inb in E. now rewrite E.
  - rewrite H3. split; [intros [H|H]; [discriminate|auto]|auto].
Qed.

Definition passb (f : filter_t) n : bool :=
  match f_include f with [] => true | l => inb l (nm n) end && negb (inb (f_exclude f) (nm n)).
Lemma passb_iff f n : passb f n = true <-> passes f n.
Proof.
  unfold passb, passes. rewrite andb_true_iff, negb_true_iff. fold (nm n). rewrite <- !inb_iff, not_true_iff_false.
  destruct (f_include f) as [|x l]; [intuition|].
  split; intros [H1 H2]; split; auto. destruct H1; [discriminate|auto].
Qed.

Lemma keepb_inb l n : keepb (map ns_name l) n = negb (inb l (nm n)).
Proof. unfold keepb, inb. f_equal. induction l as [|x l IH]; cbn; auto. now rewrite IH, String.eqb_sym. Qed.

Lemma filter_apply_spec reg f d : reg_ok reg -> plain_top d ->
  (f_include f = [] \/ forall n, In n (d_nodes d) -> mentions (f_include f) (nm n) \/ knows reg d (nm n)) ->
  let r := filter_apply reg f d in
  d_nodes (fst r) = filter (passb f) (d_nodes d) /\ plain_top (fst r) /\
  (snd r = true <-> List.length (d_nodes (fst r)) < List.length (d_nodes d)) /\
  (List.length (d_nodes (fst r)) = List.length (d_nodes d) -> fst r = d).
Proof.
  intros Hr Hp Hk. cbv zeta. unfold filter_apply.
  set (r1 := match f_include f with [] => (d, false) | l => filter_namespaces reg d l end).
  assert (P1 : d_nodes (fst r1) = filter (fun n => match f_include f with [] => true | l => inb l (nm n) end) (d_nodes d) /\ plain_top (fst r1) /\
    (snd r1 = true <-> List.length (d_nodes (fst r1)) < List.length (d_nodes d)) /\
    (List.length (d_nodes (fst r1)) = List.length (d_nodes d) -> fst r1 = d)).
  { unfold r1. destruct (f_include f) as [|x l] eqn:E.
    - cbn. split; [now rewrite filter_all|]. split; auto. split; [split; [discriminate|lia]|auto].
    - destruct Hk as [Hk|Hk]; [discriminate|]. apply filter_namespaces_spec; auto. }
  clearbody r1. destruct r1 as [d1 b1]. cbn [fst snd] in *. destruct P1 as (H1 & H2 & H3 & H4).
  set (r2 := match f_exclude f with [] => (d1, false) | l => remove_namespaces d1 l end).
  assert (P2 : d_nodes (fst r2) = filter (fun n => negb (inb (f_exclude f) (nm n))) (d_nodes d1) /\ plain_top (fst r2) /\
    (snd r2 = true <-> List.length (d_nodes (fst r2)) < List.length (d_nodes d1)) /\
    (List.length (d_nodes (fst r2)) = List.length (d_nodes d1) -> fst r2 = d1)).
  { unfold r2. destruct (f_exclude f) as [|x l] eqn:E.
    - cbn. split; [now rewrite filter_all|]. split; auto. split; [split; [discriminate|lia]|auto].
    - rewrite <- E. destruct (remove_many (f_exclude f) d1 false H2) as (K1 & K2 & K3 & K4). cbv zeta in *.
      unfold remove_namespaces. split; [|split; [auto|split; [|auto]]].
      + rewrite K1. apply filter_ext. intros n. apply keepb_inb.
      + rewrite K3. split; [intros [H|H]; [discriminate|auto]|auto]. }
  clearbody r2. destruct r2 as [d2 b2]. cbn [fst snd] in *. destruct P2 as (K1 & K2 & K3 & K4).
  assert (L1 : List.length (d_nodes d1) <= List.length (d_nodes d)) by (rewrite H1; apply filter_length_le).
  assert (L2 : List.length (d_nodes d2) <= List.length (d_nodes d1)) by (rewrite K1; apply filter_length_le).
  split; [|split; [auto|split]].
  - rewrite K1, H1, filter_filter. reflexivity.
  - rewrite orb_true_iff, H3, K3. split; [intros [H|H]; lia|].
    intros H. destruct (Nat.eq_dec (List.length (d_nodes d1)) (List.length (d_nodes d))); [right|left]; lia.
  - intros H. rewrite K4 by lia. apply H4. lia.
Qed.

Lemma filter_again reg f d : reg_ok reg -> plain_top d ->
  (f_include f = [] \/ forall n, In n (d_nodes d) -> mentions (f_include f) (nm n) \/ knows reg d (nm n)) ->
  filter_apply reg f (fst (filter_apply reg f d)) = (fst (filter_apply reg f d), false).
Proof.
  intros Hr Hp Hk. destruct (filter_apply_spec reg f d Hr Hp Hk) as (H1 & H2 & _ & _). cbv zeta in *.
  set (d1 := fst (filter_apply reg f d)) in *. clearbody d1.
  assert (Hk' : f_include f = [] \/ forall n, In n (d_nodes d1) -> mentions (f_include f) (nm n) \/ knows reg d1 (nm n)).
  { destruct (f_include f) as [|x l] eqn:E; auto. right. intros n Hn. rewrite H1 in Hn. apply filter_In in Hn as [_ Hn].
    apply passb_iff in Hn as [[Hn|Hn] _]; [congruence|]. rewrite E in Hn. now left. }
  destruct (filter_apply_spec reg f d1 Hr H2 Hk') as (K1 & _ & K3 & K4). cbv zeta in *.
  destruct (filter_apply reg f d1) as [d2 b2]. cbn [fst snd] in *.
  assert (EL : List.length (d_nodes d2) = List.length (d_nodes d1)).
  { rewrite K1. rewrite filter_all; auto. intros x Hx. rewrite H1 in Hx. now apply filter_In in Hx. }
  rewrite K4 by auto. f_equal. apply not_true_is_false. intros H. apply K3 in H. lia.
Qed.

End F.

Lemma reg_ok_register reg ns gs : reg_ok reg -> reg_ok (register reg ns gs).
Proof.
  intros H p n. unfold get_namespace, register. cbn [r_names]. rewrite map_get_set. destruct (ns_name ns =? p) eqn:E.
  - intros K; inversion K; subst. now apply String.eqb_eq.
  - intros K. apply H. exact K.
Qed.
Lemma reg_ok_of_history h : reg_ok (registry_of h).
Proof.
  induction h as [|o h IH] using rev_ind; [intros p ns; discriminate|]. rewrite registry_of_snoc. now apply reg_ok_register.
Qed.

