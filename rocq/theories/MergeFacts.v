From Coq Require Import List Arith ZArith Bool Ascii String Lia.
From Verif Require Import GoStr GoStrFacts GoMap Names PathM SyncFlags PVList RegistryM NodeM FilterM DocM Spec SpecBasic SpecDoc DocFacts DocPathFacts DocSetFacts DocSyncFacts SpecMerge.
Import ListNotations.
Local Open Scope string_scope.

Lemma map_set_same {V} (m : gomap V) k v : map_get m k = Some v -> map_set m k v = m.
Proof.
  induction m as [|[k' v'] r IH]; cbn; [discriminate|]. destruct (k' =? k) eqn:E.
  - intros H; inversion H; subst. apply String.eqb_eq in E. now subst.
  - intros H. now rewrite IH.
Qed.
Lemma map_get_set {V} (m : gomap V) k v q : map_get (map_set m k v) q = if k =? q then Some v else map_get m q.
Proof.
  induction m as [|[k' v'] r IH]; cbn; [reflexivity|]. destruct (k' =? k) eqn:E; cbn.
  - apply String.eqb_eq in E. subst k'. now destruct (k =? q).
  - rewrite IH. destruct (k' =? q) eqn:F; auto. apply String.eqb_eq in F. subst q. apply String.eqb_neq in E.
    destruct (k =? k') eqn:G; auto. apply String.eqb_eq in G. congruence.
Qed.
Lemma copy_get s : forall (d : gomap namespace) k v, NoDup (map fst s) -> In (k, v) s -> map_get (copy_map s d) k = Some v.
Proof.
  assert (N : forall s (d : gomap namespace) k, ~ In k (map fst s) -> map_get (copy_map s d) k = map_get d k).
  { induction s0 as [|[k' v'] s0 IH]; intros d k H; cbn; auto. cbn in H. unfold copy_map in IH. rewrite IH by tauto. rewrite map_get_set.
    destruct (k' =? k) eqn:E; auto. apply String.eqb_eq in E. subst. destruct H. now left. }
  induction s as [|[k' v'] s IH]; intros d k v Hn Hi; [contradiction|]. cbn in Hn. inversion Hn as [|? ? H1 H2]; subst. cbn [copy_map fold_left fst snd].
  destruct Hi as [E|Hi].
  - inversion E; subst. fold (copy_map s (map_set d k v)). rewrite N by auto. rewrite map_get_set. now rewrite String.eqb_refl.
  - apply (IH (map_set d k' v')); auto.
Qed.
Lemma copy_noop s : forall m : gomap namespace, (forall k v, In (k, v) s -> map_get m k = Some v) -> copy_map s m = m.
Proof.
  induction s as [|[k v] s IH]; intros m H; cbn; auto. rewrite map_set_same by (apply H; now left). apply IH. intros; apply H; now right.
Qed.
Lemma copy_twice s (d : gomap namespace) : NoDup (map fst s) -> copy_map s (copy_map s d) = copy_map s d.
Proof. intros H. apply copy_noop. intros. now apply copy_get. Qed.

Section F.
Context {M : Type}.
Variable ops : model_ops M.
Variables (reg : registry) (good : nat -> M -> Prop) (watched : nat -> path -> Prop) (fits : nat -> path -> string -> Prop).
Hypothesis Hcan : keeps_can ops.
Hypothesis Hst : forall i, holds_values ops (good i) (watched i) (fits i).
Notation seated := (seated ops reg good watched).

Lemma get_in d p i ns n m s : path_namespace reg d p = Some ns -> settled ops d ns i n -> n_model n = Some m ->
  mo_get ops m p = Ok s -> doc_get_path ops reg d p = Ok s.
Proof.
  intros Hp Hs Hm Hg. apply (proj2 (settled_get ops reg d ns i n p s Hs (ns_xmp _ _ _ _ Hp) Hp)).
  unfold current. rewrite Hm, Hg. reflexivity.
Qed.
Lemma seated_reads d p i : seated d p i -> exists s, doc_get_path ops reg d p = Ok s.
Proof.
  intros (W & ns & n & m & Hp & Hs & Hm & Hg). destruct (hv_reads _ _ _ _ (Hst i) m p Hg W) as (s & E). exists s. eapply get_in; eauto.
Qed.
Lemma current_is n m p s : n_model n = Some m -> mo_get ops m p = Ok s -> current ops n p = Ok s.
Proof. intros Hm Hg. unfold current. rewrite Hm, Hg. reflexivity. Qed.
Lemma merge_blocked s : blocked s MERGE = false.
Proof. unfold blocked. destruct s; reflexivity. Qed.
Lemma with_same (d : doc M) : with_nodes d (d_nodes d) = d. Proof. destruct d; reflexivity. Qed.
Lemma set_model_same n (m : M) : n_model n = Some m -> set_model n (Some m) = n.
Proof. destruct n; cbn. now intros ->. Qed.

(* a value that is there stays, and nothing else changes *)
Lemma set_present d p i x v s : seated d p i -> fits i p v -> doc_get_path ops reg d p = Ok s -> s <> "" ->
  doc_set_path ops reg d (PathValue p x v MERGE) = (reg, d, Ok tt).
Proof.
  intros (W & ns & n & m & Hp & Hs & Hm & Hg) Hf Hr Hne.
  assert (Hk : keeps_node p (effective MERGE)) by (right; reflexivity).
  destruct (string_dec v "") as [->|Hv].
  { destruct (set_empty_needs_delete ops reg d p x MERGE ns i n Hp Hs eq_refl) as (r & E & R). unfold refused in R. cbn in R. rewrite E. now rewrite R. }
  destruct (hv_reads _ _ _ _ (Hst i) m p Hg W) as (s' & E). assert (s' = s) by (apply (get_in _ _ _ _ _ _ _ Hp Hs Hm) in E; congruence). subst s'.
  destruct (string_dec s v) as [<-|Hsv].
  { eapply set_equal_noop; eauto; congruence. }
  rewrite (doc_set_settled _ _ _ _ _ _ _ _ _ _ Hp Hs). rewrite with_rest by (auto; congruence).
  assert (Hi : nth_error (d_nodes d) i = Some n) by (destruct Hs as [(Hi & _) _]; auto).
  rewrite (rest_settled _ _ _ _ _ _ _ _ Hi). rewrite (current_is _ _ _ _ Hm E). apply String.eqb_neq in Hsv. rewrite Hsv. apply String.eqb_neq in Hsv.
  change (effective MERGE) with MERGE. rewrite merge_blocked, Hm.
  destruct (hv_refuses _ _ _ _ (Hst i) m p v s Hg W Hf E Hne Hsv) as (e & -> & Hnf).
  cbn [is_not_found]. apply String.eqb_neq in Hnf. rewrite Hnf. rewrite (set_model_same _ _ Hm), (replace_nth_same _ _ _ Hi), with_same. reflexivity.
Qed.

Lemma seated_after d d' i n m m' q j : nth_error (d_nodes d) i = Some n -> n_model n = Some m -> good i m' ->
  (forall s, mo_can ops m' s = mo_can ops m s) ->
  d' = set_dirty (with_nodes d (replace_nth i (set_model n (Some m')) (d_nodes d))) ->
  seated d q j -> seated d' q j.
Proof.
  intros Hi Hm Hg Hc -> (W & ns & n2 & m2 & Hp & Hs & Hm2 & Hg2). split; auto.
  assert (C : changed_at (d_nodes d) i n (set_model n (Some m')) (replace_nth i (set_model n (Some m')) (d_nodes d))) by now apply changed_at_replace.
  assert (L : i < List.length (d_nodes d)) by (apply nth_error_Some; congruence).
  edestruct (settled_after ops ns d (set_dirty (with_nodes d (replace_nth i (set_model n (Some m')) (d_nodes d)))) j n2 i n (set_model n (Some m')) Hs)
    as (n3 & S3 & E3).
  - exact C.
  - destruct n; reflexivity.
  - intros s. unfold serves. rewrite Hm. replace (n_model (set_model n (Some m'))) with (Some m') by (destruct n; reflexivity).
    split; intros (y & Ey & Hy); inversion Ey; subst y; eexists; (split; [reflexivity|]); [now rewrite <- Hc|now rewrite Hc].
  - rewrite Hm. replace (n_model (set_model n (Some m'))) with (Some m') by (destruct n; reflexivity). split; discriminate.
  - destruct (Nat.eq_dec i j) as [<-|Hij].
    + assert (n3 = set_model n (Some m')).
      { destruct S3 as [(K & _) _]. cbn [d_nodes set_dirty with_dirty with_nodes] in K. rewrite nth_replace_eq in K by auto. now inversion K. }
      subst n3. exists ns, (set_model n (Some m')), m'. split; [exact Hp|]. split; [exact S3|]. split; [destruct n; reflexivity|exact Hg].
    + rewrite (E3 Hij) in S3. exists ns, n2, m2. split; [exact Hp|]. auto.
Qed.

Lemma set_missing d p i x v : seated d p i -> fits i p v -> doc_get_path ops reg d p = Ok "" -> v <> "" ->
  exists d', doc_set_path ops reg d (PathValue p x v MERGE) = (reg, d', Ok tt)
    /\ d_int d' = d_int d /\ d_ext d' = d_ext d
    /\ (forall q j, seated d q j -> seated d' q j)
    /\ doc_get_path ops reg d' p = Ok v
    /\ (forall q j, seated d q j -> q <> p -> doc_get_path ops reg d' q = doc_get_path ops reg d q)
    /\ forall s, (forall y, In y (d_nodes d) -> ~ home ops s y) -> forall y, In y (d_nodes d') -> ~ home ops s y.
Proof.
  intros Hse Hf Hr Hv. pose proof Hse as (W & ns & n & m & Hp & Hs & Hm & Hg).
  assert (Hk : keeps_node p (effective MERGE)) by (right; reflexivity).
  destruct (hv_reads _ _ _ _ (Hst i) m p Hg W) as (s' & E). assert (s' = "") by (apply (get_in _ _ _ _ _ _ _ Hp Hs Hm) in E; congruence). subst s'.
  assert (Hi : nth_error (d_nodes d) i = Some n) by (destruct Hs as [(Hi & _) _]; auto).
  destruct (hv_fills _ _ _ _ (Hst i) m p v Hg W Hf E) as (m' & Em & Hg' & Eg & Hfr).
  pose proof (Hcan _ _ _ _ _ _ Em) as Hc.
  exists (set_dirty (with_nodes d (replace_nth i (set_model n (Some m')) (d_nodes d)))). split.
  { rewrite (doc_set_settled _ _ _ _ _ _ _ _ _ _ Hp Hs). rewrite with_rest by (auto; congruence).
    rewrite (rest_settled _ _ _ _ _ _ _ _ Hi). rewrite (current_is _ _ _ _ Hm E).
    replace ("" =? v) with false by (symmetry; apply String.eqb_neq; congruence).
    change (effective MERGE) with MERGE. rewrite merge_blocked, Hm, Em. reflexivity. }
  split; [reflexivity|]. split; [reflexivity|].
  assert (KS : forall q j, seated d q j -> seated (set_dirty (with_nodes d (replace_nth i (set_model n (Some m')) (d_nodes d)))) q j).
  { intros q j. apply (seated_after d _ i n m m' q j Hi Hm Hg' Hc eq_refl). }
  assert (L : i < List.length (d_nodes d)) by (apply nth_error_Some; congruence).
  assert (Node : forall q ns3 n3, settled ops (set_dirty (with_nodes d (replace_nth i (set_model n (Some m')) (d_nodes d)))) ns3 q n3 ->
     nth_error (replace_nth i (set_model n (Some m')) (d_nodes d)) q = Some n3) by (intros q ns3 n3 [(K & _) _]; exact K).
  split; [exact KS|]. split; [|split].
  - destruct (KS p i Hse) as (_ & ns3 & n3 & m3 & Hp3 & Hs3 & Hm3 & _). eapply get_in; eauto.
    pose proof (Node _ _ _ Hs3) as K. rewrite nth_replace_eq in K by auto. inversion K; subst n3.
    replace (n_model (set_model n (Some m'))) with (Some m') in Hm3 by (destruct n; reflexivity). inversion Hm3; subst m3. exact Eg.
  - intros q j Hq Hne. pose proof Hq as (Wq & nsq & nq & mq & Hpq & Hsq & Hmq & Hgq).
    destruct (hv_reads _ _ _ _ (Hst j) mq q Hgq Wq) as (sq & Eq). rewrite (get_in _ _ _ _ _ _ _ Hpq Hsq Hmq Eq).
    destruct (KS q j Hq) as (_ & ns3 & n3 & m3 & Hp3 & Hs3 & Hm3 & _). eapply get_in; eauto.
    pose proof (Node _ _ _ Hs3) as K. destruct (Nat.eq_dec i j) as [<-|Hij].
    + rewrite nth_replace_eq in K by auto. inversion K; subst n3.
      replace (n_model (set_model n (Some m'))) with (Some m') in Hm3 by (destruct n; reflexivity). inversion Hm3; subst m3.
      assert (nq = n) by (destruct Hsq as [(Kq & _) _]; congruence). subst nq. rewrite Hfr; auto. congruence.
    + rewrite nth_replace_neq in K by auto. assert (n3 = nq) by (destruct Hsq as [(Kq & _) _]; congruence). subst n3. congruence.
  - intros s U y Hy. cbn [d_nodes set_dirty with_dirty with_nodes] in Hy. apply In_nth_error in Hy as (j & Hj). destruct (Nat.eq_dec i j) as [<-|Hij].
    + rewrite nth_replace_eq in Hj by auto. inversion Hj; subst y. intros [H|(x0 & Ex & Hx)].
      * apply (U n (nth_error_In _ _ Hi)). left. destruct n; exact H.
      * apply (U n (nth_error_In _ _ Hi)). right. exists m. split; [exact Hm|]. rewrite <- Hc. replace (n_model (set_model n (Some m'))) with (Some m') in Ex by (destruct n; reflexivity). congruence.
    + rewrite nth_replace_neq in Hj by auto. apply U. eapply nth_error_In; eauto.
Qed.

Variable place : path_value -> nat.
Definition ready d (l : list path_value) : Prop :=
  forall x, In x l -> seated d (pv_path x) (place x) /\ fits (place x) (pv_path x) (pv_value x) /\ pv_value x <> "".

Lemma loop_values l : forall d, ready d l -> NoDup (map pv_path l) ->
  exists d', merge_loop ops reg d l MERGE = (reg, d', Ok tt)
    /\ d_int d' = d_int d /\ d_ext d' = d_ext d
    /\ (forall q j, seated d q j -> seated d' q j)
    /\ (forall q j s, seated d q j -> doc_get_path ops reg d q = Ok s -> s <> "" -> doc_get_path ops reg d' q = Ok s)
    /\ (forall x, In x l -> doc_get_path ops reg d (pv_path x) = Ok "" -> doc_get_path ops reg d' (pv_path x) = Ok (pv_value x))
    /\ (forall q j, seated d q j -> ~ In q (map pv_path l) -> doc_get_path ops reg d' q = doc_get_path ops reg d q).
Proof.
  induction l as [|x l IH]; intros d Hr Hn.
  { exists d. split; [reflexivity|]. split; [reflexivity|]. split; [reflexivity|]. split; [auto|]. split; [auto|]. split; [intros x []|auto]. }
  cbn in Hn. inversion Hn as [|? ? Hx Hl]; subst.
  destruct (Hr x (or_introl eq_refl)) as (Sx & Fx & Vx).
  destruct (seated_reads _ _ _ Sx) as (s & Es). cbn [merge_loop].
  destruct (string_dec s "") as [->|Hs].
  - destruct (set_missing d (pv_path x) (place x) (pv_ns x) (pv_value x) Sx Fx Es Vx) as (d1 & E1 & I1 & X1 & K1 & G1 & F1 & _). rewrite E1.
    destruct (IH d1) as (d2 & E2 & I2 & X2 & K2 & P2 & A2 & F2); auto.
    { intros y Hy. destruct (Hr y (or_intror Hy)) as (A & B & C). split; [now apply K1|auto]. }
    exists d2. split; [exact E2|]. split; [congruence|]. split; [congruence|]. split; [auto|]. split; [|split].
    + intros q j s Hq Eq Hne. destruct (string_dec q (pv_path x)) as [->|Hqx]; [congruence|]. apply (P2 q j); auto. rewrite (F1 q j); auto.
    + intros y [<-|Hy] Ey.
      * rewrite (F2 (pv_path x) (place x)); auto.
      * apply A2; auto. destruct (Hr y (or_intror Hy)) as (A & _). rewrite (F1 _ _ A); auto. intros K. apply Hx. rewrite <- K. now apply in_map.
    + intros q j Hq Hni. cbn in Hni. rewrite (F2 q j); auto. apply (F1 q j); auto.
  - rewrite (set_present d (pv_path x) (place x) (pv_ns x) (pv_value x) s Sx Fx Es Hs).
    destruct (IH d) as (d2 & E2 & I2 & X2 & K2 & P2 & A2 & F2); auto.
    { intros y Hy. apply Hr. now right. }
    exists d2. split; [exact E2|]. split; [auto|]. split; [auto|]. split; [auto|]. split; [auto|]. split.
    + intros y [<-|Hy] Ey; auto. congruence.
    + intros q j Hq Hni. cbn in Hni. apply (F2 q j); auto.
Qed.

Lemma loop_present l d : ready d l -> (forall x, In x l -> exists s, s <> "" /\ doc_get_path ops reg d (pv_path x) = Ok s) ->
  merge_loop ops reg d l MERGE = (reg, d, Ok tt).
Proof.
  intros Hr Hp. apply merge_loop_noop. intros x Hx. destruct (Hr x Hx) as (A & B & _). destruct (Hp x Hx) as (s & Hs & Es).
  eapply set_present; eauto.
Qed.
End F.

Lemma relist {M} (ops : model_ops M) sortf reg b b' l : doc_list_paths ops sortf reg b = (b', Ok l) -> doc_list_paths ops sortf reg b' = (b', Ok l).
Proof.
  unfold doc_list_paths. intros H. assert (D : sync_to_xmp ops b = (b', Ok tt)).
  { destruct (sync_to_xmp ops b) as [b1 [[]|s|]]; [|inversion H|inversion H]. inversion H; auto. }
  rewrite D in H. assert (K : d_dirty b' = false).
  { unfold sync_to_xmp in D. destruct (d_dirty b) eqn:E; cbn [negb] in D; [|inversion D; congruence].
    destruct (sync_to_loop ops (List.length (d_nodes b)) 0 b) as [b1 [u|s|]]; inversion D; reflexivity. }
  unfold sync_to_xmp. rewrite K. cbn [negb]. exact H.
Qed.
