From Coq Require Import List Arith ZArith Bool Ascii String Lia.
From Verif Require Import GoStr GoStrFacts GoMap Names PathM SyncFlags PVList RegistryM NodeM FilterM DocM Spec SpecBasic SpecDoc ArrayM TypeM TagM SpecTag TagFacts SpecType TypeFacts SpecTPath TPathM TPathFacts TPathListFacts DecodeM SpecMerge.
From Verif Require SyncModelsM.
Import ListNotations.
Local Open Scope string_scope.

Section T.
Context {X : Type}.
Implicit Types (fs : list (finfo * ty X)) (vs : list (gval X)).

Lemma seg_ok_plain n : plain_name n -> Forall tseg_ok [TSeg None n SNone].
Proof. intros H. constructor; [|constructor]. split; [exact H|]. split; exact I. Qed.
Lemma nth_set_eq j (w : gval X) l : j < List.length l -> nth_error (set_nth j w l) j = Some w.
Proof. revert j; induction l as [|x l IH]; intros [|j] H; cbn in *; try lia; auto. apply IH. lia. Qed.
Lemma nth_set_neq j k (w : gval X) l : k <> j -> nth_error (set_nth j w l) k = nth_error l k.
Proof. revert j k; induction l as [|x l IH]; intros [|j] [|k] H; cbn in *; try lia; auto. Qed.
Lemma set_nth_id j (w : gval X) l : nth_error l j = Some w -> set_nth j w l = l.
Proof. revert j; induction l as [|x l IH]; intros [|j] H; cbn in *; try discriminate; [congruence|]. now rewrite IH. Qed.
Lemma length_set j (w : gval X) l : List.length (set_nth j w l) = List.length l.
Proof. revert j; induction l as [|x l IH]; intros [|j]; cbn; auto. Qed.

Lemma property_at fs vs p n f t : property fs p n f t -> List.length vs = List.length fs ->
  exists j v, nth_error fs j = Some (f, t) /\ nth_error vs j = Some v /\ lookup fs n = Some j.
Proof.
  intros ((fa & fb & -> & Hf) & Hn & Hp & Hpl & _) L.
  destruct (nth_error vs (List.length fa)) as [v|] eqn:E.
  2:{ apply nth_error_None in E. rewrite app_length in L. cbn in L. lia. }
  destruct (split_nth _ _ _ E) as (a & b & -> & La).
  assert (F : field_at n (fa ++ (f, t) :: fb)%list (a ++ v :: b)%list a f t v b).
  { exists fa, fb. repeat split; auto. rewrite Hn. right. exists p. auto. }
  destruct (lookup_field n _ _ _ _ _ _ _ (proj2 (proj2 (proj2 Hpl))) F) as (A & B & C). exists (List.length a), v. auto.
Qed.

Lemma single_get fs vs p n f t j v : property fs p n f t -> nth_error fs j = Some (f, t) -> nth_error vs j = Some v -> lookup fs n = Some j ->
  get_model_path fs vs (path_of p n) = if is_nil v || is_empty t v then Ok "" else leaf_text t v.
Proof.
  intros (_ & _ & Hp & Hpl & Hs & Ho & He) Hj Hv Hl. unfold get_model_path, path_of.
  rewrite (steps_tpath p _ Hp (seg_ok_plain n Hpl)). cbn [tsteps get_steps].
  rewrite (parse_tseg (TSeg None n SNone)) by (pose proof (seg_ok_plain n Hpl) as K; inversion K; auto). cbn [g_name g_sub].
  rewrite idx_ok, Hl, Hj, Hv, Ho, He. cbn [orb negb andb]. destruct (is_nil v); [reflexivity|]. cbn [orb].
  destruct (is_empty t v); [reflexivity|]. destruct t; cbn [single] in Hs; try discriminate; destruct v; try reflexivity.
  cbn [drill]. apply andb_true_iff in Hs as [Hs _]. apply negb_true_iff in Hs. now rewrite Hs.
Qed.

Lemma single_set growth fs vs p n f t j v value fl : property fs p n f t -> nth_error fs j = Some (f, t) -> nth_error vs j = Some v -> lookup fs n = Some j ->
  fl <> 0%Z -> set_model_path growth fs vs (path_of p n) value fl = let '(w, e) := set_leaf t v value fl in (set_nth j w vs, e).
Proof.
  intros (_ & _ & Hp & Hpl & Hs & _) Hj Hv Hl Hf. unfold set_model_path. apply Z.eqb_neq in Hf. rewrite Hf. unfold path_of.
  rewrite (tpath_is_path p _ Hp), (steps_tpath p _ Hp (seg_ok_plain n Hpl)). cbn [negb tsteps set_steps].
  rewrite (parse_tseg (TSeg None n SNone)) by (pose proof (seg_ok_plain n Hpl) as K; inversion K; auto). cbn [g_name g_sub].
  rewrite idx_ok, Hl, Hj, Hv.
  destruct t; cbn [single] in Hs; try discriminate; destruct v; cbn [deref reref]; try (destruct (set_leaf _ _ value fl); reflexivity).
  apply andb_true_iff in Hs as [Hs _]. apply negb_true_iff in Hs. rewrite Hs. destruct (set_leaf _ _ value fl); reflexivity.
Qed.

Lemma property_inj fs p n f t p' n' f' t' j : property fs p n f t -> property fs p' n' f' t' -> lookup fs n = Some j -> lookup fs n' = Some j ->
  nth_error fs j = Some (f, t) -> nth_error fs j = Some (f', t') -> path_of p n = path_of p' n'.
Proof.
  intros (_ & Hn & Hp & Hpl & _) (_ & Hn' & Hp' & Hpl' & _) _ _ E E'. rewrite E in E'. inversion E'; subst f' t'. rewrite Hn in Hn'.
  assert (p = p' /\ n = n').
  { clear - Hn' Hp Hp'. revert p' Hp' Hn'. induction p as [|c p IH]; intros [|c' p'] Hp' E; cbn in E.
    - now inversion E.
    - inversion E; subst c'. unfold no_char in Hp'. cbn in Hp'. discriminate.
    - inversion E; subst c. unfold no_char in Hp. cbn in Hp. discriminate.
    - inversion E; subst c'. unfold no_char in *. cbn in Hp, Hp'. apply orb_false_iff in Hp as [_ Hp]. apply orb_false_iff in Hp' as [_ Hp'].
      destruct (IH Hp p' Hp') as [-> ->]; auto. }
  destruct H as [-> ->]. reflexivity.
Qed.

Lemma fills_leaf (t : ty X) (v : gval X) s w : single t = true -> blank_value t v = true -> reads_as t v s w -> set_leaf t v s MERGE = (w, Ok tt).
Proof.
  intros Hs Hb Hr. unfold set_leaf. rewrite blank_eq in Hb. rewrite Hb. cbn [negb]. rewrite andb_false_r.
  rewrite (reads_leaf t v s w Hs Hr). reflexivity.
Qed.
Lemma refuses_leaf (t : ty X) (v : gval X) s : s <> "" -> blank_value t v = false -> set_leaf t v s MERGE = (v, Err "REPLACE flag required").
Proof.
  intros Hs Hb. unfold set_leaf. rewrite blank_eq in Hb. rewrite Hb. destruct s; [congruence|]. reflexivity.
Qed.

Lemma shown_text (t : ty X) (v : gval X) s : v <> VNil -> s <> "" -> shows_as t v s -> blank_value t v = false ->
  (if is_nil v || is_empty t v then Ok "" else leaf_text t v) = Ok s.
Proof. intros Hn Hs Hr Hb. rewrite blank_eq in Hb. rewrite Hb, (shows_leaf _ _ _ Hr). destruct v; try reflexivity. congruence. Qed.
Lemma blank_text (t : ty X) (v : gval X) : blank_value t v = true -> (if is_nil v || is_empty t v then Ok "" else leaf_text t v) = Ok "".
Proof. intros Hb. rewrite blank_eq in Hb. rewrite Hb, orb_true_r. reflexivity. Qed.
Lemma text_cases (t : ty X) (v : gval X) s : plain_or_blank t v -> (if is_nil v || is_empty t v then Ok "" else leaf_text t v) = Ok s ->
  (s = "" /\ blank_value t v = true) \/ (s <> "" /\ blank_value t v = false).
Proof.
  intros H. destruct (blank_value t v) eqn:B.
  - rewrite (blank_text _ _ B). intros E; inversion E. auto.
  - destruct H as [H|(Hn & s0 & Hs & Hr)]; [congruence|]. rewrite (shown_text _ _ _ Hn Hs Hr B). intros E; inversion E; subst. auto.
Qed.

Variables (kinds : nat -> string -> option (mkind X)) (growth : nat -> nat) (sortf : list path_value -> list path_value).
Notation ops := (SyncModelsM.base_ops kinds growth sortf).
Lemma typed_holds k : holds_values ops (simple_state k) (simple_path k) (simple_text k).
Proof.
  split.
  - intros m x (Hk & L & Hv) (p & n & f & t & P & ->). cbn [mo_get SyncModelsM.base_ops]. rewrite Hk.
    destruct (property_at _ _ _ _ _ _ P L) as (j & v & Ej & Ev & El). rewrite (single_get _ _ _ _ _ _ _ _ P Ej Ev El).
    destruct (blank_value t v) eqn:B; [rewrite (blank_text _ _ B); eauto|].
    destruct (Hv j f t v Ej (proj1 (proj2 (proj2 (proj2 (proj2 P))))) Ev) as [H|(Hn & s & Hs & Hr)]; [congruence|].
    rewrite (shown_text _ _ _ Hn Hs Hr B). eauto.
  - intros m x value (Hk & L & Hv) _ (p & n & f & t & P & -> & Hs & Hst). cbn [mo_get mo_set SyncModelsM.base_ops]. rewrite Hk.
    pose proof (proj1 (proj2 (proj2 (proj2 (proj2 P))))) as Sg.
    destruct (property_at _ _ _ _ _ _ P L) as (j & v & Ej & Ev & El). rewrite (single_get _ _ _ _ _ _ _ _ P Ej Ev El).
    intros E. destruct (text_cases _ _ _ (Hv j f t v Ej Sg Ev) E) as [[_ B]|[K _]]; [|congruence].
    destruct (Hst v B) as (w & Hr & Hw & Bw & Nw).
    exists (TModel k (set_nth j w (tm_vals m))). rewrite (single_set growth _ _ _ _ _ _ _ _ value MERGE P Ej Ev El) by discriminate.
    rewrite (fills_leaf t v value w Sg B Hr). split; [reflexivity|]. cbn [tm_kind tm_vals].
    assert (Lj : j < List.length (tm_vals m)) by (apply nth_error_Some; congruence).
    split; [|split].
    + split; [reflexivity|]. cbn [tm_vals]. rewrite length_set. split; [exact L|].
      intros i f0 t0 v0 Ei S0 E0. destruct (Nat.eq_dec i j) as [->|Hij].
      * rewrite nth_set_eq in E0 by auto. inversion E0; subst v0. rewrite Ej in Ei. inversion Ei; subst f0 t0. right. eauto.
      * rewrite nth_set_neq in E0 by auto. eapply Hv; eauto.
    + rewrite (single_get _ _ _ _ _ _ j w P Ej (nth_set_eq _ _ _ Lj) El). apply shown_text; auto.
    + intros q (p2 & n2 & f2 & t2 & P2 & ->) Hne.
      destruct (property_at _ _ _ _ _ _ P2 L) as (j2 & v2 & Ej2 & Ev2 & El2). rewrite (single_get _ _ _ _ _ _ _ _ P2 Ej2 Ev2 El2).
      apply (single_get _ _ _ _ _ _ j2 v2 P2 Ej2); auto. rewrite nth_set_neq; auto. intros ->. apply Hne.
      exact (property_inj _ _ _ _ _ _ _ _ _ _ P2 P El2 El Ej2 Ej).
  - intros m x value s (Hk & L & Hv) _ (p & n & f & t & P & -> & Hs & Hst). cbn [mo_get mo_set SyncModelsM.base_ops]. rewrite Hk.
    pose proof (proj1 (proj2 (proj2 (proj2 (proj2 P))))) as Sg.
    destruct (property_at _ _ _ _ _ _ P L) as (j & v & Ej & Ev & El). rewrite (single_get _ _ _ _ _ _ _ _ P Ej Ev El).
    intros E Hne _. destruct (text_cases _ _ _ (Hv j f t v Ej Sg Ev) E) as [[K _]|[_ B]]; [congruence|].
    exists "REPLACE flag required". rewrite (single_set growth _ _ _ _ _ _ _ _ value MERGE P Ej Ev El) by discriminate.
    rewrite (refuses_leaf t v value Hs B), (set_nth_id _ _ _ Ev). split; [|discriminate]. subst k. destruct m; reflexivity.
Qed.
Lemma base_keeps_can : keeps_can ops.
Proof.
  intros m p v fl m' e. cbn [mo_set mo_can SyncModelsM.base_ops].
  destruct (set_model_path growth (k_fields (tm_kind m)) (tm_vals m) p v fl) as [vs r]. intros H; inversion H; subst. reflexivity.
Qed.
End T.
