(* C139: sorting markers *)
From Coq Require Import List Arith ZArith Bool Ascii String Lia Permutation.
From Verif Require Import GoStr CodecM MmM SpecMm MmFacts MarkerSortM.
Import ListNotations.
Local Open Scope string_scope.

(* a starts before b: "maximum" (count -1) is the end of the medium, all other positions are earlier *)
Definition starts_before (x y : frame_count) : Prop :=
  if (fc_count x =? -1)%Z then False else if (fc_count y =? -1)%Z then True else earlier x y.

Lemma den_pos r : (0 < fr_den r)%Z.
Proof. unfold fr_den. destruct (Z.eqb_spec (fr_base r) 0); lia. Qed.

(* IsSmaller is a strict weak order on all frame counts, whatever their rates, as sort.Sort requires *)
Theorem C139_strict_weak_order : forall x y z,
  is_smaller x x = false /\
  (is_smaller x y = true -> is_smaller y x = false) /\
  (is_smaller x y = true -> is_smaller y z = true -> is_smaller x z = true) /\
  (is_smaller x y = false -> is_smaller y z = false -> is_smaller x z = false).
Proof.
  intros x y z. unfold is_smaller.
  generalize (fc_count x * fr_num (fc_rate x))%Z (fc_count y * fr_num (fc_rate y))%Z (fc_count z * fr_num (fc_rate z))%Z.
  generalize (den_pos (fc_rate x)) (den_pos (fc_rate y)) (den_pos (fc_rate z)).
  generalize (fr_den (fc_rate x)) (fr_den (fc_rate y)) (fr_den (fc_rate z)). intros p q r Hp Hq Hr a b c.
  repeat rewrite Z.ltb_lt. repeat rewrite Z.ltb_ge. split; [lia|]. split; [lia|]. split.
  - intros H1 H2. apply (Z.mul_lt_mono_pos_r q); [auto|].
    apply Z.lt_trans with (b * p * r)%Z.
    + replace (a * r * q)%Z with (a * q * r)%Z by ring. apply Z.mul_lt_mono_pos_r; auto.
    + replace (b * p * r)%Z with (b * r * p)%Z by ring. replace (c * p * q)%Z with (c * q * p)%Z by ring. apply Z.mul_lt_mono_pos_r; auto.
  - intros H1 H2. apply (Z.mul_le_mono_pos_r _ _ q); [auto|].
    apply Z.le_trans with (b * p * r)%Z.
    + replace (b * p * r)%Z with (b * r * p)%Z by ring. replace (c * p * q)%Z with (c * q * p)%Z by ring. apply Z.mul_le_mono_nonneg_r; lia.
    + replace (a * r * q)%Z with (a * q * r)%Z by ring. apply Z.mul_le_mono_nonneg_r; lia.
Qed.
Print Assumptions C139_strict_weak_order.

Section F.
Context {A : Type}.
Notation marker := (marker A).

Lemma nth_split (l : list marker) : forall i a, nth_error l i = Some a -> exists l1 l2, l = (l1 ++ a :: l2)%list /\ List.length l1 = i.
Proof. intros i a H. destruct (List.nth_error_split l i H) as (l1 & l2 & E & Hl). eauto. Qed.

Lemma upd_mid (f : marker -> marker) l1 a l2 : update_nth f (List.length l1) (l1 ++ a :: l2)%list = (l1 ++ f a :: l2)%list.
Proof. induction l1 as [|x l1 IH]; cbn; [reflexivity|]. now rewrite IH. Qed.

Lemma swap_perm (l l' : list marker) i j : marker_swap l i j = Ok l' -> Permutation l l'.
Proof.
  unfold marker_swap. destruct (nth_error l i) as [a|] eqn:Ei; [|discriminate]. destruct (nth_error l j) as [b|] eqn:Ej; [|discriminate].
  intros H. injection H as <-.
  destruct (nth_split l i a Ei) as (l1 & l2 & -> & <-). rewrite upd_mid.
  destruct (Nat.lt_trichotomy j (List.length l1)) as [L|[->|L]].
  - rewrite nth_error_app1 in Ej by auto. destruct (nth_split l1 j b Ej) as (k1 & k2 & -> & <-).
    rewrite <- !List.app_assoc. cbn [List.app]. rewrite upd_mid. apply Permutation_app_head.
    transitivity (a :: b :: k2 ++ l2)%list.
    + rewrite perm_swap. constructor. apply Permutation_sym, Permutation_middle.
    + constructor. apply Permutation_middle.
  - rewrite nth_error_app2, Nat.sub_diag in Ej by auto. injection Ej as <-. now rewrite upd_mid.
  - rewrite nth_error_app2 in Ej by lia. destruct (j - List.length l1) as [|k] eqn:Ek; [lia|]. cbn in Ej.
    destruct (nth_split l2 k b Ej) as (k1 & k2 & -> & <-).
    replace j with (List.length (l1 ++ b :: k1)%list) by (rewrite List.app_length; cbn; lia).
    replace (l1 ++ b :: k1 ++ b :: k2)%list with ((l1 ++ b :: k1) ++ b :: k2)%list by (rewrite <- List.app_assoc; reflexivity).
    rewrite upd_mid, <- List.app_assoc. cbn [List.app]. apply Permutation_app_head.
    transitivity (a :: b :: k1 ++ k2)%list.
    + constructor. apply Permutation_sym, Permutation_middle.
    + rewrite perm_swap. constructor. apply Permutation_middle.
Qed.

Lemma swaps_perm sw : forall (l l' : list marker), marker_swaps l sw = Ok l' -> Permutation l l'.
Proof.
  induction sw as [|[i j] sw IH]; cbn; intros l l' H; [injection H as <-; auto|].
  destruct (marker_swap l i j) as [l1| |] eqn:E; try discriminate. cbn in H. transitivity l1; [eapply swap_perm; eauto|auto].
Qed.

Lemma sorted_far (l : list marker) : (forall i, S i < marker_len l -> marker_less l (S i) i = Ok false) ->
  forall d i a b, nth_error l i = Some a -> nth_error l (i + d) = Some b -> is_smaller (mk_start b) (mk_start a) = false.
Proof.
  intros H. induction d as [|d IH]; intros i a b Ha Hb.
  - rewrite Nat.add_0_r, Ha in Hb. injection Hb as <-. exact (proj1 (C139_strict_weak_order (mk_start a) (mk_start a) (mk_start a))).
  - rewrite Nat.add_succ_r in Hb. destruct (nth_error l (i + d)) as [c|] eqn:Ec.
    + specialize (IH i a c Ha Ec). assert (L : S (i + d) < marker_len l) by (apply nth_error_Some; rewrite Hb; discriminate).
      specialize (H _ L). unfold marker_less in H. rewrite Hb, Ec in H. injection H as H.
      exact (proj2 (proj2 (proj2 (C139_strict_weak_order (mk_start b) (mk_start c) (mk_start a)))) H IH).
    + apply nth_error_None in Ec. assert (S (i + d) < List.length l) by (apply nth_error_Some; rewrite Hb; discriminate). lia.
Qed.
End F.

(* Sort loses no marker, adds none and changes none; and if the markers have one common positive frame rate and none starts
   at "maximum" then no marker starts before one that is in front of it. Missing: different rates (C69) and "maximum". *)
Theorem C139_sorted_partial : forall A (l l' : list (marker A)), marker_sort l l' ->
  Permutation l l' /\
  forall r, (0 < fr_rate r)%Z -> (0 < fr_base r)%Z ->
    Forall (fun m => fc_rate (mk_start m) = r /\ (0 <= fc_count (mk_start m))%Z) l ->
    forall i j a b, i < j -> nth_error l' i = Some a -> nth_error l' j = Some b -> ~ starts_before (mk_start b) (mk_start a).
Proof.
  intros A l l' [[sw E] H]. pose proof (swaps_perm sw l l' E) as P. split; [exact P|].
  intros r Hr Hb F i j a b L Ha Hb'.
  assert (F' : forall m, In m l' -> fc_rate (mk_start m) = r /\ (0 <= fc_count (mk_start m))%Z).
  { intros m Hm. rewrite Forall_forall in F. apply F. apply (Permutation_in _ (Permutation_sym P) Hm). }
  destruct (F' a (nth_error_In _ _ Ha)) as [Ra Ca]. destruct (F' b (nth_error_In _ _ Hb')) as [Rb Cb].
  assert (S : is_smaller (mk_start b) (mk_start a) = false).
  { apply (sorted_far l' H (j - i) i); auto. now replace (i + (j - i)) with j by lia. }
  unfold starts_before. replace (fc_count (mk_start b) =? -1)%Z with false by (symmetry; apply Z.eqb_neq; lia).
  replace (fc_count (mk_start a) =? -1)%Z with false by (symmetry; apply Z.eqb_neq; lia).
  destruct (mk_start a) as [ca ra], (mk_start b) as [cb rb]. cbn in *. subst ra rb.
  unfold is_smaller, fr_num, fr_den in S. unfold earlier. cbn in *.
  replace (fr_base r =? 0)%Z with false in S by (symmetry; apply Z.eqb_neq; lia). rewrite Z.sgn_pos, Z.abs_eq in S by lia.
  apply Z.ltb_ge in S. nia.
Qed.
Print Assumptions C139_sorted_partial.

(* a marker that starts at "maximum" comes out in front of one that starts at 0: the count -1 is compared as a number *)
Theorem C139_maximum_refuted : exists l l' : list (marker string),
  marker_sort l l' /\ exists a b, l' = [a; b] /\ starts_before (mk_start b) (mk_start a) /\
  fc_unmarshal fc_zero_val "maximum" = Ok (mk_start a) /\ fc_unmarshal fc_zero_val "0" = Ok (mk_start b).
Proof.
  set (a := Marker string (FC (-1) (FR 1 1)) [] "end"). set (b := Marker string (FC 0 (FR 1 1)) [] "start").
  exists [b; a], [a; b]. split.
  - split; [exists [(0, 1)]; reflexivity|]. intros i Hi. destruct i as [|i]; [reflexivity|]. cbn in Hi. lia.
  - exists a, b. repeat split.
Qed.
Print Assumptions C139_maximum_refuted.

Example C139_hyps : let mk c n := Marker nat (FC c (FR 30000 1001)) ["Cue"] n in
  marker_sort [mk 9%Z 1; mk 4%Z 2; mk 7%Z 3] [mk 4%Z 2; mk 7%Z 3; mk 9%Z 1] /\
  Forall (fun m => fc_rate (mk_start m) = FR 30000 1001 /\ (0 <= fc_count (mk_start m))%Z) [mk 9%Z 1; mk 4%Z 2; mk 7%Z 3] /\
  starts_before (FC 4 (FR 30000 1001)) (FC 7 (FR 30000 1001)).
Proof.
  cbv zeta. split; [split; [exists [(0, 1); (1, 2)]; reflexivity|]|split].
  - intros i Hi. destruct i as [|[|i]]; [reflexivity|reflexivity|]. cbn in Hi. lia.
  - repeat constructor; cbn; lia.
  - unfold starts_before, earlier. cbn. lia.
Qed.
