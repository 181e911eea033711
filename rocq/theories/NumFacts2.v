(* Facts for C119-C121: decimal fractions as rationals, GPS coordinates and times *)
From Coq Require Import List Arith ZArith NArith QArith Qpower Qround Qabs Qfield Lqa Bool Ascii String Lia.
From Verif Require Import GoStr Spec CodecM SpecCodec SpeedM NumM SpecNum GoStrFacts CodecFacts NumFacts.
Import ListNotations.
Local Open Scope nat_scope.
Local Open Scope string_scope.

Lemma qlt_true a b : qlt a b = true <-> (a < b)%Q.
Proof.
  unfold qlt. rewrite negb_true_iff. split; intros H.
  - apply Qnot_le_lt. intros L. apply Qle_bool_iff in L. congruence.
  - apply not_true_iff_false. intros L. apply Qle_bool_iff in L. lra.
Qed.
Lemma qlt_false a b : qlt a b = false <-> (b <= a)%Q.
Proof. unfold qlt. rewrite negb_false_iff. apply Qle_bool_iff. Qed.

(* ---- truncation ---- *)
Lemma qtrunc_floor q : (0 <= q)%Q -> qtrunc q = Qfloor q.
Proof.
  intros H. unfold qtrunc, Qfloor. destruct q as [n d]. cbn [Qnum Qden]. apply Z.quot_div_nonneg; [|lia].
  unfold Qle in H. cbn [Qnum Qden] in H. lia.
Qed.
Lemma qtrunc_opp q : qtrunc (- q)%Q = (- qtrunc q)%Z.
Proof. unfold qtrunc. destruct q as [n d]. cbn [Qopp Qnum Qden]. apply Z.quot_opp_l. lia. Qed.
Lemma qtrunc_pos q : (0 <= q)%Q -> (inject_Z (qtrunc q) <= q < inject_Z (qtrunc q) + 1)%Q.
Proof.
  intros H. rewrite (qtrunc_floor q H). split; [apply Qfloor_le|]. pose proof (Qlt_floor q) as L. rewrite inject_Z_plus in L. exact L.
Qed.
Lemma qtrunc_neg q : (q <= 0)%Q -> (inject_Z (qtrunc q) - 1 < q <= inject_Z (qtrunc q))%Q.
Proof.
  intros H. assert (P : (0 <= - q)%Q) by lra. pose proof (qtrunc_pos (- q) P) as G. rewrite qtrunc_opp, inject_Z_opp in G. lra.
Qed.
Lemma qtrunc_same a b : (a == b)%Q -> qtrunc a = qtrunc b.
Proof.
  intros E. destruct (Qlt_le_dec a 0) as [L|L].
  - assert (H : qtrunc (- a) = qtrunc (- b)) by (rewrite !qtrunc_floor by lra; apply Qfloor_comp; now rewrite E). rewrite !qtrunc_opp in H. lia.
  - rewrite !qtrunc_floor by lra. now apply Qfloor_comp.
Qed.
Lemma qtrunc_range q z : (0 <= z)%Z -> (inject_Z z <= q < inject_Z z + 1)%Q -> qtrunc q = z.
Proof.
  intros P [L U]. assert (0 <= q)%Q. { eapply Qle_trans; [|exact L]. change 0%Q with (inject_Z 0). rewrite <- Zle_Qle. exact P. }
  pose proof (qtrunc_pos q H) as [A B]. assert (qtrunc q < z + 1)%Z by (rewrite Zlt_Qlt, inject_Z_plus; change (inject_Z 1) with 1%Q; lra).
  assert (z < qtrunc q + 1)%Z by (rewrite Zlt_Qlt, inject_Z_plus; change (inject_Z 1) with 1%Q; lra). lia.
Qed.

(* ---- gcd ---- *)
Lemma gcd_loop_spec k : forall fuel x y, 2 * k + 1 <= fuel -> (Z.abs y < 2 ^ Z.of_nat k)%Z ->
  let g := gcd_loop fuel x y in (x <> 0 \/ y <> 0 -> g <> 0)%Z /\ (g | x)%Z /\ (g | y)%Z.
Proof.
  induction k as [|k IH]; intros fuel x y F B; cbv zeta.
  - change (2 ^ Z.of_nat 0)%Z with 1%Z in B. assert (y = 0)%Z by lia. subst y. destruct fuel as [|n]; [lia|]. cbn [gcd_loop]. change (0 =? 0)%Z with true. cbv iota.
    split; [intros [H|H]; [exact H|congruence]|]. split; [apply Z.divide_refl|apply Z.divide_0_r].
  - destruct fuel as [|n]; [lia|]. cbn [gcd_loop]. destruct (Z.eqb_spec y 0) as [->|Y].
    + split; [intros [H|H]; [exact H|congruence]|]. split; [apply Z.divide_refl|apply Z.divide_0_r].
    + destruct n as [|n]; [lia|]. cbn [gcd_loop]. set (r := Z.rem x y). pose proof (Z.quot_rem' x y) as Q. fold r in Q. destruct (Z.eqb_spec r 0) as [R|R].
      * split; [intros _; exact Y|]. split; [|apply Z.divide_refl]. exists (Z.quot x y). lia.
      * pose proof (Z.rem_bound_abs x y Y) as R1. fold r in R1. pose proof (Z.rem_bound_abs y r R) as R2. pose proof (Z.quot_rem' y r) as Q2. set (t := Z.rem y r) in *.
        assert (T : (2 * Z.abs t < Z.abs y \/ t = 0)%Z).
        { destruct (Z.eq_dec t 0) as [T0|T0]; [now right|left]. pose proof (Z.rem_sign_nz y r R T0) as SG. fold t in SG.
          set (u := Z.quot y r) in *. assert (Z.abs y = Z.abs (r * u) + Z.abs t)%Z.
          { destruct (Z.lt_trichotomy y 0) as [Ly|[Ly|Ly]]; [|congruence|].
            - assert (t < 0)%Z by (destruct t; cbn in SG; destruct y; cbn in SG; lia). assert (r * u <= 0)%Z; [|lia].
              assert (Hq : (r * u)%Z = (y - t)%Z) by lia. rewrite Hq. lia.
            - assert (0 < t)%Z by (destruct t; cbn in SG; destruct y; cbn in SG; lia). assert (0 <= r * u)%Z; [|lia].
              assert (Hq : (r * u)%Z = (y - t)%Z) by lia. rewrite Hq. lia. }
          assert (u <> 0)%Z by (intros U; rewrite U in *; lia). rewrite Z.abs_mul in H. nia. }
        assert (B2 : (Z.abs t < 2 ^ Z.of_nat k)%Z).
        { rewrite Nat2Z.inj_succ, Z.pow_succ_r in B by lia. assert (0 < 2 ^ Z.of_nat k)%Z by (apply Z.pow_pos_nonneg; lia). lia. }
        specialize (IH n r t ltac:(lia) B2). cbv zeta in IH. destruct IH as (I1 & I2 & I3). set (g := gcd_loop n r t) in *.
        split; [intros _; apply I1; now left|]. assert (Dy : (g | y)%Z) by (rewrite Q2; apply Z.divide_add_r; [now apply Z.divide_mul_l|exact I3]).
        split; [|exact Dy]. rewrite Q. apply Z.divide_add_r; [now apply Z.divide_mul_l|exact I2].
Qed.
Lemma go_gcd_spec x y : (y <> 0)%Z -> (Z.abs y < 2 ^ 64)%Z -> go_gcd x y <> 0%Z /\ (go_gcd x y | x)%Z /\ (go_gcd x y | y)%Z.
Proof.
  intros Y B. unfold go_gcd. assert (F : 2 * 64 + 1 <= 130) by lia. generalize dependent 130. intros fuel F.
  destruct (gcd_loop_spec 64 fuel x y F B) as (A & C & D). split; [apply A; now right|]. split; assumption.
Qed.

(* ---- FloatToRational ---- *)
Definition unit_of (f : Q) : Z := if qlt 2147 f then 10000%Z else 1000000%Z.
Definition half (f : Q) : Q := if qlt f 0 then (- (1 # 2))%Q else (1 # 2)%Q.
Lemma float_to_rational_eq f : float_to_rational f =
  let nom := qtrunc (f * inject_Z (unit_of f) + half f) in let g := go_gcd nom (unit_of f) in Rat (Z.quot nom g) (Z.quot (unit_of f) g).
Proof.
  unfold float_to_rational, unit_of, half. destruct (qlt 2147 f) eqn:A; [reflexivity|]. apply qlt_false in A.
  assert (B : qlt 214748 f = false) by (apply qlt_false; lra). assert (C : qlt 21474836 f = false) by (apply qlt_false; lra). rewrite B, C. reflexivity.
Qed.
Lemma unit_pos f : (unit_of f = 10000 \/ unit_of f = 1000000)%Z.
Proof. unfold unit_of. destruct (qlt 2147 f); auto. Qed.
Lemma nom_near f : (Qabs (inject_Z (qtrunc (f * inject_Z (unit_of f) + half f)) - f * inject_Z (unit_of f)) <= 1 # 2)%Q.
Proof.
  apply Qabs_Qle_condition. unfold half. assert (U : (0 < inject_Z (unit_of f))%Q) by (apply inject_pos; destruct (unit_pos f); lia). set (u := inject_Z (unit_of f)) in *.
  destruct (qlt f 0) eqn:L.
  - apply qlt_true in L. assert (H : (f * u <= 0)%Q) by (rewrite <- (Qmult_0_l u); apply Qmult_le_compat_r; lra). pose proof (qtrunc_neg (f * u + - (1 # 2)) ltac:(lra)). lra.
  - apply qlt_false in L. assert (H : (0 <= f * u)%Q) by (rewrite <- (Qmult_0_l u); apply Qmult_le_compat_r; lra). pose proof (qtrunc_pos (f * u + (1 # 2)) ltac:(lra)). lra.
Qed.
Lemma float_to_rational_near f : exists q, fraction (r_num (float_to_rational f)) (r_den (float_to_rational f)) q
  /\ (Qabs (q - f) <= 1 # (2 * Z.to_pos (unit_of f)))%Q.
Proof.
  rewrite float_to_rational_eq. cbv zeta. cbn [r_num r_den]. pose proof (nom_near f) as N. set (nom := qtrunc (f * inject_Z (unit_of f) + half f)) in *.
  assert (U : (0 < unit_of f < 2 ^ 64)%Z) by (destruct (unit_pos f) as [->| ->]; lia). destruct (go_gcd_spec nom (unit_of f) ltac:(lia) ltac:(lia)) as (G0 & [a A] & [b B]).
  set (g := go_gcd nom (unit_of f)) in *. clearbody g nom.
  assert (A' : Z.quot nom g = a) by (rewrite A; now apply Z.quot_mul). assert (B' : Z.quot (unit_of f) g = b) by (rewrite B; now apply Z.quot_mul). rewrite A', B'.
  assert (b <> 0)%Z by (intros ->; lia). assert (UQ : (0 < inject_Z (unit_of f))%Q) by (apply inject_pos; lia).
  assert (GQ : ~ (inject_Z g == 0)%Q) by (change 0%Q with (inject_Z 0); rewrite inject_Z_injective; exact G0).
  exists (inject_Z nom / inject_Z (unit_of f))%Q. split.
  - split; [assumption|]. rewrite A. assert (E : (inject_Z (unit_of f) == inject_Z b * inject_Z g)%Q) by (rewrite B at 1; rewrite inject_Z_mult; reflexivity). rewrite E, inject_Z_mult.
    field. split; [exact GQ|]. change 0%Q with (inject_Z 0). rewrite inject_Z_injective. assumption.
  - apply Qabs_Qle_condition in N. apply Qabs_Qle_condition.
    assert (E : (1 # 2 * Z.to_pos (unit_of f) == (1 # 2) / inject_Z (unit_of f))%Q).
    { destruct (unit_pos f) as [->| ->]; reflexivity. }
    rewrite E. assert (D : (inject_Z nom / inject_Z (unit_of f) - f == (inject_Z nom - f * inject_Z (unit_of f)) / inject_Z (unit_of f))%Q) by (field; lra). rewrite D. split.
    + apply Qle_shift_div_l; [exact UQ|]. setoid_replace (- ((1 # 2) / inject_Z (unit_of f)) * inject_Z (unit_of f))%Q with (- (1 # 2))%Q by (field; lra). apply N.
    + apply Qle_shift_div_r; [exact UQ|]. setoid_replace ((1 # 2) / inject_Z (unit_of f) * inject_Z (unit_of f))%Q with (1 # 2)%Q by (field; lra). apply N.
Qed.
Lemma qlt_same a b c d : (a == b)%Q -> (c == d)%Q -> qlt a c = qlt b d.
Proof. intros A C. unfold qlt. rewrite A, C. reflexivity. Qed.
Lemma float_to_rational_same f r : (f == r)%Q -> float_to_rational f = float_to_rational r.
Proof.
  intros E. rewrite !float_to_rational_eq. assert (U : unit_of f = unit_of r) by (unfold unit_of; rewrite (qlt_same 2147 2147 f r (Qeq_refl _) E); reflexivity).
  assert (H : half f = half r) by (unfold half; rewrite (qlt_same f r 0 0 E (Qeq_refl _)); reflexivity). cbv zeta. rewrite U, H.
  rewrite (qtrunc_same (f * inject_Z (unit_of r) + half r) (r * inject_Z (unit_of r) + half r)) by now rewrite E. reflexivity.
Qed.
Lemma float_to_rational_whole z : (0 <= z)%Z -> float_to_rational (inject_Z z) = Rat z 1.
Proof.
  intros Z0. rewrite float_to_rational_eq. cbv zeta. assert (U : (0 < unit_of (inject_Z z))%Z) by (destruct (unit_pos (inject_Z z)) as [->| ->]; lia).
  assert (U2 : unit_of (inject_Z z) <> 0%Z) by lia. set (u := unit_of (inject_Z z)) in *.
  assert (H : half (inject_Z z) = (1 # 2)%Q). { unfold half. assert (L : qlt (inject_Z z) 0 = false) by (apply qlt_false; change 0%Q with (inject_Z 0); rewrite <- Zle_Qle; exact Z0). now rewrite L. }
  rewrite H. rewrite (qtrunc_range _ (z * u)%Z) by (nia || (rewrite inject_Z_mult; lra)).
  assert (G : go_gcd (z * u) u = u).
  { unfold go_gcd. assert (F : 2 <= 130) by lia. generalize dependent 130. intros [|[|fuel]] F; [lia..|]. cbn [gcd_loop]. destruct (Z.eqb_spec u 0) as [|_]; [contradiction|]. rewrite Z.rem_mul by exact U2. reflexivity. }
  rewrite G, Z.quot_mul, Z.quot_same by exact U2. reflexivity.
Qed.

(* ---- decimal fractions ---- *)
Lemma decimal_is_dec t q : decimal t q -> exists m k, parse_float t = Some (FDec m k) /\ (dec_q m k == q)%Q.
Proof. intros D. destruct (read_decimal t q D) as (x & P & N). destruct x as [| |m k]; try contradiction. eauto. Qed.
Lemma contains_dot t q d : decimal t q -> (exists a, t = a ++ "." ++ d) -> contains "." t = true.
Proof. intros _ [a ->]. rewrite (contains_single "."), has_char_app. cbn. apply orb_true_r. Qed.
Lemma rational_decimal inf old t q : decimal t q -> contains "." t = true -> exists f, (f == q)%Q /\
  rational_unmarshal inf old t = Ok (if qlt f 1 then Rat 1 (Z.quot (if Qeq_bool f 0 then inf else qtrunc (1000 / f + 50)%Q) 1000) else float_to_rational f).
Proof.
  intros D C. destruct (decimal_is_dec t q D) as (m & k & P & E). exists (dec_q m k). split; [exact E|].
  unfold rational_unmarshal, rat_unmarshal. destruct t as [|c t]; [discriminate C|]. cbn [emptyb]. rewrite C. unfold decimal_rational. rewrite P. cbv zeta. destruct (qlt (dec_q m k) 1); reflexivity.
Qed.
Lemma quot_unit n : (0 < n)%Z -> Z.quot (1000 * n + 50) 1000 = n.
Proof. intros H. rewrite Z.quot_div_nonneg by lia. rewrite Z.mul_comm, Z.div_add_l by lia. change (50 / 1000)%Z with 0%Z. lia. Qed.

(* ---- rounding to seven digits ---- *)
Lemma round_even_near q : (Qabs (inject_Z (round_even q) - q) <= 1 # 2)%Q.
Proof.
  apply Qabs_Qle_condition. unfold round_even. pose proof (Qfloor_le q) as L. pose proof (Qlt_floor q) as U. rewrite inject_Z_plus in U. change (inject_Z 1) with 1%Q in U.
  set (f := Qfloor q) in *. destruct (qlt (q - inject_Z f) (1 # 2)) eqn:A; [apply qlt_true in A; lra|apply qlt_false in A].
  assert (I : (inject_Z (f + 1) == inject_Z f + 1)%Q) by (rewrite inject_Z_plus; reflexivity).
  destruct (qlt (1 # 2) (q - inject_Z f)) eqn:B; [apply qlt_true in B; lra|apply qlt_false in B]. destruct (Z.even f); lra.
Qed.
Lemma round_even_nonneg q : (0 <= q)%Q -> (0 <= round_even q)%Z.
Proof.
  intros H. assert (0 <= Qfloor q)%Z by (change 0%Z with (Qfloor 0); now apply Qfloor_resp_le). unfold round_even.
  destruct (qlt _ _); [assumption|]. destruct (qlt _ _); [lia|]. destruct (Z.even _); lia.
Qed.

Lemma frac_of_fraction r q : fraction (r_num r) (r_den r) q -> (frac_of r == q)%Q.
Proof.
  intros [N E]. unfold frac_of, rat_value. destruct (Z.eqb_spec (r_den r) 0) as [|_]; [contradiction|]. rewrite Qmake_Qdiv. rewrite Z2Pos.id by lia. rewrite inject_Z_mult, <- E.
  assert (S : (inject_Z (Z.abs (r_den r)) == inject_Z (Z.sgn (r_den r)) * inject_Z (r_den r))%Q).
  { rewrite <- inject_Z_mult. replace (Z.sgn (r_den r) * r_den r)%Z with (Z.abs (r_den r)) by (destruct (r_den r); reflexivity). reflexivity. }
  rewrite S. field. split; change 0%Q with (inject_Z 0); rewrite inject_Z_injective; lia.
Qed.
