(* Facts for C117 and C118: decimal texts are read as the numbers they denote *)
From Coq Require Import Decimal DecimalString DecimalFacts DecimalN List Arith ZArith NArith QArith Qpower Qround Qabs Qfield Lqa Bool Ascii String Lia.
From Verif Require Import GoStr Spec CodecM SpecCodec SpeedM NumM SpecNum GoStrFacts CodecFacts.
Import ListNotations.
Local Open Scope nat_scope.
Local Open Scope string_scope.

Lemma pow10_pos k : (0 < pow10 k)%Z.
Proof. unfold pow10. apply Z.pow_pos_nonneg; lia. Qed.
Lemma pow10_S k : pow10 (S k) = (10 * pow10 k)%Z.
Proof. unfold pow10. rewrite Nat2Z.inj_succ, Z.pow_succ_r by lia. reflexivity. Qed.
Lemma inject_pos z : (0 < z)%Z -> (0 < inject_Z z)%Q.
Proof. intros H. change 0%Q with (inject_Z 0). rewrite <- Zlt_Qlt. exact H. Qed.
Lemma dec_q_eq m k : (dec_q m k == inject_Z m / inject_Z (pow10 k))%Q.
Proof.
  unfold dec_q. pose proof (pow10_pos k) as P. rewrite Qmake_Qdiv. rewrite Z2Pos.id by exact P. reflexivity.
Qed.

Lemma digits_shift s : forall a b v, digits_acc a s = Some v -> digits_acc (b + a) s = Some (b * 10 ^ N.of_nat (String.length s) + v)%N.
Proof.
  induction s as [|c s IH]; intros a b v; cbn [digits_acc String.length].
  - intros E. injection E as <-. change (N.of_nat 0) with 0%N. rewrite N.pow_0_r. f_equal. lia.
  - destruct (digit_val c) as [d|]; [|discriminate]. intros E. replace ((b + a) * 10 + d)%N with (b * 10 + (a * 10 + d))%N by lia.
    rewrite (IH _ _ _ E). f_equal. rewrite Nat2N.inj_succ, N.pow_succ_r'. lia.
Qed.
Lemma digits_app a b acc : digits_acc acc (a ++ b) = match digits_acc acc a with Some v => digits_acc v b | None => None end.
Proof. revert acc. induction a as [|c a IH]; intros acc; cbn [append digits_acc]; [reflexivity|]. destruct (digit_val c); [apply IH|reflexivity]. Qed.
Lemma numeral_acc s z : numeral s z -> digits_acc 0 s = Some (Z.to_N z).
Proof. intros H. pose proof (numeral_parse_digits s z H) as P. pose proof (numeral_head s z H) as Hd. destruct s; [contradiction|]. exact P. Qed.
Lemma numeral_app i z d n : numeral i z -> numeral d n -> parse_digits (i ++ d) = Some (Z.to_N (z * pow10 (String.length d) + n)).
Proof.
  intros I D. pose proof (numeral_head i z I) as Hd.
  assert (E : parse_digits (i ++ d) = digits_acc 0 (i ++ d)) by (destruct i; [contradiction|reflexivity]).
  rewrite E, digits_app, (numeral_acc i z I). pose proof (digits_shift d 0 (Z.to_N z) _ (numeral_acc d n D)) as S. rewrite N.add_0_r in S. rewrite S. f_equal.
  destruct I as [Iz _], D as [Dz _]. pose proof (pow10_pos (String.length d)). rewrite Z2N.inj_add by nia. f_equal. rewrite Z2N.inj_mul by lia. f_equal.
  unfold pow10. rewrite Z2N.inj_pow by lia. f_equal. lia.
Qed.

Lemma sign_of_signed sg s i r : signed sg s -> match i with String c _ => is_digit c = true | "" => False end ->
  sign_of (sg ++ i ++ r) = ((s <? 0)%Z, i ++ r).
Proof.
  intros S H. destruct S; [|reflexivity..]. cbn [append]. destruct i as [|c i]; [contradiction|]. cbn [append sign_of].
  destruct c as [[] [] [] [] [] [] [] []]; try reflexivity; discriminate H.
Qed.

(* the mantissa *)
Definition ends (r : string) : Prop := r = "" \/ exists c t, r = String c t /\ (c = "e" \/ c = "E")%char.
Lemma ends_no_digit r : ends r -> no_digit_head r.
Proof. intros [->|(c & t & -> & [->| ->])]; reflexivity. Qed.
Lemma parse_dec_mantissa m q r : decimal m q -> ends r ->
  exists a k, (inject_Z a / inject_Z (pow10 k) == q)%Q
    /\ parse_dec (m ++ r) = match exponent r with Some e => Some (shift a k e) | None => None end.
Proof.
  intros (sg & s & i & z & f & n & k & S & I & -> & F & Q) E. unfold parse_dec.
  assert (A : (sg ++ i ++ f) ++ r = sg ++ i ++ f ++ r) by now rewrite !app_assoc. rewrite A.
  rewrite (sign_of_signed sg s i (f ++ r) S) by (eapply numeral_head; eauto).
  assert (Nf : no_digit_head (f ++ r)).
  { destruct F as [(-> & _ & _)|(d & -> & _)]; [now apply ends_no_digit|reflexivity]. }
  rewrite span_digits_app by (eauto using numeral_digits).
  exists (s * (z * pow10 k + n))%Z, k. pose proof (inject_pos _ (pow10_pos k)) as P. split.
  - rewrite Q. fold (pow10 k). rewrite inject_Z_mult, inject_Z_plus, inject_Z_mult. field. lra.
  - assert (V : parse_digits (i ++ (match f with "" => "" | String _ d => d end)) = Some (Z.to_N (z * pow10 k + n))
        /\ (let '(f0, s3) := match f ++ r with String "." r0 => span_digits r0 | _ => ("", f ++ r) end in
            f0 = match f with "" => "" | String _ d => d end /\ s3 = r) /\ k = String.length (match f with "" => "" | String _ d => d end)
        /\ (0 <= z * pow10 k + n)%Z).
    { pose proof (pow10_pos k) as Pk. destruct I as [Iz I']. destruct F as [(-> & -> & ->)|(d & -> & D & ->)].
      - split; [|split; [|split; [reflexivity|]]].
        + rewrite app_nil_r. rewrite (numeral_parse_digits i z (conj Iz I')). f_equal. f_equal. change (pow10 0) with 1%Z. lia.
        + destruct E as [->|(c & t & -> & [->| ->])]; split; reflexivity.
        + change (pow10 0) with 1%Z. lia.
      - cbn [append]. split; [|split; [|split; [reflexivity|]]].
        + exact (numeral_app i z d n (conj Iz I') D).
        + rewrite span_digits_app by (eauto using numeral_digits, ends_no_digit). split; reflexivity.
        + destruct D as [Dz _]. nia. }
    destruct V as (V1 & V2 & V3 & V4). destruct (match f ++ r with String "." r0 => span_digits r0 | _ => ("", f ++ r) end) as [f0 s3].
    destruct V2 as [-> ->]. rewrite V1. destruct (exponent r) as [e|]; [|reflexivity]. rewrite <- V3. f_equal. f_equal.
    rewrite Z2N.id by exact V4. destruct S; cbn [Z.ltb Z.compare]; lia.
Qed.

Definition num_is (x : fl) (q : Q) : Prop := match x with FDec m k => (dec_q m k == q)%Q | _ => False end.
Lemma shift_value a k e : num_is (shift a k e) (inject_Z a / inject_Z (pow10 k) * 10 ^ e)%Q.
Proof.
  unfold shift. pose proof (inject_pos _ (pow10_pos k)) as P. assert (T : ~ (10 == 0)%Q) by discriminate.
  assert (PZ : forall j, (inject_Z (pow10 j) == 10 ^ Z.of_nat j)%Q) by (intros j; unfold pow10; rewrite Zpower_Qpower by lia; reflexivity).
  destruct (Z.ltb_spec (Z.of_nat k - e) 0) as [L|L]; cbn [num_is]; rewrite dec_q_eq.
  - change (inject_Z (pow10 0)) with 1%Q. rewrite inject_Z_mult, Zpower_Qpower by lia. rewrite (PZ k).
    assert (E : (10 ^ e == 10 ^ (- (Z.of_nat k - e)) * 10 ^ Z.of_nat k)%Q) by (rewrite <- Qpower_plus by exact T; replace (- (Z.of_nat k - e) + Z.of_nat k)%Z with e by lia; reflexivity).
    change (inject_Z 10) with 10%Q. rewrite E. rewrite PZ in P. field. lra.
  - rewrite (PZ (Z.to_nat (Z.of_nat k - e))), (PZ k). rewrite Z2Nat.id by lia.
    assert (E : (10 ^ Z.of_nat k == 10 ^ (Z.of_nat k - e) * 10 ^ e)%Q) by (rewrite <- Qpower_plus by exact T; replace (Z.of_nat k - e + e)%Z with (Z.of_nat k) by lia; reflexivity).
    rewrite PZ in P. rewrite E. assert (N1 : ~ (10 ^ (Z.of_nat k - e) == 0)%Q) by (apply Qpower_not_0; exact T). assert (N2 : ~ (10 ^ e == 0)%Q) by (apply Qpower_not_0; exact T).
    field. split; assumption.
Qed.

(* ---- the number of digits ---- *)

Lemma length_uint d : String.length (NilEmpty.string_of_uint d) = Decimal.nb_digits d.
Proof. induction d; cbn [NilEmpty.string_of_uint String.length Decimal.nb_digits]; congruence. Qed.
Lemma of_uint_acc_ge d : forall acc, (Npos acc * 10 ^ N.of_nat (Decimal.nb_digits d) <= Npos (Pos.of_uint_acc d acc))%N.
Proof.
  induction d as [|d IH|d IH|d IH|d IH|d IH|d IH|d IH|d IH|d IH|d IH]; intros acc; cbn [Decimal.nb_digits Pos.of_uint_acc].
  1: change (10 ^ N.of_nat 0)%N with 1%N; lia.
  all: rewrite Nat2N.inj_succ, N.pow_succ_r'; match goal with |- (_ <= Npos (Pos.of_uint_acc _ ?e))%N => specialize (IH e) end;
       eapply N.le_trans; [|exact IH]; rewrite N.mul_assoc; apply N.mul_le_mono_r; lia.
Qed.
Lemma nzhead_len d : Decimal.nb_digits (Decimal.nzhead d) <= Decimal.nb_digits d.
Proof. induction d; cbn [Decimal.nzhead Decimal.nb_digits]; lia. Qed.
Lemma to_uint_norm n : Decimal.unorm (N.to_uint n) = N.to_uint n.
Proof. rewrite <- (DecimalN.Unsigned.to_of (N.to_uint n)). now rewrite DecimalN.Unsigned.of_to. Qed.
Lemma uint_ge d : Decimal.unorm d = d -> d <> Decimal.D0 Decimal.Nil -> (10 ^ N.of_nat (Decimal.nb_digits d - 1) <= N.of_uint d)%N.
Proof.
  intros U N. destruct d as [|d|d|d|d|d|d|d|d|d|d]; try discriminate U; cbn [Decimal.nb_digits]; rewrite ?Nat.sub_succ, ?Nat.sub_0_r;
    try (unfold N.of_uint; cbn [Pos.of_uint]; match goal with |- (_ <= Npos (Pos.of_uint_acc ?d ?a))%N => pose proof (of_uint_acc_ge d a); eapply N.le_trans; [|eassumption];
      rewrite <- (N.mul_1_l (10 ^ _)) at 1; apply N.mul_le_mono_r; lia end).
  exfalso. unfold Decimal.unorm in U. cbn [Decimal.nzhead] in U. destruct (Decimal.nzhead d) eqn:E; try discriminate U.
  - injection U as <-. now apply N.
  - injection U as ->. pose proof (nzhead_len d) as L. rewrite E in L. cbn [Decimal.nb_digits] in L. lia.
Qed.
Lemma utoa_len n k : 1 <= k -> (n < 10 ^ N.of_nat k)%N -> String.length (utoa n) <= k.
Proof.
  intros K L. unfold utoa. pose proof (to_uint_norm n) as U. pose proof (N_of_to_uint n) as O.
  assert (E : NilZero.string_of_uint (N.to_uint n) = NilEmpty.string_of_uint (N.to_uint n)) by (destruct (N.to_uint n); [discriminate U|reflexivity..]).
  rewrite E, length_uint. assert (D : {N.to_uint n = Decimal.D0 Decimal.Nil} + {N.to_uint n <> Decimal.D0 Decimal.Nil}) by (repeat decide equality).
  destruct D as [D|D]; [rewrite D; cbn; lia|]. pose proof (uint_ge _ U D) as G. rewrite O in G.
  destruct (Nat.le_gt_cases (Decimal.nb_digits (N.to_uint n)) k) as [|B]; [assumption|exfalso].
  assert (10 ^ N.of_nat k <= 10 ^ N.of_nat (Decimal.nb_digits (N.to_uint n) - 1))%N by (apply N.pow_le_mono_r; lia). lia.
Qed.
Lemma zero_pad_zeros k : zero_pad k = zeros k.
Proof. induction k; cbn; congruence. Qed.
Lemma length_zeros k : String.length (zeros k) = k.
Proof. induction k; cbn; congruence. Qed.
Lemma itoa_nat z : (0 <= z)%Z -> itoa z = utoa (Z.to_N z).
Proof. intros H. rewrite itoa_utoa. destruct (Z.ltb_spec z 0); [lia|reflexivity]. Qed.
Lemma frac_digits_spec k n : 1 <= k -> (0 <= n < pow10 k)%Z -> numeral (frac_digits k n) n /\ String.length (frac_digits k n) = k.
Proof.
  intros K [N L]. unfold frac_digits. cbv zeta. rewrite zero_pad_zeros. split; [split; [exact N|eauto]|].
  rewrite length_app, length_zeros. assert (String.length (itoa n) <= k); [|lia]. rewrite itoa_nat by exact N. apply utoa_len; [exact K|].
  apply N2Z.inj_lt. rewrite Z2N.id by exact N. rewrite N2Z.inj_pow, nat_N_Z. exact L.
Qed.

Lemma format_dec_decimal m k : decimal (format_dec m k) (dec_q m k).
Proof.
  unfold format_dec. pose proof (pow10_pos k) as P. pose proof (inject_pos _ P) as PQ.
  exists (if (m <? 0)%Z then "-" else ""), (if (m <? 0)%Z then -1 else 1)%Z, (itoa (Z.abs m / pow10 k)), (Z.abs m / pow10 k)%Z,
    (match k with 0 => "" | _ => "." ++ frac_digits k (Z.abs m mod pow10 k) end), (Z.abs m mod pow10 k)%Z, k.
  split; [destruct (m <? 0)%Z; constructor|]. split; [apply numeral_itoa; apply Z.div_pos; lia|]. split; [reflexivity|]. split.
  - destruct k as [|k]; [left; repeat split; change (pow10 0) with 1%Z; apply Z.mod_1_r|right].
    destruct (frac_digits_spec (S k) (Z.abs m mod pow10 (S k)) ltac:(lia) (Z.mod_pos_bound _ _ P)) as [A B].
    exists (frac_digits (S k) (Z.abs m mod pow10 (S k))). split; [reflexivity|]. split; [exact A|]. now rewrite B.
  - rewrite dec_q_eq. fold (pow10 k). assert (E : (inject_Z (Z.abs m) == inject_Z (pow10 k) * inject_Z (Z.abs m / pow10 k) + inject_Z (Z.abs m mod pow10 k))%Q).
    { rewrite <- inject_Z_mult, <- inject_Z_plus. rewrite <- Z.div_mod by lia. reflexivity. }
    assert (S : (inject_Z m == inject_Z (if (m <? 0)%Z then -1 else 1) * inject_Z (Z.abs m))%Q).
    { rewrite <- inject_Z_mult. destruct (Z.ltb_spec m 0); rewrite ?Z.abs_neq, ?Z.abs_eq by lia; [replace (-1 * - m)%Z with m by lia|rewrite Z.mul_1_l]; reflexivity. }
    rewrite S, E. field. lra.
Qed.
Lemma shortest_same m k : let '(m', k') := shortest m k in (dec_q m' k' == dec_q m k)%Q.
Proof.
  revert m. induction k as [|k IH]; intros m; cbn [shortest]; [reflexivity|]. destruct (Z.eqb_spec (m mod 10) 0) as [Z|Z]; [|reflexivity].
  specialize (IH (m / 10)%Z). destruct (shortest (m / 10) k) as [m' k']. rewrite IH. rewrite !dec_q_eq, pow10_S.
  assert (E : m = (10 * (m / 10))%Z) by (pose proof (Z.div_mod m 10); lia). rewrite E at 2. rewrite !inject_Z_mult.
  pose proof (inject_pos _ (pow10_pos k)). field. lra.
Qed.

(* ---- texts with digits are not special ---- *)
Fixpoint has_digit (s : string) : bool := match s with "" => false | String c r => is_digit c || has_digit r end.
Lemma has_digit_app a b : has_digit (a ++ b) = has_digit a || has_digit b.
Proof. induction a as [|c a IH]; cbn [append has_digit]; [reflexivity|]. now rewrite IH, orb_assoc. Qed.
Lemma lower_digit c : is_digit c = true -> lower_char c = c.
Proof. destruct c as [[] [] [] [] [] [] [] []]; vm_compute; intros; congruence. Qed.
Lemma lower_has_digit s : has_digit s = true -> has_digit (to_lower s) = true.
Proof.
  induction s as [|c s IH]; [discriminate|]. cbn [has_digit to_lower]. destruct (is_digit c) eqn:D; cbn [orb].
  - intros _. rewrite (lower_digit c D), D. reflexivity.
  - intros H. rewrite (IH H). apply orb_true_r.
Qed.
Lemma digit_neq s t : has_digit s = true -> has_digit t = false -> (to_lower s =? t) = false.
Proof. intros H T. apply eqb_neq. intros E. apply lower_has_digit in H. rewrite E in H. congruence. Qed.
Lemma numeral_has_digit s z : numeral s z -> has_digit s = true.
Proof. intros H. pose proof (numeral_head s z H) as Hd. destruct s; [contradiction|]. cbn [has_digit]. now rewrite Hd. Qed.
Lemma decimal_has_digit m q : decimal m q -> has_digit m = true.
Proof. intros (sg & s & i & z & f & n & k & S & I & -> & _). rewrite !has_digit_app, (numeral_has_digit i z I). now rewrite orb_true_l, orb_true_r. Qed.
Lemma parse_float_digits s : has_digit s = true -> parse_float s = parse_dec s.
Proof. intros H. unfold parse_float. cbv zeta. rewrite !(digit_neq s) by (exact H || reflexivity). reflexivity. Qed.
Lemma parse_null_digits s : has_digit s = true -> parse_null_float s = match parse_float (clean_float s) with Some x => Ok (Some x) | None => Err "invalid syntax" end.
Proof. intros H. unfold parse_null_float. cbv zeta. rewrite !(digit_neq s) by (exact H || reflexivity). reflexivity. Qed.

(* ---- cleaning ---- *)
Lemma clean_app a b : clean_float (a ++ b) = clean_float a ++ clean_float b.
Proof. induction a as [|c a IH]; cbn [append clean_float]; [reflexivity|]. destruct (float_char c); [cbn [append]; now rewrite IH|exact IH]. Qed.
Lemma clean_digits s : all_digits s = true -> clean_float s = s.
Proof.
  induction s as [|c s IH]; cbn [all_digits clean_float]; [reflexivity|]. intros H. apply andb_true_iff in H as [D H]. rewrite (IH H).
  unfold float_char. unfold is_digit in D. destruct (digit_val c); [reflexivity|discriminate].
Qed.
Lemma clean_signed sg s : signed sg s -> clean_float sg = sg.
Proof. now destruct 1. Qed.
Lemma clean_decimal m q : decimal m q -> clean_float m = m.
Proof.
  intros (sg & s & i & z & f & n & k & S & I & -> & F & _). rewrite !clean_app, (clean_signed sg s S), (clean_digits i) by (eapply numeral_digits; eauto). do 2 f_equal.
  destruct F as [(-> & _ & _)|(d & -> & D & _)]; [reflexivity|]. cbn [append clean_float]. change (float_char ".") with true. cbv iota. f_equal. apply clean_digits. eapply numeral_digits; eauto.
Qed.
Lemma clean_none u : (forall c, has_char c u = true -> float_char c = false) -> clean_float u = "".
Proof.
  induction u as [|c u IH]; [reflexivity|]. intros H. cbn [clean_float]. rewrite (H c) by (cbn [has_char]; now rewrite Ascii.eqb_refl).
  apply IH. intros d D. apply H. cbn [has_char]. now rewrite D, orb_true_r.
Qed.

Lemma read_decimal m q : decimal m q -> exists x, parse_float m = Some x /\ num_is x q.
Proof.
  intros D. rewrite parse_float_digits by (eapply decimal_has_digit; eauto).
  destruct (parse_dec_mantissa m q "" D (or_introl eq_refl)) as (a & k & E & P). rewrite app_nil_r in P. cbn [exponent] in P. exists (shift a k 0). split; [exact P|].
  pose proof (shift_value a k 0) as V. unfold num_is in *. destruct (shift a k 0); [contradiction|contradiction|]. rewrite V, E. change (10 ^ 0)%Q with 1%Q. ring.
Qed.
Lemma exponent_read e es s x k : (e = "e" \/ e = "E")%char -> signed es s -> numeral x k -> exponent (String e (es ++ x)) = Some (s * k)%Z.
Proof.
  intros He S X. cbn [exponent]. assert (E : Ascii.eqb e "e" || Ascii.eqb e "E" = true) by (destruct He as [->| ->]; reflexivity). rewrite E.
  pose proof (sign_of_signed es s x "" S ltac:(eapply numeral_head; eauto)) as G. rewrite app_nil_r in G. rewrite G.
  rewrite (numeral_parse_digits x k X). destruct X as [K _]. rewrite Z2N.id by exact K. f_equal. destruct S; cbn [Z.ltb Z.compare]; lia.
Qed.
Lemma read_scientific e t q : (e = "e" \/ e = "E")%char -> scientific e t q -> exists x, parse_float t = Some x /\ num_is x q.
Proof.
  intros He (m & qm & es & s & x & k & D & S & X & -> & Q). rewrite parse_float_digits by (rewrite has_digit_app, (decimal_has_digit m qm D); reflexivity).
  destruct (parse_dec_mantissa m qm (String e (es ++ x)) D) as (a & j & E & P); [right; eauto|]. rewrite (exponent_read e es s x k He S X) in P.
  exists (shift a j (s * k)). split; [exact P|]. pose proof (shift_value a j (s * k)) as V. unfold num_is in *. destruct (shift a j (s * k)); [contradiction|contradiction|].
  rewrite V, Q, E. reflexivity.
Qed.
Lemma clean_scientific t q : scientific "e" t q -> clean_float t = t.
Proof.
  intros (m & qm & es & s & x & k & D & S & X & -> & _). rewrite clean_app, (clean_decimal m qm D). f_equal. cbn [clean_float]. change (float_char "e") with true. cbv iota. f_equal.
  rewrite clean_app, (clean_signed es s S), clean_digits; [reflexivity|]. eapply numeral_digits; eauto.
Qed.
