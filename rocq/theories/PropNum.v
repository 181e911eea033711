(* C117-C121: decimal numbers, rationals and GPS data *)
From Coq Require Import List Arith ZArith NArith QArith Qpower Qround Qabs Qfield Lqa Bool Ascii String Lia.
From Verif Require Import GoStr Spec CodecM SpecCodec SpeedM NumM SpecNum GoStrFacts CodecFacts NumFacts NumFacts2.
Import ListNotations.
Local Open Scope nat_scope.
Local Open Scope string_scope.

(* ---- C117: floating point numbers survive their text ------------------------------------------------------ *)

(* the value of a finite number *)
Definition is_number (x : fl) (q : Q) : Prop := exists m k, x = FDec m k /\ (inject_Z m / inject_Z (10 ^ Z.of_nat k) == q)%Q.
Definition same_float (x y : fl) : Prop :=
  match x, y with
  | FNaN, FNaN => True
  | FInf a, FInf b => a = b
  | FDec m k, y => exists q, is_number (FDec m k) q /\ is_number y q
  | _, _ => False
  end.
Lemma num_is_number x q : num_is x q -> is_number x q.
Proof. destruct x as [| |m k]; try contradiction. intros E. exists m, k. split; [reflexivity|]. cbn [num_is] in E. fold (pow10 k). rewrite <- dec_q_eq. exact E. Qed.
Lemma read_number t q old : decimal t q \/ scientific "e" t q -> exists x, null_float_unmarshal old t = Ok x /\ is_number x q.
Proof.
  intros H. unfold null_float_unmarshal.
  assert (D : has_digit t = true).
  { destruct H as [D|(m & qm & es & s & x & k & D & _ & _ & -> & _)]; [eapply decimal_has_digit; eauto|]. rewrite has_digit_app, (decimal_has_digit m qm D). reflexivity. }
  assert (C : clean_float t = t) by (destruct H as [H|H]; [eapply clean_decimal; eauto|eapply clean_scientific; eauto]).
  assert (P : exists x, parse_float t = Some x /\ num_is x q) by (destruct H as [H|H]; [now apply read_decimal|apply (read_scientific "e"); auto]).
  destruct P as (x & P & N). rewrite (parse_null_digits t D), C, P. exists x. split; [reflexivity|now apply num_is_number].
Qed.

Theorem C117_text x old : exists y, null_float_unmarshal old (null_float_marshal x) = Ok y /\ same_float x y.
Proof.
  destruct x as [|neg|m k].
  - exists FNaN. split; [vm_compute; reflexivity|exact I].
  - exists (FInf neg). split; [destruct neg; vm_compute; reflexivity|reflexivity].
  - unfold null_float_marshal. cbn [format_fl]. pose proof (shortest_same m k) as S. destruct (shortest m k) as [m' k'].
    destruct (read_number (format_dec m' k') (dec_q m' k') old (or_introl (format_dec_decimal m' k'))) as (y & E & N).
    exists y. split; [exact E|]. cbn [same_float]. exists (dec_q m' k'). split; [|exact N]. apply num_is_number. cbn [num_is]. now rewrite S.
Qed.
Print Assumptions C117_text.
Example C117_hyps : null_float_marshal (FDec (-15020) 3) = "-15.02" /\ null_float_unmarshal FNaN "-15.02" = Ok (FDec (-1502) 2).
Proof. vm_compute. split; reflexivity. Qed.

(* every decimal number is read as what it denotes, with and without exponent *)
Theorem C117_number_partial t q old : decimal t q \/ scientific "e" t q -> exists x, null_float_unmarshal old t = Ok x /\ is_number x q.
Proof. exact (read_number t q old). Qed.
Print Assumptions C117_number_partial.
Example C117_number_hyps : decimal "-12.50" (- (25 # 2)) /\ scientific "e" "-12.50e-2" (- (1 # 8)).
Proof.
  assert (D : decimal "-12.50" (- (25 # 2))).
  { exists "-", (-1)%Z, "12", 12%Z, ".50", 50%Z, 2. split; [constructor|]. split; [split; [lia|exists 0; vm_compute; reflexivity]|]. split; [reflexivity|]. split; [|reflexivity].
    right. exists "50". split; [reflexivity|]. split; [split; [lia|exists 0; vm_compute; reflexivity]|reflexivity]. }
  split; [exact D|]. exists "-12.50", (- (25 # 2))%Q, "-", (-1)%Z, "2", 2%Z. split; [exact D|]. split; [constructor|]. split; [split; [lia|exists 0; vm_compute; reflexivity]|]. split; reflexivity.
Qed.

(* A capital E is dropped: with a sign the text is refused, without one it is another number. *)
Theorem C117_capital_refuted :
  (forall m qm es x k old, decimal m qm -> es = "+" \/ es = "-" -> numeral x k -> exists e, null_float_unmarshal old (m ++ "E" ++ es ++ x) = Err e)
  /\ forall old, scientific "E" "1.5E5" 150000 /\ null_float_unmarshal old "1.5E5" = Ok (FDec 155 2).
Proof.
  split.
  - intros m qm es x k old D S X. exists "invalid syntax". unfold null_float_unmarshal. rewrite parse_null_digits by (rewrite has_digit_app, (decimal_has_digit m qm D); reflexivity).
    rewrite clean_app, (clean_decimal m qm D). change (clean_float ("E" ++ es ++ x)) with (clean_float (es ++ x)). rewrite clean_app, (clean_digits x) by (eapply numeral_digits; eauto).
    rewrite parse_float_digits by (rewrite has_digit_app, (decimal_has_digit m qm D); reflexivity).
    destruct D as (sg & s & i & z & f & n & j & Sg & I & -> & F & Q). unfold parse_dec.
    assert (A : ((sg ++ i ++ f) ++ clean_float es ++ x) = sg ++ i ++ f ++ (clean_float es ++ x)) by now rewrite !app_assoc. rewrite A.
    assert (Nr : no_digit_head (clean_float es ++ x)) by (destruct S as [->| ->]; reflexivity).
    rewrite (sign_of_signed sg s i _ Sg) by (eapply numeral_head; eauto).
    assert (Nf : no_digit_head (f ++ clean_float es ++ x)) by (destruct F as [(-> & _ & _)|(d & -> & _)]; [exact Nr|reflexivity]).
    rewrite span_digits_app by (eauto using numeral_digits).
    destruct F as [(-> & _ & _)|(d & -> & Dd & _)]; cbn [append].
    + destruct S as [->| ->]; cbn [clean_float]; [change (float_char "+") with true|change (float_char "-") with true]; cbv iota; cbn [append exponent]; cbn [Ascii.eqb Bool.eqb orb]; destruct (parse_digits _); reflexivity.
    + rewrite span_digits_app by (eauto using numeral_digits). destruct S as [->| ->]; cbn [clean_float]; [change (float_char "+") with true|change (float_char "-") with true]; cbv iota; cbn [append exponent]; cbn [Ascii.eqb Bool.eqb orb]; destruct (parse_digits _); reflexivity.
  - intros old. split; [|vm_compute; reflexivity]. exists "1.5", (3 # 2)%Q, "", 1%Z, "5", 5%Z.
    split; [exists "", 1%Z, "1", 1%Z, ".5", 5%Z, 1; split; [constructor|]; split; [split; [lia|exists 0; vm_compute; reflexivity]|]; split; [reflexivity|]; split; [right; exists "5"; split; [reflexivity|]; split; [split; [lia|exists 0; vm_compute; reflexivity]|reflexivity]|reflexivity]|].
    split; [constructor|]. split; [split; [lia|exists 0; vm_compute; reflexivity]|]. split; reflexivity.
Qed.
Print Assumptions C117_capital_refuted.

(* JSON: every text of a finite number that encoding/json may choose, and NaN *)
Theorem C117_json_partial num x old : (forall m k, x = FDec m k -> exists q, is_number x q /\ (decimal (num m k) q \/ scientific "e" (num m k) q)) ->
  (forall neg, x <> FInf neg) -> exists y, null_float_unjson old (null_float_json num x) = Ok y /\ same_float x y.
Proof.
  intros N F. destruct x as [|neg|m k]; [|now destruct (F neg)|].
  - exists FNaN. split; [vm_compute; reflexivity|exact I].
  - destruct (N m k eq_refl) as (q & V & T). destruct (read_number (num m k) q old T) as (y & E & Y). exists y. cbn [null_float_json]. split; [|now exists q].
    assert (H : exists c t, num m k = String c t /\ Ascii.eqb c quote = false).
    { assert (D : exists a qa r, decimal a qa /\ num m k = a ++ r) by (destruct T as [T|(a & qa & es & s & w & j & D & _ & _ & W & _)]; [exists (num m k), q, ""; now rewrite app_nil_r|rewrite W; eauto]).
      destruct D as (a & qa & r & (sg & s & i & z & f & n & j & S & Ii & -> & _) & ->). pose proof (numeral_head i z Ii) as Hd. destruct i as [|c i]; [contradiction|].
      destruct S; cbn [append]; eexists _, _; (split; [reflexivity|]); [|reflexivity..]. clear - Hd. destruct c as [[] [] [] [] [] [] [] []]; vm_compute in *; congruence. }
    destruct H as (c & t & H & Q). unfold null_float_unjson. rewrite H, Q, <- H. exact E.
Qed.
Print Assumptions C117_json_partial.
Example C117_json_hyps : is_number (FDec 5 7) (5 # 10000000) /\ scientific "e" "5e-07" (5 # 10000000).
Proof.
  split; [now exists 5%Z, 7|]. exists "5", 5%Q, "-", (-1)%Z, "07", 7%Z.
  split; [exists "", 1%Z, "5", 5%Z, "", 0%Z, 0; split; [constructor|]; split; [split; [lia|exists 0; vm_compute; reflexivity]|]; split; [reflexivity|]; split; [now left|reflexivity]|].
  split; [constructor|]. split; [split; [lia|exists 1; vm_compute; reflexivity]|]. split; reflexivity.
Qed.
(* Infinite numbers change their sign. *)
Theorem C117_json_refuted num neg old : null_float_unjson old (null_float_json num (FInf neg)) = Ok (FInf (negb neg)).
Proof. destruct neg; vm_compute; reflexivity. Qed.
Print Assumptions C117_json_refuted.

(* ---- C118: units after a number ---------------------------------------------------------------------------- *)

(* no digit, sign or point, and no letter e *)
Definition harmless_unit (u : string) : Prop :=
  forall c, has_char c u = true -> is_digit c = false /\ c <> "e"%char /\ c <> "."%char /\ c <> "+"%char /\ c <> "-"%char.
Lemma harmless_clean u : harmless_unit u -> clean_float u = "".
Proof.
  intros H. apply clean_none. intros c Hc. destruct (H c Hc) as (D & A & B & C & E). unfold float_char. unfold is_digit in D. destruct (digit_val c); [discriminate|].
  apply Ascii.eqb_neq in A, B, C, E. now rewrite A, B, C, E.
Qed.
Theorem C118_unit_partial t q u old : decimal t q -> harmless_unit u -> exists x, null_float_unmarshal old (t ++ u) = Ok x /\ is_number x q.
Proof.
  intros D U. unfold null_float_unmarshal. rewrite parse_null_digits by (rewrite has_digit_app, (decimal_has_digit t q D); reflexivity).
  rewrite clean_app, (clean_decimal t q D), (harmless_clean u U), app_nil_r. destruct (read_decimal t q D) as (x & P & N). rewrite P. exists x. split; [reflexivity|now apply num_is_number].
Qed.
Print Assumptions C118_unit_partial.
Example C118_hyps : harmless_unit " mm" /\ null_float_unmarshal FNaN "35.0 mm" = Ok (FDec 350 1).
Proof.
  split; [|vm_compute; reflexivity]. intros c H. cbn [has_char] in H. repeat (apply orb_true_iff in H as [H|H]; [apply Ascii.eqb_eq in H; subst c; repeat split; discriminate|]). discriminate H.
Qed.
(* Texts that stand for a missing number leave the number as it was. *)
Theorem C118_missing old : Forall (fun t => null_float_unmarshal old t = Ok old) [""; "-"; "--"; "---"; "unknown"; "Unknown"; "UNKNOWN"].
Proof. repeat constructor. Qed.
Print Assumptions C118_missing.
(* A unit with the letter e, such as sec, makes every number unreadable. *)
Theorem C118_unit_refuted t q a b old : decimal t q -> harmless_unit a -> harmless_unit b -> exists e, null_float_unmarshal old (t ++ a ++ "e" ++ b) = Err e.
Proof.
  intros D A B. unfold null_float_unmarshal. rewrite parse_null_digits by (rewrite has_digit_app, (decimal_has_digit t q D); reflexivity).
  rewrite !clean_app, (clean_decimal t q D), (harmless_clean a A), (harmless_clean b B). change (clean_float "e") with "e". cbn [append].
  rewrite parse_float_digits by (rewrite has_digit_app, (decimal_has_digit t q D); reflexivity).
  destruct (parse_dec_mantissa t q "e" D) as (x & k & _ & P); [right; exists "e"%char, ""; auto|]. rewrite P. eexists. reflexivity.
Qed.
Print Assumptions C118_unit_refuted.
Example C118_sec : harmless_unit " s" /\ harmless_unit "c" /\ null_float_unmarshal FNaN "1.5 sec" = Err "invalid syntax".
Proof.
  assert (H : forall u, forallb (fun c => negb (float_char c)) (list_ascii_of_string u) = true -> harmless_unit u).
  { intros u F c H. assert (I : In c (list_ascii_of_string u)).
    { clear F. induction u as [|d u IH]; [discriminate|]. cbn [has_char] in H. apply orb_true_iff in H as [H|H]; [apply Ascii.eqb_eq in H; now left|right; auto]. }
    pose proof (proj1 (forallb_forall _ _) F c I) as N. apply negb_true_iff in N. unfold float_char in N. unfold is_digit. destruct (digit_val c); [discriminate|]. split; [reflexivity|].
    repeat (apply orb_false_iff in N as [N ?]). repeat match goal with E : Ascii.eqb _ _ = false |- _ => apply Ascii.eqb_neq in E end. auto. }
  split; [apply H; reflexivity|]. split; [apply H; reflexivity|]. vm_compute. reflexivity.
Qed.

(* ---- C119: decimal fractions as rationals ------------------------------------------------------------------- *)

(* FloatToRational is off by at most half of the unit *)
Theorem C119_float f : exists q, fraction (r_num (float_to_rational f)) (r_den (float_to_rational f)) q
  /\ (Qabs (q - f) <= 1 # 20000)%Q /\ ((f <= 2147)%Q -> (Qabs (q - f) <= 1 # 2000000)%Q).
Proof.
  destruct (float_to_rational_near f) as (q & F & N). exists q. split; [exact F|]. unfold unit_of in N. destruct (qlt 2147 f) eqn:L.
  - apply qlt_true in L. change (1 # 2 * Z.to_pos 10000)%Q with (1 # 20000)%Q in N. split; [exact N|]. intros H. lra.
  - change (1 # 2 * Z.to_pos 1000000)%Q with (1 # 2000000)%Q in N. split; [lra|]. intros _. exact N.
Qed.
Print Assumptions C119_float.
(* whole numbers are exact *)
Theorem C119_whole z : (0 <= z)%Z -> float_to_rational (inject_Z z) = Rat z 1.
Proof. exact (float_to_rational_whole z). Qed.
Print Assumptions C119_whole.

(* a decimal text from 1 on is read as a rational near it *)
Theorem C119_text_partial inf old t q : decimal t q -> contains "." t = true -> (1 <= q)%Q ->
  exists r v, rational_unmarshal inf old t = Ok r /\ fraction (r_num r) (r_den r) v /\ (Qabs (v - q) <= 1 # 20000)%Q.
Proof.
  intros D C L. destruct (rational_decimal inf old t q D C) as (f & E & R). assert (F : qlt f 1 = false) by (apply qlt_false; lra). rewrite F in R.
  exists (float_to_rational f). destruct (C119_float f) as (v & V & N & _). exists v. split; [exact R|]. split; [exact V|]. rewrite <- E. exact N.
Qed.
Print Assumptions C119_text_partial.
(* the fractions 1/n, such as exposure times, are exact *)
Theorem C119_unit_partial inf old t n : (0 < n)%Z -> decimal t (1 / inject_Z n) -> contains "." t = true -> rational_unmarshal inf old t = Ok (Rat 1 n).
Proof.
  intros P D C. destruct (rational_decimal inf old t _ D C) as (f & E & R). rewrite R. clear R. f_equal. assert (NQ : (0 < inject_Z n)%Q) by now apply inject_pos.
  destruct (Z.eq_dec n 1) as [->|N1].
  - assert (F : qlt f 1 = false) by (apply qlt_false; rewrite E; discriminate). rewrite F. rewrite (float_to_rational_same f 1) by (rewrite E; reflexivity). vm_compute. reflexivity.
  - assert (N2 : (2 <= inject_Z n)%Q) by (change 2%Q with (inject_Z 2); rewrite <- Zle_Qle; lia).
    assert (F : qlt f 1 = true) by (apply qlt_true; rewrite E; apply Qlt_shift_div_r; lra). rewrite F.
    assert (F0 : (0 < f)%Q) by (rewrite E; apply Qlt_shift_div_l; lra).
    assert (Z0 : Qeq_bool f 0 = false) by (apply not_true_iff_false; rewrite Qeq_bool_iff; lra). rewrite Z0. f_equal.
    rewrite (qtrunc_same _ (inject_Z (1000 * n + 50))).
    + unfold qtrunc. cbn [inject_Z Qnum Qden]. rewrite Z.quot_1_r. now apply quot_unit.
    + rewrite inject_Z_plus, inject_Z_mult. change (inject_Z 1000) with 1000%Q. change (inject_Z 50) with 50%Q. rewrite E. field. lra.
Qed.
Print Assumptions C119_unit_partial.
Example C119_hyps : decimal "2.8" (14 # 5) /\ decimal "0.008" (1 / inject_Z 125) /\ rational_unmarshal 0 (Rat 0 0) "2.8" = Ok (Rat 14 5) /\ rational_unmarshal 0 (Rat 0 0) "0.008" = Ok (Rat 1 125).
Proof.
  split; [exists "", 1%Z, "2", 2%Z, ".8", 8%Z, 1; split; [constructor|]; split; [split; [lia|exists 0; vm_compute; reflexivity]|]; split; [reflexivity|]; split; [right; exists "8"; split; [reflexivity|]; split; [split; [lia|exists 0; vm_compute; reflexivity]|reflexivity]|reflexivity]|].
  split; [exists "", 1%Z, "0", 0%Z, ".008", 8%Z, 3; split; [constructor|]; split; [split; [lia|exists 0; vm_compute; reflexivity]|]; split; [reflexivity|]; split; [right; exists "008"; split; [reflexivity|]; split; [split; [lia|exists 2; vm_compute; reflexivity]|reflexivity]|reflexivity]|].
  vm_compute. split; reflexivity.
Qed.

(* Every fraction between 20/39 and 1 is read as 1. *)
Theorem C119_fraction_refuted inf old t q : decimal t q -> contains "." t = true -> (20 # 39 < q)%Q -> (q < 1)%Q -> rational_unmarshal inf old t = Ok (Rat 1 1).
Proof.
  intros D C L U. destruct (rational_decimal inf old t q D C) as (f & E & R). rewrite R. assert (F : qlt f 1 = true) by (apply qlt_true; lra).
  assert (Z0 : Qeq_bool f 0 = false) by (apply not_true_iff_false; rewrite Qeq_bool_iff; lra). rewrite F, Z0. do 2 f_equal.
  assert (A : (1000 / f <= 1950)%Q) by (apply Qle_shift_div_r; lra). assert (B : (1000 <= 1000 / f)%Q) by (apply Qle_shift_div_l; lra).
  pose proof (qtrunc_pos (1000 / f + 50) ltac:(lra)) as [T1 T2]. set (n := qtrunc (1000 / f + 50)) in *.
  assert (A' : (1000 / f < 1950)%Q) by (apply Qlt_shift_div_r; lra).
  assert (n < 2000)%Z by (rewrite Zlt_Qlt; change (inject_Z 2000) with 2000%Q; lra). assert (1049 < n)%Z by (rewrite Zlt_Qlt; change (inject_Z 1049) with 1049%Q; lra).
  rewrite Z.quot_div_nonneg by lia. symmetry. apply (Z.div_unique n 1000 1 (n - 1000)); lia.
Qed.
Print Assumptions C119_fraction_refuted.
(* Every number below -20/21 is read as 1/0, and zero as a fraction with numerator 1. *)
Theorem C119_negative_refuted inf old t q : decimal t q -> contains "." t = true -> (q < - (20 # 21))%Q -> rational_unmarshal inf old t = Ok (Rat 1 0).
Proof.
  intros D C L. destruct (rational_decimal inf old t q D C) as (f & E & R). rewrite R. assert (F : qlt f 1 = true) by (apply qlt_true; lra).
  assert (Z0 : Qeq_bool f 0 = false) by (apply not_true_iff_false; rewrite Qeq_bool_iff; lra). rewrite F, Z0. do 2 f_equal.
  assert (G : (1000 / f == - (1000 / - f))%Q) by (field; lra). assert (A : (1000 / - f < 1050)%Q) by (apply Qlt_shift_div_r; lra). assert (B : (0 <= 1000 / - f)%Q) by (apply Qle_shift_div_l; lra).
  set (y := (1000 / f + 50)%Q) in *. assert (Y : (-1000 < y <= 50)%Q) by (unfold y; lra). clearbody y.
  assert (H : (-1000 < qtrunc y < 1000)%Z).
  { destruct (Qlt_le_dec y 0) as [N|P].
    - pose proof (qtrunc_neg y ltac:(lra)) as [T1 T2]. split; rewrite Zlt_Qlt; [change (inject_Z (-1000)) with (-1000)%Q|change (inject_Z 1000) with 1000%Q]; lra.
    - pose proof (qtrunc_pos y P) as [T1 T2]. split; rewrite Zlt_Qlt; [change (inject_Z (-1000)) with (-1000)%Q|change (inject_Z 1000) with 1000%Q]; lra. }
  destruct (Z.le_gt_cases 0 (qtrunc y)) as [P|N]; [apply Z.quot_small; lia|]. rewrite <- (Z.opp_involutive (qtrunc y)), Z.quot_opp_l by lia. rewrite Z.quot_small by lia. reflexivity.
Qed.
Print Assumptions C119_negative_refuted.
Theorem C119_zero_refuted inf old t q : decimal t q -> contains "." t = true -> (q == 0)%Q -> exists d, rational_unmarshal inf old t = Ok (Rat 1 d).
Proof.
  intros D C Z. destruct (rational_decimal inf old t q D C) as (f & E & R). rewrite R. assert (F : qlt f 1 = true) by (apply qlt_true; lra). rewrite F. eauto.
Qed.
Print Assumptions C119_zero_refuted.
Example C119_refuted_hyps : rational_unmarshal 0 (Rat 0 0) "0.75" = Ok (Rat 1 1) /\ rational_unmarshal 0 (Rat 0 0) "-1.5" = Ok (Rat 1 0) /\ rational_unmarshal 0 (Rat 0 0) "0.0" = Ok (Rat 1 0).
Proof. vm_compute. repeat split; reflexivity. Qed.

(* ---- C120: GPS coordinates ---------------------------------------------------------------------------------- *)

(* at most three characters before the point, or a minus sign *)
Definition short_decimal (t : string) : Prop :=
  (exists r, t = "-" ++ r) \/ exists i f, t = i ++ f /\ has_char "." i = false /\ String.length i <= 3 /\ (f = "" \/ exists d, f = "." ++ d).
Lemma short_test t : short_decimal t -> match t with String "-" _ => false | _ => Nat.ltb 3 (String.length (hd "" (split_char "." t))) end = false.
Proof.
  intros [[r ->]|(i & f & -> & N & L & F)]; [reflexivity|]. assert (H : hd "" (split_char "." (i ++ f)) = i).
  { destruct F as [->|[d ->]]; [rewrite app_nil_r, split_char_none by exact N; reflexivity|]. cbn [append]. rewrite split_char_app by exact N. reflexivity. }
  rewrite H. assert (E : Nat.ltb 3 (String.length i) = false) by (apply Nat.ltb_ge; lia). rewrite E. destruct (i ++ f) as [|c s]; [reflexivity|]. destruct c as [[] [] [] [] [] [] [] []]; reflexivity.
Qed.

(* a decimal coordinate becomes degrees, minutes and seconds of the same angle *)
Theorem C120_read_partial odd t q : decimal t q -> short_decimal t -> (Qabs q < 1000)%Q ->
  exists d m s v, gps_unmarshal odd t = Ok (Gps (Rat d 1) (Rat m 1) s) /\ (0 <= d)%Z /\ (0 <= m < 60)%Z /\ fraction (r_num s) (r_den s) v
    /\ (Qabs (inject_Z d + inject_Z m / 60 + v / 3600 - Qabs q) <= 1 # 7200000000)%Q.
Proof.
  intros D S _. destruct (decimal_is_dec t q D) as (a & k & P & E). unfold gps_unmarshal. rewrite P, (short_test t S). cbv zeta.
  set (val := Qabs (dec_q a k)). assert (V : (val == Qabs q)%Q) by (unfold val; now rewrite E). assert (V0 : (0 <= val)%Q) by apply Qabs_nonneg. clearbody val.
  set (d := Qfloor val). pose proof (Qfloor_le val) as D1. pose proof (Qlt_floor val) as D2. rewrite inject_Z_plus in D2. change (inject_Z 1) with 1%Q in D2. fold d in D1, D2.
  assert (D0 : (0 <= d)%Z) by (change 0%Z with (Qfloor 0); now apply Qfloor_resp_le). clearbody d.
  set (x := (60 * (val - inject_Z d))%Q). set (m := Qfloor x). pose proof (Qfloor_le x) as M1. pose proof (Qlt_floor x) as M2. rewrite inject_Z_plus in M2. change (inject_Z 1) with 1%Q in M2. fold m in M1, M2.
  assert (X : (0 <= x < 60)%Q) by (unfold x; lra). assert (M0 : (0 <= m)%Z) by (change 0%Z with (Qfloor 0); now apply Qfloor_resp_le).
  assert (M3 : (m < 60)%Z) by (rewrite Zlt_Qlt; change (inject_Z 60) with 60%Q; lra). clearbody m.
  set (s := (3600 * (val - inject_Z d - inject_Z m / 60))%Q). assert (S60 : (s <= 60)%Q).
  { unfold s. unfold x in M2. setoid_replace (3600 * (val - inject_Z d - inject_Z m / 60))%Q with (60 * (60 * (val - inject_Z d) - inject_Z m))%Q by field. lra. }
  rewrite !float_to_rational_whole by assumption. destruct (C119_float s) as (v & F & _ & N). exists d, m, (float_to_rational s), v. split; [reflexivity|]. split; [exact D0|]. split; [lia|]. split; [exact F|].
  specialize (N ltac:(lra)). apply Qabs_Qle_condition in N. apply Qabs_Qle_condition. rewrite <- V.
  setoid_replace (inject_Z d + inject_Z m / 60 + v / 3600 - val)%Q with ((v - s) * (1 # 3600))%Q by (unfold s; field). clear -N. lra.
Qed.
Print Assumptions C120_read_partial.

Lemma over_60 x : (x / 60 == x * (1 # 60))%Q.
Proof. field. Qed.
Lemma over_3600 x : (x / 3600 == x * (1 # 3600))%Q.
Proof. field. Qed.

(* the XMP text denotes the angle of the three components *)
Theorem C120_write_partial r ref d m s : ref <> "" -> fraction (r_num (g_deg r)) (r_den (g_deg r)) d -> fraction (r_num (g_min r)) (r_den (g_min r)) m -> fraction (r_num (g_sec r)) (r_den (g_sec r)) s ->
  (0 <= d)%Q -> (0 <= m)%Q -> (0 <= s)%Q ->
  exists t deg min, gps_to_xmp r ref = Ok t /\ gps_text t deg min ref /\ (0 <= min <= 60)%Q
    /\ (Qabs (inject_Z deg + min / 60 - (d + m / 60 + s / 3600)) <= 1 # 1200000000)%Q.
Proof.
  intros R D M S D0 M0 S0. unfold gps_to_xmp. destruct (String.eqb_spec ref "") as [|_]; [contradiction|].
  pose proof D as [D1 _]. pose proof M as [M1 _]. pose proof S as [S1 _]. destruct (Z.eqb_spec (r_den (g_deg r)) 0) as [|_]; [contradiction|]. destruct (Z.eqb_spec (r_den (g_min r)) 0) as [|_]; [contradiction|].
  destruct (Z.eqb_spec (r_den (g_sec r)) 0) as [|_]; [contradiction|]. cbn [orb]. cbv zeta. apply frac_of_fraction in D, M, S.
  set (t0 := (frac_of (g_deg r) * 60 + frac_of (g_min r) + frac_of (g_sec r) / 60)%Q). assert (T : (t0 == d * 60 + m + s / 60)%Q) by (unfold t0; now rewrite D, M, S). clearbody t0.
  pose proof (over_60 s) as O1. pose proof (over_60 m) as O2. pose proof (over_3600 s) as O3. pose proof (over_60 t0) as O4.
  assert (T0 : (0 <= t0)%Q) by lra. set (i := qtrunc (t0 / 60)). pose proof (qtrunc_pos (t0 / 60) ltac:(lra)) as [I1 I2]. fold i in I1, I2.
  assert (I0 : (0 <= i)%Z). { unfold i. rewrite qtrunc_floor by lra. change 0%Z with (Qfloor 0). apply Qfloor_resp_le. lra. } clearbody i.
  set (x := (t0 - inject_Z i * 60)%Q). assert (X : (0 <= x < 60)%Q) by (unfold x; lra).
  set (w := round_even (x * inject_Z (pow10 7))). pose proof (round_even_near (x * inject_Z (pow10 7))) as W. fold w in W. apply Qabs_Qle_condition in W. change (inject_Z (pow10 7)) with 10000000%Q in W.
  assert (W0 : (0 <= w)%Z) by (apply round_even_nonneg; change (inject_Z (pow10 7)) with 10000000%Q; lra). clearbody w.
  assert (V : (dec_q w 7 == inject_Z w / 10000000)%Q) by (rewrite dec_q_eq; reflexivity).
  eexists _, i, (dec_q w 7). split; [reflexivity|]. split; [exists (itoa i), (format_dec w 7); split; [now apply numeral_itoa|]; split; [apply format_dec_decimal|reflexivity]|].
  assert (WQ : (0 <= inject_Z w)%Q) by (change 0%Q with (inject_Z 0); rewrite <- Zle_Qle; exact W0).
  assert (W60 : (w <= 600000000)%Z). { assert (inject_Z w < inject_Z 600000001)%Q by (change (inject_Z 600000001) with 600000001%Q; lra). rewrite <- Zlt_Qlt in H. lia. }
  assert (WQ2 : (inject_Z w <= 600000000)%Q) by (change 600000000%Q with (inject_Z 600000000); rewrite <- Zle_Qle; exact W60).
  assert (V' : (dec_q w 7 == inject_Z w * (1 # 10000000))%Q) by (rewrite V; field). pose proof (over_60 (dec_q w 7)) as O5.
  split; [lra|]. apply Qabs_Qle_condition. unfold x in W. split; lra.
Qed.
Print Assumptions C120_write_partial.
Example C120_hyps : gps_unmarshal (Gps (Rat 0 0) (Rat 0 0) (Rat 0 0)) "-33.8568" = Ok (Gps (Rat 33 1) (Rat 51 1) (Rat 612 25))
  /\ gps_to_xmp (Gps (Rat 33 1) (Rat 51 1) (Rat 612 25)) "S" = Ok "33,51.4080000S" /\ short_decimal "-33.8568" /\ short_decimal "151.2".
Proof.
  split; [vm_compute; reflexivity|]. split; [vm_compute; reflexivity|]. split; [left; now exists "33.8568"|right; exists "151", ".2"].
  split; [reflexivity|]. split; [reflexivity|]. split; [cbn; lia|right; now exists "2"].
Qed.

(* The sign is dropped. *)
Theorem C120_sign_refuted odd i z f : numeral i z -> String.length i <= 3 -> f = "" \/ (exists d n, f = "." ++ d /\ numeral d n) ->
  gps_unmarshal odd ("-" ++ i ++ f) = gps_unmarshal odd (i ++ f).
Proof.
  intros I L F. assert (F' : f = "" \/ exists d, f = "." ++ d) by (destruct F as [|(d & n & H & _)]; eauto).
  assert (S : short_decimal (i ++ f)) by (right; exists i, f; split; [reflexivity|]; split; [eapply numeral_no_char; eauto|split; assumption]).
  assert (S2 : short_decimal ("-" ++ i ++ f)) by (left; eauto). pose proof (short_test _ S) as T. pose proof (short_test _ S2) as T2.
  assert (H : has_digit (i ++ f) = true) by (rewrite has_digit_app, (numeral_has_digit i z I); reflexivity).
  unfold gps_unmarshal. rewrite T, T2. rewrite !parse_float_digits by (exact H || (rewrite has_digit_app, H; reflexivity)). unfold parse_dec.
  rewrite (sign_of_signed "-" (-1) i f) by (constructor || (eapply numeral_head; eauto)). pose proof (sign_of_signed "" 1 i f no_sign ltac:(eapply numeral_head; eauto)) as G. cbn [append] in G. rewrite G. cbn [Z.ltb Z.compare].
  destruct (span_digits (i ++ f)) as [a b]. destruct (match b with String "." r => span_digits r | _ => ("", b) end) as [f0 s3]. destruct (parse_digits (a ++ f0)) as [n|]; [|reflexivity]. destruct (exponent s3) as [e|]; [|reflexivity].
  unfold shift. cbv zeta. destruct (Z.of_nat (String.length f0) - e <? 0)%Z; unfold dec_q, Qabs; rewrite ?Z.mul_opp_l, Z.abs_opp; reflexivity.
Qed.
Print Assumptions C120_sign_refuted.
(* Minutes can be written as 60; degrees beyond 360 and even NaN are accepted. *)
Theorem C120_minutes_refuted : gps_to_xmp (Gps (Rat 12 1) (Rat 59 1) (Rat 5999999999 100000000)) "N" = Ok "12,60.0000000N".
Proof. vm_compute. reflexivity. Qed.
Print Assumptions C120_minutes_refuted.
Theorem C120_range_refuted odd : gps_unmarshal odd "-1234.5" = Ok (Gps (Rat 1234 1) (Rat 30 1) (Rat 0 1)) /\ gps_unmarshal odd "NaN" = Ok odd.
Proof. vm_compute. split; reflexivity. Qed.
Print Assumptions C120_range_refuted.

(* ---- C121: GPS times ------------------------------------------------------------------------------------------ *)

Theorem C121_time_partial date h m s qh qm qs : fraction (r_num h) (r_den h) qh -> fraction (r_num m) (r_den m) qm -> fraction (r_num s) (r_den s) qs ->
  (0 <= qh)%Q -> (0 <= qm)%Q -> (0 <= qs)%Q ->
  exists n, gps_timestamp (Some date) [h; m; s] = Some (date + n)%Z /\ (inject_Z n <= (qh * 3600 + qm * 60 + qs) * 1000000000 < inject_Z n + 3)%Q.
Proof.
  intros H M S H0 M0 S0. apply frac_of_fraction in H, M, S. exists (gps_time 0 [h; m; s]). split; [reflexivity|]. cbn [gps_time]. rewrite !inject_Z_plus. change (inject_Z 0) with 0%Q.
  pose proof (qtrunc_pos (frac_of h * 3600000000000) ltac:(lra)). pose proof (qtrunc_pos (frac_of m * 60000000000) ltac:(lra)). pose proof (qtrunc_pos (frac_of s * 1000000000) ltac:(lra)). lra.
Qed.
Print Assumptions C121_time_partial.
(* whole numbers are exact *)
Theorem C121_whole_partial date h m s : gps_timestamp (Some date) [Rat h 1; Rat m 1; Rat s 1] = Some (date + (h * 3600 + m * 60 + s) * 1000000000)%Z.
Proof.
  unfold gps_timestamp. f_equal. f_equal. cbn [gps_time]. unfold frac_of, rat_value. cbn [r_num r_den]. change (1 =? 0)%Z with false. cbv iota. change (Z.sgn 1) with 1%Z. change (Z.to_pos (Z.abs 1)) with 1%positive.
  unfold qtrunc. cbn [Qmult Qnum Qden]. change (1 * 1)%positive with 1%positive. rewrite !Z.quot_1_r. lia.
Qed.
Print Assumptions C121_whole_partial.
Example C121_hyps : gps_timestamp (Some 0%Z) [Rat 13 1; Rat 5 1; Rat 615 10] = Some ((13 * 3600 + 5 * 60) * 1000000000 + 61500000000)%Z.
Proof. vm_compute. reflexivity. Qed.
(* A component that is not set counts as one hour, minute or second; without a date there is no time. *)
Theorem C121_unset_refuted date n : gps_timestamp (Some date) [Rat n 0; Rat 0 1; Rat 0 1] = Some (date + 3600000000000)%Z.
Proof. reflexivity. Qed.
Print Assumptions C121_unset_refuted.
Theorem C121_no_date x : gps_timestamp None x = None.
Proof. reflexivity. Qed.
Print Assumptions C121_no_date.
