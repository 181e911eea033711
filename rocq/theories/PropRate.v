(* C134: video frame rates *)
From Coq Require Import List Arith ZArith NArith QArith Qabs Qfield Lqa Bool Ascii String Lia.
From Verif Require Import GoStr Spec CodecM SpecCodec SpeedM NumM SpecNum GoStrFacts CodecFacts NumFacts NumFacts2 PropNum RateM SpecRate RateFacts.
Import ListNotations.
Local Open Scope nat_scope.
Local Open Scope string_scope.

Definition reads_as (inf : Z) (t : string) (q : Q) : Prop := exists v, rate_unmarshal inf t = Ok (RNumber v) /\ (v == q)%Q.

(* the names, whole numbers and ratios are exact *)
Theorem C134_exact_partial inf t q : rate_text t q -> reads_as inf t q.
Proof.
  intros H. unfold reads_as. destruct H as [t C|t C|t z N L|a b n d A B Ln Ld].
  - apply any_case_upper in C. exists (2997 # 100)%Q. split; [|reflexivity]. unfold rate_unmarshal. rewrite C. reflexivity.
  - apply any_case_upper in C. exists 25%Q. split; [|reflexivity]. unfold rate_unmarshal. rewrite C. reflexivity.
  - rewrite rate_digits by (eapply numeral_has_digit; eauto). rewrite (rational_whole inf _ t z N L). eexists. split; [reflexivity|].
    apply value_fraction. split; [lia|]. cbn. ring.
  - rewrite rate_digits by (rewrite has_digit_app, (numeral_has_digit a n A); reflexivity).
    rewrite (rational_ratio inf _ a b n d A B Ln) by apply Ld. eexists. split; [reflexivity|]. apply value_fraction. split; [lia|]. field.
    intros E. unfold Qeq in E. cbn in E. lia.
Qed.
Print Assumptions C134_exact_partial.

(* a decimal number with a unit behind it is exact *)
Theorem C134_unit_partial inf t q u : decimal t q -> rate_unit u -> reads_as inf (t ++ u) q.
Proof.
  intros D U. unfold reads_as. rewrite rate_digits by (rewrite has_digit_app, (decimal_has_digit t q D); reflexivity).
  destruct (unit_not_rational inf (Rat 0 0) t q u D U) as [e ->]. rewrite (strip_unit t q u D U). destruct (decimal_is_dec t q D) as (m & k & -> & E). cbn [rate_of]. eauto.
Qed.
Print Assumptions C134_unit_partial.

(* a decimal number from 1 on is read as a rate near it *)
Theorem C134_decimal_partial inf t q : decimal t q -> contains "." t = true -> (1 <= q)%Q ->
  exists v, rate_unmarshal inf t = Ok (RNumber v) /\ (Qabs (v - q) <= 1 # 20000)%Q /\ ((q <= 2147)%Q -> (Qabs (v - q) <= 1 # 2000000)%Q).
Proof.
  intros D C L. rewrite rate_digits by now apply (decimal_has_digit t q). destruct (rational_decimal inf (Rat 0 0) t q D C) as (f & E & ->).
  assert (F : qlt f 1 = false) by (apply qlt_false; lra). rewrite F. destruct (C119_float f) as (v & V & N1 & N2). destruct (float_to_rational f) as [n d]. cbn [r_num r_den] in V.
  eexists. split; [reflexivity|]. rewrite (value_fraction n d v V), <- E. split; [exact N1|]. intros Q. apply N2. exact Q.
Qed.
Print Assumptions C134_decimal_partial.

Lemma decimal_1 i z d n k q : numeral i z -> numeral d n -> k = String.length d -> (q == inject_Z 1 * (inject_Z z + inject_Z n / inject_Z (10 ^ Z.of_nat k)))%Q -> decimal (i ++ "." ++ d) q.
Proof. intros I D K Q. exists "", 1%Z, i, z, ("." ++ d), n, k. split; [constructor|]. split; [exact I|]. split; [reflexivity|]. split; [right; eauto|exact Q]. Qed.
Example C134_hyps : rate_text "Pal" 25 /\ rate_text "30000/1001" (30000 # 1001) /\ decimal "23.976" (2997 # 125) /\ rate_unit "p fps"
  /\ (exists v, rate_unmarshal 0 "23.976p fps" = Ok (RNumber v) /\ (v == 2997 # 125)%Q) /\ (exists v, rate_unmarshal 0 "59.94" = Ok (RNumber v) /\ (v == 2997 # 50)%Q).
Proof.
  split; [constructor; reflexivity|]. split.
  - change (30000 # 1001)%Q with (inject_Z 30000 / inject_Z 1001)%Q. apply (ratio "30000" "1001"); try lia; split; try lia; exists 0; reflexivity.
  - split; [apply (decimal_1 "23" 23 "976" 976 3); [split; [lia|exists 0; reflexivity]..|reflexivity|reflexivity]|]. split; [cbn; tauto|].
    split; eexists; (split; [vm_compute; reflexivity|reflexivity]).
Qed.

(* Without a unit, every fraction between 20/39 and 1 is read as 1; so are the empty text and every ratio with the denominator 0. *)
Theorem C134_fraction_refuted inf t q : decimal t q -> contains "." t = true -> (20 # 39 < q)%Q -> (q < 1)%Q -> reads_as inf t 1.
Proof.
  intros D C L U. unfold reads_as. rewrite rate_digits by now apply (decimal_has_digit t q). rewrite (C119_fraction_refuted inf (Rat 0 0) t q D C L U). eexists. split; reflexivity.
Qed.
Print Assumptions C134_fraction_refuted.
Theorem C134_empty_refuted inf : reads_as inf "" 1.
Proof. eexists. split; reflexivity. Qed.
Print Assumptions C134_empty_refuted.
Theorem C134_zero_refuted inf a b n : numeral a n -> numeral b 0 -> (n < 2 ^ 63)%Z -> reads_as inf (a ++ "/" ++ b) 1.
Proof.
  intros A B L. unfold reads_as. rewrite rate_digits by (rewrite has_digit_app, (numeral_has_digit a n A); reflexivity).
  rewrite (rational_ratio inf _ a b n 0 A B L) by lia. eexists. split; reflexivity.
Qed.
Print Assumptions C134_zero_refuted.
Example C134_refuted_hyps : decimal "0.75" (3 # 4) /\ numeral "25" 25 /\ numeral "0" 0.
Proof. split; [apply (decimal_1 "0" 0 "75" 75 2); [split; [lia|exists 0; reflexivity]..|reflexivity|reflexivity]|]. split; (split; [lia|exists 0; reflexivity]). Qed.
