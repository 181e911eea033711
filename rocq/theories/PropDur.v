(* C123-C126: durations, and the JSON forms of the simple types *)
From Coq Require Import List Arith ZArith NArith QArith Bool Ascii String Lia.
From Verif Require Import GoStr GoStrFacts CodecM CodecFacts Spec SpecCodec SpeedM NumM DurM SpecDur DurFacts DurFacts2.
Import ListNotations.
Local Open Scope nat_scope.
Local Open Scope string_scope.

Definition in_quotes (s : string) : string := """" ++ s ++ """".

(* ---- C123 --------------------------------------------------------------------------------------------- *)

(* Every duration of 64 bits is read again from its text and from its JSON form, whatever the variable held. *)
Theorem C123_duration_text : forall d old, is_int64 d ->
  parse_duration (duration_marshal d) = Ok d /\ duration_unmarshal old (duration_marshal d) = Ok d /\ duration_unjson old (duration_json d) = Ok d
  /\ duration_json d = in_quotes (duration_marshal d).
Proof. intros d old H. split; [now apply duration_rt|]. split; [now apply duration_rt|]. split; [now apply duration_json_rt|reflexivity]. Qed.
Print Assumptions C123_duration_text.
(* The text is what the notation with units denotes (SpecDur.v). *)
Theorem C123_duration_notation : forall d, exists sg k l, duration_marshal d = sg ++ parts_text l /\ signed sg k /\ Forall good_part l /\ d = (k * parts_size l)%Z.
Proof. intros d. destruct (text_parts d) as (sg & k & l & E & S & _ & G & V & _). exists sg, k, l. auto. Qed.
Print Assumptions C123_duration_notation.
Example C123_hyps : is_int64 (-9223372036854775808) /\ duration_marshal (-9223372036854775808) = "-2562047h47m16.854775808s"
  /\ duration_marshal 1500000 = "1.5ms" /\ duration_unjson 7 """1.5ms""" = Ok 1500000%Z.
Proof. split; [unfold is_int64; lia|]. repeat split; vm_compute; reflexivity. Qed.

(* ---- C124 --------------------------------------------------------------------------------------------- *)

(* A text of numbers with units, with a sign or without, and with white space anywhere, is read as the sum of the parts. *)
Theorem C124_units_are_read : forall sg k l s old, signed sg k -> l <> [] -> Forall good_part l -> is_int64 (k * parts_size l) ->
  spaced (sg ++ parts_text l) s ->
  parse_duration s = Ok (k * parts_size l)%Z /\ duration_unmarshal old s = Ok (k * parts_size l)%Z.
Proof.
  intros sg k l s old S N G B Sp. unfold is_int64 in B. pose proof (parts_size_nonneg l G).
  assert (P : parse_duration s = Ok (k * parts_size l)%Z) by (apply (parse_parts sg k l s S N G); [intros ->; lia|destruct S; lia|exact Sp]). split; exact P.
Qed.
Print Assumptions C124_units_are_read.
(* A whole number is a number of seconds, in text and in JSON, if these are a duration of 64 bits. *)
Theorem C124_seconds_partial : forall sg k w old, signed sg k -> w <> "" -> digits w -> is_int64 (k * number w * per_second) ->
  parse_duration (sg ++ w) = Ok (k * number w * per_second)%Z /\ duration_unjson old (sg ++ w) = Ok (k * number w * per_second)%Z.
Proof.
  intros sg k w old S N D B. split; [now apply seconds_ok|]. unfold duration_unjson.
  assert (E : exists c r, sg ++ w = String c r /\ Ascii.eqb c quote = false).
  { destruct S; [|do 2 eexists; split; reflexivity..]. destruct w as [|c r]; [congruence|]. exists c, r. split; [reflexivity|]. now destruct (digits_no_quote _ D). }
  destruct E as (c & r & E & Q). rewrite E, Q, <- E. rewrite (parse_int_signed sg k w S N D) by (unfold is_int64, per_second in *; lia). change second with per_second. now rewrite wrap64_same.
Qed.
Print Assumptions C124_seconds_partial.
(* More seconds than a duration can hold are not refused: 300 years are read as a negative duration. *)
Theorem C124_many_seconds_refuted : exists w, w <> "" /\ digits w /\ number w = 9467280000%Z
  /\ (exists d, parse_duration w = Ok d /\ (d < 0)%Z) /\ (exists d, duration_unjson 0 w = Ok d /\ (d < 0)%Z).
Proof.
  exists "9467280000". split; [discriminate|]. split; [cbn; unfold digit; cbn; lia|]. split; [reflexivity|]. split; eexists; (split; [vm_compute; reflexivity|reflexivity]).
Qed.
Print Assumptions C124_many_seconds_refuted.
(* White space is ignored around units only: the same number of seconds with a blank before it is refused. *)
Theorem C124_blank_refuted : parse_duration "10" = Ok (10 * per_second)%Z /\ spaced "10" " 10" /\ parse_duration " 10" = Err "invalid syntax".
Proof.
  split; [reflexivity|]. split; [|vm_compute; reflexivity]. constructor; [cbn; tauto|]. repeat (constructor; [unfold blank; cbn; intros H; lia|]). constructor.
Qed.
Print Assumptions C124_blank_refuted.
Example C124_hyps : let l := [Part "1" None "h" 3600000000000; Part "" (Some "5") "m" 60000000000]%Z in
  Forall good_part l /\ is_int64 (-1 * parts_size l) /\ spaced ("-" ++ parts_text l) "- 1h .5 m" /\ parse_duration "- 1h .5 m" = Ok (-3630000000000)%Z
  /\ digits "0012" /\ parse_duration "-0012" = Ok (-12000000000)%Z.
Proof.
  split.
  { apply Forall_cons; [|apply Forall_cons; [|apply Forall_nil]]; unfold good_part, decimals_of; cbn [whole decimals unit_name unit_size].
    - repeat split; try (cbn; lia); [left; discriminate|cbn; tauto|exists 3600000000000%Z; reflexivity].
    - repeat split; try (cbn; lia); [right; discriminate|cbn; tauto|exists 6000000000%Z; reflexivity]. }
  split; [unfold is_int64; vm_compute; split; discriminate|]. split.
  { change ("-" ++ parts_text _) with "-1h.5m".
    repeat first [constructor; fail | apply SNil | (apply SBlank; [cbn; tauto|]) | (apply SChar; [unfold blank; cbn; intros H; lia|])]. }
  split; [vm_compute; reflexivity|]. split; [cbn; unfold digit; cbn; lia|vm_compute; reflexivity].
Qed.

(* ---- C125 --------------------------------------------------------------------------------------------- *)

(* Truncate gives a multiple of the unit less than one unit away, on the far side of zero; multiples stay. The bound is where
   the floating point quotient is exact enough. *)
Theorem C125_truncate_partial : forall d r, (0 < r)%Z -> (Z.abs d + r <= 2 ^ 53)%Z ->
  (r | truncate d r)%Z /\ (Z.abs d <= Z.abs (truncate d r) < Z.abs d + r)%Z /\ Z.sgn (truncate d r) = Z.sgn d /\ ((r | d)%Z -> truncate d r = d).
Proof.
  intros d r R B. assert (P : is_int64 (Z.abs d + r)) by (unfold is_int64; change (2 ^ 53)%Z with 9007199254740992%Z in B; lia).
  destruct (truncate_away d r R P) as (q & E & A & _ & S). rewrite E. split; [exists q; reflexivity|]. split; [exact A|]. split; [exact S|].
  intros [k ->]. rewrite <- E. apply truncate_exact; [exact R|]. unfold is_int64 in *. lia.
Qed.
Print Assumptions C125_truncate_partial.
(* The numbers of days, hours, minutes, seconds and milliseconds are those that are begun. *)
Theorem C125_begun_partial : forall d f u, In (f, u) [(round_to_days, 86400 * per_second); (round_to_hours, 3600 * per_second); (round_to_minutes, 60 * per_second);
    (round_to_seconds, per_second); (round_to_millisecond, 1000000)]%Z -> (Z.abs d + u <= 2 ^ 53)%Z ->
  (Z.abs d <= Z.abs (f d) * u < Z.abs d + u)%Z /\ Z.sgn (f d) = Z.sgn d.
Proof.
  intros d f u H B. assert (P : (0 < u)%Z -> is_int64 (Z.abs d + u)) by (unfold is_int64; change (2 ^ 53)%Z with 9007199254740992%Z in B; lia).
  unfold per_second in H. cbn [In] in H.
  repeat (destruct H as [H|H]; [injection H as <- <-; apply round_away; [lia|apply P; lia]|]). contradiction.
Qed.
Print Assumptions C125_begun_partial.
(* So Truncate does not truncate, and RoundTo does not round to the nearest. *)
Theorem C125_truncate_refuted : forall d r, (0 < r)%Z -> (Z.abs d + r <= 2 ^ 53)%Z -> ~ (r | d)%Z -> (Z.abs d < Z.abs (truncate d r))%Z.
Proof.
  intros d r R B N. destruct (C125_truncate_partial d r R B) as (Dv & A & S & _). destruct (Z.eq_dec (Z.abs d) (Z.abs (truncate d r))) as [E|E]; [|lia].
  exfalso. apply N. assert (T : truncate d r = d) by lia. now rewrite T in Dv.
Qed.
Print Assumptions C125_truncate_refuted.
Theorem C125_nearest_refuted : round_to_hours per_second = 1%Z /\ round_to_days (3600 * per_second) = 1%Z /\ round_to_seconds 1 = 1%Z.
Proof. repeat split; vm_compute; reflexivity. Qed.
Print Assumptions C125_nearest_refuted.
Example C125_hyps : (Z.abs (-5400000000000) + 3600000000000 <= 2 ^ 53)%Z /\ truncate (-5400000000000) 3600000000000 = (-7200000000000)%Z
  /\ ~ (3600000000000 | -5400000000000)%Z.
Proof. split; [vm_compute; discriminate|]. split; [vm_compute; reflexivity|]. intros [q E]. lia. Qed.

(* ---- C126 --------------------------------------------------------------------------------------------- *)

(* Integers and truth values are read again from their JSON form, and from the same text as JSON string. *)
Theorem C126_json_numbers : forall x old, is_int64 x ->
  null_int_unjson old (null_int_json x) = Ok x /\ null_int_unjson old (in_quotes (null_int_json x)) = Ok x.
Proof.
  intros x old H. assert (W : word64 x) by (unfold word64, is_int64 in *; lia). pose proof (null_int_rt x W old) as R. unfold null_int_marshal in R.
  unfold null_int_json, null_int_marshal. split.
  - unfold null_int_unjson. pose proof (itoa_no_quote x) as Q. destruct (itoa x) as [|c r] eqn:E; [now apply itoa_nonempty in E|]. destruct Q as [-> _]. exact R.
  - unfold null_int_unjson, in_quotes. cbn [String.append]. change (Ascii.eqb """" quote) with true. cbn iota.
    change (String """" (itoa x ++ """")) with (String quote (itoa x ++ String quote "")). rewrite trim_quoted by apply itoa_no_quote. exact R.
Qed.
Print Assumptions C126_json_numbers.
Theorem C126_json_truth : forall x old, null_bool_unjson old (null_bool_json x) = Ok x /\ null_bool_unjson old (in_quotes (null_bool_json x)) = Ok x.
Proof. intros [] []; split; reflexivity. Qed.
Print Assumptions C126_json_truth.
(* The JSON value null is not ignored, as the package encoding/json asks of such methods: it is an error, or false. *)
Theorem C126_null_refuted : forall i d f, null_int_unjson i "null" = Err "invalid syntax" /\ null_bool_unjson true "null" = Ok false
  /\ duration_unjson d "null" = Err "invalid syntax" /\ (exists e, null_float_unjson f "null" = Err e).
Proof. intros i d f. repeat split; try reflexivity. eexists. vm_compute. reflexivity. Qed.
Print Assumptions C126_null_refuted.
(* The empty value in quotes, and the other placeholders, leave the number as it was. *)
Theorem C126_placeholders : forall p i, In p [""; "-"; "--"; "---"; "NaN"; "unknown"] -> null_int_unjson i (in_quotes p) = Ok i.
Proof. intros p i H. cbn [In] in H. repeat (destruct H as [<-|H]; [reflexivity|]). contradiction. Qed.
Print Assumptions C126_placeholders.
Example C126_hyps : is_int64 (-42) /\ null_int_json (-42) = "-42" /\ null_int_unjson 5 """-42""" = Ok (-42)%Z /\ null_bool_json true = "true".
Proof. split; [unfold is_int64; lia|]. repeat split; vm_compute; reflexivity. Qed.
