From Coq Require Import List Arith NArith ZArith Bool Ascii String Lia.
From Verif Require Import GoStr GoStrFacts Spec SpecFacts SpecReader ReaderFacts CodecM SpecCodec.
Import ListNotations.
Local Open Scope string_scope.

(* ---- scanning ---- *)
Definition no_digit_head (t : string) : Prop := match t with "" => True | String c _ => is_digit c = false end.

Lemma span_digits_app d t : all_digits d = true -> no_digit_head t -> span_digits (d ++ t) = (d, t).
Proof.
  induction d as [|c d IH]; cbn [append all_digits]; intros H Ht.
  - destruct t as [|x t]; [reflexivity|]. cbn [span_digits]. cbn in Ht. unfold is_digit in Ht. now destruct (digit_val x).
  - apply andb_prop in H as [Hc H]. cbn [span_digits]. rewrite IH by auto. unfold is_digit in Hc. now destruct (digit_val c).
Qed.
Lemma digit_not_sign c : is_digit c = true -> c <> "-"%char /\ c <> "+"%char /\ is_space c = false.
Proof. destruct c as [[] [] [] [] [] [] [] []]; vm_compute; intros; try congruence; repeat split; congruence. Qed.

Lemma scan_int_digits s t z : match s with String c _ => is_digit c = true | "" => False end ->
  all_digits s = true -> no_digit_head t -> parse_int 64 s = Some z -> scan_int (s ++ t) = Some (z, t).
Proof.
  intros Hh Hd Ht Hz. destruct s as [|c s]; [contradiction|].
  destruct (digit_not_sign c Hh) as (N1 & N2 & N3).
  unfold scan_int. cbn [append skip_blank]. rewrite N3. cbn [andb].
  assert (E : match String c (s ++ t) with
              | String "-" r => ("-", r) | String "+" r => ("+", r) | _ => ("", String c (s ++ t)) end = ("", String c (s ++ t))).
  { destruct c as [[] [] [] [] [] [] [] []]; try reflexivity; congruence. }
  rewrite E. change (String c (s ++ t)) with (String c s ++ t). rewrite span_digits_app by auto. cbn [append]. now rewrite Hz.
Qed.
Lemma scan_int_itoa z t : int64 z -> no_digit_head t -> scan_int (itoa z ++ t) = Some (z, t).
Proof.
  intros Hz Ht. pose proof (parse_int_itoa 64 z Hz) as P. rewrite itoa_utoa in *. destruct (z <? 0)%Z.
  - unfold scan_int. cbn [append skip_blank is_space nat_of_ascii]. change (is_space "-") with false. cbn [andb].
    cbv iota beta. rewrite span_digits_app by (auto using utoa_digits). cbn [append]. now rewrite P.
  - apply scan_int_digits; [apply utoa_head|apply utoa_digits|exact Ht|exact P].
Qed.
Lemma scan_int_itoa_end z : int64 z -> scan_int (itoa z) = Some (z, "").
Proof. intros H. rewrite <- (app_nil_r (itoa z)) at 1. apply scan_int_itoa; cbn; auto. Qed.

Lemma itoa_head z : match itoa z with String c _ => is_space c = false | "" => False end.
Proof.
  rewrite itoa_utoa. destruct (z <? 0)%Z; [reflexivity|]. pose proof (utoa_head (Z.to_N z)) as H.
  destruct (utoa (Z.to_N z)); [contradiction|]. now apply digit_not_sign in H.
Qed.
Lemma skip_blank_itoa z t : skip_blank (itoa z ++ t) = itoa z ++ t.
Proof. pose proof (itoa_head z) as H. destruct (itoa z); [contradiction|]. cbn [append skip_blank]. now rewrite H. Qed.

Lemma sscanf2_lit c a b : int64 a -> int64 b -> is_digit c = false -> sscanf2 (scan_lit c) (itoa a ++ String c (itoa b)) = Some (a, b).
Proof.
  intros Ha Hb Hc. unfold sscanf2. rewrite scan_int_itoa by auto. unfold scan_lit. rewrite Ascii.eqb_refl.
  now rewrite scan_int_itoa_end.
Qed.

Lemma contains_itoa c z t : is_digit c = false -> Ascii.eqb c "-" = false ->
  contains (String c "") (itoa z ++ t) = has_char c t.
Proof. intros H1 H2. rewrite contains_single, has_char_app, itoa_no_char by auto. reflexivity. Qed.

Lemma word64_int64 z : word64 z <-> int64 z.
Proof. unfold word64, int64, int_ok. cbn [Z.sub Z.opp Z.add Z.pos_sub Pos.pred_double]. tauto. Qed.

(* ---- leading zeros ---- *)
Lemma digits_acc_zeros k s : digits_acc 0 (zeros k ++ s) = digits_acc 0 s.
Proof. induction k; cbn [zeros append digits_acc]; [reflexivity|]. exact IHk. Qed.
Lemma numeral_parse_digits s z : numeral s z -> parse_digits s = Some (Z.to_N z).
Proof.
  intros [Hz [k ->]]. assert (E : itoa z = utoa (Z.to_N z)).
  { rewrite itoa_utoa. destruct (Z.ltb_spec z 0); [lia|reflexivity]. }
  rewrite E. pose proof (parse_digits_utoa (Z.to_N z)) as P. pose proof (utoa_head (Z.to_N z)) as H.
  destruct k as [|k]; [exact P|]. cbn [zeros append parse_digits digits_acc].
  change (digit_val "0") with (Some 0%N). cbv iota beta. change (0 * 10 + 0)%N with 0%N. rewrite digits_acc_zeros.
  destruct (utoa (Z.to_N z)); [contradiction|]. exact P.
Qed.
Lemma numeral_head s z : numeral s z -> match s with String c _ => is_digit c = true | "" => False end.
Proof.
  intros [Hz [k ->]]. destruct k; [|reflexivity]. cbn [zeros append]. rewrite itoa_utoa. destruct (Z.ltb_spec z 0); [lia|apply utoa_head].
Qed.
Lemma numeral_digits s z : numeral s z -> all_digits s = true.
Proof.
  intros [Hz [k ->]]. induction k; cbn [zeros append all_digits]; [|exact IHk].
  rewrite itoa_utoa. destruct (Z.ltb_spec z 0); [lia|apply utoa_digits].
Qed.
Lemma numeral_parse_int bits s z : numeral s z -> parse_int bits s = int_chk bits z.
Proof.
  intros H. rewrite parse_int_digits by (eapply numeral_head; eauto). rewrite (numeral_parse_digits s z H).
  destruct H as [H _]. now rewrite Z2N.id.
Qed.
Lemma numeral_parse_int_ok bits s z : numeral s z -> int_ok bits z -> parse_int bits s = Some z.
Proof. intros H1 H2. rewrite (numeral_parse_int bits s z H1). now apply int_chk_ok. Qed.
Lemma numeral_no_char c s z : numeral s z -> is_digit c = false -> has_char c s = false.
Proof. intros H. apply all_digits_no_char. eapply numeral_digits; eauto. Qed.
Lemma numeral_itoa z : (0 <= z)%Z -> numeral (itoa z) z.
Proof. intros H. split; auto. now exists 0. Qed.

(* ---- C45 ---- *)
Lemma bool_rt x : round_trips bool_marshal bool_unmarshal x.
Proof. intros old. now destruct x. Qed.
Lemma null_bool_rt x : round_trips null_bool_marshal null_bool_unmarshal x.
Proof. intros old. now destruct x. Qed.
Lemma itoa_not_null z : null_number (itoa z) = false.
Proof.
  unfold null_number. rewrite itoa_utoa. pose proof (utoa_head (Z.to_N (- z))) as H1. pose proof (utoa_head (Z.to_N z)) as H2.
  destruct (z <? 0)%Z.
  - destruct (utoa (Z.to_N (- z))) as [|c s]; [contradiction|]. destruct c as [[] [] [] [] [] [] [] []]; try discriminate H1; reflexivity.
  - destruct (utoa (Z.to_N z)) as [|c s]; [contradiction|]. destruct c as [[] [] [] [] [] [] [] []]; try discriminate H2; reflexivity.
Qed.
Lemma null_int_rt x : word64 x -> round_trips null_int_marshal null_int_unmarshal x.
Proof.
  intros H old. unfold null_int_unmarshal, null_int_marshal. rewrite itoa_not_null, parse_int_itoa by (now apply word64_int64). reflexivity.
Qed.
Lemma emptyb_itoa_app z t : emptyb (itoa z ++ t) = false.
Proof. pose proof (itoa_nonempty z). now destruct (itoa z). Qed.
Lemma rat_rt fl x : word64 (r_num x) -> word64 (r_den x) -> round_trips rat_marshal (rat_unmarshal fl) x.
Proof.
  intros H1 H2 old. apply word64_int64 in H1, H2. unfold rat_unmarshal, rat_marshal. rewrite emptyb_itoa_app.
  rewrite contains_itoa by reflexivity. cbn [append has_char]. rewrite (itoa_no_char "." (r_den x)) by reflexivity. cbn [Ascii.eqb Bool.eqb orb].
  rewrite contains_itoa by reflexivity. cbn [append has_char]. cbn [Ascii.eqb Bool.eqb orb].
  rewrite sscanf2_lit by auto. destruct x; reflexivity.
Qed.
Lemma null_string_rt x : trim_space x = x -> x <> "-" -> x <> "--" -> x <> "unknown" ->
  null_string_unmarshal "" (null_string_marshal x) = Ok x.
Proof.
  intros E H1 H2 H3. unfold null_string_unmarshal, null_string_marshal. cbn [emptyb negb]. rewrite E.
  destruct (String.eqb_spec x ""); [now subst|]. rewrite !(proj2 (String.eqb_neq _ _)) by auto. reflexivity.
Qed.

(* ---- C46 ---- *)
Lemma split_int_decimal s z old : numeral s z -> (z < 2 ^ 31)%Z -> split_int_unmarshal old s = Ok z.
Proof.
  intros H L. unfold split_int_unmarshal.
  assert (N : null_number s = false).
  { pose proof (numeral_head s z H) as Hh. destruct s as [|c s]; [contradiction|].
    unfold null_number. destruct c as [[] [] [] [] [] [] [] []]; try discriminate Hh; reflexivity. }
  rewrite N. rewrite (numeral_parse_int_ok 32 s z H) by (destruct H; unfold int_ok; lia).
  destruct H as [H _]. unfold u32. rewrite Z.mod_small by lia. reflexivity.
Qed.
Lemma split_char4 c a b d e : has_char c a = false -> has_char c b = false -> has_char c d = false -> has_char c e = false ->
  split_char c (a ++ String c (b ++ String c (d ++ String c e))) = [a; b; d; e].
Proof.
  intros Ha Hb Hd He. rewrite !split_char_app by auto. rewrite (split_char_none c e He). reflexivity.
Qed.
Lemma parse_int_none_char bits c s : has_char c s = true -> is_digit c = false -> Ascii.eqb c "-" = false -> Ascii.eqb c "+" = false ->
  parse_int bits s = None.
Proof.
  intros H D M P. destruct (parse_int bits s) eqn:E; [|reflexivity]. exfalso.
  assert (X : forall t n, parse_digits t = Some n -> has_char c t = false).
  { intros t n Ht. apply all_digits_no_char; auto. destruct t; [discriminate|]. unfold parse_digits in Ht. revert Ht.
    generalize 0%N. generalize (String a t). clear. intros s. induction s as [|x s IH]; intros n0; cbn [digits_acc all_digits]; [reflexivity|].
    unfold is_digit. destruct (digit_val x); [|discriminate]. cbn. apply IH. }
  unfold parse_int in E. destruct s as [|d s]; [discriminate|].
  cbn [has_char] in H.
  destruct (Ascii.eqb_spec d "-") as [->|n1].
  { destruct (parse_digits s) eqn:F; [|discriminate]. apply X in F. rewrite F, M in H. discriminate. }
  destruct (Ascii.eqb_spec d "+") as [->|n2].
  { destruct (parse_digits s) eqn:F; [|discriminate]. apply X in F. rewrite F, P in H. discriminate. }
  assert (E' : match parse_digits (String d s) with Some n => int_chk bits (Z.of_N n) | None => None end = Some z).
  { destruct d as [[] [] [] [] [] [] [] []]; try exact E; congruence. }
  destruct (parse_digits (String d s)) eqn:F; [|discriminate]. apply X in F. cbn [has_char] in F. congruence.
Qed.
Lemma shift_add_small u v i p : (2 ^ ((3 - i) * 8) = p)%Z -> (0 <= u)%Z -> (0 <= v)%Z -> (1 <= p)%Z -> (u + v * p < 4294967296)%Z ->
  shift_add u v i = (u + v * p)%Z.
Proof.
  intros E Hu Hv Hp H. unfold shift_add, u32. rewrite E. change (2 ^ 32)%Z with 4294967296%Z.
  rewrite (Z.mod_small v) by nia. rewrite (Z.mod_small (v * p)) by nia. now rewrite Z.mod_small by nia.
Qed.
Definition bytes_text (a b c d : string) : string := a ++ ":" ++ b ++ ":" ++ c ++ ":" ++ d.
Lemma split_int_bytes a b c d x3 x2 x1 x0 old : numeral a x3 -> numeral b x2 -> numeral c x1 -> numeral d x0 ->
  (x3 < 128)%Z -> (x2 < 128)%Z -> (x1 < 128)%Z -> (x0 < 128)%Z ->
  split_int_unmarshal old (bytes_text a b c d) = Ok (x3 * 2 ^ 24 + x2 * 2 ^ 16 + x1 * 2 ^ 8 + x0)%Z.
Proof.
  intros Ha Hb Hc Hd L3 L2 L1 L0. unfold split_int_unmarshal, bytes_text. cbn [append].
  assert (N : null_number (a ++ String ":" (b ++ String ":" (c ++ String ":" d))) = false).
  { pose proof (numeral_head _ _ Ha) as Hh. destruct a as [|x a]; [contradiction|]. unfold null_number. cbn [append].
    destruct x as [[] [] [] [] [] [] [] []]; try discriminate Hh; reflexivity. }
  rewrite N. rewrite (parse_int_none_char 32 ":") by (try reflexivity; rewrite has_char_app; cbn [has_char]; rewrite Ascii.eqb_refl; apply orb_true_r).
  rewrite split_char4 by (eapply numeral_no_char; eauto).
  rewrite (numeral_parse_int_ok 8 a x3), (numeral_parse_int_ok 8 b x2), (numeral_parse_int_ok 8 c x1), (numeral_parse_int_ok 8 d x0) by
    (auto; unfold int_ok; destruct Ha, Hb, Hc, Hd; lia).
  destruct Ha as [Ha _], Hb as [Hb _], Hc as [Hc _], Hd as [Hd _].
  rewrite (shift_add_small 0 x3 0 16777216), (shift_add_small _ x2 1 65536), (shift_add_small _ x1 2 256),
    (shift_add_small _ x0 3 1) by (reflexivity || lia).
  change (2 ^ 24)%Z with 16777216%Z. change (2 ^ 16)%Z with 65536%Z. change (2 ^ 8)%Z with 256%Z. f_equal. lia.
Qed.

(* ---- C47 ---- *)
Lemma issuer_none g : lacks ":" g -> guid_issuer g = "".
Proof.
  intros H. unfold guid_issuer. apply lacks_char, last_index_char_none in H. now rewrite H.
Qed.
Lemma issuer_some a b : lacks ":" b -> guid_issuer (a ++ ":" ++ b) = a.
Proof.
  intros H. apply lacks_char in H. unfold guid_issuer. cbn [append]. rewrite last_index_char_app by auto. apply stake_app.
Qed.
Lemma issuer_cases g : lacks ":" g \/ exists a b, g = a ++ ":" ++ b /\ lacks ":" b.
Proof.
  destruct (last_index_char ":" g) as [i|] eqn:E.
  - right. apply last_index_char_some in E as (a & b & -> & H & _). exists a, b. split; auto. now apply lacks_char.
  - left. apply lacks_char, last_index_char_none, E.
Qed.

(* ---- C48 ---- *)
Lemma get_app a b n : String.get (String.length a + n) (a ++ b) = String.get n b.
Proof. induction a; cbn; auto. Qed.
Lemma byte_at_app a b k : k = String.length a -> forall n, byte_at (a ++ b) (k + n) = byte_at b n.
Proof. intros -> n. unfold byte_at. now rewrite get_app. Qed.
Lemma get_has n s c : String.get n s = Some c -> has_char c s = true.
Proof.
  revert n. induction s as [|x s IH]; intros [|n] H; cbn in *; try discriminate.
  - injection H as ->. now rewrite Ascii.eqb_refl.
  - rewrite (IH n H). apply orb_true_r.
Qed.
(* six harmless bytes in front of a zone *)
Definition harmless (t : string) : Prop := has_char "+" t = false /\ has_char "-" t = false /\ has_char "Z" t = false.
Lemma harmless_byte t n : harmless t -> zone_sign (byte_at t n) = false.
Proof.
  intros (H1 & H2 & H3). unfold byte_at. destruct (String.get n t) as [c|] eqn:E; [|reflexivity].
  apply get_has in E. unfold zone_sign.
  destruct (Ascii.eqb_spec c "+"); [congruence|]. destruct (Ascii.eqb_spec c "-"); [congruence|].
  destruct (Ascii.eqb_spec c "Z"); [congruence|]. reflexivity.
Qed.
Lemma str6 t : String.length t = 6 -> exists a b c d e f, t = String a (String b (String c (String d (String e (String f ""))))).
Proof.
  intros H. do 6 (destruct t as [|? t]; [discriminate|]). destruct t; [|discriminate]. now exists a, a0, a1, a2, a3, a4.
Qed.
Lemma stake_app_plus q w k : stake (String.length q + k) (q ++ w) = q ++ stake k w.
Proof. induction q; cbn; [reflexivity|now f_equal]. Qed.
Lemma sdrop_app_plus q w k : sdrop (String.length q + k) (q ++ w) = sdrop k w.
Proof. induction q; cbn; auto. Qed.
(* repairTZ looks at the last six bytes only *)
Definition repair_tail (w : string) : string :=
  let l := String.length w in
  if zone_sign (byte_at w (l - 5)) then stake (l - 4) w ++ "0" ++ sdrop (l - 4) w
  else if zone_sign (byte_at w (l - 2)) then stake (l - 1) w ++ "0" ++ sdrop (l - 1) w ++ ":00"
  else if zone_sign (byte_at w (l - 6)) && negb (contains ":" (sdrop (l - 6) w))
       then stake (l - 5) w ++ sdrop (l - 4) w
  else w.
Lemma repair_tail_spec q w : 6 <= String.length w -> 20 <= String.length q + String.length w -> illegal_zero (q ++ w) = false ->
  repair_tz (q ++ w) = q ++ repair_tail w.
Proof.
  intros L6 L20 Hi. unfold repair_tz. rewrite Hi. rewrite length_app.
  destruct (Nat.ltb_spec (String.length q + String.length w) 20) as [C|_]; [lia|].
  unfold repair_tail. set (n := String.length w) in *.
  replace (String.length q + n - 5) with (String.length q + (n - 5)) by lia.
  replace (String.length q + n - 2) with (String.length q + (n - 2)) by lia.
  replace (String.length q + n - 6) with (String.length q + (n - 6)) by lia.
  replace (String.length q + n - 4) with (String.length q + (n - 4)) by lia.
  replace (String.length q + n - 1) with (String.length q + (n - 1)) by lia.
  rewrite !(byte_at_app q w _ eq_refl), !stake_app_plus, !sdrop_app_plus.
  destruct (zone_sign _); [now rewrite !app_assoc|]. destruct (zone_sign _); [now rewrite !app_assoc|].
  destruct (zone_sign _ && _); now rewrite ?app_assoc.
Qed.
Lemma illegal_long v : illegal_zero v = true -> v = "--" \/ v = "00/00/00T00:00:00+00:00".
Proof. unfold illegal_zero. intros H. apply orb_prop in H as [H|H]; apply String.eqb_eq in H; auto. Qed.

Lemma local_time_tail p : local_time p -> exists q t, p = q ++ t /\ String.length t = 6 /\ 12 <= String.length q /\ harmless t.
Proof. intros (q & t & -> & H1 & H2 & H3 & H4 & H5). exists q, t. repeat split; auto; now apply lacks_char. Qed.

Lemma digit_cases c n : digit c n -> is_digit c = true /\ zone_sign c = false /\ Ascii.eqb ":" c = false.
Proof.
  intros [H ->]. assert (E : (n = 0 \/ n = 1 \/ n = 2 \/ n = 3 \/ n = 4 \/ n = 5 \/ n = 6 \/ n = 7 \/ n = 8 \/ n = 9)%Z) by lia.
  repeat (destruct E as [->|E]; [vm_compute; auto|]). subst. vm_compute; auto.
Qed.
Lemma sign_cases c n : sign c n -> zone_sign c = true /\ Ascii.eqb ":" c = false.
Proof. intros [[-> _]|[-> _]]; auto. Qed.

Lemma illegal_local p z n : local_time p -> String.length z = n -> n <= 6 -> illegal_zero (p ++ z) = false.
Proof.
  intros H Hn L. destruct (illegal_zero (p ++ z)) eqn:E; [|reflexivity]. exfalso.
  destruct H as (q & t & -> & H1 & H2 & H3 & H4 & H5).
  apply illegal_long in E as [E|E].
  - apply (f_equal String.length) in E. rewrite !length_app in E. cbn in E. lia.
  - pose proof E as E'. apply (f_equal String.length) in E'. rewrite !length_app in E'. change (String.length "00/00/00T00:00:00+00:00") with 23 in E'.
    rewrite app_assoc in E. change "00/00/00T00:00:00+00:00" with ("00/00/00T00:00:00" ++ "+00:00") in E.
    rewrite <- app_assoc in E.
    destruct (app_cut _ _ _ _ (eq_sym E)) as (e & E1 & E2); [rewrite length_app; change (String.length "00/00/00T00:00:00") with 17; lia|].
    apply lacks_char in H3. assert (X : has_char "+" (q ++ t) = true).
    { rewrite E1. destruct e as [|x e]; [exfalso|].
      - apply (f_equal String.length) in E1. rewrite !length_app in E1. change (String.length "00/00/00T00:00:00") with 17 in E1. cbn in E1. lia.
      - cbn in E2. injection E2 as <- _. reflexivity. }
    (* the sign is the byte 17, within the last six when q has at least 12 bytes *)
    assert (Lq : String.length q <= 17) by lia.
    destruct (app_cut q t "00/00/00T00:00:00" e E1) as (f & F1 & F2); [change (String.length "00/00/00T00:00:00") with 17; lia|].
    rewrite F2 in H3. destruct e as [|x e]; [|cbn in E2; injection E2 as <- _; rewrite has_char_app in H3; cbn in H3; rewrite orb_true_r in H3; discriminate].
    apply (f_equal String.length) in E1. rewrite !length_app in E1. change (String.length "00/00/00T00:00:00") with 17 in E1. cbn in E1. lia.
Qed.

Lemma repair_short_str v : String.length v < 20 -> illegal_zero v = false -> repair_tz v = v.
Proof. intros H Hi. unfold repair_tz. rewrite Hi. now destruct (Nat.ltb_spec (String.length v) 20); [|lia]. Qed.

Lemma harmless6 a b c d e f : harmless (String a (String b (String c (String d (String e (String f "")))))) ->
  zone_sign a = false /\ zone_sign b = false /\ zone_sign c = false /\ zone_sign d = false /\ zone_sign e = false /\ zone_sign f = false.
Proof.
  intros H. repeat split.
  - exact (harmless_byte _ 0 H). - exact (harmless_byte _ 1 H). - exact (harmless_byte _ 2 H).
  - exact (harmless_byte _ 3 H). - exact (harmless_byte _ 4 H). - exact (harmless_byte _ 5 H).
Qed.

Lemma repair_zone p z o : local_time p -> zone z o -> repair_tz (p ++ z) = p ++ z.
Proof.
  intros Hp Hz.
  assert (L : String.length z <= 6) by (destruct Hz; cbn; lia).
  pose proof (illegal_local p z _ Hp eq_refl L) as Hi.
  destruct (local_time_tail p Hp) as (q & t & -> & L6 & L12 & Ht).
  destruct (le_lt_dec 20 (String.length ((q ++ t) ++ z))) as [G|G]; [|now apply repair_short_str].
  rewrite app_assoc in *. rewrite repair_tail_spec by (rewrite ?length_app in *; lia || auto). f_equal.
  destruct (str6 t L6) as (a & b & c & d & e & f & ->). apply harmless6 in Ht as (Ta & Tb & Tc & Td & Te & Tf).
  destruct Hz as [|s x1 x2 x3 x4 ns n1 n2 n3 n4 Hs H1 H2 H3 H4]; unfold repair_tail; cbn [append String.length Nat.sub byte_at String.get];
    unfold byte_at; cbn [String.get].
  - now rewrite Tc, Tf, Tb.
  - apply digit_cases in H1 as (_ & Z1 & _), H2 as (_ & Z2 & C2), H3 as (_ & Z3 & C3), H4 as (_ & Z4 & C4). apply sign_cases in Hs as [Zs Cs].
    rewrite Z1, Z3, Zs. cbn [sdrop]. rewrite contains_single. cbn [has_char]. rewrite Ascii.eqb_refl, !orb_true_r. reflexivity.
Qed.
Lemma repair_zone_short p z o : local_time p -> zone_short z o -> exists z', repair_tz (p ++ z) = p ++ z' /\ zone z' o.
Proof.
  intros Hp Hz.
  assert (L : String.length z <= 6) by (destruct Hz; cbn; lia).
  assert (L2 : 2 <= String.length z) by (destruct Hz; cbn; lia).
  pose proof (illegal_local p z _ Hp eq_refl L) as Hi.
  destruct (local_time_tail p Hp) as (q & t & -> & L6 & L12 & Ht).
  rewrite app_assoc in *.
  destruct (str6 t L6) as (a & b & c & d & e & f & ->). apply harmless6 in Ht as (Ta & Tb & Tc & Td & Te & Tf).
  rewrite repair_tail_spec by (rewrite ?length_app in *; lia || auto).
  assert (D0 : digit "0" 0) by (split; [lia|reflexivity]).
  destruct Hz as [s x2 x3 x4 ns n2 n3 n4 Hs H2 H3 H4|s x2 ns n2 Hs H2].
  - exists (String s (String "0" (String x2 (String ":" (String x3 (String x4 "")))))). split.
    + rewrite app_assoc. f_equal. unfold repair_tail, byte_at. cbn [append String.length Nat.sub String.get]. rewrite (proj1 (sign_cases _ _ Hs)). reflexivity.
    + replace (ns * (60 * n2 + 10 * n3 + n4))%Z with (ns * (60 * (10 * 0 + n2) + 10 * n3 + n4))%Z by lia. now constructor.
  - exists (String s (String "0" (String x2 ":00"))). split.
    + rewrite app_assoc. f_equal. unfold repair_tail, byte_at. cbn [append String.length Nat.sub String.get]. rewrite Td, (proj1 (sign_cases _ _ Hs)). reflexivity.
    + replace (ns * (60 * n2))%Z with (ns * (60 * (10 * 0 + n2) + 10 * 0 + 0))%Z by lia. now constructor.
Qed.
Lemma repair_zone_long p s z o : local_time p -> zone_basic (String s z) o ->
  repair_tz (p ++ String s (String "0" z)) = p ++ String s z /\ repair_tz (p ++ String s z) = p ++ String s (String "0" z).
Proof.
  intros Hp Hz. assert (L : String.length z = 4) by (inversion Hz; subst; reflexivity).
  pose proof (illegal_local p (String s (String "0" z)) _ Hp eq_refl) as Hi. cbn [String.length] in Hi. specialize (Hi ltac:(lia)).
  pose proof (illegal_local p (String s z) _ Hp eq_refl) as Hi'. cbn [String.length] in Hi'. specialize (Hi' ltac:(lia)).
  destruct (local_time_tail p Hp) as (q & t & -> & L6 & L12 & Ht).
  rewrite app_assoc in *. rewrite app_assoc in *. inversion Hz as [s' x1 x2 x3 x4 ns n1 n2 n3 n4 Hs H1 H2 H3 H4 E1 E2]; subst. apply digit_cases in H1 as (_ & Z1 & C1), H2 as (_ & Z2 & C2), H3 as (_ & Z3 & C3), H4 as (_ & Z4 & C4). apply sign_cases in Hs as [Zs Cs].
  destruct (str6 t L6) as (a' & b' & c' & d' & e' & f' & ->). apply harmless6 in Ht as (Ta & Tb & Tc & Td & Te & Tf).
  split; rewrite repair_tail_spec by (rewrite ?length_app in *; cbn [append String.length]; lia || auto); rewrite ?app_assoc; f_equal;
    unfold repair_tail, byte_at; cbn [append String.length Nat.sub String.get sdrop stake].
  - change (zone_sign "0") with false. rewrite Z3, Zs. rewrite contains_single. cbn [has_char]. rewrite Cs, C1, C2, C3, C4. reflexivity.
  - rewrite Zs. reflexivity.
Qed.
