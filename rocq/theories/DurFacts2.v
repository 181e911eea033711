(* Facts about durations: the text of a duration is read as the duration *)
From Coq Require Import List Arith ZArith NArith Znumtheory Bool Ascii String Lia.
From Verif Require Import GoStr GoStrFacts CodecM SpeedM NumM DurM SpecDur DurFacts.
Import ListNotations.
Local Open Scope nat_scope.
Local Open Scope string_scope.

Lemma acc_number s : forall a v, digits_acc a s = Some v -> digits s /\ Z.of_N v = (Z.of_N a * 10 ^ Z.of_nat (String.length s) + number s)%Z.
Proof.
  induction s as [|c s IH]; intros a v; cbn [digits_acc digits number String.length].
  - intros E. inversion E. split; [exact I|]. change (10 ^ Z.of_nat 0)%Z with 1%Z. lia.
  - destruct (digit_val c) as [k|] eqn:D; [|discriminate]. intros E. destruct (value_digit c k D) as [Dc ->]. destruct (IH _ _ E) as [Ds V]. split; [now split|].
    rewrite V, Nat2Z.inj_succ, Z.pow_succ_r by lia. rewrite N2Z.inj_add, N2Z.inj_mul, nat_N_Z. change (Z.of_N 10) with 10%Z. ring.
Qed.
Lemma itoa_number z : (0 <= z)%Z -> digits (itoa z) /\ number (itoa z) = z /\ itoa z <> "".
Proof.
  intros H. rewrite itoa_utoa. destruct (Z.ltb_spec z 0); [lia|]. pose proof (parse_digits_utoa (Z.to_N z)) as P. pose proof (utoa_nonempty (Z.to_N z)) as N.
  assert (A : digits_acc 0 (utoa (Z.to_N z)) = Some (Z.to_N z)) by (unfold parse_digits in P; destruct (utoa (Z.to_N z)); [congruence|exact P]).
  destruct (acc_number _ _ _ A) as [D V]. split; [exact D|]. split; [|exact N]. rewrite Z2N.id in V by lia. lia.
Qed.

(* the digits of a fraction *)
Lemma digit_char k : (0 <= k < 10)%Z -> let c := ascii_of_nat (48 + Z.to_nat k) in digit c /\ Z.of_nat (nat_of_ascii c - 48) = k.
Proof. intros H c. assert (E : nat_of_ascii c = 48 + Z.to_nat k) by (apply nat_ascii_embedding; lia). unfold digit. rewrite E. lia. Qed.
Lemma quot10 v n : (0 <= v)%Z -> (Z.quot v 10 / 10 ^ Z.of_nat n = v / 10 ^ Z.of_nat (S n))%Z.
Proof. intros H. rewrite Z.quot_div_nonneg by lia. rewrite Z.div_div by (try apply Z.pow_pos_nonneg; lia). f_equal. rewrite Nat2Z.inj_succ, Z.pow_succ_r by lia. reflexivity. Qed.
Lemma mod10 v n : (0 <= v)%Z -> (v mod 10 ^ Z.of_nat (S n) = (Z.quot v 10 mod 10 ^ Z.of_nat n) * 10 + Z.rem v 10)%Z.
Proof.
  intros H. rewrite Z.quot_div_nonneg, Z.rem_mod_nonneg by lia. rewrite Nat2Z.inj_succ, Z.pow_succ_r by lia.
  rewrite Z.rem_mul_r by (try apply Z.pow_nonzero; try apply Z.pow_pos_nonneg; lia). ring.
Qed.
Lemma frac_printing n : forall v buf, (0 <= v)%Z -> exists w, fmt_frac_loop n v true buf = ((v / 10 ^ Z.of_nat n)%Z, true, w ++ buf)
  /\ digits w /\ String.length w = n /\ number w = (v mod 10 ^ Z.of_nat n)%Z.
Proof.
  induction n as [|n IH]; intros v buf H; cbn [fmt_frac_loop orb].
  - exists "". change (10 ^ Z.of_nat 0)%Z with 1%Z. rewrite Z.div_1_r, Z.mod_1_r. repeat split.
  - pose proof (Z.rem_bound_pos v 10 H ltac:(lia)) as R. destruct (digit_char (Z.rem v 10) R) as [D V]. set (c := ascii_of_nat (48 + Z.to_nat (Z.rem v 10))) in *.
    destruct (IH (Z.quot v 10) (String c buf)) as (w & E & Dw & L & Nw); [apply Z.quot_pos; lia|].
    exists (w ++ String c ""). rewrite E, quot10 by lia. split; [now rewrite app_assoc|]. split; [apply digits_append; cbn; tauto|].
    split; [rewrite length_app; cbn; lia|]. rewrite number_app, mod10 by lia. cbn [number String.length]. change (10 ^ Z.of_nat 0)%Z with 1%Z. change (10 ^ Z.of_nat 1)%Z with 10%Z. rewrite Nw. lia.
Qed.
Lemma frac_quiet n : forall v, (0 <= v)%Z -> exists w, fmt_frac_loop n v false "" = ((v / 10 ^ Z.of_nat n)%Z, negb (emptyb w), w)
  /\ digits w /\ String.length w <= n /\ (number w * 10 ^ Z.of_nat (n - String.length w) = v mod 10 ^ Z.of_nat n)%Z.
Proof.
  induction n as [|n IH]; intros v H; cbn [fmt_frac_loop orb].
  - exists "". change (10 ^ Z.of_nat 0)%Z with 1%Z. rewrite Z.div_1_r, Z.mod_1_r. repeat split. cbn. lia.
  - pose proof (Z.rem_bound_pos v 10 H ltac:(lia)) as R. assert (Q : (0 <= Z.quot v 10)%Z) by (apply Z.quot_pos; lia). destruct (Z.eqb_spec (Z.rem v 10) 0) as [Z0|N0]; cbn [negb].
    + destruct (IH (Z.quot v 10) Q) as (w & E & Dw & L & Nw). exists w. rewrite E, quot10 by lia. split; [reflexivity|]. split; [exact Dw|]. split; [lia|].
      rewrite mod10 by lia. rewrite Z0, <- Nw. replace (S n - String.length w) with (S (n - String.length w)) by lia. rewrite Nat2Z.inj_succ, Z.pow_succ_r by lia. ring.
    + destruct (digit_char (Z.rem v 10) R) as [D V]. set (c := ascii_of_nat (48 + Z.to_nat (Z.rem v 10))) in *.
      destruct (frac_printing n (Z.quot v 10) (String c "") Q) as (w & E & Dw & L & Nw). exists (w ++ String c ""). rewrite E, quot10 by lia.
      split; [f_equal; f_equal; destruct w; reflexivity|]. split; [apply digits_append; cbn; tauto|]. rewrite length_app. cbn [String.length]. split; [lia|].
      replace (S n - (String.length w + 1)) with 0 by lia. change (10 ^ Z.of_nat 0)%Z with 1%Z.
      rewrite number_app, mod10 by lia. cbn [number String.length]. change (10 ^ Z.of_nat 0)%Z with 1%Z. change (10 ^ Z.of_nat 1)%Z with 10%Z. rewrite Nw. lia.
Qed.
(* a number with a fraction and a unit is a part of that size *)
Lemma frac_part n v q frac h u : (0 <= v)%Z -> fmt_frac n v = (q, frac) -> (0 <= h)%Z -> In (u, 10 ^ Z.of_nat n)%Z units ->
  q = (v / 10 ^ Z.of_nat n)%Z /\ exists p, good_part p /\ part_text p = fmt_int h ++ frac ++ u /\ part_size p = (h * 10 ^ Z.of_nat n + v mod 10 ^ Z.of_nat n)%Z.
Proof.
  intros H E Hh U. unfold fmt_frac in E. destruct (frac_quiet n v H) as (w & F & Dw & L & Nw). rewrite F in E. inversion E; subst q frac. split; [reflexivity|].
  destruct (itoa_number h Hh) as (Di & Ni & Ne). unfold fmt_int.
  assert (Dv : (10 ^ Z.of_nat n = 10 ^ Z.of_nat (String.length w) * 10 ^ Z.of_nat (n - String.length w))%Z) by (rewrite <- Z.pow_add_r by lia; f_equal; lia).
  assert (P : (0 < 10 ^ Z.of_nat (String.length w))%Z) by (apply Z.pow_pos_nonneg; lia).
  exists (Part (itoa h) (if negb (emptyb w) then Some w else None) u (10 ^ Z.of_nat n)%Z).
  assert (Dc : decimals_of (Part (itoa h) (if negb (emptyb w) then Some w else None) u (10 ^ Z.of_nat n)%Z) = w) by (unfold decimals_of; cbn [decimals]; destruct w; reflexivity).
  unfold good_part, part_size, part_text. rewrite Dc. cbn [whole unit_name unit_size decimals]. split; [|split].
  - repeat split; auto. exists (10 ^ Z.of_nat (n - String.length w))%Z. rewrite Dv. ring.
  - destruct w; reflexivity.
  - rewrite Ni. f_equal. rewrite <- Nw, Dv. f_equal. rewrite Z.mul_comm, Z.div_mul by lia. reflexivity.
Qed.
Lemma whole_part h u k : (0 <= h)%Z -> In (u, k) units -> exists p, good_part p /\ part_text p = fmt_int h ++ u /\ part_size p = (h * k)%Z.
Proof.
  intros Hh U. destruct (itoa_number h Hh) as (Di & Ni & Ne). exists (Part (itoa h) None u k). unfold good_part, part_size, part_text, decimals_of. cbn [whole unit_name unit_size decimals].
  split; [repeat split; auto; [exists k; change (10 ^ Z.of_nat (String.length ""))%Z with 1%Z; ring]|]. split; [reflexivity|]. rewrite Ni. cbn [number]. lia.
Qed.
Lemma one_part p : parts_text [p] = part_text p /\ parts_size [p] = part_size p.
Proof. split; [reflexivity|]. unfold parts_size. cbn [map fold_right]. lia. Qed.
Lemma two_parts p l t : parts_text l = t -> parts_text (p :: l) = part_text p ++ t.
Proof. intros <-. apply parts_text_cons. Qed.
Lemma text_parts d : exists sg k l, go_duration_string d = sg ++ parts_text l /\ signed sg k /\ l <> [] /\ Forall good_part l /\ (k * parts_size l = d)%Z /\ (k = 1 -> 0 <= d)%Z /\ parts_size l = Z.abs d.
Proof.
  assert (B : exists l, l <> [] /\ Forall good_part l /\ parts_size l = Z.abs d /\ go_duration_string d = (if (d <? 0)%Z then "-" else "") ++ parts_text l).
  { unfold go_duration_string. assert (An : (0 <= Z.abs d)%Z) by lia. set (u := Z.abs d) in *.
    match goal with |- context [if (d <? 0)%Z then _ else ?b] => set (body := b) end.
    assert (H : exists l, l <> [] /\ Forall good_part l /\ parts_size l = u /\ body = parts_text l).
    { unfold body. clear body. destruct (Z.ltb_spec u second) as [Ls|Ls].
      - destruct (Z.eqb_spec u 0) as [Z0|N0].
        + exists [Part "0" None "s" 1000000000%Z]. split; [discriminate|]. split; [apply Forall_cons; [|apply Forall_nil]|split; [now rewrite Z0|reflexivity]].
          unfold good_part, decimals_of. cbn [whole decimals unit_name unit_size]. repeat split; try (cbn; lia); [left; discriminate|cbn; tauto|exists 1000000000%Z; reflexivity].
        + assert (S : forall n un, In (un, 10 ^ Z.of_nat n)%Z units -> exists l, l <> [] /\ Forall good_part l /\ parts_size l = u /\ (let '(q, frac) := fmt_frac n u in fmt_int q ++ frac ++ un) = parts_text l).
          { intros n un U. destruct (fmt_frac n u) as [q frac] eqn:F. assert (P : (0 < 10 ^ Z.of_nat n)%Z) by (apply Z.pow_pos_nonneg; lia).
            destruct (frac_part n u q frac q un An F) as (Q & p & G & T & Sz); [|exact U|].
            { unfold fmt_frac in F. destruct (frac_quiet n u An) as (w & E & _). rewrite E in F. inversion F. apply Z.div_pos; lia. }
            exists [p]. split; [discriminate|]. split; [auto|]. destruct (one_part p) as [-> ->]. split; [|now rewrite T]. rewrite Sz, Q. pose proof (Z.div_mod u (10 ^ Z.of_nat n) ltac:(lia)). lia. }
          destruct (u <? microsecond)%Z; [|destruct (u <? millisecond)%Z].
          * apply S. now left.
          * apply S. right; right; now left.
          * apply S. do 4 right; now left.
      - destruct (fmt_frac 9 u) as [secs frac] eqn:F.
        assert (Sq : secs = (u / second)%Z) by (unfold fmt_frac in F; destruct (frac_quiet 9 u An) as (w & E & _); rewrite E in F; now inversion F).
        assert (S0 : (0 <= secs)%Z) by (rewrite Sq; apply Z.div_pos; unfold second; lia).
        assert (R0 : (0 <= Z.rem secs 60)%Z) by (apply Z.rem_bound_pos; lia).
        destruct (frac_part 9 u secs frac (Z.rem secs 60) "s" An F R0) as (_ & p & G & T & Sz); [do 5 right; now left|]. change (10 ^ Z.of_nat 9)%Z with second in Sz.
        pose proof (Z.div_mod u second ltac:(unfold second; lia)) as Du. rewrite <- Sq in Du.
        pose proof (Z.quot_rem' secs 60) as Ds. set (mins := Z.quot secs 60) in *. assert (M0 : (0 <= mins)%Z) by (apply Z.quot_pos; lia).
        destruct (Z.ltb_spec 0 mins) as [Lm|Lm].
        + pose proof (Z.quot_rem' mins 60) as Dm. set (hours := Z.quot mins 60) in *. assert (H0 : (0 <= hours)%Z) by (apply Z.quot_pos; lia).
          assert (R1 : (0 <= Z.rem mins 60)%Z) by (apply Z.rem_bound_pos; lia).
          destruct (whole_part (Z.rem mins 60) "m" (60 * 1000000000)%Z R1) as (p1 & G1 & T1 & Sz1); [do 6 right; now left|].
          destruct (Z.ltb_spec 0 hours) as [Lh|Lh].
          * destruct (whole_part hours "h" (60 * (60 * 1000000000))%Z H0) as (p2 & G2 & T2 & Sz2); [do 7 right; now left|].
            exists [p2; p1; p]. split; [discriminate|]. split; [auto|]. split.
            -- unfold parts_size. cbn [map fold_right]. rewrite Sz, Sz1, Sz2. unfold second in *. lia.
            -- rewrite !parts_text_cons, T2, T1. destruct (one_part p) as [_ _]. change (parts_text []) with "". rewrite GoStrFacts.app_nil_r, T. now rewrite !app_assoc.
          * exists [p1; p]. split; [discriminate|]. split; [auto|]. split.
            -- unfold parts_size. cbn [map fold_right]. rewrite Sz, Sz1. unfold second in *. lia.
            -- rewrite !parts_text_cons, T1. change (parts_text []) with "". rewrite GoStrFacts.app_nil_r, T. now rewrite !app_assoc.
        + exists [p]. split; [discriminate|]. split; [auto|]. destruct (one_part p) as [-> ->]. split; [|now rewrite T]. rewrite Sz. unfold second in *. lia. }
    destruct H as (l & N & G & S & E). exists l. split; [exact N|]. split; [exact G|]. split; [exact S|]. rewrite E. now destruct (d <? 0)%Z. }
  destruct B as (l & N & G & S & E). exists (if (d <? 0)%Z then "-" else ""), (if (d <? 0)%Z then -1 else 1)%Z, l. split; [exact E|].
  split; [destruct (d <? 0)%Z; constructor|]. split; [exact N|]. split; [exact G|]. split; [|split; [|exact S]]; destruct (Z.ltb_spec d 0); lia.
Qed.

Lemma digits_no_space s : digits s -> no_space s.
Proof. induction s as [|c s IH]; cbn [digits no_space]; [tauto|]. intros [D H]. split; [exact (digit_not_space c _ (digit_value c D))|auto]. Qed.
Lemma parse_int_form bits s z : parse_int bits s = Some z -> exists sg w, s = sg ++ w /\ (sg = "" \/ sg = "-" \/ sg = "+") /\ w <> "" /\ digits w.
Proof.
  assert (P : forall w n, parse_digits w = Some n -> w <> "" /\ digits w).
  { intros w n H. unfold parse_digits in H. destruct w; [discriminate|]. split; [discriminate|]. now apply acc_number in H. }
  intros H. destruct s as [|c s]; [discriminate|].
  assert (E : c = "-"%char \/ c = "+"%char \/ exists n, parse_digits (String c s) = Some n).
  { destruct (Ascii.eqb_spec c "-"); [auto|]. destruct (Ascii.eqb_spec c "+"); [auto|]. right; right.
    destruct (parse_digits (String c s)) as [k|] eqn:Q; [eauto|]. exfalso. unfold parse_int in H. rewrite Q in H. destruct c as [[] [] [] [] [] [] [] []]; try discriminate; congruence. }
  destruct E as [->|[->|[n E]]].
  - cbn [parse_int] in H. destruct (parse_digits s) eqn:Q; [|discriminate]. exists "-", s. destruct (P _ _ Q). auto.
  - cbn [parse_int] in H. destruct (parse_digits s) eqn:Q; [|discriminate]. exists "+", s. destruct (P _ _ Q). auto.
  - exists "", (String c s). destruct (P _ _ E). auto.
Qed.
Lemma parts_not_digits l : l <> [] -> Forall good_part l -> ~ digits (parts_text l).
Proof.
  intros N G. destruct G as [|p l (_ & _ & _ & U & _) _]; [congruence|]. rewrite parts_text_cons. unfold part_text. rewrite !digits_append. intros [[_ [_ D]] _].
  destruct (unit_size_of _ _ U) as (_ & _ & (c & r & E & _ & V) & _). rewrite E in D. destruct D as [D _]. rewrite (digit_value c D) in V. discriminate.
Qed.
Lemma parts_not_int sg k l s : signed sg k -> l <> [] -> Forall good_part l -> spaced (sg ++ parts_text l) s -> parse_int 64 s = None.
Proof.
  intros S N G Sp. destruct (parse_int 64 s) as [z|] eqn:E; [|reflexivity]. exfalso. destruct (parse_int_form _ _ _ E) as (sg' & w & -> & Hs & Nw & D).
  apply spaced_without in Sp. rewrite without_same in Sp by (apply no_space_app; split; [destruct Hs as [->|[->| ->]]; cbn; tauto|now apply digits_no_space]).
  pose proof (parts_first l G) as F.
  assert (W : w = parts_text l).
  { pose proof (digits_no_space w D) as _. destruct (parts_text l) as [|c t] eqn:Pt.
    - exfalso. assert (L : parts_text l <> "") by (destruct G as [|p l Gp Gl]; [congruence|]; rewrite parts_text_cons; destruct (part_first p (parts_text l) Gp) as (c & r & -> & _); discriminate). congruence.
    - assert (Dc : c <> "-"%char /\ c <> "+"%char) by (split; intros ->; discriminate). destruct Dc as [D1 D2].
      assert (Wc : forall r, w <> String "-" r /\ w <> String "+" r) by (intros r; split; intros ->; destruct D as [D _]; apply digit_value in D; discriminate).
      destruct S, Hs as [->|[->| ->]]; cbn [String.append] in Sp; try (injection Sp; intros; congruence); try (exfalso; eapply proj1; [eapply Wc|eassumption]); try (exfalso; eapply proj2; [eapply Wc|eassumption]); try exact Sp; try (injection Sp as ->; congruence); try discriminate.
      + exfalso. exact (proj2 (Wc _) Sp).
      + exfalso. exact (proj1 (Wc _) Sp). }
  apply (parts_not_digits l N G). now rewrite <- W.
Qed.
Lemma parse_parts sg k l s : signed sg k -> l <> [] -> Forall good_part l -> (k = 1 -> parts_size l < 2 ^ 63)%Z -> (parts_size l <= 2 ^ 63)%Z ->
  spaced (sg ++ parts_text l) s -> parse_duration s = Ok (k * parts_size l)%Z.
Proof.
  intros S N G B B' Sp. apply parse_spaced; [eapply parts_not_int; eauto|]. rewrite (spaced_without _ _ Sp). now apply go_parse_parts.
Qed.

Lemma no_space_spaced s : no_space s -> spaced s s.
Proof. induction s as [|c s IH]; cbn [no_space]; [constructor|]. intros [C H]. constructor; [intros B; apply space_blank in B; congruence|auto]. Qed.
Lemma parts_no_space l : Forall good_part l -> no_space (parts_text l).
Proof.
  induction 1 as [|p l (W & F & _ & U & _) _ IH]; [exact I|]. rewrite parts_text_cons. apply no_space_app. split; [|exact IH]. unfold part_text. rewrite !no_space_app.
  split; [now apply digits_no_space|]. split; [|destruct (unit_size_of _ _ U) as (M & _); eapply unit_no_space; eauto].
  unfold decimals_of in F. destruct (decimals p); [|exact I]. split; [reflexivity|now apply digits_no_space].
Qed.
Lemma duration_rt d : is_int64 d -> parse_duration (duration_marshal d) = Ok d.
Proof.
  intros H. unfold duration_marshal. destruct (text_parts d) as (sg & k & l & -> & S & N & G & V & K & A). unfold is_int64 in H.
  rewrite (parse_parts sg k l (sg ++ parts_text l) S N G); [now rewrite V|intros ->; specialize (K eq_refl); lia|lia|].
  apply no_space_spaced, no_space_app. split; [destruct S; cbn; tauto|now apply parts_no_space].
Qed.
(* quotes *)
Fixpoint no_quote (s : string) : Prop := match s with String c r => Ascii.eqb c quote = false /\ no_quote r | "" => True end.
Lemma trim_right_quoted s : no_quote s -> trim_quotes_right (s ++ String quote "") = s.
Proof.
  induction s as [|c s IH]; cbn [no_quote String.append trim_quotes_right]; [reflexivity|]. intros [C H]. rewrite (IH H). rewrite C. now destruct s.
Qed.
Lemma trim_right_plain s : no_quote s -> trim_quotes_right s = s.
Proof. induction s as [|c s IH]; cbn [no_quote trim_quotes_right]; [reflexivity|]. intros [C H]. rewrite (IH H), C. now destruct s. Qed.
Lemma trim_quoted s : no_quote s -> trim_quotes (String quote (s ++ String quote "")) = s.
Proof.
  intros H. unfold trim_quotes. cbn [trim_quotes_left]. rewrite Ascii.eqb_refl. destruct s as [|c s]; [reflexivity|].
  cbn [String.append trim_quotes_left]. destruct H as [C H]. rewrite C. change (String c (s ++ String quote "")) with (String c s ++ String quote ""). apply trim_right_quoted. now split.
Qed.
Lemma no_quote_app a b : no_quote (a ++ b) <-> no_quote a /\ no_quote b.
Proof. induction a as [|c a IH]; cbn [no_quote String.append]; [tauto|]. rewrite IH. tauto. Qed.
Lemma digits_no_quote s : digits s -> no_quote s.
Proof.
  induction s as [|c s IH]; cbn [digits no_quote]; [tauto|]. intros [D H]. split; [|auto]. destruct (Ascii.eqb_spec c quote) as [->|]; [|reflexivity].
  exfalso. unfold digit in D. change (nat_of_ascii quote) with 34 in D. lia.
Qed.
Lemma unit_no_quote u n : In (u, n) units -> no_quote u.
Proof. intros H. cbn [units In] in H. repeat (destruct H as [H|H]; [injection H as <- <-; repeat split|]). contradiction. Qed.
Lemma duration_no_quote d : no_quote (duration_marshal d).
Proof.
  unfold duration_marshal. destruct (text_parts d) as (sg & k & l & -> & S & _ & G & _). apply no_quote_app. split; [destruct S; cbn; tauto|].
  induction G as [|p l (W & F & _ & U & _) _ IH]; [exact I|]. rewrite parts_text_cons. apply no_quote_app. split; [|exact IH]. unfold part_text. rewrite !no_quote_app.
  split; [now apply digits_no_quote|]. split; [|eapply unit_no_quote; eauto]. unfold decimals_of in F. destruct (decimals p); [|exact I]. split; [reflexivity|now apply digits_no_quote].
Qed.
Lemma duration_json_rt d old : is_int64 d -> duration_unjson old (duration_json d) = Ok d.
Proof.
  intros H. unfold duration_json, duration_unjson. rewrite Ascii.eqb_refl, trim_quoted by apply duration_no_quote. unfold duration_unmarshal. now apply duration_rt.
Qed.
Lemma itoa_no_quote z : no_quote (itoa z).
Proof.
  rewrite itoa_utoa. assert (D : forall n, digits (utoa n)).
  { intros n. pose proof (parse_digits_utoa n) as P. unfold parse_digits in P. destruct (utoa n); [exact I|]. now apply acc_number in P. }
  destruct (z <? 0)%Z; [split; [reflexivity|]|]; apply digits_no_quote, D.
Qed.

(* whole seconds *)
Lemma acc_of_digits s : forall a, digits s -> digits_acc a s = Some (a * 10 ^ N.of_nat (String.length s) + Z.to_N (number s))%N.
Proof.
  induction s as [|c s IH]; intros a; cbn [digits digits_acc number String.length]; [intros _; change (10 ^ N.of_nat 0)%N with 1%N; cbn; f_equal; lia|]. intros [D H].
  rewrite (digit_value c D), (IH _ H). f_equal. rewrite Nat2N.inj_succ, N.pow_succ_r'. pose proof (number_nonneg s).
  assert (0 < 10 ^ Z.of_nat (String.length s))%Z by (apply Z.pow_pos_nonneg; lia). rewrite Z2N.inj_add by nia. rewrite Z2N.inj_mul by lia. rewrite Z2N.inj_pow by lia.
  replace (Z.to_N (Z.of_nat (String.length s))) with (N.of_nat (String.length s)) by lia. replace (Z.to_N (Z.of_nat (nat_of_ascii c - 48))) with (N.of_nat (nat_of_ascii c - 48)) by lia. change (Z.to_N 10) with 10%N. ring.
Qed.
Lemma parse_int_signed sg k w : signed sg k -> w <> "" -> digits w -> is_int64 (k * number w) -> parse_int 64 (sg ++ w) = Some (k * number w)%Z.
Proof.
  intros S N D B. assert (P : parse_digits w = Some (Z.to_N (number w))) by (unfold parse_digits; destruct w; [congruence|]; rewrite acc_of_digits by exact D; f_equal; lia).
  pose proof (number_nonneg w) as Nn. unfold is_int64 in B.
  assert (C : forall z, (-9223372036854775808 <= z <= 9223372036854775807)%Z -> int_chk 64 z = Some z).
  { intros z Z. unfold int_chk. change (2 ^ (64 - 1))%Z with 9223372036854775808%Z. destruct (Z.leb_spec (- (9223372036854775808)) z), (Z.ltb_spec z 9223372036854775808); try lia. reflexivity. }
  destruct S; cbn [String.append].
  - assert (E : parse_int 64 w = match parse_digits w with Some n => int_chk 64 (Z.of_N n) | None => None end).
    { destruct w as [|c w]; [congruence|]. destruct D as [D _]. destruct c as [[] [] [] [] [] [] [] []]; try reflexivity; apply digit_value in D; discriminate. }
    rewrite E, P, Z2N.id by lia. rewrite C; [f_equal; lia|lia].
  - cbn [parse_int]. rewrite P, Z2N.id by lia. rewrite C; [f_equal; lia|lia].
  - cbn [parse_int]. rewrite P, Z2N.id by lia. rewrite C; [f_equal; lia|lia].
Qed.
Lemma wrap64_same z : is_int64 z -> wrap64 z = z.
Proof. unfold is_int64, wrap64. intros H. change (2 ^ 63)%Z with 9223372036854775808%Z. change (2 ^ 64)%Z with 18446744073709551616%Z. rewrite Z.mod_small by lia. lia. Qed.
Lemma seconds_ok sg k w : signed sg k -> w <> "" -> digits w -> is_int64 (k * number w * per_second) -> parse_duration (sg ++ w) = Ok (k * number w * per_second)%Z.
Proof.
  intros S N D B. unfold parse_duration. rewrite (parse_int_signed sg k w S N D) by (unfold is_int64, per_second in *; lia). change second with per_second. now rewrite wrap64_same.
Qed.

(* rounding *)
Lemma truncate_away d r : (0 < r)%Z -> is_int64 (Z.abs d + r) -> exists q, truncate d r = (q * r)%Z /\ (Z.abs d <= Z.abs (q * r) < Z.abs d + r)%Z /\ (0 <= d * q)%Z /\ Z.sgn (q * r) = Z.sgn d.
Proof.
  intros R B. unfold is_int64 in B. unfold truncate. destruct (Z.eqb_spec r 0); [lia|]. destruct (Z.ltb_spec 0 d) as [L|L].
  - pose proof (Z.div_mod (- d) r ltac:(lia)) as E. pose proof (Z.mod_pos_bound (- d) r R) as M. set (q := (- d / r)%Z) in *.
    exists (- q)%Z. assert (Q : (d <= - q * r < d + r)%Z) by lia. assert (0 < - q)%Z by nia. split; [apply wrap64_same; unfold is_int64; lia|]. split; [lia|]. split; [nia|]. rewrite !Z.sgn_pos by lia. reflexivity.
  - pose proof (Z.div_mod d r ltac:(lia)) as E. pose proof (Z.mod_pos_bound d r R) as M. set (q := (d / r)%Z) in *.
    exists q. assert (Q : (d - r < q * r <= d)%Z) by lia. split; [apply wrap64_same; unfold is_int64; lia|]. split; [lia|]. destruct (Z.eq_dec d 0) as [->|Nd].
    + assert (q = 0)%Z by nia. subst q. rewrite H. split; [lia|reflexivity].
    + assert (q < 0)%Z by nia. split; [nia|]. rewrite !Z.sgn_neg by lia. reflexivity.
Qed.
Lemma truncate_exact q r : (0 < r)%Z -> is_int64 (q * r) -> truncate (q * r) r = (q * r)%Z.
Proof.
  intros R B. unfold truncate. destruct (Z.eqb_spec r 0); [lia|]. rewrite <- Z.mul_opp_l, !Z.div_mul by lia. rewrite Z.opp_involutive. rewrite wrap64_same by exact B. now destruct (0 <? q * r)%Z.
Qed.
Lemma round_away d r : (0 < r)%Z -> is_int64 (Z.abs d + r) -> (Z.abs d <= Z.abs (round_to r d) * r < Z.abs d + r)%Z /\ Z.sgn (round_to r d) = Z.sgn d.
Proof.
  intros R B. unfold round_to. destruct (truncate_away d r R B) as (q & -> & A & _ & S). rewrite Z.quot_mul by lia. rewrite Z.abs_mul, (Z.abs_eq r) in A by lia.
  split; [exact A|]. rewrite Z.sgn_mul, (Z.sgn_pos r), Z.mul_1_r in S by lia. exact S.
Qed.
