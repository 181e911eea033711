(* Facts about durations *)
From Coq Require Import List Arith ZArith NArith Bool Ascii String Lia.
From Verif Require Import GoStr GoStrFacts CodecM SpeedM NumM DurM SpecDur.
Import ListNotations.
Local Open Scope nat_scope.
Local Open Scope string_scope.

Definition stops (s : string) : Prop := match s with String c _ => digit_val c = None | EmptyString => True end.
Lemma digit_value c : digit c -> digit_val c = Some (N.of_nat (nat_of_ascii c - 48)).
Proof.
  unfold digit, digit_val. intros H. unfold nat_of_ascii in *.
  replace (48 <=? N_of_ascii c)%N with true by (symmetry; apply N.leb_le; lia). replace (N_of_ascii c <=? 57)%N with true by (symmetry; apply N.leb_le; lia).
  cbn [andb]. f_equal. lia.
Qed.
Lemma value_digit c k : digit_val c = Some k -> digit c /\ k = N.of_nat (nat_of_ascii c - 48).
Proof.
  unfold digit, digit_val, nat_of_ascii. destruct (N.leb_spec 48 (N_of_ascii c)), (N.leb_spec (N_of_ascii c) 57); cbn [andb]; try discriminate. intros E. inversion E. split; lia.
Qed.
Lemma number_nonneg s : (0 <= number s)%Z.
Proof. induction s; cbn [number]; [lia|]. assert (0 < 10 ^ Z.of_nat (String.length s))%Z by (apply Z.pow_pos_nonneg; lia). nia. Qed.
Lemma number_bound s : digits s -> (number s < 10 ^ Z.of_nat (String.length s))%Z.
Proof.
  induction s as [|c s IH]; cbn [number digits String.length]; [reflexivity|]. intros [D Ds]. specialize (IH Ds). rewrite Nat2Z.inj_succ, Z.pow_succ_r by lia.
  unfold digit in D. assert (0 < 10 ^ Z.of_nat (String.length s))%Z by (apply Z.pow_pos_nonneg; lia). nia.
Qed.
Lemma number_app a b : number (a ++ b) = (number a * 10 ^ Z.of_nat (String.length b) + number b)%Z.
Proof.
  induction a as [|c a IH]; cbn [number String.append]; [lia|]. rewrite IH, length_app, Nat2Z.inj_add, Z.pow_add_r by lia. ring.
Qed.
Lemma digits_append a b : digits (a ++ b) <-> digits a /\ digits b.
Proof. induction a as [|c a IH]; cbn [digits String.append]; [tauto|]. rewrite IH. tauto. Qed.

Lemma leading_int_ok s : forall x t, digits s -> stops t -> (0 <= x)%Z -> (x * 10 ^ Z.of_nat (String.length s) + number s <= 2 ^ 63)%Z ->
  leading_int x (s ++ t) = Some ((x * 10 ^ Z.of_nat (String.length s) + number s)%Z, t).
Proof.
  induction s as [|c s IH]; intros x t D T X B; cbn [String.append leading_int number String.length] in *.
  - rewrite Z.mul_1_r, Z.add_0_r. destruct t as [|c t]; [reflexivity|]. cbn [leading_int stops] in *. now rewrite T.
  - destruct D as [Dc Ds]. rewrite (digit_value c Dc). rewrite Nat2Z.inj_succ, Z.pow_succ_r in * by lia.
    assert (P : (0 < 10 ^ Z.of_nat (String.length s))%Z) by (apply Z.pow_pos_nonneg; lia). pose proof (number_nonneg s) as N.
    assert (Dn : (0 <= Z.of_nat (nat_of_ascii c - 48))%Z) by lia.
    assert (B1 : (x * 10 + Z.of_nat (nat_of_ascii c - 48) <= 2 ^ 63)%Z).
    { assert ((x * 10 + Z.of_nat (nat_of_ascii c - 48)) * 1 <= (x * 10 + Z.of_nat (nat_of_ascii c - 48)) * 10 ^ Z.of_nat (String.length s))%Z by (apply Z.mul_le_mono_nonneg_l; lia). nia. }
    destruct (Z.ltb_spec (2 ^ 63 / 10) x) as [L|_]; [exfalso; change (2 ^ 63 / 10)%Z with 922337203685477580%Z in L; lia|].
    rewrite nat_N_Z. destruct (Z.ltb_spec (2 ^ 63) (x * 10 + Z.of_nat (nat_of_ascii c - 48))) as [L|_]; [lia|].
    rewrite (IH _ t Ds T) by nia. f_equal. f_equal. ring.
Qed.
Lemma leading_fraction_ok s : forall x sc t, digits s -> stops t -> (0 <= x)%Z -> (x * 10 ^ Z.of_nat (String.length s) + number s < 10 ^ 18)%Z ->
  leading_fraction false x sc (s ++ t) = ((x * 10 ^ Z.of_nat (String.length s) + number s)%Z, (sc * 10 ^ Z.of_nat (String.length s))%Z, t).
Proof.
  induction s as [|c s IH]; intros x sc t D T X B; cbn [String.append leading_fraction number String.length] in *.
  - rewrite !Z.mul_1_r, Z.add_0_r. destruct t as [|c t]; [reflexivity|]. cbn [leading_fraction stops] in *. now rewrite T.
  - destruct D as [Dc Ds]. rewrite (digit_value c Dc). rewrite Nat2Z.inj_succ, Z.pow_succ_r in * by lia.
    assert (P : (0 < 10 ^ Z.of_nat (String.length s))%Z) by (apply Z.pow_pos_nonneg; lia). pose proof (number_nonneg s) as N.
    assert (Dn : (0 <= Z.of_nat (nat_of_ascii c - 48))%Z) by lia.
    assert (B1 : (x * 10 + Z.of_nat (nat_of_ascii c - 48) < 10 ^ 18)%Z).
    { assert ((x * 10 + Z.of_nat (nat_of_ascii c - 48)) * 1 <= (x * 10 + Z.of_nat (nat_of_ascii c - 48)) * 10 ^ Z.of_nat (String.length s))%Z by (apply Z.mul_le_mono_nonneg_l; lia). nia. }
    change (10 ^ 18)%Z with 1000000000000000000%Z in B1. change ((2 ^ 63 - 1) / 10)%Z with 922337203685477580%Z.
    destruct (Z.ltb_spec 922337203685477580 x) as [L|_]; [exfalso; lia|]. cbn [orb].
    rewrite nat_N_Z. change (2 ^ 63)%Z with 9223372036854775808%Z. destruct (Z.ltb_spec 9223372036854775808 (x * 10 + Z.of_nat (nat_of_ascii c - 48))) as [L|_]; [lia|].
    rewrite (IH _ _ t Ds T) by nia. f_equal. f_equal; ring.
Qed.
Lemma unit_size_of u n : In (u, n) units -> unit_map u = Some n /\ (1 <= n <= 3600000000000)%Z /\ (exists c r, u = String c r /\ digit_or_point c = false /\ digit_val c = None)
  /\ (forall t, match t with String c _ => digit_or_point c = true | "" => True end -> span_unit (u ++ t) = (u, t)).
Proof.
  intros H. cbn [units In] in H.
  assert (G : forall t, match t with String c _ => digit_or_point c = true | "" => True end -> span_unit t = ("", t)) by (intros [|c t] T; [reflexivity|cbn [span_unit]; now rewrite T]).
  repeat (destruct H as [H|H]; [injection H as <- <-; (split; [reflexivity|split; [lia|split; [do 2 eexists; split; [reflexivity|split; reflexivity]|]]]);
    intros t T; cbn [String.append span_unit]; rewrite (G t T); reflexivity|]). contradiction.
Qed.
Lemma part_ok p t : good_part p -> match t with String c _ => digit_or_point c = true | "" => True end -> (part_size p <= 2 ^ 63)%Z ->
  duration_part (part_text p ++ t) = Some (part_size p, t).
Proof.
  intros (W & F & NE & U & Dv) T B. destruct (unit_size_of _ _ U) as (Um & Ub & (uc & ur & Ue & Ud & Uv) & Us).
  pose proof (number_nonneg (whole p)) as Wn. pose proof (number_nonneg (decimals_of p)) as Fn.
  set (k := String.length (decimals_of p)) in *. assert (P : (0 < 10 ^ Z.of_nat k)%Z) by (apply Z.pow_pos_nonneg; lia).
  destruct Dv as [q Q]. assert (Qn : (unit_size p / 10 ^ Z.of_nat k = q)%Z) by (rewrite Q; apply Z.div_mul; lia).
  assert (Q0 : (1 <= q)%Z) by nia.
  assert (K : k <= 12).
  { destruct (Nat.le_gt_cases k 12) as [|L]; [assumption|]. exfalso. assert (10 ^ 13 <= 10 ^ Z.of_nat k)%Z by (apply Z.pow_le_mono_r; lia). change (10 ^ 13)%Z with 10000000000000%Z in H. nia. }
  unfold part_size in B. fold k in B. rewrite Qn in B.
  assert (Wb : (number (whole p) * unit_size p <= 2 ^ 63)%Z) by nia.
  assert (Wb' : (number (whole p) <= 2 ^ 63)%Z) by nia.
  assert (Fb : (number (decimals_of p) < 10 ^ 18)%Z).
  { pose proof (number_bound _ F) as H. fold k in H. assert (10 ^ Z.of_nat k <= 10 ^ 12)%Z by (apply Z.pow_le_mono_r; lia). change (10 ^ 12)%Z with 1000000000000%Z in *. change (10 ^ 18)%Z with 1000000000000000000%Z. lia. }
  assert (Cmp : (2 ^ 63 / unit_size p <? number (whole p))%Z = false) by (apply Z.ltb_ge, Z.div_le_lower_bound; lia).
  set (rest := match decimals p with Some f => "." ++ f | None => "" end ++ unit_name p ++ t) in *.
  assert (E : part_text p ++ t = whole p ++ rest) by (unfold part_text, rest; now rewrite !app_assoc).
  assert (St : stops rest) by (unfold rest; destruct (decimals p); cbn; [reflexivity|now rewrite Ue]).
  assert (L1 : leading_int 0 (whole p ++ rest) = Some (number (whole p), rest)).
  { rewrite (leading_int_ok (whole p) 0 rest W St) by lia. now rewrite Z.mul_0_l, Z.add_0_l. }
  assert (First : exists c r, whole p ++ rest = String c r /\ digit_or_point c = true).
  { destruct (whole p) as [|c w] eqn:Ew.
    - unfold rest. destruct NE as [NE|NE]; [congruence|]. unfold decimals_of in NE. destruct (decimals p); [|congruence]. do 2 eexists. split; [reflexivity|reflexivity].
    - do 2 eexists. split; [reflexivity|]. destruct W as [W _]. unfold digit_or_point. rewrite (digit_value c W). apply orb_true_r. }
  destruct First as (c & r & Ecr & Dc). rewrite E, Ecr. unfold duration_part. rewrite Dc. cbn [negb]. rewrite <- Ecr, L1.
  assert (Second : exists post, (match rest with
            | String c1 r => if Ascii.eqb c1 "."
                             then let '(f, scale, s2) := leading_fraction false 0 1 r in (f, scale, s2, negb (Nat.eqb (String.length s2) (String.length r)))
                             else (0%Z, 1%Z, rest, false)
            | EmptyString => (0%Z, 1%Z, rest, false)
            end) = (number (decimals_of p), (10 ^ Z.of_nat k)%Z, unit_name p ++ t, post) /\ (decimals_of p <> "" -> post = true)).
  { unfold rest, k, decimals_of in *. destruct (decimals p) as [f|].
    - cbn [String.append]. rewrite Ascii.eqb_refl. rewrite (leading_fraction_ok f 0 1 (unit_name p ++ t) F) by (try (rewrite Ue; exact Uv); lia).
      rewrite Z.mul_0_l, Z.add_0_l, Z.mul_1_l. eexists. split; [reflexivity|]. intros N. rewrite negb_true_iff, Nat.eqb_neq, (length_app f). destruct f; [congruence|]. cbn [String.length]. lia.
    - cbn [String.append]. rewrite Ue. cbn [String.append]. assert (Ascii.eqb uc "." = false) as -> by (unfold digit_or_point in Ud; now apply orb_false_iff in Ud). exists false. split; [reflexivity|congruence]. }
  destruct Second as (post & -> & Post).
  assert (Pre : whole p <> "" -> negb (Nat.eqb (String.length rest) (String.length (whole p ++ rest))) = true).
  { intros N. rewrite negb_true_iff, Nat.eqb_neq, length_app. destruct (whole p); [congruence|]. cbn [String.length]. lia. }
  assert (negb (negb (Nat.eqb (String.length rest) (String.length (whole p ++ rest)))) && negb post = false) as ->.
  { destruct NE as [N|N]; [rewrite (Pre N)|rewrite (Post N)]; [reflexivity|apply andb_false_r]. }
  rewrite (Us t T), Um, Cmp.
  assert (V : (if (0 <? number (decimals_of p))%Z then number (whole p) * unit_size p + number (decimals_of p) * unit_size p / 10 ^ Z.of_nat k else number (whole p) * unit_size p)%Z = part_size p).
  { unfold part_size. fold k. rewrite Qn. assert (number (decimals_of p) * unit_size p / 10 ^ Z.of_nat k = number (decimals_of p) * q)%Z as -> by (rewrite Q, Z.mul_assoc; apply Z.div_mul; lia).
    destruct (Z.ltb_spec 0 (number (decimals_of p))); lia. }
  rewrite V. assert (Z.ltb (2 ^ 63) (part_size p) = false) as -> by (apply Z.ltb_ge; unfold part_size; fold k; rewrite Qn; exact B). reflexivity.
Qed.

(* ---- texts of several parts ---- *)
Lemma parts_text_cons p l : parts_text (p :: l) = part_text p ++ parts_text l.
Proof. unfold parts_text. cbn [map String.concat]. destruct (map part_text l); [now rewrite GoStrFacts.app_nil_r|reflexivity]. Qed.
Lemma part_first p t : good_part p -> exists c r, part_text p ++ t = String c r /\ digit_or_point c = true.
Proof.
  intros (W & F & NE & _). unfold part_text. destruct (whole p) as [|c w].
  - destruct NE as [NE|NE]; [congruence|]. unfold decimals_of in NE. destruct (decimals p); [|congruence]. do 2 eexists. split; reflexivity.
  - do 2 eexists. split; [reflexivity|]. destruct W as [W _]. unfold digit_or_point. rewrite (digit_value c W). apply orb_true_r.
Qed.
Lemma parts_first l : Forall good_part l -> match parts_text l with String c _ => digit_or_point c = true | "" => True end.
Proof.
  intros H. destruct H as [|p l G _]; [exact I|]. rewrite parts_text_cons. destruct (part_first p (parts_text l) G) as (c & r & E & D). now rewrite E.
Qed.
Lemma part_size_nonneg p : good_part p -> (0 <= part_size p)%Z.
Proof.
  intros (_ & _ & _ & U & _). destruct (unit_size_of _ _ U) as (_ & B & _). unfold part_size. pose proof (number_nonneg (whole p)). pose proof (number_nonneg (decimals_of p)).
  assert (0 <= unit_size p / 10 ^ Z.of_nat (String.length (decimals_of p)))%Z by (apply Z.div_pos; [lia|apply Z.pow_pos_nonneg; lia]).
  apply Z.add_nonneg_nonneg; apply Z.mul_nonneg_nonneg; lia.
Qed.
Lemma parts_size_nonneg l : Forall good_part l -> (0 <= parts_size l)%Z.
Proof. unfold parts_size. induction 1 as [|p l G _ IH]; cbn [map fold_right]; [lia|]. pose proof (part_size_nonneg p G). lia. Qed.
Lemma loop_parts l : Forall good_part l -> forall fuel d, (0 <= d)%Z -> (d + parts_size l <= 2 ^ 63)%Z -> String.length (parts_text l) <= fuel ->
  duration_loop fuel d (parts_text l) = Some (d + parts_size l)%Z.
Proof.
  induction 1 as [|p l G H IH]; intros fuel d D B Fu.
  - cbn. destruct fuel; cbn; f_equal; lia.
  - pose proof (part_size_nonneg p G). pose proof (parts_size_nonneg l H). change (parts_size (p :: l)) with (part_size p + parts_size l)%Z in *.
    rewrite parts_text_cons in *. pose proof (part_ok p (parts_text l) G (parts_first l H) ltac:(lia)) as P.
    destruct (part_first p (parts_text l) G) as (c & r & E & _). rewrite length_app in Fu.
    assert (1 <= String.length (part_text p)).
    { destruct (part_first p "" G) as (c' & r' & E' & _). rewrite GoStrFacts.app_nil_r in E'. rewrite E'. cbn [String.length]. lia. }
    destruct fuel as [|fuel]; [lia|]. rewrite E in *. cbn [duration_loop]. rewrite P.
    destruct (Z.ltb_spec (2 ^ 63) (d + part_size p)) as [L|_]; [lia|]. rewrite IH; [f_equal; lia|lia|lia|lia].
Qed.
Lemma not_sign (neg : bool) s : match s with String c _ => digit_or_point c = true | "" => True end ->
  match s with String "-" r => (true, r) | String "+" r => (false, r) | _ => (false, s) end = (false, s).
Proof. destruct s as [|c r]; [reflexivity|]. intros D. destruct c as [[] [] [] [] [] [] [] []]; try reflexivity; discriminate. Qed.
Lemma go_parse_parts sg k l : signed sg k -> l <> [] -> Forall good_part l -> (k = 1 -> parts_size l < 2 ^ 63)%Z -> (parts_size l <= 2 ^ 63)%Z ->
  go_parse_duration (sg ++ parts_text l) = Some (k * parts_size l)%Z.
Proof.
  intros S N G B B'. pose proof (parts_first l G) as F.
  assert (E : match sg ++ parts_text l with String "-" r => (true, r) | String "+" r => (false, r) | _ => (false, sg ++ parts_text l) end = ((k =? -1)%Z, parts_text l)).
  { destruct S; cbn [String.append]; [now apply (not_sign true)|reflexivity|reflexivity]. }
  unfold go_parse_duration. rewrite E.
  assert (Len : 2 <= String.length (parts_text l)).
  { destruct G as [|p l Gp _]; [congruence|]. rewrite parts_text_cons, length_app. unfold part_text. rewrite !length_app. destruct Gp as (_ & _ & NE & U & _). destruct (unit_size_of _ _ U) as (_ & _ & (c & r & Ue & _) & _).
    rewrite Ue. cbn [String.length]. unfold decimals_of in NE. destruct NE as [NE|NE]; [destruct (whole p); [congruence|cbn [String.length]; lia]|]. destruct (decimals p); [|congruence]. cbn [String.length String.append]. lia. }
  assert (E0 : (parts_text l =? "0") = false) by (apply String.eqb_neq; intros X; rewrite X in Len; cbn in Len; lia).
  assert (E1 : emptyb (parts_text l) = false) by (destruct (parts_text l); [cbn in Len; lia|reflexivity]).
  rewrite E0, E1, (loop_parts l G) by (try lia). rewrite Z.add_0_l.
  destruct S; cbn [Z.eqb Pos.eqb]; try (destruct (Z.ltb_spec (2 ^ 63 - 1) (parts_size l)) as [L|_]; [specialize (B eq_refl); lia|]); f_equal; lia.
Qed.

(* ---- blanks ---- *)
Lemma space_blank c : is_space c = true <-> blank c.
Proof.
  unfold is_space, blank. rewrite orb_true_iff, andb_true_iff, !Nat.leb_le, Nat.eqb_eq. cbn [In]. generalize (nat_of_ascii c). intros n. lia.
Qed.
Lemma spaced_without a b : spaced a b -> without_space b = a.
Proof.
  induction 1 as [|c a b B _ IH|c a b B _ IH]; cbn [without_space]; [reflexivity| |].
  - apply space_blank in B. now rewrite B.
  - destruct (is_space c) eqn:E; [apply space_blank in E; contradiction|]. now rewrite IH.
Qed.
Fixpoint no_space (s : string) : Prop := match s with String c r => is_space c = false /\ no_space r | "" => True end.
Lemma without_same s : no_space s -> without_space s = s.
Proof. induction s as [|c s IH]; cbn [no_space without_space]; [reflexivity|]. intros [-> H]. now rewrite IH. Qed.
Lemma digit_not_space c k : digit_val c = Some k -> is_space c = false.
Proof. intros H. apply value_digit in H. destruct H as [D _]. unfold digit in D. unfold is_space. destruct (Nat.leb_spec 9 (nat_of_ascii c)), (Nat.leb_spec (nat_of_ascii c) 13), (Nat.eqb_spec (nat_of_ascii c) 32); cbn; try reflexivity; lia. Qed.
Lemma int_no_space s : forall x v r, leading_int x s = Some (v, r) -> no_space r -> no_space s.
Proof.
  induction s as [|c s IH]; intros x v r; cbn [leading_int]; [intros _ _; exact I|]. destruct (digit_val c) as [k|] eqn:D.
  - destruct (_ <? x)%Z; [discriminate|]. destruct (_ <? _)%Z; [discriminate|]. intros H N. split; [eapply digit_not_space; eauto|eauto].
  - intros H. now inversion H.
Qed.
Lemma fraction_no_space s : forall o x sc v sc' r, leading_fraction o x sc s = (v, sc', r) -> no_space r -> no_space s.
Proof.
  induction s as [|c s IH]; intros o x sc v sc' r; cbn [leading_fraction]; [intros _ _; exact I|]. destruct (digit_val c) as [k|] eqn:D.
  - intros H N. split; [eapply digit_not_space; eauto|]. destruct (o || _); [eauto|]. destruct (_ <? _)%Z; eauto.
  - intros H. now inversion H.
Qed.
Lemma span_unit_app s : forall u t, span_unit s = (u, t) -> s = u ++ t.
Proof.
  induction s as [|c s IH]; intros u t; cbn [span_unit]; [intros H; inversion H; reflexivity|]. destruct (digit_or_point c); [intros H; inversion H; reflexivity|].
  destruct (span_unit s) as [u' t']. intros H. inversion H; subst. cbn [String.append]. now rewrite (IH u' t).
Qed.
Lemma no_space_app a b : no_space (a ++ b) <-> no_space a /\ no_space b.
Proof. induction a as [|c a IH]; cbn [no_space String.append]; [tauto|]. rewrite IH. tauto. Qed.
Lemma unit_no_space u n : unit_map u = Some n -> no_space u.
Proof.
  unfold unit_map. intros H.
  repeat match type of H with (if ?b then _ else _) = _ => let E := fresh in destruct b eqn:E; [clear H|] end; try discriminate.
  all: try (match goal with E : _ || _ = true |- _ => rewrite !orb_true_iff in E; destruct E as [[E|E]|E]; apply String.eqb_eq in E; subst; cbn; tauto end).
  all: match goal with E : (_ =? _) = true |- _ => apply String.eqb_eq in E; subst; cbn; tauto end.
Qed.
Lemma part_no_space s v r : duration_part s = Some (v, r) -> no_space r -> no_space s.
Proof.
  unfold duration_part. destruct s as [|c s']; [discriminate|]. destruct (negb (digit_or_point c)); [discriminate|].
  set (s := String c s'). destruct (leading_int 0 s) as [[n s1]|] eqn:L; [|discriminate].
  set (mid := match s1 with EmptyString => _ | String c1 r1 => _ end).
  destruct mid as [[[f sc] s2] post] eqn:M. unfold mid in M. clear mid. destruct (_ && negb post); [discriminate|].
  destruct (span_unit s2) as [u s3] eqn:U. destruct (unit_map u) as [un|] eqn:Um; [|discriminate]. destruct (_ <? n)%Z; [discriminate|]. destruct (2 ^ 63 <? _)%Z; [discriminate|].
  intros H N. inversion H; subst s3. apply span_unit_app in U. assert (N2 : no_space s2) by (rewrite U; apply no_space_app; split; [eapply unit_no_space; eauto|assumption]).
  eapply int_no_space; [exact L|]. destruct s1 as [|c1 r1]; [exact I|]. destruct (Ascii.eqb_spec c1 ".") as [->|_].
  - destruct (leading_fraction false 0 1 r1) as [[f' sc'] s2'] eqn:F. inversion M; subst. split; [reflexivity|]. eapply fraction_no_space; eauto.
  - injection M as _ _ E _. rewrite E. exact N2.
Qed.
Lemma loop_no_space fuel : forall d s v, duration_loop fuel d s = Some v -> no_space s.
Proof.
  induction fuel as [|fuel IH]; intros d s v; destruct s as [|c s']; cbn [duration_loop]; try (intros; exact I); try discriminate.
  destruct (duration_part (String c s')) as [[w r]|] eqn:P; [|discriminate]. destruct (_ <? _)%Z; [discriminate|]. intros H. eapply part_no_space; eauto.
Qed.
Lemma go_no_space s v : go_parse_duration s = Some v -> no_space s.
Proof.
  unfold go_parse_duration. intros H.
  assert (G : forall (neg : bool) t, (if t =? "0" then Some 0%Z else if emptyb t then None else match duration_loop (String.length t) 0 t with Some d => if neg then Some (- d)%Z else if (2 ^ 63 - 1 <? d)%Z then None else Some d | None => None end) = Some v -> no_space t).
  { intros neg t. destruct (String.eqb_spec t "0") as [->|_]; [cbn; tauto|]. destruct (emptyb t); [discriminate|]. destruct (duration_loop _ _ t) eqn:L; [|discriminate]. intros _. eapply loop_no_space; eauto. }
  destruct s as [|c r]; [exact I|].
  destruct (Ascii.eqb_spec c "-") as [->|N1]; [split; [reflexivity|exact (G true r H)]|].
  destruct (Ascii.eqb_spec c "+") as [->|N2]; [split; [reflexivity|exact (G false r H)]|].
  apply (G false). destruct c as [[] [] [] [] [] [] [] []]; try exact H; congruence.
Qed.
Lemma parse_spaced s v : parse_int 64 s = None -> go_parse_duration (without_space s) = Some v -> parse_duration s = Ok v.
Proof.
  intros N H. unfold parse_duration. rewrite N. destruct (go_parse_duration s) as [w|] eqn:E; [|now rewrite H].
  rewrite (without_same s (go_no_space s w E)) in H. congruence.
Qed.
