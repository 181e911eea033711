(* What is written for a date is read back; every date that is read is a day of the calendar *)
From Coq Require Import List Arith NArith ZArith Bool Ascii String Lia.
From Verif Require Import GoStr GoStrFacts Spec SpecCodec CodecM CodecFacts SpecDate DateM DateFacts DateReadFacts DateRepairFacts.
Import ListNotations.
Local Open Scope string_scope.

(* ---- numbers ---- *)
Fixpoint upto (n : nat) (z : Z) : list Z := match n with 0 => [] | S n => z :: upto n (z + 1)%Z end.
Lemma upto_in n : forall a z, (a <= z < a + Z.of_nat n)%Z -> In z (upto n a).
Proof.
  induction n; intros a z H; [lia|]. cbn. destruct (Z.eq_dec a z); [now left|right]. apply IHn. lia.
Qed.
Lemma append_two z : (0 <= z <= 99)%Z -> append_int z 2 = two z.
Proof.
  intros H. assert (F : forallb (fun z => append_int z 2 =? two z) (upto 100 0) = true) by (vm_compute; reflexivity).
  apply String.eqb_eq. rewrite forallb_forall in F. apply F, upto_in. lia.
Qed.
Lemma append_four z : (0 <= z <= 9999)%Z -> append_int z 4 = four z.
Proof.
  intros H. assert (F : forallb (fun z => append_int z 4 =? four z) (upto (100 * 100) 0) = true) by (vm_compute; reflexivity).
  apply String.eqb_eq. rewrite forallb_forall in F. apply F, upto_in. lia.
Qed.

(* ---- zones ---- *)
Lemma zone_parts o : (60 | o)%Z -> (Z.abs o < 24 * 3600)%Z ->
  exists h m, (0 <= h <= 23)%Z /\ (0 <= m <= 59)%Z /\ Z.quot o 60 = (if o <? 0 then - (h * 60 + m) else h * 60 + m)%Z /\
    Z.abs o = (h * 3600 + m * 60)%Z.
Proof.
  intros [k ->] H. exists (Z.abs k / 60)%Z, (Z.abs k mod 60)%Z.
  pose proof (Z.mod_pos_bound (Z.abs k) 60 ltac:(lia)). pose proof (Z.div_mod (Z.abs k) 60 ltac:(lia)).
  rewrite Z.quot_mul by lia.
  assert (Z.abs k / 60 <= 23)%Z. { apply Z.lt_succ_r, Z.div_lt_upper_bound; lia. }
  assert (0 <= Z.abs k / 60)%Z by (apply Z.div_pos; lia).
  repeat split; try lia. destruct (Z.ltb_spec (k * 60) 0); lia.
Qed.
Lemma format_zone_spec sep o : (60 | o)%Z -> (Z.abs o < 24 * 3600)%Z -> num_zone sep (format_zone sep o) o.
Proof.
  intros H1 H2. destruct (zone_parts o H1 H2) as (h & m & Hh & Hm & E & A). unfold format_zone. rewrite E.
  assert (D : forall x, x = (h * 60 + m)%Z -> (x / 60 = h /\ x mod 60 = m)%Z).
  { intros x ->. rewrite Z.add_comm. rewrite Z.div_add, Z.mod_add by lia. rewrite Z.div_small, Z.mod_small by lia. lia. }
  destruct (Z.ltb_spec o 0) as [L|L].
  - destruct (D (Z.abs (- (h * 60 + m)))) as [-> ->]; [lia|]. rewrite !append_two by lia.
    assert (N : (- (h * 60 + m) <? 0 = true)%Z) by (apply Z.ltb_lt; lia). rewrite N.
    replace o with (- (h * 3600 + m * 60))%Z at 1 by lia. now constructor.
  - destruct (D (Z.abs (h * 60 + m))) as [-> ->]; [lia|]. rewrite !append_two by lia.
    assert (N : (h * 60 + m <? 0 = false)%Z) by (apply Z.ltb_ge; lia). rewrite N.
    replace o with (h * 3600 + m * 60)%Z at 1 by lia. now constructor.
Qed.

(* ---- xmp.Date ---- *)
Lemma date_string_iso t : proper t -> iso (date_string t) (whole_second t).
Proof.
  intros (Hc & Hk & _ & Ho1 & Ho2). pose proof (calendar_day _ _ _ Hc) as (Hy & Hm & Hd). pose proof Hk as (Hh & Hmi & Hs).
  unfold date_string, time_format. let c := eval vm_compute in (chunks rfc3339) in change (chunks rfc3339) with c.
  unfold format_layout. cbn [map fst snd format_std]. rewrite append_four, !append_two by lia.
  set (zt := if (g_off t =? 0)%Z then "Z" else format_zone ":" (g_off t)).
  assert (Hz : opt_zone zt (g_off t)).
  { unfold zt. destruct (Z.eqb_spec (g_off t) 0) as [->|_]; [constructor|]. constructor. now apply format_zone_spec. }
  pose proof (iso_second _ _ _ _ _ _ _ _ _ _ Hc Hk fraction_none Hz) as R. clearbody zt.
  assert (E : (String.concat "" ["" ++ four (g_year t); "-" ++ two (g_month t); "-" ++ two (g_day t); "T" ++ two (g_hour t); ":" ++ two (g_min t); ":" ++ two (g_sec t); "" ++ zt] ++ "")%string
    = day_text "-" (g_year t) (g_month t) (g_day t) ++ "T" ++ clock_text (g_hour t) (g_min t) (g_sec t) ++ "" ++ zt).
  { cbn [String.concat]. unfold day_text, clock_text. cbn [append]. rewrite ?app_assoc. cbn [append]. rewrite ?app_assoc, ?app_nil_r. reflexivity. }
  rewrite E. exact R.
Qed.
Lemma iso_not_empty v t : iso v t -> emptyb v = false.
Proof. intros []; reflexivity. Qed.
Theorem date_rt t : proper t -> forall old s, date_marshal t = Some s -> date_unmarshal old s = Ok (whole_second t).
Proof.
  intros H old s E. unfold date_marshal in E. destruct (time_is_zero t); [discriminate|]. injection E as <-.
  pose proof (date_string_iso t H) as I. unfold date_unmarshal. rewrite (iso_not_empty _ _ I). now apply parse_iso.
Qed.

(* a date that is not written is the beginning of the calendar *)
Lemma date_silent t : date_marshal t = None <-> time_is_zero t = true.
Proof. unfold date_marshal. destruct (time_is_zero t); split; congruence. Qed.

(* ---- what is read ---- *)
Lemma digits_bound s : forall a n, digits_acc a s = Some n -> (Z.of_N n < (Z.of_N a + 1) * 10 ^ Z.of_nat (String.length s))%Z /\ (0 <= Z.of_N n)%Z.
Proof.
  induction s as [|c s IH]; intros a n H.
  - cbn in H. injection H as <-. cbn. lia.
  - cbn [digits_acc] in H. destruct (digit_val c) as [d|] eqn:D; [|discriminate]. apply IH in H as [H1 H2]. split; [|assumption].
    assert (d <= 9)%N. { unfold digit_val in D. destruct ((48 <=? N_of_ascii c)%N && (N_of_ascii c <=? 57)%N) eqn:B; [|discriminate]. apply andb_prop in B as [B1 B2]. apply N.leb_le in B1, B2. injection D as <-. lia. }
    cbn [String.length]. rewrite Nat2Z.inj_succ, Z.pow_succ_r by lia.
    eapply Z.lt_le_trans; [exact H1|]. rewrite Z.mul_assoc. apply Z.mul_le_mono_nonneg_r; [apply Z.pow_nonneg; lia|]. lia.
Qed.
Lemma atoi_bound s n : time_atoi s = Some n -> (Z.abs n < 10 ^ Z.of_nat (String.length s))%Z.
Proof.
  unfold time_atoi. destruct s as [|c s]; [intros [= <-]; reflexivity|].
  assert (M : (10 ^ Z.of_nat (String.length s) <= 10 ^ Z.of_nat (String.length (String c s)))%Z) by (apply Z.pow_le_mono_r; cbn [String.length]; lia).
  destruct (Ascii.eqb c "-").
  - destruct (digits_acc 0 s) eqn:E; [|discriminate]. intros [= <-]. apply digits_bound in E. lia.
  - destruct (Ascii.eqb c "+").
    + destruct (digits_acc 0 s) eqn:E; [|discriminate]. intros [= <-]. apply digits_bound in E. lia.
    + destruct (digits_acc 0 (String c s)) eqn:E; [|discriminate]. intros [= <-]. apply digits_bound in E. lia.
Qed.
Lemma atoi_digit_first s n : digit_first s = true -> time_atoi s = Some n -> (0 <= n)%Z.
Proof.
  unfold time_atoi. destruct s as [|c s]; [discriminate|]. cbn [digit_first]. intros H.
  destruct (Ascii.eqb_spec c "-") as [->|_]; [discriminate|]. destruct (Ascii.eqb_spec c "+") as [->|_]; [discriminate|].
  destruct (digits_acc 0 (String c s)) eqn:E; [|discriminate]. intros [= <-]. lia.
Qed.
Lemma stake_len n s : String.length (stake n s) <= n.
Proof. revert s. induction n; intros [|c s]; cbn; try lia. specialize (IHn s). lia. Qed.
Lemma getnum_bound b s z v : getnum b s = Some (z, v) -> (0 <= z <= 99)%Z.
Proof.
  assert (D : forall c d, digit_val c = Some d -> (d <= 9)%N).
  { intros c d D. unfold digit_val in D. destruct ((48 <=? N_of_ascii c)%N && (N_of_ascii c <=? 57)%N) eqn:B; [|discriminate]. apply andb_prop in B as [B1 B2]. apply N.leb_le in B1, B2. injection D as <-. lia. }
  destruct s as [|a r]; [discriminate|]. cbn [getnum]. destruct (digit_val a) as [x|] eqn:E; [|discriminate]. apply D in E.
  destruct r as [|c r']; [destruct b; [discriminate|intros [= <- <-]; lia]|].
  destruct (digit_val c) as [y|] eqn:E2; [apply D in E2; intros [= <- <-]; lia|]. destruct b; [discriminate|intros [= <- <-]; lia].
Qed.
Lemma ranged_bound lo hi r z v : ranged lo hi r = Some (z, v) -> (lo <= z <= hi)%Z.
Proof.
  unfold ranged. destruct r as [[z' v']|]; [|discriminate]. destruct ((lo <=? z')%Z && (z' <=? hi)%Z) eqn:E; [|discriminate].
  intros [= <- <-]. apply andb_prop in E as [E1 E2]. apply Z.leb_le in E1, E2. lia.
Qed.
Lemma nanos_bound s n z : parse_nanoseconds s n = Some z -> (0 <= z < 10 ^ 9)%Z.
Proof.
  unfold parse_nanoseconds. destruct s as [|c s]; [discriminate|]. destruct (comma_or_period c); [|discriminate].
  set (k := Nat.min n 10). destruct (time_atoi _) as [x|] eqn:E; [|discriminate]. destruct (Z.ltb_spec x 0); [discriminate|]. intros [= <-].
  apply atoi_bound in E. pose proof (stake_len (k - 1) (sdrop 1 (String c s))) as L.
  assert (K : k <= 10) by apply Nat.le_min_r.
  assert (B : (Z.abs x < 10 ^ Z.of_nat (k - 1))%Z). { eapply Z.lt_le_trans; [exact E|]. apply Z.pow_le_mono_r; lia. }
  split; [apply Z.mul_nonneg_nonneg; [lia|apply Z.pow_nonneg; lia]|].
  destruct k as [|k]; [cbn in B; assert (x = 0)%Z by lia; subst; reflexivity|].
  replace (10 ^ 9)%Z with (10 ^ Z.of_nat (S k - 1) * 10 ^ Z.of_nat (10 - S k))%Z; [|rewrite <- Z.pow_add_r by lia; f_equal; lia].
  apply Z.mul_lt_mono_pos_r; [apply Z.pow_pos_nonneg; lia|lia].
Qed.
Lemma zone_bound sg h m z : String.length h <= 2 -> String.length m <= 2 -> zone_of sg h m = Some z -> (60 | z)%Z /\ (Z.abs z <= 99 * 3600 + 99 * 60)%Z.
Proof.
  intros Lh Lm. unfold zone_of. destruct (time_atoi h) as [a|] eqn:Ea; [|discriminate]. destruct (time_atoi m) as [b|] eqn:Eb; [|discriminate].
  apply atoi_bound in Ea, Eb.
  assert (Ba : (Z.abs a < 100)%Z). { eapply Z.lt_le_trans; [exact Ea|]. change 100%Z with (10 ^ 2)%Z. apply Z.pow_le_mono_r; lia. }
  assert (Bb : (Z.abs b < 100)%Z). { eapply Z.lt_le_trans; [exact Eb|]. change 100%Z with (10 ^ 2)%Z. apply Z.pow_le_mono_r; lia. }
  destruct (sg =? "+"); [|destruct (sg =? "-"); [|discriminate]]; intros [= <-]; (split; [|lia]).
  - exists (a * 60 + b)%Z. reflexivity.
  - exists (- (a * 60 + b))%Z. lia.
Qed.

Definition sane (p : pstate) : Prop :=
  (0 <= p_year p <= 9999)%Z /\ (p_month p = -1 \/ 1 <= p_month p <= 12)%Z /\ (p_day p = -1 \/ 0 <= p_day p <= 99)%Z /\
  (0 <= p_hour p <= 23)%Z /\ (0 <= p_min p <= 59)%Z /\ (0 <= p_sec p <= 59)%Z /\ (0 <= p_nsec p < 10 ^ 9)%Z /\
  (match p_zone p with Some z => (60 | z) /\ Z.abs z <= 99 * 3600 + 99 * 60 | None => True end)%Z.

Lemma numeric_tz c1 c2 (a : option Z) (p p' : pstate) (v v' : string) :
  (if (c1 : bool) then None else if (c2 : bool) then None else match a with Some z => Some (set_zone (Some z) p, v) | None => None end) = Some (p', v') ->
  exists z, a = Some z /\ p' = set_zone (Some z) p.
Proof. destruct c1, c2; try discriminate. destruct a; [|discriminate]. intros [= <- <-]. eauto. Qed.

Lemma std_sane e nx p v p' v' : sane p -> parse_std e nx p v = Some (p', v') -> sane p'.
Proof.
  intros (H1 & H2 & H3 & H4 & H5 & H6 & H7 & H8) E.
  assert (T : forall z, (60 | z)%Z -> (Z.abs z <= 99 * 3600 + 99 * 60)%Z -> sane (set_zone (Some z) p)) by (intros; repeat split; cbn; auto; lia).
  destruct e; cbn [parse_std] in E.
  - destruct (Nat.ltb (String.length v) 4 || negb (digit_first v)) eqn:B; [discriminate|]. apply orb_false_elim in B as [B1 B2]. apply negb_false_iff in B2.
    destruct (time_atoi (stake 4 v)) eqn:A; [|discriminate]. injection E as <- <-.
    assert (D : digit_first (stake 4 v) = true) by (destruct v; [discriminate|exact B2]).
    pose proof (atoi_digit_first _ _ D A). apply atoi_bound in A. pose proof (stake_len 4 v).
    assert (10 ^ Z.of_nat (String.length (stake 4 v)) <= 10 ^ 4)%Z by (apply Z.pow_le_mono_r; lia).
    repeat split; cbn; auto; try lia.
  - destruct (Nat.ltb (String.length v) 2) eqn:B; [discriminate|].
    destruct (time_atoi (stake 2 v)) eqn:A; [|discriminate]. injection E as <- <-. apply atoi_bound in A. pose proof (stake_len 2 v).
    assert (10 ^ Z.of_nat (String.length (stake 2 v)) <= 10 ^ 2)%Z by (apply Z.pow_le_mono_r; lia).
    repeat split; cbn [p_year p_month p_day p_hour p_min p_sec p_nsec p_zone set_year]; auto; try lia; destruct (Z.leb_spec 69 z); lia.
  - destruct (ranged 1 12 (getnum true v)) as [[z w]|] eqn:A; [|discriminate]. injection E as <- <-. apply ranged_bound in A. repeat split; cbn; auto; lia.
  - destruct (getnum true v) as [[z w]|] eqn:A; [|discriminate]. injection E as <- <-. apply getnum_bound in A. repeat split; cbn; auto; lia.
  - destruct (ranged 0 23 (getnum false v)) as [[z w]|] eqn:A; [|discriminate]. injection E as <- <-. apply ranged_bound in A. repeat split; cbn; auto; lia.
  - destruct (ranged 0 59 (getnum true v)) as [[z w]|] eqn:A; [|discriminate]. injection E as <- <-. apply ranged_bound in A. repeat split; cbn; auto; lia.
  - destruct (ranged 0 59 (getnum true v)) as [[z w]|] eqn:A; [|discriminate]. apply ranged_bound in A.
    assert (S1 : sane (set_sec z p)) by (repeat split; cbn; auto; lia).
    destruct w as [|c w]; [injection E as <- <-; exact S1|].
    destruct (comma_or_period c && digit_first w && negb (is_frac nx)); [|injection E as <- <-; exact S1].
    destruct (parse_nanoseconds _ _) eqn:N; [|discriminate]. injection E as <- <-. apply nanos_bound in N. repeat split; cbn; auto; lia.
  - destruct (Nat.ltb _ _); [discriminate|]. destruct (parse_nanoseconds _ _) eqn:N; [|discriminate]. injection E as <- <-. apply nanos_bound in N. repeat split; cbn; auto; lia.
  - assert (S1 : sane p) by (repeat split; auto; lia). destruct v as [|c w]; [injection E as <- <-; exact S1|].
    destruct (comma_or_period c && digit_first w); [|injection E as <- <-; exact S1].
    destruct (parse_nanoseconds _ _) eqn:N; [|discriminate]. injection E as <- <-. apply nanos_bound in N. repeat split; cbn; auto; lia.
  - apply (numeric_tz _ _ (zone_of _ _ _)) in E as (z & E & ->). apply zone_bound in E as [E1 E2]; [auto|apply stake_len|apply stake_len].
  - assert (E' : (if Nat.ltb (String.length v) 5 then None else if false then None else
        match zone_of (stake 1 v) (stake 2 (sdrop 1 v)) (stake 2 (sdrop 3 v)) with Some z => Some (set_zone (Some z) p, sdrop 5 v) | None => None end) = Some (p', v')) by (destruct (Nat.ltb (String.length v) 5); exact E).
    apply (numeric_tz _ _ (zone_of _ _ _)) in E' as (z & E' & ->). apply zone_bound in E' as [E1 E2]; [auto|apply stake_len|apply stake_len].
  - assert (G : (if Nat.ltb (String.length v) 6 then None else if negb (Ascii.eqb (byte_at v 3) ":") then None else
        match zone_of (stake 1 v) (stake 2 (sdrop 1 v)) (stake 2 (sdrop 4 v)) with Some z => Some (set_zone (Some z) p, sdrop 6 v) | None => None end) = Some (p', v') -> sane p').
    { intros E'. apply (numeric_tz _ _ (zone_of _ _ _)) in E' as (z & E' & ->). apply zone_bound in E' as [E1 E2]; [auto|apply stake_len|apply stake_len]. }
    destruct v as [|c w]; [now apply G|]. destruct (Ascii.eqb c "Z"); [|now apply G]. injection E as <- <-. apply T; [apply Z.divide_0_r|cbn; lia].
Qed.
Lemma loop_sane l last : forall p v p', sane p -> parse_loop l last p v = Some p' -> sane p'.
Proof.
  induction l as [|[lit e] r IH]; intros p v p' Hp H; cbn [parse_loop] in H.
  - destruct (skip_lit last v) as [[|]|]; try discriminate. now injection H as <-.
  - destruct (skip_lit lit v) as [v1|]; [|discriminate]. destruct (parse_std e _ p v1) as [[p1 v2]|] eqn:E; [|discriminate].
    eapply IH; [|exact H]. now apply std_sane in E.
Qed.

(* the fields of a moment are those of a day and a clock; the zone is of whole minutes *)
Lemma finish_sane p t : sane p -> finish p = Some t ->
  calendar (g_year t) (g_month t) (g_day t) /\ clock (g_hour t) (g_min t) (g_sec t) /\ (0 <= g_nsec t < 10 ^ 9)%Z /\ (60 | g_off t)%Z /\
  (Z.abs (g_off t) <= 99 * 3600 + 99 * 60)%Z.
Proof.
  intros (H1 & H2 & H3 & H4 & H5 & H6 & H7 & H8) E. unfold finish in E.
  set (m := if (p_month p <? 0)%Z then 1%Z else p_month p) in *. set (d := if (p_day p <? 0)%Z then 1%Z else p_day p) in *.
  assert (Hm : (1 <= m <= 12)%Z) by (unfold m; destruct (Z.ltb_spec (p_month p) 0); lia).
  destruct ((1 <=? d)%Z && (d <=? days_in m (p_year p))%Z) eqn:B; [|discriminate]. apply andb_prop in B as [B1 B2]. apply Z.leb_le in B1, B2.
  injection E as <-. cbn [g_year g_month g_day g_hour g_min g_sec g_nsec g_off].
  split; [apply calendar_spec; lia|]. split; [unfold clock; lia|]. split; [assumption|].
  destruct (p_zone p); [assumption|]. split; [apply Z.divide_0_r|cbn; lia].
Qed.
Lemma fit_sane l v t : first_fit l v = Some t ->
  calendar (g_year t) (g_month t) (g_day t) /\ clock (g_hour t) (g_min t) (g_sec t) /\ (0 <= g_nsec t < 10 ^ 9)%Z /\ (60 | g_off t)%Z /\
  (Z.abs (g_off t) <= 99 * 3600 + 99 * 60)%Z.
Proof.
  induction l as [|f l IH]; [discriminate|]. cbn [first_fit]. destruct (time_parse f v) as [t'|] eqn:E; [|exact IH].
  intros [= <-]. unfold time_parse, parse_layout in E. destruct (parse_loop _ _ _ _) as [p|] eqn:L; [|discriminate].
  eapply finish_sane; [|exact E]. eapply loop_sane; [|exact L]. unfold sane. cbn. lia.
Qed.
Theorem parsed_valid v t : parse_date v = Ok t ->
  calendar (g_year t) (g_month t) (g_day t) /\ clock (g_hour t) (g_min t) (g_sec t) /\ (0 <= g_nsec t < 10 ^ 9)%Z /\ (60 | g_off t)%Z.
Proof.
  unfold parse_date. destruct (emptyb v); [discriminate|]. destruct (first_fit _ _) as [t'|] eqn:E; [|discriminate]. intros [= <-].
  apply fit_sane in E. tauto.
Qed.
Theorem parse_date_no_panic v : parse_date v <> Panic.
Proof. unfold parse_date. destruct (emptyb v); [discriminate|]. destruct (first_fit _ _); discriminate. Qed.

(* reading, writing and reading again *)
Theorem normalised v t old s : parse_date v = Ok t -> (Z.abs (g_off t) < 24 * 3600)%Z -> date_marshal t = Some s ->
  date_unmarshal old s = Ok (whole_second t).
Proof. intros H L E. apply parsed_valid in H as (A & B & C & D). eapply date_rt; [|exact E]. unfold proper. auto. Qed.
