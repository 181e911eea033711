(* Facts about DateM.v: which layout a text fits *)
From Coq Require Import List Arith NArith ZArith Bool Ascii String Lia.
From Verif Require Import GoStr GoStrFacts Spec SpecCodec CodecM CodecFacts SpecDate DateM DateFacts.
Import ListNotations.
Local Open Scope string_scope.

(* ---- the calendar ---- *)
Lemma leap_spec y : is_leap y = true <-> leap y.
Proof.
  unfold is_leap, leap. rewrite andb_true_iff, orb_true_iff, negb_true_iff, !Z.eqb_eq, Z.eqb_neq.
  rewrite <- !Z.mod_divide by lia. tauto.
Qed.
Lemma month_days_spec y m n : month_days y m n <-> (1 <= m <= 12)%Z /\ days_in m y = n.
Proof.
  split.
  - intros [m' H|m' H|H|H].
    + cbn in H. repeat destruct H as [<-|H]; try (split; [lia|reflexivity]). contradiction.
    + cbn in H. repeat destruct H as [<-|H]; try (split; [lia|reflexivity]). contradiction.
    + split; [lia|]. unfold days_in. rewrite (proj2 (leap_spec y) H). reflexivity.
    + split; [lia|]. unfold days_in. destruct (is_leap y) eqn:E; [now apply leap_spec in E|reflexivity].
  - intros [Hm <-]. assert (E : (m = 1 \/ m = 2 \/ m = 3 \/ m = 4 \/ m = 5 \/ m = 6 \/ m = 7 \/ m = 8 \/ m = 9 \/ m = 10 \/ m = 11 \/ m = 12)%Z) by lia.
    destruct E as [->|[->|E]].
    + apply long_month. cbn. auto.
    + unfold days_in. destruct (is_leap y) eqn:E; cbn.
      * apply february_leap. now apply leap_spec.
      * apply february. intros L. apply leap_spec in L. congruence.
    + repeat (destruct E as [->|E]; [first [apply long_month|apply short_month]; cbn; tauto|]). subst. apply long_month. cbn. tauto.
Qed.
Lemma calendar_spec y m d : calendar y m d <-> (0 <= y <= 9999)%Z /\ (1 <= m <= 12)%Z /\ (1 <= d <= days_in m y)%Z.
Proof.
  unfold calendar. split.
  - intros (Hy & n & Hn & Hd). apply month_days_spec in Hn as [Hm <-]. auto.
  - intros (Hy & Hm & Hd). split; [assumption|]. exists (days_in m y). split; [|assumption]. now apply month_days_spec.
Qed.
Lemma days_in_bound m y : (1 <= m <= 12)%Z -> (28 <= days_in m y <= 31)%Z.
Proof.
  intros H. pose proof (proj2 (month_days_spec y m (days_in m y)) (conj H eq_refl)) as [m' I|m' I|I|I]; lia.
Qed.
Lemma calendar_day y m d : calendar y m d -> (0 <= y <= 9999)%Z /\ (1 <= m <= 12)%Z /\ (1 <= d <= 31)%Z.
Proof. intros H. apply calendar_spec in H as (Hy & Hm & Hd). pose proof (days_in_bound m y Hm). lia. Qed.

Lemma finish_date y m d h mi s ns z : calendar y m d ->
  finish (PState y m d h mi s ns z) = Some (GTime y m d h mi s ns (match z with Some z => z | None => 0 end)%Z).
Proof.
  intros H. apply calendar_spec in H as (Hy & Hm & Hd). unfold finish. cbn [p_year p_month p_day p_hour p_min p_sec p_nsec p_zone].
  destruct (Z.ltb_spec m 0); [lia|]. destruct (Z.ltb_spec d 0); [lia|].
  destruct (Z.leb_spec 1 d); [|lia]. destruct (Z.leb_spec d (days_in m y)); [reflexivity|lia].
Qed.
Lemma finish_month y m : (1 <= m <= 12)%Z -> finish (PState y m (-1) 0 0 0 0 None) = Some (GTime y m 1 0 0 0 0 0).
Proof.
  intros H. unfold finish. cbn [p_year p_month p_day p_hour p_min p_sec p_nsec p_zone].
  destruct (Z.ltb_spec m 0); [lia|]. change (-1 <? 0)%Z with true. cbv iota.
  pose proof (days_in_bound m y H). destruct (Z.leb_spec 1 (days_in m y)); [reflexivity|lia].
Qed.

(* ---- one layout ---- *)
Lemma tp_none f v : parse_loop (fst (chunks f)) (snd (chunks f)) p_start v = None -> time_parse f v = None.
Proof. intros H. unfold time_parse, parse_layout. now rewrite H. Qed.
Lemma tp_some f v p t : parse_loop (fst (chunks f)) (snd (chunks f)) p_start v = Some p -> finish p = Some t -> time_parse f v = Some t.
Proof. intros H H'. unfold time_parse, parse_layout. now rewrite H. Qed.
Lemma ff_no f l v r : time_parse f v = None -> first_fit l v = r -> first_fit (f :: l) v = r.
Proof. intros H1 H2. cbn [first_fit]. now rewrite H1. Qed.
Lemma ff_yes f l v t : time_parse f v = Some t -> first_fit (f :: l) v = Some t.
Proof. intros H. cbn [first_fit]. now rewrite H. Qed.

(* ---- elements that do not fit ---- *)
Lemma year_any nx p z v : (0 <= z <= 99)%Z ->
  parse_std SYear nx p (two z ++ v) = Some (set_year (if (69 <=? z)%Z then z + 1900 else z + 2000)%Z p, v).
Proof.
  intros H. unfold parse_std. change (Nat.ltb (String.length (two z ++ v)) 2) with false.
  change (stake 2 (two z ++ v)) with (two z). rewrite atoi_two by lia. reflexivity.
Qed.
Lemma year_of_four nx p z v : (0 <= z <= 9999)%Z ->
  parse_std SYear nx p (four z ++ v) = Some (set_year (if (69 <=? z / 100)%Z then z / 100 + 1900 else z / 100 + 2000)%Z p, two (z mod 100) ++ v).
Proof. intros H. rewrite four_two. apply year_any. destruct (d100 z H). assumption. Qed.
Lemma long_year_short nx p z c v : (0 <= z <= 99)%Z -> is_digit c = false -> parse_std SLongYear nx p (two z ++ String c v) = None.
Proof.
  intros H Hc. destruct (d10 z H). unfold parse_std. rewrite two_ch. cbn [digit_first]. rewrite digit_ch by assumption. cbn [negb]. rewrite orb_false_r.
  destruct (Nat.ltb _ _); [reflexivity|]. cbn [stake]. unfold time_atoi. rewrite !ch_not by (assumption || reflexivity).
  cbn [digits_acc]. rewrite !dv by assumption. unfold is_digit in Hc. destruct (digit_val c); [discriminate|reflexivity].
Qed.
Lemma tz_not_sign e nx p c v : e = SNumColonTZ \/ e = SNumTZ -> Ascii.eqb c "+" = false -> Ascii.eqb c "-" = false ->
  parse_std e nx p (String c v) = None.
Proof.
  intros He H1 H2.
  assert (Z0 : forall a b, zone_of (String c "") a b = None).
  { intros. unfold zone_of. destruct (time_atoi a); [|reflexivity]. destruct (time_atoi b); [|reflexivity].
    cbn [String.eqb]. now rewrite H1, H2. }
  assert (Z1 : stake 1 (String c v) = String c "") by (destruct v; reflexivity).
  destruct He as [->| ->]; unfold parse_std; rewrite Z1, Z0; repeat (destruct (Nat.ltb _ _) || destruct (negb _)); reflexivity.
Qed.

Lemma zone_tz e nx p z o : e = SNumColonTZ \/ e = SISOColonTZ -> num_zone ":" z o -> parse_std e nx p z = Some (set_zone (Some o) p, "").
Proof. intros He H. rewrite <- (app_nil_r z) at 1. now apply zone_colon_tz. Qed.
Lemma zone_tz_basic nx p z o : num_zone "" z o -> parse_std SNumTZ nx p z = Some (set_zone (Some o) p, "").
Proof. intros H. rewrite <- (app_nil_r z) at 1. now apply zone_num_tz. Qed.

(* a zone begins with a sign *)
Lemma num_zone_sign sep z o : num_zone sep z o -> exists w, z = String "+" w \/ z = String "-" w.
Proof. intros [h m|h m]; cbn; eauto. Qed.

(* ---- automation: the text is written with four, two and constructors ---- *)
Ltac chunked := match goal with |- context [chunks ?f] => let c := eval vm_compute in (chunks f) in change (chunks f) with c end; cbn [fst snd].
Ltac skip_ok := first [apply skip_blank_two; lia | reflexivity].
Ltac skip_no := first [apply skip_two; [first [lia|assumption]|reflexivity] | reflexivity].
Ltac std_ok := first
  [ apply year_four; lia | apply year_of_four; lia | apply year_any; lia | apply month_two; lia | apply day_two; lia | apply hour_two; lia | apply minute_two; lia
  | apply second_two; [lia | first [left; assumption | left; reflexivity | right; reflexivity]]
  | eapply second_frac; [lia|eassumption|reflexivity|reflexivity|reflexivity|reflexivity]
  | apply frac9_none; (assumption || reflexivity)
  | eapply frac9; [eassumption|reflexivity|reflexivity|reflexivity]
  | eapply zone_tz; [solve [auto]|eassumption] | eapply zone_tz_basic; eassumption
  | reflexivity ].
Ltac std_no := first
  [ apply long_year_short; [lia|reflexivity] | apply tz_not_sign; [solve [auto]|reflexivity|reflexivity] | reflexivity ].
Ltac loop := lazymatch goal with
  | |- parse_loop [] _ _ _ = None => first [eapply loop_extra; reflexivity | apply loop_more; skip_no]
  | |- parse_loop [] _ _ _ = Some _ => apply loop_end; reflexivity
  | |- parse_loop (_ :: _) _ _ _ = _ =>
      first [ eapply loop_skip; skip_no
            | eapply loop_std; [skip_ok|std_no]
            | eapply loop_ok; [skip_ok|std_ok|loop]
            ] end.
Ltac reject := eapply ff_no; [apply tp_none; chunked; loop|].
Ltac accept := eapply ff_yes; eapply tp_some; [chunked; loop|].

(* the texts are brought to the form  four y ++ String "-" (two m ++ ... ++ "") *)
Lemma two_nil z : two z = two z ++ "".
Proof. now rewrite app_nil_r. Qed.
Lemma four_nil z : four z = four z ++ "".
Proof. now rewrite app_nil_r. Qed.

Section Forms.
Variables y m d h mi s : Z.
Hypothesis Hc : calendar y m d.
Hypothesis Hk : clock h mi s.
Lemma Hy : (0 <= y <= 9999)%Z. Proof. now apply calendar_day in Hc. Qed.
Lemma Hy2 : (0 <= y mod 100 <= 99)%Z. Proof. pose proof (Z.mod_pos_bound y 100). lia. Qed.
Lemma Hm : (1 <= m <= 12)%Z. Proof. now apply calendar_day in Hc. Qed.
Lemma Hd : (1 <= d <= 31)%Z. Proof. now apply calendar_day in Hc. Qed.

Ltac setup := pose proof Hy; pose proof Hy2; pose proof Hm; pose proof Hd; destruct Hk as (Hh & Hmi & Hs); unfold date_formats, day_text, clock_text; rewrite ?app_assoc; cbn [append].
Ltac fin := exact (finish_date y m d _ _ _ _ _ Hc).

Lemma fit_day : first_fit date_formats (day_text "-" y m d) = Some (GTime y m d 0 0 0 0 0).
Proof. setup. rewrite (two_nil d). do 3 reject. accept. fin. Qed.

Lemma fit_minute z o : opt_zone z o ->
  first_fit date_formats (day_text "-" y m d ++ "T" ++ two h ++ ":" ++ two mi ++ z) = Some (GTime y m d h mi 0 0 o).
Proof.
  intros [| |z' o' Hz]; setup.
  - do 16 reject. accept. fin.
  - do 15 reject. accept. fin.
  - destruct (num_zone_sign _ _ _ Hz) as [w [->| ->]]; do 2 reject; accept; fin.
Qed.

Lemma fit_second f ns z o : fraction f ns -> opt_zone z o ->
  first_fit date_formats (day_text "-" y m d ++ "T" ++ clock_text h mi s ++ f ++ z) = Some (GTime y m d h mi s ns o).
Proof.
  intros Hf [| |z' o' Hz]; setup.
  - accept. fin.
  - reject. accept. fin.
  - destruct (num_zone_sign _ _ _ Hz) as [w [->| ->]]; reject; accept; fin.
Qed.

Lemma fit_exr f ns : fraction f ns ->
  first_fit date_formats (day_text "-" y m d ++ " " ++ clock_text h mi s ++ f) = Some (GTime y m d h mi s ns 0).
Proof. intros Hf. rewrite <- (app_nil_r f). setup. do 4 reject. accept. fin. Qed.
Lemma fit_exr_minute : first_fit date_formats (day_text "-" y m d ++ " " ++ two h ++ ":" ++ two mi) = Some (GTime y m d h mi 0 0 0).
Proof. rewrite (two_nil mi). setup. do 17 reject. accept. fin. Qed.
Lemma fit_mxf f ns : fraction f ns ->
  first_fit date_formats (day_text ":" y m d ++ " " ++ clock_text h mi s ++ f) = Some (GTime y m d h mi s ns 0).
Proof. intros Hf. rewrite <- (app_nil_r f). setup. do 9 reject. accept. fin. Qed.
Lemma fit_arri_csv z o : num_zone ":" z o ->
  first_fit date_formats (day_text "/" y m d ++ "T" ++ clock_text h mi s ++ z) = Some (GTime y m d h mi s 0 o).
Proof. intros Hz. setup. destruct (num_zone_sign _ _ _ Hz) as [w [->| ->]]; do 10 reject; accept; fin. Qed.
Lemma fit_arri_csv_short z o : (1969 <= y <= 2068)%Z -> num_zone ":" z o ->
  first_fit date_formats (two (y mod 100) ++ "/" ++ two m ++ "/" ++ two d ++ "T" ++ clock_text h mi s ++ z) = Some (GTime y m d h mi s 0 o).
Proof.
  intros Hyy Hz. setup.
  assert (E : (if 69 <=? y mod 100 then y mod 100 + 1900 else y mod 100 + 2000)%Z = y).
  { pose proof (Z.div_mod y 100 ltac:(lia)). destruct (Z.leb_spec 69 (y mod 100)); lia. }
  destruct (num_zone_sign _ _ _ Hz) as [w [->| ->]]; do 11 reject; accept; cbn [set_year set_month set_day set_hour set_min set_sec set_zone p_year p_month p_day p_hour p_min p_sec p_nsec p_zone p_start]; rewrite E; fin.
Qed.
Lemma fit_arri_qt z o : num_zone ":" z o ->
  first_fit date_formats (day_text "" y m d ++ "T" ++ two h ++ "h" ++ two mi ++ "m" ++ two s ++ z) = Some (GTime y m d h mi s 0 o).
Proof. intros Hz. setup. destruct (num_zone_sign _ _ _ Hz) as [w [->| ->]]; do 12 reject; accept; fin. Qed.
Lemma fit_arri_xml z o : num_zone ":" z o ->
  first_fit date_formats (day_text "" y m d ++ "T" ++ two h ++ "h" ++ two mi ++ "m" ++ two s ++ "s" ++ z) = Some (GTime y m d h mi s 0 o).
Proof. intros Hz. setup. destruct (num_zone_sign _ _ _ Hz) as [w [->| ->]]; do 13 reject; accept; fin. Qed.
Lemma fit_id3 : first_fit date_formats (day_text ":" y m d) = Some (GTime y m d 0 0 0 0 0).
Proof. setup. rewrite (two_nil d). do 18 reject. accept. fin. Qed.
End Forms.

Lemma fit_month y m : (0 <= y <= 9999)%Z -> (1 <= m <= 12)%Z -> first_fit date_formats (four y ++ "-" ++ two m) = Some (GTime y m 1 0 0 0 0 0).
Proof.
  intros Hy Hm. rewrite (two_nil m). pose proof (Hy2 y). unfold date_formats. cbn [append]. do 19 reject. accept.
  exact (finish_month y m Hm).
Qed.
Lemma fit_year y : (0 <= y <= 9999)%Z -> first_fit date_formats (four y) = Some (GTime y 1 1 0 0 0 0 0).
Proof.
  intros Hy. rewrite (four_nil y). pose proof (Hy2 y). unfold date_formats. do 11 reject.
  eapply ff_no. { apply tp_none; chunked. eapply loop_ok; [skip_ok|std_ok|]. eapply loop_skip. apply skip_two; [lia|reflexivity]. }
  do 8 reject. accept. reflexivity.
Qed.
Lemma fit_iptc h mi s z o : clock h mi s -> num_zone ":" z o -> first_fit date_formats (clock_text h mi s ++ z) = Some (GTime 0 1 1 h mi s 0 o).
Proof.
  intros (Hh & Hmi & Hs) Hz. unfold clock_text, date_formats. rewrite ?app_assoc. cbn [append].
  destruct (num_zone_sign _ _ _ Hz) as [w [->| ->]]; do 21 reject; accept; reflexivity.
Qed.
Lemma fit_iptc_local h mi s : clock h mi s -> first_fit date_formats (clock_text h mi s) = Some (GTime 0 1 1 h mi s 0 0).
Proof.
  intros (Hh & Hmi & Hs). unfold clock_text, date_formats. rewrite (two_nil s). cbn [append].
  do 22 reject. accept; reflexivity.
Qed.
