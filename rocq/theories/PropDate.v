(* C92-C98: dates and times *)
From Coq Require Import List Arith NArith ZArith Bool Ascii String Lia.
From Verif Require Import GoStr GoStrFacts Spec SpecCodec CodecM SpecDate DateM DateReadFacts DateRepairFacts DateThmFacts DateMoreFacts.
Import ListNotations.
Local Open Scope string_scope.

Lemma ex_calendar : calendar 2016 2 29.
Proof. split; [lia|]. exists 29%Z. split; [|lia]. apply february_leap. split; [exists 504%Z; reflexivity|]. left. intros [k K]. lia. Qed.
Definition ex_time : gtime := GTime 2016 2 29 23 59 7 0 (-12600).
Definition ex_frac : gtime := GTime 2016 2 29 23 59 7 250 0.
Lemma ex_proper : proper ex_time.
Proof. split; [exact ex_calendar|]. split; [unfold clock; cbn; lia|]. split; [cbn; lia|]. split; [exists (-210)%Z; reflexivity|cbn; lia]. Qed.

(* ---- C92: a date survives its text form ---- *)
(* up to the second, with the clock and zone it was given in *)
Theorem C92_date_text_partial : forall t, proper t -> forall old s, date_marshal t = Some s ->
  date_unmarshal old s = Ok (whole_second t).
Proof. exact date_rt. Qed.
Print Assumptions C92_date_text_partial.
Theorem C92_whole_seconds : forall t, proper t -> g_nsec t = 0%Z -> forall old s, date_marshal t = Some s -> date_unmarshal old s = Ok t.
Proof. intros t H N old s E. rewrite (date_rt t H old s E). unfold whole_second. rewrite <- N. now destruct t. Qed.
Print Assumptions C92_whole_seconds.
(* what is written is a form of the XMP specification, for this very moment *)
Theorem C92_written_form : forall t s, proper t -> date_marshal t = Some s -> iso s (whole_second t).
Proof. intros t s H E. unfold date_marshal in E. destruct (time_is_zero t); [discriminate|]. injection E as <-. now apply date_string_iso. Qed.
Print Assumptions C92_written_form.
(* "no date" and nothing else is not written, and an absent text is no date *)
Theorem C92_no_date : forall t, proper t -> g_off t = 0%Z -> (date_marshal t = None <-> t = no_date).
Proof. exact silent_utc. Qed.
Print Assumptions C92_no_date.
Theorem C92_absent : forall old, date_unmarshal old "" = Ok no_date.
Proof. reflexivity. Qed.
Print Assumptions C92_absent.
(* every date with a fraction of a second is changed *)
Theorem C92_fraction_refuted : forall t, proper t -> g_nsec t <> 0%Z -> forall old s, date_marshal t = Some s -> date_unmarshal old s <> Ok t.
Proof. intros t H N old s E. rewrite (date_rt t H old s E). intros X. apply (f_equal (fun r => match r with Ok x => g_nsec x | _ => 0%Z end)) in X. cbn in X. congruence. Qed.
Print Assumptions C92_fraction_refuted.
(* so are years of five digits, whose text is not read, and zones with seconds *)
Theorem C92_far_year_refuted : exists t s, date_marshal t = Some s /\ date_unmarshal no_date s = Err "invalid datetime".
Proof. exists (GTime 10000 1 1 0 0 0 0 0), "10000-01-01T00:00:00Z". split; vm_compute; reflexivity. Qed.
Theorem C92_odd_zone_refuted : exists t s, date_marshal t = Some s /\ date_unmarshal no_date s = Ok (GTime 1890 5 1 12 0 0 0 1140) /\ g_off t = 1172%Z.
Proof. exists (GTime 1890 5 1 12 0 0 0 1172), "1890-05-01T12:00:00+00:19". repeat split; vm_compute; reflexivity. Qed.
Example C92_hyps : proper ex_time /\ date_marshal ex_time = Some "2016-02-29T23:59:07-03:30" /\ date_unmarshal no_date "2016-02-29T23:59:07-03:30" = Ok ex_time
  /\ proper ex_frac /\ date_marshal ex_frac = Some "2016-02-29T23:59:07Z" /\ date_unmarshal no_date "2016-02-29T23:59:07Z" <> Ok ex_frac.
Proof.
  split; [exact ex_proper|]. split; [vm_compute; reflexivity|]. split; [vm_compute; reflexivity|].
  split; [split; [exact ex_calendar|]; split; [unfold clock; cbn; lia|]; split; [cbn; lia|]; split; [exists 0%Z; reflexivity|cbn; lia]|].
  split; [vm_compute; reflexivity|vm_compute; discriminate].
Qed.

(* ---- C93: every listed form is read as the moment it denotes ---- *)
Theorem C93_iso_forms : forall v t, iso v t -> parse_date v = Ok t.
Proof. exact parse_iso. Qed.
Print Assumptions C93_iso_forms.
Theorem C93_other_forms : forall v t, other_form v t -> parse_date v = Ok t.
Proof. exact parse_other. Qed.
Print Assumptions C93_other_forms.
(* as a property value, and as the text of a list *)
Theorem C93_as_value : forall v t old, iso v t \/ other_form v t -> date_unmarshal old v = Ok t.
Proof.
  intros v t old H. unfold date_unmarshal. assert (E : emptyb v = false) by (destruct H as [[]|[]]; reflexivity). rewrite E.
  destruct H; [now apply parse_iso|now apply parse_other].
Qed.
Print Assumptions C93_as_value.
Theorem C93_list_text : forall v t old, iso v t \/ other_form v t -> date_list_text old v = Ok (old ++ [t])%list.
Proof. intros v t old H. unfold date_list_text. destruct H as [H|H]; [apply parse_iso in H|apply parse_other in H]; now rewrite H. Qed.
Print Assumptions C93_list_text.
(* one listed form is never read: timestamps with a zone without colon, layout 2006-01-02T15:04:05-0700 *)
Theorem C93_basic_zone_refuted : forall y m d h mi s z o, calendar y m d -> clock h mi s -> num_zone "" z o ->
  parse_date (day_text "-" y m d ++ "T" ++ clock_text h mi s ++ z) = Err "invalid datetime".
Proof. exact basic_zone_rejected. Qed.
Print Assumptions C93_basic_zone_refuted.
Example C93_hyps : iso "2016-02-29T23:59:07.25-03:30" (GTime 2016 2 29 23 59 7 250000000 (-12600)) /\ parse_date "2016-02-29T23:59:07.25-03:30" = Ok (GTime 2016 2 29 23 59 7 250000000 (-12600))
  /\ other_form "20160229T23h59m07s+01:00" (GTime 2016 2 29 23 59 7 0 3600) /\ parse_date "20160229T23h59m07s+01:00" = Ok (GTime 2016 2 29 23 59 7 0 3600)
  /\ iso "2016-02" (GTime 2016 2 1 0 0 0 0 0) /\ parse_date "2016-02-30" = Err "invalid datetime" /\ num_zone "" "+0200" 7200 /\ parse_date "2016-02-29T23:59:07+0200" = Err "invalid datetime".
Proof.
  split. { apply (iso_second 2016 2 29 23 59 7 ".25" 250000000 "-03:30" (-12600) ex_calendar); [unfold clock; lia| |].
    - apply (fraction_digits [2; 5]%Z); [cbn; lia|]. repeat constructor; lia.
    - apply opt_zone_num. apply (zone_west ":" 3 30); lia. }
  split; [vm_compute; reflexivity|].
  split. { apply (form_arri_xml 2016 2 29 23 59 7 "+01:00" 3600 ex_calendar); [unfold clock; lia|]. apply (zone_east ":" 1 0); lia. }
  split; [vm_compute; reflexivity|]. split; [apply (iso_month 2016 2); lia|]. split; [vm_compute; reflexivity|].
  split; [apply (zone_east "" 2 0); lia|vm_compute; reflexivity].
Qed.

(* ---- C94: times of day ---- *)
Theorem C94_time_text_partial : forall t, proper t -> forall old s, time_marshal t = Some s -> time_unmarshal old s = Ok (time_of_day t).
Proof. exact time_rt. Qed.
Print Assumptions C94_time_text_partial.
Theorem C94_photo_mechanic_partial : forall t, proper t -> forall old s, pm_time_marshal t = Some s -> pm_time_unmarshal old s = Ok (time_of_day t).
Proof. exact pm_rt. Qed.
Print Assumptions C94_photo_mechanic_partial.
(* a time that was read is written again as it was, midnight included *)
Theorem C94_time_stable : forall t, proper t -> forall s, time_marshal t = Some s -> time_marshal (time_of_day t) = Some s.
Proof. exact time_stable. Qed.
Print Assumptions C94_time_stable.
Theorem C94_time_forms : forall h mi s, clock h mi s -> parse_time (clock_text h mi s) = Ok (GTime 0 1 1 h mi s 0 0) /\
  (forall z o, num_zone ":" z o -> parse_time (clock_text h mi s ++ z) = Ok (GTime 0 1 1 h mi s 0 o)) /\
  (forall z o, num_zone "" z o -> parse_time (two h ++ two mi ++ two s ++ z) = Ok (GTime 0 1 1 h mi s 0 o)).
Proof.
  intros h mi s H. split; [|split; intros z o Hz].
  - unfold parse_time. replace (emptyb _) with false by reflexivity. now rewrite fit_time_local.
  - unfold parse_time. replace (emptyb _) with false by reflexivity. now rewrite (fit_time _ _ _ _ o).
  - unfold parse_time. replace (emptyb _) with false by reflexivity. now rewrite (fit_time_basic _ _ _ _ o).
Qed.
Print Assumptions C94_time_forms.
(* the day is not kept; and a midnight on the first day of the calendar is not written *)
Theorem C94_day_refuted : forall t, proper t -> g_year t <> 0%Z -> forall old s, time_marshal t = Some s -> time_unmarshal old s <> Ok t.
Proof. intros t H N old s E. rewrite (time_rt t H old s E). intros X. apply (f_equal (fun r => match r with Ok x => g_year x | _ => 0%Z end)) in X. cbn in X. congruence. Qed.
Print Assumptions C94_day_refuted.
Example C94_hyps : proper ex_time /\ time_marshal ex_time = Some "23:59:07-03:30" /\ time_unmarshal no_date "23:59:07-03:30" = Ok (GTime 0 1 1 23 59 7 0 (-12600))
  /\ pm_time_marshal ex_time = Some "235907-0330" /\ pm_time_unmarshal no_date "235907-0330" = Ok (GTime 0 1 1 23 59 7 0 (-12600)) /\ time_marshal no_date = None
  /\ time_marshal (GTime 0 1 1 0 0 0 0 0) = Some "00:00:00+00:00".
Proof. split; [exact ex_proper|]. repeat split; vm_compute; reflexivity. Qed.

(* ---- C95: EXIF dates ---- *)
Theorem C95_exif_forms : forall v t old, exif_form v t -> exif_date_unmarshal old v = Ok t.
Proof. exact exif_reads. Qed.
Print Assumptions C95_exif_forms.
(* the clock is kept, not its zone *)
Theorem C95_exif_text_partial : forall t, proper t -> forall old s, exif_date_marshal t = Some s -> exif_date_unmarshal old s = Ok (clock_in_utc t).
Proof. exact exif_rt. Qed.
Print Assumptions C95_exif_text_partial.
Theorem C95_utc : forall t, proper t -> g_off t = 0%Z -> g_nsec t = 0%Z -> forall old s, exif_date_marshal t = Some s -> exif_date_unmarshal old s = Ok t.
Proof. intros t H O N old s E. rewrite (exif_rt t H old s E). unfold clock_in_utc. destruct t. cbn in O, N |- *. now rewrite O, N. Qed.
Print Assumptions C95_utc.
(* a date with a zone comes back as another moment: its difference to the original is the offset of the zone *)
Theorem C95_zone_refuted : forall t, proper t -> g_off t <> 0%Z -> forall old s, exif_date_marshal t = Some s ->
  exists t', exif_date_unmarshal old s = Ok t' /\ (abs_sec t' - abs_sec t = g_off t)%Z.
Proof.
  intros t H N old s E. exists (clock_in_utc t). split; [exact (exif_rt t H old s E)|]. unfold abs_sec, clock_in_utc. cbn [g_year g_month g_day g_hour g_min g_sec g_off]. lia.
Qed.
Print Assumptions C95_zone_refuted.
(* the forms of the XMP specification without seconds but with a zone, and the day and month alone, are rejected *)
Theorem C95_iso_refuted : forall y m d old, calendar y m d ->
  exif_date_unmarshal old (day_text "-" y m d) = Err "invalid datetime" /\
  exif_date_unmarshal old (four y ++ "-" ++ two m) = Err "invalid datetime" /\
  (forall h mi z o, clock h mi 0 -> num_zone ":" z o -> exif_date_unmarshal old (day_text "-" y m d ++ "T" ++ two h ++ ":" ++ two mi ++ z) = Err "invalid datetime").
Proof.
  intros y m d old Hc. split; [|split].
  - apply fit_err; [reflexivity|]. apply no_exif_day with (h := 0%Z) (mi := 0%Z) (s := 0%Z); [assumption|unfold clock; lia].
  - apply fit_err; [reflexivity|]. apply calendar_day in Hc. now apply no_exif_month.
  - intros h mi z o Hk Hz. apply fit_err; [reflexivity|]. eapply no_exif_minute with (s := 0%Z); eassumption.
Qed.
Print Assumptions C95_iso_refuted.
Example C95_hyps : proper ex_time /\ exif_date_marshal ex_time = Some "2016:02:29 23:59:07" /\ exif_date_unmarshal no_date "2016:02:29 23:59:07" = Ok (GTime 2016 2 29 23 59 7 0 0)
  /\ exif_form "2016:02:29" (GTime 2016 2 29 0 0 0 0 0) /\ exif_date_unmarshal no_date "2016:02:29" = Ok (GTime 2016 2 29 0 0 0 0 0) /\ exif_date_unmarshal no_date "2016-02-29" = Err "invalid datetime".
Proof.
  split; [exact ex_proper|]. split; [vm_compute; reflexivity|]. split; [vm_compute; reflexivity|]. split; [exact (exif_day 2016 2 29 ex_calendar)|]. split; vm_compute; reflexivity.
Qed.

(* ---- C96: EXIF sub-seconds ---- *)
(* full property: for a text s of up to nine digits with value n, the date is the given one plus n * 10^(9 - length s)
   nanoseconds, without error. The code adds nothing, whatever the text: *)
Theorem C96_subseconds_refuted : forall unix d s, time_is_zero d = false -> fst (convert_date unix d s) = d.
Proof. intros unix d s H. destruct (convert_never unix d s) as [E _]. now rewrite H in E. Qed.
Print Assumptions C96_subseconds_refuted.
(* and reports a format error exactly when there are no sub-seconds *)
Theorem C96_error_refuted : forall unix d s, time_is_zero d = false -> (snd (convert_date unix d s) <> None <-> trim_space s = "").
Proof.
  intros unix d s H. destruct (convert_never unix d s) as [_ E]. specialize (E H). destruct (snd _) eqn:S; destruct (string_dec (trim_space s) "") as [T|T].
  - split; [auto|discriminate]. - exfalso. now apply (proj2 E) in T. - exfalso. now apply (proj1 E). - split; congruence.
Qed.
Print Assumptions C96_error_refuted.
(* what does hold: no date stays no date, and a date with whole seconds only is kept *)
Theorem C96_whole_seconds_partial : forall unix d s, fst (convert_date unix d s) = if time_is_zero d then no_date else d.
Proof. intros unix d s. apply convert_never. Qed.
Print Assumptions C96_whole_seconds_partial.
Example C96_hyps : time_is_zero ex_time = false /\ convert_date (fun _ _ => no_date) ex_time "25" = (ex_time, None)
  /\ convert_date (fun _ _ => no_date) ex_time "" = (ex_time, Some "invalid subsecond format").
Proof. repeat split; vm_compute; reflexivity. Qed.

(* ---- C97: ID3 v2.3 dates and times ---- *)
Theorem C97_time_read : forall h mi, (0 <= h <= 23)%Z -> (0 <= mi <= 59)%Z -> forall old, time23_unmarshal old (tim h mi) = Ok (GTime 0 1 1 h mi 0 0 0).
Proof. exact time23_rt. Qed.
Print Assumptions C97_time_read.
Theorem C97_time_written : forall t, clock (g_hour t) (g_min t) (g_sec t) -> time_is_zero t = false -> time23_marshal t = Some (tim (g_hour t) (g_min t)).
Proof. exact time23_text. Qed.
Print Assumptions C97_time_written.
(* its own texts of dates are read back *)
Theorem C97_date_text_partial : forall t, calendar (g_year t) (g_month t) (g_day t) -> forall old s, date23_marshal t = Some s ->
  date23_unmarshal old s = Ok (GTime 0 (g_month t) (g_day t) 0 0 0 0 0).
Proof. exact date23_rt. Qed.
Print Assumptions C97_date_text_partial.
(* but the frame TDAT is day and month (DDMM): days after the 12th are rejected, the others are taken for months *)
Theorem C97_tdat_refuted : forall m d old, (1 <= m <= 12)%Z ->
  ((13 <= d <= 31)%Z -> date23_unmarshal old (tdat m d) = Err "invalid date") /\
  ((1 <= d <= 12)%Z -> date23_unmarshal old (tdat m d) = Ok (GTime 0 d m 0 0 0 0 0)).
Proof. intros m d old Hm. split; intros Hd; [now apply date23_rejected|now apply date23_swapped]. Qed.
Print Assumptions C97_tdat_refuted.
Theorem C97_tdat_written_refuted : forall t, calendar (g_year t) (g_month t) (g_day t) -> time_is_zero t = false ->
  date23_marshal t = Some (tdat (g_day t) (g_month t)).
Proof. exact date23_text. Qed.
Print Assumptions C97_tdat_written_refuted.
Example C97_hyps : tdat 2 29 = "2902" /\ date23_unmarshal no_date "2902" = Err "invalid date" /\ date23_unmarshal no_date "0502" = Ok (GTime 0 5 2 0 0 0 0 0)
  /\ date23_marshal ex_time = Some "0229" /\ date23_unmarshal no_date "0229" = Ok (GTime 0 2 29 0 0 0 0 0) /\ time23_marshal ex_time = Some "2359" /\ time23_unmarshal no_date "2359" = Ok (GTime 0 1 1 23 59 0 0 0).
Proof. repeat split; vm_compute; reflexivity. Qed.

(* ---- C98: whatever the text, a date that is read exists ---- *)
Theorem C98_dates_exist : forall v t, parse_date v = Ok t ->
  calendar (g_year t) (g_month t) (g_day t) /\ clock (g_hour t) (g_min t) (g_sec t) /\ (0 <= g_nsec t < 10 ^ 9)%Z /\ (60 | g_off t)%Z.
Proof. exact parsed_valid. Qed.
Print Assumptions C98_dates_exist.
Theorem C98_no_panic : forall v, parse_date v <> Panic.
Proof. exact parse_date_no_panic. Qed.
Print Assumptions C98_no_panic.
(* reading and writing normalise: what is written is read as the same moment, up to the second *)
Theorem C98_normalised_partial : forall v t old s, parse_date v = Ok t -> (Z.abs (g_off t) < 24 * 3600)%Z -> date_marshal t = Some s ->
  date_unmarshal old s = Ok (whole_second t).
Proof. exact normalised. Qed.
Print Assumptions C98_normalised_partial.
(* zones are not checked: 99 hours and 99 minutes are read, and written as 100 hours, which is not read *)
Theorem C98_zone_refuted : exists v t s, parse_date v = Ok t /\ date_marshal t = Some s /\ parse_date s = Err "invalid datetime".
Proof. exists "2016-02-29T23:59:07+99:99", (GTime 2016 2 29 23 59 7 0 362340), "2016-02-29T23:59:07+100:39". repeat split; vm_compute; reflexivity. Qed.
Example C98_hyps : parse_date "2016:02:29 23:59:07.125" = Ok (GTime 2016 2 29 23 59 7 125000000 0) /\ parse_date "2015-02-29" = Err "invalid datetime" /\ parse_date "2016-13-01" = Err "invalid datetime"
  /\ date_marshal (GTime 2016 2 29 23 59 7 125000000 0) = Some "2016-02-29T23:59:07Z".
Proof. repeat split; vm_compute; reflexivity. Qed.
