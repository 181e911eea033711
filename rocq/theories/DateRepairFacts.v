(* repairTZ leaves the texts of SpecDate.v alone; what ParseDate makes of them *)
From Coq Require Import List Arith NArith ZArith Bool Ascii String Lia.
From Verif Require Import GoStr GoStrFacts Spec SpecCodec CodecM CodecFacts SpecDate DateM DateFacts DateReadFacts.
Import ListNotations.
Local Open Scope string_scope.

Lemma len_two z : String.length (two z) = 2.
Proof. reflexivity. Qed.
Lemma len_four z : String.length (four z) = 4.
Proof. reflexivity. Qed.

Lemma illegal_no a b c w : Ascii.eqb a "-" = false -> Ascii.eqb c "/" = false -> illegal_zero (String a (String b (String c w))) = false.
Proof.
  intros Ha Hc. unfold illegal_zero. cbn [String.eqb]. rewrite Ha, Hc. cbn. now destruct (Ascii.eqb a "0"), (Ascii.eqb b "0").
Qed.
Lemma illegal_four y v : (0 <= y <= 9999)%Z -> illegal_zero (four y ++ v) = false.
Proof.
  intros H. destruct (d100 y H) as [A B]. destruct (d10 _ A), (d10 _ B). rewrite four_two, !two_ch.
  apply illegal_no; apply ch_not; (assumption || reflexivity).
Qed.
Lemma illegal_two z c v : (0 <= z <= 99)%Z -> Ascii.eqb c "/" = false -> illegal_zero (two z ++ String c v) = false.
Proof. intros H Hc. destruct (d10 _ H). rewrite two_ch. apply illegal_no; [apply ch_not; (assumption || reflexivity)|assumption]. Qed.
Lemma ch_inj n c : (0 <= n <= 9)%Z -> ch n = c -> n = Z.of_N (N_of_ascii c - 48).
Proof. intros H <-. revert n H. apply ten; reflexivity. Qed.
Lemma illegal_short a m v : (0 <= a <= 99)%Z -> (1 <= m <= 12)%Z -> illegal_zero (two a ++ String "/" (two m ++ v)) = false.
Proof.
  intros Ha Hm. destruct (illegal_zero _) eqn:E; [|reflexivity]. exfalso. apply illegal_long in E as [E|E]; rewrite !two_ch in E; injection E; intros.
  - discriminate.
  - destruct (d10 m ltac:(lia)) as [A B].
    match goal with H1 : ch (m / 10) = _, H2 : ch (m mod 10) = _ |- _ => apply ch_inj in H1; [|assumption]; apply ch_inj in H2; [|assumption]; cbn in H1, H2 end.
    pose proof (Z.div_mod m 10 ltac:(lia)). lia.
Qed.

Lemma harmless_app a b : harmless a -> harmless b -> harmless (a ++ b).
Proof. intros (H1 & H2 & H3) (H4 & H5 & H6). unfold harmless. rewrite !has_char_app, H1, H2, H3. auto. Qed.
Lemma harmless_dig n : (0 <= n <= 9)%Z -> harmless (dig n).
Proof. revert n. apply ten; repeat split. Qed.
Lemma harmless_two z : (0 <= z <= 99)%Z -> harmless (two z).
Proof. intros H. destruct (d10 z H). apply harmless_app; now apply harmless_dig. Qed.
Lemma harmless_clock h mi s : clock h mi s -> harmless (clock_text h mi s).
Proof.
  intros (Hh & Hmi & Hs). unfold clock_text.
  apply harmless_app; [apply harmless_two; lia|]. apply harmless_app; [repeat split|].
  apply harmless_app; [apply harmless_two; lia|]. apply harmless_app; [repeat split|]. apply harmless_two; lia.
Qed.
Lemma harmless_fraction f ns : fraction f ns -> harmless f.
Proof.
  intros [|ds L H]; [repeat split|]. apply (harmless_app "."); [repeat split|]. clear L. change (harmless (digs ds)).
  induction H as [|d ds Hd _ IH]; [repeat split|]. rewrite digs_cons. apply (harmless_app (dig d)); [now apply harmless_dig|exact IH].
Qed.

Lemma repair_calm w : harmless w -> repair_tail w = w.
Proof. intros H. unfold repair_tail. now rewrite !(harmless_byte w _ H). Qed.
Lemma byte_at_first w v n : n < String.length w -> byte_at (w ++ v) n = byte_at w n.
Proof.
  unfold byte_at. revert n. induction w as [|c w IH]; cbn; intros n H; [lia|]. destruct n; [reflexivity|]. apply IH. lia.
Qed.
Lemma repair_calm_z w : harmless w -> 5 <= String.length w -> repair_tail (w ++ "Z") = w ++ "Z".
Proof.
  intros H L. unfold repair_tail. rewrite length_app. cbn [String.length]. rewrite !byte_at_first by lia. now rewrite !(harmless_byte w _ H).
Qed.
Lemma repair_num z o : num_zone ":" z o -> repair_tail z = z /\ String.length z = 6.
Proof.
  intros [h m Hh Hm|h m Hh Hm]; (split; [|reflexivity]); cbn [append]; rewrite (two_nil m);
    destruct (d10 h ltac:(lia)) as [A B], (d10 m ltac:(lia)) as [C D];
    rewrite !two_ch; cbn [append]; rewrite ?two_ch; unfold repair_tail, byte_at; cbn [String.length Nat.sub String.get sdrop];
    unfold zone_sign at 1 2; rewrite !ch_not by (assumption || reflexivity); cbn [orb];
    rewrite contains_single; cbn [has_char]; rewrite Ascii.eqb_refl, !orb_true_r; reflexivity.
Qed.

(* ---- texts that stay ---- *)
Lemma keep_short v : illegal_zero v = false -> String.length v < 20 -> repair_tz v = v.
Proof. intros. now apply repair_short_str. Qed.
Lemma keep_calm q w : illegal_zero (q ++ w) = false -> harmless w -> 6 <= String.length w -> repair_tz (q ++ w) = q ++ w.
Proof.
  intros Hi H L. destruct (le_lt_dec 20 (String.length (q ++ w))) as [G|G]; [|now apply keep_short].
  rewrite repair_tail_spec by (rewrite ?length_app in *; (assumption || lia)). now rewrite repair_calm.
Qed.
Lemma keep_calm_z q w : illegal_zero (q ++ w ++ "Z") = false -> harmless w -> 5 <= String.length w -> repair_tz (q ++ w ++ "Z") = q ++ w ++ "Z".
Proof.
  intros Hi H L. destruct (le_lt_dec 20 (String.length (q ++ w ++ "Z"))) as [G|G]; [|now apply keep_short].
  rewrite repair_tail_spec by (rewrite ?length_app in *; cbn [String.length] in *; (assumption || lia)). now rewrite repair_calm_z.
Qed.
Lemma keep_num q z o : illegal_zero (q ++ z) = false -> num_zone ":" z o -> repair_tz (q ++ z) = q ++ z.
Proof.
  intros Hi H. destruct (repair_num z o H) as [E L]. destruct (le_lt_dec 20 (String.length (q ++ z))) as [G|G]; [|now apply keep_short].
  rewrite repair_tail_spec by (rewrite ?length_app in *; (assumption || lia)). now rewrite E.
Qed.

Lemma parse_date_fit v t : emptyb v = false -> repair_tz v = v -> first_fit date_formats v = Some t -> parse_date v = Ok t.
Proof. intros H1 H2 H3. unfold parse_date. now rewrite H1, H2, H3. Qed.

Lemma len_clock h mi s : String.length (clock_text h mi s) = 8.
Proof. reflexivity. Qed.
Lemma illegal_day y m d sep v : (0 <= y <= 9999)%Z -> illegal_zero (day_text sep y m d ++ v) = false.
Proof. intros H. unfold day_text. rewrite app_assoc. now apply illegal_four. Qed.

Theorem parse_iso v t : iso v t -> parse_date v = Ok t.
Proof.
  intros [y Hy|y m Hy Hm|y m d Hc|y m d h mi z o Hc Hk Hz|y m d h mi s f ns z o Hc Hk Hf Hz].
  - apply parse_date_fit; [reflexivity| |now apply fit_year]. apply keep_short; [rewrite (four_nil y); now apply illegal_four|cbn; lia].
  - apply parse_date_fit; [reflexivity| |now apply fit_month]. apply keep_short; [now apply illegal_four|cbn; lia].
  - apply parse_date_fit; [reflexivity| |apply fit_day with (h := 0%Z) (mi := 0%Z) (s := 0%Z); [assumption|unfold clock; lia]]. apply keep_short; [|cbn; lia].
    rewrite <- (app_nil_r (day_text _ _ _ _)). apply illegal_day. now apply calendar_day in Hc.
  - apply parse_date_fit; [reflexivity| |now eapply fit_minute with (s := 0%Z)].
    pose proof (proj1 (calendar_day _ _ _ Hc)) as Hy. destruct Hz as [| |z o Hz].
    + apply keep_short; [now apply illegal_day|cbn; lia].
    + apply keep_short; [now apply illegal_day|cbn; lia].
    + rewrite <- !app_assoc. eapply keep_num; [|exact Hz]. rewrite !app_assoc. now apply illegal_day.
  - apply parse_date_fit; [reflexivity| |now apply fit_second].
    pose proof (proj1 (calendar_day _ _ _ Hc)) as Hy.
    pose proof (harmless_app _ _ (harmless_clock _ _ _ Hk) (harmless_fraction _ _ Hf)) as Hw.
    assert (L : 8 <= String.length (clock_text h mi s ++ f)) by (rewrite length_app, len_clock; lia).
    replace (day_text "-" y m d ++ "T" ++ clock_text h mi s ++ f ++ z) with ((day_text "-" y m d ++ "T") ++ (clock_text h mi s ++ f) ++ z) by now rewrite !app_assoc.
    destruct Hz as [| |z o Hz].
    + rewrite app_nil_r. apply keep_calm; [|assumption|lia]. rewrite !app_assoc. now apply illegal_day.
    + apply keep_calm_z; [|assumption|lia]. rewrite !app_assoc. now apply illegal_day.
    + rewrite <- app_assoc. eapply keep_num; [|exact Hz]. rewrite !app_assoc. now apply illegal_day.
Qed.

(* hours, minutes and seconds without separators: the first four digits are a year to the other layouts *)
Lemma year_two_two nx p a b v : (0 <= a <= 99)%Z -> (0 <= b <= 99)%Z -> parse_std SLongYear nx p (two a ++ two b ++ v) = Some (set_year (a * 100 + b) p, v).
Proof.
  intros Ha Hb. assert (E : two a ++ two b ++ v = four (a * 100 + b) ++ v).
  { rewrite four_two. replace ((a * 100 + b) / 100)%Z with a; [replace ((a * 100 + b) mod 100)%Z with b; [reflexivity|]|].
    - rewrite Z.add_comm, Z.mod_add by lia. rewrite Z.mod_small by lia. reflexivity.
    - rewrite Z.add_comm, Z.div_add by lia. rewrite Z.div_small by lia. reflexivity. }
  rewrite E. apply year_four. lia.
Qed.
Lemma fit_getty h mi s z o : clock h mi s -> num_zone "" z o -> first_fit date_formats (two h ++ two mi ++ two s ++ z) = Some (GTime 0 1 1 h mi s 0 o).
Proof.
  intros (Hh & Hmi & Hs) Hz. unfold date_formats. rewrite ?app_assoc.
  assert (S1 : forall nx p c v, is_digit c = false -> (exists p', parse_std SMonth nx p (two s ++ String c v) = Some (p', String c v)) \/ parse_std SMonth nx p (two s ++ String c v) = None).
  { intros. destruct (Z.le_gt_cases 1 s); [destruct (Z.le_gt_cases s 12)|].
    - left. eexists. now apply month_two.
    - right. apply month_out. lia.
    - right. apply month_out. lia. }
  assert (S2 : forall nx p c v, is_digit c = false -> parse_std SDay nx p (String c v) = None).
  { intros nx p c v Hd. unfold is_digit in Hd. cbn. destruct (digit_val c); [discriminate|reflexivity]. }
  assert (R : forall r last c v, is_digit c = false -> parse_loop (("", SMonth) :: ("", SDay) :: r) last (set_year (h * 100 + mi) p_start) (two s ++ String c v) = None).
  { intros r last c v Hd. destruct (S1 (nxt (("", SDay) :: r)) (set_year (h * 100 + mi) p_start) c v Hd) as [[p' E]|E].
    - eapply loop_ok; [reflexivity|exact E|]. eapply loop_std; [reflexivity|]. now apply S2.
    - eapply loop_std; [reflexivity|exact E]. }
  destruct (num_zone_sign _ _ _ Hz) as [w [->| ->]].
  all: do 12 first [ (eapply ff_no; [apply tp_none; chunked; eapply loop_ok; [reflexivity|apply year_two_two; lia|eapply loop_skip; apply skip_two; [lia|reflexivity]]|]) | reject ].
  all: do 2 (eapply ff_no; [apply tp_none; chunked; eapply loop_ok; [reflexivity|apply year_two_two; lia|now apply R]|]).
  all: do 6 first [ (eapply ff_no; [apply tp_none; chunked; eapply loop_ok; [reflexivity|apply year_two_two; lia|eapply loop_skip; apply skip_two; [lia|reflexivity]]|]) | reject ].
  all: eapply ff_no; [apply tp_none; chunked; eapply loop_ok; [reflexivity|apply year_two_two; lia|eapply loop_extra; rewrite two_ch; reflexivity]|].
  all: do 2 reject.
  all: accept; reflexivity.
Qed.

Theorem parse_other v t : other_form v t -> parse_date v = Ok t.
Proof.
  intros [y m d h mi s f ns Hc Hk Hf|y m d h mi Hc Hk|y m d h mi s f ns Hc Hk Hf|y m d h mi s z o Hc Hk Hz|y m d h mi s z o Hc Hyy Hk Hz|y m d h mi s z o Hc Hk Hz|
    y m d h mi s z o Hc Hk Hz|y m d Hc|h mi s z o Hk Hz|h mi s Hk|h mi s z o Hk Hz];
    apply parse_date_fit; try reflexivity.
  1: { pose proof (proj1 (calendar_day _ _ _ Hc)). replace (day_text "-" y m d ++ " " ++ clock_text h mi s ++ f) with ((day_text "-" y m d ++ " ") ++ clock_text h mi s ++ f) by now rewrite !app_assoc.
    apply keep_calm; [rewrite !app_assoc; now apply illegal_day|apply harmless_app; [now apply harmless_clock|eapply harmless_fraction; eassumption]|rewrite length_app, len_clock; lia]. }
  1: now apply fit_exr.
  1: apply keep_short; [apply illegal_day; now apply calendar_day in Hc|cbn; lia].
  1: now apply fit_exr_minute with (s := 0%Z).
  1: { pose proof (proj1 (calendar_day _ _ _ Hc)). replace (day_text ":" y m d ++ " " ++ clock_text h mi s ++ f) with ((day_text ":" y m d ++ " ") ++ clock_text h mi s ++ f) by now rewrite !app_assoc.
    apply keep_calm; [rewrite !app_assoc; now apply illegal_day|apply harmless_app; [now apply harmless_clock|eapply harmless_fraction; eassumption]|rewrite length_app, len_clock; lia]. }
  1: now apply fit_mxf.
  1: { rewrite <- !app_assoc. eapply keep_num; [|exact Hz]. rewrite !app_assoc. apply illegal_day. now apply calendar_day in Hc. }
  1: now apply fit_arri_csv.
  1: { pose proof (calendar_day _ _ _ Hc) as (_ & Hm & _). rewrite <- !app_assoc. eapply keep_num; [|exact Hz]. rewrite !app_assoc. apply illegal_short; [|assumption]. apply Hy2. }
  1: now apply fit_arri_csv_short.
  1: { rewrite <- !app_assoc. eapply keep_num; [|exact Hz]. rewrite !app_assoc. apply illegal_day. now apply calendar_day in Hc. }
  1: now apply fit_arri_qt.
  1: { rewrite <- !app_assoc. eapply keep_num; [|exact Hz]. rewrite !app_assoc. apply illegal_day. now apply calendar_day in Hc. }
  1: now apply fit_arri_xml.
  1: { apply keep_short; [|cbn; lia]. rewrite <- (app_nil_r (day_text _ _ _ _)). apply illegal_day. now apply calendar_day in Hc. }
  1: apply fit_id3 with (h := 0%Z) (mi := 0%Z) (s := 0%Z); [assumption|unfold clock; lia].
  1: { apply keep_short; [unfold clock_text; rewrite app_assoc; destruct Hk; apply illegal_two; [lia|reflexivity]|]. rewrite length_app, len_clock, (proj2 (repair_num _ _ Hz)). lia. }
  1: now apply fit_iptc.
  1: { apply keep_short; [unfold clock_text; destruct Hk; apply illegal_two; [lia|reflexivity]|cbn; lia]. }
  1: now apply fit_iptc_local.
  1: { destruct Hk as (Hh & Hmi & Hs). destruct (d10 mi ltac:(lia)), (d10 h ltac:(lia)). apply keep_short; [rewrite !two_ch; apply illegal_no; apply ch_not; (assumption || reflexivity)|]. destruct Hz; cbn; lia. }
  now apply fit_getty.
Qed.
