(* Zones without colon, times of day, the dates of EXIF and ID3 *)
From Coq Require Import List Arith NArith ZArith Bool Ascii String Lia.
From Verif Require Import GoStr GoStrFacts Spec SpecFacts SpecCodec CodecM CodecFacts SpecDate DateM DateFacts DateReadFacts DateRepairFacts DateThmFacts.
Import ListNotations.
Local Open Scope string_scope.

(* ---- zones +hhmm of complete timestamps ---- *)
Lemma basic_of z o : num_zone "" z o -> exists sg w n, z = String sg w /\ zone_basic (String sg w) n /\ (sg = "+" \/ sg = "-")%char /\
  exists a b, w = two a ++ two b /\ (0 <= a <= 23)%Z /\ (0 <= b <= 59)%Z.
Proof.
  assert (D : forall n, (0 <= n <= 9)%Z -> digit (ascii_of_N (Z.to_N (48 + n))) n) by now split.
  intros [h m Hh Hm|h m Hh Hm]; (destruct (d10 h) as [h1 h2]; [lia|]); (destruct (d10 m) as [m1 m2]; [lia|]).
  - exists "+"%char, (two h ++ "" ++ two m). eexists. split; [reflexivity|]. split; [|split; [auto|exists h, m; auto]].
    apply zone_plain; [left; split; reflexivity|apply D; assumption..].
  - exists "-"%char, (two h ++ "" ++ two m). eexists. split; [reflexivity|]. split; [|split; [auto|exists h, m; auto]].
    apply zone_plain; [right; split; reflexivity|apply D; assumption..].
Qed.
Lemma shifted a b : (0 <= a <= 23)%Z -> (0 <= b <= 59)%Z ->
  exists x u c, String "0" (two a ++ two b) = two x ++ two u ++ String (ch c) "" /\ (0 <= x <= 99)%Z /\ (0 <= u <= 99)%Z /\ (0 <= c <= 9)%Z.
Proof.
  intros Ha Hb. destruct (d10 a) as [a1 a2]; [lia|]. destruct (d10 b) as [b1 b2]; [lia|].
  exists (a / 10)%Z, (a mod 10 * 10 + b / 10)%Z, (b mod 10)%Z. split; [|lia].
  rewrite <- (app_nil_r (two b)). rewrite !two_ch.
  rewrite (Z.div_small (a / 10) 10) by lia. rewrite (Z.mod_small (a / 10) 10) by lia.
  rewrite Z.add_comm, Z.div_add, Z.mod_add by lia. rewrite (Z.div_small (b / 10) 10) by lia. rewrite (Z.mod_small (b / 10) 10) by lia. reflexivity.
Qed.
Lemma colon_tz_bad e nx p sg x u c : e = SNumColonTZ \/ e = SISOColonTZ -> (sg = "+" \/ sg = "-")%char -> (0 <= x <= 99)%Z -> (0 <= u <= 99)%Z -> (0 <= c <= 9)%Z ->
  parse_std e nx p (String sg (two x ++ two u ++ String (ch c) "")) = None.
Proof.
  intros He Hs Hx Hu Hc. rewrite !two_ch. destruct (d10 u Hu) as [U1 U2].
  pose proof (ch_not (u / 10) ":" U1 eq_refl) as E.
  destruct He as [->| ->]; unfold parse_std.
  - change (byte_at (String sg (String (ch (x / 10)) (String (ch (x mod 10)) (String (ch (u / 10)) (String (ch (u mod 10)) (String (ch c) "")))))) 3) with (ch (u / 10)).
    rewrite E. destruct (Nat.ltb _ _); reflexivity.
  - change (byte_at (String sg (String (ch (x / 10)) (String (ch (x mod 10)) (String (ch (u / 10)) (String (ch (u mod 10)) (String (ch c) "")))))) 3) with (ch (u / 10)).
    rewrite E. assert (Z : Ascii.eqb sg "Z" = false) by (destruct Hs as [->| ->]; reflexivity). rewrite Z. destruct (Nat.ltb _ _); reflexivity.
Qed.
Lemma num_tz_more nx p sg x u c : (sg = "+" \/ sg = "-")%char -> (0 <= x <= 99)%Z -> (0 <= u <= 99)%Z ->
  exists q, parse_std SNumTZ nx p (String sg (two x ++ two u ++ String (ch c) "")) = Some (q, String (ch c) "").
Proof.
  intros Hs Hx Hu. unfold parse_std. change (Nat.ltb (String.length (String sg (two x ++ two u ++ String (ch c) ""))) 5) with false. cbv iota.
  change (stake 1 (String sg (two x ++ two u ++ String (ch c) ""))) with (String sg ""). change (stake 2 (sdrop 1 (String sg (two x ++ two u ++ String (ch c) "")))) with (two x).
  change (stake 2 (sdrop 3 (String sg (two x ++ two u ++ String (ch c) "")))) with (two u). change (sdrop 5 (String sg (two x ++ two u ++ String (ch c) ""))) with (String (ch c) "").
  unfold zone_of. rewrite !atoi_two by assumption. destruct Hs as [->| ->]; eexists; reflexivity.
Qed.

(* literals without blanks are matched exactly *)
Lemma skip_exact p : has_char " " p = false -> forall v w, skip_lit p v = Some w -> v = p ++ w.
Proof.
  induction p as [|a p IH]; intros Hp v w H; [now injection H as <-|]. cbn [skip_lit] in H.
  destruct (Ascii.eqb_spec a " ") as [->|_]; [discriminate|].
  destruct v as [|c v]; [discriminate|]. destruct (Ascii.eqb_spec c a) as [->|_]; [|discriminate]. cbn. f_equal. eapply IH; [|exact H]. cbn [has_char] in Hp. now apply orb_false_elim in Hp as [_ Hp].
Qed.
Lemma two_zero z v w : (0 <= z <= 99)%Z -> two z ++ v = String "0" (String "0" w) -> z = 0%Z /\ v = w.
Proof.
  intros H. rewrite two_ch. intros E. destruct (d10 z H) as [A B]. injection E as E1 E2 E3.
  apply ch_inj in E1; [|assumption]. apply ch_inj in E2; [|assumption]. cbn in E1, E2. split; [|assumption]. pose proof (Z.div_mod z 10 ltac:(lia)). lia.
Qed.
Lemma hour_colon r last p z v : (0 <= z <= 99)%Z -> forall a, (0 <= a <= 99)%Z ->
  parse_loop (("", SHour) :: (":", SMinute) :: r) last p (two z ++ two a ++ v) = None.
Proof.
  intros H a Ha. destruct (Z.leb_spec z 23).
  - eapply loop_ok; [reflexivity|apply hour_two; lia|]. apply loop_skip. now apply skip_two.
  - eapply loop_std; [reflexivity|]. apply hour_out. lia.
Qed.

Lemma str_tail c a b : String c a = String c b -> a = b.
Proof. now intros [=]. Qed.

Section Basic.
Variables y m d h mi s x u c : Z.
Variable sg : ascii.
Hypothesis Hc : calendar y m d.
Hypothesis Hk : clock h mi s.
Hypothesis Hsg : (sg = "+" \/ sg = "-")%char.
Hypothesis Hx : (0 <= x <= 99)%Z.
Hypothesis Hu : (0 <= u <= 99)%Z.
Hypothesis Hcc : (0 <= c <= 9)%Z.

Lemma no_fit_basic : first_fit date_formats (day_text "-" y m d ++ "T" ++ clock_text h mi s ++ String sg (two x ++ two u ++ String (ch c) "")) = None.
Proof.
  pose proof (Hy y m d Hc); pose proof (Hm y m d Hc); pose proof (Hd y m d Hc); pose proof (Hy2 y); destruct Hk as (Hh & Hmi & Hs).
  unfold date_formats, day_text, clock_text. rewrite ?app_assoc. cbn [append].
  assert (M : forall e nx p, e = SNumColonTZ \/ e = SISOColonTZ -> parse_std e nx p (String sg (two x ++ two u ++ String (ch c) "")) = None) by (intros; now apply colon_tz_bad).
  assert (N : forall nx p, exists q, parse_std SNumTZ nx p (String sg (two x ++ two u ++ String (ch c) "")) = Some (q, String (ch c) "")) by (intros; now apply num_tz_more).
  set (w := two x ++ two u ++ String (ch c) "") in *. clearbody w.
  destruct Hsg as [->| ->].
  all: eapply ff_no; [apply tp_none; chunked; loop|].
  all: eapply ff_no; [apply tp_none; chunked; do 6 (eapply loop_ok; [skip_ok|std_ok|]); eapply loop_std; [skip_ok|apply M; auto]|].
  all: do 3 reject.
  all: eapply ff_no; [apply tp_none; chunked; do 7 (eapply loop_ok; [skip_ok|std_ok|]); eapply loop_std; [skip_ok|apply M; auto]|].
  all: do 2 reject.
  all: eapply ff_no; [apply tp_none; chunked; do 6 (eapply loop_ok; [skip_ok|std_ok|]);
    match goal with |- parse_loop [(_, SNumTZ)] _ ?p _ = _ => destruct (N (nxt []) p) as [q Q] end; eapply loop_ok; [skip_ok|exact Q|]; eapply loop_extra; reflexivity|].
  all: do 12 reject.
  all: do 2 (eapply ff_no; [apply tp_none; chunked; rewrite four_two; destruct (d100 y); [assumption|]; now apply hour_colon|]).
  all: eapply ff_no; [apply tp_none; chunked; rewrite four_two; destruct (d100 y) as [Ya Yb]; [assumption|];
    destruct (Z.leb_spec (y / 100) 23); [eapply loop_ok; [reflexivity|apply hour_two; lia|]|eapply loop_std; [reflexivity|]; apply hour_out; lia];
    destruct (Z.leb_spec (y mod 100) 59); [eapply loop_ok; [reflexivity|apply minute_two; lia|]; eapply loop_std; [reflexivity|reflexivity]
      |eapply loop_std; [reflexivity|]; unfold parse_std; rewrite getnum_two by lia; now rewrite ranged_out by lia]|].
  all: eapply ff_no; [apply tp_none; chunked; do 3 (eapply loop_ok; [skip_ok|std_ok|]);
    match goal with |- parse_loop ((?l, _) :: _) _ _ ?v = _ => destruct (skip_lit l v) as [r|] eqn:E; [|now apply loop_skip] end;
    eapply loop_std; [exact E|]; apply skip_exact in E; [|reflexivity]; cbn [append] in E; apply str_tail in E;
    apply two_zero in E as [_ E]; [|lia]; apply str_tail in E; apply two_zero in E as [_ E]; [|lia]; apply str_tail in E; apply two_zero in E as [_ E]; [|lia]; subst r;
    unfold parse_std; destruct (Nat.ltb _ _); reflexivity|].
  all: eapply ff_no; [apply tp_none; chunked; do 2 (eapply loop_ok; [skip_ok|std_ok|]); apply loop_skip;
    match goal with |- skip_lit ?l ?v = _ => destruct (skip_lit l v) as [r|] eqn:E; [|reflexivity] end;
    apply skip_exact in E; [|reflexivity]; cbn [append] in E; apply str_tail in E; apply two_zero in E as [E _]; lia|].
  all: eapply ff_no; [apply tp_none; chunked; do 1 (eapply loop_ok; [skip_ok|std_ok|]); apply loop_skip;
    match goal with |- skip_lit ?l ?v = _ => destruct (skip_lit l v) as [r|] eqn:E; [|reflexivity] end;
    apply skip_exact in E; [|reflexivity]; cbn [append] in E; apply str_tail in E; apply two_zero in E as [E _]; lia|].
  all: eapply ff_no; [apply tp_none; chunked; do 3 (eapply loop_ok; [skip_ok|std_ok|]); apply loop_more;
    match goal with |- skip_lit ?l ?v = _ => destruct (skip_lit l v) as [r|] eqn:E; [|reflexivity] end;
    apply skip_exact in E; [|reflexivity]; cbn [append] in E; apply str_tail in E;
    apply two_zero in E as [_ E]; [|lia]; apply str_tail in E; apply two_zero in E as [_ E]; [|lia]; apply str_tail in E; apply two_zero in E as [_ E]; [|lia]; discriminate|].
  all: eapply ff_no; [apply tp_none; chunked; do 2 (eapply loop_ok; [skip_ok|std_ok|]); apply loop_more;
    match goal with |- skip_lit ?l ?v = _ => destruct (skip_lit l v) as [r|] eqn:E; [|reflexivity] end;
    apply skip_exact in E; [|reflexivity]; cbn [append] in E; apply str_tail in E; apply two_zero in E as [E _]; lia|].
  all: eapply ff_no; [apply tp_none; chunked; do 1 (eapply loop_ok; [skip_ok|std_ok|]); apply loop_more;
    match goal with |- skip_lit ?l ?v = _ => destruct (skip_lit l v) as [r|] eqn:E; [|reflexivity] end;
    apply skip_exact in E; [|reflexivity]; cbn [append] in E; apply str_tail in E; apply two_zero in E as [E _]; lia|].
  all: reflexivity.
Qed.
End Basic.

Theorem basic_zone_rejected y m d h mi s z o : calendar y m d -> clock h mi s -> num_zone "" z o ->
  parse_date (day_text "-" y m d ++ "T" ++ clock_text h mi s ++ z) = Err "invalid datetime".
Proof.
  intros Hc Hk Hz. destruct (basic_of z o Hz) as (sg & w & n & -> & Hb & Hsg & a & b & -> & Ha & Hb').
  assert (L : local_time (day_text "-" y m d ++ "T" ++ clock_text h mi s)).
  { exists (day_text "-" y m d ++ "T" ++ two h), (":" ++ two mi ++ ":" ++ two s). split; [unfold clock_text; now rewrite !app_assoc|]. split; [reflexivity|]. split; [cbn; lia|].
    destruct Hk as (Hh & Hmi & Hs).
    assert (X : harmless (":" ++ two mi ++ ":" ++ two s)).
    { apply harmless_app; [repeat split|]. apply harmless_app; [apply harmless_two; lia|]. apply harmless_app; [repeat split|]. apply harmless_two; lia. }
    destruct X as (X1 & X2 & X3). repeat split; now apply lacks_char. }
  destruct (repair_zone_long _ _ _ _ L Hb) as [_ R]. rewrite !app_assoc in R. unfold parse_date.
  replace (emptyb _) with false by reflexivity. rewrite R.
  destruct (shifted a b Ha Hb') as (x & u & c & -> & Hx & Hu & Hcc). now rewrite no_fit_basic.
Qed.

(* ---- times of day ---- *)
Lemma time_text t : proper t -> exists z, time_string t = clock_text (g_hour t) (g_min t) (g_sec t) ++ z /\ num_zone ":" z (g_off t).
Proof.
  intros (_ & (Hh & Hmi & Hs) & _ & Ho1 & Ho2). exists (format_zone ":" (g_off t)). split; [|now apply format_zone_spec].
  unfold time_string, time_format. let c := eval vm_compute in (chunks "15:04:05-07:00") in change (chunks "15:04:05-07:00") with c.
  unfold format_layout. cbn [map fst snd format_std]. rewrite !append_two by lia.
  cbn [String.concat]. unfold clock_text. cbn [append]. rewrite ?app_assoc. cbn [append]. rewrite ?app_assoc, ?app_nil_r. reflexivity.
Qed.
Lemma fit_time h mi s z o : clock h mi s -> num_zone ":" z o -> first_fit time_formats (clock_text h mi s ++ z) = Some (GTime 0 1 1 h mi s 0 o).
Proof. intros (Hh & Hmi & Hs) Hz. unfold clock_text, time_formats. rewrite ?app_assoc. cbn [append]. destruct (num_zone_sign _ _ _ Hz) as [w [->| ->]]; accept; reflexivity. Qed.
Lemma fit_time_local h mi s : clock h mi s -> first_fit time_formats (clock_text h mi s) = Some (GTime 0 1 1 h mi s 0 0).
Proof. intros (Hh & Hmi & Hs). unfold clock_text, time_formats. rewrite (two_nil s). cbn [append]. reject. accept. reflexivity. Qed.
Lemma fit_time_basic h mi s z o : clock h mi s -> num_zone "" z o -> first_fit time_formats (two h ++ two mi ++ two s ++ z) = Some (GTime 0 1 1 h mi s 0 o).
Proof.
  intros (Hh & Hmi & Hs) Hz. unfold time_formats. destruct (num_zone_sign _ _ _ Hz) as [w [->| ->]].
  all: do 2 (eapply ff_no; [apply tp_none; chunked; apply hour_colon; lia|]); accept; reflexivity.
Qed.
Theorem time_rt t : proper t -> forall old s, time_marshal t = Some s -> time_unmarshal old s = Ok (time_of_day t).
Proof.
  intros H old s E. unfold time_marshal in E. destruct (time_is_zero t); [discriminate|]. injection E as <-.
  destruct (time_text t H) as (z & -> & Hz). unfold time_unmarshal, parse_time.
  replace (emptyb _) with false by reflexivity. rewrite (fit_time _ _ _ _ (g_off t)); [reflexivity|apply H|assumption].
Qed.
(* a time that has been read is written again, midnight too *)
Lemma day_zero_before h mi s o : clock h mi s -> (Z.abs o < 24 * 3600)%Z -> time_is_zero (GTime 0 1 1 h mi s 0 o) = false.
Proof.
  intros (Hh & Hmi & Hs) Ho. unfold time_is_zero, abs_sec. cbn [g_year g_month g_day g_hour g_min g_sec g_nsec g_off].
  change (abs_days 0 1 1) with (-366)%Z. apply andb_false_intro1. apply Z.eqb_neq. lia.
Qed.
Lemma time_string_clock t t' : g_hour t = g_hour t' -> g_min t = g_min t' -> g_sec t = g_sec t' -> g_off t = g_off t' -> time_string t = time_string t'.
Proof.
  intros H1 H2 H3 H4. unfold time_string, time_format. let c := eval vm_compute in (chunks "15:04:05-07:00") in change (chunks "15:04:05-07:00") with c.
  unfold format_layout. cbn [map fst snd format_std]. now rewrite H1, H2, H3, H4.
Qed.
Theorem time_stable t : proper t -> forall s, time_marshal t = Some s -> time_marshal (time_of_day t) = Some s.
Proof.
  intros H s E. unfold time_marshal in *. destruct (time_is_zero t); [discriminate|].
  unfold time_of_day. rewrite day_zero_before; [|apply H..]. rewrite <- E. clear E.
  rewrite (time_string_clock (GTime 0 1 1 (g_hour t) (g_min t) (g_sec t) 0 (g_off t)) t) by reflexivity. reflexivity.
Qed.

(* ---- Photo Mechanic ---- *)
Theorem pm_rt t : proper t -> forall old s, pm_time_marshal t = Some s -> pm_time_unmarshal old s = Ok (time_of_day t).
Proof.
  intros H old s E. unfold pm_time_marshal in E. destruct (time_is_zero t); [discriminate|]. injection E as <-.
  destruct H as (_ & Hk & _ & Ho1 & Ho2). pose proof (format_zone_spec "" _ Ho1 Ho2) as Hz.
  assert (T : time_format pm_format t = two (g_hour t) ++ two (g_min t) ++ two (g_sec t) ++ format_zone "" (g_off t)).
  { destruct Hk as (Hh & Hmi & Hs). unfold time_format. let c := eval vm_compute in (chunks pm_format) in change (chunks pm_format) with c.
    unfold format_layout. cbn [map fst snd format_std]. rewrite !append_two by lia.
    cbn [String.concat]. cbn [append]. rewrite ?app_assoc. cbn [append]. rewrite ?app_assoc, ?app_nil_r. reflexivity. }
  rewrite T. unfold pm_time_unmarshal. replace (emptyb _) with false by reflexivity. clear T. destruct Hk as (Hh & Hmi & Hs).
  set (z := format_zone "" (g_off t)) in *. clearbody z.
  assert (P : time_parse pm_format (two (g_hour t) ++ two (g_min t) ++ two (g_sec t) ++ z) = Some (time_of_day t)).
  { unfold pm_format. destruct (num_zone_sign _ _ _ Hz) as [w [->| ->]]; (eapply tp_some; [chunked; loop|reflexivity]). }
  now rewrite P.
Qed.

(* ---- EXIF ---- *)
Section Exif.
Variables y m d h mi s : Z.
Hypothesis Hc : calendar y m d.
Hypothesis Hk : clock h mi s.
Ltac setup := pose proof (Hy y m d Hc); pose proof (Hy2 y); pose proof (Hm y m d Hc); pose proof (Hd y m d Hc); destruct Hk as (Hh & Hmi & Hs); unfold exif_formats, day_text, clock_text; rewrite ?app_assoc; cbn [append].
Ltac fin := exact (finish_date y m d _ _ _ _ _ Hc).
Lemma fit_exif_iso f ns z o : fraction f ns -> opt_zone z o ->
  first_fit exif_formats (day_text "-" y m d ++ "T" ++ clock_text h mi s ++ f ++ z) = Some (GTime y m d h mi s ns o).
Proof.
  intros Hf [| |z' o' Hz]; setup.
  - accept. fin.
  - reject. accept. fin.
  - destruct (num_zone_sign _ _ _ Hz) as [w [->| ->]]; reject; accept; fin.
Qed.
Lemma fit_exif_iso_minute : first_fit exif_formats (day_text "-" y m d ++ "T" ++ two h ++ ":" ++ two mi) = Some (GTime y m d h mi 0 0 0).
Proof. rewrite (two_nil mi). setup. do 5 reject. accept. fin. Qed.
Lemma fit_exif_zone f ns z o : fraction f ns -> num_zone ":" z o ->
  first_fit exif_formats (day_text ":" y m d ++ " " ++ clock_text h mi s ++ f ++ z) = Some (GTime y m d h mi s ns o).
Proof. intros Hf Hz. setup. destruct (num_zone_sign _ _ _ Hz) as [w [->| ->]]; do 6 reject; accept; fin. Qed.
Lemma fit_exif_plain f ns : fraction f ns ->
  first_fit exif_formats (day_text ":" y m d ++ " " ++ clock_text h mi s ++ f) = Some (GTime y m d h mi s ns 0).
Proof. intros Hf. rewrite <- (app_nil_r f). setup. do 8 reject. accept. fin. Qed.
Lemma fit_exif_minute : first_fit exif_formats (day_text ":" y m d ++ " " ++ two h ++ ":" ++ two mi) = Some (GTime y m d h mi 0 0 0).
Proof. rewrite (two_nil mi). setup. do 9 reject. accept. fin. Qed.
Lemma fit_exif_day : first_fit exif_formats (day_text ":" y m d) = Some (GTime y m d 0 0 0 0 0).
Proof. setup. rewrite (two_nil d). do 10 reject. accept. fin. Qed.
(* the short forms of the XMP specification fit no layout *)
Lemma no_exif_day : first_fit exif_formats (day_text "-" y m d) = None.
Proof. setup. rewrite (two_nil d). repeat reject. reflexivity. Qed.
Lemma no_exif_minute z o : num_zone ":" z o -> first_fit exif_formats (day_text "-" y m d ++ "T" ++ two h ++ ":" ++ two mi ++ z) = None.
Proof. intros Hz. setup. destruct (num_zone_sign _ _ _ Hz) as [w [->| ->]]; repeat reject; reflexivity. Qed.
End Exif.
Lemma fit_exif_month y m : (0 <= y <= 9999)%Z -> (1 <= m <= 12)%Z -> first_fit exif_formats (four y ++ ":" ++ two m) = Some (GTime y m 1 0 0 0 0 0).
Proof. intros Hy Hm. rewrite (two_nil m). unfold exif_formats. cbn [append]. do 11 reject. accept. exact (finish_month y m Hm). Qed.
Lemma no_exif_month y m : (0 <= y <= 9999)%Z -> (1 <= m <= 12)%Z -> first_fit exif_formats (four y ++ "-" ++ two m) = None.
Proof. intros Hy Hm. rewrite (two_nil m). unfold exif_formats. cbn [append]. repeat reject. reflexivity. Qed.
Lemma fit_exif_year y : (0 <= y <= 9999)%Z -> first_fit exif_formats (four y) = Some (GTime y 1 1 0 0 0 0 0).
Proof. intros Hy. rewrite (four_nil y). unfold exif_formats. do 12 reject. accept. reflexivity. Qed.

Theorem exif_reads v t old : exif_form v t -> exif_date_unmarshal old v = Ok t.
Proof.
  intros H. assert (E : emptyb v = false) by (destruct H; reflexivity).
  unfold exif_date_unmarshal. rewrite E.
  assert (F : first_fit exif_formats v = Some t); [|now rewrite F].
  destruct H as [y m d h mi s f ns z o Hc Hk Hf Hz|y m d h mi Hc Hk|y m d h mi s f ns z o Hc Hk Hf Hz|y m d h mi s f ns Hc Hk Hf|y m d h mi Hc Hk|y m d Hc|y m Hy Hm|y Hy].
  - now apply fit_exif_iso. - now apply fit_exif_iso_minute with (s := 0%Z). - now apply fit_exif_zone. - now apply fit_exif_plain.
  - now apply fit_exif_minute with (s := 0%Z). - apply fit_exif_day with (h := 0%Z) (mi := 0%Z) (s := 0%Z); [assumption|unfold clock; lia].
  - now apply fit_exif_month. - now apply fit_exif_year.
Qed.
Lemma exif_string t : proper t -> time_format exif_date_format t = day_text ":" (g_year t) (g_month t) (g_day t) ++ " " ++ clock_text (g_hour t) (g_min t) (g_sec t) ++ "".
Proof.
  intros (Hc & (Hh & Hmi & Hs) & _). pose proof (calendar_day _ _ _ Hc) as (Hy & Hm & Hd).
  unfold time_format. let c := eval vm_compute in (chunks exif_date_format) in change (chunks exif_date_format) with c.
  unfold format_layout. cbn [map fst snd format_std]. rewrite append_four, !append_two by lia.
  cbn [String.concat]. unfold day_text, clock_text. cbn [append]. rewrite ?app_assoc. cbn [append]. rewrite ?app_assoc, ?app_nil_r. reflexivity.
Qed.
Theorem exif_rt t : proper t -> forall old s, exif_date_marshal t = Some s -> exif_date_unmarshal old s = Ok (clock_in_utc t).
Proof.
  intros H old s E. unfold exif_date_marshal in E. destruct (time_is_zero t); [discriminate|]. injection E as <-.
  rewrite exif_string by assumption. apply exif_reads. destruct H as (Hc & Hk & _). apply exif_plain; auto. constructor.
Qed.
Lemma fit_err v old : emptyb v = false -> first_fit exif_formats v = None -> exif_date_unmarshal old v = Err "invalid datetime".
Proof. intros H1 H2. unfold exif_date_unmarshal. now rewrite H1, H2. Qed.

(* ---- sub-seconds ---- *)
Lemma convert_never unix d s : fst (convert_date unix d s) = (if time_is_zero d then no_date else d) /\
  (time_is_zero d = false -> (snd (convert_date unix d s) = None <-> trim_space s <> "")).
Proof.
  unfold convert_date. destruct (time_is_zero d); [split; [reflexivity|discriminate]|].
  destruct (trim_space s) as [|c r] eqn:E; cbn.
  - split; [reflexivity|]. intros _. split; [discriminate|congruence].
  - split; [reflexivity|]. intros _. split; [discriminate|reflexivity].
Qed.

(* ---- ID3 ---- *)
Lemma time23_rt h mi : (0 <= h <= 23)%Z -> (0 <= mi <= 59)%Z -> forall old, time23_unmarshal old (tim h mi) = Ok (GTime 0 1 1 h mi 0 0 0).
Proof.
  intros Hh Hmi old. unfold time23_unmarshal, tim, time23_format. rewrite (two_nil mi).
  assert (P : time_parse "1504" (two h ++ two mi ++ "") = Some (GTime 0 1 1 h mi 0 0 0)); [|now rewrite P].
  eapply tp_some; [chunked; loop|reflexivity].
Qed.
Lemma time23_text t : clock (g_hour t) (g_min t) (g_sec t) -> time_is_zero t = false -> time23_marshal t = Some (tim (g_hour t) (g_min t)).
Proof.
  intros (Hh & Hmi & Hs) Z. unfold time23_marshal. rewrite Z. unfold time_format. let c := eval vm_compute in (chunks time23_format) in change (chunks time23_format) with c.
  unfold format_layout. cbn [map fst snd format_std]. rewrite !append_two by lia. cbn [String.concat append]. rewrite ?app_nil_r. reflexivity.
Qed.
Lemma date23_swapped m d : (1 <= d <= 12)%Z -> (1 <= m <= 12)%Z -> forall old, date23_unmarshal old (tdat m d) = Ok (GTime 0 d m 0 0 0 0 0).
Proof.
  intros Hd Hm old. unfold date23_unmarshal, tdat, date23_format. rewrite (two_nil m).
  assert (P : time_parse "0102" (two d ++ two m ++ "") = Some (GTime 0 d m 0 0 0 0 0)); [|now rewrite P].
  eapply tp_some; [chunked; loop|]. cbn [set_month set_day p_year p_month p_day p_hour p_min p_sec p_nsec p_zone p_start].
  assert (C : calendar 0 d m). { apply calendar_spec. pose proof (days_in_bound d 0 Hd). lia. } exact (finish_date _ _ _ _ _ _ _ _ C).
Qed.
Lemma date23_rejected m d : (13 <= d <= 31)%Z -> (1 <= m <= 12)%Z -> forall old, date23_unmarshal old (tdat m d) = Err "invalid date".
Proof.
  intros Hd Hm old. unfold date23_unmarshal, tdat, date23_format. rewrite (two_nil m).
  assert (P : time_parse "0102" (two d ++ two m ++ "") = None); [|now rewrite P].
  apply tp_none; chunked. eapply loop_std; [reflexivity|]. apply month_out. lia.
Qed.
Lemma date23_text t : calendar (g_year t) (g_month t) (g_day t) -> time_is_zero t = false -> date23_marshal t = Some (tdat (g_day t) (g_month t)).
Proof.
  intros Hc Z. pose proof (calendar_day _ _ _ Hc) as (Hy & Hm & Hd). unfold date23_marshal. rewrite Z. unfold time_format. let c := eval vm_compute in (chunks date23_format) in change (chunks date23_format) with c.
  unfold format_layout. cbn [map fst snd format_std]. rewrite !append_two by lia. cbn [String.concat append]. rewrite ?app_nil_r. reflexivity.
Qed.
(* the library's own texts are read back; year 0, in which they are read, is a leap year *)
Lemma date23_rt t : calendar (g_year t) (g_month t) (g_day t) -> forall old s, date23_marshal t = Some s ->
  date23_unmarshal old s = Ok (GTime 0 (g_month t) (g_day t) 0 0 0 0 0).
Proof.
  intros Hc old s E. unfold date23_marshal in E. destruct (time_is_zero t) eqn:Z; [discriminate|].
  assert (M : date23_marshal t = Some s) by (unfold date23_marshal; now rewrite Z). rewrite date23_text in M by assumption. injection M as <-.
  apply calendar_spec in Hc as (Hy & Hm & Hd). pose proof (days_in_bound _ (g_year t) Hm) as B.
  unfold date23_unmarshal, tdat, date23_format. rewrite (two_nil (g_day t)).
  assert (P : time_parse "0102" (two (g_month t) ++ two (g_day t) ++ "") = Some (GTime 0 (g_month t) (g_day t) 0 0 0 0 0)); [|now rewrite P].
  eapply tp_some; [chunked; loop|]. cbn [set_month set_day p_year p_month p_day p_hour p_min p_sec p_nsec p_zone p_start].
  assert (C : calendar 0 (g_month t) (g_day t)).
  { apply calendar_spec. split; [lia|]. split; [assumption|]. split; [lia|]. etransitivity; [apply Hd|]. unfold days_in.
    destruct (g_month t =? 2)%Z eqn:E2; cbn [andb]; [apply Z.eqb_eq in E2; rewrite E2; destruct (is_leap (g_year t)); vm_compute; discriminate|apply Z.le_refl]. }
  exact (finish_date _ _ _ _ _ _ _ _ C).
Qed.

(* ---- no date ---- *)
Lemma silent_utc t : proper t -> g_off t = 0%Z -> (date_marshal t = None <-> t = no_date).
Proof.
  intros (Hc & (Hh & Hmi & Hs) & Hn & _ & _) Ho. rewrite date_silent. split; [|intros ->; reflexivity].
  apply calendar_spec in Hc as (Hy & Hm & Hd). destruct t as [y m d h mi s ns o]. cbn [g_year g_month g_day g_hour g_min g_sec g_nsec g_off] in *. subst o.
  unfold time_is_zero, abs_sec. cbn [g_year g_month g_day g_hour g_min g_sec g_nsec g_off]. intros E. apply andb_prop in E as [E1 E2]. apply Z.eqb_eq in E1, E2.
  assert (A : abs_days y m d = 0%Z) by lia. assert (T : (h = 0 /\ mi = 0 /\ s = 0)%Z) by lia. destruct T as (-> & -> & ->). subst ns.
  assert (F : (y = 1 /\ m = 1 /\ d = 1)%Z); [|destruct F as (-> & -> & ->); reflexivity].
  unfold abs_days in A.
  assert (DB : (0 <= days_before m y <= 335)%Z /\ (days_before m y = 0 -> m = 1)%Z /\ (days_before m y + days_in m y <= 366)%Z).
  { unfold days_before, days_in. assert (X : (m = 1 \/ m = 2 \/ m = 3 \/ m = 4 \/ m = 5 \/ m = 6 \/ m = 7 \/ m = 8 \/ m = 9 \/ m = 10 \/ m = 11 \/ m = 12)%Z) by lia.
    destruct X as [->|[->|[->|[->|[->|[->|[->|[->|[->|[->|[->| ->]]]]]]]]]]]; destruct (is_leap y); vm_compute; intuition discriminate. }
  destruct DB as (D1 & D2 & D3).
  destruct (Z.eq_dec y 0) as [->|]; [change ((0 - 1) / 4)%Z with (-1)%Z in A; change ((0 - 1) / 100)%Z with (-1)%Z in A; change ((0 - 1) / 400)%Z with (-1)%Z in A; lia|].
  assert (G : (0 <= (y - 1) / 4 - (y - 1) / 100 + (y - 1) / 400)%Z).
  { assert ((y - 1) / 100 <= (y - 1) / 4)%Z by (apply Z.div_le_compat_l; lia). assert (0 <= (y - 1) / 400)%Z by (apply Z.div_pos; lia). lia. }
  destruct (Z.eq_dec y 1) as [->|]; [change ((1 - 1) / 4)%Z with 0%Z in A; change ((1 - 1) / 100)%Z with 0%Z in A; change ((1 - 1) / 400)%Z with 0%Z in A|]; lia.
Qed.
