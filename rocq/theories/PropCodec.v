(* C45-C51, C64, C65: text codecs *)
From Coq Require Import List Arith NArith ZArith Bool Ascii String Lia.
From Verif Require Import GoStr GoStrFacts Spec SpecFacts ArrayM ArrayFacts CodecM GenreTable SpecCodec CodecFacts CodecFacts2.
Import ListNotations.
Local Open Scope string_scope.

(* ---- C45 ---- *)
Theorem C45_bool : forall x, round_trips bool_marshal bool_unmarshal x.
Proof. exact bool_rt. Qed.
Print Assumptions C45_bool.
Theorem C45_null_bool : forall x, round_trips null_bool_marshal null_bool_unmarshal x.
Proof. exact null_bool_rt. Qed.
Print Assumptions C45_null_bool.
Theorem C45_null_int : forall x, word64 x -> round_trips null_int_marshal null_int_unmarshal x.
Proof. exact null_int_rt. Qed.
Print Assumptions C45_null_int.
Theorem C45_rational : forall fl n d, word64 n -> word64 d -> round_trips rat_marshal (rat_unmarshal fl) (Rat n d).
Proof. intros fl n d H1 H2. exact (rat_rt fl (Rat n d) H1 H2). Qed.
Print Assumptions C45_rational.
(* StringList: the text of a non-empty list is read as the list, provided that no item has a newline in it or ends with a
   carriage return; the items are appended to what the receiver holds *)
Theorem C45_string_list_partial : forall l old, l <> [] -> Forall (fun x => lacks "010" x /\ no_cr_end x) l ->
  exists s, sl_marshal_text l = Some s /\ sl_unmarshal_text old s = (old ++ l)%list.
Proof.
  intros l old Hne H. apply sl_text_round_trip; auto. eapply Forall_impl; [|exact H]. intros x [H1 H2]. split; auto. now apply lacks_char.
Qed.
Print Assumptions C45_string_list_partial.
(* an item with a newline in it is read as two *)
Theorem C45_string_list_refuted : exists l s, l <> [] /\ sl_marshal_text l = Some s /\ sl_unmarshal_text [] s <> l.
Proof. exists [String "a" (String "010" "b")]. eexists. repeat split; try discriminate. Qed.
(* NullString: a trimmed text that is not one of the placeholders *)
Theorem C45_null_string_partial : forall x, trim_space x = x -> x <> "-" -> x <> "--" -> x <> "unknown" ->
  null_string_unmarshal "" (null_string_marshal x) = Ok x.
Proof. exact null_string_rt. Qed.
Print Assumptions C45_null_string_partial.
Example C45_hyps : word64 (-9223372036854775808) /\ null_int_unmarshal 7 (null_int_marshal (-9223372036854775808)) = Ok (-9223372036854775808)%Z
  /\ rat_unmarshal (fun _ => None) (Rat 7 7) "-3/4" = Ok (Rat (-3) 4) /\ rat_unmarshal (fun _ => None) (Rat 7 7) "3 4" = Ok (Rat 3 4)
  /\ sl_unmarshal_text [] (String "a" (String "010" "b")) = ["a"; "b"] /\ Forall (fun x => lacks "010" x /\ no_cr_end x) ["a"; "b"].
Proof. repeat split; try lia; try reflexivity. repeat constructor; try (apply lacks_char; reflexivity). all: intros [|? [|? ?]] E; discriminate. Qed.

(* ---- C46 ---- *)
Theorem C46_decimal_partial : forall s z old, numeral s z -> (z < 2 ^ 31)%Z -> split_int_unmarshal old s = Ok z.
Proof. exact split_int_decimal. Qed.
Print Assumptions C46_decimal_partial.
Theorem C46_bytes_partial : forall a b c d x3 x2 x1 x0 old, numeral a x3 -> numeral b x2 -> numeral c x1 -> numeral d x0 ->
  (x3 < 128)%Z -> (x2 < 128)%Z -> (x1 < 128)%Z -> (x0 < 128)%Z ->
  split_int_unmarshal old (a ++ ":" ++ b ++ ":" ++ c ++ ":" ++ d) = Ok (x3 * 2 ^ 24 + x2 * 2 ^ 16 + x1 * 2 ^ 8 + x0)%Z.
Proof. exact split_int_bytes. Qed.
Print Assumptions C46_bytes_partial.
(* every value from 2^31 on is rejected, although the encoder writes it; so is every byte from 128 on *)
Theorem C46_decimal_refuted : forall z old, (2 ^ 31 <= z)%Z -> split_int_unmarshal old (split_int_marshal z) = Err "invalid syntax".
Proof.
  intros z old H. unfold split_int_marshal, split_int_unmarshal. rewrite itoa_not_null.
  rewrite (numeral_parse_int 32 (itoa z) z) by (apply numeral_itoa; lia).
  assert (E : int_chk 32 z = None). { unfold int_chk. change (2 ^ (32 - 1))%Z with (2 ^ 31)%Z. destruct (Z.ltb_spec z (2 ^ 31)); [lia|]. now rewrite andb_false_r. }
  rewrite E. rewrite split_char_none by (apply itoa_no_char; reflexivity). reflexivity.
Qed.
Print Assumptions C46_decimal_refuted.
Theorem C46_bytes_refuted : exists old, split_int_unmarshal old "0:0:0:128" = Err "invalid syntax".
Proof. exists 0%Z. reflexivity. Qed.
Example C46_hyps : numeral "06" 6 /\ numeral "61" 61 /\ split_int_unmarshal 0 "06:13:14:61" = Ok 101518909%Z.
Proof. repeat split; try lia; try reflexivity; [now exists 1|now exists 0]. Qed.

(* ---- C47 ---- *)
Theorem C47_issuer : forall g,
  (lacks ":" g /\ guid_issuer g = "") \/ exists r, g = guid_issuer g ++ ":" ++ r /\ lacks ":" r.
Proof.
  intros g. destruct (issuer_cases g) as [H|(a & b & -> & H)]; [left|right]; [auto using issuer_none|].
  exists b. rewrite issuer_some by auto. auto.
Qed.
Print Assumptions C47_issuer.
(* the decomposition is the only one *)
Theorem C47_issuer_unique : forall a b, lacks ":" b -> guid_issuer (a ++ ":" ++ b) = a.
Proof. exact issuer_some. Qed.
Print Assumptions C47_issuer_unique.
Example C47_hyps : guid_issuer "xmp.did:a:b-c" = "xmp.did:a" /\ guid_issuer "abc" = "" /\ lacks ":" "b-c".
Proof. repeat split. apply lacks_char. reflexivity. Qed.

(* ---- C48 ---- *)
(* a timestamp with the zone Z or +hh:mm is left unchanged *)
Theorem C48_complete_unchanged_partial : forall p z o, local_time p -> zone z o -> repair_tz (p ++ z) = p ++ z.
Proof. exact repair_zone. Qed.
Print Assumptions C48_complete_unchanged_partial.
(* a zone with one digit of hours, with or without minutes, is completed and denotes the same offset *)
Theorem C48_short_zone_completed : forall p z o, local_time p -> zone_short z o ->
  exists z', repair_tz (p ++ z) = p ++ z' /\ zone z' o.
Proof. exact repair_zone_short. Qed.
Print Assumptions C48_short_zone_completed.
Theorem C48_idempotent_partial : forall p z o, local_time p -> zone z o \/ zone_short z o ->
  repair_tz (repair_tz (p ++ z)) = repair_tz (p ++ z).
Proof.
  intros p z o Hp [H|H].
  - now rewrite !(repair_zone p z o Hp H).
  - destruct (repair_zone_short p z o Hp H) as (z' & -> & H'). exact (repair_zone p z' o Hp H').
Qed.
Print Assumptions C48_idempotent_partial.
(* the complete zones +hhmm, one of the accepted formats (xmp/xmp_types.go:131), are all changed; and repairing twice gives
   back the text that was repaired *)
Theorem C48_basic_zone_changed_refuted : forall p s z o, local_time p -> zone_basic (String s z) o ->
  repair_tz (p ++ String s z) = p ++ String s (String "0" z) /\
  repair_tz (p ++ String s (String "0" z)) = p ++ String s z.
Proof. intros p s z o Hp H. destruct (repair_zone_long p s z o Hp H). auto. Qed.
Print Assumptions C48_basic_zone_changed_refuted.
Theorem C48_idempotent_refuted : exists v, repair_tz (repair_tz v) <> repair_tz v.
Proof. exists "2017-09-15T20:17:41+0200". vm_compute. discriminate. Qed.
Lemma C48_digit n : (0 <= n <= 9)%Z -> digit (ascii_of_N (Z.to_N (48 + n))) n.
Proof. now split. Qed.
Example C48_hyps : local_time "2011-02-15T10:15:14" /\ zone "+01:30" 90 /\ zone_short "-1:30" (-90) /\ zone_short "+1" 60 /\ zone_basic "+0200" 120
  /\ repair_tz "2011-02-15T10:15:14-1:30" = "2011-02-15T10:15:14-01:30" /\ repair_tz "2011-02-15T10:15:14+1" = "2011-02-15T10:15:14+01:00"
  /\ repair_tz "2017-09-15T20:17:41+00200" = "2017-09-15T20:17:41+0200" /\ repair_tz "--" = "0001-01-01T00:00:00Z".
Proof.
  pose proof (C48_digit 0 ltac:(lia)) as D0. pose proof (C48_digit 1 ltac:(lia)) as D1. pose proof (C48_digit 2 ltac:(lia)) as D2. pose proof (C48_digit 3 ltac:(lia)) as D3.
  assert (SP : sign "+" 1) by (left; auto). assert (SM : sign "-" (-1)) by (right; auto).
  split; [|split; [|split; [|split; [|split]]]].
  - exists "2011-02-15T10", ":15:14". repeat split; try (cbn; lia); apply lacks_char; reflexivity.
  - exact (zone_colon _ _ _ _ _ _ _ _ _ _ SP D0 D1 D3 D0).
  - exact (zone_h_mm _ _ _ _ _ _ _ _ SM D1 D3 D0).
  - exact (zone_h _ _ _ _ SP D1).
  - exact (zone_plain _ _ _ _ _ _ _ _ _ _ SP D0 D2 D0 D0).
  - repeat split; reflexivity.
Qed.

(* ---- C49 ---- *)
Theorem C49_frame_rate_partial : forall r b, rate_ok r b -> round_trips fr_marshal fr_unmarshal (FR r b).
Proof. exact fr_rt. Qed.
Print Assumptions C49_frame_rate_partial.
Theorem C49_frame_count_partial : forall c r b, count_ok c r b -> round_trips fc_marshal fc_unmarshal (FC c (FR r b)).
Proof. exact fc_rt. Qed.
Print Assumptions C49_frame_count_partial.
(* a part with a duration and a start, either absent (zero) or one the text can hold, and a path closed by a slash *)
Theorem C49_part_partial : forall path sc sr sb dc dr db, path_ok path ->
  ((sc, sr, sb) = (0, 0, 0)%Z /\ (dc, dr, db) = (0, 0, 0)%Z) \/
  (((sc, sr, sb) = (0, 0, 0)%Z \/ count_ok sc sr sb) /\ count_ok dc dr db) ->
  round_trips part_marshal part_unmarshal (Part path (FC sc (FR sr sb)) (FC dc (FR dr db))).
Proof.
  intros path sc sr sb dc dr db Hp H. apply part_rt; auto. cbn [p_start p_dur fc_count fc_rate fr_rate fr_base].
  destruct H as [[E1 E2]|[Hs Hd]].
  - left. injection E1 as -> -> ->. injection E2 as -> -> ->. auto.
  - right. split; auto. destruct Hs as [E|Hs]; [left; injection E as -> -> ->; reflexivity|right; exact Hs].
Qed.
Print Assumptions C49_part_partial.
(* the other notation for parts, from start to end, is read as start and the time between them (same rate) *)
Theorem C49_part_range_partial : forall path c1 c2 r b old, path_ok path -> count_ok c1 r b -> count_ok c2 r b -> word64 (c2 - c1) ->
  part_unmarshal old (path ++ "time:" ++ fc_marshal (FC c1 (FR r b)) ++ "r" ++ fc_marshal (FC c2 (FR r b)))
  = Ok (Part path (FC c1 (FR r b)) (FC (c2 - c1) (FR r b))).
Proof. exact part_range. Qed.
Print Assumptions C49_part_range_partial.
(* with different rates the counts are subtracted all the same: from second 1 to second 2 becomes 49 frames of 25 per second
   when both are given, the start at 1 per second *)
Theorem C49_part_range_refuted :
  part_unmarshal (Part "" fc_zero_val fc_zero_val) ("time:1r" ++ fc_marshal (FC 50 (FR 25 1)))
  = Ok (Part "" (FC 1 (FR 1 1)) (FC 49 (FR 25 1))).
Proof. reflexivity. Qed.
Print Assumptions C49_part_range_refuted.
Example C49_range_hyps : count_ok 5 25 1 /\ count_ok 12 25 1 /\ word64 (12 - 5)
  /\ "time:" ++ fc_marshal (FC 5 (FR 25 1)) ++ "r" ++ fc_marshal (FC 12 (FR 25 1)) = "time:5f25r12f25".
Proof. repeat split; try lia. Qed.
Theorem C49_part_list_partial : forall l, l <> [] ->
  Forall (fun x => part_ok x /\ has_prefix_str "/" (p_path x) = true /\ lacks ";" (p_path x)) l ->
  round_trips parts_marshal parts_unmarshal l.
Proof. exact parts_rt. Qed.
Print Assumptions C49_part_list_partial.
(* a time code that is written and read keeps its numbers and its kind *)
Theorem C49_timecode_partial : forall h m s f d v,
  (0 <= h < 2 ^ 63)%Z -> (0 <= m < 2 ^ 63)%Z -> (0 <= s < 2 ^ 63)%Z -> (0 <= f < 2 ^ 63)%Z ->
  tc_unmarshal (tc_string (TC v h m s f d)) = Ok (TC (tc_string (TC v h m s f d)) h m s f d).
Proof. intros h m s f d v Hh Hm Hs Hf. exact (tc_rt h m s f d Hh Hm Hs Hf v). Qed.
Print Assumptions C49_timecode_partial.
(* what is lost: the base zero, the rate of a count of zero or of "maximum", a start without duration, the missing slash,
   the empty list; negative time codes cannot be read *)
Theorem C49_refuted :
  fr_unmarshal (FR 0 0) (fr_marshal (FR 25 0)) = Ok (FR 25 1) /\
  fc_unmarshal fc_zero_val (fc_marshal (FC 0 (FR 25 1))) = Ok (FC 0 (FR 1 1)) /\
  fc_unmarshal fc_zero_val (fc_marshal (FC (-1) (FR 25 1))) = Ok (FC (-1) (FR 1 1)) /\
  part_unmarshal (Part "" fc_zero_val fc_zero_val) (part_marshal (Part "/a/" (FC 5 (FR 25 1)) fc_zero_val)) = Ok (Part "/a/" fc_zero_val fc_zero_val) /\
  part_unmarshal (Part "" fc_zero_val fc_zero_val) (part_marshal (Part "/a" fc_zero_val fc_zero_val)) = Ok (Part "/a/" fc_zero_val fc_zero_val) /\
  parts_unmarshal [] (parts_marshal []) = Ok [Part "" fc_zero_val fc_zero_val] /\
  tc_unmarshal (tc_string (TC "" (-1) 0 0 0 false)) = Err "invalid number".
Proof. repeat split; reflexivity. Qed.
Example C49_hyps : count_ok 10 30000 1001 /\ path_ok "/video/" /\ fc_marshal (FC 10 (FR 30000 1001)) = "10f30000s1001"
  /\ part_marshal (Part "/video/" (FC 5 (FR 25 1)) (FC 10 (FR 30000 1001))) = "/video/time:5f25d10f30000s1001"
  /\ tc_string (TC "" 1 2 33 4 true) = "01;02;33;04".
Proof.
  split; [|split; [|repeat split]].
  - repeat split; try lia.
  - split; [right; now exists "/video"|]. intros (a & b & E). apply (f_equal (has_char ":")) in E. rewrite !has_char_app in E. cbn in E. rewrite orb_true_r in E. discriminate.
Qed.

(* ---- C50 ---- *)
Theorem C50_track_num : forall t n, word64 t -> word64 n -> round_trips track_marshal track_unmarshal (Track t n).
Proof. exact track_rt. Qed.
Print Assumptions C50_track_num.
Theorem C50_crs_point : forall x y, word64 x -> word64 y -> round_trips crs_point_marshal crs_point_unmarshal (Pt x y).
Proof. exact crs_point_rt. Qed.
Print Assumptions C50_crs_point.
Theorem C50_qt_point : forall x y, word64 x -> word64 y -> round_trips_if_written qt_point_marshal qt_point_unmarshal (Pt x y).
Proof. exact qt_point_rt. Qed.
Print Assumptions C50_qt_point.
(* the empty array leaves the receiver as it is *)
Theorem C50_byte_array : forall l old, Forall byte l -> bytes_unmarshal old (bytes_marshal l) = Ok (match l with [] => old | _ => l end).
Proof. exact bytes_rt. Qed.
Print Assumptions C50_byte_array.
(* columns, rows and values of a CFA pattern in the text form; the pattern must fit into memory *)
Theorem C50_cfa_pattern : forall c r vs, (0 <= c < 2 ^ 63)%Z -> (0 <= r < 2 ^ 63)%Z -> (c * r <= 2 ^ 48)%Z -> Forall byte vs ->
  cfa_unmarshal (join " " (itoa c :: itoa r :: map itoa vs)) = Ok (Grid c r vs).
Proof.
  intros c r vs Hc Hr Hm Hv. apply grid_read; try lia; try (unfold word64; lia).
  - apply Forall_map. eapply Forall_impl; [|exact Hv]. intros; apply itoa_word'.
  - now apply read_bytes_itoa.
Qed.
Print Assumptions C50_cfa_pattern.
Theorem C50_device_settings : forall c r vs, (0 <= c < 2 ^ 63)%Z -> (0 <= r < 2 ^ 63)%Z -> (c * r * 16 <= 2 ^ 48)%Z -> Forall word vs ->
  device_unmarshal (join " " (itoa c :: itoa r :: vs)) = Ok (Grid c r vs).
Proof. intros c r vs Hc Hr Hm Hv. apply grid_read; try lia; try (unfold word64; lia); auto. Qed.
Print Assumptions C50_device_settings.
Theorem C50_ixml_bool : forall x, round_trips ixml_bool_marshal ixml_bool_unmarshal x.
Proof. exact ixml_bool_rt. Qed.
Print Assumptions C50_ixml_bool.
Theorem C50_ixml_lists : forall l, l <> [] -> Forall (lacks ",") l -> round_trips_if_written words_marshal words_unmarshal l.
Proof. exact words_rt. Qed.
Print Assumptions C50_ixml_lists.
Theorem C50_preferences : forall a b c d, word64 a -> word64 b -> word64 c -> word64 d ->
  round_trips prefs_marshal prefs_unmarshal (Prefs a b c d).
Proof. exact prefs_rt. Qed.
Print Assumptions C50_preferences.
(* ContentRating: every field is read into the field before it and the standard is lost *)
Theorem C50_content_rating_refuted : forall st ra sc re t old, lacks "|" st -> lacks "|" ra -> lacks "|" sc -> lacks "|" re ->
  trim_space t = t -> has_suffix_str ")" t = false ->
  cr_marshal (CR st ra sc re) = Some t -> cr_unmarshal old t = Ok (CR ra sc re "").
Proof. exact cr_shift. Qed.
Print Assumptions C50_content_rating_refuted.
(* Identifier: the scheme becomes part of the identifier *)
Theorem C50_identifier_refuted : forall old i s, s <> "" -> ident_unmarshal old (ident_marshal (Ident i s)) = Ok (Ident (s ++ ":" ++ i) (id_scheme old)).
Proof.
  intros old i s H. unfold ident_unmarshal, ident_marshal. cbn [id_id id_scheme]. rewrite (proj2 (emptyb_false s) H). now rewrite app_assoc.
Qed.
Print Assumptions C50_identifier_refuted.
Example C50_hyps : track_marshal (Track 3 12) = "3/12" /\ crs_point_unmarshal (Pt 0 0) "-3, 12" = Ok (Pt (-3) 12)
  /\ qt_point_marshal (Pt 3 (-4)) = Some "3,-4" /\ cfa_unmarshal "2 2 0 1 1 2" = Ok (Grid 2 2 [0; 1; 1; 2]%Z) /\ Forall byte [0; 1; 255]%Z
  /\ cr_marshal (CR "mpaa" "PG" "200" "fear") = Some "(mpaa|PG|200|fear" /\ trim_space "(mpaa|PG|200|fear" = "(mpaa|PG|200|fear"
  /\ cr_unmarshal (CR "" "" "" "") "(mpaa|PG|200|fear" = Ok (CR "PG" "200" "fear" "").
Proof. repeat split; try reflexivity. repeat constructor; unfold byte; lia. Qed.

(* ---- C51 ---- *)
Theorem C51_flash_bits : forall v s old, parse_int 32 s = Some v -> exists f, flash_unmarshal old s = Ok f /\
  f_fired f = Z.testbit v 0 /\ f_return f = ((v / 2) mod 4)%Z /\ f_mode f = ((v / 8) mod 4)%Z /\
  f_function f = Z.testbit v 5 /\ f_red_eye f = Z.testbit v 6 /\
  (v mod 128 = Z.b2z (f_fired f) + 2 * f_return f + 8 * f_mode f + 32 * Z.b2z (f_function f) + 64 * Z.b2z (f_red_eye f))%Z.
Proof. intros v s old. exact (flash_bits v old s). Qed.
Print Assumptions C51_flash_bits.
Example C51_hyps : parse_int 32 "-39" = Some (-39)%Z /\ ((-39) mod 128 = 89)%Z /\
  flash_unmarshal (Flash false false 0 false 0) "-39" = Ok (Flash true false 3 true 0).
Proof. repeat split. Qed.

(* ---- C64: id3 genres ---- *)
Fixpoint distinctb {A} (eqb : A -> A -> bool) (l : list A) : bool :=
  match l with [] => true | x :: r => negb (existsb (eqb x) r) && distinctb eqb r end.
Lemma distinctb_nodup {A} (eqb : A -> A -> bool) (H : forall x, eqb x x = true) l : distinctb eqb l = true -> NoDup l.
Proof.
  induction l as [|x r IH]; intros E; constructor; cbn in E; apply andb_prop in E as [E1 E2]; [|auto].
  intros Hi. apply negb_true_iff in E1. assert (E : existsb (eqb x) r = true) by (apply existsb_exists; eauto). congruence.
Qed.
Lemma genre_map_ok : table_ok genre_map.
Proof.
  split; [|split].
  - apply (distinctb_nodup Z.eqb Z.eqb_refl). vm_compute. reflexivity.
  - apply (distinctb_nodup String.eqb String.eqb_refl). vm_compute. reflexivity.
  - repeat constructor; unfold byte; cbn [fst]; lia.
Qed.
(* every genre number is read back from its name, or from its number when it has none *)
Theorem C64_genre_number : forall x, byte x -> genre_parse genre_map (genre_marshal genre_map x) = Some x.
Proof. intros x. exact (genre_rt genre_map x genre_map_ok). Qed.
Print Assumptions C64_genre_number.
(* a list of named genres is read back *)
Theorem C64_genre_list_partial : forall l, l <> [] -> Forall (fun x => In x (map snd genre_map)) l ->
  genres_unmarshal genre_map [] (genres_marshal l) = Ok l.
Proof.
  intros l Hne H. apply genres_rt; auto using genre_map_ok. eapply Forall_impl; [|exact H]. intros x Hx. split; auto.
  cut (Forall (fun y => lacks "," y /\ trim_space y = y) (map snd genre_map)); [intros F; rewrite Forall_forall in F; exact (F x Hx)|].
  apply Forall_forall. intros y Hy.
  assert (B : forallb (fun y => negb (has_char "," y) && (trim_space y =? y)) (map snd genre_map) = true) by (vm_compute; reflexivity).
  rewrite forallb_forall in B. specialize (B y Hy). apply andb_prop in B as [B1 B2]. apply negb_true_iff in B1. split; [now apply lacks_char|now apply String.eqb_eq].
Qed.
Print Assumptions C64_genre_list_partial.
(* an unknown name makes the whole text an entry *)
Theorem C64_genre_list_refuted : genres_unmarshal genre_map [] (genres_marshal ["Skweee"; "Rock"]) = Ok ["Skweee, Rock"; "Rock"].
Proof. vm_compute. reflexivity. Qed.
Example C64_hyps : In "Rock" (map snd genre_map) /\ genre_marshal genre_map 17 = "Rock" /\ genre_parse genre_map "200" = Some 200%Z.
Proof. repeat split. vm_compute. tauto. Qed.

(* ---- C65: exif tables ---- *)
(* an opto-electronic conversion function with at least one named column is rejected: its last name is taken for a value *)
Theorem C65_oecf_refuted : forall fl c r ns last vs, (1 <= c)%Z -> (c * 16 <= 2 ^ 48)%Z -> (0 <= r < 2 ^ 63)%Z -> (c * r * 16 <= 2 ^ 48)%Z ->
  Z.of_nat (List.length ns) = (c - 1)%Z -> Forall word (ns ++ [last] ++ vs) ->
  rat_unmarshal fl (Rat 0 0) last = Err "invalid rational" ->
  oecf_unmarshal fl (join " " (itoa c :: itoa r :: ns ++ [last] ++ vs)) = Err "invalid rational".
Proof. intros fl c r ns last vs H1 H2 H3 H4 H5 H6 H7. apply oecf_fails; auto; try lia. unfold word64; lia. Qed.
Print Assumptions C65_oecf_refuted.
(* tables with negative dimensions crash the reader *)
Theorem C65_negative_dimensions_panic_refuted :
  cfa_unmarshal "-1 5 1" = Panic /\ device_unmarshal "3 -1 x" = Panic /\ oecf_unmarshal (fun _ => None) "-1 5" = Panic.
Proof. repeat split. Qed.
Example C65_hyps : rat_unmarshal (fun _ => None) (Rat 0 0) "Blue" = Err "invalid rational" /\ Forall word ["Red"; "Blue"; "1/2"; "3/4"]
  /\ oecf_unmarshal (fun _ => None) "2 1 Red Blue 1/2 3/4" = Err "invalid rational".
Proof. split; [reflexivity|split; [|reflexivity]]. repeat constructor; try discriminate; intros c H; cbn in H;
  repeat (apply orb_prop in H as [H|H]; [apply Ascii.eqb_eq in H; subst; reflexivity|]); discriminate. Qed.

(* ---- C66: durations of media ---- *)
(* h:m:s.fraction with at most nine digits of fraction is read as the number of whole milliseconds *)
Theorem C66_media_time : forall h m s f a b c d, numeral a h -> numeral b m -> numeral c s -> numeral d f ->
  String.length d <= 9 -> (h * 3600 + m * 60 + s < 9000000000)%Z ->
  media_time_ms (a ++ ":" ++ b ++ ":" ++ c ++ "." ++ d) =
    ((h * 3600 + m * 60 + s) * 1000 + f * 10 ^ (9 - Z.of_nat (String.length d)) / 1000000)%Z.
Proof. exact media_time. Qed.
Print Assumptions C66_media_time.
Example C66_hyps : numeral "07" 7 /\ numeral "680" 680 /\ media_time_ms "01:02:07.680" = 3727680%Z /\ media_time_ms "0:07.680" = 7680%Z.
Proof. repeat split; try lia; try reflexivity; [now exists 1|now exists 0]. Qed.
