From Coq Require Import List Arith NArith ZArith Bool Ascii String Lia.
From Verif Require Import GoStr GoStrFacts Spec SpecFacts SpecReader ReaderFacts CodecM SpecCodec CodecFacts.
Import ListNotations.
Local Open Scope string_scope.

Ltac nochar := apply itoa_no_char; reflexivity.

(* ---- C49: frame rates and counts ---- *)
Lemma fr_rt r b : rate_ok r b -> round_trips fr_marshal fr_unmarshal (FR r b).
Proof.
  intros (Hr & Hb & L) old. apply word64_int64 in Hr, Hb. unfold fr_marshal. cbn [fr_rate fr_base append fr_unmarshal].
  destruct (Z.ltb_spec 1 b).
  - cbn [append]. rewrite split_char_app by nochar. rewrite (split_char_none "s" (itoa b)) by nochar.
    cbn [nth List.length Nat.ltb Nat.leb]. rewrite !parse_int_itoa by auto. destruct (Z.eqb_spec b 0); [lia|reflexivity].
  - rewrite app_nil_r. rewrite split_char_none by nochar. cbn [nth List.length Nat.ltb Nat.leb]. rewrite parse_int_itoa by auto.
    cbn [Z.eqb]. do 2 f_equal. lia.
Qed.
Lemma fr_no_char c x : c <> "f"%char -> c <> "s"%char -> is_digit c = false -> Ascii.eqb c "-" = false -> has_char c (fr_marshal x) = false.
Proof.
  intros H1 H2 H3 H4. unfold fr_marshal. cbn [append has_char]. rewrite (proj2 (Ascii.eqb_neq c "f")) by auto. cbn [orb].
  rewrite has_char_app, itoa_no_char by auto. destruct (1 <? fr_base x)%Z; [|reflexivity]. cbn [append has_char].
  rewrite (proj2 (Ascii.eqb_neq c "s")) by auto. now rewrite itoa_no_char.
Qed.
Lemma fc_no_char c x : c <> "f"%char -> c <> "s"%char -> is_digit c = false -> Ascii.eqb c "-" = false -> has_char c "maximum" = false ->
  has_char c (fc_marshal x) = false.
Proof.
  intros H1 H2 H3 H4 H5. unfold fc_marshal. destruct (fc_count x =? 0)%Z.
  - cbn. destruct (Ascii.eqb_spec c "0"); [subst; discriminate|reflexivity].
  - destruct (fc_count x =? -1)%Z; [exact H5|]. rewrite has_char_app, itoa_no_char, fr_no_char by auto. reflexivity.
Qed.
Lemma itoa_neq_maximum z : (itoa z =? "maximum") = false.
Proof.
  apply String.eqb_neq. intros E. pose proof (itoa_no_char "m" z eq_refl eq_refl) as H. rewrite E in H. discriminate.
Qed.
Lemma fc_rt c r b : count_ok c r b -> round_trips fc_marshal fc_unmarshal (FC c (FR r b)).
Proof.
  intros (Hc & Hr & Hz) old. pose proof Hc as Hc'. apply word64_int64 in Hc. unfold fc_marshal. cbn [fc_count fc_rate].
  destruct (Z.eqb_spec c 0) as [->|N0]; [destruct Hz as [-> ->]; auto; reflexivity|].
  destruct (Z.eqb_spec c (-1)) as [->|N1]; [destruct Hz as [-> ->]; auto; reflexivity|].
  unfold fc_unmarshal. assert (E : fr_marshal (FR r b) = String "f" (match fr_marshal (FR r b) with String _ x => x | "" => "" end)) by reflexivity.
  rewrite E. rewrite index_char_app by nochar. rewrite sdrop_app, stake_app. rewrite <- E. rewrite (fr_rt r b Hr (FR 1 1)). cbn [bind].
  rewrite itoa_neq_maximum, parse_int_itoa by auto. reflexivity.
Qed.
Lemma count_ok_not_zero c r b : count_ok c r b -> fc_zero (FC c (FR r b)) = false.
Proof.
  intros (_ & (_ & _ & L) & H). unfold fc_zero, fr_zero. cbn [fc_count fc_rate fr_base fr_rate].
  destruct (Z.eqb_spec c 0) as [->|]; [|reflexivity]. destruct H as [-> ->]; auto.
Qed.

(* ---- C49: parts ---- *)
Lemma time_first p t : path_ok p -> first_occ "time:" p (p ++ "time:" ++ t).
Proof.
  intros [Hp Hn]. split; [now exists t|]. intros a b E.
  destruct (le_lt_dec (String.length p) (String.length a)) as [?|L]; [assumption|exfalso].
  destruct Hp as [->|[q ->]]; [cbn in L; lia|].
  destruct (app_cut a ("time:" ++ b) (q ++ "/") ("time:" ++ t) (eq_sym E)) as (e & E1 & E2); [lia|].
  (* e is the rest of the path behind a; it begins with time: or is shorter *)
  destruct (le_lt_dec (String.length "time:") (String.length e)) as [G|G].
  - destruct (app_cut "time:" b e ("time:" ++ t) E2 G) as (f & -> & _). apply Hn. exists a, f. now rewrite E1.
  - assert (e <> "") by (intros ->; rewrite app_nil_r in E1; rewrite E1 in L; lia).
    destruct (app_cut e ("time:" ++ t) "time:" b (eq_sym E2)) as (f & F1 & F2); [lia|].
    (* e ends with a slash, which does not occur in the marker *)
    assert (X : has_char "/" e = true).
    { destruct (has_char "/" e) eqn:X; [reflexivity|]. exfalso.
      assert (Y : exists e', e = e' ++ "/").
      { destruct (le_lt_dec (String.length q) (String.length a)) as [G2|G2].
        - destruct (app_cut q "/" a e E1 G2) as (g & -> & Eg). destruct g as [|y g]; [exists ""; now cbn in Eg|].
          cbn in Eg. injection Eg as <- Eg. destruct g; [|discriminate]. cbn in Eg. subst e. congruence.
        - destruct (app_cut a e q "/" (eq_sym E1)) as (g & -> & Eg); [lia|]. now exists g. }
      destruct Y as [e' ->]. rewrite has_char_app in X. cbn in X. rewrite orb_true_r in X. discriminate. }
    apply (f_equal (has_char "/")) in F1. rewrite has_char_app, X in F1. discriminate.
Qed.
Lemma split_str_time p t : path_ok p -> has_char ":" t = false -> split_str "time:" (p ++ "time:" ++ t) = [p; t].
Proof.
  intros Hp Ht. pose proof (time_first p t Hp) as F. apply first_occ_index in F.
  unfold split_str. rewrite !length_app. change (String.length "time:") with 5. rewrite Nat.add_comm. cbn [Nat.add split_fuel].
  rewrite F. rewrite stake_app. f_equal. rewrite <- app_assoc.
  replace (String.length p + String.length "time:") with (String.length (p ++ "time:")) by (rewrite length_app; reflexivity). rewrite sdrop_app.
  assert (I : index "time:" t = None).
  { apply index_none. intros (a & b & ->). rewrite !has_char_app in Ht. cbn [has_char] in Ht. cbn in Ht. rewrite orb_true_r in Ht. discriminate. }
  now rewrite I.
Qed.
Lemma split_str_none p sep : index sep p = None -> split_str sep p = [p].
Proof. intros H. unfold split_str. destruct (String.length p); [reflexivity|]. cbn [split_fuel]. now rewrite H. Qed.

Definition start_ok (s : frame_count) : Prop :=
  s = FC 0 (FR 0 0) \/ count_ok (fc_count s) (fr_rate (fc_rate s)) (fr_base (fc_rate s)).
Lemma fc_eta x : x = FC (fc_count x) (FR (fr_rate (fc_rate x)) (fr_base (fc_rate x))).
Proof. now destruct x as [? []]. Qed.
Lemma fc_rt' x old : count_ok (fc_count x) (fr_rate (fc_rate x)) (fr_base (fc_rate x)) -> fc_unmarshal old (fc_marshal x) = Ok x.
Proof. intros H. rewrite (fc_eta x). now apply fc_rt. Qed.
Lemma fc_nz x : count_ok (fc_count x) (fr_rate (fc_rate x)) (fr_base (fc_rate x)) -> fc_zero x = false.
Proof. intros H. rewrite (fc_eta x). now apply count_ok_not_zero. Qed.

Lemma path_no_slash p : path_ok p -> negb (emptyb p) && negb (has_suffix_str "/" p) = false.
Proof. intros [[->|[q ->]] _]; [reflexivity|]. rewrite has_suffix_app. apply andb_false_r. Qed.

Lemma part_rt x : path_ok (p_path x) ->
  (p_start x = FC 0 (FR 0 0) /\ p_dur x = FC 0 (FR 0 0) \/
   start_ok (p_start x) /\ count_ok (fc_count (p_dur x)) (fr_rate (fc_rate (p_dur x))) (fr_base (fc_rate (p_dur x)))) ->
  round_trips part_marshal part_unmarshal x.
Proof.
  intros Hp Hv old. destruct x as [p s d]. cbn [p_path p_start p_dur] in *. unfold part_marshal. cbn [p_path p_start p_dur].
  rewrite path_no_slash by auto. cbv iota. assert (E0 : forall x, "" ++ x = x) by reflexivity. rewrite E0.
  destruct Hv as [[-> ->]|[Hs Hd]].
  - change (fc_zero (FC 0 (FR 0 0))) with true. cbv iota. rewrite app_nil_r. unfold part_unmarshal.
    rewrite split_str_none by (apply index_none; intros (a & b & E); apply Hp; now exists a, b). reflexivity.
  - rewrite fc_nz by auto.
    assert (Cd : has_char ":" (fc_marshal d) = false) by (apply fc_no_char; (reflexivity || discriminate)).
    assert (Dd : has_char "d" (fc_marshal d) = false) by (apply fc_no_char; (reflexivity || discriminate)).
    assert (Rd : has_char "r" (fc_marshal d) = false) by (apply fc_no_char; (reflexivity || discriminate)).
    unfold part_unmarshal. destruct Hs as [->|Hs].
    + change (fc_zero (FC 0 (FR 0 0))) with true. cbv iota. rewrite E0.
      rewrite (split_str_time p (fc_marshal d)) by auto. cbn [nth List.length Nat.ltb Nat.leb negb].
      rewrite (proj2 (index_char_none _ _) Dd), (proj2 (index_char_none _ _) Rd). rewrite fc_rt' by auto. reflexivity.
    + rewrite (fc_nz s) by auto.
      assert (Cs : has_char ":" (fc_marshal s) = false) by (apply fc_no_char; (reflexivity || discriminate)).
      assert (Ds : has_char "d" (fc_marshal s) = false) by (apply fc_no_char; (reflexivity || discriminate)).
      rewrite (split_str_time p ((fc_marshal s ++ "d") ++ fc_marshal d)) by (auto; rewrite !has_char_app, Cs, Cd; reflexivity).
      cbn [nth List.length Nat.ltb Nat.leb negb]. rewrite app_assoc. cbn [append].
      rewrite index_char_app by auto. rewrite stake_app. replace (String.length (fc_marshal s) + 1) with (String.length (fc_marshal s ++ "d")) by (rewrite length_app; reflexivity).
      change (String "d" (fc_marshal d)) with ("d" ++ fc_marshal d). rewrite <- app_assoc, sdrop_app.
      rewrite !fc_rt' by auto. reflexivity.
Qed.

Lemma part_range p c1 c2 r b old : path_ok p -> count_ok c1 r b -> count_ok c2 r b -> word64 (c2 - c1) ->
  part_unmarshal old (p ++ "time:" ++ fc_marshal (FC c1 (FR r b)) ++ "r" ++ fc_marshal (FC c2 (FR r b))) = Ok (Part p (FC c1 (FR r b)) (FC (c2 - c1) (FR r b))).
Proof.
  intros Hp H1 H2 Hw. set (x := fc_marshal (FC c1 (FR r b))). set (y := fc_marshal (FC c2 (FR r b))).
  assert (A : forall c, has_char ":" (fc_marshal (FC c (FR r b))) = false) by (intros; apply fc_no_char; (reflexivity || discriminate)).
  assert (B : forall c, has_char "d" (fc_marshal (FC c (FR r b))) = false) by (intros; apply fc_no_char; (reflexivity || discriminate)).
  assert (C : forall c, has_char "r" (fc_marshal (FC c (FR r b))) = false) by (intros; apply fc_no_char; (reflexivity || discriminate)).
  unfold part_unmarshal. rewrite (split_str_time p (x ++ "r" ++ y)) by (auto; unfold x, y; rewrite !has_char_app, !A; reflexivity).
  cbn [nth List.length Nat.ltb Nat.leb negb].
  rewrite (proj2 (index_char_none "d" (x ++ "r" ++ y))) by (unfold x, y; rewrite !has_char_app, !B; reflexivity).
  cbn [append]. rewrite (index_char_app "r" x y) by apply C. rewrite stake_app. unfold x at 1. rewrite fc_rt by auto. cbn [bind].
  replace (String.length x + 1) with (String.length (x ++ "r")) by (rewrite length_app; reflexivity).
  change (String "r" y) with ("r" ++ y). rewrite <- app_assoc, sdrop_app. unfold y. rewrite fc_rt by auto. cbn [bind]. unfold fc_sub. cbn [fc_count fc_rate].
  unfold wrap64. unfold word64 in Hw. rewrite Z.mod_small by lia. do 3 f_equal. lia.
Qed.

Definition part_ok (x : part) : Prop :=
  path_ok (p_path x) /\ 
  (p_start x = FC 0 (FR 0 0) /\ p_dur x = FC 0 (FR 0 0) \/
   start_ok (p_start x) /\ count_ok (fc_count (p_dur x)) (fr_rate (fc_rate (p_dur x))) (fr_base (fc_rate (p_dur x)))).

Lemma part_marshal_no_semi x : has_char ";" (p_path x) = false -> has_char ";" (part_marshal x) = false.
Proof.
  intros H. unfold part_marshal. rewrite !has_char_app, H. cbn [orb].
  assert (E : has_char ";" (if negb (emptyb (p_path x)) && negb (has_suffix_str "/" (p_path x)) then "/" else "") = false) by now destruct (_ && _).
  rewrite E. cbn [orb]. destruct (fc_zero (p_dur x)); [reflexivity|]. rewrite !has_char_app. rewrite (fc_no_char ";") by (reflexivity || discriminate).
  rewrite orb_false_r. cbn [orb]. destruct (fc_zero (p_start x)); [reflexivity|]. rewrite has_char_app, fc_no_char by (reflexivity || discriminate). reflexivity.
Qed.
Lemma slash_prefix_id x : has_prefix_str "/" (p_path x) = true -> slash_prefix (part_marshal x) = part_marshal x.
Proof.
  intros H. unfold slash_prefix, has_prefix_str in *. apply prefix_spec in H as [t Ht].
  assert (E : String.prefix "/" (part_marshal x) = true). { apply prefix_spec. unfold part_marshal. rewrite Ht. eexists. rewrite !app_assoc. reflexivity. }
  now rewrite E.
Qed.
Lemma parts_rt l : l <> [] ->
  Forall (fun x => part_ok x /\ has_prefix_str "/" (p_path x) = true /\ lacks ";" (p_path x)) l ->
  round_trips parts_marshal parts_unmarshal l.
Proof.
  intros Hne H old. unfold parts_unmarshal, parts_marshal.
  rewrite split_join.
  - clear Hne. induction H as [|x l ((Hp & Hv) & Hs & Hc) _ IH]; [reflexivity|]. cbn [map parts_read].
    rewrite slash_prefix_id by auto. rewrite (part_rt x Hp Hv). cbn [bind]. now rewrite IH.
  - now destruct l.
  - apply Forall_map. eapply Forall_impl; [|exact H]. intros x (_ & Hs & Hc). cbn beta. rewrite slash_prefix_id by auto.
    apply part_marshal_no_semi. now apply lacks_char.
Qed.

(* ---- C49: time codes ---- *)
Lemma two_digits_numeral z : (0 <= z)%Z -> numeral (two_digits z) z.
Proof. intros H. split; auto. unfold two_digits. destruct (z <? 10)%Z; [now exists 1|now exists 0]. Qed.
Lemma tc_rt h m s f d : (0 <= h < 2 ^ 63)%Z -> (0 <= m < 2 ^ 63)%Z -> (0 <= s < 2 ^ 63)%Z -> (0 <= f < 2 ^ 63)%Z -> forall v,
  let t := tc_string (TC v h m s f d) in tc_unmarshal t = Ok (TC t h m s f d).
Proof.
  intros Hh Hm Hs Hf v. cbv zeta.
  assert (N : forall c z, is_digit c = false -> (0 <= z)%Z -> has_char c (two_digits z) = false).
  { intros c z Hc Hz. eapply numeral_no_char; eauto. now apply two_digits_numeral. }
  assert (P : forall z, (0 <= z < 2 ^ 63)%Z -> atoi (two_digits z) = Some z).
  { intros z Hz. unfold atoi. apply numeral_parse_int_ok; [apply two_digits_numeral; lia|]. unfold int_ok. cbn [Z.sub Z.opp Z.add Z.pos_sub Pos.pred_double]. lia. }
  unfold tc_unmarshal. set (t := tc_string (TC v h m s f d)).
  assert (E : emptyb t = false).
  { subst t. unfold tc_string. cbn [tc_h]. pose proof (numeral_head _ _ (two_digits_numeral h ltac:(lia))) as X. destruct (two_digits h); [contradiction|reflexivity]. }
  rewrite E. assert (D : contains ";" t = d).
  { subst t. unfold tc_string. cbn [tc_h tc_m tc_s tc_f tc_drop]. rewrite contains_single, !has_char_app, !N by (reflexivity || lia).
    now destruct d. }
  rewrite D. unfold tc_unpack. cbn [tc_drop tc_value]. subst t. unfold tc_string. cbn [tc_h tc_m tc_s tc_f tc_drop].
  destruct d; cbn [append]; rewrite split_char4 by (apply N; (reflexivity || lia)); now rewrite !P.
Qed.

(* ---- C50 ---- *)
Lemma track_rt t n : word64 t -> word64 n -> round_trips track_marshal track_unmarshal (Track t n).
Proof.
  intros Ht Hn old. apply word64_int64 in Ht, Hn. unfold track_marshal, track_unmarshal. cbn [t_track t_total].
  destruct (Z.eqb_spec n 0) as [->|N].
  - rewrite contains_single, itoa_no_char by reflexivity. now rewrite atoi_itoa.
  - rewrite contains_itoa by reflexivity. cbn [append has_char]. cbn [Ascii.eqb Bool.eqb orb]. now rewrite sscanf2_lit.
Qed.
Lemma crs_point_rt x y : word64 x -> word64 y -> round_trips crs_point_marshal crs_point_unmarshal (Pt x y).
Proof.
  intros Hx Hy old. apply word64_int64 in Hx, Hy. unfold crs_point_unmarshal, crs_point_marshal. cbn [pt_x pt_y append].
  unfold sscanf2. rewrite scan_int_itoa by (auto; reflexivity). cbn [scan_lit Ascii.eqb Bool.eqb].
  unfold scan_blank. cbn [is_space nat_of_ascii]. change (is_space " " && negb (Ascii.eqb " " "010")) with true. cbv iota.
  rewrite <- (app_nil_r (itoa y)). rewrite skip_blank_itoa. now rewrite scan_int_itoa.
Qed.
Lemma qt_point_rt x y : word64 x -> word64 y -> round_trips_if_written qt_point_marshal qt_point_unmarshal (Pt x y).
Proof.
  intros Hx Hy old s H. apply word64_int64 in Hx, Hy. unfold qt_point_marshal in H. cbn [pt_x pt_y] in H.
  destruct (_ && _); [discriminate|]. injection H as <-. unfold qt_point_unmarshal.
  assert (N : forall c, is_digit c = false -> Ascii.eqb c "-" = false -> c <> ","%char -> contains (String c "") (itoa x ++ "," ++ itoa y) = false).
  { intros c H1 H2 H3. rewrite contains_itoa by auto. cbn [append has_char]. rewrite itoa_no_char by auto.
    rewrite (proj2 (Ascii.eqb_neq c ",")) by auto. reflexivity. }
  rewrite !N by (reflexivity || discriminate). cbn [append]. now rewrite sscanf2_lit.
Qed.
Lemma fields_join l : Forall word l -> fields (join " " l) = l.
Proof.
  assert (A : forall x r, word x -> split_space (x ++ r) = match split_space r with [] => [x] | y :: ys => (x ++ y) :: ys end).
  { intros x r [_ Hx]. revert Hx. induction x as [|c x IH]; intros Hx; cbn [append split_space].
    - destruct r as [|c r]; [reflexivity|]. cbn [split_space]. destruct (is_space c); [reflexivity|]. now destruct (split_space r).
    - rewrite (Hx c) by (cbn [has_char]; now rewrite Ascii.eqb_refl). rewrite IH.
      + destruct (split_space r); reflexivity.
      + intros d Hd. apply Hx. cbn [has_char]. rewrite Hd. apply orb_true_r. }
  intros H. unfold fields. induction H as [|x l Hx Hl IH]; [reflexivity|].
  assert (Ex : emptyb x = false) by (apply emptyb_false; apply Hx).
  destruct l as [|y l].
  - cbn. change x with (x ++ "") at 1 || rewrite <- (app_nil_r x) at 1. rewrite A by auto. cbn [split_space filter]. rewrite app_nil_r, Ex. reflexivity.
  - rewrite join_cons. rewrite A by auto. cbn [append split_space]. change (is_space " ") with true. cbv iota. cbn [filter].
    rewrite app_nil_r, Ex. cbn [negb]. now rewrite IH.
Qed.
Lemma itoa_word z : (0 <= z)%Z -> word (itoa z).
Proof.
  intros H. split; [apply itoa_nonempty|]. intros c Hc. destruct (is_space c) eqn:E; [|reflexivity].
  apply is_space_spec in E as [E1 E2]. rewrite itoa_no_char in Hc by auto. discriminate.
Qed.
Lemma numeral_word s z : numeral s z -> word s.
Proof.
  intros H. split.
  - pose proof (numeral_head _ _ H). now destruct s.
  - intros c Hc. destruct (is_space c) eqn:E; [|reflexivity]. apply is_space_spec in E as [E1 E2].
    rewrite (numeral_no_char c s z H E1) in Hc. discriminate.
Qed.
Lemma read_bytes_itoa l : Forall byte l -> read_bytes (map itoa l) = Ok l.
Proof.
  induction 1 as [|x l Hx _ IH]; [reflexivity|]. cbn [map read_bytes].
  assert (E : parse_uint 8 (itoa x) = Some x).
  { unfold parse_uint. rewrite (numeral_parse_digits (itoa x) x) by (apply numeral_itoa; unfold byte in Hx; lia). rewrite Z2N.id by (unfold byte in Hx; lia).
    destruct (Z.ltb_spec x (2 ^ 8)); [reflexivity|unfold byte in Hx; lia]. }
  rewrite E, IH. reflexivity.
Qed.
Lemma bytes_rt l old : Forall byte l -> bytes_unmarshal old (bytes_marshal l) = Ok (match l with [] => old | _ => l end).
Proof.
  intros H. unfold bytes_unmarshal, bytes_marshal. rewrite fields_join.
  - destruct l as [|x l]; [reflexivity|]. cbn [map]. now apply (read_bytes_itoa (x :: l)).
  - apply Forall_map. eapply Forall_impl; [|exact H]. intros x [Hx _]. now apply itoa_word.
Qed.
Lemma atoi_itoa_word z : word64 z -> atoi (itoa z) = Some z.
Proof. intros H. apply atoi_itoa. now apply word64_int64. Qed.
Lemma wrap64_small z : word64 z -> wrap64 z = z.
Proof. unfold word64, wrap64. intros H. rewrite Z.mod_small by lia. lia. Qed.
Lemma itoa_word' z : word (itoa z).
Proof.
  split; [apply itoa_nonempty|]. intros c Hc. destruct (is_space c) eqn:E; [|reflexivity].
  apply is_space_spec in E as [E1 E2]. rewrite itoa_no_char in Hc by auto. discriminate.
Qed.
Lemma grid_read {A} w (rd : list string -> result (list A)) c r vs xs : (0 < w)%Z -> (0 <= c)%Z -> (0 <= r)%Z -> (c * r * w <= 2 ^ 48)%Z ->
  word64 c -> word64 r -> Forall word vs -> rd vs = Ok xs ->
  grid_unmarshal w rd (join " " (itoa c :: itoa r :: vs)) = Ok (Grid c r xs).
Proof.
  intros Hw Hc Hr Hm Wc Wr Hv Hx. unfold grid_unmarshal. rewrite fields_join by (repeat constructor; auto using itoa_word', itoa_nonempty; apply itoa_word').
  rewrite !atoi_itoa_word by auto. assert (M : make_ok w (wrap64 (c * r)) = true).
  { assert (c * r <= 2 ^ 48)%Z by nia. rewrite wrap64_small by (unfold word64; nia). unfold make_ok.
    destruct (Z.leb_spec 0 (c * r)); [|nia]. destruct (Z.leb_spec (c * r * w) (2 ^ 48)); [reflexivity|lia]. }
  rewrite M, Hx. reflexivity.
Qed.
Lemma ixml_bool_rt x : round_trips ixml_bool_marshal ixml_bool_unmarshal x.
Proof. intros old. now destruct x. Qed.
Lemma words_rt l : l <> [] -> Forall (lacks ",") l -> round_trips_if_written words_marshal words_unmarshal l.
Proof.
  intros Hne H old s E. unfold words_marshal in E. destruct l as [|x l]; [congruence|]. assert (E' : s = join "," (x :: l)) by congruence. subst s. unfold words_unmarshal.
  rewrite split_join; [reflexivity|congruence|]. eapply Forall_impl; [|exact H]. intros y Hy. now apply lacks_char.
Qed.
Lemma prefs_rt a b c d : word64 a -> word64 b -> word64 c -> word64 d -> round_trips prefs_marshal prefs_unmarshal (Prefs a b c d).
Proof.
  intros Ha Hb Hc Hd old. unfold prefs_unmarshal, prefs_marshal. cbn [pr_tag pr_color pr_rating pr_frame append].
  rewrite split_char4 by nochar. now rewrite !atoi_itoa_word.
Qed.
(* what a content rating is read as: every field moves one place up *)
Lemma cr_shift st ra sc re t old : lacks "|" st -> lacks "|" ra -> lacks "|" sc -> lacks "|" re ->
  trim_space t = t -> has_suffix_str ")" t = false ->
  cr_marshal (CR st ra sc re) = Some t -> cr_unmarshal old t = Ok (CR ra sc re "").
Proof.
  intros H1 H2 H3 H4 Ht Hs E. unfold cr_marshal in E. cbn [cr_standard cr_rating cr_score cr_reasons] in E.
  destruct (_ && _); [discriminate|].
  apply (f_equal (fun o => match o with Some x => x | None => "" end)) in E. cbv beta iota in E. unfold cr_unmarshal. apply lacks_char in H1, H2, H3, H4.
  rewrite Ht, <- E. rewrite trim_prefix_app. rewrite trim_suffix_none.
  - cbn [append]. rewrite split_char4 by auto. reflexivity.
  - destruct (has_suffix_str ")" (st ++ _)) eqn:Y; [|reflexivity]. apply has_suffix_spec in Y as [u Y].
    rewrite <- E, Y, <- app_assoc, has_suffix_app in Hs. discriminate.
Qed.

(* ---- C51 ---- *)
Lemma land_mod v k : (0 <= k)%Z -> Z.land v (Z.ones k) = (v mod 2 ^ k)%Z.
Proof. intros H. apply Z.land_ones. exact H. Qed.
Lemma land_bit v k : (0 <= k)%Z -> (0 <? Z.land v (2 ^ k))%Z = Z.testbit v k.
Proof.
  intros Hk. destruct (Z.testbit v k) eqn:E.
  - apply Z.ltb_lt. assert (Z.land v (2 ^ k) <> 0)%Z.
    { intros X. apply (f_equal (fun z => Z.testbit z k)) in X. rewrite Z.land_spec, E, Z.pow2_bits_true, Z.bits_0 in X by auto. discriminate. }
    assert (0 <= Z.land v (2 ^ k))%Z by (apply Z.land_nonneg; right; apply Z.pow_nonneg; lia). lia.
  - apply Z.ltb_ge. assert (X : Z.land v (2 ^ k) = 0%Z); [|lia]. apply Z.bits_inj'. intros n Hn. rewrite Z.land_spec, Z.bits_0.
    destruct (Z.eq_dec n k) as [->|Hne]; [now rewrite E|]. rewrite Z.pow2_bits_false by auto. apply andb_false_r.
Qed.
Lemma testbit_mod v k : (0 <= k)%Z -> Z.b2z (Z.testbit v k) = ((v / 2 ^ k) mod 2)%Z.
Proof. intros H. now rewrite Z.testbit_spec' by auto. Qed.
Lemma flash_bits v old s : parse_int 32 s = Some v -> exists f, flash_unmarshal old s = Ok f /\
  f_fired f = Z.testbit v 0 /\ f_return f = ((v / 2) mod 4)%Z /\ f_mode f = ((v / 8) mod 4)%Z /\
  f_function f = Z.testbit v 5 /\ f_red_eye f = Z.testbit v 6 /\
  (v mod 128 = Z.b2z (f_fired f) + 2 * f_return f + 8 * f_mode f + 32 * Z.b2z (f_function f) + 64 * Z.b2z (f_red_eye f))%Z.
Proof.
  intros H. unfold flash_unmarshal. assert (E : emptyb s = false) by (destruct s; [discriminate|reflexivity]). rewrite E, H.
  eexists. split; [reflexivity|]. cbn [f_fired f_return f_mode f_function f_red_eye].
  pose proof (land_bit v 0 ltac:(lia)) as B0. pose proof (land_bit v 5 ltac:(lia)) as B5. pose proof (land_bit v 6 ltac:(lia)) as B6.
  change (2 ^ 0)%Z with 1%Z in B0. change (2 ^ 5)%Z with 32%Z in B5. change (2 ^ 6)%Z with 64%Z in B6. rewrite B0, B5, B6.
  pose proof (land_mod (Z.shiftr v 1) 2 ltac:(lia)) as M1. pose proof (land_mod (Z.shiftr v 3) 2 ltac:(lia)) as M3.
  change (Z.ones 2) with 3%Z in M1, M3. change (2 ^ 2)%Z with 4%Z in M1, M3.
  rewrite Z.shiftr_div_pow2 in M1, M3 by lia. change (2 ^ 1)%Z with 2%Z in M1. change (2 ^ 3)%Z with 8%Z in M3.
  rewrite !Z.shiftr_div_pow2 by lia. change (2 ^ 1)%Z with 2%Z. change (2 ^ 3)%Z with 8%Z. rewrite M1, M3.
  repeat split. rewrite !testbit_mod by lia. change (2 ^ 0)%Z with 1%Z. change (2 ^ 5)%Z with 32%Z. change (2 ^ 6)%Z with 64%Z.
  rewrite Z.div_1_r. Z.to_euclidean_division_equations. lia.
Qed.

(* ---- id3 genres ---- *)
Definition table_ok (gm : list (Z * string)) : Prop :=
  NoDup (map fst gm) /\ NoDup (map snd gm) /\ Forall (fun p => byte (fst p) /\ atoi (snd p) = None) gm.
Lemma genre_name_in gm x v : genre_name gm x = Some v -> In (x, v) gm.
Proof. induction gm as [|[k w] gm IH]; cbn; [discriminate|]. destruct (Z.eqb_spec k x); [intros [=]; subst; auto|auto]. Qed.
Lemma genre_code_in gm x v : NoDup (map snd gm) -> In (x, v) gm -> genre_code gm v = Some x.
Proof.
  induction gm as [|[k w] gm IH]; cbn; [tauto|]. intros N [E|I].
  - injection E as -> ->. now rewrite String.eqb_refl.
  - inversion N; subst. destruct (String.eqb_spec w v) as [->|]; [|auto]. exfalso. apply H1. apply (in_map snd) in I. exact I.
Qed.
Lemma genre_code_some gm s k : genre_code gm s = Some k -> In (k, s) gm.
Proof. induction gm as [|[k' w] gm IH]; cbn; [discriminate|]. destruct (String.eqb_spec w s); [intros [=]; subst; auto|auto]. Qed.
Lemma genre_rt gm x : table_ok gm -> byte x -> genre_parse gm (genre_marshal gm x) = Some x.
Proof.
  intros (N1 & N2 & F) Hx. unfold genre_parse, genre_marshal. destruct (genre_name gm x) as [v|] eqn:E.
  - apply genre_name_in in E. now rewrite (genre_code_in gm x v).
  - assert (A : atoi (itoa x) = Some x) by (apply atoi_itoa_word; unfold word64, byte in *; lia).
    destruct (genre_code gm (itoa x)) as [k|] eqn:C.
    + apply genre_code_some in C. rewrite Forall_forall in F. apply F in C as [_ C]. cbn in C. congruence.
    + rewrite A. unfold byte in Hx. now rewrite Z.mod_small by lia.
Qed.
Lemma split_join_blank l : l <> [] -> Forall (fun x => has_char "," x = false) l ->
  split_char "," (join ", " l) = match l with [] => [] | x :: r => x :: map (fun y => String " " y) r end.
Proof.
  intros Hne H. induction H as [|x l Hx Hl IH]; [congruence|]. destruct l as [|y l].
  - cbn. now rewrite split_char_none.
  - rewrite join_cons. cbn [append]. rewrite split_char_app by auto. f_equal. cbn [split_char Ascii.eqb Bool.eqb].
    rewrite IH by congruence. reflexivity.
Qed.
Lemma genres_rt gm l : table_ok gm -> l <> [] -> Forall (fun x => In x (map snd gm) /\ lacks "," x /\ trim_space x = x) l ->
  genres_unmarshal gm [] (genres_marshal l) = Ok l.
Proof.
  intros (N1 & N2 & F) Hne H. unfold genres_unmarshal, genres_marshal. cbn [List.app]. f_equal.
  rewrite split_join_blank; [|auto|eapply Forall_impl; [|exact H]; intros x (_ & K & _); now apply lacks_char].
  assert (P : forall x (value : string), In x (map snd gm) -> trim_space x = x ->
    match genre_parse gm (trim_space x) with Some g => genre_marshal gm g | None => value end = x).
  { intros x value Hi Ht. rewrite Ht. apply in_map_iff in Hi as ([k v] & Ev & Hi). cbn in Ev. subst v.
    unfold genre_parse. rewrite (genre_code_in gm k x N2 Hi). unfold genre_marshal.
    assert (E : genre_name gm k = Some x).
    { clear -N1 Hi. induction gm as [|[k' w] gm IH]; [contradiction|]. cbn. inversion N1; subst. destruct Hi as [E|I].
      - injection E as -> ->. now rewrite Z.eqb_refl.
      - destruct (Z.eqb_spec k' k) as [->|]; [|auto]. exfalso. apply H1. apply (in_map fst) in I. exact I. }
    now rewrite E. }
  destruct l as [|x l]; [congruence|]. cbn [map]. inversion H as [|? ? (Hx1 & _ & Hx2) Hl]; subst. f_equal; [now apply P|].
  rewrite map_map. transitivity (map (fun x => x) l); [|apply map_id]. apply map_ext_in. intros y Hy.
  rewrite Forall_forall in Hl. destruct (Hl y Hy) as (Hy1 & _ & Hy2).
  change (trim_space (String " " y)) with (trim_space y). now apply P.
Qed.

(* ---- exif tables ---- *)
(* OECF: the last of the names is taken for a value *)
Lemma oecf_rest_names fl c ns : forall i rest, (2 <= i)%Z -> (i + Z.of_nat (List.length ns) = c + 1)%Z ->
  oecf_rest fl c i (ns ++ rest) = bind (oecf_rest fl c (c + 1) rest) (fun p => Ok (ns ++ fst p, snd p))%list.
Proof.
  induction ns as [|n ns IH]; intros i rest Hi E; cbn [List.app List.length] in *.
  - replace i with (c + 1)%Z by lia. destruct (oecf_rest fl c (c + 1) rest) as [[]| |]; reflexivity.
  - cbn [oecf_rest]. destruct (Z.ltb_spec 1 i); [|lia]. destruct (Z.ltb_spec i (c + 1)); [|lia]. cbn [andb].
    rewrite (IH (i + 1)%Z rest) by lia. destruct (oecf_rest fl c (c + 1) rest) as [[]| |]; reflexivity.
Qed.
Lemma oecf_fails fl c r ns last vs : (1 <= c)%Z -> (c * 16 <= 2 ^ 48)%Z -> (0 <= r)%Z -> (c * r * 16 <= 2 ^ 48)%Z -> 
  Z.of_nat (List.length ns) = (c - 1)%Z -> Forall word (ns ++ [last] ++ vs) -> rat_unmarshal fl (Rat 0 0) last = Err "invalid rational" ->
  word64 r ->
  oecf_unmarshal fl (join " " (itoa c :: itoa r :: ns ++ [last] ++ vs)) = Err "invalid rational".
Proof.
  intros Hc Mc Hr Mr L W E Wr. unfold oecf_unmarshal. rewrite fields_join by (constructor; [apply itoa_word'|]; constructor; [apply itoa_word'|]; exact W).
  rewrite !atoi_itoa_word by (auto; unfold word64; lia).
  assert (M1 : make_ok 16 c = true). { unfold make_ok. destruct (Z.leb_spec 0 c); [|lia]. destruct (Z.leb_spec (c * 16) (2 ^ 48)); [reflexivity|lia]. }
  assert (M2 : make_ok 16 (wrap64 (c * r)) = true).
  { rewrite wrap64_small by (unfold word64; nia). unfold make_ok. destruct (Z.leb_spec 0 (c * r)); [|nia]. destruct (Z.leb_spec (c * r * 16) (2 ^ 48)); [reflexivity|lia]. }
  rewrite M1, M2. cbn [negb]. rewrite oecf_rest_names by lia. cbn [List.app oecf_rest].
  destruct (Z.ltb_spec (c + 1) (c + 1)); [lia|]. rewrite andb_false_r. rewrite E. reflexivity.
Qed.

(* ---- media time ---- *)
Lemma atoi_lenient_numeral s z : numeral s z -> word64 z -> atoi_lenient s = z.
Proof.
  intros H W. unfold atoi_lenient, atoi. rewrite (numeral_parse_int_ok 64 s z H); [reflexivity|]. now apply word64_int64.
Qed.
Lemma media_time h m s f a b c d : numeral a h -> numeral b m -> numeral c s -> numeral d f ->
  String.length d <= 9 -> (h * 3600 + m * 60 + s < 9000000000)%Z ->
  media_time_ms (a ++ ":" ++ b ++ ":" ++ c ++ "." ++ d) =
    ((h * 3600 + m * 60 + s) * 1000 + f * 10 ^ (9 - Z.of_nat (String.length d)) / 1000000)%Z.
Proof.
  intros Ha Hb Hc Hd L T. unfold media_time_ms.
  assert (N : forall c s z, is_digit c = false -> numeral s z -> has_char c s = false) by (intros; eapply numeral_no_char; eauto).
  assert (E : split_char "." (a ++ ":" ++ b ++ ":" ++ c ++ "." ++ d) = [a ++ ":" ++ b ++ ":" ++ c; d]).
  { replace (a ++ ":" ++ b ++ ":" ++ c ++ "." ++ d) with ((a ++ ":" ++ b ++ ":" ++ c) ++ String "." d) by (rewrite !app_assoc; reflexivity).
    rewrite split_char_app. - rewrite (split_char_none "." d) by (eapply N; [reflexivity|eauto]). reflexivity.
    - rewrite !has_char_app. rewrite (N "."%char a h eq_refl Ha), (N "."%char b m eq_refl Hb), (N "."%char c s eq_refl Hc). reflexivity. }
  rewrite E. cbv iota. cbn [nth].
  assert (E2 : split_char ":" (a ++ ":" ++ b ++ ":" ++ c) = [a; b; c]).
  { cbn [append]. rewrite !split_char_app by (eapply N; [reflexivity|eauto]). rewrite (split_char_none ":" c) by (eapply N; [reflexivity|eauto]). reflexivity. }
  rewrite E2. cbv iota.
  assert (Bf : (f < 10 ^ Z.of_nat (String.length d))%Z).
  { pose proof (numeral_parse_digits d f Hd) as P. pose proof (numeral_digits d f Hd) as D. destruct Hd as [Hf _].
    assert (G : forall s acc n, digits_acc acc s = Some n -> (Z.of_N n < (Z.of_N acc + 1) * 10 ^ Z.of_nat (String.length s))%Z).
    { clear. induction s as [|x s IH]; intros acc n; cbn [digits_acc String.length].
      - intros [= <-]. rewrite Z.pow_0_r. lia.
      - destruct (digit_val x) as [k|] eqn:K; [|discriminate]. intros H. apply IH in H.
        assert (k <= 9)%N. { unfold digit_val in K. destruct ((48 <=? N_of_ascii x) && (N_of_ascii x <=? 57))%N eqn:Q; [|discriminate]. injection K as <-. apply andb_prop in Q as [Q1 Q2]. apply N.leb_le in Q1, Q2. lia. }
        rewrite Nat2Z.inj_succ, Z.pow_succ_r by lia.
        assert (Z.of_N (acc * 10 + k) + 1 <= (Z.of_N acc + 1) * 10)%Z by lia.
        pose proof (Z.pow_nonneg 10 (Z.of_nat (String.length s)) ltac:(lia)). nia. }
    destruct d as [|x d]; [discriminate|]. unfold parse_digits in P. apply G in P. rewrite Z2N.id in P by auto. lia. }
  pose proof (proj1 Ha) as Pa. pose proof (proj1 Hb) as Pb. pose proof (proj1 Hc) as Pc. pose proof (proj1 Hd) as Pd.
  set (n := Z.of_nat (String.length d)) in *.
  assert (Ln : (0 <= n <= 9)%Z) by (subst n; lia).
  assert (Pw : (10 ^ n * 10 ^ (9 - n) = 1000000000)%Z). { rewrite <- Z.pow_add_r by lia. replace (n + (9 - n))%Z with 9%Z by lia. reflexivity. }
  pose proof (Z.pow_pos_nonneg 10 (9 - n) ltac:(lia) ltac:(lia)) as P1.
  assert (P9 : (10 ^ n <= 10 ^ 9)%Z) by (apply Z.pow_le_mono_r; lia). change (10 ^ 9)%Z with 1000000000%Z in P9.
  assert (F9 : (f * 10 ^ (9 - n) < 1000000000)%Z) by (rewrite <- Pw; apply Z.mul_lt_mono_pos_r; auto).
  assert (F0 : (0 <= f * 10 ^ (9 - n))%Z) by (apply Z.mul_nonneg_nonneg; lia).
  rewrite (numeral_parse_int_ok 64 d f Hd) by (unfold int_ok; cbn [Z.sub Z.opp Z.add Z.pos_sub Pos.pred_double]; lia).
  destruct (Z.leb_spec n 9); [|lia]. rewrite (wrap64_small (f * _)) by (unfold word64; lia).
  rewrite (atoi_lenient_numeral a h Ha), (atoi_lenient_numeral b m Hb), (atoi_lenient_numeral c s Hc) by (unfold word64; lia).
  set (g := (f * 10 ^ (9 - n))%Z) in *.
  rewrite (wrap64_small (3600000000000 * h)), (wrap64_small (60000000000 * m)), (wrap64_small (1000000000 * s)) by (unfold word64; lia).
  rewrite (wrap64_small (3600000000000 * h + 60000000000 * m)) by (unfold word64; lia).
  rewrite (wrap64_small (3600000000000 * h + 60000000000 * m + 1000000000 * s)) by (unfold word64; lia).
  rewrite wrap64_small by (unfold word64; lia). rewrite Z.quot_div_nonneg by lia.
  replace (g + (3600000000000 * h + 60000000000 * m + 1000000000 * s))%Z with (g + ((h * 3600 + m * 60 + s) * 1000) * 1000000)%Z by lia.
  rewrite Z.div_add by lia. lia.
Qed.
