(* Facts about DateM.v: elements of texts and layouts *)
From Coq Require Import List Arith NArith ZArith Bool Ascii String Lia.
From Verif Require Import GoStr GoStrFacts Spec SpecCodec CodecM CodecFacts SpecDate DateM.
Import ListNotations.
Local Open Scope string_scope.

Definition ch (n : Z) : ascii := ascii_of_N (Z.to_N (48 + n)).
Lemma dig_ch n : dig n = String (ch n) "".
Proof. reflexivity. Qed.

Lemma ten (P : Z -> Prop) : P 0%Z -> P 1%Z -> P 2%Z -> P 3%Z -> P 4%Z -> P 5%Z -> P 6%Z -> P 7%Z -> P 8%Z -> P 9%Z ->
  forall n, (0 <= n <= 9)%Z -> P n.
Proof.
  intros. assert (E : (n = 0 \/ n = 1 \/ n = 2 \/ n = 3 \/ n = 4 \/ n = 5 \/ n = 6 \/ n = 7 \/ n = 8 \/ n = 9)%Z) by lia.
  repeat (destruct E as [->|E]; [assumption|]). now subst.
Qed.
Lemma dv n : (0 <= n <= 9)%Z -> digit_val (ch n) = Some (Z.to_N n).
Proof. revert n. apply ten; reflexivity. Qed.
Lemma digit_ch n : (0 <= n <= 9)%Z -> is_digit (ch n) = true.
Proof. intros H. unfold is_digit. now rewrite dv. Qed.
Lemma ch_not n c : (0 <= n <= 9)%Z -> is_digit c = false -> Ascii.eqb (ch n) c = false.
Proof. intros H Hc. destruct (Ascii.eqb_spec (ch n) c) as [<-|_]; [|reflexivity]. now rewrite digit_ch in Hc. Qed.

Lemma d10 z : (0 <= z <= 99)%Z -> (0 <= z / 10 <= 9)%Z /\ (0 <= z mod 10 <= 9)%Z.
Proof. intros H. split; [split; [apply Z.div_pos; lia|apply Z.lt_succ_r, Z.div_lt_upper_bound; lia]|pose proof (Z.mod_pos_bound z 10); lia]. Qed.
Lemma two_ch z v : two z ++ v = String (ch (z / 10)) (String (ch (z mod 10)) v).
Proof. reflexivity. Qed.
Lemma four_two z v : four z ++ v = two (z / 100) ++ two (z mod 100) ++ v.
Proof. reflexivity. Qed.
Lemma d100 z : (0 <= z <= 9999)%Z -> (0 <= z / 100 <= 99)%Z /\ (0 <= z mod 100 <= 99)%Z.
Proof. intros H. split; [split; [apply Z.div_pos; lia|apply Z.lt_succ_r, Z.div_lt_upper_bound; lia]|pose proof (Z.mod_pos_bound z 100); lia]. Qed.

Lemma of_two x : (0 <= x <= 99)%Z -> Z.of_N (Z.to_N (x / 10) * 10 + Z.to_N (x mod 10)) = x.
Proof. intros H. destruct (d10 x H). pose proof (Z.div_mod x 10). lia. Qed.

Lemma getnum_two b z v : (0 <= z <= 99)%Z -> getnum b (two z ++ v) = Some (z, v).
Proof. intros H. destruct (d10 z H). rewrite two_ch. cbn [getnum]. rewrite !dv by assumption. now rewrite of_two. Qed.
Lemma ranged_in lo hi z v : (lo <= z <= hi)%Z -> ranged lo hi (Some (z, v)) = Some (z, v).
Proof. intros H. unfold ranged. destruct (Z.leb_spec lo z); [|lia]. destruct (Z.leb_spec z hi); [reflexivity|lia]. Qed.
Lemma ranged_out lo hi z v : (z < lo \/ hi < z)%Z -> ranged lo hi (Some (z, v)) = None.
Proof. intros H. unfold ranged. destruct (Z.leb_spec lo z); [|reflexivity]. destruct (Z.leb_spec z hi); [lia|reflexivity]. Qed.

Lemma atoi_two z : (0 <= z <= 99)%Z -> time_atoi (two z) = Some z.
Proof.
  intros H. destruct (d10 z H). change (two z) with (two z ++ ""). rewrite two_ch. unfold time_atoi.
  rewrite !ch_not by (assumption || reflexivity). cbn [digits_acc]. rewrite !dv by assumption. cbn [option_map]. f_equal.
  rewrite <- (of_two z H) at 3. f_equal.
Qed.
Lemma atoi_four z : (0 <= z <= 9999)%Z -> time_atoi (four z) = Some z.
Proof.
  intros H. destruct (d100 z H) as [A B]. change (four z) with (four z ++ ""). rewrite four_two, !two_ch.
  destruct (d10 _ A), (d10 _ B). unfold time_atoi.
  rewrite !ch_not by (assumption || reflexivity). cbn [digits_acc]. rewrite !dv by assumption. cbn [option_map]. f_equal.
  pose proof (of_two _ A). pose proof (of_two _ B). pose proof (Z.div_mod z 100 ltac:(lia)). lia.
Qed.

(* ---- elements ---- *)
Lemma year_four nx p y v : (0 <= y <= 9999)%Z -> parse_std SLongYear nx p (four y ++ v) = Some (set_year y p, v).
Proof.
  intros H. unfold parse_std. change (Nat.ltb (String.length (four y ++ v)) 4) with false.
  destruct (d100 y H) as [A B]. destruct (d10 _ A).
  replace (digit_first (four y ++ v)) with true by (rewrite four_two, two_ch; cbn [digit_first]; now rewrite digit_ch).
  change (stake 4 (four y ++ v)) with (four y). rewrite atoi_four by assumption. reflexivity.
Qed.
Lemma year_two nx p y v : (1969 <= y <= 2068)%Z -> parse_std SYear nx p (two (y mod 100) ++ v) = Some (set_year y p, v).
Proof.
  intros H. pose proof (Z.mod_pos_bound y 100 ltac:(lia)). unfold parse_std. change (Nat.ltb (String.length (two (y mod 100) ++ v)) 2) with false.
  change (stake 2 (two (y mod 100) ++ v)) with (two (y mod 100)). rewrite atoi_two by lia.
  change (sdrop 2 (two (y mod 100) ++ v)) with v. do 2 f_equal. f_equal.
  pose proof (Z.div_mod y 100 ltac:(lia)). destruct (Z.leb_spec 69 (y mod 100)); Lia.lia.
Qed.
Lemma month_two nx p z v : (1 <= z <= 12)%Z -> parse_std SMonth nx p (two z ++ v) = Some (set_month z p, v).
Proof. intros H. cbn [parse_std]. now rewrite getnum_two, ranged_in by lia. Qed.
Lemma month_out nx p z v : (13 <= z <= 99 \/ z = 0)%Z -> parse_std SMonth nx p (two z ++ v) = None.
Proof. intros H. cbn [parse_std]. now rewrite getnum_two, ranged_out by lia. Qed.
Lemma day_two nx p z v : (0 <= z <= 99)%Z -> parse_std SDay nx p (two z ++ v) = Some (set_day z p, v).
Proof. intros H. cbn [parse_std]. now rewrite getnum_two by lia. Qed.
Lemma hour_two nx p z v : (0 <= z <= 23)%Z -> parse_std SHour nx p (two z ++ v) = Some (set_hour z p, v).
Proof. intros H. cbn [parse_std]. now rewrite getnum_two, ranged_in by lia. Qed.
Lemma hour_out nx p z v : (24 <= z <= 99)%Z -> parse_std SHour nx p (two z ++ v) = None.
Proof. intros H. cbn [parse_std]. now rewrite getnum_two, ranged_out by lia. Qed.
Lemma minute_two nx p z v : (0 <= z <= 59)%Z -> parse_std SMinute nx p (two z ++ v) = Some (set_min z p, v).
Proof. intros H. cbn [parse_std]. now rewrite getnum_two, ranged_in by lia. Qed.
(* the rest after the seconds does not begin with a fraction *)
Definition no_frac (v : string) : bool :=
  match v with String c w => negb (comma_or_period c && digit_first w) | EmptyString => true end.
Lemma second_two nx p z v : (0 <= z <= 59)%Z -> no_frac v = true \/ is_frac nx = true ->
  parse_std SSecond nx p (two z ++ v) = Some (set_sec z p, v).
Proof.
  intros H Hv. cbn [parse_std]. rewrite getnum_two, ranged_in by lia. destruct v as [|c w]; [reflexivity|].
  destruct (comma_or_period c && digit_first w && negb (is_frac nx)) eqn:E; [|reflexivity]. exfalso.
  apply andb_prop in E as [E E']. destruct Hv as [Hv|Hv]; [|now rewrite Hv in E']. cbn in Hv. now rewrite E in Hv.
Qed.
Lemma frac9_none n nx p v : no_frac v = true -> parse_std (SFrac9 n) nx p v = Some (p, v).
Proof. destruct v as [|c w]; [reflexivity|]. cbn. intros H. destruct (comma_or_period c && digit_first w); [discriminate|reflexivity]. Qed.

(* digits of a fraction *)
Definition digs (ds : list Z) : string := String.concat "" (map dig ds).
Lemma digs_cons d ds : digs (d :: ds) = String (ch d) (digs ds).
Proof. unfold digs. destruct ds; reflexivity. Qed.
Lemma digs_len ds : String.length (digs ds) = List.length ds.
Proof. induction ds; [reflexivity|]. rewrite digs_cons. cbn. now rewrite IHds. Qed.
Lemma digs_run ds v : Forall (fun d => 0 <= d <= 9)%Z ds -> digit_first v = false -> digit_run (digs ds ++ v) = List.length ds.
Proof.
  intros H Hv. induction H as [|d ds Hd _ IH].
  - destruct v as [|c w]; [reflexivity|]. cbn in *. now rewrite Hv.
  - rewrite digs_cons. cbn. rewrite digit_ch by assumption. now rewrite IH.
Qed.
Lemma digs_acc ds : Forall (fun d => 0 <= d <= 9)%Z ds -> forall a, (0 <= a)%Z ->
  digits_acc (Z.to_N a) (digs ds) = Some (Z.to_N (fold_left (fun a d => a * 10 + d)%Z ds a)).
Proof.
  intros H. induction H as [|d ds Hd _ IH]; intros a Ha; cbn [fold_left]; [reflexivity|].
  rewrite digs_cons. cbn [digits_acc]. rewrite dv by assumption.
  replace (Z.to_N a * 10 + Z.to_N d)%N with (Z.to_N (a * 10 + d)) by lia. apply IH. lia.
Qed.
Lemma fold_pos ds : Forall (fun d => 0 <= d <= 9)%Z ds -> forall a, (0 <= a)%Z -> (0 <= fold_left (fun a d => a * 10 + d)%Z ds a)%Z.
Proof. intros H. induction H; intros a Ha; cbn; [lia|]. apply IHForall. lia. Qed.
Lemma stake_all q w : stake (String.length q) (q ++ w) = q.
Proof. induction q; cbn; [now destruct w|]. now rewrite IHq. Qed.
Lemma sdrop_all q w : sdrop (String.length q) (q ++ w) = w.
Proof. induction q; cbn; [now destruct w|]. exact IHq. Qed.

Lemma nanos ds v : (1 <= List.length ds <= 9)%nat -> Forall (fun d => 0 <= d <= 9)%Z ds ->
  parse_nanoseconds (String "." (digs ds ++ v)) (S (List.length ds)) =
  Some (fold_left (fun a d => a * 10 + d) ds 0 * 10 ^ Z.of_nat (9 - List.length ds))%Z.
Proof.
  intros L H. unfold parse_nanoseconds. change (comma_or_period ".") with true. cbv iota zeta.
  rewrite Nat.min_l by lia. replace (S (List.length ds) - 1) with (String.length (digs ds)) by (rewrite digs_len; lia).
  change (sdrop 1 (String "." (digs ds ++ v))) with (sdrop 0 (digs ds ++ v)).
  replace (sdrop 0 (digs ds ++ v)) with (digs ds ++ v) by (destruct (digs ds ++ v); reflexivity).
  rewrite stake_all. unfold time_atoi. destruct ds as [|d ds]; [cbn in L; lia|]. rewrite digs_cons.
  inversion H as [|? ? Hd Hds]; subst. rewrite !ch_not by (assumption || reflexivity). rewrite <- digs_cons.
  change 0%N with (Z.to_N 0). rewrite digs_acc by (assumption || lia). cbn [option_map].
  pose proof (fold_pos _ H 0 ltac:(lia)). rewrite Z2N.id by assumption.
  destruct (Z.ltb_spec (fold_left (fun a d0 => a * 10 + d0) (d :: ds) 0)%Z 0); [lia|]. do 2 f_equal.
Qed.

(* what a fraction does to the reader: [v] follows it *)
Lemma fraction_cases f ns v : fraction f ns -> digit_first v = false -> no_frac v = true ->
  (f = "" /\ ns = 0%Z) \/
  exists ds, f = String "." (digs ds) /\ (1 <= List.length ds <= 9)%nat /\ digit_first (digs ds ++ v) = true /\
    digit_run (digs ds ++ v) = List.length ds /\
    parse_nanoseconds (String "." (digs ds ++ v)) (S (List.length ds)) = Some ns.
Proof.
  intros [|ds L H] Hv Hf; [now left|]. right. exists ds. split; [reflexivity|]. split; [assumption|]. split; [|split].
  - destruct ds as [|d ds]; [cbn in L; lia|]. rewrite digs_cons. inversion H; subst. cbn. now apply digit_ch.
  - now apply digs_run.
  - now apply nanos.
Qed.
Lemma frac9 n nx p f ns v : fraction f ns -> digit_first v = false -> no_frac v = true -> p_nsec p = 0%Z ->
  parse_std (SFrac9 n) nx p (f ++ v) = Some (set_nsec ns p, v).
Proof.
  intros Hf Hv Hn Hp. destruct (fraction_cases f ns v Hf Hv Hn) as [[-> ->]|(ds & -> & L & H1 & H2 & H3)].
  - cbn [append]. rewrite frac9_none by assumption. do 2 f_equal. destruct p; cbn in *. now subst.
  - cbn [append parse_std]. rewrite H1, H2. change (comma_or_period ".") with true. cbn [andb]. rewrite Nat.min_r by lia.
    rewrite H3. cbn [sdrop]. now rewrite <- digs_len, sdrop_all.
Qed.
Lemma second_frac nx p z f ns v : (0 <= z <= 59)%Z -> fraction f ns -> digit_first v = false -> no_frac v = true -> is_frac nx = false -> p_nsec p = 0%Z ->
  parse_std SSecond nx p (two z ++ f ++ v) = Some (set_nsec ns (set_sec z p), v).
Proof.
  intros Hz Hf Hv Hn Hx Hp. destruct (fraction_cases f ns v Hf Hv Hn) as [[-> ->]|(ds & -> & L & H1 & H2 & H3)].
  - cbn [append]. rewrite second_two by auto. do 2 f_equal. destruct p; cbn in *. now subst.
  - cbn [append parse_std]. rewrite getnum_two, ranged_in by lia. rewrite H1, Hx, H2.
    change (comma_or_period ".") with true. cbn [andb negb]. rewrite H3. cbn [sdrop]. now rewrite <- digs_len, sdrop_all.
Qed.

(* zones *)
Lemma iso_z nx p v : parse_std SISOColonTZ nx p (String "Z" v) = Some (set_zone (Some 0%Z) p, v).
Proof. reflexivity. Qed.
Lemma zone_of_two sg h m : (0 <= h <= 99)%Z -> (0 <= m <= 99)%Z ->
  zone_of sg (two h) (two m) = if sg =? "+" then Some ((h * 60 + m) * 60)%Z else if sg =? "-" then Some (- ((h * 60 + m) * 60))%Z else None.
Proof. intros. unfold zone_of. now rewrite !atoi_two. Qed.
Lemma zone_colon_tz e nx p z o v : e = SNumColonTZ \/ e = SISOColonTZ -> num_zone ":" z o -> parse_std e nx p (z ++ v) = Some (set_zone (Some o) p, v).
Proof.
  intros He [h m Hh Hm|h m Hh Hm].
  - assert (E : parse_std e nx p (("+" ++ two h ++ ":" ++ two m) ++ v) =
      match zone_of "+" (two h) (two m) with Some z => Some (set_zone (Some z) p, v) | None => None end) by (destruct He as [->| ->]; reflexivity).
    rewrite E, zone_of_two by lia. cbn. do 3 f_equal. f_equal. lia.
  - assert (E : parse_std e nx p (("-" ++ two h ++ ":" ++ two m) ++ v) =
      match zone_of "-" (two h) (two m) with Some z => Some (set_zone (Some z) p, v) | None => None end) by (destruct He as [->| ->]; reflexivity).
    rewrite E, zone_of_two by lia. cbn. do 3 f_equal. f_equal. lia.
Qed.
Lemma zone_num_tz nx p z o v : num_zone "" z o -> parse_std SNumTZ nx p (z ++ v) = Some (set_zone (Some o) p, v).
Proof.
  intros [h m Hh Hm|h m Hh Hm].
  - assert (E : parse_std SNumTZ nx p (("+" ++ two h ++ "" ++ two m) ++ v) =
      match zone_of "+" (two h) (two m) with Some z => Some (set_zone (Some z) p, v) | None => None end) by reflexivity.
    rewrite E, zone_of_two by lia. cbn. do 3 f_equal. f_equal. lia.
  - assert (E : parse_std SNumTZ nx p (("-" ++ two h ++ "" ++ two m) ++ v) =
      match zone_of "-" (two h) (two m) with Some z => Some (set_zone (Some z) p, v) | None => None end) by reflexivity.
    rewrite E, zone_of_two by lia. cbn. do 3 f_equal. f_equal. lia.
Qed.

(* ---- literal text ---- *)
Lemma skip_same c p v : Ascii.eqb c " " = false -> skip_lit (String c p) (String c v) = skip_lit p v.
Proof. intros H. cbn [skip_lit]. now rewrite H, Ascii.eqb_refl. Qed.
Lemma skip_two c p z v : (0 <= z <= 99)%Z -> is_digit c = false -> skip_lit (String c p) (two z ++ v) = None.
Proof.
  intros H Hc. destruct (d10 z H). rewrite two_ch. cbn [skip_lit]. rewrite !ch_not by (assumption || reflexivity).
  now destruct (Ascii.eqb c " ").
Qed.
Lemma skip_end c p : Ascii.eqb c " " = false -> skip_lit (String c p) "" = None.
Proof. intros H. cbn. now rewrite H. Qed.
Lemma skip_differ c d p v : Ascii.eqb d c = false -> skip_lit (String c p) (String d v) = None.
Proof. intros H. cbn. rewrite H. destruct (Ascii.eqb_spec c " ") as [->|_]; [now rewrite H|reflexivity]. Qed.
Lemma skip_blank_two z v : (0 <= z <= 99)%Z -> skip_lit " " (String " " (two z ++ v)) = Some (two z ++ v).
Proof. intros H. destruct (d10 z H). rewrite two_ch. cbn. now rewrite ch_not by (assumption || reflexivity). Qed.

(* ---- the loop ---- *)
Definition nxt (r : list (string * std)) : option std := match r with (_, e) :: _ => Some e | [] => None end.
Lemma loop_ok lit e r last p v v1 p' v2 X : skip_lit lit v = Some v1 -> parse_std e (nxt r) p v1 = Some (p', v2) ->
  parse_loop r last p' v2 = X -> parse_loop ((lit, e) :: r) last p v = X.
Proof. intros H1 H2 H3. cbn [parse_loop]. rewrite H1. change (match r with (_, e') :: _ => Some e' | [] => None end) with (nxt r). now rewrite H2. Qed.
Lemma loop_skip lit e r last p v : skip_lit lit v = None -> parse_loop ((lit, e) :: r) last p v = None.
Proof. intros H. cbn [parse_loop]. now rewrite H. Qed.
Lemma loop_std lit e r last p v v1 : skip_lit lit v = Some v1 -> parse_std e (nxt r) p v1 = None -> parse_loop ((lit, e) :: r) last p v = None.
Proof. intros H1 H2. cbn [parse_loop]. rewrite H1. change (match r with (_, e') :: _ => Some e' | [] => None end) with (nxt r). now rewrite H2. Qed.
Lemma loop_end last p v : skip_lit last v = Some "" -> parse_loop [] last p v = Some p.
Proof. intros H. cbn. now rewrite H. Qed.
Lemma loop_extra last p v c w : skip_lit last v = Some (String c w) -> parse_loop [] last p v = None.
Proof. intros H. cbn. now rewrite H. Qed.
Lemma loop_more last p v : skip_lit last v = None -> parse_loop [] last p v = None.
Proof. intros H. cbn. now rewrite H. Qed.
