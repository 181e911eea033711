(* C128-C130: small types of media models *)
From Coq Require Import List Arith ZArith NArith QArith Bool Ascii String Lia.
From Verif Require Import GoStr GoStrFacts CodecM CodecFacts Spec SpecReader ReaderFacts SpecCodec SpecBasic SpecArray ArrayM ArrayFacts SpeedM NumM SpecNum NumFacts MediaM.
Import ListNotations.
Local Open Scope nat_scope.
Local Open Scope string_scope.

(* ---- C128: the location of a QuickTime file ---------------------------------------------------------- *)

(* two locations that differ at most in the way the same altitude is written *)
Definition same_place {D} (a b : location D) : Prop :=
  lo_body a = lo_body b /\ lo_date a = lo_date b /\ lo_lon a = lo_lon b /\ lo_lat a = lo_lat b /\ lo_name a = lo_name b /\ lo_note a = lo_note b
  /\ lo_role a = lo_role b /\ exists m k m' k', lo_alt a = FDec m k /\ lo_alt b = FDec m' k' /\ (dec_q m k == dec_q m' k')%Q.
(* what is left when only the native fields are stored *)
Definition native_only {D} (x : qt_meta D) : qt_meta D :=
  QtMeta (qm_body x) (qm_date x) (qm_iso x) (qm_name x) (qm_note x) (qm_role x) None.


Lemma has_char_cons c d s : has_char c (String d s) = Ascii.eqb c d || has_char c s.
Proof. reflexivity. Qed.
Lemma format_no_char c x : is_digit c = false -> c <> "-"%char -> c <> "."%char -> has_char c (format_dec (fst x) (snd x)) = false.
Proof.
  destruct x as [m k]. cbn [fst snd]. intros D M P. assert (M' : Ascii.eqb c "-" = false) by now apply Ascii.eqb_neq. unfold format_dec. rewrite !has_char_app, itoa_no_char by auto.
  replace (has_char c (if (m <? 0)%Z then "-" else "")) with false.
  2:{ destruct (m <? 0)%Z; cbn [has_char]; [|reflexivity]. destruct (Ascii.eqb_spec c "-"); [contradiction|reflexivity]. }
  destruct k as [|k]; [reflexivity|]. change (false || (false || has_char c ("." ++ frac_digits (S k) (Z.abs m mod pow10 (S k)))) = false). cbn [append]. rewrite has_char_cons.
  destruct (Ascii.eqb_spec c "."); [contradiction|]. unfold frac_digits. rewrite has_char_app, itoa_no_char by auto. rewrite !orb_false_r. cbn [orb].
  set (j := S k - _). clearbody j. induction j as [|j IH]; [reflexivity|]. cbn [zero_pad has_char]. rewrite IH. destruct (Ascii.eqb_spec c "0"); [subst; discriminate|reflexivity].
Qed.
Lemma format_finite m k : exists m' k', format_fl (FDec m k) = format_dec m' k' /\ (dec_q m' k' == dec_q m k)%Q.
Proof. unfold format_fl. pose proof (shortest_same m k) as S. destruct (shortest m k) as [m' k']. eauto. Qed.

(* A location that is written to the native fields of a QuickTime file and read again from these fields alone is the same
   place. Missing: locations without a name and coordinates with a plus sign, see below. *)
Theorem C128_location_partial : forall D (x : qt_meta D) l m k,
  qm_location x = Some l -> no_char "+" (lo_lat l) -> no_char "+" (lo_lon l) -> lo_alt l = FDec m k -> lo_name l <> "" ->
  qm_location (qt_sync_from x) = Some l /\
  exists l', qm_location (qt_sync_to (native_only (qt_sync_from x))) = Some l' /\ same_place l l'.
Proof.
  intros D x l m k L A B C N. unfold qt_sync_from. rewrite L. cbn [qm_location]. split; [reflexivity|].
  unfold native_only, qt_sync_to. cbn [qm_location qm_iso qm_name qm_body qm_date qm_note qm_role].
  destruct (format_finite m k) as (m' & k' & F & Q). rewrite C, F.
  assert (I : join "+" [lo_lat l; lo_lon l; format_dec m' k'] =? "" = false).
  { apply String.eqb_neq. rewrite join_cons. destruct (lo_lat l); discriminate. }
  rewrite I. apply String.eqb_neq in N. rewrite N. cbn [negb andb].
  pose proof (fun c => format_no_char c (m', k')) as NC. cbn [fst snd] in NC.
  assert (SP : split_char "+" (join "+" [lo_lat l; lo_lon l; format_dec m' k']) = [lo_lat l; lo_lon l; format_dec m' k']).
  { apply split_join; [discriminate|]. repeat (apply Forall_cons; [auto|]); [|apply Forall_nil]. apply NC; [reflexivity|discriminate..]. }
  rewrite SP. cbn [qt_parts qt_part lo_body lo_date lo_lon lo_lat lo_alt lo_name lo_note lo_role].
  assert (T : trim_suffix "/" (format_dec m' k') = format_dec m' k').
  { apply trim_suffix_none. destruct (has_suffix_str "/" (format_dec m' k')) eqn:E; [|reflexivity]. exfalso.
    apply has_suffix_spec in E. destruct E as (t & E). pose proof (NC "/"%char eq_refl) as H. rewrite E, has_char_app in H. cbn in H. rewrite orb_true_r in H.
    discriminate H; discriminate. }
  rewrite T. destruct (read_decimal _ _ (format_dec_decimal m' k')) as (a & PA & NA). rewrite PA. destruct a as [| |ma ka]; [contradiction..|]. cbn [num_is] in NA.
  eexists. split; [reflexivity|]. unfold same_place. cbn [lo_body lo_date lo_lon lo_lat lo_alt lo_name lo_note lo_role]. do 7 (split; [reflexivity|]).
  exists m, k, ma, ka. rewrite NA, Q. do 2 (split; [auto|]). reflexivity.
Qed.
Print Assumptions C128_location_partial.
(* A location the document has is not replaced by the native fields, and without a location these are kept. *)
Theorem C128_location_kept : forall D (x : qt_meta D),
  (qm_location x <> None -> qt_sync_to x = x) /\ (qm_location x = None -> qt_sync_from x = x).
Proof. intros D x. unfold qt_sync_to, qt_sync_from. destruct (qm_location x); split; congruence. Qed.
Print Assumptions C128_location_kept.
(* The texts of the files, such as +43.5968+005.4797+362.904/, are never read as what they say: the latitude comes out empty,
   the longitude is the latitude and the altitude the number of the longitude. *)
Theorem C128_iso6709_refuted : forall D (x : qt_meta D) lat lon alt q,
  no_char "+" lat -> no_char "+" alt -> decimal lon q -> no_char "+" lon -> no_char "/" lon ->
  qm_location x = None -> qm_name x <> "" -> qm_iso x = "+" ++ lat ++ "+" ++ lon ++ "+" ++ alt ++ "/" ->
  exists l m k, qm_location (qt_sync_to x) = Some l /\ lo_lat l = "" /\ lo_lon l = lat /\ lo_alt l = FDec m k /\ (dec_q m k == q)%Q.
Proof.
  intros D x lat lon alt q A B C E S L N I. unfold qt_sync_to. rewrite L, I. apply String.eqb_neq in N. rewrite N. cbn [append String.eqb negb andb qm_location].
  assert (SP : split_char "+" (String "+" (lat ++ String "+" (lon ++ String "+" (alt ++ "/")))) = [""; lat; lon; alt ++ "/"]).
  { pose proof (split_join "+" [""; lat; lon; alt ++ "/"]) as J. rewrite !join_cons in J. cbn [append] in J. apply J; [discriminate|].
    repeat (apply Forall_cons; [auto|]); [|apply Forall_nil]. rewrite has_char_app, B. reflexivity. }
  rewrite SP. cbn [qt_parts qt_part lo_body lo_date lo_lon lo_lat lo_alt lo_name lo_note lo_role].
  rewrite trim_suffix_none.
  2:{ destruct (has_suffix_str "/" lon) eqn:F; [|reflexivity]. exfalso. apply has_suffix_spec in F. destruct F as (t & ->).
    unfold no_char in S. rewrite has_char_app in S. cbn in S. now rewrite orb_true_r in S. }
  destruct (read_decimal _ _ C) as (a & PA & NA). rewrite PA. destruct a as [| |m k]; [contradiction..|].
  eexists _, m, k. cbn [lo_lat lo_lon lo_alt]. eauto.
Qed.
Print Assumptions C128_iso6709_refuted.
(* A location without a name is not read at all. *)
Theorem C128_no_name_refuted : forall D (x : qt_meta D) l,
  qm_location x = Some l -> lo_name l = "" -> qm_location (qt_sync_to (native_only (qt_sync_from x))) = None.
Proof.
  intros D x l L N. unfold qt_sync_from. rewrite L. unfold native_only, qt_sync_to. cbn [qm_location qm_iso qm_name qm_body qm_date qm_note qm_role].
  rewrite N. cbn [String.eqb negb]. now rewrite andb_false_r.
Qed.
Print Assumptions C128_no_name_refuted.
Definition place : location nat := Location "Earth" 7 "7.4,0E" "43.5,0N" (FDec 362904 3) "Nice" "n" 1.
Example C128_hyps :
  qm_location (QtMeta "" 0 "" "" "" 0%Z (Some place)) = Some place /\ no_char "+" (lo_lat place) /\ no_char "+" (lo_lon place) /\ lo_alt place = FDec 362904 3 /\ lo_name place <> "" /\
  qm_iso (qt_sync_from (QtMeta "" 0 "" "" "" 0%Z (Some place))) = "43.5,0N+7.4,0E+362.904" /\
  option_map (fun l => (lo_lat l, lo_lon l)) (qm_location (qt_sync_to (QtMeta "" 0 "+43.5968+005.4797+362.904/" "Nice" "" 0%Z None))) = Some ("", "43.5968") /\
  decimal "005.4797" (54797 # 10000)%Q.
Proof.
  repeat (split; [first [reflexivity | discriminate]|]). exists "", 1%Z, "005", 5%Z, ".4797", 4797%Z, 4%nat. split; [constructor|].
  split; [split; [lia|exists 2; reflexivity]|]. split; [reflexivity|]. split; [|reflexivity].
  right. exists "4797". split; [reflexivity|]. split; [split; [lia|exists 0; reflexivity]|reflexivity].
Qed.

(* ---- C129: lists of texts in RIFF files --------------------------------------------------------------- *)

Definition blank_list (l : list string) (s : string) : Prop := l <> [] /\ Forall (fun x => ~ occurs "; " x) l /\ join "; " l = s.

Lemma index_sep x r : ~ occurs "; " x -> index "; " (x ++ "; " ++ r) = Some (String.length x).
Proof.
  induction x as [|c x IH]; intros O.
  - cbn [append]. destruct r; reflexivity.
  - cbn [append index]. replace (String.prefix "; " (String c (x ++ String ";" (String " " r)))) with false.
    + cbn [append] in IH. rewrite IH; [reflexivity|]. intros (a & b & E). apply O. exists (String c a), b. cbn [append]. now rewrite E.
    + symmetry. destruct (String.prefix "; " (String c (x ++ String ";" (String " " r)))) eqn:E; [|reflexivity]. exfalso.
      apply prefix_spec in E. destruct E as (t & E). cbn [append] in E. injection E as -> E. destruct x as [|d x]; [discriminate|].
      cbn [append] in E. injection E as -> _. apply O. exists "", x. reflexivity.
Qed.
Lemma split_fuel_join n l : l <> [] -> Forall (fun x => ~ occurs "; " x) l -> String.length (join "; " l) <= n -> split_fuel n "; " (join "; " l) = l.
Proof.
  revert l. induction n as [|n IH]; intros [|x [|y l]] N F G; [congruence| | |congruence| |].
  - reflexivity.
  - exfalso. rewrite join_cons, !length_app in G. cbn in G. lia.
  - cbn [split_fuel join String.concat]. inversion F; subst. now rewrite (proj2 (index_none _ _)).
  - rewrite join_cons. inversion F; subst. cbn [split_fuel]. rewrite index_sep by auto. rewrite stake_app. f_equal.
    rewrite <- length_app, <- app_assoc, sdrop_app. apply IH; [discriminate|auto|]. rewrite join_cons, !length_app in G. cbn in G. cbn in *. lia.
Qed.

Lemma split_fuel_spec n s : String.length s <= n -> blank_list (split_fuel n "; " s) s.
Proof.
  revert s. induction n as [|n IH]; intros s L.
  - destruct s; [|cbn in L; lia]. split; [discriminate|]. split; [|reflexivity]. apply Forall_cons; [|apply Forall_nil]. intros ([|] & b & E); discriminate.
  - cbn [split_fuel]. destruct (index "; " s) as [i|] eqn:E.
    + apply index_some in E. destruct E as (a & [[b E] F] & <-). subst s. rewrite stake_app, <- length_app, <- app_assoc, sdrop_app.
      destruct (IH b) as (N & O & J); [rewrite !length_app in L; cbn in L; lia|]. split; [discriminate|]. split.
      * apply Forall_cons; [|exact O]. intros (a1 & b1 & ->). specialize (F a1 (b1 ++ "; " ++ b)). rewrite <- !app_assoc in F. specialize (F eq_refl).
        rewrite !length_app in F. cbn in F. lia.
      * rewrite join_cons' by exact N. now rewrite J, ?app_assoc.
    + split; [discriminate|]. split; [|reflexivity]. apply Forall_cons; [now apply index_none|apply Forall_nil].
Qed.
(* A list is read from the texts between the separators, and it is the only one whose items lack the separator and that is
   written as this text. *)
Theorem C129_list_text : forall s l, riff_strings s = l <-> blank_list l s.
Proof.
  intros s l. unfold riff_strings, split_str. split.
  - intros <-. now apply split_fuel_spec.
  - intros (N & F & <-). now apply split_fuel_join.
Qed.
Print Assumptions C129_list_text.
(* Texts in languages are read in the same way: every item that is not empty becomes a text in English, in the same order, and
   the first one is the default. *)
Theorem C129_alt_text : forall s l, blank_list l s -> exists r, riff_alt s = Ok r /\ one_default r /\
  map ai_value r = filter (fun v => negb (v =? "")) l /\ Forall (fun x => ai_lang x = "eng") r.
Proof.
  intros s l B. apply C129_list_text in B. unfold riff_strings in B. unfold riff_alt. rewrite B. clear s B.
  assert (G : forall l r0, one_default r0 -> Forall (fun x => ai_lang x = "eng") r0 -> exists r, riff_add_all r0 l = Ok r /\ one_default r /\
    map ai_value r = (map ai_value r0 ++ filter (fun v => negb (v =? "")) l)%list /\ Forall (fun x => ai_lang x = "eng") r).
  { clear l. induction l as [|v l IH]; intros r0 O F; cbn [riff_add_all filter].
    - exists r0. now rewrite List.app_nil_r.
    - destruct (String.eqb_spec v "") as [->|N]; cbn [negb].
      + apply IH; auto.
      + rewrite alt_add_spec by auto. cbn [bind].
        destruct (IH (r0 ++ [AltItem v "eng" match r0 with [] => true | _ => false end])%list) as (r & E & O' & M & F').
        * destruct r0 as [|x r0]; [cbn; split; [reflexivity|intros y []]|]. apply one_default_app; [discriminate|auto|reflexivity].
        * apply Forall_app. split; [auto|]. apply Forall_cons; [reflexivity|apply Forall_nil].
        * exists r. rewrite map_app, <- List.app_assoc in M. auto. }
  destruct (G l []) as (r & E & O & M & F); [exact I|apply Forall_nil|]. exists r. auto.
Qed.
Print Assumptions C129_alt_text.
Example C129_hyps : blank_list ["a;"; " b"; ""] "a;;  b; " /\ riff_strings "a;;  b; " = ["a;"; " b"; ""] /\
  riff_alt "x; ; y" = Ok [AltItem "x" "eng" true; AltItem "y" "eng" false].
Proof. split; [apply C129_list_text; vm_compute; reflexivity|]. split; vm_compute; reflexivity. Qed.

(* ---- C130: chroma subsampling -------------------------------------------------------------------------- *)

(* the factors the TIFF and EXIF specifications name: horizontal and vertical *)
Definition ycc_known : list (Z * Z * string) :=
  [(1, 1, "4:4:4"); (1, 2, "4:4:0"); (1, 4, "4:4:1"); (2, 1, "4:2:2"); (2, 2, "4:2:0"); (2, 4, "4:2:1"); (4, 1, "4:1:1"); (4, 2, "4:1:0")]%Z.
(* A name other than undefined is given to exactly these factors, whatever follows them, and names different factors differently. *)
Theorem C130_names : forall x t, t <> "undefined" -> ycc_name x = t <-> exists h v r, x = h :: v :: r /\ In (h, v, t) ycc_known.
Proof.
  intros x t U. split.
  - intros E. destruct x as [|h [|v r]]; [cbn in E; congruence..|]. exists h, v, r. split; [reflexivity|]. unfold ycc_known. cbn [ycc_name] in E.
    repeat match type of E with (if ?b then _ else _) = _ =>
      let B := fresh in destruct b eqn:B; [apply andb_prop in B; destruct B as [B1 B2]; apply Z.eqb_eq in B1, B2; subst; cbn [In]; tauto|clear B] end. congruence.
  - intros (h & v & r & -> & I). cbn [ycc_known In] in I. repeat (destruct I as [I|I]; [injection I as <- <- <-; reflexivity|]). contradiction.
Qed.
Print Assumptions C130_names.
Theorem C130_distinct : forall x y, ycc_name x = ycc_name y -> ycc_name x <> "undefined" -> firstn 2 x = firstn 2 y.
Proof.
  intros x y E U. destruct (proj1 (C130_names x _ U) eq_refl) as (h & v & r & -> & I). 
  rewrite E in U, I. destruct (proj1 (C130_names y _ U) eq_refl) as (h' & v' & r' & -> & I').
  remember (ycc_name (h' :: v' :: r')) as t. clear - I I'. cbn [firstn].
  cbn [ycc_known In] in I. repeat (destruct I as [I|I]; [injection I as <- <- <-; cbn [ycc_known In] in I'; intuition congruence|]). contradiction.
Qed.
Print Assumptions C130_distinct.
(* Zero are the lists without two factors, and those whose first two are both 0; such lists have no name. *)
Theorem C130_zero : forall x, (ycc_zero x = true <-> List.length x < 2 \/ exists r, x = (0 :: 0 :: r)%Z) /\ (ycc_zero x = true -> ycc_name x = "undefined").
Proof.
  intros [|h [|v r]]; [split; [split; [left; cbn; lia|reflexivity]|reflexivity]..|]. cbn [ycc_zero]. split.
  - split.
    + intros H. apply andb_prop in H. destruct H as [H1 H2]. apply Z.eqb_eq in H1, H2. subst. right. eauto.
    + intros [H|(q & H)]; [cbn in H; lia|]. injection H as -> -> _. reflexivity.
  - intros H. apply andb_prop in H. destruct H as [H1 H2]. apply Z.eqb_eq in H1, H2. subst. reflexivity.
Qed.
Print Assumptions C130_zero.
Example C130_hyps : ycc_name [2; 1; 9]%Z = "4:2:2" /\ ycc_name [3; 3]%Z = "undefined".
Proof. split; reflexivity. Qed.
