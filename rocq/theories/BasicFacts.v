(* Lemmas about Names, PVList, Semver, SyncFlags *)
From Coq Require Import List Arith ZArith Bool Ascii String Lia Permutation Sorted ZifyBool.
From Verif Require Import GoStr GoStrFacts Names PathM PathFacts Semver SyncFlags PVList Spec SpecFacts SpecBasic.
Local Open Scope string_scope.

(* --- Names --- *)

Lemma remove_dups_from_spec l : forall found,
  subseq (remove_dups_from found l) l
  /\ NoDup (map ns_uri (remove_dups_from found l))
  /\ (forall v, In v (remove_dups_from found l) <->
        ~ In (ns_uri v) found /\ first_by ns_uri v l).
Proof.
  induction l as [|a l IH]; intros found; cbn [remove_dups_from].
  - repeat split; try constructor; cbn in *; try tauto.
    intros [_ (p & q & E & _)]. now destruct p.
  - assert (Hex : existsb (String.eqb (ns_uri a)) found = true <-> In (ns_uri a) found).
    { rewrite existsb_exists. split.
      - intros (x & Hx & E). apply eqb_eq in E. now subst.
      - intros H. exists (ns_uri a). split; auto. apply eqb_refl. }
    destruct (existsb _ found) eqn:E.
    + destruct (IH found) as (H1 & H2 & H3). repeat split.
      * now constructor.
      * exact H2.
      * now apply H3.
      * apply H3 in H as [Hn Hf]. apply first_by_cons. right. split; auto.
        intros Hk. apply Hn. rewrite <- Hk. now apply Hex.
      * intros [Hn Hf]. apply H3. split; auto. apply first_by_cons in Hf as [->|[_ Hf]]; auto.
        exfalso. apply Hn. now apply Hex.
    + assert (Ha : ~ In (ns_uri a) found) by (intros H; apply Hex in H; congruence).
      destruct (IH (ns_uri a :: found)) as (H1 & H2 & H3). repeat split.
      * now constructor.
      * cbn [map]. constructor; auto. intros Hi. apply in_map_iff in Hi as (v & Hv & Hi).
        apply H3 in Hi as [Hi _]. apply Hi. left. congruence.
      * destruct H as [<-|H]; auto. apply H3 in H as [Hn _]. intros Hi. apply Hn. now right.
      * apply first_by_cons. destruct H as [<-|H]; auto. right.
        apply H3 in H as [Hn Hf]. split; auto. intros Hk. apply Hn. now left.
      * intros [Hn Hf]. apply first_by_cons in Hf as [->|[Hk Hf]]; [now left|right].
        apply H3. split; auto. intros [Hi|Hi]; auto.
Qed.

Lemma remove_dups_spec l :
  subseq (remove_dups l) l /\ NoDup (map ns_uri (remove_dups l))
  /\ (forall v, In v (remove_dups l) <-> first_by ns_uri v l).
Proof.
  destruct (remove_dups_from_spec l []) as (H1 & H2 & H3). repeat split; auto; intros H.
  - now apply H3.
  - apply H3. cbn. tauto.
Qed.

Lemma nsl_contains_spec l ns :
  nsl_contains l ns = true <-> exists n, ns = Some n /\ exists v, In v l /\ ns_name v = ns_name n.
Proof.
  destruct ns as [n|]; cbn; [|split; [discriminate|intros (n & H & _); discriminate]].
  rewrite existsb_exists. split.
  - intros (v & Hv & E). apply eqb_eq in E. eauto.
  - intros (m & [= <-] & v & Hv & E). exists v. split; auto. now apply eqb_eq.
Qed.

Lemma nsl_contains_name_spec l n :
  nsl_contains_name l n = true <-> n <> "" /\ exists v, In v l /\ ns_name v = n.
Proof.
  unfold nsl_contains_name. destruct (emptyb n) eqn:E.
  - apply emptyb_true in E. split; [discriminate|intros [H _]; congruence].
  - apply emptyb_false in E. rewrite existsb_exists. split.
    + intros (v & Hv & Ev). apply eqb_eq in Ev. eauto.
    + intros (_ & v & Hv & Ev). exists v. split; auto. now apply eqb_eq.
Qed.

Lemma match_xml_name_spec n x :
  match_xml_name n x = true <->
  (x_space x <> "" /\ x_space x = ns_uri n) \/ (x_space x = "" /\ get_prefix (x_local x) = ns_name n).
Proof.
  unfold match_xml_name. destruct (emptyb (x_space x)) eqn:E; cbn [negb].
  - apply emptyb_true in E. rewrite eqb_eq. split; [now right|intros [[H _]|[_ H]]; congruence].
  - apply emptyb_false in E. rewrite eqb_eq. split; [now left|intros [[_ H]|[H _]]; congruence].
Qed.

Lemma expand_split n local : no_char ":" (ns_name n) -> local <> "" ->
  get_prefix (expand n local) = ns_name n /\ strip_prefix (expand n local) = local.
Proof.
  intros Hn Hl. unfold expand. rewrite (proj2 (emptyb_false _) Hl). cbn [join String.concat].
  change (String.concat ":" [ns_name n; local]) with (ns_name n ++ ":" ++ local).
  split; [now apply get_prefix_qualified|now apply strip_prefix_qualified].
Qed.

Lemma expand_prefix n local : no_char ":" (ns_name n) -> get_prefix (expand n local) = ns_name n.
Proof.
  intros Hn. destruct (emptyb local) eqn:E.
  - unfold expand. rewrite E. unfold get_prefix. now rewrite (proj2 (index_char_none _ _) Hn).
  - apply emptyb_false in E. now apply expand_split.
Qed.

Lemma has_prefix_spec n :
  has_prefix n = true <-> exists c p l, n = String c p ++ ":" ++ l /\ no_char ":" (String c p).
Proof.
  unfold has_prefix. split.
  - destruct (index_char ":" n) as [[|i]|] eqn:E; try discriminate. intros _.
    apply index_char_some in E as (a & b & -> & Ha & Hi). destruct a as [|c p]; [discriminate|].
    exists c, p, b. split; auto.
  - intros (c & p & l & -> & Hc). now rewrite index_char_prefix.
Qed.

Lemma split_rejoin n : has_char ":" n = true -> get_prefix n ++ ":" ++ strip_prefix n = n.
Proof.
  intros H. unfold get_prefix, strip_prefix. destruct (index_char ":" n) as [i|] eqn:E.
  - apply index_char_some in E as (a & b & -> & Ha & ->).
    rewrite stake_app, sdrop_S_app. reflexivity.
  - apply index_char_none in E. congruence.
Qed.

(* --- Semver --- *)
Local Open Scope Z_scope.


Lemma itoa_no_dot z : has_char "." (itoa z) = false.
Proof. apply itoa_no_char; reflexivity. Qed.

Lemma split3 c a b d : has_char c a = false -> has_char c b = false -> has_char c d = false ->
  split_char c (a ++ String c "" ++ b ++ String c "" ++ d)%string = [a; b; d].
Proof.
  intros Ha Hb Hd. cbn [append]. rewrite split_char_app by auto.
  rewrite split_char_app by auto. now rewrite split_char_none.
Qed.

Lemma parse_version_string v : v_range v -> parse_version (version_string v) = Ok v.
Proof.
  intros (H1 & H2 & H3). unfold parse_version, version_string.
  rewrite (split3 "."%char) by apply itoa_no_dot.
  rewrite !atoi_itoa by assumption. now destruct v.
Qed.


Lemma digits_acc_all s : forall acc n, digits_acc acc s = Some n -> all_digits s = true.
Proof.
  induction s as [|c s IH]; intros acc n H; [reflexivity|]. cbn [digits_acc all_digits] in *.
  unfold is_digit. destruct (digit_val c) eqn:E; [|discriminate]. cbn. eapply IH; eauto.
Qed.

Lemma parse_digits_all s n : parse_digits s = Some n -> all_digits s = true.
Proof.
  unfold parse_digits. destruct s; [discriminate|]. apply digits_acc_all.
Qed.

Lemma parse_int_chars bits s z c : parse_int bits s = Some z ->
  is_digit c = false -> Ascii.eqb c "-" = false -> Ascii.eqb c "+" = false -> has_char c s = false.
Proof.
  intros H Hd Hm Hp.
  assert (Hc : (exists s', s = String "-" s' /\ exists n, parse_digits s' = Some n) \/
               (exists s', s = String "+" s' /\ exists n, parse_digits s' = Some n) \/
               (exists n, parse_digits s = Some n)).
  { destruct s as [|d s]; [discriminate|].
    destruct (Ascii.ascii_dec d "-") as [->|N1].
    { left. exists s. split; auto. cbn [parse_int] in H. destruct (parse_digits s); [eauto|discriminate]. }
    destruct (Ascii.ascii_dec d "+") as [->|N2].
    { right; left. exists s. split; auto. cbn [parse_int] in H. destruct (parse_digits s); [eauto|discriminate]. }
    right; right.
    assert (E : parse_int bits (String d s) =
       match parse_digits (String d s) with Some n => int_chk bits (Z.of_N n) | None => None end).
    { destruct d as [[] [] [] [] [] [] [] []]; try reflexivity; congruence. }
    rewrite E in H. destruct (parse_digits (String d s)); [eauto|discriminate]. }
  destruct Hc as [(s' & -> & n & Hn)|[(s' & -> & n & Hn)|(n & Hn)]]; apply parse_digits_all in Hn;
    pose proof (all_digits_no_char c _ Hn Hd) as Hx; cbn [has_char]; rewrite ?Hx, ?Hm, ?Hp; auto.
Qed.

Lemma atoi_no_dot s z : atoi s = Some z -> has_char "." s = false.
Proof. intros H. eapply parse_int_chars; eauto. Qed.

Lemma parse_version_iff s v : parse_version s = Ok v <-> parse_version_spec s v.
Proof.
  unfold parse_version, parse_version_spec. split.
  - pose proof (join_split "." s) as Hj. destruct (split_char "." s) as [|a [|b [|c [|d l]]]] eqn:E; try discriminate.
    + cbn in Hj. subst a. destruct (atoi s) eqn:Ea; [|discriminate]. intros [= <-]. cbn. right; right. auto.
    + destruct (atoi b) eqn:Eb; [|discriminate]. destruct (atoi a) eqn:Ea; [|discriminate].
      intros [= <-]. right; left. exists a, b. cbn [v_major v_minor v_patch]. repeat split; auto; now rewrite <- Hj.
    + destruct (atoi c) eqn:Ec; [|discriminate]. destruct (atoi b) eqn:Eb; [|discriminate].
      destruct (atoi a) eqn:Ea; [|discriminate].
      intros [= <-]. left. exists a, b, c. cbn [v_major v_minor v_patch]. repeat split; auto; now rewrite <- Hj.
  - intros [(a & b & c & -> & Ha & Hb & Hc)|[(a & b & -> & Ha & Hb & Hc)|(Ha & Hb & Hc)]].
    + rewrite (split3 "."%char) by (eapply atoi_no_dot; eauto). rewrite Ha, Hb, Hc. now destruct v.
    + cbn [append]. rewrite split_char_app by (eapply atoi_no_dot; eauto).
      rewrite split_char_none by (eapply atoi_no_dot; eauto). rewrite Ha, Hb. destruct v; cbn in *; subst; auto.
    + rewrite split_char_none by (eapply atoi_no_dot; eauto). rewrite Ha. destruct v; cbn in *; subst; auto.
Qed.

Lemma parse_version_total s : (exists v, parse_version s = Ok v) \/ exists e, parse_version s = Err e.
Proof.
  unfold parse_version. destruct (split_char "." s) as [|a [|b [|c [|d l]]]]; eauto;
  repeat match goal with |- context [match ?x with Some _ => _ | None => _ end] => destruct x end; eauto.
Qed.

Lemma version_equal_iff a b : version_equal a b = true <-> a = b.
Proof.
  unfold version_equal. destruct a as [a1 a2 a3], b as [b1 b2 b3]; cbn. split; [|intros [= -> -> ->]; lia].
  intros H. assert (a1 = b1) by lia. assert (a2 = b2) by lia. assert (a3 = b3) by lia. congruence.
Qed.

Lemma version_before_iff a b : version_before a b = true <-> v_lt a b.
Proof. unfold version_before, v_lt. lia. Qed.

Lemma version_after_iff a b : version_after a b = true <-> v_lt b a.
Proof. unfold version_after, v_lt. lia. Qed.

Lemma v_lt_trans a b c : v_lt a b -> v_lt b c -> v_lt a c.
Proof. unfold v_lt. lia. Qed.

Lemma v_lt_total a b : (v_lt a b /\ a <> b /\ ~ v_lt b a) \/ (~ v_lt a b /\ a = b /\ ~ v_lt b a)
  \/ (~ v_lt a b /\ a <> b /\ v_lt b a).
Proof.
  destruct a as [a1 a2 a3], b as [b1 b2 b3]. unfold v_lt; cbn.
  destruct (Z.lt_trichotomy a1 b1) as [H|[->|H]].
  - left. repeat split; try lia. intros [= -> -> ->]; lia.
  - destruct (Z.lt_trichotomy a2 b2) as [H|[->|H]].
    + left. repeat split; try lia. intros [= -> ->]; lia.
    + destruct (Z.lt_trichotomy a3 b3) as [H|[->|H]].
      * left. repeat split; try lia. intros [= ->]; lia.
      * right; left. repeat split; lia.
      * right; right. repeat split; try lia. intros [= ->]; lia.
    + right; right. repeat split; try lia. intros [= -> ->]; lia.
  - right; right. repeat split; try lia. intros [= -> -> ->]; lia.
Qed.


Lemma between_closed v a b :
  version_is_zero v = false -> version_is_zero a = false -> version_is_zero b = false -> v_le a b ->
  (version_between v a b = true <-> v_le a v /\ v_le v b).
Proof.
  intros Hv Ha Hb Hab. unfold version_between. rewrite Hv, Ha, Hb.
  rewrite !orb_true_iff, andb_true_iff, !version_equal_iff, version_before_iff, version_after_iff.
  unfold v_le in *. split.
  - intros [[->| ->]|[H1 H2]]; auto.
  - intros [[H1| ->] [H2| ->]]; auto.
Qed.

Lemma between_open_above v a b :
  version_is_zero v = false -> version_is_zero a = false -> version_is_zero b = true ->
  (version_between v a b = true <-> v_le a v).
Proof.
  intros Hv Ha Hb. unfold version_between. rewrite Hv, Ha, Hb.
  rewrite orb_true_iff, version_equal_iff, version_after_iff. unfold v_le. intuition.
Qed.

Lemma between_open_below v a b :
  version_is_zero v = false -> version_is_zero a = true ->
  (version_between v a b = true <-> v_lt v b \/ v = a).
Proof.
  intros Hv Ha. unfold version_between. rewrite Hv, Ha.
  now rewrite orb_true_iff, version_equal_iff, version_before_iff.
Qed.

Lemma between_zero v a b : version_is_zero v = true -> version_between v a b = true.
Proof. intros H. unfold version_between. now rewrite H. Qed.

(* --- SyncFlags --- *)



Lemma parse_sync_flag_table s : parse_sync_flag s <> 0 <-> In (s, parse_sync_flag s) flag_table.
Proof.
  unfold parse_sync_flag.
  repeat match goal with |- context [if String.eqb ?a ?b then _ else _] =>
    let H := fresh in destruct (a =? b)%string eqn:H; [apply eqb_eq in H; subst; cbv; intuition congruence|] end.
  split; [congruence|]. cbn. intros Hin.
  repeat destruct Hin as [Hin|Hin]; try (injection Hin as <-; discriminate). destruct Hin.
Qed.

Lemma parse_sync_flag_spec s b : In (s, b) flag_table -> parse_sync_flag s = b /\ b <> 0.
Proof.
  cbn. intros H. repeat destruct H as [H|H]; try (injection H as <- <-; split; [reflexivity|discriminate]). destruct H.
Qed.

Lemma names_flag_fun s b : names_flag s b <-> parse_sync_flag (to_lower s) = b /\ b <> 0.
Proof.
  unfold names_flag. split; [apply parse_sync_flag_spec|].
  intros [<- H]. now apply parse_sync_flag_table.
Qed.

Lemma parse_sync_flags_loop_spec l : forall acc,
  (forall r, parse_sync_flags_loop l acc = Ok r <->
     exists bits, Forall2 names_flag l bits /\ r = fold_left Z.lor bits acc)
  /\ parse_sync_flags_loop l acc <> Panic.
Proof.
  induction l as [|s l IH]; intros acc; cbn [parse_sync_flags_loop].
  - split; [|discriminate]. intros r. split.
    + intros [= <-]. exists []. split; [constructor|reflexivity].
    + intros (bits & H & ->). inversion H; subst. reflexivity.
  - destruct (parse_sync_flag (to_lower s) =? 0) eqn:E.
    + split; [|discriminate]. intros r. split; [discriminate|].
      intros (bits & H & ->). inversion H as [|? b ? ? Hb]; subst. apply names_flag_fun in Hb. lia.
    + destruct (IH (Z.lor acc (parse_sync_flag (to_lower s)))) as [IH1 IH2]. split; auto.
      intros r. rewrite IH1. split.
      * intros (bits & Hb & ->). exists (parse_sync_flag (to_lower s) :: bits). split; [|reflexivity].
        constructor; auto. apply names_flag_fun. split; auto. lia.
      * intros (bits & H & ->). inversion H as [|? b ? bs Hb Hbs]; subst.
        apply names_flag_fun in Hb as [<- _]. exists bs. split; auto.
Qed.


Lemma fold_lor_union l : forall acc i, 0 <= i ->
  (Z.testbit (fold_left Z.lor l acc) i = true <->
   Z.testbit acc i = true \/ exists b, In b l /\ Z.testbit b i = true).
Proof.
  induction l as [|a l IH]; intros acc i Hi; cbn [fold_left].
  - split; auto. intros [H|(b & [] & _)]; auto.
  - rewrite IH by auto. rewrite Z.lor_spec, orb_true_iff. split.
    + intros [[H|H]|(b & Hb & H)]; auto; right; [exists a|exists b]; cbn; auto.
    + intros [H|(b & [->|Hb] & H)]; auto. right. eauto.
Qed.

Lemma fold_lor_is_union l : is_union (fold_left Z.lor l 0) l.
Proof.
  intros i Hi. rewrite fold_lor_union by auto. rewrite Z.bits_0. intuition congruence.
Qed.

Lemma is_union_fun z1 z2 l1 l2 : is_union z1 l1 -> is_union z2 l2 ->
  (forall b, In b l1 <-> In b l2) -> z1 = z2.
Proof.
  intros H1 H2 Hl. apply Z.bits_inj'. intros i Hi.
  apply Bool.eq_true_iff_eq. rewrite (H1 i Hi), (H2 i Hi).
  split; intros (b & Hb & H); exists b; split; auto; now apply Hl.
Qed.

Lemma parse_sync_flags_iff s r : parse_sync_flags s = Ok r <->
  exists bits, Forall2 names_flag (split_char "," s) bits /\ is_union r bits.
Proof.
  unfold parse_sync_flags. rewrite (proj1 (parse_sync_flags_loop_spec _ _)). split.
  - intros (bits & H & ->). exists bits. split; auto. apply fold_lor_is_union.
  - intros (bits & H & Hu). exists bits. split; auto.
    eapply is_union_fun; [exact Hu|apply fold_lor_is_union|tauto].
Qed.

Lemma parse_sync_flags_ok names bits : names <> [] -> Forall2 names_flag names bits ->
  Forall (no_char ",") names ->
  exists r, parse_sync_flags (join "," names) = Ok r /\ is_union r bits.
Proof.
  intros Hn H Hc. eexists. rewrite parse_sync_flags_iff.
  rewrite (split_join ",") by auto. split; [|apply fold_lor_is_union].
  exists bits. split; auto. apply fold_lor_is_union.
Qed.

Lemma lower_no_comma s : has_char "," (to_lower s) = has_char "," s.
Proof.
  induction s as [|c s IH]; [reflexivity|]. cbn [to_lower has_char]. rewrite IH. f_equal.
  destruct c as [[] [] [] [] [] [] [] []]; reflexivity.
Qed.

Lemma names_flag_no_comma s b : names_flag s b -> no_char "," s.
Proof.
  unfold names_flag, no_char. rewrite <- lower_no_comma. cbn. intros H.
  repeat destruct H as [H|H]; try (injection H as <- <-; reflexivity). destruct H.
Qed.

Lemma parse_sync_flags_err s : (exists v, In v (split_char "," s) /\ forall b, ~ names_flag v b) ->
  exists e, parse_sync_flags s = Err e.
Proof.
  intros (v & Hv & Hn). destruct (parse_sync_flags s) as [r|e|] eqn:E; eauto.
  - exfalso. apply parse_sync_flags_iff in E as (bits & H & _).
    revert Hv. induction H; cbn; [tauto|]. intros [->|Hv]; [eapply Hn; eauto|auto].
  - exfalso. eapply (proj2 (parse_sync_flags_loop_spec _ _)). exact E.
Qed.

(* --- PVList --- *)
Close Scope Z_scope.

Lemma pvl_adds_spec ops : forall x,
  fold_left (fun l op => pvl_add_flags l (fst (fst op)) (snd (fst op)) (snd op)) ops x =
  (x ++ map (fun op => PathValue (fst (fst op)) "" (snd (fst op)) (snd op))
      (filter (fun op => negb (emptyb (snd (fst op)))) ops))%list.
Proof.
  induction ops as [|[[p v] f] ops IH]; intros x; cbn [fold_left filter map].
  - now rewrite List.app_nil_r.
  - rewrite IH. cbn [fst snd]. unfold pvl_add_flags. destruct (emptyb v); cbn [negb]; auto.
    cbn [map fst snd]. now rewrite <- List.app_assoc.
Qed.


Lemma leb_antisym' a b : String.leb a b = true -> String.leb b a = true -> a = b.
Proof. apply String.leb_antisym. Qed.

Lemma unique_loop_spec x : forall last,
  StronglySorted path_le x -> Forall (fun v => String.leb last (pv_path v) = true) x ->
  subseq (pvl_unique_loop last x) x
  /\ NoDup (map pv_path (pvl_unique_loop last x))
  /\ (forall v, In v (pvl_unique_loop last x) <-> pv_path v <> last /\ first_by pv_path v x).
Proof.
  induction x as [|a x IH]; intros last Hs Hl; cbn [pvl_unique_loop].
  - repeat split; try constructor; cbn in *; try tauto.
    intros [_ (p & q & E & _)]. now destruct p.
  - inversion Hs as [|? ? Hs1 Hs2]; subst. inversion Hl as [|? ? Hl1 Hl2]; subst.
    destruct (last =? pv_path a) eqn:E.
    + apply eqb_eq in E. subst last. destruct (IH (pv_path a) Hs1 Hl2) as (H1 & H2 & H3). repeat split.
      * now constructor.
      * exact H2.
      * now apply H3.
      * apply H3 in H as [Hn Hf]. apply first_by_cons. right. split; auto.
      * intros [Hn Hf]. apply H3. split; auto. apply first_by_cons in Hf as [->|[_ Hf]]; auto. congruence.
    + apply eqb_neq in E. destruct (IH (pv_path a) Hs1 Hs2) as (H1 & H2 & H3). repeat split.
      * now constructor.
      * cbn [map]. constructor; auto. intros Hi. apply in_map_iff in Hi as (v & Hv & Hi).
        apply H3 in Hi as [Hi _]. congruence.
      * destruct H as [<-|H]; [congruence|]. apply H3 in H as [Hn Hf].
        intros Hk. apply first_by_in in Hf. rewrite Forall_forall in Hs2. specialize (Hs2 v Hf).
        unfold path_le in Hs2. rewrite Hk in Hs2. apply E. now apply String.leb_antisym.
      * apply first_by_cons. destruct H as [<-|H]; auto. right. apply H3 in H as [Hn Hf]. split; auto.
      * intros [Hn Hf]. apply first_by_cons in Hf as [->|[Hk Hf]]; [now left|right].
        apply H3. split; auto.
Qed.

Lemma leb_empty s : String.leb "" s = true.
Proof. destruct s; reflexivity. Qed.

Lemma unique_spec x : StronglySorted path_le x ->
  subseq (pvl_unique x) x /\ NoDup (map pv_path (pvl_unique x))
  /\ (forall v, In v (pvl_unique x) <-> pv_path v <> "" /\ first_by pv_path v x).
Proof.
  intros Hs. apply unique_loop_spec; auto. apply Forall_forall. intros v _. apply leb_empty.
Qed.

Lemma find_nodup x p : NoDup (map pv_path x) -> forall v,
  (pvl_find x p = Some v <-> In v x /\ pv_path v = p).
Proof.
  unfold pvl_find. induction x as [|a x IH]; cbn [find map]; intros Hn v.
  - split; [discriminate|intros [[] _]].
  - inversion Hn as [|? ? H1 H2]; subst. destruct (pv_path a =? p) eqn:E.
    + apply eqb_eq in E. subst p. split.
      * intros [= ->]. cbn. auto.
      * intros [[->|Hi] Hp]; auto. exfalso. apply H1. rewrite <- Hp. now apply in_map.
    + apply eqb_neq in E. rewrite IH by auto. cbn. split; intros [Hi Hp]; auto.
      destruct Hi as [->|Hi]; auto. congruence.
Qed.

Lemma find_none x p : pvl_find x p = None <-> ~ In p (map pv_path x).
Proof.
  unfold pvl_find. induction x as [|a x IH]; cbn [find map In]; [tauto|].
  destruct (pv_path a =? p) eqn:E.
  - apply eqb_eq in E. split; [discriminate|tauto].
  - apply eqb_neq in E. rewrite IH. tauto.
Qed.

Lemma find_some_in x p v : pvl_find x p = Some v -> In v x /\ pv_path v = p.
Proof.
  unfold pvl_find. intros H. apply find_some in H as [H1 H2]. apply eqb_eq in H2. auto.
Qed.

Lemma diff_step1_acc y x : forall acc,
  fold_left (diff_step1 y) x acc = (acc ++ fold_left (diff_step1 y) x [])%list.
Proof.
  induction x as [|a x IH]; intros acc; cbn [fold_left]; [now rewrite List.app_nil_r|].
  rewrite IH, (IH (diff_step1 y [] a)).
  assert (E : diff_step1 y acc a = (acc ++ diff_step1 y [] a)%list).
  { unfold diff_step1, pvl_add_flags. destruct (pvl_find y (pv_path a)) as [w|];
    [destruct (negb _)|]; try destruct (emptyb _); cbn; now rewrite ?List.app_nil_r. }
  rewrite E. now rewrite List.app_assoc.
Qed.

Lemma diff_step2_acc x y : forall acc,
  fold_left (diff_step2 x) y acc = (acc ++ fold_left (diff_step2 x) y [])%list.
Proof.
  induction y as [|a y IH]; intros acc; cbn [fold_left]; [now rewrite List.app_nil_r|].
  rewrite IH, (IH (diff_step2 x [] a)).
  assert (E : diff_step2 x acc a = (acc ++ diff_step2 x [] a)%list).
  { unfold diff_step2, pvl_add_flags. destruct (pvl_find x (pv_path a)) as [w|];
    try destruct (emptyb _); cbn; now rewrite ?List.app_nil_r. }
  rewrite E. now rewrite List.app_assoc.
Qed.



Lemma diff1_in y x : wf_list y -> Forall (fun e => pv_value e <> "") x -> forall e,
  In e (fold_left (diff_step1 y) x []) <->
  exists a, In a x /\
    ((~ mentions y (pv_path a) /\ e = PathValue (pv_path a) "" (pv_value a) DELETE) \/
     (exists w, In w y /\ pv_path w = pv_path a /\ pv_value w <> pv_value a
        /\ e = PathValue (pv_path a) "" (pv_value a) REPLACE)).
Proof.
  intros [Hy _] Hx. induction x as [|a x IH]; intros e; cbn [fold_left].
  - split; [intros []|intros (a & [] & _)].
  - inversion Hx as [|? ? Ha Hx']; subst. rewrite diff_step1_acc, in_app_iff, IH by auto. clear IH.
    assert (E : In e (diff_step1 y [] a) <->
       ((~ mentions y (pv_path a) /\ e = PathValue (pv_path a) "" (pv_value a) DELETE) \/
        (exists w, In w y /\ pv_path w = pv_path a /\ pv_value w <> pv_value a
           /\ e = PathValue (pv_path a) "" (pv_value a) REPLACE))).
    { unfold diff_step1. destruct (pvl_find y (pv_path a)) as [w|] eqn:Ef.
      - assert (Hw := Ef). apply find_some_in in Hw as [Hw1 Hw2].
        destruct (pv_value w =? pv_value a) eqn:Ev; cbn [negb].
        + apply eqb_eq in Ev. split; [intros []|]. intros [[Hm _]|(w' & Hw' & Hp & Hv & _)].
          * apply Hm. exists w; auto.
          * assert (pvl_find y (pv_path a) = Some w') by (apply find_nodup; auto). congruence.
        + apply eqb_neq in Ev. unfold pvl_add_flags. rewrite (proj2 (emptyb_false _) Ha).
          cbn. split.
          * intros [<-|[]]. right. exists w; auto.
          * intros [[Hm _]|(w' & _ & _ & _ & ->)]; auto. exfalso. apply Hm. exists w; auto.
      - apply find_none in Ef.
        assert (Hm : ~ mentions y (pv_path a)).
        { intros (w & Hw & Hp). apply Ef. rewrite <- Hp. now apply in_map. }
        unfold pvl_add_flags. rewrite (proj2 (emptyb_false _) Ha). cbn. split.
        + intros [<-|[]]. left; auto.
        + intros [[_ ->]|(w & Hw & Hp & _)]; auto. exfalso. apply Hm. exists w; auto. }
    rewrite E. split.
    + intros [H|(b & Hb & H)]; [exists a|exists b]; cbn; auto.
    + intros (b & [->|Hb] & H); auto. right. exists b; auto.
Qed.

Lemma diff2_in x y : Forall (fun e => pv_value e <> "") y -> forall e,
  In e (fold_left (diff_step2 x) y []) <->
  exists a, In a y /\ ~ mentions x (pv_path a) /\ e = PathValue (pv_path a) "" (pv_value a) CREATE.
Proof.
  intros Hy. induction y as [|a y IH]; intros e; cbn [fold_left].
  - split; [intros []|intros (a & [] & _)].
  - inversion Hy as [|? ? Ha Hy']; subst. rewrite diff_step2_acc, in_app_iff, IH by auto. clear IH.
    assert (E : In e (diff_step2 x [] a) <->
       (~ mentions x (pv_path a) /\ e = PathValue (pv_path a) "" (pv_value a) CREATE)).
    { unfold diff_step2. destruct (pvl_find x (pv_path a)) as [w|] eqn:Ef.
      - apply find_some_in in Ef as [Hw1 Hw2]. split; [intros []|]. intros [Hm _]. apply Hm. exists w; auto.
      - apply find_none in Ef.
        assert (Hm : ~ mentions x (pv_path a)).
        { intros (w & Hw & Hp). apply Ef. rewrite <- Hp. now apply in_map. }
        unfold pvl_add_flags. rewrite (proj2 (emptyb_false _) Ha). cbn. intuition. }
    rewrite E. split.
    + intros [H|(b & Hb & H)]; [exists a|exists b]; cbn; auto.
    + intros (b & [->|Hb] & H); auto. right. exists b; auto.
Qed.

Lemma diff_in x y e : x <> [] -> y <> [] -> wf_list x -> wf_list y ->
  (In e (pvl_diff x y) <->
   In e (fold_left (diff_step1 y) x []) \/ In e (fold_left (diff_step2 x) y [])).
Proof.
  intros Hx Hy _ _. unfold pvl_diff. destruct x as [|a x]; [congruence|]. destruct y as [|b y]; [congruence|].
  rewrite diff_step2_acc, in_app_iff. tauto.
Qed.

Lemma wf_unique_value x p v w : wf_list x -> has_pv x p v -> has_pv x p w -> v = w.
Proof.
  intros [Hn _] (e & He & Hp & <-) (d & Hd & Hq & <-). f_equal.
  assert (pvl_find x p = Some e) by (apply find_nodup; auto).
  assert (pvl_find x p = Some d) by (apply find_nodup; auto). congruence.
Qed.

Lemma diff_spec x y : x <> [] -> y <> [] -> wf_list x -> wf_list y -> forall p v f,
  (has_pvf (pvl_diff x y) p v f <->
     (f = CREATE /\ has_pv y p v /\ ~ mentions x p)
  \/ (f = DELETE /\ has_pv x p v /\ ~ mentions y p)
  \/ (f = REPLACE /\ has_pv x p v /\ exists w, has_pv y p w /\ w <> v)).
Proof.
  intros Hx Hy Wx Wy p v f. unfold has_pvf. split.
  - intros (e & He & <- & <- & <-). apply diff_in in He as [He|He]; auto.
    + apply diff1_in in He as (a & Ha & [[Hm ->]|(w & Hw & Hp & Hv & ->)]); auto; cbn; [| |apply Wx].
      * right; left. repeat split; auto. exists a; auto.
      * right; right. repeat split; auto. exists a; auto. exists (pv_value w). split; auto. exists w; auto.
    + apply diff2_in in He as (a & Ha & Hm & ->); [|apply Wy]. cbn. left. repeat split; auto. exists a; auto.
  - intros [(-> & (a & Ha & <- & <-) & Hm)|[(-> & (a & Ha & <- & <-) & Hm)|(-> & (a & Ha & <- & <-) & w & (b & Hb & Hp & <-) & Hv)]].
    + exists (PathValue (pv_path a) "" (pv_value a) CREATE). split; auto. apply diff_in; auto. right.
      apply diff2_in; [apply Wy|]. exists a; auto.
    + exists (PathValue (pv_path a) "" (pv_value a) DELETE). split; auto. apply diff_in; auto. left.
      apply diff1_in; auto. apply Wx. exists a; auto.
    + exists (PathValue (pv_path a) "" (pv_value a) REPLACE). split; auto. apply diff_in; auto. left.
      apply diff1_in; auto. apply Wx. exists a. split; auto. right. exists b; auto.
Qed.


Lemma mentions_dec x p : mentions x p \/ ~ mentions x p.
Proof.
  destruct (pvl_find x p) as [w|] eqn:E.
  - left. apply find_some_in in E. exists w; auto.
  - right. apply find_none in E. intros (w & Hw & Hp). apply E. rewrite <- Hp. now apply in_map.
Qed.

Lemma mentions_pv x p : mentions x p <-> exists v, has_pv x p v.
Proof. split; [intros (e & H); exists (pv_value e), e; tauto|intros (v & e & H); exists e; tauto]. Qed.

Lemma diff_mentions x y : wf_list x -> wf_list y -> forall p,
  (mentions (pvl_diff x y) p <-> ~ unchanged x y p).
Proof.
  intros Wx Wy p.
  destruct x as [|a x].
  { cbn. split.
    - intros (e & He & Hp) Hu. destruct (proj2 (Hu (pv_value e))) as (d & [] & _). exists e; auto.
    - intros H. destruct (mentions_dec y p) as [|Hm]; auto. exfalso. apply H. intros v. split.
      + intros (d & [] & _).
      + intros Hv. exfalso. apply Hm. apply mentions_pv. eauto. }
  destruct y as [|b y].
  { cbn. split.
    - intros (e & He & Hp) Hu. destruct (proj1 (Hu (pv_value e))) as (d & [] & _). exists e; auto.
    - intros H. destruct (mentions_dec (a :: x) p) as [|Hm]; auto. exfalso. apply H. intros v. split.
      + intros Hv. exfalso. apply Hm. apply mentions_pv. eauto.
      + intros (d & [] & _). }
  assert (Nx : a :: x <> []) by discriminate. assert (Ny : b :: y <> []) by discriminate.
  remember (a :: x) as X. remember (b :: y) as Y. clear HeqX HeqY.
  assert (E : mentions (pvl_diff X Y) p <-> exists v f, has_pvf (pvl_diff X Y) p v f).
  { split; [intros (e & He & Hp); exists (pv_value e), (pv_flags e), e; auto
           |intros (v & f & e & He & Hp & _); exists e; auto]. }
  rewrite E. setoid_rewrite diff_spec; auto. split.
  - intros (v & f & [(-> & Hv & Hm)|[(-> & Hv & Hm)|(-> & Hv & w & Hw & Hd)]]) Hu.
    + apply Hm. apply mentions_pv. exists v. now apply Hu.
    + apply Hm. apply mentions_pv. exists v. now apply Hu.
    + apply Hu in Hv. apply Hd. eapply wf_unique_value; eauto.
  - intros Hu.
    destruct (mentions_dec X p) as [Hx|Hx]; destruct (mentions_dec Y p) as [Hy|Hy].
    + apply mentions_pv in Hx as (v & Hv). apply mentions_pv in Hy as (w & Hw).
      exists v, REPLACE. right; right. repeat split; auto. exists w. split; auto. intros ->.
      apply Hu. intros u. split; intros H.
      * now rewrite (wf_unique_value X p u v Wx H Hv).
      * now rewrite (wf_unique_value Y p u v Wy H Hw).
    + apply mentions_pv in Hx as (v & Hv). exists v, DELETE. right; left. auto.
    + apply mentions_pv in Hy as (v & Hv). exists v, CREATE. left. auto.
    + exfalso. apply Hu. intros u. split; intros H; exfalso; [apply Hx|apply Hy]; apply mentions_pv; eauto.
Qed.

(* --- statements used by PropBasic --- *)
Local Open Scope Z_scope.

Lemma version_trichotomy a b :
     (version_before a b = true /\ version_equal a b = false /\ version_after a b = false)
  \/ (version_before a b = false /\ version_equal a b = true /\ version_after a b = false)
  \/ (version_before a b = false /\ version_equal a b = false /\ version_after a b = true).
Proof.
  pose proof (version_before_iff a b) as H1. pose proof (version_after_iff a b) as H2.
  pose proof (version_equal_iff a b) as H3.
  destruct (version_before a b), (version_after a b), (version_equal a b);
    destruct (v_lt_total a b) as [H|[H|H]]; intuition congruence.
Qed.

Lemma version_before_order :
  (forall a, version_before a a = false) /\
  (forall a b c, version_before a b = true -> version_before b c = true -> version_before a c = true).
Proof.
  split.
  - intros a. unfold version_before. lia.
  - intros a b c. rewrite !version_before_iff. apply v_lt_trans.
Qed.

Lemma version_after_converse a b : version_after a b = version_before b a.
Proof. apply Bool.eq_true_iff_eq. rewrite version_before_iff. apply version_after_iff. Qed.

Lemma between_lower_bounded v a b :
  version_is_zero a = false ->
  (version_is_zero b = false -> v_le a b) ->
  (version_between v a b = true <->
     version_is_zero v = true \/ (v_le a v /\ (version_is_zero b = true \/ v_le v b))).
Proof.
  intros Ha Hab. destruct (version_is_zero v) eqn:Hv.
  - rewrite between_zero by auto. tauto.
  - destruct (version_is_zero b) eqn:Hb.
    + rewrite between_open_above by auto. intuition congruence.
    + rewrite between_closed by auto. intuition congruence.
Qed.

Lemma between_unbounded v : v_lt (Version 0 0 0) v -> version_is_zero v = false ->
  version_between v (Version 0 0 0) (Version 0 0 0) = false.
Proof.
  intros Hlt Hz. destruct (version_between _ _ _) eqn:E; auto.
  apply between_open_below in E; auto. destruct E as [E| ->]; unfold v_lt in *; cbn in *; lia.
Qed.

Lemma parse_sync_flags_names names bits :
  names <> [] -> Forall2 names_flag names bits ->
  exists r, parse_sync_flags (join "," names) = Ok r /\ is_union r bits.
Proof.
  intros Hn H. apply parse_sync_flags_ok; auto.
  clear Hn. induction H; constructor; auto. eapply names_flag_no_comma; eauto.
Qed.
