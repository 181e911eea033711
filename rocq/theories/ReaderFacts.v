From Coq Require Import List Arith NArith ZArith Bool Ascii String Lia.
From Verif Require Import GoStr GoStrFacts ReaderM SpecReader.
Import ListNotations.
Local Open Scope string_scope.

(* ---- searching ---- *)
Lemma index_none sub s : index sub s = None <-> ~ occurs sub s.
Proof.
  unfold occurs. induction s as [|c s IH]; cbn [index].
  - destruct (String.prefix sub "") eqn:E.
    + split; [discriminate|]. intros H. apply prefix_spec in E as (t & E). destruct H. exists "", t. exact E.
    + split; auto. intros _ (a & b & H). destruct a; [|discriminate]. cbn in H. rewrite H, prefix_app in E. discriminate.
  - destruct (String.prefix sub (String c s)) eqn:E.
    + split; [discriminate|]. intros H. apply prefix_spec in E as (t & E). destruct H. exists "", t. exact E.
    + destruct (index sub s); cbn; split; try discriminate; auto.
      * intros H. destruct IH as [_ IH]. assert (Some n = None); [|discriminate]. apply IH. intros (a & b & ->). apply H. now exists (String c a), b.
      * intros _ (a & b & H). destruct a as [|d a].
        -- cbn in H. rewrite H, prefix_app in E. discriminate.
        -- inversion H; subst. now apply IH; [|exists a, b].
Qed.
Lemma index_some sub s i : index sub s = Some i <-> exists a, first_occ sub a s /\ String.length a = i.
Proof.
  unfold first_occ. revert i. induction s as [|c s IH]; intros i; cbn [index].
  - destruct (String.prefix sub "") eqn:E.
    + split.
      * intros H; inversion H; subst. apply prefix_spec in E as (t & E). exists "". repeat split; [exists t; exact E|]. cbn. intros; lia.
      * intros (a & [[b H] _] & <-). destruct a; [reflexivity|discriminate].
    + split; [discriminate|]. intros (a & [[b H] _] & _). destruct a; [|discriminate]. cbn in H. rewrite H, prefix_app in E. discriminate.
  - destruct (String.prefix sub (String c s)) eqn:E.
    + split.
      * intros H; inversion H; subst. apply prefix_spec in E as (t & E). exists "". repeat split; [exists t; exact E|]. cbn. intros; lia.
      * intros (a & [_ H] & <-). apply prefix_spec in E as (t & E). specialize (H "" t E). cbn in H. f_equal. lia.
    + destruct (index sub s) as [j|] eqn:Ej; cbn.
      * split.
        -- intros H; inversion H; subst. destruct (proj1 (IH j) eq_refl) as (a & [[b Hb] Hf] & <-). exists (String c a). repeat split.
           ++ exists b. now rewrite Hb.
           ++ intros [|d a'] b' H'; [cbn in H'; rewrite H', prefix_app in E; discriminate|]. cbn in H'. inversion H'; subst. cbn. apply le_n_S. eapply Hf; eauto.
        -- intros (a & [[b Hb] Hf] & <-). destruct a as [|d a]; [cbn in Hb; rewrite Hb, prefix_app in E; discriminate|]. cbn in Hb. inversion Hb; subst. cbn. f_equal.
           assert (Some j = Some (String.length a)); [|congruence]. apply IH. exists a. repeat split; [eauto|]. intros a' b' H'.
           specialize (Hf (String d a') b'). cbn in Hf. rewrite H' in Hf. specialize (Hf eq_refl). lia.
      * split; [discriminate|]. intros (a & [[b Hb] _] & _). apply index_none in Ej. destruct Ej. destruct a as [|d a]; [cbn in Hb; rewrite Hb, prefix_app in E; discriminate|].
        cbn in Hb. inversion Hb; subst. now exists a, b.
Qed.
Lemma app_cut : forall (a b c d : string), a ++ b = c ++ d -> String.length a <= String.length c -> exists e, c = a ++ e /\ b = e ++ d.
Proof.
  induction a as [|x a IH]; intros b c d H L; cbn in *; [now exists c|].
  destruct c as [|y c]; cbn in *; [lia|]. inversion H; subst. destruct (IH b c d H2) as (e & -> & ->); [lia|]. now exists e.
Qed.
Lemma app_eq_len (a b c d : string) : a ++ b = c ++ d -> String.length a = String.length c -> a = c /\ b = d.
Proof.
  intros H L. destruct (app_cut _ _ _ _ H) as (e & -> & ->); [lia|]. rewrite length_app in L. destruct e; cbn in L; [|lia].
  now rewrite app_nil_r.
Qed.

(* a first occurrence stays one when the string is cut in front or behind it *)
Lemma first_occ_drop sub x a s : first_occ sub (x ++ a) (x ++ s) -> first_occ sub a s.
Proof.
  intros [[b H] F]. split.
  - exists b. rewrite app_assoc in H. now apply app_inj_l in H.
  - intros a' b' ->. specialize (F (x ++ a') b'). rewrite app_assoc in F. specialize (F eq_refl). rewrite !length_app in F. lia.
Qed.
Lemma first_occ_cut sub a s y : first_occ sub a (s ++ y) -> String.length (a ++ sub) <= String.length s -> first_occ sub a s.
Proof.
  intros [[b H] F] L. split.
  - destruct (app_cut (a ++ sub) b s y) as (e & -> & ->); [rewrite app_assoc; auto|auto|]. exists e. now rewrite app_assoc.
  - intros a' b' ->. apply (F a' (b' ++ y)). now rewrite !app_assoc.
Qed.
Lemma first_occ_index sub a s : first_occ sub a s -> index sub s = Some (String.length a).
Proof. intros H. apply index_some. eauto. Qed.
Lemma first_occ_unique sub a a' s : first_occ sub a s -> first_occ sub a' s -> a = a'.
Proof.
  intros [[b H] F] [[b' H'] F']. specialize (F _ _ H'). specialize (F' _ _ H). rewrite H in H'. apply app_eq_len in H'; [tauto|lia].
Qed.
(* no occurrence in a prefix that ends before the first occurrence does *)
Lemma first_occ_none sub a s y : first_occ sub a (s ++ y) -> String.length s < String.length (a ++ sub) -> ~ occurs sub s.
Proof.
  intros [_ F] L (a' & b' & ->). specialize (F a' (b' ++ y)). rewrite !app_assoc in F. specialize (F eq_refl). rewrite !length_app in L. lia.
Qed.
Lemma occurs_app sub s y : occurs sub s -> occurs sub (s ++ y).
Proof. intros (a & b & ->). exists a, (b ++ y). now rewrite !app_assoc. Qed.
Lemma occurs_first sub s : occurs sub s -> exists a, first_occ sub a s.
Proof.
  intros H. destruct (index sub s) eqn:E; [|apply index_none in E; contradiction]. apply index_some in E as (a & F & _). eauto.
Qed.
Lemma first_occ_app sub a s y : first_occ sub a s -> first_occ sub a (s ++ y).
Proof.
  intros [[b ->] F]. split; [exists (b ++ y); now rewrite !app_assoc|].
  intros a' b' H. destruct (Nat.le_gt_cases (String.length a) (String.length a')) as [?|G]; auto.
  rewrite !app_assoc in H. symmetry in H.
  (* a' is shorter than a: the occurrence lies within a ++ sub *)
  assert (H2 : (a' ++ sub) ++ b' = (a ++ sub ++ b) ++ y) by now rewrite !app_assoc.
  destruct (app_cut _ _ _ _ H2) as (e & E1 & _); [rewrite !length_app; lia|].
  specialize (F a' e). rewrite E1, app_assoc in F. specialize (F eq_refl). exact F.
Qed.

(* every stream has a decomposition, and only one *)
Lemma stake_length_app (a b : string) : stake (String.length a) (a ++ b) = a. Proof. apply stake_app. Qed.
Lemma find_packet s : (exists g p r, s = g ++ p ++ r /\ packet_behind g p r) \/ (forall g p r, s = g ++ p ++ r -> ~ packet_behind g p r).
Proof.
  destruct (index packet_start s) as [i|] eqn:E1.
  2:{ right. intros g p r -> [[[b H] _] _]. apply index_none in E1. apply E1. now exists g, b. }
  apply index_some in E1 as (g & F1 & <-). pose proof F1 as [[b H1] _].
  destruct (index packet_end (packet_start ++ b)) as [j|] eqn:E2.
  2:{ right. intros g' p r -> [F [h [t (-> & L & F2)]]]. pose proof (first_occ_unique _ _ _ _ F F1) as ->. apply app_inj_l in H1. rewrite H1 in F2.
      apply index_none in E2. apply E2. destruct F2 as [[c Hc] _]. exists h, c. exact Hc. }
  apply index_some in E2 as (h & F2 & <-). pose proof F2 as [[c H2] _].
  destruct (Nat.le_gt_cases 6 (String.length c)) as [G|G].
  - left. exists g, (h ++ packet_end ++ stake 6 c), (sdrop 6 c).
    assert (E : (h ++ packet_end ++ stake 6 c) ++ sdrop 6 c = packet_start ++ b).
    { rewrite !app_assoc. rewrite stake_sdrop. now rewrite H2. }
    split; [now rewrite E|]. split; [rewrite E; now rewrite <- H1|]. exists h, (stake 6 c). repeat split; auto.
    + rewrite length_stake. lia.
    + rewrite E. exists c. exact H2.
    + rewrite E. apply F2.
  - right. intros g' p r -> [F [h' [t (-> & L & F')]]]. pose proof (first_occ_unique _ _ _ _ F F1) as ->. apply app_inj_l in H1. rewrite H1 in F'.
    pose proof (first_occ_unique _ _ _ _ F' F2) as ->. rewrite !app_assoc in H1. rewrite H2 in H1. apply app_inj_l in H1. apply app_inj_l in H1. subst c. rewrite length_app in G. lia.
Qed.
Lemma packet_nonempty g p r : packet_behind g p r -> 13 <= String.length p.
Proof. intros [_ (h & t & -> & _)]. rewrite !length_app. cbn. lia. Qed.
Lemma stream_of_exists s : exists segs tail, stream_of s segs tail.
Proof.
  remember (String.length s) as n eqn:E. revert s E. induction n as [n IH] using lt_wf_ind. intros s ->.
  destruct (find_packet s) as [(g & p & r & -> & H)|H].
  - destruct (IH (String.length r)) with (s := r) as (segs & tail & S); auto.
    + apply packet_nonempty in H. rewrite !length_app. lia.
    + exists ((g, p) :: segs), tail. now constructor.
  - exists [], s. now constructor.
Qed.
Lemma packet_behind_unique g p r g' p' r' : g ++ p ++ r = g' ++ p' ++ r' -> packet_behind g p r -> packet_behind g' p' r' -> g = g' /\ p = p' /\ r = r'.
Proof.
  intros E [F (h & t & Ep & L & F2)] [F' (h' & t' & Ep' & L' & F2')]. rewrite E in F. pose proof (first_occ_unique _ _ _ _ F F') as <-.
  apply app_inj_l in E. rewrite E in F2. pose proof (first_occ_unique _ _ _ _ F2 F2') as <-. subst p p'.
  apply app_eq_len in E; [intuition|]. rewrite !length_app. lia.
Qed.
Lemma stream_of_unique s segs tail : stream_of s segs tail -> forall segs' tail', stream_of s segs' tail' -> segs = segs' /\ tail = tail'.
Proof.
  induction 1 as [s H|g p r segs tail H S IH]; intros segs' tail' S'; inversion S'; subst; auto.
  - destruct (H _ _ _ eq_refl H0).
  - destruct (H0 _ _ _ eq_refl H).
  - destruct (packet_behind_unique _ _ _ _ _ _ H0 H1 H) as (-> & -> & ->). destruct (IH _ _ H2) as [-> ->]. auto.
Qed.

(* ---- the split function ---- *)
Lemma split_bounds data eof adv tok : split_packet data eof = (adv, tok) -> adv <= String.length data /\
  match tok with
  | Some t => exists g r, data = g ++ t ++ r /\ packet_behind g t r /\ adv = String.length (g ++ t)
  | None => True
  end.
Proof.
  unfold split_packet. destruct (index packet_start data) as [i|] eqn:E1.
  - apply index_some in E1 as (g & F1 & <-). pose proof F1 as [[b H1] _].
    replace (sdrop (String.length g) data) with (packet_start ++ b) by (rewrite H1; now rewrite sdrop_app).
    destruct (index packet_end (packet_start ++ b)) as [j|] eqn:E2; [|destruct eof; intros H; inversion H; subst; split; auto; lia].
    apply index_some in E2 as (h & F2 & <-). pose proof F2 as [[c H2] _].
    destruct (Nat.ltb_spec (String.length data) (String.length g + String.length h + String.length packet_end + 6)) as [G|G];
      [destruct eof; intros H; inversion H; subst; split; auto; lia|].
    intros H; apply (proj1 (pair_equal_spec _ _ _ _)) in H as [<- <-]. split; [exact G|].
    replace (String.length g + String.length h + String.length packet_end + 6 - String.length g) with (String.length h + String.length packet_end + 6) by lia.
    assert (Lc : 6 <= String.length c).
    { apply (f_equal String.length) in H1, H2. rewrite !length_app in H1, H2. rewrite ?length_app in H2. lia. }
    assert (Et : stake (String.length h + String.length packet_end + 6) (packet_start ++ b) = h ++ packet_end ++ stake 6 c).
    { rewrite H2. replace (h ++ packet_end ++ c) with ((h ++ packet_end ++ stake 6 c) ++ sdrop 6 c) by (rewrite !app_assoc; now rewrite stake_sdrop).
      replace (String.length h + String.length packet_end + 6) with (String.length (h ++ packet_end ++ stake 6 c)) by (rewrite !length_app, length_stake; lia).
      now rewrite stake_app. }
    rewrite Et. exists g, (sdrop 6 c).
    assert (E : (h ++ packet_end ++ stake 6 c) ++ sdrop 6 c = packet_start ++ b) by (rewrite !app_assoc; rewrite stake_sdrop; now rewrite H2).
    repeat split.
    + now rewrite E.
    + rewrite E, <- H1. apply F1.
    + rewrite E, <- H1. apply F1.
    + exists h, (stake 6 c). repeat split; auto; [rewrite length_stake; lia| |]; rewrite E; apply F2.
    + rewrite !length_app, length_stake. lia.
  - destruct (Nat.ltb (String.length packet_start) (String.length data)); intros H; inversion H; subst; split; auto; lia.
Qed.
Lemma split_token g p r w y eof : packet_behind g p r -> w ++ y = g ++ p ++ r -> String.length (g ++ p) <= String.length w ->
  split_packet w eof = (String.length (g ++ p), Some p).
Proof.
  intros [F1 (h & t & Ep & L & F2)] E Lw.
  destruct (app_cut (g ++ p) r w y) as (e & Ew & Er); [rewrite app_assoc; auto|auto|]. rewrite app_assoc in Ew.
  assert (F1' : first_occ packet_start g w).
  { rewrite <- E in F1. eapply first_occ_cut; [exact F1|]. destruct F1 as [[b H1] _]. pose proof F2 as [[c H2] _]. 
    rewrite E in H1. apply app_inj_l in H1.
    (* the header lies within the packet: otherwise the trailer would start in it *)
    rewrite Ep in Lw. rewrite !length_app in *.
    assert (String.length packet_start <= String.length h + 13 + 6); [cbn; lia|]. cbn [String.length packet_end] in *.
    change (String.length "<?xpacket end") with 13 in Lw. lia. }
  unfold split_packet. rewrite (first_occ_index _ _ _ F1').
  assert (Ed : sdrop (String.length g) w = p ++ e) by (rewrite Ew; now rewrite sdrop_app). rewrite Ed.
  assert (F2' : first_occ packet_end h (p ++ e)).
  { apply first_occ_cut with y; [rewrite app_assoc, <- Er; auto|]. rewrite Ep, !length_app. cbn. lia. }
  rewrite (first_occ_index _ _ _ F2'). 
  assert (Ll : String.length g + String.length h + String.length packet_end + 6 = String.length (g ++ p)) by (rewrite Ep, !length_app, L; cbn; lia).
  rewrite Ll. destruct (Nat.ltb_spec (String.length w) (String.length (g ++ p))) as [G|_]; [lia|].
  f_equal. f_equal. rewrite length_app. replace (String.length g + String.length p - String.length g) with (String.length p) by lia. now rewrite stake_app.
Qed.
Lemma header_in_packet g p r : packet_behind g p r -> 15 <= String.length p -> exists q, p = packet_start ++ q.
Proof.
  intros [[[b H] _] _] L. apply app_inj_l in H. symmetry in H. destruct (app_cut _ _ _ _ H) as (e & -> & _); [cbn; lia|]. eauto.
Qed.
(* the window does not contain the whole packet *)
Lemma split_wait g p r w y : packet_behind g p r -> w ++ y = g ++ p ++ r -> String.length w < String.length (g ++ p) ->
  (String.length (g ++ packet_start) <= String.length w /\ split_packet w false = (0, None)) \/
  (String.length w < String.length (g ++ packet_start) /\ 
   split_packet w false = ((if Nat.ltb 15 (String.length w) then String.length w - 15 else String.length w), None)).
Proof.
  intros [F1 (h & t & Ep & L & F2)] E Lw. unfold split_packet.
  destruct (Nat.le_gt_cases (String.length (g ++ packet_start)) (String.length w)) as [G|G].
  - left. split; auto. rewrite <- E in F1. pose proof (first_occ_cut _ _ _ _ F1 G) as F1'. rewrite (first_occ_index packet_start g w F1').
    destruct (app_cut g (p ++ r) w y) as (e & Ew & Er); [auto|rewrite length_app in G; lia|].
    assert (Ed : sdrop (String.length g) w = e) by (rewrite Ew; now rewrite sdrop_app). rewrite Ed.
    destruct (index packet_end e) as [j|] eqn:Ej; [|reflexivity].
    apply index_some in Ej as (h' & F' & <-). pose proof (first_occ_app _ _ _ y F') as F''. rewrite <- Er in F''.
    pose proof (first_occ_unique _ _ _ _ F'' F2) as ->.
    destruct (Nat.ltb_spec (String.length w) (String.length g + String.length h + String.length packet_end + 6)); [reflexivity|].
    exfalso. rewrite Ep, !length_app, L in Lw. cbn in *. lia.
  - right. split; auto. rewrite <- E in F1. pose proof (first_occ_none packet_start _ _ _ F1 G) as N. apply index_none in N. rewrite N.
    change (String.length packet_start) with 15. destruct (Nat.ltb 15 (String.length w)); reflexivity.
Qed.

(* ---- the scanner ---- *)
Lemma zeros_length n : String.length (zeros n) = n.
Proof. induction n; cbn; auto. Qed.
Lemma length_zero s : String.length s = 0 -> s = "".
Proof. destruct s; [reflexivity|discriminate]. Qed.
Lemma emptyb_len s : emptyb s = Nat.eqb (String.length s) 0.
Proof. destruct s; reflexivity. Qed.
Lemma sizes_ok : 16 <= start_buf_size /\ 32 <= start_buf_size /\ start_buf_size < max_token_size.
Proof.
  unfold start_buf_size, max_token_size. repeat split; try lia.
Qed.
Definition buf_ok (s : scanner) : Prop := String.length (sc_buf s) = 0 \/ start_buf_size <= String.length (sc_buf s).

Opaque start_buf_size max_token_size.
Lemma make_room s : buf_ok s -> sc_front s <> "" \/ String.length (sc_win s) < max_token_size ->
  exists s2, sc_grow (sc_shift s) = Some s2 /\ sc_win s2 = sc_win s /\ sc_rest s2 = sc_rest s /\ sc_eof s2 = sc_eof s /\
    sc_tail s2 <> "" /\ start_buf_size <= String.length (sc_buf s2) /\ (sc_win s = "" -> 16 <= String.length (sc_tail s2)).
Proof.
  destruct sizes_ok as (Z1 & Z2 & Z3). intros Hb Hw. destruct s as [f w t r e]. unfold sc_shift, buf_ok, sc_buf in *. cbn [sc_front sc_win sc_tail sc_rest sc_eof] in *.
  set (L := String.length (f ++ w ++ t)) in *. assert (EL : L = String.length f + String.length w + String.length t) by (unfold L; rewrite !length_app; lia).
  destruct (Nat.ltb_spec 0 (String.length f)) as [Hf|Hf]; cbn [andb].
  - destruct (emptyb t || Nat.ltb (Nat.div2 L) (String.length f)) eqn:Ec.
    + (* shifted *) unfold sc_grow, sc_buf. cbn [sc_front sc_win sc_tail sc_rest sc_eof].
      set (t' := sdrop (String.length w) (f ++ w ++ t)). assert (Lt : String.length t' = String.length f + String.length t) by (unfold t'; rewrite length_sdrop; fold L; lia).
      destruct (emptyb t') eqn:Et; [rewrite emptyb_len in Et; apply Nat.eqb_eq in Et; lia|].
      eexists. split; [reflexivity|]. cbn [sc_front sc_win sc_tail sc_rest sc_eof append]. repeat split; auto.
      * intros E. rewrite E in Lt. cbn in Lt. lia.
      * rewrite length_app, Lt. lia.
      * intros ->. change (String.length "") with 0 in EL. lia.
    + (* not shifted *) apply orb_false_iff in Ec as [Ec1 Ec2]. apply Nat.ltb_ge in Ec2. unfold sc_grow. cbn [sc_tail]. rewrite Ec1.
      eexists. split; [reflexivity|]. unfold sc_buf. cbn [sc_front sc_win sc_tail sc_rest sc_eof]. fold L. repeat split; auto.
      * intros ->. discriminate.
      * lia.
      * intros ->. change (String.length "") with 0 in EL. pose proof (Nat.div2_decr L L). assert (2 * Nat.div2 L <= L).
        { rewrite (Nat.div2_odd L) at 2. lia. }
        lia.
  - assert (f = "") by (destruct f; [reflexivity|cbn in Hf; lia]). subst f. change (String.length "") with 0 in EL. destruct Hw as [?|Hw]; [congruence|].
    unfold sc_grow, sc_buf. cbn [sc_front sc_win sc_tail sc_rest sc_eof append]. change (w ++ t) with ("" ++ w ++ t). fold L.
    destruct (emptyb t) eqn:Et.
    + assert (t = "") by (destruct t; [reflexivity|discriminate]). subst t. change (String.length "") with 0 in EL.
      destruct (Nat.leb_spec max_token_size L); [lia|].
      assert (G : exists size, (if Nat.eqb L 0 then start_buf_size else Nat.min (L * 2) max_token_size) = size /\ String.length w < size /\ start_buf_size <= size).
      { eexists. split; [reflexivity|]. destruct (Nat.eqb_spec L 0); lia. }
      destruct G as (size & -> & G1 & G2). eexists. split; [reflexivity|]. cbn [sc_front sc_win sc_tail sc_rest sc_eof append]. repeat split; auto.
      * intros E. apply (f_equal String.length) in E. rewrite zeros_length in E. cbn in E. lia.
      * rewrite length_app, zeros_length. lia.
      * intros ->. rewrite zeros_length. cbn in *. lia.
    + eexists. split; [reflexivity|]. cbn [sc_front sc_win sc_tail sc_rest sc_eof append]. repeat split; auto.
      * intros ->. discriminate.
      * assert (0 < String.length t) by (rewrite emptyb_len in Et; apply Nat.eqb_neq in Et; lia). rewrite length_app. lia.
      * intros ->. assert (0 < String.length t) by (rewrite emptyb_len in Et; apply Nat.eqb_neq in Et; lia). change (String.length "") with 0 in EL. lia.
Qed.

Lemma read_spec s k early : start_buf_size <= String.length (sc_buf s) -> sc_tail s <> "" -> sc_eof s = false ->
  (sc_rest s = "" /\ sc_read s k early = Scanner (sc_front s) (sc_win s) (sc_tail s) "" true) \/
  (exists a b, sc_rest s = a ++ b /\ a <> "" /\ (16 <= k -> 16 <= String.length (sc_tail s) -> 16 <= String.length a \/ b = "") /\
     sc_win (sc_read s k early) = sc_win s ++ a /\ sc_rest (sc_read s k early) = b /\
     (sc_eof (sc_read s k early) = true -> b = "") /\ String.length (sc_buf (sc_read s k early)) = String.length (sc_buf s)).
Proof.
  intros Hb Ht He. destruct s as [f w t r e]. unfold sc_read. cbn [sc_front sc_win sc_tail sc_rest sc_eof] in *. destruct r as [|c r]; [left; auto|].
  right. set (R := String c r). set (n := Nat.min (Nat.max 1 k) (Nat.min (String.length t) (String.length R))).
  assert (Lt : 0 < String.length t) by (destruct t; [congruence|cbn; lia]). assert (LR : 0 < String.length R) by (cbn; lia).
  exists (stake n R), (sdrop n R). unfold sc_buf in *. cbn [sc_front sc_win sc_tail sc_rest sc_eof]. split; [now rewrite stake_sdrop|]. split; [|split; [|split; [|split; [|split]]]]; auto.
  - intros E. apply (f_equal String.length) in E. rewrite length_stake in E. change (String.length "") with 0 in E. unfold n in E. lia.
  - intros Hk Hl. rewrite length_stake. destruct (Nat.le_gt_cases 16 n); [left|right].
    + assert (n <= String.length R) by (unfold n; lia). lia.
    + assert (n = String.length R) by (unfold n in *; lia). assert (E : String.length (sdrop n R) = 0) by (rewrite length_sdrop; lia). destruct (sdrop n R); [reflexivity|discriminate].
  - intros E. apply andb_prop in E as [_ E]. destruct (sdrop n R); [reflexivity|discriminate].
  - rewrite !length_app, length_stake, length_sdrop. assert (n <= String.length R /\ n <= String.length t) by (unfold n; lia). lia.
Qed.

(* streams that contain a packet *)
Lemma has_packet s : (exists g p r, s = g ++ p ++ r /\ packet_behind g p r) <->
  (exists g q t r, s = g ++ q ++ packet_end ++ t ++ r /\ String.length t = 6 /\ exists u, q ++ packet_end ++ t ++ r = packet_start ++ u).
Proof.
  split.
  - intros (g & p & r & -> & [[[b H] F] (h & t & -> & L & F2)]). exists g, h, t, r. repeat split; auto.
    + now rewrite !app_assoc.
    + apply app_inj_l in H. rewrite !app_assoc in H. eauto.
  - intros (g & q & t & r & Es & L & u & Eu). destruct (find_packet s) as [H|H]; auto. exfalso.
    (* the first header *)
    assert (O : occurs packet_start s) by (rewrite Es, Eu; exists g, u; auto).
    destruct (occurs_first _ _ O) as (a & F1). pose proof F1 as [[b H1] Fa]. 
    assert (La : String.length a <= String.length g) by (apply (Fa g u); rewrite Es, Eu; auto).
    (* the trailer lies behind it *)
    assert (E : a ++ packet_start ++ b = g ++ q ++ packet_end ++ t ++ r) by now rewrite <- H1.
    destruct (app_cut _ _ _ _ E La) as (e & -> & Eb).
    assert (O2 : occurs packet_end (packet_start ++ b)) by (rewrite Eb; exists (e ++ q), (t ++ r); now rewrite !app_assoc).
    destruct (occurs_first _ _ O2) as (h & F2). pose proof F2 as [[c H2] Fh].
    assert (Lh : String.length h <= String.length (e ++ q)) by (apply (Fh _ (t ++ r)); rewrite Eb, !app_assoc; auto).
    assert (Lc : 6 <= String.length c).
    { rewrite Eb in H2. apply (f_equal String.length) in H2. rewrite !length_app in *. lia. }
    apply (H a (h ++ packet_end ++ stake 6 c) (sdrop 6 c)).
    + rewrite !app_assoc. rewrite stake_sdrop. rewrite H1. now rewrite H2.
    + assert (E2 : (h ++ packet_end ++ stake 6 c) ++ sdrop 6 c = packet_start ++ b) by (rewrite !app_assoc, stake_sdrop; now rewrite H2).
      split; [rewrite E2, <- H1; exact F1|]. exists h, (stake 6 c). repeat split; [rewrite length_stake; lia| |]; rewrite E2; apply F2.
Qed.
Definition no_packet (s : string) : Prop := forall g p r, s = g ++ p ++ r -> ~ packet_behind g p r.
Lemma no_packet_iff s : no_packet s <-> ~ exists g p r, s = g ++ p ++ r /\ packet_behind g p r.
Proof. unfold no_packet. split; [intros H (g & p & r & E & P); eapply H; eauto|]. intros H g p r E P. apply H. eauto. Qed.
Lemma no_packet_suffix x s : no_packet (x ++ s) -> no_packet s.
Proof.
  rewrite !no_packet_iff, !has_packet. intros H (g & q & t & r & -> & L & u & E). apply H. exists (x ++ g), q, t, r. repeat split; eauto. now rewrite app_assoc.
Qed.
Lemma no_packet_prefix s y : no_packet (s ++ y) -> no_packet s.
Proof.
  rewrite !no_packet_iff, !has_packet. intros H (g & q & t & r & -> & L & u & E). apply H. exists g, q, t, (r ++ y). repeat split; auto.
  - now rewrite !app_assoc.
  - exists (u ++ y). rewrite <- app_assoc with (a := packet_start). rewrite <- E. now rewrite !app_assoc.
Qed.
Lemma split_no_packet s eof : no_packet s -> exists adv, split_packet s eof = (adv, None) /\ adv <= String.length s /\
  (~ occurs packet_start s -> s <> "" -> 0 < adv).
Proof.
  intros H. destruct (split_packet s eof) as [adv [t|]] eqn:E.
  - destruct (split_bounds _ _ _ _ E) as (_ & g & r & Es & P & _). destruct (H _ _ _ Es P).
  - exists adv. split; auto. split; [apply (split_bounds _ _ _ _ E)|]. intros N Hne. unfold split_packet in E. apply index_none in N. rewrite N in E.
    destruct s as [|c s]; [congruence|]. revert E. destruct (Nat.ltb_spec (String.length packet_start) (String.length (String c s))); intros E; inversion E; subst adv; cbn in *; lia.
Qed.

(* a gap can be shortened *)
Lemma packet_behind_drop x g p r : packet_behind (x ++ g) p r -> packet_behind g p r.
Proof. intros [F P]. split; auto. apply (first_occ_drop _ x). now rewrite app_assoc in F. Qed.

Definition seg_ok (gp : string * string) : Prop := 51 <= String.length (snd gp) /\ String.length (fst gp ++ snd gp) < max_token_size.
Inductive inv (s : scanner) (segs : list (string * string)) (tail : string) : Prop :=
| inv_packet g0 g p r segs' : segs = (g0, p) :: segs' -> sc_win s ++ sc_rest s = g ++ p ++ r -> packet_behind g p r -> stream_of r segs' tail ->
    seg_ok (g, p) -> (16 <= String.length (sc_win s) \/ String.length (sc_win s) <= String.length g) -> inv s segs tail
| inv_tail : segs = [] -> no_packet (sc_win s ++ sc_rest s) ->
    (occurs packet_start (sc_win s ++ sc_rest s) -> String.length (sc_win s ++ sc_rest s) < max_token_size) -> inv s segs tail.

Lemma sdrop_len_app n (a b : string) : n <= String.length a -> sdrop n a ++ b = sdrop n (a ++ b).
Proof.
  revert n. induction a as [|c a IH]; intros n H; cbn in *; [assert (n = 0) by lia; now subst|]. destruct n; cbn; auto. apply IH. lia.
Qed.
Lemma advance_buf s n : n <= String.length (sc_win s) -> sc_buf (sc_advance s n) = sc_buf s.
Proof. intros H. unfold sc_buf, sc_advance. cbn. rewrite !app_assoc. f_equal. rewrite <- app_assoc. now rewrite stake_sdrop. Qed.

Lemma is_packet_spec p beyond : 51 <= String.length p -> is_xmp_packet p beyond = Ok (is_packet p).
Proof.
  intros H. unfold is_xmp_packet, is_packet. destruct (Nat.ltb_spec (String.length (p ++ beyond)) 51) as [G|_]; [rewrite length_app in G; lia|].
  f_equal. f_equal. assert (forall n a b, n <= String.length a -> stake n (a ++ b) = stake n a) as ->; auto.
  induction n as [|n IH]; intros [|c a] b L; cbn in *; auto; try lia. f_equal. apply IH. lia.
Qed.

Definition measure (s : scanner) : nat := String.length (sc_rest s) + String.length (sc_win s ++ sc_rest s) + (if sc_eof s then 0 else 1).

Lemma scan_spec sizes early (Hsz : forall i, 16 <= sizes i) : forall fuel i s acc segs tail,
  measure s < fuel -> buf_ok s -> (sc_eof s = true -> sc_rest s = "") -> inv s segs tail ->
  Forall seg_ok segs -> Forall (fun gp => 15 <= String.length (fst gp)) (tl segs) -> 
  (occurs packet_start tail -> String.length tail < max_token_size) -> 
  scan fuel sizes early i s acc = ((acc ++ filter is_packet (map snd segs))%list, SDone).
Proof.
  induction fuel as [|f IH]; intros i s acc segs tail Hm Hb He Hi Hs Hg Ht; [lia|].
  (* reading more *)
  assert (READ : forall adv, adv <= String.length (sc_win s) -> sc_eof s = false ->
    (0 < adv \/ String.length (sc_win s) < max_token_size) ->
    (forall s', sc_win s' ++ sc_rest s' = sdrop adv (sc_win s) ++ sc_rest s -> 
       (exists a, sc_win s' = sdrop adv (sc_win s) ++ a /\ (a <> "" \/ sc_rest s = "") /\ (sdrop adv (sc_win s) = "" -> 16 <= String.length a \/ sc_rest s' = "")) ->
       inv s' segs tail) ->
    match sc_grow (sc_shift (sc_advance s adv)) with
    | None => (acc, STooLong)
    | Some s2 => scan f sizes early (S i) (sc_read s2 (sizes i) early) acc
    end = ((acc ++ filter is_packet (map snd segs))%list, SDone)).
  { intros adv La Hne Hr Hinv.
    destruct (make_room (sc_advance s adv)) as (s2 & E2 & W2 & R2 & F2 & T2 & B2 & S2).
    - unfold buf_ok. now rewrite advance_buf.
    - destruct Hr as [Hr|Hr].
      + left. cbn. intros E. apply (f_equal String.length) in E. rewrite length_app, length_stake in E. cbn in E. lia.
      + right. cbn. rewrite length_sdrop. lia.
    - rewrite E2. cbn in W2, R2, F2. rewrite Hne in F2.
      destruct (read_spec s2 (sizes i) early B2 T2 F2) as [[R E]|(a & b & E & Ha & H16 & W & R & EO & LB)].
      + rewrite E. apply (IH _ _ _ segs tail); auto.
        * unfold measure in *. cbn. rewrite W2. rewrite R2 in R. rewrite R in *. cbn in *. rewrite Hne in Hm. rewrite !length_app in *. cbn. rewrite length_sdrop in *. cbn in *. lia.
        * right. exact B2.
        * apply Hinv.
          -- cbn. rewrite W2. rewrite <- R2, R. reflexivity.
          -- cbn. rewrite W2. exists "". rewrite app_nil_r. rewrite <- R2. repeat split; auto.
      + apply (IH _ _ _ segs tail); auto.
        * unfold measure in *. rewrite W, R, W2. rewrite <- R2, E in Hm. rewrite Hne in Hm. rewrite !length_app, length_sdrop in *.
          assert (0 < String.length a) by (destruct a; [congruence|cbn; lia]). destruct (sc_eof (sc_read s2 (sizes i) early)); lia.
        * right. rewrite LB. exact B2.
        * intros X. rewrite R. auto.
        * apply Hinv.
          -- rewrite W, R, W2, <- R2, E. now rewrite app_assoc.
          -- exists a. rewrite W, W2. repeat split; auto. intros Z. rewrite R. apply H16; auto. }
  destruct Hi as [g0 g p r segs' -> Ew P So [Lp Lm] Hwin | -> Hno Hocc].
  - (* a packet follows *)
    cbn [fst snd] in Lp, Lm. cbn [scan].
    destruct (Nat.le_gt_cases (String.length (g ++ p)) (String.length (sc_win s))) as [G|G].
    + (* it is in the window *)
      rewrite (split_token g p r _ _ (sc_eof s) P Ew G).
      replace (negb (emptyb (sc_win s)) || sc_eof s) with true.
      2:{ rewrite emptyb_len. destruct (Nat.eqb_spec (String.length (sc_win s)) 0) as [Z|Z]; [|reflexivity]. rewrite length_app in G. lia. }
      rewrite is_packet_spec by auto. set (s1 := sc_advance s (String.length (g ++ p))).
      assert (E1 : sc_win s1 ++ sc_rest s1 = r).
      { cbn. rewrite sdrop_len_app by auto. rewrite Ew. rewrite <- app_assoc. now rewrite sdrop_app. }
      pose proof (Forall_inv_tail Hs) as Hs2. cbn [tl] in Hg.
      assert (I1 : inv s1 segs' tail).
      { inversion So as [s0 H0 E0 E0' E0''|g1 p1 r1 segs1 tail1 P1 So1 E0 E0' E0''].
        - apply inv_tail; [auto| |]; rewrite E1, E0''; [exact H0|exact Ht].
        - apply (inv_packet _ _ _ g1 g1 p1 r1 segs1); auto.
          + now rewrite E1, E0.
          + rewrite <- E0' in Hs2. now inversion Hs2.
          + rewrite <- E0' in Hg. inversion Hg; subst. cbn in *. lia. }
      assert (M1 : measure s1 < f).
      { unfold measure in *. rewrite E1. cbn [sc_rest sc_eof sc_advance s1]. rewrite Ew, !length_app in Hm. rewrite length_app in G. lia. }
      assert (B1 : buf_ok s1) by (unfold buf_ok, s1; now rewrite advance_buf).
      assert (G1 : Forall (fun gp => 15 <= String.length (fst gp)) (tl segs')) by (destruct segs'; [constructor|now inversion Hg]).
      cbn [map snd filter]. destruct (is_packet p) eqn:Ep.
      * rewrite (IH i s1 _ segs' tail M1 B1 He I1 Hs2 G1 Ht). f_equal. now rewrite <- List.app_assoc.
      * exact (IH i s1 acc segs' tail M1 B1 He I1 Hs2 G1 Ht).
    + (* not yet *)
      destruct (sc_eof s) eqn:Eo.
      { specialize (He eq_refl). rewrite He, app_nil_r in Ew. rewrite Ew, !length_app in G. lia. }
      rewrite orb_false_r.
      destruct (emptyb (sc_win s)) eqn:Ee; cbn [negb].
      * (* empty window *)
        assert (W0 : sc_win s = "") by (destruct (sc_win s); [reflexivity|discriminate]).
        cbn [sc_eof sc_advance]. rewrite Eo. apply (READ 0); auto; [rewrite W0; cbn; lia|right; rewrite W0; cbn; lia|].
        intros s' E (a & Ea & _ & H16). rewrite W0 in *. cbn [sdrop append] in *. subst a. apply (inv_packet _ _ _ g0 g p r segs'); auto; [now rewrite E|now split|].
        destruct (H16 eq_refl) as [?|Z]; [auto|]. left. rewrite Z, app_nil_r in E. rewrite E, Ew, !length_app. lia.
      * destruct (split_wait g p r _ _ P Ew G) as [[L1 E1]|[L1 E1]]; rewrite E1; cbn [sc_eof sc_advance]; rewrite Eo.
        -- (* the header is there *)
           apply (READ 0); auto; [lia|right; lia|]. intros s' E (a & Ea & _). rewrite sdrop_0 in *. apply (inv_packet _ _ _ g0 g p r segs'); auto; [now rewrite E|now split|].
           left. rewrite Ea, length_app. destruct Hwin as [?|Hwin]; [lia|]. rewrite length_app in L1. cbn in L1. lia.
        -- destruct (Nat.ltb_spec 15 (String.length (sc_win s))) as [G15|G15].
           ++ (* all but 15 bytes are dropped *)
              apply READ; auto; [lia|left; lia|]. intros s' E (a & Ea & Hne & _).
              assert (Ldrop : String.length (sc_win s) - 15 <= String.length g) by (rewrite length_app in L1; cbn in L1; lia).
              set (n := String.length (sc_win s) - 15) in *.
              assert (Eg : g = stake n g ++ sdrop n g) by now rewrite stake_sdrop.
              apply (inv_packet _ _ _ g0 (sdrop n g) p r segs'); auto.
              ** rewrite E. rewrite sdrop_len_app by (unfold n; lia). rewrite Ew. now rewrite sdrop_len_app.
              ** apply (packet_behind_drop (stake n g)). now rewrite <- Eg.
              ** split; [exact Lp|]. cbn [fst snd]. rewrite length_app, length_sdrop. rewrite length_app in Lm. lia.
              ** left. rewrite Ea, length_app, length_sdrop. destruct Hne as [Hne|Hne]; [destruct a; [congruence|cbn; unfold n; lia]|].
                 exfalso. rewrite Hne, app_nil_r in Ew. rewrite Ew, !length_app in G. lia.
           ++ (* everything is dropped *)
              apply READ; auto; [left; rewrite emptyb_len in Ee; apply Nat.eqb_neq in Ee; lia|]. intros s' E (a & Ea & Hne & H16).
              destruct Hwin as [Hwin|Hwin]; [lia|]. set (n := String.length (sc_win s)) in *.
              assert (Eg : g = stake n g ++ sdrop n g) by now rewrite stake_sdrop.
              assert (W0 : sdrop n (sc_win s) = "") by (apply length_zero; rewrite length_sdrop; unfold n; lia).
              assert (E' : sc_win s' ++ sc_rest s' = sdrop n g ++ p ++ r).
              { rewrite E. rewrite sdrop_len_app by (unfold n; lia). rewrite Ew. now rewrite sdrop_len_app. }
              apply (inv_packet _ _ _ g0 (sdrop n g) p r segs'); auto.
              ** apply (packet_behind_drop (stake n g)). now rewrite <- Eg.
              ** split; [exact Lp|]. cbn [fst snd]. rewrite length_app, length_sdrop. rewrite length_app in Lm. lia.
              ** rewrite W0 in Ea. cbn in Ea. subst a. destruct (H16 W0) as [?|Z]; auto. left. rewrite Z, app_nil_r in E'. rewrite E', !length_app. lia.
  - (* no packet any more *)
    cbn [map filter]. rewrite List.app_nil_r in *. cbn [scan].
    assert (NW : no_packet (sc_win s)) by (eapply no_packet_prefix; eauto).
    assert (CONT : forall adv, adv <= String.length (sc_win s) -> (~ occurs packet_start (sc_win s) -> sc_win s <> "" -> 0 < adv) ->
      (if sc_eof (sc_advance s adv) then (acc, SDone) else match sc_grow (sc_shift (sc_advance s adv)) with
        | None => (acc, STooLong) | Some s2 => scan f sizes early (S i) (sc_read s2 (sizes i) early) acc end) = (acc, SDone)).
    { intros adv La Lpos. cbn [sc_eof sc_advance]. destruct (sc_eof s) eqn:Eo; [reflexivity|]. apply READ; auto.
      - destruct (index packet_start (sc_win s)) eqn:Ei.
        + right. assert (O : occurs packet_start (sc_win s)) by (apply index_some in Ei as (a & [[b X] _] & _); now exists a, b).
          apply (occurs_app _ _ (sc_rest s)) in O. specialize (Hocc O). rewrite length_app in Hocc. lia.
        + apply index_none in Ei. destruct (sc_win s) eqn:Es; [right; destruct sizes_ok; cbn; lia|]. left. apply Lpos; auto. discriminate.
      - intros s' E _. apply inv_tail; auto; rewrite E, sdrop_len_app by auto.
        + apply (no_packet_suffix (stake adv (sc_win s ++ sc_rest s))). now rewrite stake_sdrop.
        + intros (x & y & O). rewrite length_sdrop.
          assert (O' : occurs packet_start (sc_win s ++ sc_rest s)).
          { exists (stake adv (sc_win s ++ sc_rest s) ++ x), y. rewrite app_assoc, <- O. now rewrite stake_sdrop. }
          specialize (Hocc O'). lia. }
    destruct (negb (emptyb (sc_win s)) || sc_eof s) eqn:Ec.
    + destruct (split_no_packet (sc_win s) (sc_eof s) NW) as (adv & -> & La & Lpos). apply CONT; auto.
    + apply CONT; [lia|]. intros _ Hne. apply orb_false_iff in Ec as [Ec _]. destruct (sc_win s); [congruence|discriminate].
Qed.

(* ---- termination, for every stream and schedule ---- *)
Lemma make_room_any s s2 : buf_ok s -> sc_grow (sc_shift s) = Some s2 ->
  sc_win s2 = sc_win s /\ sc_rest s2 = sc_rest s /\ sc_eof s2 = sc_eof s /\ sc_tail s2 <> "" /\ buf_ok s2.
Proof.
  intros Hb. destruct sizes_ok as (Z1 & Z2 & Z3).
  assert (G : forall s, buf_ok s -> sc_tail s = "" -> sc_front s = "" -> sc_grow s = Some s2 ->
    sc_win s2 = sc_win s /\ sc_rest s2 = sc_rest s /\ sc_eof s2 = sc_eof s /\ sc_tail s2 <> "" /\ buf_ok s2).
  { clear s Hb. intros [f w t r e] Hb Ht Hf. cbn [sc_tail sc_front] in *. subst. unfold sc_grow, buf_ok, sc_buf in *. cbn [sc_front sc_win sc_tail sc_rest sc_eof append emptyb] in *.
    rewrite app_nil_r in *. set (L := String.length w) in *. destruct (Nat.leb_spec max_token_size L); [discriminate|].
    assert (X : exists size, (if Nat.eqb L 0 then start_buf_size else Nat.min (L * 2) max_token_size) = size /\ L < size /\ start_buf_size <= size).
    { eexists. split; [reflexivity|]. destruct (Nat.eqb_spec L 0); lia. }
    destruct X as (size & -> & G1 & G2). intros [= <-]. cbn [sc_front sc_win sc_tail sc_rest sc_eof append]. repeat split; auto.
    - intros E. apply (f_equal String.length) in E. rewrite zeros_length in E. cbn in E. lia.
    - right. rewrite length_app, zeros_length. fold L. lia. }
  unfold sc_shift. destruct (Nat.ltb 0 (String.length (sc_front s)) && _) eqn:Ec.
  - apply andb_prop in Ec as [Ef _]. apply Nat.ltb_lt in Ef. unfold sc_grow. cbn [sc_tail].
    set (t' := sdrop (String.length (sc_win s)) (sc_buf s)).
    assert (Lt : String.length t' = String.length (sc_front s) + String.length (sc_tail s)) by (unfold t'; rewrite length_sdrop; unfold sc_buf; rewrite !length_app; lia).
    destruct (emptyb t') eqn:Et; [rewrite emptyb_len in Et; apply Nat.eqb_eq in Et; lia|].
    intros [= <-]. cbn [sc_front sc_win sc_tail sc_rest sc_eof]. repeat split; auto.
    + intros E. rewrite E in Lt. change (String.length "") with 0 in Lt. lia.
    + revert Hb. unfold buf_ok, sc_buf at 3 4. cbn [sc_front sc_win sc_tail append]. rewrite length_app, Lt. unfold sc_buf. rewrite !length_app. lia.
  - destruct (sc_tail s) as [|c t] eqn:Et.
    + apply andb_false_iff in Ec as [Ef|Ef]; [|discriminate]. apply Nat.ltb_ge in Ef. intros E.
      assert (Hf : sc_front s = "") by (apply length_zero; lia). apply G; auto.
    + unfold sc_grow. rewrite Et. cbn [emptyb]. intros [= <-]. repeat split; auto. rewrite Et. discriminate.
Qed.
Lemma scan_terminates sizes early : forall fuel i s acc, measure s < fuel -> buf_ok s -> (sc_eof s = true -> sc_rest s = "") ->
  snd (scan fuel sizes early i s acc) <> SFuel.
Proof.
  induction fuel as [|f IH]; intros i s acc Hm Hb He; [lia|]. cbn [scan].
  destruct (if negb (emptyb (sc_win s)) || sc_eof s then split_packet (sc_win s) (sc_eof s) else (0, None)) as [adv tok] eqn:Es.
  assert (B : adv <= String.length (sc_win s) /\ match tok with Some t => exists g r, sc_win s = g ++ t ++ r /\ packet_behind g t r /\ adv = String.length (g ++ t) | None => True end).
  { destruct (negb (emptyb (sc_win s)) || sc_eof s); [eapply split_bounds; eauto|]. inversion Es; subst. split; auto. lia. }
  destruct B as [La B]. assert (B1 : buf_ok (sc_advance s adv)) by (unfold buf_ok; now rewrite advance_buf).
  destruct tok as [t|].
  - destruct B as (g & r & Ew & P & Ea). apply packet_nonempty in P.
    assert (M : measure (sc_advance s adv) < f).
    { unfold measure in *. cbn [sc_rest sc_win sc_eof sc_advance]. rewrite !length_app, length_sdrop in *. lia. }
    destruct (is_xmp_packet _ _) as [[]|e|]; try (cbn; discriminate); apply IH; auto.
  - destruct (sc_eof (sc_advance s adv)) eqn:Eo; [cbn; discriminate|].
    destruct (sc_grow (sc_shift (sc_advance s adv))) as [s2|] eqn:E2; [|cbn; discriminate].
    destruct (make_room_any _ _ B1 E2) as (W2 & R2 & F2 & T2 & B2). rewrite Eo in F2. cbn in Eo.
    assert (Hb2 : start_buf_size <= String.length (sc_buf s2)).
    { destruct B2 as [B2|B2]; auto. unfold sc_buf in B2. rewrite !length_app in B2. destruct (sc_tail s2); [congruence|cbn in B2; lia]. }
    destruct (read_spec s2 (sizes i) early Hb2 T2 F2) as [[R E]|(a & b & E & Ha & _ & W & R & EO & LB)].
    + rewrite E. apply IH; auto. unfold measure in *. cbn [sc_rest sc_win sc_eof]. cbn in W2, R2. rewrite W2. rewrite R2 in R. rewrite R in *. rewrite Eo in Hm.
      rewrite !length_app, length_sdrop in *. cbn in *. lia.
    + apply IH.
      * unfold measure in *. cbn in W2, R2. rewrite W, R, W2. rewrite <- R2, E, Eo in Hm. rewrite !length_app, length_sdrop in *.
        assert (0 < String.length a) by (destruct a; [congruence|cbn; lia]). destruct (sc_eof (sc_read s2 (sizes i) early)); lia.
      * right. now rewrite LB.
      * intros X. rewrite R. auto.
Qed.

Lemma max_token_Z : max_token_size = Z.to_nat 65536.
Proof. reflexivity. Qed.
Lemma scan_packets_spec s segs tail sizes early : stream_of s segs tail -> fits segs tail -> (forall i, 16 <= sizes i) ->
  scan_packets s sizes early = match filter is_packet (map snd segs) with [] => Err "EOF" | l => Ok l end.
Proof.
  intros So (F1 & F2 & F3) Hsz. unfold scan_packets.
  assert (MT : forall n, (Z.of_nat n < 65536)%Z -> n < max_token_size) by (intros n; rewrite max_token_Z; lia).
  assert (FS : Forall seg_ok segs) by (eapply Forall_impl; [|exact F1]; intros gp [A B]; split; auto).
  rewrite (scan_spec sizes early Hsz _ _ _ _ segs tail); auto; [cbn [app]; destruct (filter is_packet (map snd segs)); reflexivity| | | |].
  - unfold measure. cbn [sc_rest sc_win sc_eof append]. lia.
  - left. reflexivity.
  - discriminate.
  - inversion So as [s0 H0 E0 E0' E0''|g1 p1 r1 segs1 tail1 P1 So1 E0 E0' E0'']; subst.
    + apply inv_tail; auto.
    + apply (inv_packet _ _ _ g1 g1 p1 r1 segs1); auto; [now inversion FS|right; cbn; lia].
Qed.
