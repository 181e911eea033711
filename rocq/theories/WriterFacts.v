From Coq Require Import List Arith ZArith Bool Ascii String Lia.
From Verif Require Import GoStr GoStrFacts WriterM.
Import ListNotations.
Local Open Scope string_scope.

Definition cat (l : list string) : string := fold_right append "" l.

(* ---- any writer that keeps the contract of io.Writer ---- *)
Section Any.
Context {W : Type} (uwrite : W -> string -> W * nat * option string) (cut : string -> list string).
Hypothesis contract : forall w b w' n e, uwrite w b = (w', n, e) -> n <= String.length b /\ (n < String.length b -> e <> None).
Hypothesis cuts : forall b, cat (cut b) = b.

Lemma cat_length l : String.length (cat l) = fold_right (fun c s => String.length c + s) 0 l.
Proof. induction l as [|c l IH]; cbn; auto. now rewrite length_app, <- IH. Qed.
Lemma copy_all_bound chunks : forall w w' n e, copy_all uwrite w chunks = (w', n, e) -> n <= String.length (cat chunks) /\ (e = None -> n = String.length (cat chunks)).
Proof.
  induction chunks as [|c r IH]; intros w w' n e; cbn [copy_all].
  - intros H; inversion H; subst. split; [lia|reflexivity].
  - destruct (uwrite w c) as [[w1 n1] e1] eqn:E1. destruct (contract _ _ _ _ _ E1) as [L1 _]. cbn [cat fold_right]. fold (cat r). rewrite length_app. destruct e1 as [x|].
    + intros H; inversion H; subst. split; [lia|discriminate].
    + destruct (Nat.eqb_spec n1 (String.length c)) as [->|Hne].
      * destruct (copy_all uwrite w1 r) as [[w2 m] e2] eqn:E2. intros H; inversion H; subst. destruct (IH _ _ _ _ E2) as [A B]. split; [lia|]. intros ->. rewrite B; auto.
      * intros H; inversion H; subst. split; [lia|discriminate].
Qed.
Lemma copy_n_bound w b k w' n e : k <= String.length b -> copy_n uwrite cut w b k = (w', n, e) -> n <= k /\ (e = None <-> n = k).
Proof.
  intros Hk. unfold copy_n. destruct (copy_all uwrite w (cut (stake k b))) as [[w1 n1] e1] eqn:E. intros H; inversion H; subst; clear H.
  destruct (copy_all_bound _ _ _ _ _ E) as [A B]. rewrite cuts, length_stake in A, B. split; [lia|]. destruct (Nat.eqb_spec n k); [tauto|]. split; [|tauto]. intros ->. rewrite B in n0; auto. lia.
Qed.
Lemma cw_write_bound c b c' n e : (0 < cw_limit c)%Z -> (0 <= cw_n c <= cw_limit c)%Z -> cw_write uwrite cut c b = (c', n, e) ->
  cw_limit c' = cw_limit c /\ cw_n c' = (cw_n c + Z.of_nat n)%Z /\ (cw_n c' <= cw_limit c)%Z /\ n <= String.length b /\
  (n < String.length b -> e <> None) /\ (e = None -> n = String.length b).
Proof.
  intros Hl Hn. unfold cw_write. destruct (Z.ltb_spec 0 (cw_limit c)); [|lia]. destruct (Z.leb_spec (cw_limit c) (cw_n c)).
  - intros X; inversion X; subst. repeat split; try lia; discriminate.
  - set (k := Z.to_nat (Z.min (cw_limit c - cw_n c) (Z.of_nat (String.length b)))). assert (Lk : k <= String.length b /\ (Z.of_nat k <= cw_limit c - cw_n c)%Z) by (unfold k; lia).
    destruct (copy_n uwrite cut (cw_w c) b k) as [[w' copied] e'] eqn:E. destruct (copy_n_bound _ _ _ _ _ _ (proj1 Lk) E) as [A B].
    destruct e' as [x|]; intros X; inversion X; subst; clear X; cbn [cw_n cw_limit].
    + repeat split; try lia; discriminate.
    + destruct (Nat.ltb_spec n (String.length b)); repeat split; try lia; try discriminate.
Qed.
Lemma cw_writes_bound bs : forall c c' l, (0 < cw_limit c)%Z -> (0 <= cw_n c <= cw_limit c)%Z -> cw_writes uwrite cut c bs = (c', l) ->
  cw_limit c' = cw_limit c /\ (cw_n c' <= cw_limit c)%Z /\ cw_n c' = (cw_n c + Z.of_nat (fold_right (fun r s => (fst r + s)%nat) 0%nat l))%Z /\ List.length l = List.length bs.
Proof.
  induction bs as [|b bs IH]; intros c c' l Hl Hn; cbn [cw_writes]; [intros X; inversion X; subst; cbn; repeat split; lia|].
  destruct (cw_write uwrite cut c b) as [[c1 n1] e1] eqn:E1. destruct (cw_writes uwrite cut c1 bs) as [c2 l2] eqn:E2. intros X; inversion X; subst; clear X.
  destruct (cw_write_bound _ _ _ _ _ Hl Hn E1) as (A1 & A2 & A3 & _). destruct (IH c1 c' l2) as (B1 & B2 & B3 & B4); auto; try lia.
  cbn [fold_right fst List.length]. rewrite B1, A1. repeat split; try lia.
Qed.
End Any.

(* ---- a writer that takes everything ---- *)
Section Buffer.
Context (cut : string -> list string).
Hypothesis cuts : forall b, cat (cut b) = b.
Let bw := @cw_write string buffer_write cut.

Lemma copy_all_buffer chunks : forall w, copy_all buffer_write w chunks = (w ++ cat chunks, String.length (cat chunks), None).
Proof.
  induction chunks as [|c r IH]; intros w; cbn [copy_all]; [cbn; now rewrite app_nil_r|].
  cbn [buffer_write]. rewrite Nat.eqb_refl, IH. cbn [cat fold_right]. fold (cat r). now rewrite app_assoc, length_app.
Qed.
Lemma stake_app_le n a b : n <= String.length a -> stake n (a ++ b) = stake n a.
Proof. revert a. induction n as [|n IH]; intros [|c a] L; cbn in *; auto; try lia. f_equal. apply IH. lia. Qed.
Lemma stake_app_gt n a b : stake (String.length a + n) (a ++ b) = a ++ stake n b.
Proof. induction a as [|c a IH]; cbn; auto. now rewrite IH. Qed.
Lemma stake_ge n a : String.length a <= n -> stake n a = a.
Proof. revert n. induction a as [|c a IH]; intros [|n] L; cbn in *; auto; try lia. f_equal. apply IH. lia. Qed.

Definition good (c : @count_writer string) : Prop := (0 < cw_limit c)%Z /\ cw_n c = Z.of_nat (String.length (cw_w c)) /\ (cw_n c <= cw_limit c)%Z.
Lemma bw_spec c b : good c ->
  let out := stake (Z.to_nat (cw_limit c)) (cw_w c ++ b) in
  bw c b = (CountWriter (Z.of_nat (String.length out)) (cw_limit c) out, String.length out - String.length (cw_w c),
            if (cw_limit c <=? cw_n c)%Z || (cw_limit c <? cw_n c + Z.of_nat (String.length b))%Z then Some err_overflow else None).
Proof.
  intros (Hl & Hn & Hle). destruct c as [n lim w]. cbn [cw_n cw_limit cw_w] in *. cbv zeta. unfold bw, cw_write. cbn [cw_n cw_limit cw_w].
  destruct (Z.ltb_spec 0 lim); [|lia]. destruct (Z.leb_spec lim n); cbn [orb].
  - assert (E : stake (Z.to_nat lim) (w ++ b) = w) by (rewrite stake_app_le by lia; apply stake_ge; lia). rewrite E. rewrite Nat.sub_diag. repeat f_equal. lia.
  - unfold copy_n. rewrite copy_all_buffer, cuts. set (k := Z.to_nat (Z.min (lim - n) (Z.of_nat (String.length b)))).
    assert (E : stake (Z.to_nat lim) (w ++ b) = w ++ stake k b).
    { replace (Z.to_nat lim) with (String.length w + (Z.to_nat lim - String.length w)) by lia. rewrite stake_app_gt. f_equal.
      destruct (Z.le_gt_cases (Z.of_nat (String.length b)) (lim - n)).
      - rewrite (stake_ge k), stake_ge by lia. reflexivity.
      - f_equal. lia. }
    rewrite E. rewrite length_app, length_stake. replace (Nat.min k (String.length b)) with k by lia. rewrite Nat.eqb_refl.
    replace (String.length w + k - String.length w) with k by lia.
    repeat f_equal; [lia|]. destruct (Nat.ltb_spec k (String.length b)); destruct (Z.ltb_spec lim (n + Z.of_nat (String.length b))); auto; lia.
Qed.
Lemma bw_good c b c' n e : good c -> bw c b = (c', n, e) -> good c' /\ cw_limit c' = cw_limit c.
Proof.
  intros G. rewrite bw_spec by auto. intros X; inversion X; subst; clear X. destruct G as (Hl & Hn & Hle). repeat split; cbn; auto. rewrite length_stake. lia.
Qed.
Lemma stake_stake_app n a b : stake n (stake n a ++ b) = if Nat.leb n (String.length a) then stake n a else stake n (a ++ b).
Proof.
  destruct (Nat.leb_spec n (String.length a)).
  - rewrite stake_app_le; [apply stake_ge; rewrite length_stake; lia|rewrite length_stake; lia].
  - now rewrite (stake_ge n a) by lia.
Qed.
Lemma bw_writes bs : forall c, good c ->
  let out := stake (Z.to_nat (cw_limit c)) (cw_w c ++ cat bs) in
  fst (cw_writes buffer_write cut c bs) = CountWriter (Z.of_nat (String.length out)) (cw_limit c) out.
Proof.
  induction bs as [|b bs IH]; intros c G; cbv zeta; cbn [cw_writes cat fold_right].
  - destruct G as (Hl & Hn & Hle). rewrite app_nil_r, stake_ge by lia. destruct c; cbn in *. now subst.
  - fold (cat bs). destruct (cw_write buffer_write cut c b) as [[c1 n1] e1] eqn:E1. destruct (bw_good _ _ _ _ _ G E1) as [G1 L1].
    specialize (IH c1 G1). destruct (cw_writes buffer_write cut c1 bs) as [c2 l2]. cbn [fst] in *. rewrite IH, L1. clear IH.
    change (bw c b = (c1, n1, e1)) in E1. rewrite bw_spec in E1 by auto. inversion E1; subst c1. cbn [cw_w].
    assert (E : stake (Z.to_nat (cw_limit c)) (stake (Z.to_nat (cw_limit c)) (cw_w c ++ b) ++ cat bs) = stake (Z.to_nat (cw_limit c)) (cw_w c ++ b ++ cat bs)).
    { rewrite stake_stake_app. rewrite <- app_assoc. destruct (Nat.leb_spec (Z.to_nat (cw_limit c)) (String.length (cw_w c ++ b))); auto. now rewrite (stake_app_le _ (cw_w c ++ b)). }
    now rewrite E.
Qed.
(* until the first error *)
Lemma bw_until bs : forall c, good c -> Forall (fun b => b <> "") bs ->
  let out := stake (Z.to_nat (cw_limit c)) (cw_w c ++ cat bs) in
  write_until buffer_write cut c bs =
    (CountWriter (Z.of_nat (String.length out)) (cw_limit c) out,
     if (cw_limit c <? cw_n c + Z.of_nat (String.length (cat bs)))%Z then Some err_overflow else None).
Proof.
  induction bs as [|b bs IH]; intros c G Hne; cbv zeta; cbn [write_until cat fold_right].
  - destruct G as (Hl & Hn & Hle). rewrite app_nil_r, stake_ge by lia. cbn [String.length]. destruct (Z.ltb_spec (cw_limit c) (cw_n c + Z.of_nat 0)); [lia|].
    destruct c; cbn in *. now subst.
  - fold (cat bs). inversion Hne as [|? ? Hb Hne']; subst. assert (Lb : 0 < String.length b) by (destruct b; [congruence|cbn; lia]).
    destruct (cw_write buffer_write cut c b) as [[c1 n1] e1] eqn:E1. destruct (bw_good _ _ _ _ _ G E1) as [G1 L1].
    change (bw c b = (c1, n1, e1)) in E1. rewrite bw_spec in E1 by auto. inversion E1; subst c1 e1 n1; clear E1. rewrite length_app. pose proof G as (Hl & Hn & Hle).
    destruct ((cw_limit c <=? cw_n c)%Z || (cw_limit c <? cw_n c + Z.of_nat (String.length b))%Z) eqn:Eo.
    + assert (Lo : (cw_limit c < cw_n c + Z.of_nat (String.length b))%Z) by (apply orb_prop in Eo as [Eo|Eo]; [apply Z.leb_le in Eo|apply Z.ltb_lt in Eo]; lia).
      destruct (Z.ltb_spec (cw_limit c) (cw_n c + Z.of_nat (String.length b + String.length (cat bs)))); [|lia].
      rewrite <- (app_assoc (cw_w c)). rewrite (stake_app_le _ (cw_w c ++ b)) by (rewrite length_app; lia). reflexivity.
    + apply orb_false_iff in Eo as [_ Eo]. apply Z.ltb_ge in Eo.
      assert (Es : stake (Z.to_nat (cw_limit c)) (cw_w c ++ b) = cw_w c ++ b) by (apply stake_ge; rewrite length_app; lia). rewrite Es in *.
      rewrite (IH _ G1 Hne'). cbn [cw_limit cw_n cw_w]. rewrite app_assoc, length_app. f_equal.
      replace (Z.of_nat (String.length (cw_w c) + String.length b) + Z.of_nat (String.length (cat bs)))%Z with (cw_n c + Z.of_nat (String.length b + String.length (cat bs)))%Z by lia. reflexivity.
Qed.

Lemma padding_cat k : forall i, String.length (cat (padding i k)) = k /\ (forall ch, has_char ch (cat (padding i k)) = true -> ch = " "%char \/ ch = "010"%char) /\ Forall (fun b => b <> "") (padding i k).
Proof.
  induction k as [|k IH]; intros i; cbn [padding cat fold_right]; [repeat split; try discriminate; constructor|]. fold (cat (padding (i + 1) k)). destruct (IH (i + 1)%Z) as (A & B & C).
  destruct (i mod 80 =? 0)%Z; cbn; (split; [now rewrite A|]); (split; [|constructor; [discriminate|auto]]); intros ch H; apply orb_prop in H as [H|H]; auto; apply Ascii.eqb_eq in H; auto.
Qed.

Lemma footer_length : String.length packet_footer = 20. Proof. reflexivity. Qed.

Definition pads (b : bool) (k : Z) : string := if b then cat (padding 0 (Z.to_nat k)) else "".

(* packets with limit *)
Lemma encode_limit padded xml limit : (0 < limit)%Z -> Forall (fun b => b <> "") xml ->
  let content := packet_header ++ cat xml in
  let '(c, e) := encode_output buffer_write cut true padded xml (CountWriter 0 limit "") in
  if (Z.of_nat (String.length content) + 20 <=? limit)%Z
  then e = None /\ cw_w c = content ++ pads padded (limit - Z.of_nat (String.length content) - 20) ++ packet_footer
  else e = Some err_overflow /\ (Z.of_nat (String.length (cw_w c)) <= limit)%Z.
Proof.
  intros Hl Hx. cbv zeta. unfold encode_output.
  assert (G0 : good (CountWriter 0 limit "")) by (repeat split; cbn; lia).
  rewrite (bw_until [packet_header] _ G0) by (repeat constructor; discriminate). cbn [cw_limit cw_n cw_w append cat fold_right]. rewrite app_nil_r.
  set (H := packet_header) in *. set (LH := String.length H) in *. rewrite length_app. fold LH.
  destruct (Z.ltb_spec limit (0 + Z.of_nat LH)).
  { destruct (Z.leb_spec (Z.of_nat (LH + String.length (cat xml)) + 20) limit); [lia|]. cbn [cw_w]. rewrite length_stake. split; auto. lia. }
  rewrite (stake_ge _ H) by (fold LH; lia). fold LH.
  assert (G1 : good (CountWriter (Z.of_nat LH) limit H)) by (repeat split; cbn [cw_limit cw_n cw_w]; lia).
  rewrite (bw_until xml _ G1 Hx). cbn [cw_limit cw_n cw_w].
  destruct (Z.ltb_spec limit (Z.of_nat LH + Z.of_nat (String.length (cat xml)))).
  { destruct (Z.leb_spec (Z.of_nat (LH + String.length (cat xml)) + 20) limit); [lia|]. cbn [cw_w]. rewrite length_stake. split; auto. lia. }
  rewrite (stake_ge _ (H ++ cat xml)) by (rewrite length_app; fold LH; lia). rewrite length_app. fold LH.
  set (C := H ++ cat xml) in *. set (LC := LH + String.length (cat xml)) in *. assert (ELC : String.length C = LC) by (unfold C; rewrite length_app; reflexivity).
  assert (G2 : good (CountWriter (Z.of_nat LC) limit C)) by (repeat split; cbn [cw_limit cw_n cw_w]; lia).
  assert (F : forall p, (Z.of_nat LC + Z.of_nat (String.length p) <= limit)%Z -> 
    write_until buffer_write cut (CountWriter (Z.of_nat (LC + String.length p)) limit (C ++ p)) [packet_footer] =
      (CountWriter (Z.of_nat (String.length (stake (Z.to_nat limit) ((C ++ p) ++ packet_footer)))) limit (stake (Z.to_nat limit) ((C ++ p) ++ packet_footer)),
       if (limit <? Z.of_nat (LC + String.length p) + 20)%Z then Some err_overflow else None)).
  { intros p Lp. assert (G3 : good (CountWriter (Z.of_nat (LC + String.length p)) limit (C ++ p))).
    { repeat split; cbn [cw_limit cw_n cw_w]; try lia. rewrite length_app. lia. }
    rewrite (bw_until [packet_footer] _ G3) by (repeat constructor; discriminate). cbn [cw_limit cw_n cw_w cat fold_right]. now rewrite app_nil_r, footer_length. }
  destruct padded; cbn [andb pads].
  - destruct (Z.ltb_spec 0 limit); [|lia]. set (k := Z.to_nat (limit - Z.of_nat LC - 20)). destruct (padding_cat k 0) as (P1 & P2 & P3).
    rewrite (bw_until (padding 0 k) _ G2 P3). cbn [cw_limit cw_n cw_w]. rewrite P1.
    destruct (Z.ltb_spec limit (Z.of_nat LC + Z.of_nat k)); [exfalso; unfold k in *; lia|].
    rewrite (stake_ge _ (C ++ _)) by (rewrite length_app, P1; lia). rewrite length_app, ELC, P1. set (P := cat (padding 0 k)) in *. rewrite <- P1.
    rewrite (F P) by lia. rewrite P1. destruct (Z.leb_spec (Z.of_nat LC + 20) limit); cbn [cw_w].
    + destruct (Z.ltb_spec limit (Z.of_nat (LC + k) + 20)); [exfalso; unfold k in *; lia|]. split; auto.
      rewrite stake_ge by (rewrite !length_app, footer_length; unfold k in *; lia). now rewrite app_assoc.
    + destruct (Z.ltb_spec limit (Z.of_nat (LC + k) + 20)); [|exfalso; unfold k in *; lia]. split; auto. rewrite length_stake. lia.
  - specialize (F ""). rewrite app_nil_r in F. cbn [String.length] in F. rewrite Nat.add_0_r in F. rewrite F by lia.
    destruct (Z.leb_spec (Z.of_nat LC + 20) limit); cbn [cw_w append].
    + destruct (Z.ltb_spec limit (Z.of_nat LC + 20)); [lia|]. split; auto. rewrite stake_ge by (rewrite length_app, footer_length; lia). reflexivity.
    + destruct (Z.ltb_spec limit (Z.of_nat LC + 20)); [|lia]. split; auto. rewrite length_stake. lia.
Qed.
(* without limit everything is written *)
Lemma until_unlimited bs : forall c, (cw_limit c <= 0)%Z -> write_until buffer_write cut c bs = (CountWriter (cw_n c + Z.of_nat (String.length (cat bs))) (cw_limit c) (cw_w c ++ cat bs), None).
Proof.
  induction bs as [|b bs IH]; intros c Hl; cbn [write_until cat fold_right].
  - rewrite app_nil_r. cbn [String.length]. rewrite Z.add_0_r. now destruct c.
  - fold (cat bs). unfold cw_write. destruct (Z.ltb_spec 0 (cw_limit c)); [lia|]. cbn [buffer_write]. rewrite IH by auto. cbn [cw_limit cw_n cw_w].
    rewrite app_assoc, length_app. f_equal. f_equal. lia.
Qed.
Lemma encode_unlimited xpacket padded xml limit : (limit <= 0)%Z ->
  let '(c, e) := encode_output buffer_write cut xpacket padded xml (CountWriter 0 limit "") in
  e = None /\ cw_w c = (if xpacket then packet_header ++ cat xml ++ packet_footer else cat xml) /\ cw_n c = Z.of_nat (String.length (cw_w c)).
Proof.
  intros Hl. unfold encode_output. destruct xpacket.
  - rewrite until_unlimited by auto. rewrite until_unlimited by auto. cbn [cw_limit cw_n cw_w]. destruct (Z.ltb_spec 0 limit); [lia|]. rewrite andb_false_r.
    rewrite until_unlimited by auto. cbn [cw_limit cw_n cw_w cat fold_right append]. rewrite !app_nil_r. rewrite !app_assoc. repeat split; auto. rewrite !length_app. lia.
  - rewrite until_unlimited by auto. cbn [cw_limit cw_n cw_w append]. repeat split; auto.
Qed.
End Buffer.
