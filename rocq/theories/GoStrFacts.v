(* Facts about the string model of GoStr.v *)
From Coq Require Import List Arith ZArith Bool Ascii String Lia DecimalString DecimalFacts DecimalPos DecimalN DecimalZ.
From Verif Require Import GoStr.
Local Open Scope string_scope.

Lemma eqb_refl s : (s =? s) = true.
Proof. apply String.eqb_refl. Qed.

Lemma eqb_eq s t : (s =? t) = true <-> s = t.
Proof. apply String.eqb_eq. Qed.

Lemma eqb_neq s t : (s =? t) = false <-> s <> t.
Proof. apply String.eqb_neq. Qed.

Lemma emptyb_true s : emptyb s = true <-> s = "".
Proof. destruct s; simpl; split; intros H; congruence. Qed.

Lemma emptyb_false s : emptyb s = false <-> s <> "".
Proof. destruct s; simpl; split; intros H; congruence. Qed.

Lemma app_nil_r s : s ++ "" = s.
Proof. induction s as [|c s IH]; simpl; [reflexivity|now rewrite IH]. Qed.

Lemma app_assoc (a b c : string) : (a ++ b) ++ c = a ++ (b ++ c).
Proof. induction a as [|x a IH]; simpl; [reflexivity|now rewrite IH]. Qed.

Lemma length_app a b : String.length (a ++ b) = String.length a + String.length b.
Proof. induction a as [|x a IH]; simpl; [reflexivity|now rewrite IH]. Qed.

Lemma app_inj_l a b c : a ++ b = a ++ c -> b = c.
Proof. induction a as [|x a IH]; simpl; intros H; [exact H|]. injection H as H. now apply IH. Qed.

Lemma app_inj_r a b c : a ++ c = b ++ c -> a = b.
Proof.
  revert b; induction a as [|x a IH]; intros [|y b] H; simpl in H.
  - reflexivity.
  - exfalso. assert (L : String.length c = String.length (String y (b ++ c))) by congruence.
    simpl in L. rewrite length_app in L. lia.
  - exfalso. assert (L : String.length c = String.length (String x (a ++ c))) by congruence.
    simpl in L. rewrite length_app in L. lia.
  - injection H as -> H. f_equal. now apply IH.
Qed.

Lemma stake_app a b : stake (String.length a) (a ++ b) = a.
Proof. induction a as [|x a IH]; simpl; [now destruct b|now rewrite IH]. Qed.

Lemma sdrop_app a b : sdrop (String.length a) (a ++ b) = b.
Proof. induction a as [|x a IH]; simpl; [now destruct b|exact IH]. Qed.

Lemma stake_sdrop n s : stake n s ++ sdrop n s = s.
Proof.
  revert s; induction n as [|n IH]; intros [|c s]; simpl; try reflexivity.
  now rewrite IH.
Qed.

Lemma stake_all s : stake (String.length s) s = s.
Proof. induction s as [|c s IH]; simpl; [reflexivity|now rewrite IH]. Qed.

Lemma sdrop_0 s : sdrop 0 s = s.
Proof. now destruct s. Qed.

Lemma length_stake n s : String.length (stake n s) = Nat.min n (String.length s).
Proof. revert s; induction n as [|n IH]; intros [|c s]; simpl; auto. Qed.

Lemma length_sdrop n s : String.length (sdrop n s) = String.length s - n.
Proof. revert s; induction n as [|n IH]; intros [|c s]; simpl; auto. Qed.

Lemma prefix_app p s : String.prefix p (p ++ s) = true.
Proof.
  induction p as [|c p IH]; simpl; [now destruct s|].
  destruct (ascii_dec c c); [exact IH|congruence].
Qed.

Lemma prefix_spec p s : String.prefix p s = true <-> exists t, s = p ++ t.
Proof.
  split.
  - revert s; induction p as [|c p IH]; intros s H.
    + exists s. reflexivity.
    + destruct s as [|d s]; simpl in H; [discriminate|].
      destruct (ascii_dec c d) as [->|]; [|discriminate].
      destruct (IH s H) as [t ->]. exists t. reflexivity.
  - intros [t ->]. apply prefix_app.
Qed.

Lemma trim_prefix_app p s : trim_prefix p (p ++ s) = s.
Proof. unfold trim_prefix, has_prefix_str. now rewrite prefix_app, sdrop_app. Qed.

Lemma has_suffix_app p s : has_suffix_str p (s ++ p) = true.
Proof.
  unfold has_suffix_str. rewrite length_app.
  replace (String.length s + String.length p - String.length p) with (String.length s) by lia.
  rewrite sdrop_app, String.eqb_refl, andb_true_r. apply Nat.leb_le. lia.
Qed.

Lemma has_suffix_spec p s : has_suffix_str p s = true <-> exists t, s = t ++ p.
Proof.
  split.
  - unfold has_suffix_str. intros H. apply andb_prop in H as [H1 H2].
    apply String.eqb_eq in H2.
    exists (stake (String.length s - String.length p) s).
    rewrite <- H2 at 2. symmetry. apply stake_sdrop.
  - intros [t ->]. apply has_suffix_app.
Qed.

Lemma trim_suffix_app p s : trim_suffix p (s ++ p) = s.
Proof.
  unfold trim_suffix. rewrite has_suffix_app, length_app.
  replace (String.length s + String.length p - String.length p) with (String.length s) by lia.
  apply stake_app.
Qed.

Lemma trim_suffix_none p s : has_suffix_str p s = false -> trim_suffix p s = s.
Proof. unfold trim_suffix. now intros ->. Qed.

(* ---- characters -------------------------------------------------------------------------- *)

Lemma has_char_app c a b : has_char c (a ++ b) = has_char c a || has_char c b.
Proof. induction a as [|x a IH]; simpl; [reflexivity|]. now rewrite IH, orb_assoc. Qed.

Lemma index_char_none c s : index_char c s = None <-> has_char c s = false.
Proof.
  induction s as [|d s IH]; simpl; [tauto|].
  destruct (Ascii.eqb c d); simpl; [split; discriminate|].
  rewrite <- IH. destruct (index_char c s); simpl; split; congruence.
Qed.

Lemma index_char_app c a b :
  has_char c a = false -> index_char c (a ++ String c b) = Some (String.length a).
Proof.
  induction a as [|x a IH]; simpl; intros H.
  - now rewrite Ascii.eqb_refl.
  - apply orb_false_iff in H as [Hx H]. rewrite Hx, (IH H). reflexivity.
Qed.

Lemma index_char_some c s i :
  index_char c s = Some i ->
  exists a b, s = a ++ String c b /\ has_char c a = false /\ i = String.length a.
Proof.
  revert i; induction s as [|d s IH]; simpl; intros i H; [discriminate|].
  destruct (Ascii.eqb c d) eqn:E.
  - apply Ascii.eqb_eq in E as ->. injection H as <-. exists "", s. auto.
  - destruct (index_char c s) as [j|] eqn:Ej; simpl in H; [|discriminate].
    injection H as <-. destruct (IH j eq_refl) as (a & b & -> & Ha & ->).
    exists (String d a), b. simpl. rewrite E, Ha. auto.
Qed.

Lemma index_single c s : index (String c "") s = index_char c s.
Proof.
  induction s as [|d s IH]; cbn [index index_char String.prefix]; [reflexivity|].
  rewrite IH. destruct (ascii_dec c d) as [->|n].
  - rewrite Ascii.eqb_refl. now destruct s.
  - rewrite (proj2 (Ascii.eqb_neq c d) n). reflexivity.
Qed.

Lemma contains_single c s : contains (String c "") s = has_char c s.
Proof.
  unfold contains. rewrite index_single.
  destruct (index_char c s) eqn:E; symmetry.
  - destruct (has_char c s) eqn:F; [reflexivity|].
    apply index_char_none in F. congruence.
  - now apply index_char_none.
Qed.

Lemma last_index_char_some c s i :
  last_index_char c s = Some i ->
  exists a b, s = a ++ String c b /\ has_char c b = false /\ i = String.length a.
Proof.
  revert i; induction s as [|d s IH]; simpl; intros i H; [discriminate|].
  destruct (last_index_char c s) as [j|] eqn:Ej.
  - injection H as <-. destruct (IH j eq_refl) as (a & b & -> & Hb & ->).
    exists (String d a), b. auto.
  - destruct (Ascii.eqb c d) eqn:E; [|discriminate]. injection H as <-.
    apply Ascii.eqb_eq in E as ->. exists "", s. repeat split.
    clear IH. induction s as [|e s IHs]; simpl in *; [reflexivity|].
    destruct (last_index_char d s); [discriminate|].
    destruct (Ascii.eqb d e); [discriminate|]. simpl. now apply IHs.
Qed.

Lemma last_index_char_none c s : last_index_char c s = None <-> has_char c s = false.
Proof.
  induction s as [|d s IH]; simpl; [tauto|].
  destruct (last_index_char c s) as [j|].
  - split; [discriminate|]. intros H. apply orb_false_iff in H as [_ H].
    apply IH in H. discriminate.
  - destruct (Ascii.eqb c d); simpl; [split; discriminate|]. split; intros _; [|reflexivity].
    now apply IH.
Qed.

Lemma last_index_char_app c a b :
  has_char c b = false -> last_index_char c (a ++ String c b) = Some (String.length a).
Proof.
  intros Hb. induction a as [|x a IH]; simpl.
  - apply last_index_char_none in Hb. rewrite Hb, Ascii.eqb_refl. reflexivity.
  - now rewrite IH.
Qed.

(* ---- split and join ---------------------------------------------------------------------- *)

Lemma split_char_nonempty c s : split_char c s <> [].
Proof.
  destruct s as [|d s]; simpl; [discriminate|].
  destruct (Ascii.eqb c d); [discriminate|]. destruct (split_char c s); discriminate.
Qed.

Lemma split_char_none c s : has_char c s = false -> split_char c s = [s].
Proof.
  induction s as [|d s IH]; simpl; intros H; [reflexivity|].
  apply orb_false_iff in H as [Hd H]. now rewrite Hd, (IH H).
Qed.

Lemma split_char_app c a b :
  has_char c a = false -> split_char c (a ++ String c b) = a :: split_char c b.
Proof.
  induction a as [|x a IH]; simpl; intros H.
  - now rewrite Ascii.eqb_refl.
  - apply orb_false_iff in H as [Hx H]. now rewrite Hx, (IH H).
Qed.

Lemma join_cons sep x y l : join sep (x :: y :: l) = x ++ sep ++ join sep (y :: l).
Proof. reflexivity. Qed.

Lemma join_cons' sep x l : l <> [] -> join sep (x :: l) = x ++ sep ++ join sep l.
Proof. destruct l; [congruence|reflexivity]. Qed.

Lemma split_join c l :
  l <> [] -> Forall (fun x => has_char c x = false) l ->
  split_char c (join (String c "") l) = l.
Proof.
  intros Hne Hall. induction Hall as [|x l Hx Hl IH]; [congruence|].
  destruct l as [|y l].
  - simpl. now apply split_char_none.
  - rewrite join_cons. simpl ("" ++ _). cbn [append].
    rewrite split_char_app by exact Hx. f_equal. apply IH. discriminate.
Qed.

Lemma join_split c s : join (String c "") (split_char c s) = s.
Proof.
  induction s as [|d s IH]; cbn [split_char]; [reflexivity|].
  destruct (Ascii.eqb c d) eqn:E.
  - apply Ascii.eqb_eq in E as ->.
    rewrite join_cons' by apply split_char_nonempty. rewrite IH. reflexivity.
  - destruct (split_char c s) as [|x xs] eqn:F; [now apply split_char_nonempty in F|].
    rewrite <- IH. destruct xs; reflexivity.
Qed.

Lemma split_char_length c s : List.length (split_char c s) = S (count_char c s).
Proof.
  induction s as [|d s IH]; cbn [split_char count_char]; [reflexivity|].
  destruct (Ascii.eqb c d); cbn [List.length]; [now rewrite IH|].
  destruct (split_char c s) as [|x xs]; simpl in *; [discriminate|]. exact IH.
Qed.

Lemma split_char_parts c s : Forall (fun x => has_char c x = false) (split_char c s).
Proof.
  induction s as [|d s IH]; cbn [split_char].
  - constructor; [reflexivity|constructor].
  - destruct (Ascii.eqb c d) eqn:E; [constructor; [reflexivity|exact IH]|].
    destruct (split_char c s) as [|x xs]; inversion IH; subst.
    + constructor; [simpl; now rewrite E|constructor].
    + constructor; [simpl; now rewrite E|assumption].
Qed.

Lemma has_char_join c sep l :
  has_char c sep = false -> Forall (fun x => has_char c x = false) l ->
  has_char c (join sep l) = false.
Proof.
  intros Hs Hl. induction Hl as [|x l Hx Hl IH]; [reflexivity|].
  destruct l as [|y l]; [exact Hx|].
  rewrite join_cons, !has_char_app, Hx, Hs. exact IH.
Qed.

Lemma count_char_0 c s : count_char c s = 0 <-> has_char c s = false.
Proof.
  induction s as [|d s IH]; simpl; [tauto|].
  destruct (Ascii.eqb c d); simpl; [split; discriminate|exact IH].
Qed.

(* ---- trimming ---------------------------------------------------------------------------- *)

Lemma trim_right_nil_iff s : trim_right s = "" <-> (forall c, has_char c s = true -> is_space c = true).
Proof.
  induction s as [|d s IH]; simpl; [split; [discriminate|reflexivity]|].
  split.
  - destruct (trim_right s) eqn:E; [|discriminate].
    destruct (is_space d) eqn:Sd; [|discriminate]. intros _ c H.
    apply orb_prop in H as [H|H]; [apply Ascii.eqb_eq in H; congruence|].
    apply (proj1 IH eq_refl _ H).
  - intros H. rewrite (proj2 IH); [|intros c Hc; apply H; now rewrite Hc, orb_true_r].
    now rewrite (H d (eq_trans (f_equal (fun b => b || has_char d s) (Ascii.eqb_refl d)) eq_refl)).
Qed.

Lemma trim_right_idem s : trim_right (trim_right s) = trim_right s.
Proof.
  induction s as [|d s IH]; simpl; [reflexivity|].
  destruct (trim_right s) as [|e t] eqn:E.
  - destruct (is_space d) eqn:Sd; simpl; [reflexivity|]. now rewrite Sd.
  - cbn [trim_right] in *. rewrite IH. reflexivity.
Qed.

Lemma trim_left_head s : match trim_left s with "" => True | String c _ => is_space c = false end.
Proof.
  induction s as [|d s IH]; simpl; [exact I|].
  destruct (is_space d) eqn:E; [exact IH|exact E].
Qed.

Lemma trim_left_fix s :
  match s with "" => True | String c _ => is_space c = false end -> trim_left s = s.
Proof. destruct s as [|c s]; simpl; intros H; [reflexivity|]. now rewrite H. Qed.

Lemma trim_right_head s :
  match s with "" => True | String c _ => is_space c = false end ->
  match trim_right s with "" => True | String c _ => is_space c = false end.
Proof.
  destruct s as [|c s]; simpl; [trivial|]. intros H.
  destruct (trim_right s); [now rewrite H|exact H].
Qed.

Lemma trim_space_idem s : trim_space (trim_space s) = trim_space s.
Proof.
  unfold trim_space. rewrite (trim_left_fix (trim_right (trim_left s))).
  - apply trim_right_idem.
  - apply trim_right_head, trim_left_head.
Qed.

(* ---- numbers ----------------------------------------------------------------------------- *)

Lemma digits_acc_uint d acc :
  digits_acc (Npos acc) (NilEmpty.string_of_uint d) = Some (Npos (Pos.of_uint_acc d acc)).
Proof.
  revert acc; induction d as [|d IH|d IH|d IH|d IH|d IH|d IH|d IH|d IH|d IH|d IH]; intros acc;
    cbn [NilEmpty.string_of_uint digits_acc Pos.of_uint_acc]; [reflexivity|..].
  all: match goal with |- context [digit_val ?c] =>
         let v := eval vm_compute in (digit_val c) in change (digit_val c) with v end; cbv iota beta.
  all: match goal with |- digits_acc ?e _ = Some (Npos (Pos.of_uint_acc _ ?e')) =>
         replace e with (Npos e') by lia; apply IH end.
Qed.

Lemma digits_acc_uint0 d :
  digits_acc 0%N (NilEmpty.string_of_uint d) = Some (N.of_uint d).
Proof.
  induction d as [|d IH|d IH|d IH|d IH|d IH|d IH|d IH|d IH|d IH|d IH];
    cbn [NilEmpty.string_of_uint digits_acc]; [reflexivity|..];
  match goal with |- context [digit_val ?c] =>
         let v := eval vm_compute in (digit_val c) in change (digit_val c) with v end; cbv iota beta.
  1: exact IH.
  all: match goal with |- digits_acc ?e _ = _ =>
         let v := eval vm_compute in e in change e with v end; rewrite digits_acc_uint; reflexivity.
Qed.

Lemma string_of_uint_nilzero d :
  NilZero.string_of_uint d = match d with Decimal.Nil => "0" | _ => NilEmpty.string_of_uint d end.
Proof. now destruct d. Qed.

Lemma parse_digits_uint d : parse_digits (NilZero.string_of_uint d) = Some (N.of_uint d).
Proof.
  rewrite string_of_uint_nilzero.
  destruct d; try reflexivity;
    cbn [NilEmpty.string_of_uint parse_digits];
    match goal with |- digits_acc 0%N (String ?c (NilEmpty.string_of_uint ?u)) = _ =>
      match goal with |- _ = Some (N.of_uint ?d) =>
        change (String c (NilEmpty.string_of_uint u)) with (NilEmpty.string_of_uint d); apply digits_acc_uint0
      end end.
Qed.

Definition is_digit (c : ascii) : bool := match digit_val c with Some _ => true | None => false end.

Fixpoint all_digits (s : string) : bool :=
  match s with "" => true | String c s' => is_digit c && all_digits s' end.

Lemma all_digits_uint d : all_digits (NilEmpty.string_of_uint d) = true.
Proof. induction d; cbn [NilEmpty.string_of_uint all_digits]; [reflexivity|..]; rewrite IHd; reflexivity. Qed.

Lemma all_digits_uintz d : all_digits (NilZero.string_of_uint d) = true.
Proof. rewrite string_of_uint_nilzero. destruct d; try reflexivity; apply all_digits_uint. Qed.

Lemma uintz_nonempty d : NilZero.string_of_uint d <> "".
Proof. rewrite string_of_uint_nilzero. destruct d; discriminate. Qed.

Lemma all_digits_no_char c s : all_digits s = true -> is_digit c = false -> has_char c s = false.
Proof.
  induction s as [|d s IH]; simpl; intros H Hc; [reflexivity|].
  apply andb_prop in H as [Hd H]. rewrite (IH H Hc), orb_false_r.
  apply Ascii.eqb_neq. intros ->. congruence.
Qed.

Lemma N_of_to_uint n : N.of_uint (N.to_uint n) = n.
Proof. apply DecimalN.Unsigned.of_to. Qed.

(* decimal text of a natural number *)
Definition utoa (n : N) : string := NilZero.string_of_uint (N.to_uint n).

Lemma parse_digits_utoa n : parse_digits (utoa n) = Some n.
Proof. unfold utoa. now rewrite parse_digits_uint, N_of_to_uint. Qed.

Lemma utoa_digits n : all_digits (utoa n) = true.
Proof. apply all_digits_uintz. Qed.

Lemma utoa_nonempty n : utoa n <> "".
Proof. apply uintz_nonempty. Qed.

Lemma itoa_utoa z :
  itoa z = if (z <? 0)%Z then String "-" (utoa (Z.to_N (- z))) else utoa (Z.to_N z).
Proof.
  unfold itoa, utoa. destruct z as [|p|p]; reflexivity.
Qed.

Lemma itoa_no_char c z : is_digit c = false -> Ascii.eqb c "-" = false -> has_char c (itoa z) = false.
Proof.
  intros Hd Hm. rewrite itoa_utoa. destruct (z <? 0)%Z; cbn [has_char]; [rewrite Hm|];
    apply all_digits_no_char; auto using utoa_digits.
Qed.

Lemma itoa_nonempty z : itoa z <> "".
Proof. rewrite itoa_utoa. destruct (z <? 0)%Z; [discriminate|apply utoa_nonempty]. Qed.

Lemma parse_int_digits bits s :
  match s with String c _ => is_digit c = true | "" => False end ->
  parse_int bits s = match parse_digits s with Some n => int_chk bits (Z.of_N n) | None => None end.
Proof.
  intros H. unfold parse_int. destruct s as [|c s]; [contradiction|].
  destruct (Ascii.eqb_spec c "-") as [->|n1]; [discriminate H|].
  destruct (Ascii.eqb_spec c "+") as [->|n2]; [discriminate H|].
  destruct c as [[] [] [] [] [] [] [] []]; try reflexivity; try congruence.
Qed.

Lemma utoa_head n : match utoa n with String c _ => is_digit c = true | "" => False end.
Proof.
  pose proof (utoa_digits n) as H. pose proof (utoa_nonempty n) as H'.
  destruct (utoa n) as [|c s]; [now apply H'|]. simpl in H. apply andb_prop in H. tauto.
Qed.

Lemma int_chk_some bits z y : int_chk bits z = Some y -> y = z /\ int_ok bits z.
Proof.
  unfold int_chk, int_ok. destruct (Z.leb_spec (- 2 ^ (bits - 1)) z);
    destruct (Z.ltb_spec z (2 ^ (bits - 1))); simpl; intros E; try discriminate. injection E as <-. lia.
Qed.

Lemma int_chk_ok bits z : int_ok bits z -> int_chk bits z = Some z.
Proof.
  unfold int_chk, int_ok. intros H. destruct (Z.leb_spec (- 2 ^ (bits - 1)) z); [|lia].
  destruct (Z.ltb_spec z (2 ^ (bits - 1))); [|lia]. reflexivity.
Qed.

Lemma parse_int_itoa bits z : int_ok bits z -> parse_int bits (itoa z) = Some z.
Proof.
  intros H. rewrite itoa_utoa. destruct (Z.ltb_spec z 0) as [L|L].
  - unfold parse_int. rewrite parse_digits_utoa.
    replace (- Z.of_N (Z.to_N (- z)))%Z with z by lia. now apply int_chk_ok.
  - rewrite parse_int_digits by apply utoa_head. rewrite parse_digits_utoa.
    replace (Z.of_N (Z.to_N z)) with z by lia. now apply int_chk_ok.
Qed.

Lemma parse_int_range bits s z : parse_int bits s = Some z -> int_ok bits z.
Proof.
  assert (C : forall y, int_chk bits y = Some z -> int_ok bits z).
  { intros y E. apply int_chk_some in E as [-> E]. exact E. }
  assert (D : forall t f, match parse_digits t with Some n => int_chk bits (f n) | None => None end = Some z -> int_ok bits z).
  { intros t f. destruct (parse_digits t); [apply C|discriminate]. }
  unfold parse_int. intros H. destruct s as [|c s]; [discriminate|].
  destruct c as [[] [] [] [] [] [] [] []]; try discriminate; solve [apply (D _ _ H)].
Qed.

Lemma atoi_itoa z : int64 z -> atoi (itoa z) = Some z.
Proof. apply parse_int_itoa. Qed.

Lemma parse_uint_utoa bits n : (Z.of_N n < 2 ^ bits)%Z -> parse_uint bits (utoa n) = Some (Z.of_N n).
Proof.
  intros H. unfold parse_uint. rewrite parse_digits_utoa.
  destruct (Z.ltb_spec (Z.of_N n) (2 ^ bits)); [reflexivity|lia].
Qed.

Lemma parse_bool_format b : parse_bool (format_bool b) = Some b.
Proof. destruct b; reflexivity. Qed.

Lemma is_space_digit c : is_digit c = true -> is_space c = false.
Proof. destruct c as [[] [] [] [] [] [] [] []]; vm_compute; congruence. Qed.

Lemma is_space_spec c : is_space c = true -> is_digit c = false /\ Ascii.eqb c "-" = false.
Proof. destruct c as [[] [] [] [] [] [] [] []]; vm_compute; try congruence; auto. Qed.
