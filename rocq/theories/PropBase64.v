(* C135: values as texts *)
From Coq Require Import List Arith ZArith NArith Bool Ascii String Lia Zify.
From Verif Require Import GoStr Spec CodecM Base64M SpecBase64 GoStrFacts.
Import ListNotations.
Local Open Scope string_scope.
Local Open Scope Z_scope.
Ltac Zify.zify_post_hook ::= Z.to_euclidean_division_equations.

(* ---- digits ---- *)
Lemma below_64 (P : Z -> bool) : forallb P (map Z.of_nat (seq 0 64)) = true -> forall v, 0 <= v < 64 -> P v = true.
Proof. intros H v V. apply (proj1 (forallb_forall _ _) H). rewrite <- (Z2Nat.id v) by lia. apply in_map, in_seq. lia. Qed.
Lemma digit_good v : 0 <= v < 64 -> base64_digit (digit64 v) v.
Proof.
  intros V. split; [lia|]. pose proof (below_64 (fun v => match String.get (Z.to_nat v) base64_alphabet with Some c => Ascii.eqb c (digit64 v) | None => false end) ltac:(vm_compute; reflexivity) v V) as H.
  cbv beta in H. destruct (String.get _ _); [|discriminate]. apply Ascii.eqb_eq in H. now subst.
Qed.
Lemma get_some n s c : String.get n s = Some c -> (n < String.length s)%nat.
Proof. revert n. induction s as [|x s IH]; intros [|n]; cbn; try discriminate; [lia|]. intros H. apply IH in H. lia. Qed.
Lemma digit_range c v : base64_digit c v -> 0 <= v < 64.
Proof. intros [V H]. apply get_some in H. change (String.length base64_alphabet) with 64%nat in H. lia. Qed.
Lemma digit_known c v : base64_digit c v -> undigit64 c = Some v.
Proof.
  intros D. pose proof (digit_range c v D) as V. destruct D as [_ G].
  pose proof (below_64 (fun v => match String.get (Z.to_nat v) base64_alphabet with Some c => match undigit64 c with Some w => w =? v | None => false end | None => false end) ltac:(vm_compute; reflexivity) v V) as H.
  cbv beta in H. rewrite G in H. destruct (undigit64 c); [|discriminate]. apply Z.eqb_eq in H. now subst.
Qed.
Lemma digit_no_break c v : base64_digit c v -> line_break c = false.
Proof. intros D. apply digit_known in D. destruct c as [[] [] [] [] [] [] [] []]; try reflexivity; discriminate D. Qed.
Lemma byte_range c : 0 <= byte_val c < 256.
Proof. unfold byte_val. pose proof (N_ascii_bounded c). lia. Qed.
Lemma byte_back c z : z = byte_val c -> byte_of z = c.
Proof. intros ->. unfold byte_of, byte_val. rewrite N2Z.id. apply ascii_N_embedding. Qed.
Lemma value_range c x : byte_value c x -> x = byte_val c /\ 0 <= x < 256.
Proof. intros ->. split; [reflexivity|apply byte_range]. Qed.

(* ---- writing and reading ---- *)
Lemma text_no_break d t : base64 d t -> filter (fun c => negb (line_break c)) (list_ascii_of_string t) = list_ascii_of_string t.
Proof.
  induction 1; cbn [list_ascii_of_string filter]; try reflexivity;
    repeat match goal with D : base64_digit _ _ |- _ => apply digit_no_break in D; rewrite D; clear D end; cbn [negb filter]; try reflexivity.
  now rewrite IHbase64.
Qed.
Lemma read_back d t : base64 d t -> decode64_from (list_ascii_of_string t) = Some (list_ascii_of_string d).
Proof.
  induction 1 as [|a x d0 d1 v0 v1 Hx D0 D1 E|a b x y d0 d1 d2 v0 v1 v2 Hx Hy D0 D1 D2 E|a b c x y z d0 d1 d2 d3 v0 v1 v2 v3 d t Hx Hy Hz D0 D1 D2 D3 E B IH]; cbn [list_ascii_of_string decode64_from]; [reflexivity|..].
  - pose proof (digit_range _ _ D0). pose proof (digit_range _ _ D1). apply value_range in Hx as [Ex Rx].
    rewrite (digit_known _ _ D0), (digit_known _ _ D1). change (undigit64 "=") with (@None Z). cbv iota. change (Ascii.eqb "=" "=" && Ascii.eqb "=" "=" && true) with true. cbv iota.
    do 2 f_equal. apply byte_back. rewrite <- Ex. lia.
  - pose proof (digit_range _ _ D0). pose proof (digit_range _ _ D1). pose proof (digit_range _ _ D2). apply value_range in Hx as [Ex Rx]. apply value_range in Hy as [Ey Ry].
    rewrite (digit_known _ _ D0), (digit_known _ _ D1), (digit_known _ _ D2). change (undigit64 "=") with (@None Z). cbv iota. change (Ascii.eqb "=" "=" && true) with true. cbv iota zeta.
    f_equal. f_equal; [apply byte_back; rewrite <- Ex; lia|]. f_equal. apply byte_back. rewrite <- Ey. lia.
  - pose proof (digit_range _ _ D0). pose proof (digit_range _ _ D1). pose proof (digit_range _ _ D2). pose proof (digit_range _ _ D3).
    apply value_range in Hx as [Ex Rx]. apply value_range in Hy as [Ey Ry]. apply value_range in Hz as [Ez Rz].
    rewrite (digit_known _ _ D0), (digit_known _ _ D1), (digit_known _ _ D2), (digit_known _ _ D3), IH. cbv iota zeta.
    rewrite E. f_equal. f_equal; [apply byte_back; rewrite <- Ex; lia|]. f_equal; [apply byte_back; rewrite <- Ey; lia|]. f_equal. apply byte_back. rewrite <- Ez. lia.
Qed.
Lemma decode_text d t : base64 d t -> decode64 t = Some d.
Proof. intros H. unfold decode64. rewrite (text_no_break d t H), (read_back d t H). cbn [option_map]. now rewrite string_of_list_ascii_of_string. Qed.
Lemma encode_good n : forall l, (List.length l <= n)%nat -> base64 (string_of_list_ascii l) (string_of_list_ascii (encode64 l)).
Proof.
  induction n as [|n IH]; intros l L.
  - destruct l; [constructor|cbn in L; lia].
  - destruct l as [|a [|b [|c r]]]; cbn [encode64 string_of_list_ascii]; cbv zeta; cbn [string_of_list_ascii].
    + constructor.
    + pose proof (byte_range a). eapply base64_1; [reflexivity|apply digit_good; lia..|]. fold (byte_val a). lia.
    + pose proof (byte_range a). pose proof (byte_range b). eapply base64_2; [reflexivity|reflexivity|apply digit_good; lia..|]. fold (byte_val a) (byte_val b). lia.
    + pose proof (byte_range a). pose proof (byte_range b). pose proof (byte_range c). eapply base64_3; [reflexivity|reflexivity|reflexivity|apply digit_good; lia..| |].
      * fold (byte_val a) (byte_val b) (byte_val c). lia.
      * apply IH. cbn in L. lia.
Qed.

(* characters that no base64 text has *)
Lemma undigit_alphabet c v : undigit64 c = Some v -> has_char c base64_alphabet = true.
Proof. destruct c as [[] [] [] [] [] [] [] []]; intros H; try discriminate H; reflexivity. Qed.
Lemma stranger c l : has_char c base64_alphabet = false -> c <> "="%char -> In c l -> decode64_from l = None.
Proof.
  intros A E. assert (U : undigit64 c = None) by (destruct (undigit64 c) eqn:U; [apply undigit_alphabet in U; congruence|reflexivity]).
  assert (Q : Ascii.eqb c "=" = false) by now apply Ascii.eqb_neq.
  remember (List.length l) as n eqn:L. assert (L' : (List.length l <= n)%nat) by lia. clear L. revert l L'. induction n as [|n IH]; intros l L I; [destruct l; [contradiction|cbn in L; lia]|].
  destruct l as [|x [|y [|z [|w r]]]]; try reflexivity; [contradiction|]. cbn [decode64_from].
  destruct I as [->|[->|[->|[->|I]]]].
  - now rewrite U.
  - rewrite U. now destruct (undigit64 x).
  - rewrite U, Q. destruct (undigit64 x); [destruct (undigit64 y)|]; reflexivity.
  - rewrite U, Q, andb_false_r. destruct (undigit64 x); [destruct (undigit64 y); [destruct (undigit64 z)|]|]; reflexivity.
  - rewrite IH by (exact I || (cbn in L; lia)). destruct r as [|r0 r]; [contradiction|]. rewrite !andb_false_r.
    destruct (undigit64 x); [destruct (undigit64 y); [destruct (undigit64 z); [destruct (undigit64 w)|]|]|]; reflexivity.
Qed.
Lemma bad_length n l : (List.length l <= n)%nat -> (List.length l mod 4 <> 0)%nat -> decode64_from l = None.
Proof.
  revert l. induction n as [|n IH]; intros l L M; [destruct l; [contradiction M; reflexivity|cbn in L; lia]|].
  destruct l as [|x [|y [|z [|w r]]]]; try reflexivity; [contradiction M; reflexivity|]. cbn [decode64_from].
  assert (M' : (List.length r mod 4 <> 0)%nat). { intros E. apply M. cbn [List.length]. change (S (S (S (S (List.length r))))) with (4 + List.length r)%nat. rewrite Nat.add_mod, E by lia. reflexivity. }
  rewrite (IH r) by (exact M' || (cbn in L; lia)). destruct r as [|r0 r]; [contradiction M'; reflexivity|]. rewrite !andb_false_r.
  destruct (undigit64 x); [destruct (undigit64 y); [destruct (undigit64 z); [destruct (undigit64 w)|]|]|]; reflexivity.
Qed.
Lemma not_base64 s : decode64_from (filter (fun c => negb (line_break c)) (list_ascii_of_string s)) = None -> is_base64 s = false.
Proof. intros H. unfold is_base64, decode64. now rewrite H. Qed.
Lemma has_char_in c s : has_char c s = true -> In c (list_ascii_of_string s).
Proof. induction s as [|x s IH]; [discriminate|]. cbn [has_char list_ascii_of_string]. intros H. apply orb_true_iff in H as [H|H]; [apply Ascii.eqb_eq in H; now left|right; auto]. Qed.
Lemma no_break_filter s : (forall c, has_char c s = true -> line_break c = false) -> filter (fun c => negb (line_break c)) (list_ascii_of_string s) = list_ascii_of_string s.
Proof.
  induction s as [|x s IH]; intros H; cbn [list_ascii_of_string filter]; [reflexivity|]. rewrite (H x) by (cbn [has_char]; now rewrite Ascii.eqb_refl). cbn [negb]. f_equal. apply IH.
  intros c Hc. apply H. cbn [has_char]. rewrite Hc. apply orb_true_r.
Qed.
Lemma binary b : is_base64 b = false -> base64 b (to_string (GBytes b)).
Proof. intros N. cbn [to_string to_raw_string]. rewrite N. cbn [negb]. rewrite <- (string_of_list_ascii_of_string b) at 1. exact (encode_good _ _ (le_n _)). Qed.

(* ---- C135 ---- *)

(* Binary data is written as base64 or as it is. *)
Theorem C135_binary b : base64 b (to_string (GBytes b)) \/ to_string (GBytes b) = b.
Proof. destruct (is_base64 b) eqn:E; [right; cbn [to_string to_raw_string]; now rewrite E|left; now apply binary]. Qed.
Print Assumptions C135_binary.
(* As base64 if it has a byte that does not occur in base64 texts or line breaks between them ... *)
Theorem C135_stranger_partial b c : has_char c b = true -> has_char c (base64_alphabet ++ "=") = false -> c <> "010"%char -> c <> "013"%char ->
  base64 b (to_string (GBytes b)).
Proof.
  intros H A N1 N2. apply binary, not_base64. rewrite has_char_app in A. apply orb_false_iff in A as [A Q]. cbn [has_char] in Q. rewrite orb_false_r in Q. apply Ascii.eqb_neq in Q.
  apply (stranger c _ A Q). apply filter_In. split; [now apply has_char_in|]. unfold line_break. apply Ascii.eqb_neq in N1, N2. now rewrite N1, N2.
Qed.
Print Assumptions C135_stranger_partial.
(* ... or a length that is not a multiple of 4. *)
Theorem C135_length_partial b : has_char "010" b = false -> has_char "013" b = false -> (String.length b mod 4 <> 0)%nat -> base64 b (to_string (GBytes b)).
Proof.
  intros N1 N2 L. apply binary, not_base64. rewrite no_break_filter.
  - apply (bad_length _ _ (le_n _)). assert (E : forall s, List.length (list_ascii_of_string s) = String.length s) by (induction s as [|x s IH]; cbn; auto). now rewrite E.
  - intros c H. unfold line_break. destruct (Ascii.eqb_spec c "010") as [->|_]; [congruence|]. destruct (Ascii.eqb_spec c "013") as [->|_]; [congruence|reflexivity].
Qed.
Print Assumptions C135_length_partial.
(* Such a text has one meaning: the data can be recovered. *)
Theorem C135_recovered d d' t : base64 d t -> base64 d' t -> d = d'.
Proof. intros A B. apply decode_text in A, B. congruence. Qed.
Print Assumptions C135_recovered.
(* A base64 text stays as it is, so writing twice does not encode twice. *)
Theorem C135_kept d t : base64 d t -> to_string (GBytes t) = t.
Proof. intros A. apply decode_text in A. cbn [to_string to_raw_string]. unfold is_base64. now rewrite A. Qed.
Print Assumptions C135_kept.
Theorem C135_once b : to_string (GBytes (to_string (GBytes b))) = to_string (GBytes b).
Proof. destruct (C135_binary b) as [B|E]; [exact (C135_kept b _ B)|now rewrite !E]. Qed.
Print Assumptions C135_once.
Example C135_hyps : to_string (GBytes "hello") = "aGVsbG8=" /\ base64 "hello" "aGVsbG8=" /\ has_char "!" (base64_alphabet ++ "=") = false /\ to_string (GBytes "Hi!!") = "SGkhIQ==".
Proof. split; [vm_compute; reflexivity|]. split; [|split; vm_compute; reflexivity]. change "aGVsbG8=" with (to_string (GBytes "hello")). apply C135_length_partial; [reflexivity|reflexivity|discriminate]. Qed.

(* Hence different data has the same text: data and its own base64; and data of four letters is left as it is, though it is not base64 of itself. *)
Theorem C135_same_text_refuted b : is_base64 b = false -> b <> "" -> exists b', b' <> b /\ to_string (GBytes b') = to_string (GBytes b).
Proof.
  intros N E. exists (to_string (GBytes b)). split; [|apply C135_once]. pose proof (binary b N) as B. intros X. rewrite X in B. apply decode_text in B. unfold is_base64 in N. rewrite B in N. discriminate.
Qed.
Print Assumptions C135_same_text_refuted.
Theorem C135_letters_refuted : to_string (GBytes "abcd") = "abcd" /\ ~ base64 "abcd" "abcd".
Proof. split; [vm_compute; reflexivity|]. intros B. apply decode_text in B. vm_compute in B. discriminate. Qed.
Print Assumptions C135_letters_refuted.

(* Numbers and truth values: different values of a kind have different texts. *)
Theorem C135_numbers z z' : to_string (GInt z) = to_string (GInt z') -> z = z'.
Proof.
  cbn [to_string to_raw_string]. intros E. pose proof (Z.pow_gt_lin_r 2 (Z.max (Z.abs z) (Z.abs z') + 2 - 1)).
  assert (A : parse_int (Z.max (Z.abs z) (Z.abs z') + 2) (itoa z) = Some z) by (apply parse_int_itoa; unfold int_ok; lia).
  assert (B : parse_int (Z.max (Z.abs z) (Z.abs z') + 2) (itoa z') = Some z') by (apply parse_int_itoa; unfold int_ok; lia).
  congruence.
Qed.
Print Assumptions C135_numbers.

(* The identifiers made of values: their texts in order, without the empty ones. *)
Theorem C135_identifiers items : exists pick, List.length pick = List.length items
  /\ new_identifiers items = map to_string (map snd (filter fst (combine pick items)))
  /\ (forall i v, nth_error items i = Some v -> nth_error pick i = Some true <-> to_string v <> "").
Proof.
  exists (map (fun v => negb (String.eqb (to_string v) "")) items). split; [apply map_length|]. split.
  - induction items as [|v r IH]; cbn [new_identifiers map combine filter]; [reflexivity|]. cbv zeta. cbn [fst]. destruct (String.eqb (to_string v) ""); cbn [negb map snd]; now rewrite IH.
  - intros i v H. rewrite nth_error_map, H. cbn [option_map]. destruct (String.eqb_spec (to_string v) ""); cbn [negb]; split; congruence.
Qed.
Print Assumptions C135_identifiers.
Example C135_identifiers_hyps : new_identifiers [GNil; GInt (-5); GStr ""; GBytes "hello"; GStringer "uuid:1"] = ["-5"; "aGVsbG8="; "uuid:1"].
Proof. vm_compute. reflexivity. Qed.
