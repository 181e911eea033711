(* Facts for C134: video frame rates *)
From Coq Require Import List Arith ZArith NArith QArith Qabs Qfield Lqa Bool Ascii String Lia.
From Verif Require Import GoStr Spec CodecM SpecCodec SpeedM NumM SpecNum GoStrFacts CodecFacts NumFacts NumFacts2 RateM SpecRate.
Import ListNotations.
Local Open Scope nat_scope.
Local Open Scope string_scope.

(* ---- large and small letters ---- *)
Lemma upper_lower_char c : upper_char (lower_char c) = upper_char c.
Proof. destruct c as [[] [] [] [] [] [] [] []]; reflexivity. Qed.
Lemma upper_lower s : to_upper (to_lower s) = to_upper s.
Proof. induction s as [|c s IH]; cbn [to_lower to_upper]; [reflexivity|]. now rewrite upper_lower_char, IH. Qed.
Lemma any_case_upper s t : any_case s t -> to_upper s = to_upper t.
Proof. unfold any_case. intros H. now rewrite <- (upper_lower s), H, upper_lower. Qed.
Lemma upper_digit c : is_digit c = true -> upper_char c = c.
Proof. destruct c as [[] [] [] [] [] [] [] []]; intros H; try reflexivity; discriminate H. Qed.
Lemma upper_has_digit s : has_digit s = true -> has_digit (to_upper s) = true.
Proof.
  induction s as [|c s IH]; [discriminate|]. cbn [has_digit to_upper]. destruct (is_digit c) eqn:D; cbn [orb].
  - intros _. rewrite (upper_digit c D), D. reflexivity.
  - intros H. rewrite (IH H). apply orb_true_r.
Qed.
Lemma no_name s t : has_digit s = true -> has_digit t = false -> (to_upper s =? t) = false.
Proof. intros H T. apply eqb_neq. intros E. apply upper_has_digit in H. rewrite E in H. congruence. Qed.
Lemma rate_digits inf s : has_digit s = true -> rate_unmarshal inf s =
  match rational_unmarshal inf (Rat 0 0) s with
  | Ok r => Ok (RNumber (rat_value r))
  | Panic => Panic
  | Err _ => match parse_float (strip_rate s) with Some x => Ok (rate_of x) | None => Err "invalid video frame rate value" end
  end.
Proof. intros H. unfold rate_unmarshal. cbv zeta. now rewrite !(no_name s) by (exact H || reflexivity). Qed.
Lemma value_fraction n d q : fraction n d q -> (rat_value (Rat n d) == q)%Q.
Proof.
  intros [N E]. unfold rat_value. cbn [r_num r_den]. destruct (Z.eqb_spec d 0) as [|_]; [contradiction|]. rewrite <- E. field.
  intros H. apply N. unfold Qeq in H. cbn in H. lia.
Qed.

(* ---- numbers do not have letters ---- *)
Definition foreign (c : ascii) : Prop :=
  is_digit c = false /\ c <> "+"%char /\ c <> "-"%char /\ c <> "."%char /\ c <> "e"%char /\ c <> "E"%char.
Lemma decimal_no_foreign t q c : foreign c -> decimal t q -> has_char c t = false.
Proof.
  intros (D & P & M & O & _) (sg & s & i & z & f & n & k & S & I & -> & F & _). rewrite !has_char_app, (numeral_no_char c i z I D).
  assert (A : has_char c sg = false) by (destruct S; cbn [has_char]; rewrite ?orb_false_r; try apply Ascii.eqb_neq; auto). rewrite A.
  destruct F as [(-> & _ & _)|(d & -> & N & _)]; [reflexivity|]. cbn [append has_char]. rewrite (numeral_no_char c d n N D). cbn [orb]. rewrite orb_false_r. now apply Ascii.eqb_neq.
Qed.
Lemma span_keeps c s a b : is_digit c = false -> span_digits s = (a, b) -> has_char c b = has_char c s.
Proof.
  intros D. revert a b. induction s as [|x s IH]; intros a b; cbn [span_digits].
  - intros [= <- <-]. reflexivity.
  - destruct (digit_val x) eqn:X.
    + destruct (span_digits s) as [a' b'] eqn:E. intros [= <- <-]. rewrite (IH _ _ eq_refl). cbn [has_char].
      destruct (Ascii.eqb_spec c x) as [->|_]; [|reflexivity]. unfold is_digit in D. rewrite X in D. discriminate.
    + intros [= <- <-]. reflexivity.
Qed.
Lemma sign_keeps c s : c <> "+"%char -> c <> "-"%char -> has_char c (snd (sign_of s)) = has_char c s.
Proof.
  intros P M. destruct s as [|x s]; [reflexivity|].
  destruct (Ascii.eqb_spec x "-") as [->|N1]; [cbn; destruct (Ascii.eqb_spec c "-"); [contradiction|reflexivity]|].
  destruct (Ascii.eqb_spec x "+") as [->|N2]; [cbn; destruct (Ascii.eqb_spec c "+"); [contradiction|reflexivity]|].
  cbn [sign_of]. destruct x as [[] [] [] [] [] [] [] []]; try reflexivity; congruence.
Qed.
Lemma parse_digits_none c s : is_digit c = false -> has_char c s = true -> parse_digits s = None.
Proof.
  intros D H. destruct (parse_digits s) as [n|] eqn:E; [|reflexivity]. exfalso.
  assert (A : all_digits s = true).
  { destruct s; [discriminate|]. unfold parse_digits in E. revert E. generalize 0%N. generalize (String a s). clear. intros s. induction s as [|x s IH]; intros n0; cbn [digits_acc all_digits]; [reflexivity|].
    unfold is_digit. destruct (digit_val x); [apply IH|discriminate]. }
  rewrite (all_digits_no_char c s A D) in H. discriminate.
Qed.
Lemma exponent_none c s : foreign c -> has_char c s = true -> exponent s = None.
Proof.
  intros (D & P & M & _ & L & C) H. destruct s as [|x s]; [discriminate|]. cbn [exponent].
  destruct (Ascii.eqb x "e" || Ascii.eqb x "E") eqn:X; [|reflexivity]. cbn [has_char] in H.
  assert (N : Ascii.eqb c x = false). { apply Ascii.eqb_neq. intros ->. apply orb_true_iff in X as [X|X]; apply Ascii.eqb_eq in X; auto. }
  rewrite N in H. cbn [orb] in H. rewrite <- (sign_keeps c s P M) in H. destruct (sign_of s) as [n d]. cbn [snd] in H. now rewrite (parse_digits_none c d D H).
Qed.
Lemma parse_dec_none c s : foreign c -> has_char c s = true -> parse_dec s = None.
Proof.
  intros F H. pose proof F as (D & P & M & O & _). unfold parse_dec. rewrite <- (sign_keeps c s P M) in H. destruct (sign_of s) as [neg s1]. cbn [snd] in H.
  destruct (span_digits s1) as [i s2] eqn:E. rewrite <- (span_keeps c s1 i s2 D E) in H. clear E.
  assert (R : forall f s3, (match s2 with String "." r => span_digits r | _ => ("", s2) end) = (f, s3) -> has_char c s3 = true).
  { intros f s3. destruct s2 as [|x r]; [discriminate|]. destruct (Ascii.eqb_spec x ".") as [->|N].
    - intros E. rewrite (span_keeps c r f s3 D E). cbn [has_char] in H. destruct (Ascii.eqb_spec c "."); [contradiction|exact H].
    - intros E. assert (X : (f, s3) = ("", String x r)) by (rewrite <- E; destruct x as [[] [] [] [] [] [] [] []]; reflexivity || congruence). injection X as _ ->. exact H. }
  destruct (match s2 with String "." r => span_digits r | _ => ("", s2) end) as [f s3]. rewrite (exponent_none c s3 F (R _ _ eq_refl)). now destruct (parse_digits (i ++ f)).
Qed.

(* ---- decimals with a unit are not rationals ---- *)
Lemma dotless t q : decimal t q -> has_char "." t = false -> exists sg s i z, signed sg s /\ numeral i z /\ t = sg ++ i.
Proof.
  intros (sg & s & i & z & f & n & k & S & I & -> & F & _) H. exists sg, s, i, z. split; [exact S|]. split; [exact I|].
  destruct F as [(-> & _ & _)|(d & -> & _)]; [now rewrite app_nil_r|]. rewrite !has_char_app in H. cbn in H. rewrite !orb_true_r in H. discriminate.
Qed.
Lemma scan_signed sg s i z r : signed sg s -> numeral i z -> no_digit_head r -> scan_int (sg ++ i ++ r) = match parse_int 64 (sg ++ i) with Some n => Some (n, r) | None => None end.
Proof.
  intros S I N. pose proof (numeral_head i z I) as Hd. pose proof (numeral_digits i z I) as Ad. unfold scan_int. destruct S.
  - cbn [append]. destruct i as [|c i]; [contradiction|]. cbn [append].
    assert (X : skip_blank (String c (i ++ r)) = String c (i ++ r)). { cbn [skip_blank]. assert (B : is_space c = false) by (destruct c as [[] [] [] [] [] [] [] []]; try reflexivity; discriminate Hd). now rewrite B. }
    rewrite X. change (String c (i ++ r)) with (String c i ++ r). cbv zeta.
    clear X. destruct c as [[] [] [] [] [] [] [] []]; try discriminate Hd; cbn [append] in *; rewrite (span_digits_app _ r Ad N : span_digits (String _ (i ++ r)) = _); reflexivity.
  - change ("+" ++ i ++ r) with (String "+" (i ++ r)). change (skip_blank (String "+" (i ++ r))) with (String "+" (i ++ r)). cbv zeta iota beta. rewrite (span_digits_app _ _ Ad N). reflexivity.
  - change ("-" ++ i ++ r) with (String "-" (i ++ r)). change (skip_blank (String "-" (i ++ r))) with (String "-" (i ++ r)). cbv zeta iota beta. rewrite (span_digits_app _ _ Ad N). reflexivity.
Qed.
Lemma foreign_i : foreign "i". Proof. repeat split; try reflexivity; discriminate. Qed.
Lemma foreign_p : foreign "p". Proof. repeat split; try reflexivity; discriminate. Qed.
Lemma foreign_f : foreign "f". Proof. repeat split; try reflexivity; discriminate. Qed.
Lemma foreign_slash : foreign "/". Proof. repeat split; try reflexivity; discriminate. Qed.
Lemma foreign_space : foreign " ". Proof. repeat split; try reflexivity; discriminate. Qed.
Lemma unit_foreign u : rate_unit u -> exists c, foreign c /\ has_char c u = true.
Proof.
  intros H. unfold rate_unit in H. cbn [In] in H. repeat (destruct H as [<-|H]; [first [exists "p"%char; split; [exact foreign_p|reflexivity]|exists "i"%char; split; [exact foreign_i|reflexivity]]|]). contradiction.
Qed.
Lemma unit_not_rational inf old t q u : decimal t q -> rate_unit u -> exists e, rational_unmarshal inf old (t ++ u) = Err e.
Proof.
  intros D U. unfold rational_unmarshal, rat_unmarshal. destruct (unit_foreign u U) as (c & Fc & Hc).
  assert (H : has_char c (t ++ u) = true) by (rewrite has_char_app, Hc; apply orb_true_r).
  assert (E : emptyb (t ++ u) = false) by (destruct (t ++ u); [discriminate H|reflexivity]). rewrite E. clear E.
  assert (X : (if contains "." (t ++ u) then decimal_rational inf (t ++ u)
     else if contains "/" (t ++ u) then option_map (fun p => Rat (fst p) (snd p)) (sscanf2 (scan_lit "/") (t ++ u))
     else if contains " " (t ++ u) then option_map (fun p => Rat (fst p) (snd p)) (sscanf2 scan_blank (t ++ u))
     else option_map (fun n => Rat n 1) (parse_int 64 (t ++ u))) = None).
  { rewrite !contains_single. destruct (has_char "." (t ++ u)) eqn:O.
    - unfold decimal_rational. rewrite parse_float_digits by (rewrite has_digit_app, (decimal_has_digit t q D); reflexivity). now rewrite (parse_dec_none c _ Fc H).
    - assert (S : has_char "/" (t ++ u) = false). { rewrite has_char_app, (decimal_no_foreign t q _ foreign_slash D). unfold rate_unit in U. cbn [In] in U. repeat (destruct U as [<-|U]; [reflexivity|]). contradiction. }
      rewrite S. destruct (has_char " " (t ++ u)) eqn:B.
      + rewrite has_char_app in O. apply orb_false_iff in O as [O _]. destruct (dotless t q D O) as (sg & s & i & z & Sg & I & ->).
        rewrite has_char_app, (decimal_no_foreign _ q _ foreign_space D) in B. cbn [orb] in B.
        assert (R : sscanf2 scan_blank ((sg ++ i) ++ u) = None).
        { unfold sscanf2. rewrite app_assoc. unfold rate_unit in U. cbn [In] in U.
          repeat (destruct U as [<-|U]; [first [discriminate B|rewrite (scan_signed sg s i z _ Sg I) by reflexivity; destruct (parse_int 64 (sg ++ i)); reflexivity]|]). contradiction. }
        now rewrite R.
      + destruct Fc as (Dg & P & M & _). rewrite (parse_int_none_char 64 c _ H Dg) by (apply Ascii.eqb_neq; assumption). reflexivity. }
  rewrite X. eexists. reflexivity.
Qed.

(* ---- what is left without the unit ---- *)
Lemma trim_none c p s : has_char c p = true -> has_char c s = false -> trim_suffix p s = s.
Proof.
  intros P S. apply trim_suffix_none. destruct (has_suffix_str p s) eqn:E; [|reflexivity]. apply has_suffix_spec in E as [t ->]. rewrite has_char_app, P, orb_true_r in S. discriminate.
Qed.
Lemma trim_right_app a b : a <> "" -> (forall c, has_char c a = true -> is_space c = false) -> (forall c, has_char c b = true -> is_space c = true) -> trim_right (a ++ b) = a.
Proof.
  intros _ A B. induction a as [|c a IH]; cbn [append].
  - now apply trim_right_nil_iff.
  - cbn [trim_right]. rewrite IH by (intros x Hx; apply A; cbn [has_char]; rewrite Hx; apply orb_true_r).
    destruct a; [|reflexivity]. assert (C : is_space c = false) by (apply A; cbn [has_char]; now rewrite Ascii.eqb_refl). now rewrite C.
Qed.
Lemma trim_space_app a b : a <> "" -> (forall c, has_char c a = true -> is_space c = false) -> (forall c, has_char c b = true -> is_space c = true) -> trim_space (a ++ b) = a.
Proof.
  intros N A B. unfold trim_space. rewrite trim_left_fix; [now apply trim_right_app|]. destruct a as [|c a]; [contradiction|]. cbn [append]. apply A. cbn [has_char]. now rewrite Ascii.eqb_refl.
Qed.
Lemma decimal_no_space t q c : decimal t q -> has_char c t = true -> is_space c = false.
Proof.
  intros D H. destruct (is_space c) eqn:E; [|reflexivity]. assert (F : foreign c).
  { destruct c as [[] [] [] [] [] [] [] []]; try discriminate E; repeat split; try reflexivity; discriminate. }
  rewrite (decimal_no_foreign t q c F D) in H. discriminate.
Qed.
Lemma strip_unit t q u : decimal t q -> rate_unit u -> strip_rate (t ++ u) = t.
Proof.
  intros D U. assert (N : t <> "") by (intros ->; discriminate (decimal_has_digit _ _ D)).
  pose proof (decimal_no_foreign t q _ foreign_i D) as Hi. pose proof (decimal_no_foreign t q _ foreign_p D) as Hp. pose proof (decimal_no_foreign t q _ foreign_f D) as Hf.
  assert (Sp : forall v b, (v = "" \/ v = "i" \/ v = "p") -> (b = "" \/ b = " ") -> trim_space ((t ++ v) ++ b) = t ++ v).
  { intros v b V B. apply trim_space_app.
    - intros E. destruct t; [contradiction|discriminate E].
    - intros c H. rewrite has_char_app in H. apply orb_true_iff in H as [H|H]; [now apply (decimal_no_space t q)|].
      destruct V as [->|[->| ->]]; [discriminate|..]; cbn [has_char] in H; rewrite orb_false_r in H; apply Ascii.eqb_eq in H; now subst.
    - intros c H. destruct B as [->| ->]; [discriminate|]. cbn [has_char] in H. rewrite orb_false_r in H. apply Ascii.eqb_eq in H. now subst. }
  assert (Tl : forall v, (v = "" \/ v = "i" \/ v = "p") -> trim_suffix "p" (trim_suffix "i" (t ++ v)) = t).
  { intros v [->|[->| ->]].
    - rewrite app_nil_r. rewrite (trim_none "i" "i" t eq_refl Hi). exact (trim_none "p" "p" t eq_refl Hp).
    - rewrite trim_suffix_app. exact (trim_none "p" "p" t eq_refl Hp).
    - rewrite (trim_none "i" "i") by (reflexivity || (rewrite has_char_app, Hi; reflexivity)). now rewrite trim_suffix_app. }
  assert (W : forall v b, (v = "" \/ v = "i" \/ v = "p") -> (b = "" \/ b = " ") -> strip_rate (((t ++ v) ++ b) ++ "fps") = t).
  { intros v b V B. unfold strip_rate. rewrite trim_suffix_app, (Sp v b V B). auto. }
  assert (X : forall v, (v = "" \/ v = "i" \/ v = "p") -> strip_rate (t ++ v) = t).
  { intros v V. unfold strip_rate. rewrite (trim_none "f" "fps") by (reflexivity || (rewrite has_char_app, Hf; destruct V as [->|[->| ->]]; reflexivity)).
    rewrite <- (app_nil_r (t ++ v)). rewrite (Sp v "" V) by auto. auto. }
  unfold rate_unit in U. cbn [In] in U. destruct U as [<-|[<-|[<-|[<-|[<-|[<-|[<-|[<-|[]]]]]]]]].
  - pose proof (W "" "" (or_introl eq_refl) (or_introl eq_refl)) as E. rewrite !app_nil_r in E. exact E.
  - pose proof (W "" " " (or_introl eq_refl) (or_intror eq_refl)) as E. rewrite app_nil_r, app_assoc in E. exact E.
  - apply X; auto.
  - apply X; auto.
  - pose proof (W "i" "" (or_intror (or_introl eq_refl)) (or_introl eq_refl)) as E. rewrite app_nil_r, app_assoc in E. exact E.
  - pose proof (W "p" "" (or_intror (or_intror eq_refl)) (or_introl eq_refl)) as E. rewrite app_nil_r, app_assoc in E. exact E.
  - pose proof (W "i" " " (or_intror (or_introl eq_refl)) (or_intror eq_refl)) as E. rewrite !app_assoc in E. exact E.
  - pose proof (W "p" " " (or_intror (or_intror eq_refl)) (or_intror eq_refl)) as E. rewrite !app_assoc in E. exact E.
Qed.

(* ---- whole numbers and ratios ---- *)
Lemma rational_whole inf old t z : numeral t z -> (z < 2 ^ 63)%Z -> rational_unmarshal inf old t = Ok (Rat z 1).
Proof.
  intros N L. pose proof (numeral_head t z N) as Hd. unfold rational_unmarshal, rat_unmarshal.
  assert (E : emptyb t = false) by (destruct t; [contradiction|reflexivity]). rewrite E, !contains_single.
  rewrite !(numeral_no_char _ t z N) by reflexivity. rewrite (numeral_parse_int_ok 64 t z N); [reflexivity|]. destruct N as [N _]. unfold int_ok. cbn. lia.
Qed.
Lemma rational_ratio inf old a b n d : numeral a n -> numeral b d -> (n < 2 ^ 63)%Z -> (d < 2 ^ 63)%Z -> rational_unmarshal inf old (a ++ "/" ++ b) = Ok (Rat n d).
Proof.
  intros A B Ln Ld. pose proof (numeral_head a n A) as Ha. pose proof (numeral_head b d B) as Hb. unfold rational_unmarshal, rat_unmarshal.
  assert (E : emptyb (a ++ "/" ++ b) = false) by (destruct a; [contradiction|reflexivity]). rewrite E, !contains_single.
  rewrite !has_char_app, !(numeral_no_char _ a n A), !(numeral_no_char _ b d B) by reflexivity. cbn [has_char Ascii.eqb orb].
  change (Ascii.eqb "." "/") with false. change (Ascii.eqb "/" "/") with true. cbn [orb]. unfold sscanf2.
  assert (Pa : parse_int 64 a = Some n) by (apply (numeral_parse_int_ok 64 a n A); destruct A as [A _]; unfold int_ok; cbn; lia).
  assert (Pb : parse_int 64 b = Some d) by (apply (numeral_parse_int_ok 64 b d B); destruct B as [B _]; unfold int_ok; cbn; lia).
  rewrite (scan_int_digits a ("/" ++ b) n Ha (numeral_digits a n A)) by (exact Pa || reflexivity). cbn [append scan_lit]. change (Ascii.eqb "/" "/") with true. cbv iota.
  pose proof (scan_int_digits b "" d Hb (numeral_digits b d B) I Pb) as Sb. rewrite app_nil_r in Sb. rewrite Sb. reflexivity.
Qed.
