(* Lemmas about PathM, Names, PVList, Semver and SyncFlags *)
From Coq Require Import List Arith ZArith Bool Ascii String Lia Permutation Sorted.
From Verif Require Import GoStr GoStrFacts Names PathM SpecBasic.
Local Open Scope string_scope.


Lemma index_char_prefix p s : no_char ":" p -> index_char ":" (p ++ ":" ++ s) = Some (String.length p).
Proof.
  intros Hp. now apply index_char_app.
Qed.

Lemma sdrop_S_app p c s : sdrop (S (String.length p)) (p ++ String c s) = s.
Proof. induction p; cbn; auto. Qed.

Lemma namespace_prefix_new p segs : no_char ":" p -> namespace_prefix (new_path p segs) = p.
Proof.
  intros Hp. unfold namespace_prefix, new_path. rewrite index_char_prefix by auto. apply stake_app.
Qed.

Lemma fields_new_gen p segs : no_char ":" p ->
  fields (new_path p segs) =
  let y := trim_prefix "/" (join "/" segs) in if emptyb y then [] else split_char "/" y.
Proof.
  intros Hp. unfold fields, new_path. rewrite index_char_prefix by auto.
  change (":" ++ join "/" segs) with (String ":" (join "/" segs)).
  rewrite sdrop_S_app. reflexivity.
Qed.

Lemma trim_prefix_head c s : (match s with String d _ => Ascii.eqb c d = false | _ => True end) ->
  trim_prefix (String c "") s = s.
Proof.
  unfold trim_prefix, has_prefix_str. destruct s as [|d s]; cbn; [reflexivity|].
  intros H. destruct (ascii_dec c d) as [->|]; [now rewrite Ascii.eqb_refl in H|].
  reflexivity.
Qed.

Lemma join_nonempty s segs : s <> "" -> join "/" (s :: segs) <> "".
Proof. intros Hs. destruct s; [congruence|]. destruct segs; cbn; discriminate. Qed.

Lemma trim_prefix_join s segs : seg_ok s -> trim_prefix "/" (join "/" (s :: segs)) = join "/" (s :: segs).
Proof.
  intros [Hn Hc]. apply trim_prefix_head. destruct s as [|d s]; [congruence|].
  cbv [no_char] in Hc. cbn in Hc. apply orb_false_iff in Hc as [Hd _].
  destruct segs; cbn; exact Hd.
Qed.

Lemma fields_new p segs : no_char ":" p -> Forall seg_ok segs -> fields (new_path p segs) = segs.
Proof.
  intros Hp Hs. rewrite fields_new_gen by auto. cbv zeta.
  destruct segs as [|s segs]; [reflexivity|].
  inversion Hs as [|? ? H1 H2]; subst.
  rewrite trim_prefix_join by auto.
  rewrite (proj2 (emptyb_false _)) by (apply join_nonempty; apply H1).
  apply split_join; [discriminate|].
  eapply Forall_impl; [|exact Hs]. intros a [_ Ha]; exact Ha.
Qed.

Lemma path_len_fields x : path_len x = List.length (fields x).
Proof.
  unfold path_len, fields. destruct (index_char ":" x); [|reflexivity]. cbv zeta.
  destruct (emptyb _); [reflexivity|]. rewrite split_char_length. lia.
Qed.

Lemma push_new p segs more : no_char ":" p -> Forall seg_ok segs ->
  push (new_path p segs) more = new_path p (segs ++ more).
Proof. intros Hp Hs. unfold push. now rewrite namespace_prefix_new, fields_new. Qed.

Lemma pop_new p segs s : no_char ":" p -> Forall seg_ok (segs ++ [s]) ->
  pop (new_path p (segs ++ [s])) = (s, new_path p segs).
Proof.
  intros Hp Hs. unfold pop. rewrite fields_new, namespace_prefix_new by auto.
  destruct (segs ++ [s])%list eqn:E; [now destruct segs|]. rewrite <- E.
  now rewrite last_last, removelast_last.
Qed.

Lemma pop_push p segs s : no_char ":" p -> Forall seg_ok segs -> seg_ok s ->
  pop (push (new_path p segs) [s]) = (s, new_path p segs).
Proof.
  intros Hp Hs H1. rewrite push_new by auto. apply pop_new; auto.
  apply Forall_app; auto.
Qed.

(* the first colon ends a colon-free prefix *)
Lemma namespace_prefix_no_colon x : no_char ":" (namespace_prefix x).
Proof.
  unfold namespace_prefix, no_char. destruct (index_char ":" x) eqn:E.
  - apply index_char_some in E as (a & b & -> & Ha & Hl). subst. rewrite stake_app. exact Ha.
  - now apply index_char_none.
Qed.

Lemma get_prefix_no_colon x : no_char ":" (get_prefix x).
Proof. exact (namespace_prefix_no_colon x). Qed.

Lemma count_char_app c a b : count_char c (a ++ b) = count_char c a + count_char c b.
Proof. induction a as [|d a IH]; cbn; auto. rewrite IH. lia. Qed.

Lemma trim_prefix_split y : split_char "/" y = "" :: split_char "/" (trim_prefix "/" y)
  \/ trim_prefix "/" y = y.
Proof.
  destruct y as [|d y]; [right; reflexivity|].
  destruct (Ascii.eqb "/" d) eqn:E.
  - apply Ascii.eqb_eq in E. subst d. left. pose proof (trim_prefix_app "/" y) as H. cbn [append] in H. rewrite H. reflexivity.
  - right. now apply trim_prefix_head.
Qed.

Lemma path_len_new_le p segs : no_char ":" p -> Forall (no_char "/") segs ->
  path_len (new_path p segs) <= List.length segs.
Proof.
  intros Hp Hs. rewrite path_len_fields, fields_new_gen by auto. cbv zeta.
  destruct (emptyb (trim_prefix "/" (join "/" segs))) eqn:Ee; [cbn; lia|].
  destruct segs as [|s segs]; [discriminate|].
  assert (Hsj : split_char "/" (join "/" (s :: segs)) = s :: segs)
    by (apply split_join; [discriminate|auto]).
  destruct (trim_prefix_split (join "/" (s :: segs))) as [H|H].
  - rewrite <- Hsj at 2. rewrite H. cbn [List.length]. lia.
  - rewrite H, Hsj. lia.
Qed.

Lemma fields_no_slash x : Forall (no_char "/") (fields x).
Proof.
  unfold fields. destruct (index_char ":" x); [|constructor]. cbv zeta.
  destruct (emptyb _); [constructor|]. apply split_char_parts.
Qed.

Lemma pop_front_decreases x : 0 < path_len x -> path_len (snd (pop_front x)) < path_len x.
Proof.
  intros H. rewrite (path_len_fields x) in *. unfold pop_front.
  pose proof (fields_no_slash x) as Hf.
  destruct (fields x) as [|seg rest]; [cbn in H; lia|].
  inversion Hf; subst.
  destruct (has_prefix seg); cbn [snd List.length].
  - pose proof (path_len_new_le (get_prefix seg) rest (get_prefix_no_colon _) H3). lia.
  - pose proof (path_len_new_le (namespace_prefix x) rest (namespace_prefix_no_colon _) H3). lia.
Qed.

Lemma pop_front_empty x : path_len x = 0 -> pop_front x = ("", x).
Proof.
  rewrite path_len_fields. unfold pop_front. now destruct (fields x).
Qed.

Lemma walk_terminates x n : path_len x < n -> exists l, walk n x = Some l /\ List.length l <= path_len x.
Proof.
  revert x. induction n as [|n IH]; intros x H; [lia|]. cbn [walk].
  destruct (pop_front x) as [s w] eqn:E.
  destruct (Nat.eq_dec (path_len x) 0) as [Hz|Hz].
  - rewrite pop_front_empty in E by auto. injection E as <- <-. exists []. cbn. split; auto. lia.
  - pose proof (pop_front_decreases x ltac:(lia)) as Hd. rewrite E in Hd. cbn [snd] in Hd.
    destruct (emptyb s); [exists []; cbn; split; auto; lia|].
    destruct (IH w ltac:(lia)) as (l & Hl & Hll). rewrite Hl.
    exists ((s, w) :: l). cbn. split; auto. lia.
Qed.

Lemma walk_mono n m x l : walk n x = Some l -> n <= m -> walk m x = Some l.
Proof.
  revert m x l. induction n as [|n IH]; intros m x l H Hm; [discriminate|].
  destruct m as [|m]; [lia|]. cbn [walk] in *. destruct (pop_front x) as [s w].
  destruct (emptyb s); [exact H|].
  destruct (walk n w) as [r|] eqn:Ew; [|discriminate]. rewrite (IH m w r) by (auto; lia). exact H.
Qed.


Lemma seg_text_ok s : seg_spec_ok s -> seg_ok (seg_text s).
Proof.
  destruct s as [[p|] l]; intros (H1 & H2 & H3); cbn in *; split; auto.
  - destruct p; [tauto|discriminate].
  - unfold no_char. rewrite has_char_app. cbn. destruct H3 as (_ & _ & H3). rewrite H3. exact H2.
Qed.

Lemma has_prefix_qualified p l : p <> "" -> no_char ":" p -> has_prefix (p ++ ":" ++ l) = true.
Proof.
  intros Hp Hc. unfold has_prefix. rewrite index_char_prefix by auto. destruct p; [congruence|reflexivity].
Qed.

Lemma get_prefix_qualified p l : no_char ":" p -> get_prefix (p ++ ":" ++ l) = p.
Proof. intros Hc. unfold get_prefix. rewrite index_char_prefix by auto. apply stake_app. Qed.

Lemma strip_prefix_qualified p l : no_char ":" p -> strip_prefix (p ++ ":" ++ l) = l.
Proof. intros Hc. unfold strip_prefix. rewrite index_char_prefix by auto. apply (sdrop_S_app p ":" l). Qed.

Lemma has_prefix_none l : no_char ":" l -> has_prefix l = false.
Proof. intros H. unfold has_prefix. now rewrite (proj2 (index_char_none _ _) H). Qed.

Lemma walk_visits l : forall p n, no_char ":" p -> Forall seg_spec_ok l -> List.length l < n ->
  walk n (new_path p (map seg_text l)) = Some (walk_spec p l).
Proof.
  induction l as [|s l IH]; intros p n Hp Hl Hn; (destruct n as [|n]; [cbn in Hn; lia|]).
  - cbn [walk map]. unfold pop_front. rewrite fields_new by (auto; constructor). reflexivity.
  - inversion Hl as [|? ? Hs Hr]; subst.
    assert (Hok : Forall seg_ok (map seg_text (s :: l))).
    { apply Forall_map. eapply Forall_impl; [|exact Hl]. intros; now apply seg_text_ok. }
    cbn [walk]. unfold pop_front. rewrite fields_new by auto. cbn [map].
    destruct s as [[q|] loc]; cbn [seg_text fst snd] in *; destruct Hs as (H1 & H2 & H3); cbn [fst snd] in *.
    + destruct H3 as (Hq & Hqc & Hqs).
      rewrite has_prefix_qualified, strip_prefix_qualified, get_prefix_qualified by auto.
      rewrite (proj2 (emptyb_false _) H1).
      rewrite IH by (auto; cbn in Hn; lia). reflexivity.
    + rewrite has_prefix_none by auto.
      rewrite namespace_prefix_new by auto.
      rewrite (proj2 (emptyb_false _) H1).
      rewrite IH by (auto; cbn in Hn; lia). reflexivity.
Qed.

Lemma peek_prefix_spec x : 0 < path_len x ->
  peek_namespace_prefix x = namespace_prefix (snd (pop_front x)).
Proof.
  rewrite path_len_fields. unfold peek_namespace_prefix, pop_front.
  destruct (fields x) as [|f r]; [cbn; lia|]. intros _.
  destruct (has_prefix f); cbn [snd]; rewrite namespace_prefix_new; auto.
  - apply get_prefix_no_colon.
  - apply namespace_prefix_no_colon.
Qed.

(* --- index and language suffixes --- *)

Lemma parse_segment_suffix name s : name <> "" -> no_char "[" name ->
  parse_segment (name ++ "[" ++ s ++ "]") =
  if emptyb s then (name, 0%Z, "")
  else match atoi s with Some j => (name, j, "") | None => (name, (-1)%Z, s) end.
Proof.
  intros Hn Hc. unfold parse_segment.
  assert (Hi : index_char "[" (name ++ "[" ++ s ++ "]") = Some (String.length name)).
  { now apply index_char_app. }
  rewrite Hi.
  replace (Nat.ltb 0 (String.length name)) with true
    by (destruct name; [congruence|reflexivity]).
  replace (Nat.ltb (String.length name + 1) _) with true.
  2:{ symmetry. apply Nat.ltb_lt. rewrite !length_app. cbn. lia. }
  cbn [andb].
  replace (String.length name + 1) with (S (String.length name)) by lia.
  change ("[" ++ s ++ "]") with (String "[" (s ++ "]")).
  rewrite sdrop_S_app, trim_suffix_app, stake_app. reflexivity.
Qed.

Lemma parse_segment_plain name : no_char "[" name -> parse_segment name = (name, (-1)%Z, "").
Proof. intros H. unfold parse_segment. now rewrite (proj2 (index_char_none _ _) H). Qed.

Lemma append_index_plain x i : has_suffix_str "]" x = false -> append_index x i = x ++ "[" ++ itoa i ++ "]".
Proof. intros H. unfold append_index. now rewrite H. Qed.

Lemma parse_append_index name i : name <> "" -> no_char "[" name -> has_suffix_str "]" name = false ->
  int64 i -> parse_segment (append_index name i) = (name, i, "").
Proof.
  intros Hn Hc He Hi. rewrite append_index_plain, parse_segment_suffix by auto.
  rewrite (proj2 (emptyb_false _) (itoa_nonempty i)), atoi_itoa by auto. reflexivity.
Qed.

Lemma parse_append_lang name l : name <> "" -> no_char "[" name -> has_suffix_str "]" name = false ->
  l <> "" -> atoi l = None -> parse_segment (append_index_string name l) = (name, (-1)%Z, l).
Proof.
  intros Hn Hc He Hl Ha. unfold append_index_string. rewrite He, parse_segment_suffix by auto.
  now rewrite (proj2 (emptyb_false _) Hl), Ha.
Qed.

Lemma parse_segment_empty_brackets name : name <> "" -> no_char "[" name ->
  parse_segment (name ++ "[]") = (name, 0%Z, "").
Proof. intros Hn Hc. exact (parse_segment_suffix name "" Hn Hc). Qed.
