(* AppendIndex on whole paths *)
From Coq Require Import List Arith ZArith Bool Ascii String Lia.
From Verif Require Import GoStr GoStrFacts Names PathM Spec SpecFacts SpecBasic PathFacts SpecNode NodeFacts NodeListFacts.
Local Open Scope string_scope.

Lemma new_path_snoc ns segs x : segs <> [] -> new_path ns segs ++ "/" ++ x = new_path ns (segs ++ [x])%list.
Proof.
  intros H. unfold new_path. rewrite !app_assoc. f_equal. f_equal.
  assert (J : join "/" segs ++ "/" ++ x = join "/" (segs ++ [x])%list).
  { induction segs as [|s r IH]; [congruence|]. destruct r as [|s' r]; [reflexivity|].
    cbn [app]. rewrite !join_cons. cbn [app] in IH. rewrite <- IH by discriminate. now rewrite !app_assoc. }
  exact J.
Qed.

Lemma path_suffix ns segs s : s <> "" -> has_suffix_str "]" (new_path ns (segs ++ [s])%list) = has_suffix_str "]" s.
Proof.
  intros Hs. apply eq_true_iff_eq. rewrite !has_suffix_spec. unfold new_path. split; intros [t E].
  - assert (L : last_char (ns ++ ":" ++ join "/" (segs ++ [s])%list) = Some "]"%char) by (rewrite E; apply last_char_snoc).
    rewrite last_char_app in L by (cbn; discriminate). rewrite last_char_app in L by now apply join_snoc_ne.
    rewrite join_ends in L by auto. clear E. revert L. induction s as [|c s IH]; [congruence|]. destruct s as [|c' s].
    + cbn. intros L. inversion L; subst. exists "". reflexivity.
    + intros L. destruct IH as [t' E]; [discriminate|exact L|]. exists (String c t'). cbn. now rewrite E.
  - subst s. exists (ns ++ ":" ++ join "/" (segs ++ [t])%list). rewrite join_last. now rewrite !app_assoc.
Qed.

Lemma append_text_fields ns segs s x : no_char ":" ns -> Forall seg_ok (segs ++ [s]) -> no_char "/" x ->
  fields (if has_suffix_str "]" (new_path ns (segs ++ [s])%list) then new_path ns (segs ++ [s])%list ++ "/[" ++ x ++ "]"
          else new_path ns (segs ++ [s])%list ++ "[" ++ x ++ "]") =
  if has_suffix_str "]" s then (segs ++ [s; ("[" ++ x ++ "]")%string])%list else (segs ++ [(s ++ "[" ++ x ++ "]")%string])%list.
Proof.
  intros Hns Hok Hx. apply Forall_app in Hok as [H1 H2]. inversion H2 as [|? ? Hs _]; subst.
  assert (Hb : no_char "/" ("[" ++ x ++ "]")) by (apply no_char_app; [reflexivity|apply no_char_app; [auto|reflexivity]]).
  rewrite path_suffix by apply Hs. destruct (has_suffix_str "]" s).
  - change ("/[" ++ x ++ "]") with ("/" ++ "[" ++ x ++ "]"). rewrite new_path_snoc by (destruct segs; discriminate).
    rewrite fields_new; auto; [now rewrite <- List.app_assoc|]. apply Forall_app. split; [apply Forall_app; auto|].
    constructor; [|constructor]. split; [discriminate|exact Hb].
  - unfold new_path. rewrite !app_assoc, <- join_last. change (ns ++ ":" ++ join "/" (segs ++ [(s ++ "[" ++ x ++ "]")%string])%list) with (new_path ns (segs ++ [(s ++ "[" ++ x ++ "]")%string])%list).
    rewrite fields_new; auto. apply Forall_app. split; auto. constructor; [|constructor]. split.
    + destruct s; cbn; [|discriminate]. destruct Hs; congruence.
    + apply no_char_app; [apply Hs|exact Hb].
Qed.

Lemma append_index_fields ns segs s i : no_char ":" ns -> Forall seg_ok (segs ++ [s]) ->
  fields (append_index (new_path ns (segs ++ [s])%list) i) =
  if has_suffix_str "]" s then (segs ++ [s; ("[" ++ itoa i ++ "]")%string])%list else (segs ++ [(s ++ "[" ++ itoa i ++ "]")%string])%list.
Proof. intros. apply append_text_fields; auto. apply itoa_no_char; reflexivity. Qed.
Lemma append_lang_fields ns segs s l : no_char ":" ns -> Forall seg_ok (segs ++ [s]) -> no_char "/" l ->
  fields (append_index_string (new_path ns (segs ++ [s])%list) l) =
  if has_suffix_str "]" s then (segs ++ [s; ("[" ++ l ++ "]")%string])%list else (segs ++ [(s ++ "[" ++ l ++ "]")%string])%list.
Proof. intros. now apply append_text_fields. Qed.
