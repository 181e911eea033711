(* C40, C41, C43: language alternatives and string lists *)
From Coq Require Import List Arith ZArith Bool Ascii String Lia.
From Verif Require Import GoStr ArrayM SpecArray ArrayFacts.
Import ListNotations.
Local Open Scope string_scope.

(* ---- C40 ---- *)
(* after any calls on an empty AltString the first item, and no other, is a default: at most one default *)
Theorem C40_one_default : forall h l, alt_run [] h = Ok l -> one_default l.
Proof. intros h l H. exact (run_one_default h [] l I H). Qed.
Print Assumptions C40_one_default.

(* Get returns the value last stored, when Set and AddDefault are used *)
Theorem C40_get_last_stored_partial : forall h l lang, only_set_and_add_default h -> lang <> "" ->
  alt_run [] h = Ok l -> alt_get l lang = last_stored h lang.
Proof.
  intros h l lang Ho Hl H. etransitivity; [exact (sa_run h lang Hl Ho [] l I H)|]. unfold last_stored.
  replace (alt_get [] lang) with ""; [reflexivity|]. unfold alt_get. destruct (emptyb lang); reflexivity.
Qed.
Print Assumptions C40_get_last_stored_partial.

(* ... and with all calls, when Add, AddUnique and AddDefault are used for new languages; then no language occurs twice *)
Theorem C40_get_last_stored_new_languages_partial : forall h l lang, adds_new_languages h -> lang <> "" ->
  alt_run [] h = Ok l -> alt_get l lang = last_stored h lang /\ NoDup (map ai_lang l).
Proof.
  intros h l lang Ho Hl H. destruct (new_run h lang Hl [] [] l I (NoDup_nil _) (fun x X => match X with end) (fun b o a E => Ho b o a E) H) as [N E].
  split; auto. rewrite E. unfold last_stored. replace (alt_get [] lang) with ""; [reflexivity|]. unfold alt_get. destruct (emptyb lang); reflexivity.
Qed.
Print Assumptions C40_get_last_stored_new_languages_partial.

(* Get("") and Default return the value of the default: AddDefault makes its value the default, Set and Add keep the
   default unless Set changes its value *)
Theorem C40_default_value : forall h l lang v, v <> "" -> alt_run [] h = Ok l ->
  alt_get (alt_add_default l lang v) "" = v /\
  (forall l', alt_add l lang v = Ok l' -> l <> [] -> alt_get l' "" = alt_get l "") /\
  (forall l', alt_set l lang v = Ok l' -> lacks_lang l lang -> l <> [] -> alt_get l' "" = alt_get l "").
Proof.
  intros h l lang v Hv H. pose proof (run_one_default h [] l I H) as O. split; [|split].
  - apply add_default_get; auto.
  - intros l' K Hne. change (alt_default l' = alt_default l). eapply add_get; eauto.
  - intros l' K Hn Hne. change (alt_default l' = alt_default l). destruct (set_get l lang v l' O Hv K) as (_ & _ & _ & ->).
    destruct l as [|x l]; [congruence|]. destruct O as [Hd _]. rewrite default_head by auto.
    now rewrite (proj2 (String.eqb_neq _ _) (Hn x (or_introl eq_refl))).
Qed.
Print Assumptions C40_default_value.

(* other languages are untouched by every call *)
Theorem C40_other_languages_untouched : forall h l o l' lang, alt_run [] h = Ok l -> alt_step l o = Ok l' -> lang <> "" ->
  (forall g v, o = OpSet g v \/ o = OpAddDefault g v \/ o = OpAdd g v \/ o = OpAddUnique g v \/ o = OpRemoveLang g -> g <> lang) ->
  alt_get l' lang = alt_get l lang.
Proof.
  intros h l o l' lang Hr K Hl Hne. pose proof (run_one_default h [] l I Hr) as O.
  destruct o as [g v|g v|g v|g v|g|]; cbn [alt_step] in K.
  - assert (g <> lang) by (apply (Hne g v); auto). inversion K; subst. destruct (emptyb v) eqn:Ev; [unfold alt_add_default; now rewrite Ev|].
    apply emptyb_neq in Ev. apply add_default_get; auto.
  - assert (g <> lang) by (apply (Hne g v); auto). destruct (emptyb v) eqn:Ev; [unfold alt_add in K; rewrite Ev in K; now inversion K|].
    apply emptyb_neq in Ev. eapply add_get; eauto.
  - assert (g <> lang) by (apply (Hne g v); auto). destruct (emptyb v) eqn:Ev; [unfold alt_add_unique in K; rewrite Ev in K; now inversion K|].
    apply emptyb_neq in Ev. rewrite add_unique_spec in K by auto.
    assert (A : forall l'', alt_add l g v = Ok l'' -> alt_get l'' lang = alt_get l lang) by (intros l'' E; eapply add_get; eauto).
    rewrite alt_add_spec in A by auto. destruct (alt_index l g); [destruct (existsb _ _)|]; cbn in K; inversion K; subst; auto.
  - assert (g <> lang) by (apply (Hne g v); auto). destruct (emptyb v) eqn:Ev; [unfold alt_set in K; rewrite Ev in K; now inversion K|].
    apply emptyb_neq in Ev. destruct (set_get l g v l' O Ev K) as (_ & _ & G & _). auto.
  - assert (g <> lang) by (apply (Hne g ""); auto 10). eapply remove_get; eauto.
  - rewrite ensure_id in K by auto. now inversion K.
Qed.
Print Assumptions C40_other_languages_untouched.

(* Add for a language that is present does not change what Get returns *)
Theorem C40_add_on_present_language_refuted : exists h l lang,
  alt_run [] h = Ok l /\ lang <> "" /\ alt_get l lang <> last_stored h lang.
Proof. exists [OpAdd "en" "a"; OpAdd "en" "b"], [AltItem "a" "en" true; AltItem "b" "en" false], "en". repeat split; discriminate. Qed.
Print Assumptions C40_add_on_present_language_refuted.
(* removing a language brings back the value it had before AddDefault *)
Theorem C40_remove_brings_back_refuted : exists h l lang,
  alt_run [] h = Ok l /\ lang <> "" /\ last_stored h lang = "" /\ alt_get l lang = "a".
Proof. exists [OpAddDefault "en" "a"; OpAddDefault "en" "b"; OpRemoveLang "en"], [AltItem "a" "en" true], "en". repeat split; discriminate. Qed.
Print Assumptions C40_remove_brings_back_refuted.

Definition some_history := [OpSet "en" "house"; OpAdd "de" "Haus"; OpAddDefault "fr" "maison"; OpSet "de" "Heim"; OpRemoveLang "en"].
Example C40_hyps : adds_new_languages some_history /\
  alt_run [] some_history = Ok [AltItem "maison" "fr" true; AltItem "Heim" "de" false] /\
  last_stored some_history "de" = "Heim" /\ last_stored some_history "en" = "".
Proof.
  split; [|repeat split].
  intros b o a E. unfold some_history in E.
  do 5 (destruct b as [|? b]; [inversion E; subst; cbn; intuition (subst; cbn in *; intuition congruence)|inversion E; clear E; rename H1 into E; subst]).
  destruct b; discriminate.
Qed.
Example C40_hyps2 : only_set_and_add_default [OpSet "en" "a"; OpAddDefault "en" "b"; OpSet "en" "c"] /\
  alt_run [] [OpSet "en" "a"; OpAddDefault "en" "b"; OpSet "en" "c"] = Ok [AltItem "c" "en" true; AltItem "a" "en" false].
Proof. split; [|reflexivity]. intros o [<-|[<-|[<-|[]]]]; eauto. Qed.

(* ---- C41 ---- *)
(* on a list reached by calls, the only call that panics is RemoveLang for the language of the default, when at least
   two other items are left *)
Theorem C41_when_calls_panic_partial : forall h l o, alt_run [] h = Ok l ->
  (alt_step l o = Panic <-> exists g x y z post, o = OpRemoveLang g /\ l = x :: y :: z :: post /\ ai_lang x = g).
Proof. intros h l o H. exact (step_panics l o (run_one_default h [] l I H)). Qed.
Print Assumptions C41_when_calls_panic_partial.

(* hence calls other than RemoveLang never panic, in any number and order *)
Theorem C41_no_panic_without_remove_partial : forall h, (forall o, In o h -> forall g, o <> OpRemoveLang g) -> exists l, alt_run [] h = Ok l.
Proof.
  intros h. assert (G : forall l, one_default l -> (forall o, In o h -> forall g, o <> OpRemoveLang g) -> exists l', alt_run l h = Ok l').
  { induction h as [|o h IH]; intros l O Ho; cbn; [eauto|]. destruct (alt_step l o) as [l1|e|] eqn:E.
    - cbn. apply IH. eapply step_one_default; eauto. intros o' Ho'. apply Ho. now right.
    - destruct (step_no_err _ _ _ E).
    - apply step_panics in E as (g & x & y & z & post & E & _); auto. destruct (Ho o (or_introl eq_refl) g E). }
  intros H. exact (G [] I H).
Qed.
Print Assumptions C41_no_panic_without_remove_partial.

(* on any AltString value (as decoded, or built as a literal), Add panics exactly when items but no default are there *)
Theorem C41_when_add_panics_partial : forall l lang v, alt_add l lang v = Panic <-> v <> "" /\ l <> [] /\ no_default l.
Proof. exact add_panics. Qed.
Print Assumptions C41_when_add_panics_partial.
(* the constructor panics exactly when two or more non-empty items are given, none of them a default *)
Theorem C41_when_new_panics_partial : forall args,
  new_alt_string args = Panic <-> 2 <= List.length (new_alt_items args) /\ no_default (new_alt_items args).
Proof. exact new_panics. Qed.
Print Assumptions C41_when_new_panics_partial.

Theorem C41_remove_default_panics_refuted : exists h, alt_run [] h = Panic.
Proof. exists [OpAdd "en" "a"; OpAdd "de" "b"; OpAdd "fr" "c"; OpRemoveLang "en"]. reflexivity. Qed.
Print Assumptions C41_remove_default_panics_refuted.
Theorem C41_new_panics_refuted : new_alt_string [ArgString "a"; ArgString "b"] = Panic.
Proof. reflexivity. Qed.
Print Assumptions C41_new_panics_refuted.
Example C41_hyps : exists h l, alt_run [] h = Ok l /\ List.length l = 3.
Proof. exists [OpAdd "en" "a"; OpAdd "de" "b"; OpAdd "fr" "c"]. eexists. split; reflexivity. Qed.

(* ---- C43 ---- *)
Theorem C43_add : forall l v, v <> "" -> sl_add l v = (l ++ [v])%list.
Proof. intros l v H. unfold sl_add. now rewrite (proj2 (emptyb_neq _) H). Qed.
Print Assumptions C43_add.
Theorem C43_add_unique : forall l v, v <> "" ->
  (In v l -> sl_add_unique l v = l) /\ (~ In v l -> sl_add_unique l v = (l ++ [v])%list).
Proof. exact sl_add_unique_spec. Qed.
Print Assumptions C43_add_unique.
Theorem C43_index : forall l v i, v <> "" -> (sl_index l v = Some i <-> first_pos l v i).
Proof. exact sl_index_some. Qed.
Print Assumptions C43_index.
Theorem C43_contains : forall l v, sl_contains l v = true <-> v <> "" /\ In v l.
Proof. exact sl_contains_iff. Qed.
Print Assumptions C43_contains.
(* Remove of a value that is not there does nothing *)
Theorem C43_remove_absent_partial : forall l v, v = "" \/ ~ In v l -> sl_remove l v = l.
Proof. exact sl_remove_absent. Qed.
Print Assumptions C43_remove_absent_partial.
(* Remove of a value that is there never removes it: everything up to it is repeated and everything behind it is lost *)
Theorem C43_remove_repeats_refuted : forall l v i, v <> "" -> first_pos l v i ->
  sl_remove l v = (firstn i l ++ firstn i l ++ [v])%list /\ In v (sl_remove l v).
Proof.
  intros l v i Hv H. rewrite (sl_remove_present l v i Hv H). split; auto. apply in_or_app. right. apply in_or_app. right. now left.
Qed.
Print Assumptions C43_remove_repeats_refuted.
Theorem C43_identifier_remove_repeats_refuted : forall l v i, first_pos l v i ->
  id_remove l v = (firstn i l ++ firstn i l ++ [v])%list.
Proof. exact id_remove_present. Qed.
Print Assumptions C43_identifier_remove_repeats_refuted.
Theorem C43_new_drops_empty : forall l, new_string_list l = filter (fun s => negb (s =? "")) l.
Proof. intros l. unfold new_string_list. apply filter_ext. intros s. now rewrite eqb_empty. Qed.
Print Assumptions C43_new_drops_empty.

Example C43_hyps : first_pos ["a"; "b"; "c"] "b" 1 /\ sl_remove ["a"; "b"; "c"] "b" = ["a"; "a"; "b"].
Proof. split; [|reflexivity]. split; [reflexivity|]. intros j Hj. assert (j = 0) by lia. subst. discriminate. Qed.
