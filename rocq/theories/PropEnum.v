(* C149: names of enumerated values *)
From Coq Require Import List ZArith Bool Ascii String Lia.
From Verif Require Import GoStr GoStrFacts RegistryM NodeM CodecM EnumM.
Import ListNotations.
Local Open Scope string_scope.

(* ---- specification: the names in the iXML and iTunes documents ---- *)
Definition media_names : list (Z * string) :=
  [(0, "Home Video"); (1, "Music"); (2, "Audiobook"); (5, "Whacked Bookmark"); (6, "Music Video"); (9, "Movie");
   (10, "TV Show"); (11, "Booklet"); (14, "Ringtone"); (21, "Podcast")]%Z.
(* texts that hold no comma *)
Definition one_word (s : string) : Prop := has_char "," s = false.

(* ---- proofs ---- *)
Ltac chain := repeat match goal with |- context [if ?a =? ?b then _ else _] => destruct (String.eqb_spec a b) as [-> | ?]; [try reflexivity|] end; try reflexivity.

(* Reading any take type, location type or location time keeps the text, known or not. *)
Theorem C149_any_text : forall s, parse_take_type s = s /\ parse_location_type s = s /\ parse_location_time s = s.
Proof. intros s. unfold parse_take_type, parse_location_type, parse_location_time. repeat split; chain. Qed.

(* So a list that was written is read back, whatever words it holds and whatever was there before. *)
Theorem C149_lists : forall parse l old, In parse [parse_take_type; parse_location_type; parse_location_time] -> l <> [] -> Forall one_word l ->
  list_unmarshal parse old (join "," l) = Ok l.
Proof.
  intros parse l old P N F.
  assert (I : forall s, parse s = s) by (intros s; destruct (C149_any_text s) as (A & B & C); destruct P as [<-|[<-|[<-|[]]]]; assumption).
  unfold list_unmarshal. rewrite (split_join "," l); [|exact N|exact F].
  destruct l; [now elim N|]. f_equal. rewrite <- (map_id (s :: l)) at 2. apply map_ext. exact I.
Qed.

(* Every text is read, as the words between its commas: the lists of CodecM, which leave the parsers out, do the same. *)
Theorem C149_lists_total : forall parse old s, In parse [parse_take_type; parse_location_type; parse_location_time] ->
  exists l, list_unmarshal parse old s = Ok l /\ words_unmarshal old s = Ok l /\ l <> [] /\ Forall one_word l /\ join "," l = s.
Proof.
  intros parse old s P.
  assert (I : forall s, parse s = s) by (intros s'; destruct (C149_any_text s') as (A & B & C); destruct P as [<-|[<-|[<-|[]]]]; assumption).
  exists (split_char "," s). pose proof (split_char_nonempty "," s) as N. split; [|split; [reflexivity|split; [exact N|split; [apply split_char_parts|apply join_split]]]].
  unfold list_unmarshal. destruct (split_char "," s) as [|w l]; [now elim N|]. f_equal. rewrite <- (map_id (w :: l)) at 2. apply map_ext. exact I.
Qed.

(* A timecode flag is DF or NDF; every other text is refused, also the empty one. *)
Theorem C149_timecode_flag : forall old s f, timecode_flag_unmarshal old s = Ok f <-> f = s /\ (s = "DF" \/ s = "NDF").
Proof.
  intros old s f. unfold timecode_flag_unmarshal, parse_timecode_flag.
  destruct (String.eqb_spec s "DF") as [-> | A]; [cbn; split; [intros [= <-]; auto | intros [-> _]; reflexivity]|].
  destruct (String.eqb_spec s "NDF") as [-> | B]; [cbn; split; [intros [= <-]; auto | intros [-> _]; reflexivity]|].
  cbn. split; [discriminate|]. intros [_ [E | E]]; contradiction.
Qed.
Theorem C149_timecode_flag_refused : forall old s, s <> "DF" -> s <> "NDF" -> exists e, timecode_flag_unmarshal old s = Err e.
Proof.
  intros old s A B. unfold timecode_flag_unmarshal, parse_timecode_flag.
  apply String.eqb_neq in A, B. rewrite A, B. eexists. reflexivity.
Qed.

(* A known media type has its name; any other is shown as its number in parentheses. *)
Lemma media_cases : forall x, (exists s, In (x, s) media_names /\ media_type_string x = s) \/
  (~ In x (map fst media_names) /\ media_type_string x = "(" ++ itoa x ++ ")").
Proof.
  intros x. unfold media_type_string.
  repeat match goal with |- context [if Z.eqb x ?k then _ else _] =>
    destruct (Z.eqb_spec x k) as [-> | ?]; [left; eexists; split; [|reflexivity]; cbn; tauto|] end.
  right. split; [|reflexivity]. cbn. intros H. repeat destruct H as [H|H]; try congruence; try exact H.
Qed.
Theorem C149_media_known : forall x s, In (x, s) media_names -> media_type_string x = s.
Proof. intros x s H. cbn in H. repeat destruct H as [[= <- <-]|H]; try reflexivity; try destruct H. Qed.
Theorem C149_media_other : forall x, ~ In x (map fst media_names) -> media_type_string x = "(" ++ itoa x ++ ")".
Proof.
  intros x H. destruct (media_cases x) as [(s & I & _)|[_ E]]; [|exact E]. elim H. apply in_map_iff. now exists (x, s).
Qed.
(* Different media types have different names. *)
Theorem C149_media_distinct : forall x y, int64 x -> int64 y -> media_type_string x = media_type_string y -> x = y.
Proof.
  intros x y Hx Hy E. destruct (media_cases x) as [(s & I & A)|[_ A]], (media_cases y) as [(t & J & B)|[_ B]]; rewrite A, B in E.
  - subst t. cbn in I, J. repeat destruct I as [[= <- <-]|I]; try destruct I; repeat destruct J as [[= <-]|J]; try destruct J; reflexivity.
  - exfalso. cbn in I. repeat destruct I as [[= <- <-]|I]; try destruct I; discriminate E.
  - exfalso. cbn in J. repeat destruct J as [[= <- <-]|J]; try destruct J; discriminate E.
  - apply app_inj_l, app_inj_r in E. apply (f_equal atoi) in E. rewrite !atoi_itoa in E by assumption. now injection E.
Qed.
(* The default language is the first of the list, and empty for an empty list. *)
Theorem C149_default : forall l, (l = [] -> locale_default l = "") /\ (forall s r, l = s :: r -> locale_default l = s).
Proof. intros l. split; [intros -> | intros s r ->]; reflexivity. Qed.
Print Assumptions C149_any_text.
Print Assumptions C149_lists.
Print Assumptions C149_lists_total.
Print Assumptions C149_timecode_flag.
Print Assumptions C149_timecode_flag_refused.
Print Assumptions C149_media_known.
Print Assumptions C149_media_other.
Print Assumptions C149_media_distinct.
Print Assumptions C149_default.

Example C149_hyps : Forall one_word ["NO_GOOD"; "MY_TYPE"] /\ list_unmarshal parse_take_type ["PICKUP"] "NO_GOOD,MY_TYPE" = Ok ["NO_GOOD"; "MY_TYPE"] /\
  timecode_flag_unmarshal "" "NDF" = Ok "NDF" /\ int64 (-3) /\ int64 21 /\ ~ In (-3)%Z (map fst media_names) /\ media_type_string (-3) = "(-3)" /\
  In (21%Z, "Podcast") media_names.
Proof.
  split; [repeat constructor|]. split; [reflexivity|]. split; [reflexivity|]. split; [unfold int64, int_ok; lia|]. split; [unfold int64, int_ok; lia|].
  split; [cbn; intros H; repeat destruct H as [H|H]; try discriminate; try exact H|]. split; [reflexivity|]. cbn; tauto.
Qed.
