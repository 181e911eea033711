(* C146: the changes recorded in a history, written and read *)
From Coq Require Import List Arith ZArith Bool Ascii String Lia.
From Verif Require Import GoStr GoStrFacts Spec CodecM SpecCodec CodecFacts CodecFacts2 MmM SpecMm MmFacts.
Import ListNotations.
Local Open Scope string_scope.

(* ---- specification ---- *)
Fixpoint ends_with_slash (s : string) : bool :=
  match s with "" => false | String c "" => (c =? "/")%char | String _ r => ends_with_slash r end.
(* the place a path names: with a slash before and behind *)
Definition place (p : string) : string :=
  let q := with_slash p in if ends_with_slash q then q else q ++ "/".
(* a path the notation of parts can hold *)
Definition plain_path (p : string) : Prop := lacks ";" p /\ ~ exists a b, p = a ++ "time:" ++ b.

(* ---- proofs ---- *)
Lemma ends_app : forall s, ends_with_slash (s ++ "/") = true.
Proof. induction s as [|c s IH]; [reflexivity|]. cbn [append ends_with_slash]. destruct s; [reflexivity|exact IH]. Qed.
Lemma ends_inv : forall s, ends_with_slash s = true -> exists q, s = q ++ "/".
Proof.
  induction s as [|c s IH]; [discriminate|]. cbn [ends_with_slash]. destruct s as [|d s].
  - intros H. apply Ascii.eqb_eq in H. subst. now exists "".
  - intros H. destruct (IH H) as [q E]. exists (String c q). cbn [append]. now rewrite E.
Qed.
Lemma ends_suffix : forall s, has_suffix_str "/" s = ends_with_slash s.
Proof.
  intros s. destruct (ends_with_slash s) eqn:E.
  - destruct (ends_inv s E) as [q ->]. apply has_suffix_spec. now exists q.
  - destruct (has_suffix_str "/" s) eqn:H; [|reflexivity]. apply has_suffix_spec in H. destruct H as [q ->]. now rewrite ends_app in E.
Qed.
Lemma with_slash_idem : forall p, with_slash (with_slash p) = with_slash p.
Proof. intros p. destruct p as [|c p]; [reflexivity|]. unfold with_slash. destruct c as [[] [] [] [] [] [] [] []]; reflexivity. Qed.
Lemma place_with_slash : forall p, place (with_slash p) = place p.
Proof. intros p. unfold place. now rewrite with_slash_idem. Qed.
Lemma ends_with_slash_with : forall p, p <> "" -> ends_with_slash (with_slash p) = ends_with_slash p.
Proof.
  intros p H. destruct p as [|c p]; [now elim H|]. unfold with_slash.
  destruct c as [[] [] [] [] [] [] [] []]; reflexivity.
Qed.
Lemma with_slash_app : forall p q, p <> "" -> with_slash (p ++ q) = with_slash p ++ q.
Proof.
  intros p q H. destruct p as [|c p]; [now elim H|]. unfold with_slash. cbn [append].
  destruct c as [[] [] [] [] [] [] [] []]; reflexivity.
Qed.
Lemma slash_prefix_with : forall s, slash_prefix s = with_slash s.
Proof. exact prefix_slash. Qed.

Lemma written : forall p, slash_prefix (part_marshal (at_path p)) = place p.
Proof.
  intros p. rewrite slash_prefix_with. unfold part_marshal, at_path. cbn [p_path p_dur].
  change (fc_zero (FC 0 (FR 0 0))) with true. cbv iota. rewrite app_nil_r, ends_suffix. unfold place.
  destruct p as [|c p]; [reflexivity|]. rewrite ends_with_slash_with by discriminate. cbn [emptyb negb andb].
  destruct (ends_with_slash (String c p)); cbn [negb]; [now rewrite app_nil_r|]. now rewrite with_slash_app by discriminate.
Qed.
Lemma place_ends : forall p, exists q, place p = q ++ "/".
Proof. intros p. unfold place. destruct (ends_with_slash (with_slash p)) eqn:E; [now apply ends_inv|now exists (with_slash p)]. Qed.
Lemma with_slash_starts : forall p, exists q, with_slash p = "/" ++ q.
Proof.
  intros p. destruct p as [|c p]; [now exists ""|]. unfold with_slash. destruct c as [[] [] [] [] [] [] [] []];
    try (now exists p); eexists; reflexivity.
Qed.
Lemma place_starts : forall p, exists q, place p = "/" ++ q.
Proof.
  intros p. unfold place. destruct (with_slash_starts p) as [q E]. rewrite E. destruct (ends_with_slash ("/" ++ q)); [now exists q|].
  exists (q ++ "/"). reflexivity.
Qed.
Lemma place_idem : forall p, place (place p) = place p.
Proof.
  intros p. unfold place at 1. destruct (place_starts p) as [q E].
  assert (W : with_slash (place p) = place p) by (rewrite E; reflexivity). rewrite W.
  destruct (place_ends p) as [r R]. rewrite R, ends_app. reflexivity.
Qed.

(* written again, the paths read give the same text *)
Lemma same_text : forall l, parts_marshal (map (fun p => at_path (place p)) l) = parts_marshal (map at_path l).
Proof.
  intros l. unfold parts_marshal. f_equal. rewrite !map_map. apply map_ext. intros p. rewrite !written. apply place_idem.
Qed.

Lemma tail_inj : forall s t c d, s ++ String c "" = t ++ String d "" -> s = t /\ c = d.
Proof.
  induction s as [|x s IH]; intros [|y t] c d E; cbn [append] in E.
  - injection E as ->. now split.
  - injection E as _ E. destruct t; discriminate.
  - injection E as _ E. destruct s; discriminate.
  - injection E as -> E. destruct (IH _ _ _ E) as [-> ->]. now split.
Qed.
Lemma last_case : forall s, s = "" \/ exists t c, s = t ++ String c "".
Proof.
  induction s as [|x s IH]; [now left|]. right. destruct IH as [->|(t & c & ->)]; [now exists "", x|now exists (String x t), c].
Qed.
Lemma time_front : forall s, (exists a b, "/" ++ s = a ++ "time:" ++ b) -> exists a b, s = a ++ "time:" ++ b.
Proof.
  intros s (a & b & E). destruct a as [|c a]; [discriminate|]. cbn [append] in E. injection E as _ E. now exists a, b.
Qed.
Lemma time_back : forall s, (exists a b, s ++ "/" = a ++ "time:" ++ b) -> exists a b, s = a ++ "time:" ++ b.
Proof.
  intros s (a & b & E). destruct (last_case b) as [->|(t & c & ->)].
  - exfalso. change ("time:" ++ "") with ("time" ++ ":") in E. rewrite <- app_assoc in E. apply tail_inj in E. destruct E as [_ E]. discriminate.
  - rewrite <- !app_assoc in E. apply tail_inj in E. destruct E as [-> _]. exists a, t. now rewrite app_assoc.
Qed.
Lemma lacks_front : forall s, lacks ";" s -> lacks ";" ("/" ++ s).
Proof. intros s H (a & b & E). destruct a as [|c a]; [discriminate|]. cbn [append] in E. injection E as _ E. apply H. now exists a, b. Qed.
Lemma lacks_back : forall s, lacks ";" s -> lacks ";" (s ++ "/").
Proof.
  intros s H (a & b & E). destruct (last_case b) as [->|(t & c & ->)].
  - apply tail_inj in E. destruct E as [_ E]. discriminate.
  - change (String ";" (t ++ String c "")) with (String ";" t ++ String c "") in E. rewrite <- app_assoc in E. apply tail_inj in E.
    destruct E as [-> _]. apply H. now exists a, t.
Qed.
Lemma plain_with_slash : forall p, plain_path p -> plain_path (with_slash p).
Proof.
  intros p [A B]. assert (K : with_slash p = p \/ with_slash p = "/" ++ p).
  { destruct p as [|c p]; [now right|]. unfold with_slash. destruct c as [[] [] [] [] [] [] [] []]; auto. }
  destruct K as [-> | ->]; [now split|]. split; [now apply lacks_front|]. intros T. apply B. now apply time_front.
Qed.
Lemma plain_place : forall p, plain_path p -> plain_path (place p).
Proof.
  intros p H. apply plain_with_slash in H. unfold place. destruct (ends_with_slash (with_slash p)); [exact H|].
  destruct H as [A B]. split; [now apply lacks_back|]. intros T. apply B. now apply time_back.
Qed.

(* Paths that hold neither a semicolon nor the word before a time are read back as the places they name. *)
Theorem C146_read_back_partial : forall l old, l <> [] -> Forall plain_path l ->
  parts_unmarshal old (parts_marshal (map at_path l)) = Ok (map (fun p => at_path (place p)) l).
Proof.
  intros l old N H. rewrite <- same_text. apply parts_rt.
  - destruct l; [now elim N|discriminate].
  - apply Forall_map. eapply Forall_impl; [|exact H]. intros p P. cbn beta. apply plain_place in P. destruct P as [A B].
    split; [|split; [|exact A]].
    + split; [|left; now split]. split; [|exact B]. right. apply place_ends.
    + destruct (place_starts p) as [q E]. cbn [p_path at_path]. rewrite E. unfold has_prefix_str. now destruct q.
Qed.
Print Assumptions C146_read_back_partial.

(* Writing what was read gives the same text again, so a history does not change any more, for all paths. *)
Theorem C146_stable : forall l, parts_marshal (map (fun p => at_path (place p)) l) = parts_marshal (map at_path l).
Proof. exact same_text. Qed.
Print Assumptions C146_stable.

(* The whole history: after any program that sets identifiers and records changes with such paths, what is written for
   the i-th entry is read back as the places of all changes of the i-th run, in order. *)
Theorem C146_history_partial : forall agent h, only_records h -> Forall (fun c => plain_path (c_changed c)) (calls "" "" h) ->
  exists m runs, mm_run agent mm_empty h = Ok m /\ runs_of (calls "" "" h) runs /\
    List.length (entries m) = List.length runs /\
    forall i r, nth_error runs i = Some r -> exists v, nth_error (entries m) i = Some (Some v) /\
      forall old, parts_unmarshal old (parts_marshal (ev_changed (sv_event v))) =
        Ok (map (fun c => at_path (place (c_changed c))) (fst r :: snd r)).
Proof.
  intros agent h O P. destruct (log agent h O) as (m & runs & R & C & E & _). exists m, runs.
  split; [exact R|]. split; [exact C|]. split; [rewrite E; apply map_length|]. intros i r I.
  exists (entry_of agent r). split; [rewrite E; now apply (map_nth_error (fun r => Some (entry_of agent r)))|].
  intros old. destruct C as (C & _). rewrite <- C in P.
  assert (Q : Forall (fun c => plain_path (c_changed c)) (fst r :: snd r)).
  { rewrite Forall_forall in P. apply Forall_forall. intros c J. apply P. apply in_concat. exists (fst r :: snd r). split; [|exact J].
    apply in_map_iff. exists r. split; [reflexivity|]. eapply nth_error_In; exact I. }
  destruct r as [c rest]. cbn [entry_of sv_event ev_changed fst snd] in *.
  replace (at_path (with_slash (c_changed c)) :: map (fun x => at_path (c_changed x)) rest)
    with (map at_path (with_slash (c_changed c) :: map c_changed rest)) by (cbn [map]; now rewrite map_map).
  rewrite C146_read_back_partial.
  - cbn [map]. now rewrite map_map, place_with_slash.
  - discriminate.
  - apply Forall_cons_iff in Q. destruct Q as [Q1 Q2]. constructor; [now apply plain_with_slash|]. apply Forall_map. exact Q2.
Qed.
Print Assumptions C146_history_partial.

(* A path with a semicolon is read as two; with a time in it the history cannot be read at all. *)
Theorem C146_semicolon_refuted :
  parts_unmarshal [] (parts_marshal [at_path "/a;b"]) = Ok [at_path "/a"; at_path "b/"].
Proof. vm_compute. reflexivity. Qed.
Print Assumptions C146_semicolon_refuted.
Theorem C146_time_refuted : forall old, exists e, parts_unmarshal old (parts_marshal [at_path "/overtime:late"]) = Err e.
Proof. intros old. eexists. vm_compute. reflexivity. Qed.
Print Assumptions C146_time_refuted.

Definition h146 : list mm_op :=
  [OVersion "1"; ORecord "edited" "ann" "color" "d1"; ORecord "edited" "bob" "/audio" "d2"; OVersion "2"; ORecord "saved" "ann" "/x/" "d3"].
Example C146_hyps : only_records h146 /\ Forall (fun c => plain_path (c_changed c)) (calls "" "" h146) /\
  parts_marshal (map at_path ["color"; "/audio"; ""]) = "/color/;/audio/;/" /\
  map place ["color"; "/audio"; ""; "/x/"] = ["/color/"; "/audio/"; "/"; "/x/"].
Proof.
  split; [repeat constructor|]. split; [|split; reflexivity].
  cbn [calls h146]. repeat apply Forall_cons; try apply Forall_nil; (split; intros (a & b & E); cbn [c_changed] in E;
    repeat (destruct a as [|? a]; [discriminate E|try discriminate E; cbn [append] in E; injection E as _ E])).
Qed.
