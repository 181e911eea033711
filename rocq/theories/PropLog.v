(* C141: log messages *)
From Coq Require Import List Arith ZArith Bool Ascii String Lia.
From Verif Require Import GoStr GoStrFacts LogM.
Import ListNotations.
Local Open Scope string_scope.

(* the level set last, or the initial one *)
Definition is_set (o : log_op) : bool := match o with LSet _ => true | _ => false end.
Definition level_in_force (h : list log_op) : Z := match find is_set (rev h) with Some (LSet n) => n | _ => 3%Z end.
(* the rank of the levels, as the constants of the package: LogLevelDebug 1 to LogLevelError 4 *)
Definition rank (l : level) : Z := match l with Debug => 1 | Info => 2 | Warning => 3 | Error => 4 end%Z.

Lemma run_app h1 : forall cur h2, log_run cur (h1 ++ h2)%list =
  (log_run cur h1 ++ log_run (match find is_set (rev h1) with Some (LSet n) => n | _ => cur end) h2)%list.
Proof.
  induction h1 as [|o h IH]; intros cur h2; [reflexivity|]. cbn [log_run List.app rev].
  assert (F : forall l : list log_op, find is_set (l ++ [o])%list = match find is_set l with Some x => Some x | None => if is_set o then Some o else None end).
  { induction l as [|x l IHl]; cbn; [reflexivity|]. destruct (is_set x); auto. }
  rewrite F. destruct (log_step cur o) as [c out] eqn:E. rewrite IH, <- List.app_assoc. do 3 f_equal.
  destruct (find is_set (rev h)) as [x|] eqn:Ex.
  - apply find_some in Ex. destruct Ex as [_ Ex]. destruct x; cbn in Ex; try discriminate. reflexivity.
  - destruct o; cbn in E |- *; injection E as <- _; reflexivity.
Qed.

(* A message is written exactly if its level is at least the level in force when it is logged; setting the level writes nothing. This
   fixes the output of every history. *)
Theorem C141_levels : forall h o,
  log_run first_level [] = [] /\
  log_run first_level (h ++ [o])%list = (log_run first_level h ++
    match o with
    | LSet _ => []
    | LPlain l v => if (level_in_force h <=? rank l)%Z then [output l v] else []
    | LFormat l s v => if (level_in_force h <=? rank l)%Z then [outputf l s v] else []
    end)%list.
Proof.
  intros h o. split; [reflexivity|]. rewrite run_app. f_equal.
  change (log_run (match find is_set (rev h) with Some (LSet n) => n | _ => first_level end) [o]) with (log_run (level_in_force h) [o]).
  destruct o as [n|l v|l s v]; cbn [log_run log_step]; rewrite ?List.app_nil_r; auto; change (level_num l) with (rank l).
  - rewrite Z.leb_antisym. now destruct (rank l <? level_in_force h)%Z.
  - rewrite Z.leb_antisym. now destruct (rank l <? level_in_force h)%Z.
Qed.
Print Assumptions C141_levels.

(* a format with its arguments: pieces of text without per cent signs, each followed by an argument, and a last piece *)
Fixpoint format_of (ps : list (string * string)) (last : string) : string :=
  match ps with [] => last | (t, _) :: r => t ++ "%s" ++ format_of r last end.
Fixpoint message_of (ps : list (string * string)) (last : string) : string :=
  match ps with [] => last | (t, a) :: r => t ++ a ++ message_of r last end.
Definition no_percent (s : string) : Prop := has_char "%" s = false.
(* the name of the level as it is written *)
Definition level_name (l : level) : string := match l with Debug => "Debug" | Info => "Info" | Warning => "Warn" | Error => "Error" end.

Lemma plain_text t : forall s l, no_percent t -> sprintf (t ++ s) l = option_map (fun x => t ++ x) (sprintf s l).
Proof.
  induction t as [|c t IH]; intros s l H; cbn [append].
  - destruct (sprintf s l); reflexivity.
  - unfold no_percent in *. cbn [has_char] in H. apply orb_false_iff in H. destruct H as [H1 H2].
    assert (E : sprintf (String c (t ++ s)) l = option_map (String c) (sprintf (t ++ s) l)).
    { destruct c as [[] [] [] [] [] [] [] []]; try reflexivity. discriminate H1. }
    rewrite E, IH by auto. destruct (sprintf s l); reflexivity.
Qed.
Lemma formatted ps : forall last, Forall (fun p => no_percent (fst p)) ps -> no_percent last ->
  sprintf (format_of ps last) (map snd ps) = Some (message_of ps last).
Proof.
  induction ps as [|[t a] ps IH]; intros last H1 H2; cbn [format_of message_of map snd].
  - rewrite <- (app_nil_r last) at 1. rewrite plain_text by auto. cbn. now rewrite app_nil_r.
  - inversion H1 as [|? ? Q1 Q2]; subst. rewrite plain_text by exact Q1. cbn [append sprintf Ascii.eqb Bool.eqb orb]. rewrite IH by auto. reflexivity.
Qed.
Lemma format_app ps : forall last x, format_of ps (last ++ x) = format_of ps last ++ x.
Proof. induction ps as [|[t a] ps IH]; intros last x; cbn [format_of]; [reflexivity|]. now rewrite IH, !app_assoc. Qed.
Lemma message_app ps : forall last x, message_of ps (last ++ x) = message_of ps last ++ x.
Proof. induction ps as [|[t a] ps IH]; intros last x; cbn [message_of]; [reflexivity|]. now rewrite IH, !app_assoc. Qed.
Lemma no_percent_line s : no_percent s -> no_percent (s ++ newline).
Proof. unfold no_percent. induction s as [|c s IH]; cbn [append has_char]; [reflexivity|]. intros H. apply orb_false_iff in H. destruct H. rewrite H. auto. Qed.

Lemma last_char t : forall u a b, t ++ String a "" = u ++ String b "" -> a = b.
Proof.
  induction t as [|c t IH]; intros [|d u] a b H; cbn in H; injection H; intros; subst; auto.
  - destruct u; discriminate.
  - destruct t; discriminate.
  - eapply IH; eauto.
Qed.

(* Errorf and its like: one line made of the name of the level and the message, with exactly one newline added, none if the format ends
   with one. Missing for the full property: Error and its like. *)
Theorem C141_formatted_partial : forall l ps last, Forall (fun p => no_percent (fst p)) ps -> no_percent last ->
  (has_suffix_str newline (format_of ps last) = false ->
   outputf l (format_of ps last) (map snd ps) = Some (level_name l ++ ": " ++ message_of ps last ++ newline)) /\
  outputf l (format_of ps (last ++ newline)) (map snd ps) = Some (level_name l ++ ": " ++ message_of ps last ++ newline).
Proof.
  intros l ps last H1 H2.
  assert (S1 : sprintf ("%s " ++ format_of ps last ++ newline) (level_prefix l :: map snd ps) = Some (level_name l ++ ": " ++ message_of ps last ++ newline)).
  { rewrite <- format_app. change ("%s " ++ format_of ps (last ++ newline)) with ("%s" ++ (" " ++ format_of ps (last ++ newline))).
    cbn [append sprintf Ascii.eqb Bool.eqb orb]. rewrite formatted; [|auto|now apply no_percent_line]. cbn [option_map]. rewrite message_app.
    f_equal. destruct l; reflexivity. }
  assert (S2 : log_printf ("%s " ++ format_of ps last ++ newline) (level_prefix l :: map snd ps) = Some (level_name l ++ ": " ++ message_of ps last ++ newline)).
  { unfold log_printf. rewrite S1. cbn [option_map]. unfold ends_line.
    replace (level_name l ++ ": " ++ message_of ps last ++ newline) with ((level_name l ++ ": " ++ message_of ps last) ++ newline) by now rewrite !app_assoc.
    now rewrite has_suffix_app. }
  split.
  - intros Hn. unfold outputf, default_logger, ends_line.
    destruct (has_suffix_str newline ("%s " ++ format_of ps last)) eqn:E.
    + exfalso. apply has_suffix_spec in E. destruct E as [t E].
      assert (exists u, format_of ps last = u ++ newline) as [u Eu]; [|rewrite Eu, has_suffix_app in Hn; discriminate].
      destruct t as [|c1 [|c2 [|c3 t]]]; cbn in E; injection E; try discriminate; intros; subst; eauto.
    + rewrite app_assoc. exact S2.
  - unfold outputf, default_logger, ends_line. rewrite format_app, <- app_assoc, has_suffix_app, app_assoc. exact S2.
Qed.
Print Assumptions C141_formatted_partial.

(* Error, Warn, Info and Debug: the message is not written as such but as a complaint of package fmt on a second line *)
Theorem C141_plain_refuted : forall l m, output l [m] = Some (level_name l ++ ":" ++ newline ++ "%!(EXTRA string=" ++ m ++ ")" ++ newline).
Proof.
  intros l m. unfold output, default_logger, log_printf. cbn [ends_line]. 
  change (sprintf (if ends_line "%s" then "%s" else "%s" ++ newline) (level_prefix l :: [m])) with (Some (level_prefix l ++ newline ++ "%!(EXTRA string=" ++ m ++ ")")).
  cbn [option_map]. destruct (ends_line _) eqn:E.
  - exfalso. unfold ends_line in E. apply has_suffix_spec in E. destruct E as [t E].
    replace (level_prefix l ++ newline ++ "%!(EXTRA string=" ++ m ++ ")") with ((level_prefix l ++ newline ++ "%!(EXTRA string=" ++ m) ++ ")") in E by now rewrite !app_assoc.
    apply last_char in E. discriminate E.
  - f_equal. rewrite !app_assoc. destruct l; reflexivity.
Qed.
Print Assumptions C141_plain_refuted.

Example C141_hyps :
  log_run first_level [LFormat Info "x" []; LSet 1; LFormat Debug "a %s b%s" ["1"; "%s"]; LSet 4; LFormat Warning "y" []; LFormat Error "z" []] =
    [Some ("Debug: a 1 b%s" ++ newline); Some ("Error: z" ++ newline)] /\
  format_of [("a ", "1"); (" b", "%s")] "" = "a %s b%s" /\ Forall (fun p => no_percent (fst p)) [("a ", "1"); (" b", "%s")].
Proof. split; [vm_compute; reflexivity|]. split; [reflexivity|]. repeat constructor. Qed.
