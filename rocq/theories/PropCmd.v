(* C143: what xmpinfo prints *)
From Coq Require Import List Arith NArith ZArith Bool Ascii String Lia.
From Verif Require Import GoStr GoStrFacts ReaderM SpecReader ReaderFacts PropReader CmdM.
Import ListNotations.
Local Open Scope string_scope.

(* ---- specification ---- *)
(* the metadata of the argument: the whole file for names that end in .xmp, else the first packet; without argument the
   sample document *)
Inductive metadata {D} (l : xmp_lib D) (sizes : nat -> nat) (early : bool) : option file -> string -> Prop :=
| md_demo b d : x_marshal l (x_demo l) = Ok (b, d) -> metadata l sizes early None b
| md_whole p b : metadata l sizes early (Some (File (p ++ ".xmp") (Ok b))) b
| md_packet n b p ps : (forall q, n <> q ++ ".xmp") -> scan_packets b sizes early = Ok (p :: ps) ->
    metadata l sizes early (Some (File n (Ok b))) p.
(* the flags ask for the original: -orig, or nothing was asked for *)
Definition original (fl : flags) : Prop :=
  f_orig fl = true \/ (f_json fl = false /\ f_xmp fl = false /\ f_path fl = false /\ f_quiet fl = false).
(* all packets are asked for, of a file of another kind *)
Definition all_packets (fl : flags) (arg : option file) : Prop :=
  original fl /\ f_all fl = true /\ exists f, arg = Some f /\ forall q, fi_name f <> q ++ ".xmp".
Definition error_line (e name : string) : string := "Error: " ++ e ++ " in file " ++ name.
Definition when (b : bool) (l : list string) : list string := if b then l else [].

(* ---- facts ---- *)
Lemma ext_suffix s : exists p, s = p ++ ext s.
Proof.
  induction s as [|c s (p & IH)]; [now exists ""|]. cbn [ext]. destruct (ext s) eqn:E.
  - destruct (_ && _); [now exists ""|]. exists (String c s). now rewrite app_nil_r.
  - exists (String c p). cbn [append]. now rewrite <- IH.
Qed.
Lemma ext_xmp p : ext (p ++ ".xmp") = ".xmp".
Proof. induction p as [|c p IH]; [reflexivity|]. cbn [append ext]. now rewrite IH. Qed.
(* filepath.Ext is .xmp exactly for the names that end in .xmp *)
Lemma ext_spec n : (ext n =? ".xmp") = true <-> exists p, n = p ++ ".xmp".
Proof.
  rewrite String.eqb_eq. split.
  - intros H. destruct (ext_suffix n) as (p & E). exists p. now rewrite H in E.
  - intros (p & ->). apply ext_xmp.
Qed.
Lemma ext_other n : (forall q, n <> q ++ ".xmp") -> (ext n =? ".xmp") = false.
Proof.
  intros H. destruct (ext n =? ".xmp") eqn:E; auto. apply ext_spec in E. destruct E as (p & E). now destruct (H p).
Qed.
Lemma wants_orig_spec fl : wants_orig fl = true <-> original fl.
Proof. unfold wants_orig, original. destruct fl as [[] [] [] [] [] [] []]; cbn; intuition congruence. Qed.
Lemma wants_orig_false fl : wants_orig fl = false <-> ~ original fl.
Proof. rewrite <- wants_orig_spec. destruct (wants_orig fl); intuition congruence. Qed.
Lemma scan_packets_nonempty s sizes early : scan_packets s sizes early <> Ok [].
Proof. unfold scan_packets. destruct (scan _ _ _ _ _ _) as [[|x l] []]; discriminate. Qed.
Lemma step_ok {A} arg o (a : A) k : step arg o (Ok a) k = ((o ++ fst (k a))%list, snd (k a)).
Proof. cbn. destruct (k a); reflexivity. Qed.

(* the metadata was found: the tool shows it *)
Lemma xmpinfo_show {D} (l : xmp_lib D) fl arg sizes early b : metadata l sizes early arg b -> ~ all_packets fl arg ->
  xmpinfo l fl arg sizes early = show l fl (match arg with Some f => fi_name f | None => "" end) b.
Proof.
  intros M N. unfold xmpinfo. destruct M as [b d H|p b|n b p ps Hn H].
  - rewrite H, step_ok. cbn. now destruct (show l fl "" b).
  - cbn [fi_name fi_bytes]. rewrite step_ok, ext_xmp. cbn. now destruct (show _ _ _ _).
  - cbn [fi_name fi_bytes]. rewrite step_ok, (ext_other _ Hn), H.
    replace (wants_orig fl && f_all fl) with false; [cbn; now destruct (show _ _ _ _)|].
    symmetry. apply not_true_is_false. intros E. apply andb_prop in E. destruct E as [E1 E2]. apply N. split; [now apply wants_orig_spec|].
    split; auto. exists (File n (Ok b)). split; auto.
Qed.

(* ---- C143 ---- *)
(* Without -quiet the tool prints the forms asked for in a fixed order: the original, JSON, XMP, the paths. (The document
   may be changed by writing it: d1 and d2.) *)
Theorem C143_asked_for_partial : forall D (l : xmp_lib D) fl arg sizes early b d j d1 x d2 ps,
  metadata l sizes early arg b -> ~ all_packets fl arg -> f_quiet fl = false -> f_debug fl = false ->
  x_unmarshal l b = Ok d ->
  (if f_json fl then x_json l d = Ok (j, d1) else d1 = d) ->
  (if f_xmp fl then x_marshal l d1 = Ok (x, d2) else d2 = d1) ->
  (f_path fl = true -> x_paths l d2 = Ok ps) ->
  exists orig, (orig = true <-> original fl) /\
  xmpinfo l fl arg sizes early =
    ((when orig [b] ++ when (f_json fl) [j] ++ when (f_xmp fl) [x] ++
      when (f_path fl) (map (fun v => (fst v ++ " = " ++ snd v)%string) ps))%list, Exit 0).
Proof.
  intros D l fl arg sizes early b d j d1 x d2 ps M N Q G U J X P. exists (wants_orig fl). split; [apply wants_orig_spec|].
  rewrite (xmpinfo_show l fl arg sizes early b M N). unfold show, out. rewrite U, Q, G, step_ok.
  destruct (f_json fl); [rewrite J|subst d1]; cbn [bind]; rewrite step_ok; cbn [fst snd];
  (destruct (f_xmp fl); [rewrite X|subst d2]; cbn [bind]; rewrite step_ok; cbn [fst snd];
   (destruct (f_path fl); [rewrite (P eq_refl)|]; cbn [bind]; rewrite step_ok; cbn [fst snd]; unfold when; rewrite ?List.app_nil_r;
    destruct (wants_orig fl); reflexivity)).
Qed.
Print Assumptions C143_asked_for_partial.

(* with -all and the original asked for, all packets of the file are printed, and nothing else *)
Theorem C143_all : forall D (l : xmp_lib D) fl n b sizes early bb, (forall q, n <> q ++ ".xmp") -> original fl ->
  f_all fl = true -> f_quiet fl = false -> scan_packets b sizes early = Ok bb ->
  xmpinfo l fl (Some (File n (Ok b))) sizes early = (bb, Exit 0).
Proof.
  intros D l fl n b sizes early bb Hn O A Q H. unfold xmpinfo. cbn [fi_name fi_bytes]. rewrite step_ok, (ext_other _ Hn), H.
  apply wants_orig_spec in O. rewrite O, A. cbn [andb fst snd app]. unfold out. rewrite Q. f_equal.
  clear. induction bb as [|p bb IH]; cbn; congruence.
Qed.
Print Assumptions C143_all.

(* a file with packets as ScanPackets finds them (C53) *)
Theorem C143_first_packet : forall D (l : xmp_lib D) n b segs tail sizes early p ps, (forall q, n <> q ++ ".xmp") ->
  stream_of b segs tail -> fits segs tail -> (forall i, 16 <= sizes i) ->
  filter is_packet (map snd segs) = p :: ps -> metadata l sizes early (Some (File n (Ok b))) p.
Proof.
  intros D l n b segs tail sizes early p ps Hn S F Z E. apply md_packet with (ps := ps); auto.
  rewrite (scan_packets_spec b segs tail sizes early S F Z), E. reflexivity.
Qed.
Print Assumptions C143_first_packet.

(* a file without packet is no error: nothing is printed *)
Theorem C143_no_packet : forall D (l : xmp_lib D) fl n b segs tail sizes early, (forall q, n <> q ++ ".xmp") ->
  stream_of b segs tail -> fits segs tail -> (forall i, 16 <= sizes i) -> (forall p, In p (map snd segs) -> is_packet p = false) ->
  xmpinfo l fl (Some (File n (Ok b))) sizes early = ([], Exit 0).
Proof.
  intros D l fl n b segs tail sizes early Hn S F Z E. unfold xmpinfo. cbn [fi_name fi_bytes].
  rewrite step_ok, (ext_other _ Hn), (scan_packets_spec b segs tail sizes early S F Z).
  replace (filter is_packet (map snd segs)) with (@nil string); [reflexivity|].
  symmetry. destruct (filter is_packet (map snd segs)) as [|p r] eqn:G; auto.
  assert (I : In p (filter is_packet (map snd segs))) by (rewrite G; now left).
  apply filter_In in I. destruct I as [I1 I2]. now rewrite (E p I1) in I2.
Qed.
Print Assumptions C143_no_packet.

(* ---- errors ---- *)
(* something the tool was asked to do failed with e *)
Inductive failed {D} (l : xmp_lib D) (fl : flags) (sizes : nat -> nat) (early : bool) (arg : option file) (e : string) : Prop :=
| f_sample : arg = None -> x_marshal l (x_demo l) = Err e -> failed l fl sizes early arg e
| f_open f : arg = Some f -> fi_bytes f = Err e -> failed l fl sizes early arg e
| f_scan n b : arg = Some (File n (Ok b)) -> (forall q, n <> q ++ ".xmp") -> scan_packets b sizes early = Err e -> e <> "EOF" ->
    failed l fl sizes early arg e
| f_read b : metadata l sizes early arg b -> ~ all_packets fl arg -> x_unmarshal l b = Err e -> failed l fl sizes early arg e
| f_write b d d1 d2 j x : metadata l sizes early arg b -> ~ all_packets fl arg -> x_unmarshal l b = Ok d ->
    ((f_json fl = true /\ x_json l d = Err e) \/
     ((if f_json fl then x_json l d = Ok (j, d1) else d1 = d) /\
      ((f_xmp fl = true /\ x_marshal l d1 = Err e) \/
       ((if f_xmp fl then x_marshal l d1 = Ok (x, d2) else d2 = d1) /\ f_path fl = true /\ x_paths l d2 = Err e)))) ->
    failed l fl sizes early arg e.
Definition quiet_lib {D} (l : xmp_lib D) : Prop :=
  (forall b, x_unmarshal l b <> Panic) /\ (forall d, x_marshal l d <> Panic) /\ (forall d, x_json l d <> Panic) /\
  (forall d, x_paths l d <> Panic).
Definition arg_name (arg : option file) : string := match arg with Some f => fi_name f | None => "" end.

Lemma metadata_fun {D} (l : xmp_lib D) sizes early arg b b' : metadata l sizes early arg b -> metadata l sizes early arg b' -> b = b'.
Proof.
  intros M M'. destruct M as [b d H|p b|n b p ps Hn H]; inversion M'; subst; try congruence;
    match goal with N : forall q, _ <> q ++ ".xmp" |- _ => exfalso; eapply N; reflexivity end.
Qed.
Definition shown_failed {D} (l : xmp_lib D) (fl : flags) (b e : string) : Prop :=
  x_unmarshal l b = Err e \/
  exists d d1 d2 j x, x_unmarshal l b = Ok d /\
    ((f_json fl = true /\ x_json l d = Err e) \/
     ((if f_json fl then x_json l d = Ok (j, d1) else d1 = d) /\
      ((f_xmp fl = true /\ x_marshal l d1 = Err e) \/
       ((if f_xmp fl then x_marshal l d1 = Ok (x, d2) else d2 = d1) /\ f_path fl = true /\ x_paths l d2 = Err e)))).
Lemma show_spec {D} (l : xmp_lib D) fl arg b : quiet_lib l ->
  (snd (show l fl arg b) = Exit 1 /\ exists e o, shown_failed l fl b e /\ fst (show l fl arg b) = (o ++ [error_line e arg])%list) \/
  (snd (show l fl arg b) = Exit 0 /\ forall e, ~ shown_failed l fl b e).
Proof.
  intros (P1 & P2 & P3 & P4). unfold show. destruct (x_unmarshal l b) as [d|e|] eqn:U; [|left; cbn; split; auto; exists e; eexists; split; [now left|reflexivity]|now destruct (P1 b)].
  rewrite step_ok. cbn [fst snd].
  assert (J : forall r, (if f_json fl then bind (x_json l d) (fun j => Ok (out fl (fst j), snd j)) else Ok ([], d)) = r ->
    match r with
    | Ok (o, d1) => exists j, if f_json fl then x_json l d = Ok (j, d1) else d1 = d
    | Err e => f_json fl = true /\ x_json l d = Err e
    | Panic => False end).
  { intros r <-. destruct (f_json fl); [|now exists ""]. destruct (x_json l d) as [[j d1]|e|] eqn:E; cbn; eauto. now destruct (P3 d). }
  specialize (J _ eq_refl). destruct (if f_json fl then _ else _) as [[o1 d1]|e|]; [|clear P1 P2 P3 P4|now destruct J].
  2:{ left. cbn. split; auto. exists e. eexists. split; [|reflexivity]. right. exists d, d, d, "", "". auto. }
  rewrite step_ok. cbn [fst snd]. destruct J as (j & J).
  assert (X : forall r, (if f_xmp fl then bind (x_marshal l d1) (fun j => Ok (out fl (fst j), snd j)) else Ok ([], d1)) = r ->
    match r with
    | Ok (o, d2) => exists j, if f_xmp fl then x_marshal l d1 = Ok (j, d2) else d2 = d1
    | Err e => f_xmp fl = true /\ x_marshal l d1 = Err e
    | Panic => False end).
  { intros r <-. destruct (f_xmp fl); [|now exists ""]. destruct (x_marshal l d1) as [[x d2]|e|] eqn:E; cbn; eauto. now destruct (P2 d1). }
  specialize (X _ eq_refl). destruct (if f_xmp fl then _ else _) as [[o2 d2]|e|]; [|clear P1 P2 P3 P4|now destruct X].
  2:{ left. cbn. split; auto. exists e. eexists. split; [|rewrite !List.app_assoc; reflexivity]. right. exists d, d1, d, j, "". split; auto. }
  rewrite step_ok. cbn [fst snd]. destruct X as (x & X).
  destruct (f_path fl) eqn:FP.
  - destruct (x_paths l d2) as [ps|e|] eqn:E; [|clear P1 P2 P3 P4|now destruct (P4 d2)]; cbn [bind].
    2:{ left. cbn. split; auto. exists e. eexists. split; [|rewrite !List.app_assoc; reflexivity]. right. exists d, d1, d2, j, x. split; auto. right. split; auto. }
    right. cbn. split; auto. intros e [H|(d' & d1' & d2' & j' & x' & H & H')]; [congruence|].
    assert (d' = d) by congruence. subst d'. destruct H' as [[A B]|[A H']]; [rewrite A in J; congruence|].
    assert (d1' = d1) by (destruct (f_json fl); congruence). subst d1'. destruct H' as [[B C]|(B & C & F)]; [rewrite B in X; congruence|].
    assert (d2' = d2) by (destruct (f_xmp fl); congruence). subst d2'. congruence.
  - right. cbn. split; auto. intros e [H|(d' & d1' & d2' & j' & x' & H & H')]; [congruence|].
    assert (d' = d) by congruence. subst d'. destruct H' as [[A B]|[A H']]; [rewrite A in J; congruence|].
    assert (d1' = d1) by (destruct (f_json fl); congruence). subst d1'. destruct H' as [[B C]|(B & C & F)]; [rewrite B in X; congruence|].
    congruence.
Qed.

(* The exit code is 1 exactly if something failed; then the last line tells the error and the file. (The library and
   the scanner do not panic.) *)
Theorem C143_exit_code : forall D (l : xmp_lib D) fl arg sizes early, quiet_lib l ->
  (forall f, arg = Some f -> fi_bytes f <> Panic /\ forall b, fi_bytes f = Ok b -> scan_packets b sizes early <> Panic) ->
  let (lines, code) := xmpinfo l fl arg sizes early in
  (code = Exit 1 /\ exists e before, failed l fl sizes early arg e /\
     lines = (before ++ [error_line e (arg_name arg)])%list) \/
  (code = Exit 0 /\ forall e, ~ failed l fl sizes early arg e).
Proof.
  intros D l fl arg sizes early Q S.
  assert (Show : forall b, metadata l sizes early arg b -> ~ all_packets fl arg ->
    let (lines, code) := xmpinfo l fl arg sizes early in
    (code = Exit 1 /\ exists e before, failed l fl sizes early arg e /\
       lines = (before ++ [error_line e (arg_name arg)])%list) \/
    (code = Exit 0 /\ forall e, ~ failed l fl sizes early arg e)).
  { intros b M N. rewrite (xmpinfo_show l fl arg sizes early b M N).
    change (match arg with Some f => fi_name f | None => "" end) with (arg_name arg).
    pose proof (show_spec l fl (arg_name arg) b Q) as H. destruct (show l fl (arg_name arg) b) as [ls c]. cbn [fst snd] in H.
    destruct H as [(-> & e & o & F & ->)|(-> & H)].
    - left. split; auto. exists e, o. split; auto. destruct F as [F|(d & d1 & d2 & j & x & U & F)].
      + now apply f_read with (b := b).
      + now apply f_write with (b := b) (d := d) (d1 := d1) (d2 := d2) (j := j) (x := x).
    - right. split; auto. intros e F. apply (H e). destruct F as [A B|f A B|n b' A B C E|b' A B C|b' d d1 d2 j x A B C E].
      + inversion M; subst; congruence.
      + inversion M; subst; try discriminate; match goal with I : Some _ = Some _ |- _ => injection I as <- end; cbn in B; congruence.
      + subst arg. inversion M; subst; [now destruct (B p)|congruence].
      + left. now rewrite (metadata_fun _ _ _ _ _ _ M A).
      + right. exists d, d1, d2, j, x. now rewrite (metadata_fun _ _ _ _ _ _ M A). }
  destruct arg as [[n r]|].
  - destruct r as [b|e|].
    + destruct (ext n =? ".xmp") eqn:X.
      * apply ext_spec in X. destruct X as (p & ->). apply (Show b); [constructor|].
        intros (_ & _ & f & A & B). injection A as <-. now destruct (B p).
      * assert (Hn : forall q, n <> q ++ ".xmp") by (intros q ->; rewrite ext_xmp in X; discriminate).
        destruct (scan_packets b sizes early) as [[|p ps]|e|] eqn:E.
        -- now destruct (scan_packets_nonempty b sizes early).
        -- destruct (wants_orig fl && f_all fl) eqn:W.
           ++ unfold xmpinfo. cbn [fi_name fi_bytes]. rewrite step_ok, X, E, W. right. split; auto.
              apply andb_prop in W. destruct W as [W1 W2]. apply wants_orig_spec in W1.
              assert (AP : all_packets fl (Some (File n (Ok b)))) by (split; auto; split; auto; eexists; split; eauto).
              intros e [A B|f A B|n' b' A B C F|b' A B C|b' d d1 d2 j x A B C F]; try congruence; try now destruct B.
              injection A as <-. discriminate B.
           ++ apply (Show p); [now apply md_packet with (ps := ps)|]. intros (A & B & _). apply wants_orig_spec in A. rewrite A, B in W. discriminate.
        -- unfold xmpinfo. cbn [fi_name fi_bytes]. rewrite step_ok, X, E. destruct (e =? "EOF") eqn:EE.
           ++ apply String.eqb_eq in EE. subst e. right. split; auto.
              intros e [A B|f A B|n' b' A B C F|b' A B C|b' d d1 d2 j x A B C F]; try congruence.
              ** injection A as <-. discriminate B.
              ** inversion A; subst; [now destruct (Hn p)|congruence].
              ** inversion A; subst; [now destruct (Hn p)|congruence].
           ++ left. split; auto. apply String.eqb_neq in EE. exists e, []. split; [|reflexivity].
              now apply f_scan with (n := n) (b := b).
        -- destruct (S _ eq_refl) as [_ S']. now destruct (S' b eq_refl).
    + unfold xmpinfo. cbn. left. split; auto. exists e, []. split; [|reflexivity]. now apply f_open with (f := File n (Err e)).
    + destruct (S _ eq_refl) as [S' _]. now destruct S'.
  - destruct (x_marshal l (x_demo l)) as [[b d]|e|] eqn:E.
    + apply (Show b); [now apply md_demo with (d := d)|]. intros (_ & _ & f & A & _). discriminate.
    + unfold xmpinfo. rewrite E. cbn. left. split; auto. exists e, []. split; [|reflexivity]. now apply f_sample.
    + destruct Q as (_ & Q & _). now destruct (Q (x_demo l)).
Qed.
Print Assumptions C143_exit_code.

(* ---- quiet ---- *)
(* with -quiet and without -path and -debug nothing but an error is printed *)
Theorem C143_quiet_partial : forall D (l : xmp_lib D) fl arg sizes early, f_quiet fl = true -> f_path fl = false -> f_debug fl = false ->
  let (lines, code) := xmpinfo l fl arg sizes early in
  match code with Exit 1 => exists e, lines = [error_line e (arg_name arg)] | _ => lines = [] end.
Proof.
  intros D l fl arg sizes early Q P G.
  assert (S : forall a b, let (lines, code) := show l fl a b in
    match code with Exit 1 => exists e, lines = [error_line e a] | _ => lines = [] end).
  { intros a b. unfold show, out. rewrite Q, P, G. replace (if wants_orig fl then [] else []) with (@nil string) by now destruct (wants_orig fl).
    destruct (x_unmarshal l b) as [d|e|]; cbn; eauto.
    destruct (f_json fl); [destruct (x_json l d) as [[j d1]|e|]|]; cbn; eauto;
    (destruct (f_xmp fl); [destruct (x_marshal l _) as [[x d2]|e|]|]; cbn; eauto). }
  unfold xmpinfo. destruct arg as [[n r]|]; cbn [fi_name fi_bytes arg_name].
  - destruct r as [b|e|]; [rewrite step_ok|cbn; eauto|reflexivity]. cbn [app]. destruct (ext n =? ".xmp").
    + pose proof (S n b) as H. destruct (show l fl n b). exact H.
    + destruct (scan_packets b sizes early) as [bb|e|]; [|destruct (e =? "EOF"); cbn; eauto|reflexivity].
      destruct (wants_orig fl && f_all fl).
      * cbn [fst snd]. unfold out. rewrite Q. clear. induction bb; cbn; auto.
      * destruct bb as [|p bb]; [reflexivity|]. pose proof (S n p) as H. destruct (show l fl n p). exact H.
  - destruct (x_marshal l (x_demo l)) as [[b d]|e|]; [rewrite step_ok|cbn; eauto|reflexivity]. cbn [app fst].
    pose proof (S "" b) as H. destruct (show l fl "" b). exact H.
Qed.
Print Assumptions C143_quiet_partial.

(* -path prints with -quiet too, for every file *)
Theorem C143_quiet_refuted : forall D (l : xmp_lib D) sizes early arg b d ps,
  let fl := Flags false true false false true false false in
  metadata l sizes early arg b -> x_unmarshal l b = Ok d -> x_paths l d = Ok ps ->
  xmpinfo l fl arg sizes early = (map (fun v => fst v ++ " = " ++ snd v) ps, Exit 0).
Proof.
  intros D l sizes early arg b d ps fl M U P. rewrite (xmpinfo_show l fl arg sizes early b M).
  - unfold show, fl. rewrite U, step_ok. cbn. rewrite P. cbn. rewrite List.app_nil_r. reflexivity.
  - intros (_ & A & _). discriminate.
Qed.
Print Assumptions C143_quiet_refuted.

(* -all is without effect unless the original is printed: with -xmp only the first packet is shown, whatever follows.
   And with -orig it switches -xmp off. *)
Theorem C143_all_ignored_refuted : forall D (l : xmp_lib D) sizes early n b p ps d x d', (forall q, n <> q ++ ".xmp") ->
  scan_packets b sizes early = Ok (p :: ps) -> x_unmarshal l p = Ok d -> x_marshal l d = Ok (x, d') ->
  xmpinfo l (Flags false false false true false false true) (Some (File n (Ok b))) sizes early = ([x], Exit 0) /\
  xmpinfo l (Flags false false false true false true true) (Some (File n (Ok b))) sizes early = (p :: ps, Exit 0).
Proof.
  intros D l sizes early n b p ps d x d' Hn S U X. split.
  - assert (M : metadata l sizes early (Some (File n (Ok b))) p) by now apply md_packet with (ps := ps).
    rewrite (xmpinfo_show _ _ _ _ _ _ M); [|intros ([A|(_ & A & _)] & _); discriminate].
    unfold show. rewrite U, step_ok. cbn. rewrite X. reflexivity.
  - apply C143_all; auto. now left.
Qed.
Print Assumptions C143_all_ignored_refuted.

(* Scan and Read of the library: the document of the first packet, and of all bytes; Scan gives an error if there is no
   packet *)
Theorem C143_scan : forall D (l : xmp_lib D) s segs tail sizes early, stream_of s segs tail -> fits segs tail ->
  (forall i, 16 <= sizes i) ->
  scan_doc l s sizes early = match filter is_packet (map snd segs) with [] => Err "EOF" | p :: _ => read_doc l p end.
Proof.
  intros D l s segs tail sizes early S F Z. unfold scan_doc, read_doc. rewrite (scan_packets_spec s segs tail sizes early S F Z).
  destruct (filter _ _); reflexivity.
Qed.
Print Assumptions C143_scan.

(* a library whose documents are texts, and a file with two packets *)
Definition text_lib : xmp_lib string :=
  XmpLib string (fun s => if s =? "" then Err "EOF" else Ok s) (fun d => Ok ("xmp of " ++ d, d)) (fun d => Ok ("json of " ++ d, d))
    (fun d => Ok [("dc:format", d)]) "demo" ["stats"].
Definition big (_ : nat) : nat := N.to_nat 1000.
Example C143_hyps :
  quiet_lib text_lib /\
  metadata text_lib big false (Some (File "a.jpg" (Ok some_stream))) (packet "<x/>") /\
  xmpinfo text_lib (Flags false false true true true true false) (Some (File "dir.xmp/a" (Ok some_stream))) big false =
    ([packet "<x/>"; "json of " ++ packet "<x/>"; "xmp of " ++ packet "<x/>"; "dc:format = " ++ packet "<x/>"], Exit 0) /\
  xmpinfo text_lib (Flags false false false false false false true) (Some (File "a.jpg" (Ok some_stream))) big false =
    ([packet "<x/>"; packet "<y/>"], Exit 0) /\
  xmpinfo text_lib (Flags false false false false false false false) (Some (File "a.xmp" (Ok "<z/>"))) big false = (["<z/>"], Exit 0) /\
  xmpinfo text_lib (Flags true true true false false false false) (Some (File "a.xmp" (Ok ""))) big false =
    (["Error: EOF in file a.xmp"], Exit 1) /\
  xmpinfo text_lib (Flags false false false true false false false) None big false = (["xmp of xmp of demo"], Exit 0).
Proof.
  split; [split; [intros b; cbn; destruct (b =? ""); discriminate|repeat split; discriminate]|].
  split; [apply md_packet with (ps := [packet "<y/>"]); [|vm_compute; reflexivity]|vm_compute; auto 10].
  intros q E. assert (H : (ext "a.jpg" =? ".xmp") = true) by (apply ext_spec; eauto). vm_compute in H. discriminate.
Qed.
