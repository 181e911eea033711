(* Lemmas about FilterM *)
From Coq Require Import List Arith ZArith Bool Ascii String Lia.
From Verif Require Import GoStr GoStrFacts GoMap Names RegistryM RegistryFacts SpecRegistry FilterM Spec SpecFilter.
Local Open Scope string_scope.

Lemma parse_group_kw n : (In n group_keywords -> parse_group n = n /\ emptyb n = false) /\
  (~ In n group_keywords -> parse_group n = "").
Proof.
  unfold parse_group, group_keywords. split.
  - cbn [In]. intros H. repeat destruct H as [H|H]; try (subst n; split; reflexivity). destruct H.
  - cbn [In]. intros H.
    repeat match goal with |- context [n =? ?k] => destruct (n =? k) eqn:? end; cbn [orb]; auto;
    exfalso; apply H; repeat match goal with E : (n =? _) = true |- _ => apply eqb_eq in E; subst end; tauto.
Qed.

Lemma in_kw_dec n : {In n group_keywords} + {~ In n group_keywords}.
Proof. apply in_dec, string_dec. Qed.

Lemma get_group_no_panic r g : get_group_namespaces r g <> Panic.
Proof. unfold get_group_namespaces. destruct (map_get _ _); discriminate. Qed.
Lemma get_namespace_no_panic r g : get_namespace r g <> Panic.
Proof. unfold get_namespace. destruct (map_get _ _); discriminate. Qed.

Lemma resolve_strict_iff r n l : resolve_strict r n = Some l <-> stands_for r n l.
Proof.
  unfold resolve_strict. cbv zeta. destruct (in_kw_dec n) as [Hk|Hk].
  - destruct (proj1 (parse_group_kw n) Hk) as [-> Hn]. rewrite Hn. cbn [negb]. unfold group_namespaces.
    destruct (get_group_namespaces r n) as [l'|e|] eqn:E.
    + split; [intros [= <-]; now apply sf_group|]. intros H; inversion H; subst; try congruence; contradiction.
    + split; [intros [= <-]; eapply sf_group_empty; eauto|]. intros H; inversion H; subst; try congruence; contradiction.
    + now apply get_group_no_panic in E.
  - rewrite (proj2 (parse_group_kw n) Hk). cbn [emptyb negb].
    destruct (get_namespace r n) as [ns|e|] eqn:E.
    + split; [intros [= <-]; now apply sf_ns|]. intros H; inversion H; subst; try congruence; contradiction.
    + split; [discriminate|]. intros H; inversion H; subst; try congruence; contradiction.
    + now apply get_namespace_no_panic in E.
Qed.

Lemma resolve_lenient_strict r n l : resolve_strict r n = Some l -> resolve_lenient r n = l.
Proof.
  unfold resolve_strict, resolve_lenient. cbv zeta. destruct (negb (emptyb (parse_group n))).
  - now intros [= ->].
  - destruct (get_namespace r n); try discriminate. now intros [= ->].
Qed.

Lemma item_of_cons c v : item_of (String c v) =
  if Ascii.eqb c "-" then (true, v) else if Ascii.eqb c "+" then (false, v) else (false, String c v).
Proof. destruct c as [[] [] [] [] [] [] [] []]; reflexivity. Qed.

Lemma denotes_cons r it its f : denotes r (it :: its) f <->
  exists l f', stands_for r (snd it) l /\ denotes r its f' /\
    f = if fst it then Filter (f_include f') (l ++ f_exclude f')%list
        else Filter (l ++ f_include f')%list (f_exclude f').
Proof.
  unfold denotes. split.
  - intros (lists & H & Hi & He). inversion H as [|? l ? ls Hl Hls]; subst.
    exists l. eexists (Filter _ _). split; [exact Hl|]. split.
    + exists ls. split; [exact Hls|]. split; reflexivity.
    + cbn [f_include f_exclude]. destruct f as [i e]. cbn in *. subst. destruct (fst it); reflexivity.
  - intros (l & f' & Hl & (ls & Hls & Hi & He) & ->). exists (l :: ls). split; [now constructor|].
    cbn. rewrite Hi, He. destruct (fst it); cbn; auto.
Qed.

Lemma denotes_fun r its : forall f g, denotes r its f -> denotes r its g -> f = g.
Proof.
  induction its as [|it its IH]; intros f g.
  - intros (l1 & H1 & A1 & B1) (l2 & H2 & A2 & B2). inversion H1; inversion H2; subst.
    destruct f, g; cbn in *; congruence.
  - rewrite !denotes_cons. intros (l1 & f1 & H1 & D1 & ->) (l2 & f2 & H2 & D2 & ->).
    rewrite (IH _ _ D1 D2). apply resolve_strict_iff in H1, H2. assert (l1 = l2) by congruence. now subst.
Qed.

Definition fapp (f g : filter_t) : filter_t :=
  Filter (f_include f ++ f_include g)%list (f_exclude f ++ f_exclude g)%list.

Lemma strict_loop_spec r parts : forall acc f,
  parse_strict_loop r parts acc = Ok f <->
  exists g, denotes r (map item_of (filter (fun p => negb (emptyb p)) parts)) g /\ f = fapp acc g.
Proof.
  induction parts as [|v parts IH]; intros acc f; cbn [parse_strict_loop filter map].
  - split.
    + intros [= ->]. exists (Filter [] []). split.
      * exists []. split; [constructor|split; reflexivity].
      * unfold fapp. cbn. rewrite !List.app_nil_r. now destruct f.
    + intros (g & (ls & H & Hi & He) & ->). inversion H; subst. unfold fapp. rewrite Hi, He. cbn.
      rewrite !List.app_nil_r. now destruct acc.
  - destruct v as [|c v]; [exact (IH acc f)|]. cbn [emptyb negb map].
    rewrite item_of_cons.
    assert (G : forall (b : bool) w,
      (match resolve_strict r w with
       | Some l => parse_strict_loop r parts (if b then Filter (f_include acc) (f_exclude acc ++ l)%list
                                              else Filter (f_include acc ++ l)%list (f_exclude acc))
       | None => Err "no registered xmp namespace" end) = Ok f <->
      (exists g, denotes r ((b, w) :: map item_of (filter (fun p => negb (emptyb p)) parts)) g /\ f = fapp acc g)).
    { intros b w. setoid_rewrite denotes_cons. cbn [fst snd].
      destruct (resolve_strict r w) as [l|] eqn:E.
      - rewrite IH. split.
        + intros (g & Hg & ->). apply resolve_strict_iff in E. eexists. split.
          * exists l, g. split; [exact E|split; [exact Hg|reflexivity]].
          * unfold fapp. destruct b; cbn; now rewrite <- List.app_assoc.
        + intros (g & (l' & g' & Hl & Hg & ->) & ->). apply resolve_strict_iff in Hl.
          rewrite E in Hl. injection Hl as <-. exists g'. split; auto.
          unfold fapp. destruct b; cbn; now rewrite <- List.app_assoc.
      - split; [discriminate|]. intros (g & (l' & g' & Hl & _) & _). apply resolve_strict_iff in Hl. congruence. }
    destruct (Ascii.eqb c "-"); [exact (G true v)|].
    destruct (Ascii.eqb c "+"); [exact (G false v)|exact (G false (String c v))].
Qed.

Lemma strict_spec r s f : parse_filter_strict r s = Ok f <-> denotes r (items s) f.
Proof.
  unfold parse_filter_strict, items. destruct (emptyb s) eqn:E.
  - apply emptyb_true in E. subst. cbn. split.
    + intros [= <-]. exists []. split; [constructor|split; reflexivity].
    + intros (ls & H & Hi & He). inversion H; subst. destruct f; cbn in *; congruence.
  - rewrite strict_loop_spec. split.
    + intros (g & H & ->). destruct g. exact H.
    + intros H. exists f. split; auto. unfold fapp. cbn. now destruct f.
Qed.

Lemma strict_loop_no_panic r parts : forall acc, parse_strict_loop r parts acc <> Panic.
Proof.
  induction parts as [|v parts IH]; intros acc; cbn [parse_strict_loop]; [discriminate|].
  destruct v as [|c v]; [apply IH|]. cbv zeta.
  destruct (Ascii.eqb c "-"); [destruct (resolve_strict r v); [apply IH|discriminate]|].
  destruct (resolve_strict r _); [apply IH|discriminate].
Qed.

Lemma strict_err r s : (exists it, In it (items s) /\ forall l, ~ stands_for r (snd it) l) ->
  exists e, parse_filter_strict r s = Err e.
Proof.
  intros (it & Hi & Hn). destruct (parse_filter_strict r s) as [f|e|] eqn:E; eauto.
  - exfalso. apply strict_spec in E as (ls & H & _). revert Hi.
    clear - H Hn. induction H; cbn; [tauto|]. intros [->|Hi]; [eapply Hn; eauto|auto].
  - exfalso. unfold parse_filter_strict in E. destruct (emptyb s); [discriminate|].
    now apply strict_loop_no_panic in E.
Qed.

Lemma no_space_resolve r c v l : (forall n ns, get_namespace r (String " " n) <> Ok ns) ->
  resolve_strict r (String c v) = Some l -> c <> " "%char.
Proof.
  intros Hs H ->. unfold resolve_strict in H. cbv zeta in H.
  destruct (in_kw_dec (String " " v)) as [Hk|Hk].
  - cbn in Hk. intuition discriminate.
  - rewrite (proj2 (parse_group_kw _) Hk) in H. cbn [emptyb negb] in H.
    destruct (get_namespace r (String " " v)) eqn:E; try discriminate. eapply Hs; eauto.
Qed.

Lemma lenient_of_strict r parts : (forall n ns, get_namespace r (String " " n) <> Ok ns) -> forall acc f,
  parse_strict_loop r parts acc = Ok f -> parse_lenient_loop r parts acc = f.
Proof.
  intros Hs. induction parts as [|v parts IH]; intros acc f; cbn [parse_strict_loop parse_lenient_loop].
  - now intros [= ->].
  - destruct v as [|c v]; [apply IH|]. cbv zeta.
    destruct (Ascii.eqb c "-").
    + destruct (resolve_strict r v) as [l|] eqn:E; [|discriminate].
      rewrite (resolve_lenient_strict _ _ _ E). apply IH.
    + destruct (resolve_strict r _) as [l|] eqn:E; [|discriminate].
      destruct (Ascii.eqb c "+") eqn:Ec; cbn [orb].
      * rewrite (resolve_lenient_strict _ _ _ E). apply IH.
      * pose proof (no_space_resolve r c v l Hs E) as Hc.
        rewrite (proj2 (Ascii.eqb_neq c " ")) by exact Hc.
        rewrite (resolve_lenient_strict _ _ _ E). apply IH.
Qed.

Lemma lenient_agrees r s f : (forall n ns, get_namespace r (String " " n) <> Ok ns) ->
  parse_filter_strict r s = Ok f -> parse_filter r s = f.
Proof.
  intros Hs. unfold parse_filter_strict, parse_filter. destruct (emptyb s); [now intros [= ->]|].
  now apply lenient_of_strict.
Qed.

Lemma lenient_name h n : ~ In n group_keywords ->
  exists ns, resolve_lenient (registry_of h) n = [ns] /\ ns_name ns = n.
Proof.
  intros Hk. unfold resolve_lenient. cbv zeta. rewrite (proj2 (parse_group_kw n) Hk). cbn [emptyb negb].
  destruct (get_namespace (registry_of h) n) as [ns|e|] eqn:E; eauto.
  apply get_namespace_ok in E as [E _]. eauto.
Qed.

Lemma lenient_loop_names h l1 : forall l2 acc,
  Forall (fun n => ~ In n group_keywords) l1 -> Forall (fun n => ~ In n group_keywords) l2 ->
  exists f, parse_lenient_loop (registry_of h) (map (append "+") l1 ++ map (append "-") l2)%list acc = f /\
    names (f_include f) = (names (f_include acc) ++ l1)%list /\
    names (f_exclude f) = (names (f_exclude acc) ++ l2)%list.
Proof.
  induction l1 as [|n l1 IH]; intros l2 acc H1 H2; cbn [map app].
  - revert acc. induction l2 as [|n l2 IH]; intros acc; cbn [map parse_lenient_loop].
    + eexists. split; [reflexivity|]. now rewrite !List.app_nil_r.
    + inversion H2 as [|? ? Hn Hr]; subst. cbn [append Ascii.eqb Bool.eqb].
      destruct (lenient_name h n Hn) as (ns & E & Hns). rewrite E.
      destruct (IH Hr (Filter (f_include acc) (f_exclude acc ++ [ns])%list)) as (f & Hf & Hi & He).
      exists f. split; [exact Hf|]. split; [exact Hi|].
      rewrite He. cbn. unfold names. rewrite map_app, <- List.app_assoc. cbn. now rewrite Hns.
  - inversion H1 as [|? ? Hn Hr]; subst. cbn [parse_lenient_loop append Ascii.eqb Bool.eqb orb]. cbv zeta.
    destruct (lenient_name h n Hn) as (ns & E & Hns). rewrite E.
    destruct (IH l2 (Filter (f_include acc ++ [ns])%list (f_exclude acc)) Hr H2) as (f & Hf & Hi & He).
    exists f. split; [exact Hf|]. split; [|exact He].
    rewrite Hi. cbn. unfold names. rewrite map_app, <- List.app_assoc. cbn. now rewrite Hns.
Qed.

Lemma filter_round_trip h f :
  Forall (fun n => has_char "," (ns_name n) = false /\ ~ In (ns_name n) group_keywords) (f_include f ++ f_exclude f) ->
  names (f_include (parse_filter (registry_of h) (filter_string f))) = names (f_include f) /\
  names (f_exclude (parse_filter (registry_of h) (filter_string f))) = names (f_exclude f).
Proof.
  intros H. unfold parse_filter, filter_string.
  assert (Em : (map (fun n => append "+" (ns_name n)) (f_include f) ++ map (fun n => append "-" (ns_name n)) (f_exclude f))%list
     = (map (append "+") (names (f_include f)) ++ map (append "-") (names (f_exclude f)))%list).
  { unfold names. now rewrite !map_map. }
  rewrite Em.
  destruct (map (append "+") (names (f_include f)) ++ map (append "-") (names (f_exclude f)))%list as [|x xs] eqn:E.
  - cbn. destruct (f_include f); [|discriminate]. destruct (f_exclude f); [|discriminate]. auto.
  - assert (Hne : emptyb (join "," (x :: xs)) = false).
    { apply emptyb_false. destruct (f_include f) as [|a l].
      - destruct (f_exclude f) as [|b l]; [discriminate|]. cbn in E. injection E as <- E. destruct xs; discriminate.
      - cbn in E. injection E as <- E. destruct xs; discriminate. }
    rewrite Hne. rewrite <- E in *. rewrite (split_join ",").
    + assert (H' : Forall (fun n => ~ In n group_keywords) (names (f_include f)) /\
                   Forall (fun n => ~ In n group_keywords) (names (f_exclude f))).
      { apply Forall_app in H as [Ha Hb]. split; apply Forall_map; eapply Forall_impl; eauto; cbn; tauto. }
      destruct (lenient_loop_names h (names (f_include f)) (names (f_exclude f)) (Filter [] []) (proj1 H') (proj2 H'))
        as (g & Hg & Hi & He). rewrite Hg. auto.
    + rewrite E. discriminate.
    + apply Forall_app in H as [Ha Hb]. apply Forall_app. split; apply Forall_map, Forall_map;
      eapply Forall_impl; eauto; intros n [Hn _]; cbn; exact Hn.
Qed.
