(* Proofs about struct tags and field lookup *)
From Coq Require Import List Arith ZArith Bool Ascii String Lia.
From Verif Require Import GoStr GoStrFacts Names Semver TagM TypeM SpecBasic BasicFacts PathFacts SpecTag.
Import ListNotations.
Local Open Scope string_scope.

(* ---- version flags --------------------------------------------------------------------------- *)

Definition no_sep (s : string) : Prop := no_char "+" s /\ no_char "-" s /\ no_char "<" s.

Lemma no_sep_cons c s : no_sep (String c s) -> is_vsep c = false /\ no_sep s.
Proof.
  unfold no_sep, no_char, is_vsep. cbn [has_char]. intros (A & B & C).
  apply orb_false_iff in A as [A1 A]. apply orb_false_iff in B as [B1 B]. apply orb_false_iff in C as [C1 C].
  rewrite (Ascii.eqb_sym c "+"), (Ascii.eqb_sym c "-"), (Ascii.eqb_sym c "<"), A1, B1, C1. auto.
Qed.

Lemma last_none s : no_sep s -> last_vsep s = None.
Proof.
  induction s as [|c s IH]; intros H; [reflexivity|]. apply no_sep_cons in H as [H1 H2].
  cbn [last_vsep]. now rewrite IH, H1.
Qed.
Lemma last_app s c r : is_vsep c = true -> no_sep r -> last_vsep (s ++ String c r) = Some c.
Proof.
  intros Hc Hr. induction s as [|d s IH]; cbn [append last_vsep].
  - now rewrite last_none, Hc.
  - now rewrite IH.
Qed.
Lemma vf_plain s : forall cur r, no_sep s -> vfields_from cur (s ++ r) = vfields_from (cur ++ s) r.
Proof.
  induction s as [|c s IH]; intros cur r H; cbn [append].
  - now rewrite app_nil_r.
  - apply no_sep_cons in H as [H1 H2]. cbn [vfields_from]. rewrite H1, IH by auto. now rewrite app_assoc.
Qed.
Lemma pv_nonempty t v : parse_version t = Ok v -> t <> "".
Proof. intros H ->. vm_compute in H. discriminate. Qed.

Lemma vf_end t : no_sep t -> t <> "" -> vfields t = [t].
Proof.
  intros H N. unfold vfields. rewrite <- (app_nil_r t) at 1. rewrite vf_plain by auto. cbn [append vfields_from].
  now rewrite (proj2 (emptyb_false t) N).
Qed.
Lemma vf_sep t c r : no_sep t -> t <> "" -> is_vsep c = true -> vfields (t ++ String c r) = t :: vfields r.
Proof.
  intros H N Hc. unfold vfields. rewrite vf_plain by auto. cbn [append vfields_from].
  now rewrite Hc, (proj2 (emptyb_false t) N).
Qed.

Lemma flag_only t v mn mx : plain_version t v -> version_flag t mn mx = Ok (v, v).
Proof.
  intros (P & _ & A & B & C). unfold version_flag. rewrite last_none by (repeat split; auto). now rewrite P.
Qed.
Lemma flag_from t v mn mx : plain_version t v -> version_flag (t ++ "+") mn mx = Ok (v, mx).
Proof.
  intros (P & _ & A & B & C). unfold version_flag.
  rewrite last_app by (repeat split; reflexivity). rewrite vf_sep; [|repeat split; auto|eapply pv_nonempty; eauto|reflexivity].
  cbn [Ascii.eqb Bool.eqb]. now rewrite P.
Qed.
Lemma flag_upto t v mn mx : plain_version t v -> version_flag (t ++ "-") mn mx = Ok (mn, v).
Proof.
  intros (P & _ & A & B & C). unfold version_flag.
  rewrite last_app by (repeat split; reflexivity). rewrite vf_sep; [|repeat split; auto|eapply pv_nonempty; eauto|reflexivity].
  cbn [Ascii.eqb Bool.eqb]. now rewrite P.
Qed.
Lemma flag_between t v u w mn mx : plain_version t v -> plain_version u w -> version_flag (t ++ "<" ++ u) mn mx = Ok (v, w).
Proof.
  intros (P & _ & A & B & C) (P' & _ & A' & B' & C'). unfold version_flag. cbn [append].
  rewrite last_app by (try reflexivity; repeat split; auto).
  rewrite vf_sep; [|repeat split; auto|eapply pv_nonempty; eauto|reflexivity].
  rewrite vf_end; [|repeat split; auto|eapply pv_nonempty; eauto].
  cbn [Ascii.eqb Bool.eqb]. rewrite P. cbn [bind]. now rewrite P'.
Qed.

(* ---- options ---------------------------------------------------------------------------------- *)

Definition opt_eqb_text (o : tag_opt) (s : string) : bool := opt_text o =? s.

(* meaning of one option on a description *)
Definition opt_apply (i : tag_info) (o : tag_opt) : tag_info :=
  let vt t old := match parse_version t with Ok v => v | _ => old end in
  match o with
  | OAttr => TagInfo (ti_name i) true (ti_empty i) (ti_omit i) (ti_any i) (ti_flat i) (ti_min i) (ti_max i)
  | OEmpty => TagInfo (ti_name i) (ti_attr i) true (ti_omit i) (ti_any i) (ti_flat i) (ti_min i) (ti_max i)
  | OOmit => TagInfo (ti_name i) (ti_attr i) (ti_empty i) true (ti_any i) (ti_flat i) (ti_min i) (ti_max i)
  | OAny => TagInfo (ti_name i) (ti_attr i) (ti_empty i) (ti_omit i) true (ti_flat i) (ti_min i) (ti_max i)
  | OFlat => TagInfo (ti_name i) (ti_attr i) (ti_empty i) (ti_omit i) (ti_any i) true (ti_min i) (ti_max i)
  | OOnly t => TagInfo (ti_name i) (ti_attr i) (ti_empty i) (ti_omit i) (ti_any i) (ti_flat i) (vt t (ti_min i)) (vt t (ti_max i))
  | OFrom t => TagInfo (ti_name i) (ti_attr i) (ti_empty i) (ti_omit i) (ti_any i) (ti_flat i) (vt t (ti_min i)) (ti_max i)
  | OUpTo t => TagInfo (ti_name i) (ti_attr i) (ti_empty i) (ti_omit i) (ti_any i) (ti_flat i) (ti_min i) (vt t (ti_max i))
  | OBetween t u => TagInfo (ti_name i) (ti_attr i) (ti_empty i) (ti_omit i) (ti_any i) (ti_flat i) (vt t (ti_min i)) (vt u (ti_max i))
  | OOther _ => i
  end.

Lemma vflag_eqb r s c : Ascii.eqb "v" c = false -> ("v" ++ r =? String c s) = false.
Proof. intros H. cbn [append String.eqb]. now rewrite H. Qed.

Lemma apply_opt i o : opt_ok o -> apply_flag i (opt_text o) = Ok (opt_apply i o).
Proof.
  intros H. unfold apply_flag.
  assert (V : forall r mn mx, version_flag r (ti_min i) (ti_max i) = Ok (mn, mx) ->
     apply_flag i ("v" ++ r) = Ok (TagInfo (ti_name i) (ti_attr i) (ti_empty i) (ti_omit i) (ti_any i) (ti_flat i) mn mx)).
  { intros r mn mx E. unfold apply_flag. rewrite !vflag_eqb by reflexivity. rewrite !orb_false_r.
    replace (has_prefix_str "v" ("v" ++ r)) with true by (symmetry; apply prefix_app).
    change (sdrop 1 ("v" ++ r)) with r. cbn [ti_min ti_max]. rewrite E. reflexivity. }
  destruct o as [| | | | |t|t|t|t u|s].
  1-5: (destruct i; cbn; rewrite ?orb_true_r, ?orb_false_r; reflexivity).
  - destruct H as [v H]. fold (apply_flag i (opt_text (OOnly t))). cbn [opt_text]. rewrite (V _ _ _ (flag_only _ _ _ _ H)).
    destruct H as [P _]. cbn [opt_apply]. now rewrite P.
  - destruct H as [v H]. fold (apply_flag i (opt_text (OFrom t))). cbn [opt_text]. rewrite (V _ _ _ (flag_from _ _ _ _ H)).
    destruct H as [P _]. cbn [opt_apply]. now rewrite P.
  - destruct H as [v H]. fold (apply_flag i (opt_text (OUpTo t))). cbn [opt_text]. rewrite (V _ _ _ (flag_upto _ _ _ _ H)).
    destruct H as [P _]. cbn [opt_apply]. now rewrite P.
  - destruct H as [[v H] [w H']]. fold (apply_flag i (opt_text (OBetween t u))). cbn [opt_text].
    rewrite (V _ _ _ (flag_between _ _ _ _ _ _ H H')).
    destruct H as [P _], H' as [P' _]. cbn [opt_apply]. now rewrite P, P'.
  - destruct H as (_ & Hv & Hn). cbn [opt_text opt_apply].
    assert (N : forall k, In k ["attr"; "empty"; "omit"; "any"; "flat"] -> (s =? k) = false).
    { intros k Hk. apply eqb_neq. intros ->. auto. }
    rewrite !N by (cbn; auto 8). rewrite !orb_false_r.
    replace (has_prefix_str "v" s) with false.
    + now destruct i.
    + symmetry. destruct (has_prefix_str "v" s) eqn:E; [|reflexivity]. apply prefix_spec in E as [r E]. exfalso. eapply Hv, E.
Qed.

Lemma apply_opts l : forall i, Forall opt_ok l -> apply_flags i (map opt_text l) = Ok (fold_left opt_apply l i).
Proof.
  induction l as [|o l IH]; intros i H; [reflexivity|]. cbn [map apply_flags fold_left].
  apply Forall_cons_iff in H as [H1 H2]. rewrite apply_opt by auto. cbn [bind]. now apply IH.
Qed.

Lemma opt_no_comma o : opt_ok o -> has_char "," (opt_text o) = false.
Proof.
  destruct o as [| | | | |t|t|t|t u|s]; intros H; try reflexivity; cbn [opt_text].
  - destruct H as (v & _ & H & _). rewrite has_char_app. now rewrite H.
  - destruct H as (v & _ & H & _). rewrite !has_char_app. now rewrite H.
  - destruct H as (v & _ & H & _). rewrite !has_char_app. now rewrite H.
  - destruct H as ((v & _ & H & _) & (w & _ & H' & _)). rewrite !has_char_app. now rewrite H, H'.
  - apply H.
Qed.

Lemma split_tag name l : no_char "," name -> Forall opt_ok l -> split_char "," (tag_text name l) = name :: map opt_text l.
Proof.
  intros Hn Hl. unfold tag_text. apply split_join; [discriminate|]. constructor; [exact Hn|].
  apply Forall_map. eapply Forall_impl; [|exact Hl]. intros o. apply opt_no_comma.
Qed.

Definition base_info (n : string) : tag_info := TagInfo n false false false false false no_version no_version.

Lemma parse_tag_text field name l : no_char "," name -> Forall opt_ok l ->
  parse_tag field (tag_text name l) = Ok (fold_left opt_apply l (base_info (if emptyb name then field else name))).
Proof. intros Hn Hl. unfold parse_tag. rewrite split_tag by auto. now apply apply_opts. Qed.

(* flags of the fold *)
Lemma fold_name l : forall i, ti_name (fold_left opt_apply l i) = ti_name i.
Proof. induction l as [|o l IH]; intros i; [reflexivity|]. cbn [fold_left]. rewrite IH. destruct o; reflexivity. Qed.

Lemma fold_flag (get : tag_info -> bool) (o0 : tag_opt) l :
  (forall i, get (opt_apply i o0) = true) ->
  (forall i o, o <> o0 -> get (opt_apply i o) = get i) ->
  (forall i o, get i = true -> get (opt_apply i o) = true) ->
  forall i, get (fold_left opt_apply l i) = true <-> get i = true \/ In o0 l.
Proof.
  intros H0 H1 H2. induction l as [|o l IH]; intros i; cbn [fold_left].
  - split; [auto|intros [H|[]]; auto].
  - rewrite IH. split.
    + intros [H|H]; [|right; right; exact H].
      destruct (get i) eqn:E; [left; reflexivity|]. right. left.
      assert (D : {o = o0} + {o <> o0}) by (repeat decide equality). destruct D as [D|D]; [exact D|].
      rewrite H1 in H by exact D. congruence.
    + intros [H|[<-|H]]; [left; now apply H2|left; apply H0|right; exact H].
Qed.

Lemma fold_bound (says : tag_opt -> version -> Prop) (get : tag_info -> version) l :
  (forall i o v, opt_ok o -> says o v -> get (opt_apply i o) = v) ->
  (forall i o, opt_ok o -> (forall v, ~ says o v) -> get (opt_apply i o) = get i) ->
  (forall o, opt_ok o -> (exists v, says o v) \/ forall v, ~ says o v) ->
  Forall opt_ok l -> forall i, get i = Version 0 0 0 -> bound says l (get (fold_left opt_apply l i)).
Proof.
  intros H0 H1 H2. induction l as [|o l IH] using rev_ind; intros Hl i Hi.
  - right. split; [exact Hi|intros ? ? []].
  - apply Forall_app in Hl as [Hl Ho]. apply Forall_cons_iff in Ho as [Ho _]. rewrite fold_left_app. cbn [fold_left].
    destruct (H2 o Ho) as [[v Hv]|Hv].
    + left. exists l, o, []. rewrite (H0 _ _ _ Ho Hv). repeat split; auto.
    + rewrite H1 by auto. destruct (IH Hl i Hi) as [(a & o' & b & -> & Hs & Hb)|[E Hn]].
      * left. exists a, o', (b ++ [o])%list. rewrite <- List.app_assoc. cbn [List.app]. repeat split; auto.
        intros x w Hx. apply in_app_iff in Hx as [Hx|[<-|[]]]; auto.
      * right. split; [exact E|]. intros x w Hx. apply in_app_iff in Hx as [Hx|[<-|[]]]; auto.
Qed.

Lemma fold_min l n : Forall opt_ok l -> bound says_min l (ti_min (fold_left opt_apply l (base_info n))).
Proof.
  intros H. apply (fold_bound says_min ti_min l); auto.
  - intros i o v _ Hs. destruct o; cbn in *; try contradiction; now rewrite Hs.
  - intros i o Ho Hs. destruct o; cbn in *; try reflexivity.
    + destruct Ho as (vv & P & _). exfalso. eapply Hs, P.
    + destruct Ho as (vv & P & _). exfalso. eapply Hs, P.
    + destruct Ho as ((vv & P & _) & _). exfalso. eapply Hs, P.
  - intros o Ho. destruct o; cbn in *; try (right; intros ? Hf; exact Hf).
    + destruct Ho as (v & P & _). left. now exists v.
    + destruct Ho as (v & P & _). left. now exists v.
    + destruct Ho as ((v & P & _) & _). left. now exists v.
Qed.
Lemma fold_max l n : Forall opt_ok l -> bound says_max l (ti_max (fold_left opt_apply l (base_info n))).
Proof.
  intros H. apply (fold_bound says_max ti_max l); auto.
  - intros i o v _ Hs. destruct o; cbn in *; try contradiction; now rewrite Hs.
  - intros i o Ho Hs. destruct o; cbn in *; try reflexivity.
    + destruct Ho as (vv & P & _). exfalso. eapply Hs, P.
    + destruct Ho as (vv & P & _). exfalso. eapply Hs, P.
    + destruct Ho as (_ & (vv & P & _)). exfalso. eapply Hs, P.
  - intros o Ho. destruct o; cbn in *; try (right; intros ? Hf; exact Hf).
    + destruct Ho as (v & P & _). left. now exists v.
    + destruct Ho as (v & P & _). left. now exists v.
    + destruct Ho as (_ & (v & P & _)). left. now exists v.
Qed.

Lemma flag_cases l n : forall i, i = fold_left opt_apply l (base_info n) ->
  (ti_attr i = true <-> In OAttr l) /\ (ti_empty i = true <-> In OEmpty l) /\ (ti_omit i = true <-> In OOmit l)
  /\ (ti_any i = true <-> In OAny l) /\ (ti_flat i = true <-> In OFlat l).
Proof.
  intros i ->.
  assert (D : forall get o0, get (base_info n) = false ->
     (forall i, get (opt_apply i o0) = true) -> (forall i o, o <> o0 -> get (opt_apply i o) = get i) ->
     (forall i o, get i = true -> get (opt_apply i o) = true) ->
     (get (fold_left opt_apply l (base_info n)) = true <-> In o0 l)).
  { intros get o0 H0 H1 H2 H3. rewrite (fold_flag get o0 l H1 H2 H3). rewrite H0. split; [intros [H|H]; [discriminate|auto]|auto]. }
  repeat split; intros H.
  all: try (eapply D; [| | | |exact H]; auto; intros i o; destruct o; cbn; auto; congruence).
Qed.

(* the meaning of a tag *)
Lemma tag_meaning field name l : no_char "," name -> Forall opt_ok l ->
  exists i, parse_tag field (tag_text name l) = Ok i
    /\ ti_name i = (if emptyb name then field else name)
    /\ (ti_attr i = true <-> In OAttr l) /\ (ti_empty i = true <-> In OEmpty l) /\ (ti_omit i = true <-> In OOmit l)
    /\ (ti_any i = true <-> In OAny l) /\ (ti_flat i = true <-> In OFlat l)
    /\ bound says_min l (ti_min i) /\ bound says_max l (ti_max i).
Proof.
  intros Hn Hl. eexists. split; [apply parse_tag_text; auto|].
  rewrite fold_name. split; [reflexivity|].
  destruct (flag_cases l (if emptyb name then field else name) _ eq_refl) as (A & B & C & D & E).
  split; [exact A|]. split; [exact B|]. split; [exact C|]. split; [exact D|]. split; [exact E|].
  split; [now apply fold_min|now apply fold_max].
Qed.

(* for every tag text at all *)
Lemma apply_flag_ok i f i' : apply_flag i f = Ok i' ->
  ti_name i' = ti_name i /\ ti_attr i' = ti_attr i || (f =? "attr") /\ ti_empty i' = ti_empty i || (f =? "empty")
  /\ ti_omit i' = ti_omit i || (f =? "omit") /\ ti_any i' = ti_any i || (f =? "any") /\ ti_flat i' = ti_flat i || (f =? "flat")
  /\ ((forall r, f <> "v" ++ r) -> ti_min i' = ti_min i /\ ti_max i' = ti_max i).
Proof.
  unfold apply_flag. destruct (has_prefix_str "v" f) eqn:E.
  - cbn [ti_min ti_max ti_name ti_attr ti_empty ti_omit ti_any ti_flat].
    destruct (version_flag _ _ _) as [[mn mx]| |]; cbn [bind]; intros H; try discriminate. injection H as <-.
    apply prefix_spec in E as [r ->]. do 6 (split; [reflexivity|]). intros H; exfalso; eapply H; reflexivity.
  - intros H. injection H as <-. repeat split.
Qed.
Lemma flags_exact fl : forall i i', apply_flags i fl = Ok i' ->
  ti_name i' = ti_name i /\ (ti_attr i' = true <-> ti_attr i = true \/ In "attr" fl)
  /\ (ti_empty i' = true <-> ti_empty i = true \/ In "empty" fl) /\ (ti_omit i' = true <-> ti_omit i = true \/ In "omit" fl)
  /\ (ti_any i' = true <-> ti_any i = true \/ In "any" fl) /\ (ti_flat i' = true <-> ti_flat i = true \/ In "flat" fl)
  /\ ((forall f r, In f fl -> f <> "v" ++ r) -> ti_min i' = ti_min i /\ ti_max i' = ti_max i).
Proof.
  induction fl as [|f fl IH]; intros i i' H; cbn [apply_flags] in H.
  - injection H as <-. cbn [In]. intuition auto.
  - destruct (apply_flag i f) as [j| |] eqn:E; cbn [bind] in H; try discriminate.
    apply apply_flag_ok in E as (E0 & E1 & E2 & E3 & E4 & E5 & E6).
    apply IH in H as (H0 & H1 & H2 & H3 & H4 & H5 & H6).
    rewrite H1, H2, H3, H4, H5, H0, E0, E1, E2, E3, E4, E5. rewrite !orb_true_iff, !eqb_eq. cbn [In].
    split; [reflexivity|]. do 5 (split; [tauto|]). intros Hv.
    destruct E6 as [E6 E7]; [intros r; apply Hv; now left|]. destruct H6 as [H6 H7]; [intros g r Hg; apply Hv; now right|].
    now rewrite H6, H7.
Qed.
Lemma tag_exact field tag i : parse_tag field tag = Ok i ->
  exists n fl, tag = join "," (n :: fl) /\ Forall (no_char ",") (n :: fl)
  /\ ti_name i = (if emptyb n then field else n)
  /\ (ti_attr i = true <-> In "attr" fl) /\ (ti_empty i = true <-> In "empty" fl)
  /\ (ti_omit i = true <-> In "omit" fl) /\ (ti_any i = true <-> In "any" fl) /\ (ti_flat i = true <-> In "flat" fl)
  /\ ((forall f r, In f fl -> f <> "v" ++ r) -> ti_min i = Version 0 0 0 /\ ti_max i = Version 0 0 0).
Proof.
  unfold parse_tag. intros H. pose proof (join_split "," tag) as J. pose proof (split_char_parts "," tag) as P.
  destruct (split_char "," tag) as [|n fl]; [discriminate|].
  exists n, fl. apply flags_exact in H as (H0 & H1 & H2 & H3 & H4 & H5 & H6).
  cbn [ti_name ti_attr ti_empty ti_omit ti_any ti_flat ti_min ti_max] in *.
  assert (N : forall P : Prop, (false = true \/ P) <-> P) by (intros; split; [intros [|]; [discriminate|auto]|auto]).
  rewrite N in H1, H2, H3, H4, H5. repeat split; auto; try tauto.
Qed.

(* ---- conflicts --------------------------------------------------------------------------------- *)

Definition unversioned (i : tag_info) : Prop := ti_min i = Version 0 0 0 /\ ti_max i = Version 0 0 0.

Lemma conflicts_same new old : unversioned new -> (conflicts new old = true <-> ti_name new = ti_name old).
Proof.
  intros [H1 H2]. unfold conflicts. rewrite H1, H2. rewrite !between_zero by reflexivity. rewrite !andb_true_r. apply eqb_eq.
Qed.

Lemma add_fields_ok l : forall fs r, Forall unversioned l -> NoDup (map ti_name fs) ->
  add_fields fs l = Ok r <-> r = (fs ++ l)%list /\ NoDup (map ti_name (fs ++ l)).
Proof.
  induction l as [|i l IH]; intros fs r Hl Hn; cbn [add_fields].
  - rewrite List.app_nil_r. split; [intros H; injection H as <-; auto|intros [-> _]; auto].
  - apply Forall_cons_iff in Hl as [Hi Hl]. unfold add_field.
    assert (C : existsb (conflicts i) fs = true <-> In (ti_name i) (map ti_name fs)).
    { rewrite existsb_exists, in_map_iff. split; intros (x & A & B).
      - exists x. split; [symmetry; now apply conflicts_same in B|auto].
      - exists x. split; [auto|]. apply conflicts_same; auto. }
    destruct (existsb (conflicts i) fs) eqn:E; cbn [bind].
    + split; [discriminate|]. intros [_ Hd]. exfalso. rewrite map_app in Hd. cbn [map] in Hd.
      apply NoDup_remove_2 in Hd. apply Hd, in_app_iff. left. now apply C.
    + rewrite IH.
      * rewrite <- List.app_assoc. reflexivity.
      * exact Hl.
      * rewrite map_app. cbn [map]. apply NoDup_rev in Hn.
        rewrite <- (rev_involutive (map ti_name fs ++ [ti_name i])).
        apply NoDup_rev. rewrite rev_app_distr. cbn. constructor; [|exact Hn].
        rewrite <- in_rev. intros H. apply C in H. congruence.
Qed.

Lemma add_fields_err l : forall fs, (exists r, add_fields fs l = Ok r) \/ exists e, add_fields fs l = Err e.
Proof.
  induction l as [|i l IH]; intros fs; cbn [add_fields]; eauto.
  unfold add_field. destruct (existsb _ _); cbn [bind]; eauto.
Qed.

(* what a type accepts, for plain fields *)
Definition plain_fields (l : list sfield) : list (string * string) :=
  flat_map (fun f => match f with SField true n t => if t =? "-" then [] else [(n, t)] | _ => [] end) l.

Lemma type_info_add l : forall acc is,
  Forall (fun f => match f with SEmbed _ _ => False | _ => True end) l ->
  Forall2 (fun p i => parse_tag (fst p) (snd p) = Ok i) (plain_fields l) is ->
  type_info_from l acc = add_fields acc is.
Proof.
  induction l as [|f l IH]; intros acc is Hl H.
  - inversion H. reflexivity.
  - apply Forall_cons_iff in Hl as [Hf Hl]. destruct f as [e n t|]; [|contradiction].
    cbn [type_info_from field_info step_field]. cbn [plain_fields flat_map] in H. fold (plain_fields l) in H.
    destruct e; cbn [negb orb].
    + destruct (t =? "-"); cbn [List.app] in H.
      * cbn [bind]. now apply IH.
      * inversion H as [|p i ps is' Hp Hr]; subst. cbn [fst snd] in Hp. rewrite Hp. cbn [bind add_fields].
        destruct (add_field acc i) as [fs| |]; cbn [bind]; auto.
    + cbn [List.app] in H. cbn [bind]. now apply IH.
Qed.

(* ---- lookup -------------------------------------------------------------------------------------- *)

Lemma prefixed_iff n : has_prefix n = true <-> prefixed n.
Proof.
  rewrite has_prefix_spec. split.
  - intros (c & p & l & -> & H). exists (String c p), l. repeat split; auto. discriminate.
  - intros (p & l & N & H & ->). destruct p as [|c p]; [congruence|]. exists c, p, l. auto.
Qed.
Lemma local_iff f name : strip_prefix f = name <-> local_name_of f name.
Proof.
  unfold local_name_of. destruct (has_char ":" f) eqn:E.
  - split.
    + intros <-. right. exists (get_prefix f). split; [apply get_prefix_no_colon|]. symmetry. now apply split_rejoin.
    + intros [[H _]|(p & Hp & ->)]; [unfold no_char in H; congruence|]. now apply strip_prefix_qualified.
  - assert (S : strip_prefix f = f) by (unfold strip_prefix; now rewrite (proj2 (index_char_none ":" f) E)).
    rewrite S. split; [intros <-; left; auto|]. intros [[_ H]|(p & Hp & ->)]; [exact H|].
    rewrite !has_char_app in E. cbn in E. rewrite orb_true_r in E. discriminate.
Qed.
Lemma matches_iff name f : name_matches name f = true <-> asked name f.
Proof.
  unfold name_matches, asked. destruct (has_prefix name) eqn:E.
  - rewrite eqb_eq. apply prefixed_iff in E. tauto.
  - rewrite eqb_eq, local_iff. assert (~ prefixed name) by (rewrite <- prefixed_iff; congruence). tauto.
Qed.

Lemma find_native_spec fs name : forall i any,
  match find_native_from i any fs name with
  | Some j =>
      (exists k, j = i + k /\ first_such (fun f => asked name (ti_name f)) fs k)
      \/ (Forall (fun f => ~ asked name (ti_name f)) fs
          /\ ((exists k, j = i + k /\ last_such (fun f => ti_any f = true) fs k)
              \/ (any = Some j /\ Forall (fun f => ti_any f = false) fs)))
  | None => Forall (fun f => ~ asked name (ti_name f)) fs /\ any = None /\ Forall (fun f => ti_any f = false) fs
  end.
Proof.
  induction fs as [|f fs IH]; intros i any; cbn [find_native_from].
  - destruct any as [j|]; [right; split; [constructor|right; auto]|repeat split; constructor].
  - destruct (name_matches name (ti_name f)) eqn:E.
    + left. exists 0. split; [lia|]. split; [exists f; split; [reflexivity|now apply matches_iff]|]. intros k x Hk. lia.
    + assert (N : ~ asked name (ti_name f)) by (rewrite <- matches_iff; congruence).
      specialize (IH (S i) (if ti_any f then Some i else any)).
      destruct (find_native_from _ _ fs name) as [j|].
      * destruct IH as [(k & -> & (x & Hx & Hp) & Hf)|[Hn [(k & -> & (x & Hx & Hp) & Hf)|[Ha Hf]]]].
        -- left. exists (S k). split; [lia|]. split; [exists x; auto|].
           intros [|m] y Hm Hy; [injection Hy as <-; exact N|]. apply (Hf m); [lia|exact Hy].
        -- right. split; [constructor; auto|]. left. exists (S k). split; [lia|]. split; [exists x; auto|].
           intros [|m] y Hm Hy; [lia|]. apply (Hf m); [lia|exact Hy].
        -- right. split; [constructor; auto|]. destruct (ti_any f) eqn:Ea.
           ++ injection Ha as <-. left. exists 0. split; [lia|]. split; [exists f; auto|].
              intros [|m] y Hm Hy; [lia|]. cbn in Hy. apply nth_error_In in Hy. rewrite Forall_forall in Hf. rewrite Hf by auto. discriminate.
           ++ right. split; [exact Ha|]. constructor; auto.
      * destruct IH as (Hn & Ha & Hf). destruct (ti_any f) eqn:Ea; [discriminate|].
        repeat split; auto.
Qed.

Lemma native_found fs name j : find_native fs name = Some j <->
  first_such (fun f => asked name (ti_name f)) fs j
  \/ (Forall (fun f => ~ asked name (ti_name f)) fs /\ last_such (fun f => ti_any f = true) fs j).
Proof.
  pose proof (find_native_spec fs name 0 None) as H. fold (find_native fs name) in H.
  assert (U1 : forall (P : tag_info -> Prop) a b, first_such P fs a -> first_such P fs b -> a = b).
  { intros P a b [(x & A1 & A2) A3] [(y & B1 & B2) B3]. destruct (Nat.lt_trichotomy a b) as [L|[L|L]]; auto.
    - exfalso. eapply B3; eauto. - exfalso. eapply A3; eauto. }
  assert (U2 : forall (P : tag_info -> Prop) a b, last_such P fs a -> last_such P fs b -> a = b).
  { intros P a b [(x & A1 & A2) A3] [(y & B1 & B2) B3]. destruct (Nat.lt_trichotomy a b) as [L|[L|L]]; auto.
    - exfalso. eapply A3; eauto. - exfalso. eapply B3; eauto. }
  assert (X : forall a, first_such (fun f => asked name (ti_name f)) fs a -> Forall (fun f => ~ asked name (ti_name f)) fs -> False).
  { intros a [(x & A1 & A2) _] F. rewrite Forall_forall in F. apply (F x); [eapply nth_error_In; eauto|exact A2]. }
  destruct (find_native fs name) as [k|].
  - destruct H as [(m & -> & Hm)|[Hn [(m & -> & Hm)|[C _]]]]; [| |discriminate].
    + cbn [Nat.add]. split.
      * intros E. injection E as <-. auto.
      * intros [F|[F _]]; [f_equal; eapply U1; eauto|exfalso; eauto].
    + cbn [Nat.add]. split.
      * intros E. injection E as <-. auto.
      * intros [F|[F G]]; [exfalso; eauto|f_equal; eapply U2; eauto].
  - destruct H as (Hn & _ & Hf). split; [discriminate|]. intros [F|[_ [(x & A1 & A2) _]]]; [exfalso; eauto|].
    exfalso. apply nth_error_In in A1. rewrite Forall_forall in Hf. rewrite Hf in A2 by auto. discriminate.
Qed.
Lemma native_none fs name : find_native fs name = None <->
  Forall (fun f => ~ asked name (ti_name f) /\ ti_any f = false) fs.
Proof.
  pose proof (find_native_spec fs name 0 None) as H. fold (find_native fs name) in H.
  destruct (find_native fs name) as [k|].
  - split; [discriminate|]. intros F. exfalso. rewrite Forall_forall in F.
    destruct H as [(m & -> & (x & A1 & A2) & _)|[Hn [(m & -> & (x & A1 & A2) & _)|[C _]]]]; [| |discriminate];
      apply nth_error_In in A1; apply F in A1; intuition congruence.
  - destruct H as (Hn & _ & Hf). split; [intros _|reflexivity]. rewrite Forall_forall in *. auto.
Qed.

(* the decoder's lookup *)
Section Dec.
Context {X : Type}.
Variable ver : version.
Notation act := (active ver).

Lemma find_field_spec (fs : list (finfo * ty X)) name : forall i any,
  match find_field_from ver i any fs name with
  | Some j =>
      (exists k, j = i + k /\ first_such (fun p => act (fst p) = true /\ f_name (fst p) = name) fs k)
      \/ (Forall (fun p => ~ (act (fst p) = true /\ f_name (fst p) = name)) fs
          /\ ((exists k, j = i + k /\ last_such (fun p => act (fst p) = true /\ f_any (fst p) = true) fs k)
              \/ (any = Some j /\ Forall (fun p => ~ (act (fst p) = true /\ f_any (fst p) = true)) fs)))
  | None => Forall (fun p => ~ (act (fst p) = true /\ f_name (fst p) = name)) fs /\ any = None
            /\ Forall (fun p => ~ (act (fst p) = true /\ f_any (fst p) = true)) fs
  end.
Proof.
  induction fs as [|[f t] fs IH]; intros i any; cbn [find_field_from].
  - destruct any as [j|]; [right; split; [constructor|right; auto]|repeat split; constructor].
  - destruct (act f) eqn:Ea; cbn [negb].
    + destruct (f_name f =? name) eqn:E.
      * left. exists 0. split; [lia|]. apply eqb_eq in E. split; [exists (f, t); auto|]. intros k x Hk. lia.
      * apply eqb_neq in E. specialize (IH (S i) (if f_any f then Some i else any)).
        assert (N : ~ (act (fst (f, t)) = true /\ f_name (fst (f, t)) = name)) by (cbn; tauto).
        destruct (find_field_from _ _ _ fs name) as [j|].
        -- destruct IH as [(k & -> & (x & Hx & Hp) & Hf)|[Hn [(k & -> & (x & Hx & Hp) & Hf)|[Hb Hf]]]].
           ++ left. exists (S k). split; [lia|]. split; [exists x; auto|].
              intros [|m] y Hm Hy; [injection Hy as <-; exact N|]. apply (Hf m); [lia|exact Hy].
           ++ right. split; [constructor; auto|]. left. exists (S k). split; [lia|]. split; [exists x; auto|].
              intros [|m] y Hm Hy; [lia|]. apply (Hf m); [lia|exact Hy].
           ++ right. split; [constructor; auto|]. destruct (f_any f) eqn:Ey.
              ** injection Hb as <-. left. exists 0. split; [lia|]. split; [exists (f, t); auto|].
                 intros [|m] y Hm Hy; [lia|]. cbn in Hy. apply nth_error_In in Hy. rewrite Forall_forall in Hf. now apply Hf.
              ** right. split; [exact Hb|]. constructor; [cbn; intros [_ ?]; congruence|auto].
        -- destruct IH as (Hn & Hb & Hf). destruct (f_any f) eqn:Ey; [discriminate|].
           repeat split; auto. constructor; [cbn; intros [_ ?]; congruence|auto].
    + assert (N : forall P, ~ (act (fst (f, t)) = true /\ P)) by (cbn; intros P [? _]; congruence).
      specialize (IH (S i) any). destruct (find_field_from _ _ _ fs name) as [j|].
      * destruct IH as [(k & -> & (x & Hx & Hp) & Hf)|[Hn [(k & -> & (x & Hx & Hp) & Hf)|[Hb Hf]]]].
        -- left. exists (S k). split; [lia|]. split; [exists x; auto|].
           intros [|m] y Hm Hy; [injection Hy as <-; apply N|]. apply (Hf m); [lia|exact Hy].
        -- right. split; [constructor; auto|]. left. exists (S k). split; [lia|]. split; [exists x; auto|].
           intros [|m] y Hm Hy; [lia|]. apply (Hf m); [lia|exact Hy].
        -- right. split; [constructor; auto|]. right. split; [exact Hb|]. constructor; auto.
      * destruct IH as (Hn & Hb & Hf). repeat split; auto.
Qed.

Lemma decoder_found (fs : list (finfo * ty X)) name j : find_field ver fs name = Some j ->
  first_such (fun p => act (fst p) = true /\ f_name (fst p) = name) fs j
  \/ (Forall (fun p => ~ (act (fst p) = true /\ f_name (fst p) = name)) fs
      /\ last_such (fun p => act (fst p) = true /\ f_any (fst p) = true) fs j).
Proof.
  intros E. pose proof (find_field_spec fs name 0 None) as H. unfold find_field in E. rewrite E in H.
  destruct H as [(m & -> & Hm)|[Hn [(m & -> & Hm)|[C _]]]]; auto. discriminate.
Qed.
Lemma decoder_none (fs : list (finfo * ty X)) name : find_field ver fs name = None <->
  Forall (fun p => act (fst p) = true -> f_name (fst p) <> name /\ f_any (fst p) = false) fs.
Proof.
  pose proof (find_field_spec fs name 0 None) as H. unfold find_field.
  destruct (find_field_from ver 0 None fs name) as [k|].
  - split; [discriminate|]. intros F. exfalso. rewrite Forall_forall in F.
    destruct H as [(m & -> & (x & A1 & A2 & A3) & _)|[Hn [(m & -> & (x & A1 & A2 & A3) & _)|[C _]]]]; [| |discriminate];
      apply nth_error_In in A1; apply F in A1; intuition congruence.
  - destruct H as (Hn & _ & Hf). split; [intros _|reflexivity]. rewrite Forall_forall in *. intros p Hp Hp'.
    split; [intros E; now apply (Hn p)|]. destruct (f_any (fst p)) eqn:E; [|reflexivity]. exfalso. now apply (Hf p).
Qed.
End Dec.

(* ---- conflicts are clashes ----------------------------------------------------------------------- *)
Local Open Scope Z_scope.
Lemma small_zero v : small_version v -> (version_is_zero v = true <-> v = Version 0 0 0).
Proof.
  destruct v as [a b c]. unfold small_version, version_is_zero, wrap64. cbn [v_major v_minor v_patch]. intros (A & B & C).
  rewrite (Z.mod_small (a + b + 2 ^ 63)) by lia. rewrite Z.mod_small by lia. rewrite Z.eqb_eq.
  split; [intros H|intros H; injection H; lia]. f_equal; lia.
Qed.
Lemma zero_le v : small_version v -> v_le (Version 0 0 0) v.
Proof.
  destruct v as [a b c]. unfold small_version, v_le, v_lt. cbn [v_major v_minor v_patch]. intros (A & B & C).
  destruct (Z.eq_dec a 0) as [->|]; [|left; left; lia]. destruct (Z.eq_dec b 0) as [->|]; [|left; right; split; [lia|left; lia]].
  destruct (Z.eq_dec c 0) as [->|]; [now right|]. left. right. split; [reflexivity|]. right. lia.
Qed.
Lemma v_le_refl v : v_le v v.
Proof. now right. Qed.
Lemma v_le_trans a b c : v_le a b -> v_le b c -> v_le a c.
Proof. intros [H| ->] [H'| ->]; try (now right); try (now left). left. eapply v_lt_trans; eauto. Qed.

(* Between puts a version into the range, when it says yes *)
Lemma between_range v a b : small_version v -> small_version a -> small_version b ->
  version_is_zero v = false -> (b = Version 0 0 0 \/ v_le a b) -> version_between v a b = true -> in_range v a b.
Proof.
  intros Hv Ha Hb Z Hab H. unfold in_range.
  destruct (version_is_zero a) eqn:Ea.
  - apply small_zero in Ea; [|exact Ha]. split; [now left|]. right.
    apply between_open_below in H; [|exact Z|apply small_zero; auto]. destruct H as [H| ->].
    + now left.
    + subst a. vm_compute in Z. discriminate.
  - apply between_lower_bounded in H; [|exact Ea|].
    + destruct H as [H|[H1 H2]]; [congruence|]. split; [now right|].
      destruct H2 as [H2|H2]; [left; now apply small_zero in H2|now right].
    + intros Eb. destruct Hab as [->|Hab]; [vm_compute in Eb; discriminate|exact Hab].
Qed.

Lemma conflict_is_clash new old : proper new -> proper old -> conflicts new old = true -> clash new old.
Proof.
  intros (N1 & N2 & N3) (O1 & O2 & O3) H. unfold conflicts in H. rewrite !andb_true_iff in H. destruct H as [[H1 H2] H3].
  apply eqb_eq in H1. split; [exact H1|].
  destruct (version_is_zero (ti_min new)) eqn:E1.
  - apply small_zero in E1; [|exact N1]. destruct (version_is_zero (ti_max new)) eqn:E2.
    + apply small_zero in E2; [|exact N2]. rewrite E1, E2. clear H2 H3. destruct (version_is_zero (ti_max old)) eqn:E3.
      * apply small_zero in E3; [|exact O2]. exists (ti_min old). rewrite E3. unfold in_range. repeat split; auto using v_le_refl.
      * exists (ti_max old). unfold in_range. repeat split; auto using v_le_refl.
        destruct O3 as [O3|O3]; [rewrite O3 in E3; vm_compute in E3; discriminate|auto].
    + exists (ti_max new). split; [unfold in_range; rewrite E1; auto using v_le_refl|]. now apply between_range.
  - exists (ti_min new). split; [unfold in_range; split; auto using v_le_refl|]. now apply between_range.
Qed.

(* an interval inside a closed interval is found *)
Lemma contained_conflicts new old : proper new -> proper old -> ti_name new = ti_name old ->
  ti_min old <> Version 0 0 0 -> ti_min new <> Version 0 0 0 ->
  v_le (ti_min old) (ti_min new) ->
  (ti_max old = Version 0 0 0 \/ (ti_max new <> Version 0 0 0 /\ v_le (ti_max new) (ti_max old))) ->
  conflicts new old = true.
Proof.
  intros (N1 & N2 & N3) (O1 & O2 & O3) Hn Zo Zn H1 H2. unfold conflicts. rewrite Hn, eqb_refl. cbn [andb].
  assert (Eo : version_is_zero (ti_min old) = false).
  { destruct (version_is_zero _) eqn:E; [|reflexivity]. apply small_zero in E; [contradiction|exact O1]. }
  assert (C : version_is_zero (ti_max old) = false -> v_le (ti_min old) (ti_max old)).
  { intros E. destruct O3 as [O3|O3]; [rewrite O3 in E; vm_compute in E; discriminate|exact O3]. }
  apply andb_true_iff. split; apply between_lower_bounded; auto.
  - right. split; [exact H1|]. destruct H2 as [H2|[H2 H3]]; [left; rewrite H2; reflexivity|right].
    destruct N3 as [N3|N3]; [contradiction|]. eapply v_le_trans; eauto.
  - destruct (version_is_zero (ti_max new)) eqn:E; [now left|right].
    destruct N3 as [N3|N3]; [rewrite N3 in E; vm_compute in E; discriminate|].
    split; [eapply v_le_trans; eauto|]. destruct H2 as [H2|[H2 H3]]; [left; rewrite H2; reflexivity|now right].
Qed.
Close Scope Z_scope.
