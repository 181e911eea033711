(* Lemmas about NativeM.v *)
From Coq Require Import List Arith ZArith Bool Ascii String Lia.
From Verif Require Import GoStr GoStrFacts GoMap Names Semver RegistryM NodeM ArrayM TypeM TagM TPathM NativeM.
From Verif Require Import SpecBasic SpecTag SpecType SpecTPath SpecArray SpecNative.
From Verif Require Import TagFacts TypeFacts TPathFacts ArrayFacts DecodeKeepFacts.
Import ListNotations.
Local Open Scope string_scope.

(* ---- TagList ------------------------------------------------------------------------------------- *)
Lemma stake_app a b : stake (String.length a) (a ++ b) = a.
Proof. induction a as [|c a IH]; cbn [String.length stake append]; [destruct b; reflexivity|now rewrite IH]. Qed.
Lemma sdrop_app a c b : sdrop (S (String.length a)) (a ++ String c b) = b.
Proof. induction a as [|d a IH]; cbn [String.length sdrop append]; [destruct b; reflexivity|exact IH]. Qed.

Lemma attr_tag_attr t : no_char "-" (tg_key t) -> attr_tag (tag_attr t) = t.
Proof.
  destruct t as [k v g]. unfold attr_tag, tag_attr. cbn [tg_key tg_value tg_lang a_name a_value x_local].
  intros N. apply has_char_no in N || idtac. destruct g as [|c g]; cbn [emptyb].
  - rewrite (proj2 (index_char_none "-" k)) by exact N. reflexivity.
  - change ("-" ++ String c g) with (String "-" (String c g)).
    rewrite index_char_app by exact N. now rewrite stake_app, sdrop_app.
Qed.
Lemma fold_add_attr {M} l (n : node M) :
  n_attrs (taglist_marshal l n) = fold_left al_add (map tag_attr l) (n_attrs n).
Proof.
  unfold taglist_marshal. revert n. induction l as [|t l IH]; intros n; cbn [fold_left map]; [reflexivity|].
  rewrite IH. destruct n. reflexivity.
Qed.
Lemma tag_attr_inj t u : no_char "-" (tg_key t) -> no_char "-" (tg_key u) ->
  x_local (a_name (tag_attr t)) = x_local (a_name (tag_attr u)) -> tg_key t = tg_key u /\ tg_lang t = tg_lang u.
Proof.
  intros Ht Hu E. apply attr_tag_attr in Ht. apply attr_tag_attr in Hu.
  unfold attr_tag in Ht, Hu. cbv zeta in Ht, Hu. rewrite E in Ht.
  destruct (index_char "-" (x_local (a_name (tag_attr u)))); destruct t, u; injection Ht; injection Hu; intros; subst; auto.
Qed.
Lemma taglist_trip {M} old l (n : node M) : n_attrs n = [] -> Forall (fun t => no_char "-" (tg_key t)) l ->
  NoDup (map (fun t => (tg_key t, tg_lang t)) l) -> taglist_unmarshal old (taglist_marshal l n) = (old ++ l)%list.
Proof.
  intros Hn F N. unfold taglist_unmarshal. f_equal. rewrite fold_add_attr, Hn. cbn [List.app].
  rewrite (al_add_distinct (map tag_attr l) []).
  - cbn [List.app]. rewrite map_map. rewrite <- (map_id l) at 2. apply map_ext_in. intros t Ht.
    apply attr_tag_attr. rewrite Forall_forall in F. auto.
  - cbn [List.app]. rewrite map_map. induction l as [|t l IH]; cbn [map]; [constructor|].
    inversion F as [|? ? F1 F2]; subst. inversion N as [|? ? N1 N2]; subst. constructor; [|auto].
    intros H. apply in_map_iff in H. destruct H as (u & E & Hu). apply N1. apply in_map_iff.
    rewrite Forall_forall in F2. apply tag_attr_inj in E; auto. destruct E as [E1 E2].
    exists u. rewrite E1, E2. auto.
Qed.

(* ---- fields -------------------------------------------------------------------------------------- *)
Section F.
Context {X : Type}.
Notation gval := (gval X).
Notation ty := (ty X).

Lemma first_map {A B} (h : A -> B) (P : B -> Prop) l j : first_such P (map h l) j <-> first_such (fun a => P (h a)) l j.
Proof.
  unfold first_such. split; intros [(x & H1 & H2) H3]; split.
  - rewrite nth_error_map in H1. destruct (nth_error l j) as [a|] eqn:E; [|discriminate]. injection H1 as <-. eauto.
  - intros i a Hi Ha. apply (H3 i); [exact Hi|]. rewrite nth_error_map, Ha. reflexivity.
  - exists (h x). rewrite nth_error_map, H1. auto.
  - intros i b Hi Hb. rewrite nth_error_map in Hb. destruct (nth_error l i) as [a|] eqn:E; [|discriminate].
    injection Hb as <-. eauto.
Qed.
Lemma last_map {A B} (h : A -> B) (P : B -> Prop) l j : last_such P (map h l) j <-> last_such (fun a => P (h a)) l j.
Proof.
  unfold last_such. split; intros [(x & H1 & H2) H3]; split.
  - rewrite nth_error_map in H1. destruct (nth_error l j) as [a|] eqn:E; [|discriminate]. injection H1 as <-. eauto.
  - intros i a Hi Ha. apply (H3 i); [exact Hi|]. rewrite nth_error_map, Ha. reflexivity.
  - exists (h x). rewrite nth_error_map, H1. auto.
  - intros i b Hi Hb. rewrite nth_error_map in Hb. destruct (nth_error l i) as [a|] eqn:E; [|discriminate].
    injection Hb as <-. eauto.
Qed.

Lemma lookup_selects (fs : list (finfo * ty)) name j : lookup fs name = Some j <-> selects fs name j.
Proof.
  unfold lookup, selects. rewrite native_found, first_map, last_map, Forall_map. reflexivity.
Qed.
Lemma lookup_none (fs : list (finfo * ty)) name : lookup fs name = None <-> forall j, ~ selects fs name j.
Proof.
  split.
  - intros H j S. apply lookup_selects in S. congruence.
  - intros H. destruct (lookup fs name) as [j|] eqn:E; [|reflexivity]. apply lookup_selects in E. exfalso. eapply H, E.
Qed.

Lemma skipped_unset f (t : ty) v : skipped f t v = true <-> unset f t v.
Proof.
  unfold skipped, unset. rewrite blank_eq. split.
  - intros H. apply orb_true_iff in H. destruct H as [H|H]; [left; destruct v; cbn in H; congruence|].
    apply andb_true_iff in H. destruct H as [H1 H2]. right. split; [now apply negb_true_iff|exact H2].
  - intros [->|[H1 H2]]; [reflexivity|]. rewrite H1, H2. apply orb_true_r.
Qed.
Lemma skipped_set f (t : ty) v : skipped f t v = false <-> ~ unset f t v.
Proof. rewrite <- skipped_unset. destruct (skipped f t v); split; congruence. Qed.

Lemma set_nth_changed (vs : list gval) j v w : nth_error vs j = Some v -> changed_at vs (set_nth j w vs) j w.
Proof.
  revert j. induction vs as [|x vs IH]; intros [|j] H; cbn in H; try discriminate.
  - split; [reflexivity|]. split; [reflexivity|]. intros [|i] Hi; [congruence|reflexivity].
  - destruct (IH j H) as (L & N & O). cbn [set_nth]. split; [cbn [List.length]; congruence|]. split; [exact N|].
    intros [|i] Hi; [reflexivity|]. cbn [nth_error]. apply O. congruence.
Qed.
Lemma changed_id (vs : list gval) j v : nth_error vs j = Some v -> set_nth j v vs = vs.
Proof. revert j. induction vs as [|x vs IH]; intros [|j] H; cbn in H |- *; try discriminate; [congruence|f_equal; auto]. Qed.

Lemma native_shows (t : ty) t' v' s : plain_bytes t t' -> shows_as t' v' s -> native_enc t t' v' = Ok (Some s).
Proof.
  intros P H. pose proof (shows_enc t' v' s H) as E. unfold native_enc. destruct t; try exact E.
  destruct t'; try exact E. specialize (P eq_refl). discriminate.
Qed.

Lemma not_nil f (t : ty) v : ~ unset f t v -> v <> VNil.
Proof. intros H ->. apply H. left. reflexivity. Qed.

Section N.
Variables (nss : list namespace) (fs : list (finfo * ty)) (vs : list gval) (name : string).
Hypothesis Hns : nss <> [].
Lemma ns_true : has_namespace nss = true. Proof. destruct nss; [congruence|reflexivity]. Qed.

Lemma get_unset j f t v : the_field fs vs name j f t v -> unset f t v -> get_native nss fs vs name = Ok "".
Proof.
  intros (S & F & V) U. unfold get_native. rewrite ns_true, (proj2 (lookup_selects _ _ _) S), F, V.
  now rewrite (proj2 (skipped_unset _ _ _) U).
Qed.
Lemma get_set j f t v t' v' s : the_field fs vs name j f t v -> ~ unset f t v -> under t v t' v' -> plain_bytes t t' ->
  shows_as t' v' s -> get_native nss fs vs name = Ok s.
Proof.
  intros (S & F & V) U W P H. unfold get_native. rewrite ns_true, (proj2 (lookup_selects _ _ _) S), F, V.
  rewrite (proj2 (skipped_set _ _ _) U), (under_drill _ _ _ _ W) by (eapply not_nil; eauto).
  now rewrite (native_shows _ _ _ _ P H).
Qed.
Lemma get_missing : (forall j, ~ selects fs name j) -> exists e, get_native nss fs vs name = Err e.
Proof. intros H. unfold get_native. rewrite ns_true, (proj2 (lookup_none _ _) H). eauto. Qed.
Lemma set_missing value : (forall j, ~ selects fs name j) -> exists e, set_native nss fs vs name value = (vs, Err e).
Proof. intros H. unfold set_native. rewrite ns_true, (proj2 (lookup_none _ _) H). eauto. Qed.

Lemma reads_dec (t : ty) v s w : reads_as t v s w -> native_dec t v s = Ok w.
Proof.
  intros H. unfold native_dec.
  inversion H as [v1 s1|v1 s1|v1 s1 b E1|bits v1 s1 z E1|bits v1 s1 z E1|c v1 s1 w1 E1|i t1 c v1 s1 w1 E1 E2]; subst;
    cbn [set_simple_value]; rewrite ?E1, ?E2; try reflexivity.
Qed.
Lemma set_stores value j f t v t' v' w : the_field fs vs name j f t v -> under t v t' v' -> reads_as t' v' value w ->
  exists vs', set_native nss fs vs name value = (vs', Ok tt) /\ changed_at vs vs' j (wrap t w).
Proof.
  intros (S & F & V) U R. unfold set_native. rewrite ns_true, (proj2 (lookup_selects _ _ _) S), F, V.
  rewrite (under_deref _ _ _ _ U), (reads_dec _ _ _ _ R). eexists. split; [reflexivity|].
  rewrite reref_wrap. eapply set_nth_changed; eauto.
Qed.
Lemma deref_same (t : ty) v t' v' : deref t v = (t', v') -> under t v t' v' \/ exists u, t = TPtr u /\ t' = t /\ v' = v.
Proof.
  intros H. destruct (is_ptr t) eqn:P.
  - destruct t; cbn in P; try discriminate. destruct v; cbn in H; injection H as <- <-; eauto; left; constructor.
  - left. destruct t; cbn in P, H; try discriminate; injection H as <- <-; now constructor.
Qed.
(* a failed set leaves all values as they were, but allocates a nil pointer *)
Lemma set_fails value vs' e : set_native nss fs vs name value = (vs', Err e) ->
  (forall j f t v, the_field fs vs name j f t v -> is_ptr t = true -> v = VNil \/ exists u, v = VPtr u) ->
  vs' = vs \/ exists j f t, the_field fs vs name j f (TPtr t) VNil /\ changed_at vs vs' j (VPtr (zero t)).
Proof.
  intros H WT. unfold set_native in H. rewrite ns_true in H.
  destruct (lookup fs name) as [j|] eqn:L; [|injection H as <- _; auto].
  destruct (nth_error fs j) as [[f t]|] eqn:F; [|discriminate].
  destruct (nth_error vs j) as [v|] eqn:V; [|discriminate].
  destruct (deref t v) as [t' v'] eqn:D. destruct (native_dec t' v' value); try discriminate. injection H as <- _.
  assert (TF : the_field fs vs name j f t v) by (split; [now apply lookup_selects|auto]).
  destruct (is_ptr t) eqn:P.
  - specialize (WT _ _ _ _ TF P). destruct t; cbn in P; try discriminate. destruct WT as [->|(u & ->)]; cbn in D; injection D as <- <-.
    + right. exists j, f, t. split; [exact TF|]. cbn [reref]. eapply set_nth_changed; eauto.
    + left. cbn [reref]. now apply changed_id.
  - left. destruct t; cbn in P, D; try discriminate; injection D as <- <-; cbn [reref]; now apply changed_id.
Qed.
Lemma set_other_fields value vs' r j : set_native nss fs vs name value = (vs', r) -> (forall k, selects fs name k -> k <> j) ->
  nth_error vs' j = nth_error vs j /\ List.length vs' = List.length vs.
Proof.
  intros H O. unfold set_native in H. rewrite ns_true in H.
  destruct (lookup fs name) as [k|] eqn:L; [|injection H as <- _; auto].
  apply lookup_selects in L. apply O in L.
  destruct (nth_error fs k) as [[f t]|] eqn:F; [|injection H as <- _; auto].
  destruct (nth_error vs k) as [v|] eqn:V; [|injection H as <- _; auto].
  destruct (deref t v) as [t' v'] eqn:D.
  destruct (native_dec t' v' value); injection H as <- _; auto;
    (destruct (set_nth_changed vs k v (reref t a) V) as (A & B & C) || destruct (set_nth_changed vs k v (reref t v') V) as (A & B & C)); auto.
Qed.

(* locale *)
Lemma locale_sets lang value j f t v m l : the_field fs vs name j f t v -> under t v (TAlt m) (VAlt l) -> one_default l -> value <> "" ->
  exists l' vs', set_locale nss fs vs lang name value = (vs', Ok tt) /\ changed_at vs vs' j (wrap t (VAlt l'))
    /\ one_default l' /\ (lang <> "" -> alt_get l' lang = value) /\ (forall g, g <> "" -> g <> lang -> alt_get l' g = alt_get l g).
Proof.
  intros (S & F & V) U O N. unfold set_locale. rewrite ns_true, (proj2 (lookup_selects _ _ _) S), F, V, (under_deref _ _ _ _ U).
  assert (exists l', alt_set l lang value = Ok l') as [l' E].
  { destruct (alt_set_spec l lang value O N) as [(pre & x & post & _ & _ & _ & E)|[_ E]]; rewrite E; eauto. }
  rewrite E. destruct (set_get l lang value l' O N E) as (A & B & C & _).
  exists l'. eexists. split; [reflexivity|]. split; [rewrite reref_wrap; eapply set_nth_changed; eauto|]. auto.
Qed.
Lemma locale_gets te lang j f m l : the_field fs vs name j f (TAlt m) (VAlt l) -> get_locale te nss fs vs lang name = Ok (alt_get l lang).
Proof. intros (S & F & V). unfold get_locale. now rewrite ns_true, (proj2 (lookup_selects _ _ _) S), F, V. Qed.
Lemma locale_wrong_type lang value j f t v t' v' : the_field fs vs name j f t v -> under t v t' v' -> (forall m, t' <> TAlt m) ->
  exists e vs', set_locale nss fs vs lang name value = (vs', Err e) /\ changed_at vs vs' j (wrap t v').
Proof.
  intros (S & F & V) U N. unfold set_locale. rewrite ns_true, (proj2 (lookup_selects _ _ _) S), F, V, (under_deref _ _ _ _ U).
  destruct t'; try (eexists; eexists; split; [reflexivity|]; rewrite reref_wrap; eapply set_nth_changed; eauto).
  exfalso. exact (N _ eq_refl).
Qed.

End N.

(* listing *)
Lemma under_fun (t : ty) v t1 v1 t2 v2 : under t v t1 v1 -> under t v t2 v2 -> t1 = t2 /\ v1 = v2.
Proof. intros A B. apply under_deref in A. apply under_deref in B. rewrite A in B. injection B as <- <-. auto. Qed.

Lemma shows_inv (t : ty) v s : leaf_enc t v = Ok (Some s) -> shows_as t v s.
Proof.
  unfold leaf_enc. destruct t; cbn [simple_text]; intros H; try discriminate.
  1-5: destruct v as [s0|b0|z0| | | | | |]; cbn in H; try discriminate; injection H as <-; constructor.
  - now constructor.
  - destruct (ar_text i) eqn:E; [econstructor; eauto|discriminate].
Qed.
Lemma enc_none (t : ty) v : leaf_enc t v = Ok None ->
  exists c, (t = TText c \/ exists i te, t = TArr i te /\ ar_text i = Some c) /\ c_enc c v = Ok None.
Proof.
  unfold leaf_enc. destruct t; cbn [simple_text]; intros H; try discriminate.
  1-5: destruct v; cbn in H; discriminate.
  - eauto.
  - destruct (ar_text i) eqn:E; [|discriminate]. exists c. split; [right; eauto|exact H].
Qed.
Lemma drill_under (t : ty) v t' v' : drill t v = (t', v') -> v <> VNil -> under t v t' v' \/ (is_ptr t = true /\ t' = t).
Proof.
  intros H N. destruct (is_ptr t) eqn:P.
  - destruct t; cbn in P; try discriminate. destruct v; cbn in H; injection H as <- <-; auto. left. constructor.
  - left. destruct t; cbn in P, H; try discriminate; injection H as <- <-; now constructor.
Qed.

Lemma list_field_spec f (t : ty) v l : list_field f t v = Ok l <-> tags_of f t v l.
Proof.
  unfold list_field. destruct (skipped f t v) eqn:SK.
  { apply skipped_unset in SK. split.
    - intros H. injection H as <-. now apply tg_unset.
    - intros H. destruct H; [reflexivity|contradiction..]. }
  apply skipped_set in SK. pose proof (not_nil _ _ _ SK) as NN.
  set (text := fun o : option string => match o with Some s => if emptyb s then [] else [Tag (f_name f) s ""] | None => [] end).
  assert (TXT : forall t' v' o, under t v t' v' -> t' <> TBytes -> leaf_enc t' v' = Ok o -> tags_of f t v (text o)).
  { intros t' v' o U B E. destruct o as [s|]; cbn [text].
    - apply shows_inv in E. destruct (emptyb s) eqn:Es.
      + apply emptyb_true in Es. subst s. now apply tg_empty with t' v'.
      + apply emptyb_false in Es. now apply tg_text with t' v'.
    - destruct (enc_none _ _ E) as (c & C & E'). eapply tg_none; eauto. }
  split.
  - destruct (drill t v) as [t' v'] eqn:D. destruct (drill_under _ _ _ _ D NN) as [U|[P ->]].
    + intros H.
      assert (G : match t' with TBytes => False | TAlt _ => True | TArr i te => exists c, ar_text i = Some c | _ => True end).
      { destruct t'; auto; [discriminate|]. destruct (ar_text i); [eauto|discriminate]. }
      destruct t'; try (destruct (leaf_enc _ v') as [o| |] eqn:E in H; cbn [bind] in H; try discriminate H; injection H as <-;
        eapply TXT; eauto; discriminate).
      * destruct G.
      * destruct v'; try (cbn in H; discriminate H). injection H as <-. eapply tg_alt; eauto.
      * destruct G as [c C]. rewrite C in H. destruct (c_enc c v') as [o| |] eqn:E; cbn [bind] in H; try discriminate H. injection H as <-.
        eapply TXT; eauto; [discriminate|]. unfold leaf_enc. now rewrite C.
    + destruct t; cbn in P |- *; discriminate.
  - intros H. destruct H as [U|m a _ U|t' v' s _ U B S NE|t' v' _ U B S|t' v' c _ U C E]; [contradiction|..];
      rewrite (under_drill _ _ _ _ U) by exact NN.
    + reflexivity.
    + pose proof (shows_enc _ _ _ S) as E. apply emptyb_false in NE.
      destruct S as [s1|s1|bb|bits z|bits z|c v1 s1 E1|i t1 c v1 s1 E1 E2]; try congruence; cbn [leaf_enc] in E |- *;
        try (rewrite E; cbn [bind]; unfold text; now rewrite NE).
      rewrite E1 in E |- *. rewrite E. cbn [bind]. now rewrite NE.
    + pose proof (shows_enc _ _ _ S) as E. remember "" as s eqn:Es.
      destruct S as [s1|s1|bb|bits z|bits z|c v1 s1 E1|i t1 c v1 s1 E1 E2]; try congruence; cbn [leaf_enc] in E |- *;
        try (rewrite E; cbn [bind]; unfold text; now rewrite Es).
      rewrite E1 in E |- *. rewrite E. cbn [bind]. now rewrite Es.
    + destruct C as [->|(i & te & -> & C)]; cbn [leaf_enc].
      * now rewrite E.
      * rewrite C, E. reflexivity.
Qed.
Lemma list_fields_spec (fs : list (finfo * ty)) : forall (vs : list gval) l, list_fields fs vs = Ok l <->
  List.length fs = List.length vs
  /\ exists ls, Forall2 (fun x l => tags_of (fst (fst x)) (snd (fst x)) (snd x) l) (combine fs vs) ls /\ l = List.concat ls.
Proof.
  induction fs as [|[f t] fs IH]; intros [|v vs] l; cbn [list_fields combine List.length].
  - split.
    + intros H. injection H as <-. split; [reflexivity|]. exists []. split; [constructor|reflexivity].
    + intros [_ (ls & F & ->)]. inversion F. reflexivity.
  - split; [discriminate|intros [H _]; discriminate].
  - split; [discriminate|intros [H _]; discriminate].
  - split.
    + intros H. destruct (list_field f t v) as [a| |] eqn:E; try discriminate. cbn [bind] in H.
      destruct (list_fields fs vs) as [b| |] eqn:E2; try discriminate. injection H as <-.
      apply list_field_spec in E. apply IH in E2. destruct E2 as [L (ls & F & ->)]. split; [congruence|].
      exists (a :: ls). split; [constructor; auto|reflexivity].
    + intros [L (ls & F & ->)]. inversion F as [|? a ? ls' F1 F2]; subst. cbn [fst snd] in F1. apply list_field_spec in F1.
      rewrite F1. cbn [bind]. injection L as L.
      rewrite (proj2 (IH vs (List.concat ls'))) by (split; [exact L|eauto]). reflexivity.
Qed.

Lemma listed_from (fs : list (finfo * ty)) (vs : list gval) l x : list_fields fs vs = Ok l -> In x l ->
  exists j f t v lf, nth_error fs j = Some (f, t) /\ nth_error vs j = Some v /\ tags_of f t v lf /\ In x lf.
Proof.
  revert vs l. induction fs as [|[f t] fs IH]; intros [|v vs] l H I; cbn [list_fields] in H; try discriminate.
  - injection H as <-. destruct I.
  - destruct (list_field f t v) as [a| |] eqn:E; try discriminate. cbn [bind] in H.
    destruct (list_fields fs vs) as [b| |] eqn:E2; try discriminate. injection H as <-.
    apply in_app_or in I. destruct I as [I|I].
    + exists 0, f, t, v, a. apply list_field_spec in E. auto.
    + destruct (IH vs b E2 I) as (j & f' & t' & v' & lf & A & B & C & D). exists (S j), f', t', v', lf. auto.
Qed.
End F.
