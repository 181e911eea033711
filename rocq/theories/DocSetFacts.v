From Coq Require Import List Arith ZArith Bool Ascii String Lia.
From Verif Require Import GoStr GoStrFacts GoMap Names PathM SyncFlags PVList RegistryM RegistryFacts NodeM FilterM DocM Spec SpecBasic SpecNode NodeFacts NodePathFacts NodeListFacts NodeMoreFacts SpecDoc DocFacts DocPathFacts.
Import ListNotations.
Local Open Scope string_scope.

Lemma none_on3 fl a b c : (0 <= a)%Z -> (0 <= b)%Z -> (0 <= c)%Z ->
  on fl (Z.lor (Z.lor a b) c) = on fl a || on fl b || on fl c.
Proof. intros. rewrite !on_lor; auto. apply Z.lor_nonneg; auto. Qed.
Lemma on_update fl : on fl (Z.lor (Z.lor (Z.lor REPLACE DELETE) APPEND) UNIQUE) = on fl REPLACE || on fl DELETE || on fl APPEND || on fl UNIQUE.
Proof.
  rewrite on_lor; [|discriminate|discriminate]. rewrite none_on3; try discriminate. reflexivity.
Qed.
Lemma on_make fl : on fl (Z.lor (Z.lor CREATE APPEND) UNIQUE) = on fl CREATE || on fl APPEND || on fl UNIQUE.
Proof. now rewrite none_on3. Qed.

Section F.
Context {M : Type}.
Variable ops : model_ops M.
Implicit Types (d : doc M) (n : node M).

Lemma ns_xmp reg d p ns : path_namespace reg d p = Some ns -> is_xmp_path p = true.
Proof. unfold path_namespace. destruct (is_xmp_path p); auto; discriminate. Qed.

Lemma doc_set_settled reg d p x v fl ns i n : path_namespace reg d p = Some ns -> settled ops d ns i n ->
  doc_set_path ops reg d (PathValue p x v fl) =
  let '(d', e) := set_path_with ops reg d ns p v (effective fl) (mref_of n i) (NAt i) in (reg, d', e).
Proof.
  intros Hp Hs. unfold doc_set_path. cbn [pv_path pv_ns pv_value pv_flags]. rewrite (ns_xmp _ _ _ _ Hp), Hp. cbn [negb].
  fold (effective fl). now rewrite (settled_set _ _ _ _ _ _ _ _ _ Hs).
Qed.


Lemma set_empty_needs_delete reg d p x fl ns i n : path_namespace reg d p = Some ns -> settled ops d ns i n ->
  on (effective fl) DELETE = false ->
  exists r, doc_set_path ops reg d (PathValue p x "" fl) = (reg, d, r) /\ refused (effective fl) r.
Proof.
  intros Hp Hs Hd. rewrite (doc_set_settled _ _ _ _ _ _ _ _ _ Hp Hs). unfold set_path_with. cbn [emptyb andb]. rewrite Hd. cbn [negb].
  eexists. split; [reflexivity|]. unfold refused, stop. destruct (on (effective fl) NOFAIL); eauto.
Qed.


Lemma with_rest reg d p v fl ns i n : (v = "" -> on fl DELETE = true) -> keeps_node p fl ->
  set_path_with ops reg d ns p v fl (mref_of n i) (NAt i) = set_path_rest ops reg d p v fl (mref_of n i) (NAt i).
Proof.
  intros Hv Hk. unfold set_path_with. replace (emptyb v && negb (on fl DELETE)) with false.
  - replace (Nat.eqb (path_len p) 0 && on fl DELETE) with false; auto. symmetry. apply andb_false_iff.
    destruct Hk as [H|H]; [left; now apply Nat.eqb_neq|now right].
  - symmetry. destruct v; cbn [emptyb andb]; auto. now rewrite Hv.
Qed.

Lemma blocked_iff dest fl : blocked dest fl = true <->
  (dest = "" /\ none_of fl [CREATE; APPEND; UNIQUE]) \/ (dest <> "" /\ none_of fl [REPLACE; DELETE; APPEND; UNIQUE]).
Proof.
  unfold blocked. rewrite on_make, on_update.
  assert (A : negb (on fl CREATE || on fl APPEND || on fl UNIQUE) = true <-> none_of fl [CREATE; APPEND; UNIQUE]).
  { rewrite negb_true_iff, !orb_false_iff. unfold none_of. cbn [In]. split.
    - intros [[A B] C] f [<-|[<-|[<-|[]]]]; auto.
    - intros H. repeat split; apply H; auto. }
  assert (B : negb (on fl REPLACE || on fl DELETE || on fl APPEND || on fl UNIQUE) = true <-> none_of fl [REPLACE; DELETE; APPEND; UNIQUE]).
  { rewrite negb_true_iff, !orb_false_iff. unfold none_of. cbn [In]. split.
    - intros [[[A1 B1] C1] D1] f [<-|[<-|[<-|[<-|[]]]]]; auto.
    - intros H. repeat split; apply H; auto. }
  rewrite orb_true_iff, !andb_true_iff, A, B, negb_true_iff. destruct dest; cbn [emptyb]; intuition discriminate.
Qed.

Lemma none_any fl l : (forall f, In f l -> (0 <= f)%Z) -> none_of fl l \/ any_of fl l.
Proof.
  induction l as [|f l IH]; intros H.
  - left. intros f [].
  - destruct (on fl f) eqn:E; [right; exists f; split; [now left|auto]|].
    destruct IH as [IH|(g & Hg & Eg)]; [intros; apply H; now right| |right; exists g; split; [now right|auto]].
    left. intros g [<-|Hg]; auto.
Qed.

Lemma set_blocked reg d p x v fl ns i n old : path_namespace reg d p = Some ns -> settled ops d ns i n ->
  doc_get_path ops reg d p = Ok old -> old <> v -> keeps_node p (effective fl) ->
  (old = "" /\ none_of (effective fl) [CREATE; APPEND; UNIQUE]) \/ (old <> "" /\ none_of (effective fl) [REPLACE; DELETE; APPEND; UNIQUE]) ->
  exists r, doc_set_path ops reg d (PathValue p x v fl) = (reg, d, r) /\ refused (effective fl) r.
Proof.
  intros Hp Hs Hg Hne Hk Hb. destruct (on (effective fl) DELETE) eqn:Ed.
  - rewrite (doc_set_settled _ _ _ _ _ _ _ _ _ Hp Hs). rewrite with_rest by auto.
    assert (Hi : nth_error (d_nodes d) i = Some n) by (destruct Hs as [(Hi & _) _]; auto).
    rewrite (rest_settled _ _ _ _ _ _ _ _ Hi). apply (settled_get _ _ _ _ _ _ _ _ Hs (ns_xmp _ _ _ _ Hp) Hp) in Hg. rewrite Hg.
    rewrite (proj2 (String.eqb_neq _ _) Hne). apply blocked_iff in Hb. rewrite Hb. eexists. split; [reflexivity|].
    unfold refused. destruct (on (effective fl) NOFAIL); eauto.
  - destruct v as [|c v]; [eapply set_empty_needs_delete; eauto|].
    rewrite (doc_set_settled _ _ _ _ _ _ _ _ _ Hp Hs). rewrite with_rest by (auto; discriminate).
    assert (Hi : nth_error (d_nodes d) i = Some n) by (destruct Hs as [(Hi & _) _]; auto).
    rewrite (rest_settled _ _ _ _ _ _ _ _ Hi). apply (settled_get _ _ _ _ _ _ _ _ Hs (ns_xmp _ _ _ _ Hp) Hp) in Hg. rewrite Hg.
    rewrite (proj2 (String.eqb_neq _ _) Hne). apply blocked_iff in Hb. rewrite Hb. eexists. split; [reflexivity|].
    unfold refused. destruct (on (effective fl) NOFAIL); eauto.
Qed.

Lemma set_absent_needs_create reg d p x v fl ns : path_namespace reg d p = Some ns ->
  (forall n, In n (d_nodes d) -> ~ home ops (ns_name ns) n) -> on (effective fl) CREATE = false ->
  exists r, doc_set_path ops reg d (PathValue p x v fl) = (reg, d, r) /\ refused (effective fl) r.
Proof.
  intros Hp Hno Hc. unfold doc_set_path. cbn [pv_path pv_ns pv_value pv_flags]. rewrite (ns_xmp _ _ _ _ Hp), Hp. cbn [negb].
  fold (effective fl). unfold set_path_ns.
  rewrite (proj2 (find_node_none ops d ns) Hno).
  rewrite (proj2 (find_model_none ops d ns)) by (intros n Hn Hs; apply (Hno n Hn); now right).
  rewrite Hc. cbn [negb andb]. eexists. split; [reflexivity|]. unfold refused, stop. destruct (on (effective fl) NOFAIL); eauto.
Qed.

Lemma set_equal_noop reg d p x v fl ns i n : path_namespace reg d p = Some ns -> settled ops d ns i n ->
  doc_get_path ops reg d p = Ok v -> (v = "" -> on (effective fl) DELETE = true) -> keeps_node p (effective fl) ->
  doc_set_path ops reg d (PathValue p x v fl) = (reg, d, Ok tt).
Proof.
  intros Hp Hs Hg Hv Hk. rewrite (doc_set_settled _ _ _ _ _ _ _ _ _ Hp Hs). rewrite with_rest by auto.
  assert (Hi : nth_error (d_nodes d) i = Some n) by (destruct Hs as [(Hi & _) _]; auto).
  rewrite (rest_settled _ _ _ _ _ _ _ _ Hi). apply (settled_get _ _ _ _ _ _ _ _ Hs (ns_xmp _ _ _ _ Hp) Hp) in Hg. rewrite Hg.
  now rewrite String.eqb_refl.
Qed.


Lemma allowed_not_blocked old fl : allowed old fl -> blocked old fl = false.
Proof.
  intros [H1 H2]. apply not_true_is_false. rewrite blocked_iff. intros [[E H]|[E H]].
  - destruct (H1 E) as (f & Hf & Ef). rewrite H in Ef by auto. discriminate.
  - destruct (H2 E) as (f & Hf & Ef). rewrite H in Ef by auto. discriminate.
Qed.

Lemma set_allowed_model reg d p x v fl ns i n old m m' : path_namespace reg d p = Some ns -> settled ops d ns i n ->
  doc_get_path ops reg d p = Ok old -> old <> v -> (v = "" -> on (effective fl) DELETE = true) -> keeps_node p (effective fl) ->
  allowed old (effective fl) -> n_model n = Some m -> mo_set ops m p v (effective fl) = (m', Ok tt) ->
  exists d', doc_set_path ops reg d (PathValue p x v fl) = (reg, d', Ok tt) /\ d_dirty d' = true /\
    changed_at (d_nodes d) i n (set_model n (Some m')) (d_nodes d') /\
    d_int d' = d_int d /\ d_ext d' = d_ext d.
Proof.
  intros Hp Hs Hg Hne Hv Hk Ha Hm Hset. rewrite (doc_set_settled _ _ _ _ _ _ _ _ _ Hp Hs). rewrite with_rest by auto.
  assert (Hi : nth_error (d_nodes d) i = Some n) by (destruct Hs as [(Hi & _) _]; auto).
  rewrite (rest_settled _ _ _ _ _ _ _ _ Hi). apply (settled_get _ _ _ _ _ _ _ _ Hs (ns_xmp _ _ _ _ Hp) Hp) in Hg. rewrite Hg.
  rewrite (proj2 (String.eqb_neq _ _) Hne), (allowed_not_blocked _ _ Ha), Hm, Hset. cbn [is_not_found].
  eexists. split; [reflexivity|]. split; [reflexivity|]. split; [|split; reflexivity].
  now apply changed_at_replace.
Qed.

Lemma set_allowed_raw reg d p x v fl ns i n old n' : path_namespace reg d p = Some ns -> settled ops d ns i n ->
  doc_get_path ops reg d p = Ok old -> old <> v -> (v = "" -> on (effective fl) DELETE = true) -> keeps_node p (effective fl) ->
  allowed old (effective fl) -> n_model n = None -> node_set_path (mo_can ops) reg n p v (effective fl) = (n', Ok tt) ->
  exists d', doc_set_path ops reg d (PathValue p x v fl) = (reg, d', Ok tt) /\ d_dirty d' = true /\
    changed_at (d_nodes d) i n n' (d_nodes d') /\ d_int d' = d_int d /\ d_ext d' = d_ext d.
Proof.
  intros Hp Hs Hg Hne Hv Hk Ha Hm Hset. rewrite (doc_set_settled _ _ _ _ _ _ _ _ _ Hp Hs). rewrite with_rest by auto.
  assert (Hi : nth_error (d_nodes d) i = Some n) by (destruct Hs as [(Hi & _) _]; auto).
  rewrite (rest_settled _ _ _ _ _ _ _ _ Hi). apply (settled_get _ _ _ _ _ _ _ _ Hs (ns_xmp _ _ _ _ Hp) Hp) in Hg. rewrite Hg.
  rewrite (proj2 (String.eqb_neq _ _) Hne), (allowed_not_blocked _ _ Ha), Hm. unfold ref_set_path. cbn [nref_get]. rewrite Hi, Hset.
  eexists. split; [reflexivity|]. split; [reflexivity|]. split; [|split; reflexivity].
  now apply changed_at_replace.
Qed.

(* ---- the node operations do not look at the model of the node they are applied to ---- *)
Lemma get_path_model fuel : forall n p mo, get_path_f (mo_can ops) fuel (set_model n mo) p = get_path_f (mo_can ops) fuel n p.
Proof.
  induction fuel as [|f IH]; intros n p mo; cbn [get_path_f]; auto.
  destruct (pop_front p) as [seg p']. destruct (parse_segment seg) as [[name idx] lang].
  destruct n as [x a m v l]. cbn [set_model n_value n_nodes]. unfold get_attr. cbn [n_attrs].
  destruct (idx <? -1)%Z; auto. destruct (emptyb name && (idx =? -1)%Z && emptyb lang); auto.
  destruct (Nat.eqb (path_len p') 0); auto. apply (IH (Node x a m v l)).
Qed.
Lemma node_get_path_model n p mo : node_get_path (mo_can ops) (set_model n mo) p = node_get_path (mo_can ops) n p.
Proof. apply get_path_model. Qed.

Lemma node_set_path_model reg n p v fl mo :
  node_set_path (mo_can ops) reg (set_model n mo) p v fl =
  let '(n', e) := node_set_path (mo_can ops) reg n p v fl in (set_model n' mo, e).
Proof.
  unfold node_set_path. cbn [set_path_f].
  destruct (pop_front p) as [seg p']. destruct (parse_segment seg) as [[name idx] lang].
  destruct n as [x a m v0 l]. cbn [set_model n_value n_nodes]. unfold get_attr. cbn [n_attrs].
  destruct (idx <? -1)%Z; auto. destruct (emptyb name && (idx =? -1)%Z && emptyb lang).
  { destruct (Nat.eqb (path_len p') 0); auto. }
  match goal with |- context [if ?b then _ else _] => destruct b end; auto.
  match goal with |- context [upd_first ?t ?f ?l] => destruct (upd_first t f l) as [[l' e]|] end; auto.
  match goal with |- context [if ?b then _ else _] => destruct b end; auto.
  match goal with |- context [set_child ?a ?b ?c ?d ?e ?f ?g ?h ?i] => destruct (set_child a b c d e f g h i) as [c' e'] end.
  reflexivity.
Qed.
Lemma node_set_path_keeps_model reg n p v fl n' e : node_set_path (mo_can ops) reg n p v fl = (n', e) -> n_model n' = n_model n.
Proof.
  intros H. pose proof (node_set_path_model reg n p v fl (n_model n)) as K. rewrite H in K.
  replace (set_model n (n_model n)) with n in K by (destruct n; reflexivity). rewrite H in K. inversion K as [K1].
  rewrite K1. destruct n'; reflexivity.
Qed.
Lemma node_set_path_keeps_name reg n p v fl n' e : node_set_path (mo_can ops) reg n p v fl = (n', e) -> n_name n' = n_name n.
Proof.
  unfold node_set_path. cbn [set_path_f].
  destruct (pop_front p) as [seg p']. destruct (parse_segment seg) as [[name idx] lang].
  destruct n as [x a m v0 l]. cbn [n_value n_nodes]. unfold get_attr. cbn [n_attrs].
  destruct (idx <? -1)%Z; [intros H; inversion H; auto|]. destruct (emptyb name && (idx =? -1)%Z && emptyb lang).
  { destruct (Nat.eqb (path_len p') 0); intros H; inversion H; auto. }
  match goal with |- context [if ?b then _ else _] => destruct b end; [intros H; inversion H; auto|].
  match goal with |- context [upd_first ?t ?f ?l] => destruct (upd_first t f l) as [[l' e']|] end; [intros H; inversion H; auto|].
  match goal with |- context [if ?b then _ else _] => destruct b end; [|intros H; inversion H; auto].
  match goal with |- context [set_child ?a ?b ?c ?d ?e ?f ?g ?h ?i] => destruct (set_child a b c d e f g h i) as [c' e'] end.
  intros H; inversion H; auto.
Qed.

(* ---- C29 ---- *)
(* replacing the node for the namespace by one which is still the node for it *)
Lemma settled_replace d ns i n n' b : settled ops d ns i n -> node_local n' = node_local n ->
  (serves ops (ns_name ns) n -> serves ops (ns_name ns) n') -> (n_model n = None -> n_model n' = None) ->
  settled ops (with_dirty (with_nodes d (replace_nth i n' (d_nodes d))) b) ns i n'.
Proof.
  intros [(Hi & Hh & Hj) H] Hl Hs Hm. assert (Li : i < List.length (d_nodes d)) by (apply nth_error_Some; congruence).
  split.
  - cbn [d_nodes with_dirty with_nodes]. split; [now apply nth_replace_eq|]. split.
    + destruct Hh as [Hh|Hh]; [left; congruence|right; auto].
    + intros j y Lj Hy. rewrite nth_replace_neq in Hy by lia. eauto.
  - destruct H as [H|(H1 & H2 & H3)]; [left; auto|right]. split; auto. split; auto.
    intros y Hy. cbn [d_nodes with_dirty with_nodes] in Hy. apply In_nth_error in Hy as [j Hy].
    destruct (Nat.eq_dec i j) as [<-|Hij].
    + rewrite nth_replace_eq in Hy by auto. inversion Hy; subst. intros (m & Em & _). rewrite Hm in Em by auto. discriminate.
    + rewrite nth_replace_neq in Hy by auto. apply H2. eapply nth_error_In; eauto.
Qed.

Lemma namespace_replace reg d l b p : path_namespace reg (with_dirty (with_nodes d l) b) p = path_namespace reg d p.
Proof. reflexivity. Qed.


Lemma set_then_get_doc reg d p x v fl ns i n reg' d' segs :
  path_namespace reg d p = Some ns -> settled ops d ns i n -> p = render (ns_name ns) segs -> Forall pseg_ok segs -> no_char ":" (ns_name ns) -> segs <> [] ->
  v <> "" -> on (effective fl) (Z.lor REPLACE CREATE) = true -> on (effective fl) NOFAIL = false ->
  (forall m, n_model n = Some m -> answers ops m p v (effective fl)) ->
  raw (set_model n None) -> addressable reg (effective fl) (set_model n None) segs ->
  doc_set_path ops reg d (PathValue p x v fl) = (reg', d', Ok tt) ->
  reg' = reg /\ doc_get_path ops reg d' p = Ok v.
Proof.
  intros Hp Hs Hr Hok Hns Hne Hv Hon Hnf Hans Hraw Haddr.
  assert (Hi : nth_error (d_nodes d) i = Some n) by (destruct Hs as [(Hi & _) _]; auto).
  assert (Li : i < List.length (d_nodes d)) by (apply nth_error_Some; congruence).
  assert (Hlen : path_len p <> 0).
  { subst p. rewrite path_len_render by auto. destruct segs; cbn; congruence. }
  rewrite (doc_set_settled _ _ _ _ _ _ _ _ _ Hp Hs). rewrite with_rest by (try (left; auto); congruence).
  rewrite (rest_settled _ _ _ _ _ _ _ _ Hi).
  destruct (current ops n p) as [dest| |] eqn:Ec; [|discriminate|discriminate].
  destruct (dest =? v) eqn:Ed.
  { apply String.eqb_eq in Ed. subst dest. intros H; inversion H; subst. split; auto.
    eapply settled_get; eauto. eapply ns_xmp; eauto. }
  destruct (blocked dest (effective fl)); [rewrite Hnf; discriminate|].
  assert (RAW : forall mo n', node_set_path (mo_can ops) reg (set_model n mo) p v (effective fl) = (n', Ok tt) ->
                  node_get_path (mo_can ops) n' p = Ok v).
  { intros mo n' E. assert (E2 : node_set_path (mo_can ops) reg (set_model n None) p v (effective fl) = (set_model n' None, Ok tt)).
    { replace (set_model n None) with (set_model (set_model n mo) None) by (destruct n; reflexivity).
      rewrite node_set_path_model, E. reflexivity. }
    subst p. rewrite <- (node_get_path_model n' _ None). eapply set_then_get; eauto. }
  destruct (n_model n) as [m|] eqn:Em.
  - destruct (mo_set ops m p v (effective fl)) as [m' e] eqn:Es. destruct (Hans m eq_refl m' e Es) as (A1 & A2 & A3).
    destruct (is_not_found e) eqn:En.
    + unfold ref_set_path. cbn [nref_get with_nodes d_nodes]. rewrite nth_replace_eq by auto.
      destruct (node_set_path (mo_can ops) reg (set_model n (Some m')) p v (effective fl)) as [n' e'] eqn:Er.
      cbn [nref_put with_nodes d_nodes]. rewrite replace_nth_twice.
      destruct e' as [u|s|]; [|rewrite Hnf; discriminate|discriminate]. destruct u. intros H; inversion H; subst reg' d'; clear H. split; auto.
      assert (Hm' : n_model n' = Some m').
      { rewrite (node_set_path_keeps_model _ _ _ _ _ _ _ Er). destruct n; reflexivity. }
      assert (Hs' : settled ops (set_dirty (with_nodes d (replace_nth i n' (d_nodes d)))) ns i n').
      { apply settled_replace with (n := n); auto.
        - unfold node_local. rewrite (node_set_path_keeps_name _ _ _ _ _ _ _ Er). destruct n; reflexivity.
        - intros (m0 & Em0 & Hc). exists m'. split; auto. rewrite A1. congruence.
        - rewrite Em. discriminate. }
      eapply settled_get; [exact Hs'|eapply ns_xmp; eauto|exact Hp|]. unfold current. rewrite Hm', (A3 eq_refl). eapply RAW; eauto.
    + destruct e as [u|s|]; [|rewrite Hnf; discriminate|discriminate]. destruct u. intros H; inversion H; subst reg' d'; clear H. split; auto.
      assert (Hs' : settled ops (set_dirty (with_nodes d (replace_nth i (set_model n (Some m')) (d_nodes d)))) ns i (set_model n (Some m'))).
      { apply settled_replace with (n := n); auto.
        - destruct n; reflexivity.
        - intros (m0 & Em0 & Hc). exists m'. split; [destruct n; reflexivity|]. rewrite A1. congruence.
        - rewrite Em. discriminate. }
      eapply settled_get; [exact Hs'|eapply ns_xmp; eauto|exact Hp|]. unfold current. replace (n_model (set_model n (Some m'))) with (Some m') by (destruct n; reflexivity).
      now rewrite (A2 eq_refl).
  - unfold ref_set_path. cbn [nref_get]. rewrite Hi. destruct (node_set_path (mo_can ops) reg n p v (effective fl)) as [n' e'] eqn:Er.
    cbn [nref_put]. destruct e' as [u|s|]; [|rewrite Hnf; discriminate|discriminate]. destruct u. intros H; inversion H; subst reg' d'; clear H. split; auto.
    assert (Hm' : n_model n' = None) by (rewrite (node_set_path_keeps_model _ _ _ _ _ _ _ Er); auto).
    assert (Hs' : settled ops (set_dirty (with_nodes d (replace_nth i n' (d_nodes d)))) ns i n').
    { apply settled_replace with (n := n); auto.
      - unfold node_local. now rewrite (node_set_path_keeps_name _ _ _ _ _ _ _ Er).
      - intros (m0 & Em0 & _). congruence. }
    eapply settled_get; [exact Hs'|eapply ns_xmp; eauto|exact Hp|]. unfold current. rewrite Hm'. apply (RAW (n_model n)).
    replace (set_model n (n_model n)) with n by (destruct n; reflexivity). exact Er.
Qed.

(* ---- C30 ---- *)

Lemma rest_nofail reg d p v fl m nr d' e : on fl NOFAIL = true -> set_path_rest ops reg d p v fl m nr = (d', Err e) -> reading_fails ops p e.
Proof.
  intros Hn. unfold set_path_rest.
  match goal with |- context [match ?c with Ok _ => _ | Err _ => _ | Panic => _ end] => set (cur := c) end.
  assert (Hc : cur = Err e -> reading_fails ops p e).
  { unfold cur, ref_get_path. destruct (mref_get d m) as [mv|].
    - destruct (is_not_found (mo_get ops mv p)).
      + destruct (nref_get d nr); [|discriminate]. intros. right. eauto.
      + intros. left. eauto.
    - destruct (nref_get d nr); [|discriminate]. intros. right. eauto. }
  clearbody cur. destruct cur as [dest|e'|].
  - destruct (dest =? v); [intros H; inversion H|]. unfold stop. rewrite Hn.
    match goal with |- context [if ?b then _ else _] => destruct b end; [intros H; inversion H|].
    match goal with |- context [if ?b then _ else _] => destruct b end; [intros H; inversion H|].
    match goal with |- context [let '(_, _) := ?x in _] => destruct x as [d1 [u|s|]] end; intros H; inversion H.
  - intros H; inversion H; subst. auto.
  - intros H; inversion H.
Qed.
Lemma with_nofail reg d ns p v fl m nr d' e : on fl NOFAIL = true -> set_path_with ops reg d ns p v fl m nr = (d', Err e) -> reading_fails ops p e.
Proof.
  intros Hn. unfold set_path_with, stop. rewrite Hn. destruct (emptyb v && negb (on fl DELETE)); [intros H; inversion H|].
  destruct (Nat.eqb (path_len p) 0 && on fl DELETE).
  - destruct (remove_namespace_i d ns) as [d1 [k|]]; apply rest_nofail; auto.
  - apply rest_nofail; auto.
Qed.
Lemma ns_nofail reg d ns p v fl d' e : on fl NOFAIL = true -> set_path_ns ops reg d ns p v fl = (d', Err e) -> reading_fails ops p e.
Proof.
  intros Hn. unfold set_path_ns, stop. rewrite Hn. destruct (doc_find_model ops d ns); [apply with_nofail; auto|].
  match goal with |- context [if ?b then _ else _] => destruct b end; [intros H; inversion H|].
  destruct (new_model ops ns) as [m|].
  - destruct (add_model ops d m) as [d1 [i| |]]; apply with_nofail; auto.
  - destruct (doc_find_node ops d ns); [apply with_nofail; auto|].
    match goal with |- context [find_index ?a ?b] => destruct (find_index a b) end; [apply with_nofail; auto|intros H; inversion H].
Qed.
Lemma set_nofail reg d p x v fl reg' d' e : on fl NOFAIL = true ->
  doc_set_path ops reg d (PathValue p x v fl) = (reg', d', Err e) ->
  is_xmp_path p = false \/ (path_namespace reg d p = None /\ x = "") \/ reading_fails ops p e.
Proof.
  intros Hn. assert (Hf : (fl =? 0)%Z = false) by (apply Z.eqb_neq; intros ->; discriminate).
  unfold doc_set_path. cbn [pv_path pv_ns pv_value pv_flags]. rewrite Hf.
  destruct (is_xmp_path p); cbn [negb]; [|auto]. destruct (path_namespace reg d p) as [ns|].
  - destruct (set_path_ns ops reg d ns p v fl) as [d1 r] eqn:E. intros H; inversion H; subst. right; right. eapply ns_nofail; eauto.
  - destruct x; cbn [emptyb]; [auto|].
    match goal with |- context [set_path_ns ?a ?b ?c ?d ?e ?f ?g] => destruct (set_path_ns a b c d e f g) as [d1 r] eqn:E end.
    intros H; inversion H; subst. right; right. eapply ns_nofail; eauto.
Qed.

(* ---- C31 ---- *)
(* the assignment itself *)
Definition write (reg : registry) d i n p v fl : doc M * result unit :=
  match n_model n with
  | Some mv =>
      let '(mv', e) := mo_set ops mv p v fl in
      let d' := with_nodes d (replace_nth i (set_model n (Some mv')) (d_nodes d)) in
      if is_not_found e then ref_set_path ops reg d' (NAt i) p v fl else (d', e)
  | None => ref_set_path ops reg d (NAt i) p v fl
  end.
Definition finish (fl : Z) (w : doc M * result unit) : doc M * result unit :=
  let '(d', e) := w in
  match e with
  | Ok _ => (set_dirty d', Ok tt)
  | Err s => (d', if on fl NOFAIL then Ok tt else Err s)
  | Panic => (d', Panic)
  end.

Lemma set_cases reg d p v fl ns i n d' r : nth_error (d_nodes d) i = Some n -> keeps_node p fl ->
  set_path_with ops reg d ns p v fl (mref_of n i) (NAt i) = (d', r) ->
  d' = d \/ (d', r) = finish fl (write reg d i n p v fl).
Proof.
  intros Hi Hk. destruct (emptyb v && negb (on fl DELETE)) eqn:E0.
  { unfold set_path_with. rewrite E0. intros H; inversion H; auto. }
  rewrite with_rest; auto.
  2:{ intros ->. cbn [emptyb andb] in E0. now apply negb_false_iff in E0. }
  rewrite (rest_settled _ _ _ _ _ _ _ _ Hi). destruct (current ops n p); try (intros H; inversion H; auto; fail).
  destruct (a =? v); [intros H; inversion H; auto|]. destruct (blocked a fl); [intros H; inversion H; auto|].
  intros H. right. rewrite <- H. reflexivity.
Qed.

Lemma write_frame reg d i n p v fl d1 e : nth_error (d_nodes d) i = Some n -> write reg d i n p v fl = (d1, e) ->
  exists n', d1 = with_nodes d (replace_nth i n' (d_nodes d)) /\ n_name n' = n_name n /\
   ((forall m m' s, n_model n = Some m -> mo_set ops m p v fl = (m', Err s) -> m' = m) ->
    (forall n0 s, node_set_path (mo_can ops) reg n p v fl = (n0, Err s) -> n0 = n) ->
    forall s, e = Err s -> n' = n).
Proof.
  intros Hi. assert (Li : i < List.length (d_nodes d)) by (apply nth_error_Some; congruence).
  unfold write. destruct (n_model n) as [m|] eqn:Em.
  - destruct (mo_set ops m p v fl) as [m' e0] eqn:Es. destruct (is_not_found e0) eqn:En.
    + unfold ref_set_path. cbn [nref_get with_nodes d_nodes]. rewrite nth_replace_eq by auto.
      rewrite node_set_path_model. destruct (node_set_path (mo_can ops) reg n p v fl) as [n' e'] eqn:Er.
      cbn [nref_put with_nodes d_nodes]. rewrite replace_nth_twice. intros H; inversion H; subst. eexists. split; [reflexivity|]. split.
      * destruct n'; cbn. eapply (node_set_path_keeps_name _ _ _ _ _ _ _ Er).
      * intros H1 H2 s ->. assert (n' = n) by eauto. subst n'. destruct e0; try discriminate. rewrite (H1 _ _ _ eq_refl Es), <- Em. destruct n; reflexivity.
    + intros H; inversion H; subst. eexists. split; [reflexivity|]. split; [destruct n; reflexivity|].
      intros H1 _ s ->. rewrite (H1 _ _ _ eq_refl Es), <- Em. destruct n; reflexivity.
  - unfold ref_set_path. cbn [nref_get]. rewrite Hi. destruct (node_set_path (mo_can ops) reg n p v fl) as [n' e'] eqn:Er.
    intros H; inversion H; subst. exists n'. split; auto. split.
    + eapply node_set_path_keeps_name; eauto.
    + intros _ H2 s ->. eauto.
Qed.

Lemma set_settled_frame reg d p x v fl ns i n reg' d' r : path_namespace reg d p = Some ns -> settled ops d ns i n ->
  keeps_node p (effective fl) -> doc_set_path ops reg d (PathValue p x v fl) = (reg', d', r) ->
  reg' = reg /\ d_int d' = d_int d /\ d_ext d' = d_ext d /\ d_about d' = d_about d /\ d_toolkit d' = d_toolkit d /\
  exists n', n_name n' = n_name n /\ changed_at (d_nodes d) i n n' (d_nodes d').
Proof.
  intros Hp Hs Hk. assert (Hi : nth_error (d_nodes d) i = Some n) by (destruct Hs as [(Hi & _) _]; auto).
  rewrite (doc_set_settled _ _ _ _ _ _ _ _ _ Hp Hs).
  destruct (set_path_with ops reg d ns p v (effective fl) (mref_of n i) (NAt i)) as [d0 r0] eqn:E. intros H; inversion H; subst reg' d0 r0; clear H.
  destruct (set_cases _ _ _ _ _ _ _ _ _ _ Hi Hk E) as [->|F].
  - do 5 (split; [reflexivity|]). exists n. split; auto. apply changed_at_replace_iff. split; auto. symmetry. now apply replace_nth_same.
  - unfold finish in F. destruct (write reg d i n p v (effective fl)) as [d1 e] eqn:W.
    destruct (write_frame _ _ _ _ _ _ _ _ _ Hi W) as (n' & -> & Hn & _).
    destruct e; inversion F; subst; do 5 (split; [reflexivity|]); exists n'; (split; [exact Hn|]); apply changed_at_replace; auto.
Qed.

Lemma set_error_unchanged reg d p x v fl ns i n reg' d' e : path_namespace reg d p = Some ns -> settled ops d ns i n ->
  keeps_node p (effective fl) ->
  (forall m m' s, n_model n = Some m -> mo_set ops m p v (effective fl) = (m', Err s) -> m' = m) ->
  (forall n' s, node_set_path (mo_can ops) reg n p v (effective fl) = (n', Err s) -> n' = n) ->
  doc_set_path ops reg d (PathValue p x v fl) = (reg', d', Err e) -> reg' = reg /\ d' = d.
Proof.
  intros Hp Hs Hk H1 H2. assert (Hi : nth_error (d_nodes d) i = Some n) by (destruct Hs as [(Hi & _) _]; auto).
  rewrite (doc_set_settled _ _ _ _ _ _ _ _ _ Hp Hs).
  destruct (set_path_with ops reg d ns p v (effective fl) (mref_of n i) (NAt i)) as [d0 r0] eqn:E. intros H; inversion H; subst reg' d0 r0; clear H. split; auto.
  destruct (set_cases _ _ _ _ _ _ _ _ _ _ Hi Hk E) as [->|F]; auto.
  unfold finish in F. destruct (write reg d i n p v (effective fl)) as [d1 r] eqn:W.
  destruct (write_frame _ _ _ _ _ _ _ _ _ Hi W) as (n' & -> & Hn & K).
  destruct r; inversion F; subst. rewrite (K H1 H2 _ eq_refl), replace_nth_same by auto. destruct d; reflexivity.
Qed.

(* a successful assignment either changes nothing or marks the document *)
Lemma set_ok_dirty reg d p x v fl ns i n reg' d' : path_namespace reg d p = Some ns -> settled ops d ns i n ->
  keeps_node p (effective fl) -> on (effective fl) NOFAIL = false ->
  doc_set_path ops reg d (PathValue p x v fl) = (reg', d', Ok tt) -> d' = d \/ d_dirty d' = true.
Proof.
  intros Hp Hs Hk Hn. assert (Hi : nth_error (d_nodes d) i = Some n) by (destruct Hs as [(Hi & _) _]; auto).
  rewrite (doc_set_settled _ _ _ _ _ _ _ _ _ Hp Hs).
  destruct (set_path_with ops reg d ns p v (effective fl) (mref_of n i) (NAt i)) as [d0 r0] eqn:E. intros H; inversion H; subst reg' d0 r0; clear H.
  destruct (set_cases _ _ _ _ _ _ _ _ _ _ Hi Hk E) as [->|F]; auto.
  unfold finish in F. destruct (write reg d i n p v (effective fl)) as [d1 r] eqn:W. rewrite Hn in F.
  destruct r; inversion F; subst. auto.
Qed.

(* ... whatever the flags and wherever the property goes: the dirty mark is never cleared *)
Lemma with_keeps_dirty reg d ns p v fl m nr d' r : set_path_with ops reg d ns p v fl m nr = (d', r) -> d_dirty d = true -> d_dirty d' = true.
Proof.
  assert (R : forall d m nr d' r, set_path_rest ops reg d p v fl m nr = (d', r) -> d_dirty d = true -> d_dirty d' = true).
  { clear. intros d m nr d' r. unfold set_path_rest.
    match goal with |- context [match ?c with Ok _ => _ | Err _ => _ | Panic => _ end] => destruct c as [dest|e'|] end;
      try (intros H; inversion H; auto; fail).
    destruct (dest =? v); [intros H; inversion H; auto|].
    match goal with |- context [if ?b then _ else _] => destruct b end; [intros H; inversion H; auto|].
    match goal with |- context [if ?b then _ else _] => destruct b end; [intros H; inversion H; auto|].
    assert (S : forall d0 nr d1 e1, ref_set_path ops reg d0 nr p v fl = (d1, e1) -> d_dirty d1 = d_dirty d0).
    { intros d0 nr0 d1 e1. unfold ref_set_path. destruct (nref_get d0 nr0); [|intros H; inversion H; auto].
      destruct (node_set_path (mo_can ops) reg n p v fl). intros H; inversion H. destruct nr0; reflexivity. }
    match goal with |- context [let '(_, _) := ?x in _] => destruct x as [d1 e1] eqn:E end.
    assert (D : d_dirty d = true -> d_dirty d1 = true).
    { destruct (mref_get d m) as [mv|].
      - destruct (mo_set ops mv p v fl) as [mv' e]. assert (P : d_dirty (mref_put d m mv') = d_dirty d).
        { unfold mref_put. destruct m as [|j|f]; auto. destruct (nth_error (d_nodes d) j); auto. }
        destruct (is_not_found e); [apply S in E; congruence|inversion E; subst; congruence].
      - apply S in E. congruence. }
    destruct e1; intros H; inversion H; subst; auto. }
  unfold set_path_with. destruct (emptyb v && negb (on fl DELETE)); [intros H; inversion H; auto|].
  destruct (Nat.eqb (path_len p) 0 && on fl DELETE); [|apply R].
  destruct (remove_namespace_i d ns) as [d1 [k|]] eqn:E; intros H Hd; eapply R in H; eauto.
  - unfold remove_namespace_i in E. destruct (find_index _ (d_nodes d)); inversion E; subst; auto.
  - unfold remove_namespace_i in E. destruct (find_index _ (d_nodes d)); inversion E; subst; auto.
Qed.

End F.
