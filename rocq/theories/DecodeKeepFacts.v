(* Decoding keeps the properties that no model knows; the encoder writes them again. *)
From Coq Require Import List Arith ZArith Bool Ascii String Lia.
From Verif Require Import GoStr GoStrFacts GoMap Spec SpecFacts Names Semver RegistryM SpecRegistry RegistryFacts
  NodeM NodeFacts DocM SpecDoc DocFacts ArrayM TypeM DecodeM SpecDecode DecodeFacts.
Import ListNotations.
Local Open Scope string_scope.

Section F.
Context {X : Type}.
Notation node := (node (tmodel X)).
Notation doc := (doc (tmodel X)).
Variable ver : version.
Variable reg : registry.
Variable kinds : nat -> string -> option (mkind X).
Variables i e : gomap namespace.
Notation trans := (translate reg i e).
Notation trans_tree := (@translate_tree X reg i e).
Notation find_field := (@find_field X ver).

Lemma translate_idem x : trans (trans x) = trans x.
Proof.
  unfold translate at 2 3. destruct (emptyb (x_space x) || (x_space x =? "xmlns")) eqn:E0.
  - unfold translate. now rewrite E0.
  - destruct (dec_find_ns i e x) as [ns|] eqn:E1; [reflexivity|].
    destruct (get_namespace reg (reg_get_prefix reg (x_space x))) as [ns|s|] eqn:E2; [reflexivity| |];
      unfold translate; rewrite E0, E1, E2; reflexivity.
Qed.

Lemma trans_tree_name (s : node) : n_name (trans_tree s) = trans (n_name s).
Proof. destruct s; reflexivity. Qed.
Lemma trans_tree_set_name (s : node) : trans_tree (set_name s (trans (n_name s))) = trans_tree s.
Proof. destruct s. cbn [set_name translate_tree n_name]. now rewrite translate_idem. Qed.
Lemma full_name_of (s s' : node) : n_name s = n_name s' -> full_name reg s = full_name reg s'.
Proof. unfold full_name. now intros ->. Qed.

Lemma find_field_from_none (fs : list (finfo * ty X)) name : forall k any,
  find_field_from ver k any fs name = None <->
  any = None /\ forallb (fun f => negb (version_between ver (f_min f) (f_max f))
                                  || (negb (f_name f =? name) && negb (f_any f))) (map fst fs) = true.
Proof.
  induction fs as [|[f t] fs IH]; intros k any; cbn [find_field_from map forallb fst]; [intuition|].
  unfold active. destruct (version_between ver (f_min f) (f_max f)); cbn [negb orb]; [|apply IH].
  destruct (f_name f =? name); cbn [negb andb]; [split; [discriminate|intros [_ H]; discriminate]|].
  rewrite IH. destruct (f_any f); cbn [negb andb]; [|reflexivity]. split; intros [H1 H2]; [discriminate|discriminate].
Qed.
Lemma find_field_none (n : node) m name : n_model n = Some m ->
  (find_field (k_fields (tm_kind m)) name = None <-> unknown_to ver n name = true).
Proof.
  intros E. unfold unknown_to, TypeM.find_field. rewrite E, find_field_from_none. intuition.
Qed.

(* what FindNode looks at: the names and the types of the models *)
Definition face (n : node) : xname * option (mkind X) := (n_name n, option_map tm_kind (n_model n)).
Lemma matches_face p (n n' : node) : face n = face n' -> matches tm_can p n = matches tm_can p n'.
Proof.
  unfold face. intros [= E1 E2]. unfold matches, node_local. rewrite E1.
  destruct (n_model n) as [m|], (n_model n') as [m'|]; try discriminate; [|reflexivity].
  injection E2 as E2. unfold tm_can. now rewrite E2.
Qed.
Lemma unknown_face (n n' : node) s : face n = face n' -> unknown_to ver n s = unknown_to ver n' s.
Proof.
  unfold face. intros [= E1 E2]. unfold unknown_to.
  destruct (n_model n) as [m|], (n_model n') as [m'|]; try discriminate; [|reflexivity].
  injection E2 as E2. now rewrite E2.
Qed.

(* l' is l with nodes changed in place and others added at the end *)
Definition grows (l l' : list node) : Prop := exists m, map face l' = (map face l ++ m)%list.
Lemma grows_refl l : grows l l.
Proof. exists []. now rewrite List.app_nil_r. Qed.
Lemma grows_trans a b c : grows a b -> grows b c -> grows a c.
Proof. intros [m H] [m' H']. exists (m ++ m')%list. rewrite H', H. now rewrite List.app_assoc. Qed.

Lemma find_index_map {A B} (g : A -> B) (t : B -> bool) (l : list A) :
  find_index t (map g l) = find_index (fun x => t (g x)) l.
Proof. induction l as [|a l IH]; [reflexivity|]. cbn. now rewrite IH. Qed.
Lemma find_index_app {A} (t : A -> bool) l1 l2 k : find_index t l1 = Some k -> find_index t (l1 ++ l2)%list = Some k.
Proof.
  revert k. induction l1 as [|a l IH]; intros k; [discriminate|]. cbn. destruct (t a); [auto|].
  destruct (find_index t l); cbn; [|discriminate]. intros [= <-]. now rewrite (IH n eq_refl).
Qed.
Lemma find_index_ext {A} (t t' : A -> bool) l : (forall x, t x = t' x) -> find_index t l = find_index t' l.
Proof. intros H. induction l as [|a l IH]; [reflexivity|]. cbn. now rewrite H, IH. Qed.

Definition face_matches (p : string) (f : xname * option (mkind X)) : bool :=
  (strip_prefix (x_local (fst f)) =? p) || match snd f with Some k => k_can k p | None => false end.
Lemma home_face l p : home l p = find_index (face_matches p) (map face l).
Proof.
  unfold home. rewrite find_index_map. apply find_index_ext. intros n. unfold matches, face_matches, face, node_local, tm_can.
  cbn [fst snd]. destruct (n_model n); reflexivity.
Qed.
Lemma home_grows l l' p k : grows l l' -> home l p = Some k -> home l' p = Some k.
Proof. rewrite !home_face. intros [m ->]. apply find_index_app. Qed.
Lemma nth_grows l l' k n : grows l l' -> nth_error l k = Some n ->
  exists n', nth_error l' k = Some n' /\ face n' = face n.
Proof.
  intros [m H] Hn. assert (E : nth_error (map face l') k = Some (face n)).
  { rewrite H. rewrite nth_error_app1; [now apply map_nth_error|]. rewrite map_length. apply nth_error_Some. congruence. }
  rewrite nth_error_map in E. destruct (nth_error l' k) as [n'|]; [|discriminate]. exists n'. split; auto.
  cbn in E. congruence.
Qed.

Lemma replace_face l j n n' : nth_error l j = Some n -> face n' = face n -> map face (replace_nth j n' l) = map face l.
Proof.
  revert j. induction l as [|a l IH]; intros [|j] Hn Hf; cbn in *; try discriminate.
  - injection Hn as ->. now rewrite Hf.
  - f_equal. eauto.
Qed.

Definition kids_at (l : list node) (k : nat) : list node := match nth_error l k with Some n => n_nodes n | None => [] end.
Definition attrs_at (l : list node) (k : nat) : list attr := match nth_error l k with Some n => n_attrs n | None => [] end.

Hypothesis Hsane : sane_kinds kinds.
(* prefixes are names without a colon *)
Hypothesis Hcol : forall x ns, dec_find_ns i e x = Some ns -> has_char ":" (ns_name ns) = false.

Lemma strip_none s : has_char ":" s = false -> strip_prefix s = s.
Proof. intros H. unfold strip_prefix. now rewrite (proj2 (index_char_none _ _) H). Qed.

Lemma lookup_spec l x l' j : lookup_node kinds i e l x = Ok (l', j) ->
  exists ns, dec_find_ns i e x = Some ns /\ home l' (ns_name ns) = Some j /\ grows l l' /\
    (forall k, kids_at l' k = kids_at l k) /\ (forall k, attrs_at l' k = attrs_at l k).
Proof.
  unfold lookup_node. destruct (dec_find_ns i e x) as [ns|] eqn:Ens; [|discriminate].
  destruct (find_index (matches tm_can (ns_name ns)) l) as [j'|] eqn:Ef.
  { intros [= <- <-]. exists ns. repeat split; auto. apply grows_refl. }
  assert (Fresh : forall n : node, n_nodes n = [] -> n_attrs n = [] -> matches tm_can (ns_name ns) n = true ->
    home (l ++ [n])%list (ns_name ns) = Some (List.length l) /\ grows l (l ++ [n])%list /\
    (forall k, kids_at (l ++ [n])%list k = kids_at l k) /\ (forall k, attrs_at (l ++ [n])%list k = attrs_at l k)).
  { intros n Hk Ha Hm. split; [|split; [|split]].
    - unfold home. clear - Ef Hm. induction l as [|a l IH]; cbn in *; [now rewrite Hm|].
      destruct (matches tm_can (ns_name ns) a); [discriminate|]. destruct (find_index _ l); [discriminate|].
      now rewrite IH.
    - exists [face n]. now rewrite map_app.
    - intros k. unfold kids_at. destruct (Nat.lt_ge_cases k (List.length l)).
      + now rewrite nth_error_app1.
      + rewrite nth_error_app2 by assumption. rewrite (proj2 (nth_error_None l k)) by assumption.
        destruct (k - List.length l) as [|[|q]]; cbn; auto.
    - intros k. unfold attrs_at. destruct (Nat.lt_ge_cases k (List.length l)).
      + now rewrite nth_error_app1.
      + rewrite nth_error_app2 by assumption. rewrite (proj2 (nth_error_None l k)) by assumption.
        destruct (k - List.length l) as [|[|q]]; cbn; auto. }
  destruct (new_tmodel kinds ns) as [m|] eqn:Em.
  - destruct (k_namespaces (tm_kind m)) as [|ns0 nr] eqn:Ek; [discriminate|]. intros [= <- <-]. exists ns. split; auto.
    apply Fresh; [reflexivity|reflexivity|]. unfold matches. cbn [n_model set_model new_node].
    unfold new_tmodel in Em. destruct (ns_factory ns) as [f|]; [|discriminate].
    destruct (kinds f (ns_name ns)) as [k|] eqn:Ekk; [|discriminate]. injection Em as <-.
    unfold tm_can. cbn [tm_kind]. rewrite (proj1 (Hsane _ _ _ Ekk)). apply orb_true_r.
  - intros [= <- <-]. exists ns. split; auto. apply Fresh; [reflexivity|reflexivity|].
    unfold matches, node_local. cbn [n_name new_node ns_xml_name x_local expand emptyb].
    rewrite (strip_none _ (Hcol _ _ Ens)), eqb_refl. reflexivity.
Qed.

(* one property: the nodes keep their faces, and at most one of them gets a child or an attribute *)
Lemma step_elem l s l' : decode_node ver reg kinds i e l s = Ok l' ->
  grows l l' /\ (forall k, attrs_at l' k = attrs_at l k) /\
  exists ns j n, dec_find_ns i e (n_name s) = Some ns /\ home l' (ns_name ns) = Some j /\ nth_error l' j = Some n /\
    forall k, kids_at l' k =
      if Nat.eqb j k && unknown_to ver n (full_name reg (trans_tree s)) && negb (is_zero (trans_tree s))
      then nl_add (kids_at l k) (trans_tree s) else kids_at l k.
Proof.
  unfold decode_node. destruct (lookup_node kinds i e l (n_name s)) as [[l1 j]|z|] eqn:El; cbn [bind]; try discriminate.
  destruct (lookup_spec _ _ _ _ El) as (ns & Hns & Hh & Hg & Hk & Ha). clear El.
  destruct (nth_error l1 j) as [n|] eqn:En; [|discriminate]. rewrite trans_tree_set_name.
  rewrite (full_name_of (set_name s (trans (n_name s))) (trans_tree s)) by (destruct s; reflexivity).
  assert (Store : forall l', unknown_to ver n (full_name reg (trans_tree s)) = true ->
    Ok (if is_zero (trans_tree s) then l1 else replace_nth j (add_node n (trans_tree s)) l1) = Ok l' ->
    grows l l' /\ (forall k, attrs_at l' k = attrs_at l k) /\
    exists ns j n, dec_find_ns i e (n_name s) = Some ns /\ home l' (ns_name ns) = Some j /\ nth_error l' j = Some n /\
    forall k, kids_at l' k =
      if Nat.eqb j k && unknown_to ver n (full_name reg (trans_tree s)) && negb (is_zero (trans_tree s))
      then nl_add (kids_at l k) (trans_tree s) else kids_at l k).
  { intros l2 Hu E. injection E as <-. destruct (is_zero (trans_tree s)) eqn:Ez.
    - split; [exact Hg|]. split; [exact Ha|]. exists ns, j, n. repeat split; auto.
      intros k. rewrite andb_false_r. apply Hk.
    - assert (Hf : face (add_node n (trans_tree s)) = face n) by (destruct n; reflexivity).
      assert (Hm : map face (replace_nth j (add_node n (trans_tree s)) l1) = map face l1) by (eapply replace_face; eauto).
      split; [destruct Hg as [m Hg]; exists m; now rewrite Hm|]. split.
      + intros k. rewrite <- Ha. unfold attrs_at. destruct (Nat.eq_dec j k) as [<-|Hn].
        * rewrite nth_replace_eq, En; [destruct n; reflexivity|]. apply nth_error_Some. congruence.
        * now rewrite nth_replace_neq.
      + exists ns, j, (add_node n (trans_tree s)). split; [exact Hns|].
        split; [rewrite home_face, Hm, <- home_face; exact Hh|].
        split; [apply nth_replace_eq; apply nth_error_Some; congruence|].
        intros k. rewrite (unknown_face _ n) by exact Hf. rewrite Hu. cbn [negb]. rewrite !andb_true_r.
        destruct (Nat.eqb j k) eqn:Ej.
        * apply Nat.eqb_eq in Ej as <-. rewrite <- Hk. unfold kids_at.
          rewrite nth_replace_eq, En; [destruct n; reflexivity|]. apply nth_error_Some. congruence.
        * apply Nat.eqb_neq in Ej. rewrite <- Hk. unfold kids_at. now rewrite nth_replace_neq. }
  destruct (n_model n) as [m|] eqn:Em.
  - destruct (find_field (k_fields (tm_kind m)) (full_name reg (trans_tree s))) as [q|] eqn:Eq.
    + destruct (nth_error (k_fields (tm_kind m)) q) as [[f t]|]; [|discriminate].
      destruct (nth_error (tm_vals m) q) as [v|]; [|discriminate].
      destruct (unmarshal _ _ _ _ _ _ _ _) as [w|z|]; cbn [bind]; try discriminate. intros [= <-].
      unfold set_field. set (n' := set_model n _).
      assert (Hf : face n' = face n) by (unfold face, n'; destruct n; cbn in *; now rewrite Em).
      assert (Hm : map face (replace_nth j n' l1) = map face l1) by (eapply replace_face; eauto).
      assert (Hu : unknown_to ver n (full_name reg (trans_tree s)) = false).
      { destruct (unknown_to ver n _) eqn:Eu; [|reflexivity]. apply (find_field_none n m _ Em) in Eu. congruence. }
      split; [destruct Hg as [mm Hg]; exists mm; now rewrite Hm|]. split.
      * intros k. rewrite <- Ha. unfold attrs_at. destruct (Nat.eq_dec j k) as [<-|Hn].
        -- rewrite nth_replace_eq, En; [unfold n'; destruct n; reflexivity|]. apply nth_error_Some. congruence.
        -- now rewrite nth_replace_neq.
      * exists ns, j, n'. split; [exact Hns|].
        split; [rewrite home_face, Hm, <- home_face; exact Hh|].
        split; [apply nth_replace_eq; apply nth_error_Some; congruence|].
        intros k. rewrite (unknown_face _ n) by exact Hf. rewrite Hu, andb_false_r. cbn [andb]. rewrite <- Hk. unfold kids_at.
        destruct (Nat.eq_dec j k) as [<-|Hn].
        -- rewrite nth_replace_eq, En; [unfold n'; destruct n; reflexivity|]. apply nth_error_Some. congruence.
        -- now rewrite nth_replace_neq.
    + intros E. apply Store; [|exact E]. now apply (find_field_none n m _ Em).
  - intros E. apply Store; [|exact E]. unfold unknown_to. now rewrite Em.
Qed.

Lemma step_attr l a l' : decode_attribute ver reg kinds i e l a = Ok l' ->
  grows l l' /\ (forall k, kids_at l' k = kids_at l k) /\
  if skip_field (trans (a_name a)) then l' = l
  else exists ns j n, dec_find_ns i e (trans (a_name a)) = Some ns /\ home l' (ns_name ns) = Some j /\
    nth_error l' j = Some n /\
    forall k, attrs_at l' k =
      if Nat.eqb j k && unknown_to ver n (x_local (trans (a_name a))) && negb (emptyb (a_value a))
      then al_add (attrs_at l k) (Attr (trans (a_name a)) (a_value a)) else attrs_at l k.
Proof.
  unfold decode_attribute. set (x := trans (a_name a)). destruct (skip_field x).
  { intros [= <-]. split; [apply grows_refl|]. auto. }
  destruct (lookup_node kinds i e l x) as [[l1 j]|z|] eqn:El; cbn [bind]; try discriminate.
  destruct (lookup_spec _ _ _ _ El) as (ns & Hns & Hh & Hg & Hk & Ha). clear El.
  destruct (nth_error l1 j) as [n|] eqn:En; [|discriminate].
  assert (Store : forall l', unknown_to ver n (x_local x) = true ->
    Ok (if emptyb (a_value a) then l1 else replace_nth j (add_attr n (Attr x (a_value a))) l1) = Ok l' ->
    grows l l' /\ (forall k, kids_at l' k = kids_at l k) /\
    exists ns j n, dec_find_ns i e x = Some ns /\ home l' (ns_name ns) = Some j /\ nth_error l' j = Some n /\
    forall k, attrs_at l' k =
      if Nat.eqb j k && unknown_to ver n (x_local x) && negb (emptyb (a_value a))
      then al_add (attrs_at l k) (Attr x (a_value a)) else attrs_at l k).
  { intros l2 Hu E. injection E as <-. destruct (emptyb (a_value a)) eqn:Ez.
    - split; [exact Hg|]. split; [exact Hk|]. exists ns, j, n. repeat split; auto.
      intros k. rewrite andb_false_r. apply Ha.
    - set (n' := add_attr n _).
      assert (Hf : face n' = face n) by (unfold n'; destruct n; reflexivity).
      assert (Hm : map face (replace_nth j n' l1) = map face l1) by (eapply replace_face; eauto).
      split; [destruct Hg as [m Hg]; exists m; now rewrite Hm|]. split.
      + intros k. rewrite <- Hk. unfold kids_at. destruct (Nat.eq_dec j k) as [<-|Hn].
        * rewrite nth_replace_eq, En; [unfold n'; destruct n; reflexivity|]. apply nth_error_Some. congruence.
        * now rewrite nth_replace_neq.
      + exists ns, j, n'. split; [exact Hns|].
        split; [rewrite home_face, Hm, <- home_face; exact Hh|].
        split; [apply nth_replace_eq; apply nth_error_Some; congruence|].
        intros k. rewrite (unknown_face _ n) by exact Hf. rewrite Hu. cbn [negb]. rewrite !andb_true_r.
        destruct (Nat.eqb j k) eqn:Ej.
        * apply Nat.eqb_eq in Ej as <-. rewrite <- Ha. unfold attrs_at.
          rewrite nth_replace_eq, En; [unfold n'; destruct n; reflexivity|]. apply nth_error_Some. congruence.
        * apply Nat.eqb_neq in Ej. rewrite <- Ha. unfold attrs_at. now rewrite nth_replace_neq. }
  destruct (n_model n) as [m|] eqn:Em.
  - destruct (find_field (k_fields (tm_kind m)) (x_local x)) as [q|] eqn:Eq.
    + destruct (nth_error (k_fields (tm_kind m)) q) as [[f t]|]; [|discriminate].
      destruct (nth_error (tm_vals m) q) as [v|]; [|discriminate].
      destruct (unmarshal_attr _ _ _ _) as [w|z|]; cbn [bind]; try discriminate. intros [= <-].
      unfold set_field. set (n' := set_model n _).
      assert (Hf : face n' = face n) by (unfold face, n'; destruct n; cbn in *; now rewrite Em).
      assert (Hm : map face (replace_nth j n' l1) = map face l1) by (eapply replace_face; eauto).
      assert (Hu : unknown_to ver n (x_local x) = false).
      { destruct (unknown_to ver n _) eqn:Eu; [|reflexivity]. apply (find_field_none n m _ Em) in Eu. congruence. }
      split; [destruct Hg as [mm Hg]; exists mm; now rewrite Hm|]. split.
      * intros k. rewrite <- Hk. unfold kids_at. destruct (Nat.eq_dec j k) as [<-|Hn].
        -- rewrite nth_replace_eq, En; [unfold n'; destruct n; reflexivity|]. apply nth_error_Some. congruence.
        -- now rewrite nth_replace_neq.
      * exists ns, j, n'. split; [exact Hns|].
        split; [rewrite home_face, Hm, <- home_face; exact Hh|].
        split; [apply nth_replace_eq; apply nth_error_Some; congruence|].
        intros k. rewrite (unknown_face _ n) by exact Hf. rewrite Hu, andb_false_r. cbn [andb]. rewrite <- Ha. unfold attrs_at.
        destruct (Nat.eq_dec j k) as [<-|Hn].
        -- rewrite nth_replace_eq, En; [unfold n'; destruct n; reflexivity|]. apply nth_error_Some. congruence.
        -- now rewrite nth_replace_neq.
    + intros E. apply Store; [|exact E]. now apply (find_field_none n m _ Em).
  - intros E. apply Store; [|exact E]. unfold unknown_to. now rewrite Em.
Qed.

Notation kept_elems := (kept_elems ver reg i e).
Notation kept_attrs := (kept_attrs ver reg i e).

Lemma kept_elems_cons (nodes : list node) k (p : property X) ps : kept_elems nodes k (p :: ps) = (kept_elems nodes k [p] ++ kept_elems nodes k ps)%list.
Proof. unfold SpecDecode.kept_elems. cbn [flat_map]. now rewrite List.app_nil_r. Qed.
Lemma kept_attrs_cons (nodes : list node) k (p : property X) ps : kept_attrs nodes k (p :: ps) = (kept_attrs nodes k [p] ++ kept_attrs nodes k ps)%list.
Proof. unfold SpecDecode.kept_attrs. cbn [flat_map]. now rewrite List.app_nil_r. Qed.

Lemma kept_all ps : forall l nodes, decode_properties ver reg kinds i e l ps = Ok nodes ->
  grows l nodes /\
  forall k n, nth_error nodes k = Some n ->
    n_nodes n = fold_left nl_add (kept_elems nodes k ps) (kids_at l k) /\
    n_attrs n = fold_left al_add (kept_attrs nodes k ps) (attrs_at l k).
Proof.
  induction ps as [|p ps IH]; intros l nodes.
  - intros [= <-]. split; [apply grows_refl|]. intros k n Hn. unfold kids_at, attrs_at. rewrite Hn. auto.
  - cbn [decode_properties]. destruct (decode_property ver reg kinds i e l p) as [l1|z|] eqn:Ep; cbn [bind]; try discriminate.
    intros E. destruct (IH _ _ E) as [Hg2 IHk]. destruct p as [a|s]; cbn [decode_property] in Ep.
    + destruct (step_attr _ _ _ Ep) as (Hg1 & Hk & Ha). split; [eapply grows_trans; eauto|].
      intros k n Hn. destruct (IHk k n Hn) as [J1 J2]. rewrite J1, J2, Hk. split; [reflexivity|].
      rewrite (kept_attrs_cons _ _ _ ps), fold_left_app. f_equal. cbn [SpecDecode.kept_attrs flat_map].
      unfold SpecDecode.kept_attrs. cbn [flat_map]. rewrite Hn, List.app_nil_r.
      destruct (skip_field (trans (a_name a))); [subst l1; reflexivity|].
      destruct Ha as (ns & j & n0 & Hns & Hh & Hn0 & Ha). rewrite Ha, Hns. unfold at_home.
      rewrite (home_grows _ _ _ _ Hg2 Hh). cbn [negb andb]. destruct (Nat.eqb j k) eqn:Ej; [|reflexivity].
      apply Nat.eqb_eq in Ej as <-. destruct (nth_grows _ _ _ _ Hg2 Hn0) as (n1 & Hn1 & Hf).
      assert (n1 = n) by congruence. subst n1. rewrite (unknown_face n n0) by exact Hf. cbn [andb].
      destruct (unknown_to ver n0 _ && negb (emptyb _)); reflexivity.
    + destruct (step_elem _ _ _ Ep) as (Hg1 & Ha & ns & j & n0 & Hns & Hh & Hn0 & Hk). split; [eapply grows_trans; eauto|].
      intros k n Hn. destruct (IHk k n Hn) as [J1 J2]. rewrite J1, J2, Ha. split; [|reflexivity].
      rewrite (kept_elems_cons _ _ _ ps), fold_left_app. f_equal.
      unfold SpecDecode.kept_elems. cbn [flat_map]. rewrite Hn, List.app_nil_r.
      rewrite Hk, Hns. unfold at_home. rewrite (home_grows _ _ _ _ Hg2 Hh). destruct (Nat.eqb j k) eqn:Ej; [|reflexivity].
      apply Nat.eqb_eq in Ej as <-. destruct (nth_grows _ _ _ _ Hg2 Hn0) as (n1 & Hn1 & Hf).
      assert (n1 = n) by congruence. subst n1. rewrite (unknown_face n n0) by exact Hf. cbn [andb].
      destruct (unknown_to ver n0 _ && negb (is_zero _)); reflexivity.
Qed.

(* every property belongs to a node *)
Lemma elem_home ps : forall l nodes s, decode_properties ver reg kinds i e l ps = Ok nodes -> In (PElem s) ps ->
  exists k n, nth_error nodes k = Some n /\ at_home nodes (dec_find_ns i e (n_name s)) k = true.
Proof.
  induction ps as [|p ps IH]; intros l nodes s; [intros _ []|]. cbn [decode_properties].
  destruct (decode_property ver reg kinds i e l p) as [l1|z|] eqn:Ep; cbn [bind]; try discriminate.
  intros E [->|Hin]; [|eauto]. cbn [decode_property] in Ep. destruct (kept_all _ _ _ E) as [Hg _].
  destruct (step_elem _ _ _ Ep) as (_ & _ & ns & j & n0 & Hns & Hh & Hn0 & _).
  destruct (nth_grows _ _ _ _ Hg Hn0) as (n & Hn & _). exists j, n. split; auto. unfold at_home.
  rewrite Hns, (home_grows _ _ _ _ Hg Hh). apply Nat.eqb_refl.
Qed.
Lemma attr_home ps : forall l nodes a, decode_properties ver reg kinds i e l ps = Ok nodes -> In (PAttr a) ps ->
  skip_field (trans (a_name a)) = false ->
  exists k n, nth_error nodes k = Some n /\ at_home nodes (dec_find_ns i e (trans (a_name a))) k = true.
Proof.
  induction ps as [|p ps IH]; intros l nodes a; [intros _ []|]. cbn [decode_properties].
  destruct (decode_property ver reg kinds i e l p) as [l1|z|] eqn:Ep; cbn [bind]; try discriminate.
  intros E [->|Hin] Hs; [|eauto]. cbn [decode_property] in Ep. destruct (kept_all _ _ _ E) as [Hg _].
  destruct (step_attr _ _ _ Ep) as (_ & _ & H). rewrite Hs in H. destruct H as (ns & j & n0 & Hns & Hh & Hn0 & _).
  destruct (nth_grows _ _ _ _ Hg Hn0) as (n & Hn & _). exists j, n. split; auto. unfold at_home.
  rewrite Hns, (home_grows _ _ _ _ Hg Hh). apply Nat.eqb_refl.
Qed.

(* the names of the nodes *)
Definition face_plain (f : xname * option (mkind X)) : Prop := plain_name (fst f).
Lemma plain_faces l : plain_nodes l <-> Forall face_plain (map face l).
Proof. unfold plain_nodes, face_plain. rewrite Forall_map. reflexivity. Qed.

Hypothesis Hkcol : forall f s k ns, kinds f s = Some k -> In ns (k_namespaces k) -> has_char ":" (ns_name ns) = false.

Lemma lookup_plain l x l' j : plain_nodes l -> lookup_node kinds i e l x = Ok (l', j) -> plain_nodes l'.
Proof.
  intros Hl. unfold lookup_node. destruct (dec_find_ns i e x) as [ns|] eqn:Ens; [|discriminate].
  destruct (find_index (matches tm_can (ns_name ns)) l) as [j'|] eqn:Ef; [intros [= <- <-]; exact Hl|].
  destruct (new_tmodel kinds ns) as [m|] eqn:Em.
  - destruct (k_namespaces (tm_kind m)) as [|ns0 nr] eqn:Ek; [discriminate|]. intros [= <- <-].
    apply Forall_app. split; auto. constructor; auto. split; [reflexivity|]. cbn.
    unfold new_tmodel in Em. destruct (ns_factory ns) as [f|]; [|discriminate].
    destruct (kinds f (ns_name ns)) as [k|] eqn:Ekk; [|discriminate]. injection Em as <-. cbn in Ek.
    eapply Hkcol; eauto. rewrite Ek. now left.
  - intros [= <- <-]. apply Forall_app. split; auto. constructor; auto. split; [reflexivity|]. cbn. eauto.
Qed.
Lemma replace_nth_plain l j (n n' : node) : plain_nodes l -> nth_error l j = Some n -> n_name n' = n_name n ->
  plain_nodes (replace_nth j n' l).
Proof.
  intros Hl Hn He. revert j Hn. induction Hl as [|a l Ha Hl IH]; intros [|j] Hn; cbn in *; try discriminate.
  - injection Hn as <-. constructor; auto. now rewrite He.
  - constructor; auto. now apply IH.
Qed.
Lemma property_plain l p l' : plain_nodes l -> decode_property ver reg kinds i e l p = Ok l' -> plain_nodes l'.
Proof.
  intros Hl. destruct p as [a|s]; cbn [decode_property].
  - unfold decode_attribute. destruct (skip_field _); [now intros [= <-]|].
    destruct (lookup_node kinds i e l _) as [[l1 j]|z|] eqn:El; cbn [bind]; try discriminate.
    apply lookup_plain in El; [|exact Hl]. destruct (nth_error l1 j) as [n|] eqn:En; [|discriminate].
    assert (St : forall l2, Ok (if emptyb (a_value a) then l1
                              else replace_nth j (add_attr n (Attr (trans (a_name a)) (a_value a))) l1) = Ok l2 -> plain_nodes l2).
    { intros l2 [= <-]. destruct (emptyb _); auto. eapply replace_nth_plain; eauto; destruct n; reflexivity. }
    destruct (n_model n) as [m|]; [|apply St]. destruct (find_field _ _) as [q|]; [|apply St].
    destruct (nth_error _ q) as [[f t]|]; [|discriminate]. destruct (nth_error _ q) as [v|]; [|discriminate].
    destruct (unmarshal_attr _ _ _ _) as [w|z|]; cbn [bind]; try discriminate. intros [= <-]. unfold set_field.
    eapply replace_nth_plain; eauto; destruct n; reflexivity.
  - unfold decode_node. destruct (lookup_node kinds i e l _) as [[l1 j]|z|] eqn:El; cbn [bind]; try discriminate.
    apply lookup_plain in El; [|exact Hl]. destruct (nth_error l1 j) as [n|] eqn:En; [|discriminate].
    match goal with |- context [match n_model n with Some m => _ | None => ?x end] => set (st := x) end.
    assert (St : forall l2, st = Ok l2 -> plain_nodes l2).
    { intros l2 [= <-]. destruct (is_zero _); auto. eapply replace_nth_plain; eauto; destruct n; reflexivity. }
    destruct (n_model n) as [m|]; [|apply St]. destruct (find_field _ _) as [q|]; [|apply St].
    destruct (nth_error _ q) as [[f t]|]; [|discriminate]. destruct (nth_error _ q) as [v|]; [|discriminate].
    destruct (unmarshal _ _ _ _ _ _ _ _) as [w|z|]; cbn [bind]; try discriminate. intros [= <-]. unfold set_field.
    eapply replace_nth_plain; eauto; destruct n; reflexivity.
Qed.
Lemma properties_plain ps : forall l l', plain_nodes l -> decode_properties ver reg kinds i e l ps = Ok l' -> plain_nodes l'.
Proof.
  induction ps as [|p ps IH]; intros l l' Hl; cbn [decode_properties]; [now intros [= <-]|].
  destruct (decode_property ver reg kinds i e l p) as [l1|z|] eqn:Ep; cbn [bind]; try discriminate.
  apply IH. eapply property_plain; eauto.
Qed.

Lemma nl_add_fresh (l : list node) n : ~ In (x_local (n_name n)) (map (fun v => x_local (n_name v)) l) ->
  nl_add l n = (l ++ [n])%list.
Proof.
  induction l as [|v l IH]; intros H; [reflexivity|]. cbn in *. destruct (_ =? _) eqn:E.
  - apply eqb_eq in E. exfalso. apply H. now left.
  - rewrite IH; tauto.
Qed.
Lemma nl_add_distinct (a : list node) : forall l, NoDup (map (fun v => x_local (n_name v)) (l ++ a)%list) ->
  fold_left nl_add a l = (l ++ a)%list.
Proof.
  induction a as [|n a IH]; intros l H; [now rewrite List.app_nil_r|]. cbn [fold_left].
  rewrite nl_add_fresh.
  - rewrite IH; rewrite <- List.app_assoc; [reflexivity|exact H].
  - rewrite map_app in H. cbn [map] in H. apply NoDup_remove_2 in H. intros Hin. apply H. apply in_or_app. now left.
Qed.
Lemma al_add_fresh l n : ~ In (x_local (a_name n)) (map (fun v => x_local (a_name v)) l) -> al_add l n = (l ++ [n])%list.
Proof.
  induction l as [|v l IH]; intros H; [reflexivity|]. cbn in *. destruct (_ =? _) eqn:E.
  - apply eqb_eq in E. exfalso. apply H. now left.
  - rewrite IH; tauto.
Qed.
Lemma al_add_distinct a : forall l, NoDup (map (fun v => x_local (a_name v)) (l ++ a)%list) ->
  fold_left al_add a l = (l ++ a)%list.
Proof.
  induction a as [|n a IH]; intros l H; [now rewrite List.app_nil_r|]. cbn [fold_left].
  rewrite al_add_fresh.
  - rewrite IH; rewrite <- List.app_assoc; [reflexivity|exact H].
  - rewrite map_app in H. cbn [map] in H. apply NoDup_remove_2 in H. intros Hin. apply H. apply in_or_app. now left.
Qed.
End F.
