(* Unknown properties, from the parsed input to the written output. *)
From Coq Require Import List Arith ZArith Bool Ascii String Lia.
From Verif Require Import GoStr GoStrFacts GoMap Spec SpecFacts Names Semver RegistryM SpecRegistry RegistryFacts
  BasicFacts NodeM NodeFacts DocM SpecDoc DocFacts ArrayM TypeM TypeFacts DecodeM SpecDecode DecodeFacts DecodeKeepFacts EncodeKeepFacts.
Import ListNotations.
Local Open Scope string_scope.

Section F.
Context {X : Type}.
Notation node := (node (tmodel X)).
Notation doc := (doc (tmodel X)).
Variable ver : version.
Variable h : list reg_op.
Variable kinds : nat -> string -> option (mkind X).
Notation reg := (registry_of h).

Lemma map_set_values {V} (m : gomap V) k w v : In v (map snd (map_set m k w)) -> v = w \/ In v (map snd m).
Proof.
  induction m as [|[a b] m IH]; cbn; [intuition|]. destruct (a =? k); cbn; intuition.
Qed.

Lemma collect_values (P : namespace -> Prop) (l : list node) i e :
  (forall p ns, get_namespace reg p = Ok ns -> P ns) ->
  (forall p u, In (p, u) (decls l) -> P (Namespace p u None)) ->
  collect reg l = (i, e) -> forall ns, In ns (map snd i) \/ In ns (map snd e) -> P ns.
Proof.
  intros HR HD. rewrite collect_pairs_eq. unfold collect_pairs.
  assert (G : forall ds (m : nsmaps), (forall p u, In (p, u) ds -> P (Namespace p u None)) ->
    (forall ns, In ns (map snd (fst m)) \/ In ns (map snd (snd m)) -> P ns) ->
    forall ns, In ns (map snd (fst (fold_left (fun m d => add_namespace reg m (fst d) (snd d)) ds m))) \/
               In ns (map snd (snd (fold_left (fun m d => add_namespace reg m (fst d) (snd d)) ds m))) -> P ns).
  { induction ds as [|[p u] ds IH]; intros m Hd Hm; [exact Hm|]. cbn [fold_left fst snd]. apply IH.
    { intros q w Hin. apply Hd. now right. }
    destruct m as [i0 e0]. unfold add_namespace. cbn [fst snd] in *. destruct (negb (emptyb (reg_get_prefix reg u))).
    - destruct (get_namespace reg (reg_get_prefix reg u)) as [ns|z|] eqn:En; auto. cbn [fst snd].
      intros ns' [Hin|Hin]; [|auto]. apply map_set_values in Hin as [->|Hin]; eauto.
    - destruct (map_get e0 u); auto. cbn [fst snd].
      intros ns' [Hin|Hin]; [auto|]. apply map_set_values in Hin as [->|Hin]; [|auto]. apply Hd. now left. }
  intros E. specialize (G (decls l) ([], []) HD). rewrite E in G. apply G. cbn. intuition.
Qed.

Lemma dec_find_in (i e : gomap namespace) x ns : dec_find_ns i e x = Some ns -> In ns (map snd i) \/ In ns (map snd e).
Proof.
  assert (G : forall (m : gomap namespace) k v, map_get m k = Some v -> In v (map snd m)).
  { induction m as [|[a b] m IH]; cbn; [discriminate|]. intros k v. destruct (a =? k); [intros [= <-]; now left|]. eauto. }
  unfold dec_find_ns, dec_ns_by_uri, dec_ns_by_prefix.
  destruct (if emptyb _ then _ else _) as [v|] eqn:E.
  - intros [= <-]. destruct (emptyb _); [discriminate|]. destruct (map_get i _) as [w|] eqn:E1.
    + injection E as <-. left. eauto.
    + right. eauto.
  - destruct (find _ (map snd i)) as [w|] eqn:E1.
    + intros [= <-]. left. now apply find_some in E1.
    + intros E2. right. now apply find_some in E2.
Qed.

Lemma collect_plain rdf i e : plain_prefixes h kinds rdf -> collect reg (n_nodes rdf) = (i, e) ->
  forall x ns, dec_find_ns i e x = Some ns -> has_char ":" (ns_name ns) = false.
Proof.
  intros (H1 & _ & H3) E x ns Hx. apply dec_find_in in Hx.
  apply (collect_values (fun ns => has_char ":" (ns_name ns) = false)) with (3 := E); auto.
  - intros p n Hn. apply get_namespace_ok in Hn as (<- & gs & Hl).
    destruct Hl as (pre & post & -> & _). apply (H1 (n, gs)). apply in_or_app. right. now left.
Qed.

Lemma unknown_kept (sync_from : doc -> doc * result unit) x root rdf r i e : sane_kinds kinds -> plain_prefixes h kinds rdf -> chain_ok reg root rdf ->
  collect reg (n_nodes rdf) = (i, e) -> decode ver reg kinds sync_from x root = (r, Ok tt) ->
  exists d, sync_from d = (r, Ok tt) /\ d_int d = i /\ d_ext d = e /\ d_about d = about_of rdf /\
    plain_nodes (d_nodes d) /\
    (forall k n, nth_error (d_nodes d) k = Some n ->
       n_nodes n = fold_left nl_add (kept_elems ver reg i e (d_nodes d) k (properties rdf)) [] /\
       n_attrs n = fold_left al_add (kept_attrs ver reg i e (d_nodes d) k (properties rdf)) []) /\
    (forall s, In (PElem s) (properties rdf) ->
       exists k n, nth_error (d_nodes d) k = Some n /\ at_home (d_nodes d) (dec_find_ns i e (n_name s)) k = true) /\
    (forall a, In (PAttr a) (properties rdf) -> skip_field (translate reg i e (a_name a)) = false ->
       exists k n, nth_error (d_nodes d) k = Some n /\
         at_home (d_nodes d) (dec_find_ns i e (translate reg i e (a_name a))) k = true).
Proof.
  intros Hs Hp Hc Ec E. rewrite (decode_ok_chain _ _ _ _ _ _ _ Hc), Ec in E. pose proof (collect_plain _ _ _ Hp Ec) as Hcol.
  destruct (decode_properties ver reg kinds i e [] (properties rdf)) as [nodes|z|] eqn:Ed; try discriminate.
  exists (Doc "" nodes (d_dirty x) (about_of rdf) i e). cbn [d_int d_ext d_about d_nodes].
  split; [exact E|]. do 3 (split; [reflexivity|]). destruct (kept_all ver reg kinds i e Hs Hcol _ _ _ Ed) as [_ Hk].
  split; [|split; [|split]].
  - destruct Hp as (_ & Hp & _). eapply properties_plain; eauto. constructor.
  - intros k n Hn. destruct (Hk k n Hn) as [G1 G2]. rewrite G1, G2. unfold kids_at, attrs_at. 
    destruct k; auto.
  - intros s Hin. eapply elem_home; eauto.
  - intros a Hin Ha. eapply attr_home; eauto.
Qed.

(* an unknown, non-empty element comes back *)
Lemma kept_elem_in (nodes : list node) i e ps s k n : In (PElem s) ps ->
  nth_error nodes k = Some n -> at_home nodes (dec_find_ns i e (n_name s)) k = true ->
  unknown_to ver n (full_name reg (translate_tree reg i e s)) = true -> is_zero (translate_tree reg i e s) = false ->
  In (translate_tree reg i e s) (kept_elems ver reg i e nodes k ps).
Proof.
  intros Hin Hn Hh Hu Hz. unfold kept_elems. apply in_flat_map. exists (PElem s). split; auto.
  cbv zeta. rewrite Hn, Hh, Hu, Hz. now left.
Qed.
Lemma kept_attr_in (nodes : list node) i e ps a k n : In (PAttr a) ps ->
  nth_error nodes k = Some n -> at_home nodes (dec_find_ns i e (translate reg i e (a_name a))) k = true ->
  skip_field (translate reg i e (a_name a)) = false ->
  unknown_to ver n (x_local (translate reg i e (a_name a))) = true -> a_value a <> "" ->
  In (Attr (translate reg i e (a_name a)) (a_value a)) (kept_attrs ver reg i e nodes k ps).
Proof.
  intros Hin Hn Hh Hs Hu Hz. unfold kept_attrs. apply in_flat_map. exists (PAttr a). split; auto.
  cbv zeta. rewrite Hn, Hh, Hs, Hu. destruct (a_value a) eqn:E; [congruence|]. cbn. now left.
Qed.

Lemma nodes_in_of_apart (l : list node) c : names_apart l -> In c l -> In c (fold_left nl_add l []).
Proof. intros H. now rewrite (nl_add_distinct l []). Qed.
Lemma attrs_in_of_apart l c : attr_names_apart l -> In c l -> In c (fold_left al_add l []).
Proof. intros H. now rewrite (al_add_distinct l []). Qed.

(* attributes: the prefix is known to the encoder *)
Lemma attr_ns_found (d : doc) x ns : dec_find_ns (d_int d) (d_ext d) (translate reg (d_int d) (d_ext d) x) = Some ns ->
  skip_field (translate reg (d_int d) (d_ext d) x) = false ->
  exists ns', find_ns_by_prefix reg d (get_prefix (x_local (translate reg (d_int d) (d_ext d) x))) = Some ns'.
Proof.
  set (y := translate reg (d_int d) (d_ext d) x). intros Hf Hs.
  assert (Hy : x_space y = "" \/ x_space y = "xmlns" \/ dec_find_ns (d_int d) (d_ext d) y = None).
  { unfold y, translate. destruct (emptyb (x_space x) || (x_space x =? "xmlns")) eqn:E.
    - apply orb_true_iff in E as [E|E]; [left; now destruct (x_space x)|right; left; now apply eqb_eq].
    - destruct (dec_find_ns _ _ x) eqn:Ex; [now left|]. destruct (get_namespace _ _); auto. }
  destruct Hy as [Hy|[Hy|Hy]].
  - unfold dec_find_ns in Hf. rewrite Hy in Hf. cbn [emptyb] in Hf. unfold find_ns_by_prefix.
    unfold dec_ns_by_prefix in Hf. destruct (find _ (map snd (d_int d))); [eauto|].
    destruct (find _ (map snd (d_ext d))); [eauto|discriminate].
  - unfold skip_field in Hs. rewrite Hy in Hs. discriminate.
  - congruence.
Qed.
Lemma not_core ns : ns_name ns <> "rdf" -> ns_name ns <> "xml" -> is_core ns = false.
Proof.
  intros H1 H2. unfold is_core. destruct (String.eqb_spec (ns_name ns) "rdf"); [contradiction|].
  destruct (String.eqb_spec (ns_name ns) "xml"); [contradiction|]. reflexivity.
Qed.

Lemma translate_space i e x ns : dec_find_ns i e x = Some ns -> x_space x <> "xmlns" -> x_space (translate reg i e x) = "".
Proof.
  intros H Hx. unfold translate. destruct (String.eqb_spec (x_space x) "xmlns"); [contradiction|].
  destruct (x_space x) eqn:E; cbn [emptyb orb]; [exact E|]. now rewrite H.
Qed.
Lemma at_home_some (nodes : list node) o k : at_home nodes o k = true -> exists ns, o = Some ns.
Proof. destruct o; [eauto|discriminate]. Qed.

Lemma unknown_of_no_field (nodes : list node) n name : no_any nodes -> no_field nodes name -> In n nodes ->
  unknown_to ver n name = true.
Proof.
  intros Hany Hnf Hin. unfold unknown_to. destruct (n_model n) as [m|] eqn:Em; [|reflexivity].
  apply forallb_forall. intros f Hf. rewrite (Hany n m f Hin Em Hf).
  destruct (String.eqb_spec (f_name f) name); [exfalso; eapply Hnf; eauto|]. apply orb_true_r.
Qed.

(* the whole way, for a program whose models synchronise nothing *)
Lemma unknown_elem_back x root rdf d i e p s : sane_kinds kinds -> plain_prefixes h kinds rdf -> chain_ok reg root rdf ->
  collect reg (n_nodes rdf) = (i, e) -> decode ver reg kinds (fun d => (d, Ok tt)) x root = (d, Ok tt) ->
  encode ver reg d = Ok p -> In (PElem s) (properties rdf) ->
  let s' := translate_tree reg i e s in
  x_space (n_name s) <> "xmlns" -> is_zero s' = false ->
  no_field (d_nodes d) (x_local (n_name s')) -> no_any (d_nodes d) ->
  (forall k, names_apart (kept_elems ver reg i e (d_nodes d) k (properties rdf))) ->
  has_elem p s'.
Proof.
  intros Hs Hp Hc Ec E Ep Hin s' Hx Hz Hnf Hany Hd.
  destruct (unknown_kept _ _ _ _ _ _ _ Hs Hp Hc Ec E) as (d0 & [= ->] & Hi & He & _ & Hpl & Hk & Hh & _).
  destruct (Hh s Hin) as (k & n & Hn & Hat).
  assert (Hnin : In n (d_nodes d)) by (eapply nth_error_In; eauto).
  apply (proj1 (encode_keeps ver h d p Hpl Ep n Hnin)); [|exact Hnf].
  rewrite (proj1 (Hk k n Hn)). apply nodes_in_of_apart; [apply Hd|]. eapply kept_elem_in; eauto.
  destruct (at_home_some _ _ _ Hat) as [ns Hns].
  apply (unknown_of_no_field (d_nodes d)); auto. fold s'.
  replace (full_name reg s') with (x_local (n_name s')); [exact Hnf|]. unfold full_name, s'. rewrite trans_tree_name.
  now rewrite (translate_space _ _ _ _ Hns Hx).
Qed.
Lemma unknown_attr_back x root rdf d i e p a : sane_kinds kinds -> plain_prefixes h kinds rdf -> chain_ok reg root rdf ->
  collect reg (n_nodes rdf) = (i, e) -> decode ver reg kinds (fun d => (d, Ok tt)) x root = (d, Ok tt) ->
  encode ver reg d = Ok p -> In (PAttr a) (properties rdf) ->
  let a' := Attr (translate reg i e (a_name a)) (a_value a) in
  skip_field (a_name a') = false -> a_value a <> "" ->
  get_prefix (x_local (a_name a')) <> "rdf" -> get_prefix (x_local (a_name a')) <> "xml" ->
  no_field (d_nodes d) (x_local (a_name a')) -> no_any (d_nodes d) ->
  (forall k, attr_names_apart (kept_attrs ver reg i e (d_nodes d) k (properties rdf))) ->
  has_attr p a'.
Proof.
  intros Hs Hp Hc Ec E Ep Hin a' Hx Hz Hr1 Hr2 Hnf Hany Hd.
  destruct (unknown_kept _ _ _ _ _ _ _ Hs Hp Hc Ec E) as (d0 & [= ->] & Hi & He & _ & Hpl & Hk & _ & Hh).
  destruct (Hh a Hin Hx) as (k & n & Hn & Hat).
  assert (Hnin : In n (d_nodes d)) by (eapply nth_error_In; eauto).
  destruct (at_home_some _ _ _ Hat) as [ns0 Hns]. subst i e.
  destruct (attr_ns_found d _ _ Hns Hx) as [ns Hns'].
  apply (proj2 (encode_keeps ver h d p Hpl Ep n Hnin)) with (ns := ns); auto.
  - rewrite (proj2 (Hk k n Hn)). apply attrs_in_of_apart; [apply Hd|]. eapply kept_attr_in; eauto.
    apply (unknown_of_no_field (d_nodes d)); auto.
  - apply prefix_ns in Hns'. fold a' in Hns'. cbn [a_name] in *. apply not_core; rewrite Hns'; assumption.
Qed.

(* ---- where namespaces must be declared ------------------------------------------------------------ *)

Lemma known_names (rdf : node) i e ns : collect reg (n_nodes rdf) = (i, e) -> In ns (map snd i) \/ In ns (map snd e) ->
  (exists o, In o h /\ ns_name (fst o) = ns_name ns) \/ (exists u, In (ns_name ns, u) (decls (n_nodes rdf))).
Proof.
  intros E. apply (collect_values (fun ns => (exists o, In o h /\ ns_name (fst o) = ns_name ns) \/
    (exists u, In (ns_name ns, u) (decls (n_nodes rdf))))) with (3 := E).
  - intros p n Hn. apply get_namespace_ok in Hn as (_ & gs & Hl). left. exists (n, gs). split; [|reflexivity].
    eapply last_by_in; eauto.
  - intros p u Hin. right. exists u. exact Hin.
Qed.

Lemma map_get_value {V} (m : gomap V) k v : map_get m k = Some v -> In k (map fst m).
Proof.
  induction m as [|[a b] m IH]; cbn; [discriminate|]. destruct (String.eqb_spec a k); [left; auto|right; auto].
Qed.
Lemma map_set_keys {V} (m : gomap V) k v k' : In k' (map fst (map_set m k v)) -> k' = k \/ In k' (map fst m).
Proof. induction m as [|[a b] m IH]; cbn; [intuition|]. destruct (a =? k); cbn; intuition. Qed.
Lemma collect_keys (l : list node) i e u : collect reg l = (i, e) -> In u (map fst i) \/ In u (map fst e) -> In u (map snd (decls l)).
Proof.
  rewrite collect_pairs_eq. unfold collect_pairs.
  assert (G : forall ds (m : nsmaps),
    In u (map fst (fst (fold_left (fun m d => add_namespace reg m (fst d) (snd d)) ds m))) \/
    In u (map fst (snd (fold_left (fun m d => add_namespace reg m (fst d) (snd d)) ds m))) ->
    In u (map snd ds) \/ In u (map fst (fst m)) \/ In u (map fst (snd m))).
  { induction ds as [|[p w] ds IH]; intros m H; [now right|]. cbn [fold_left fst snd map] in *. apply IH in H.
    destruct H as [H|H]; [left; now right|]. destruct m as [i0 e0]. unfold add_namespace in H. cbn [fst snd] in *.
    destruct (negb _).
    - destruct (get_namespace _ _); cbn [fst snd] in H; auto. destruct H as [H|H]; auto.
      apply map_set_keys in H as [->|H]; auto. left. now left.
    - destruct (map_get e0 w); cbn [fst snd] in H; auto. destruct H as [H|H]; auto.
      apply map_set_keys in H as [->|H]; auto. left. now left. }
  intros E H. specialize (G (decls l) ([], [])). rewrite E in G. destruct (G H) as [G'|[[]|[]]]. exact G'.
Qed.

Lemma undeclared_none (rdf : node) i e x : collect reg (n_nodes rdf) = (i, e) ->
  ~ In (x_space x) (map snd (decls (n_nodes rdf))) ->
  (forall o, In o h -> ns_name (fst o) <> get_prefix (x_local x)) ->
  (forall u, ~ In (get_prefix (x_local x), u) (decls (n_nodes rdf))) ->
  dec_find_ns i e x = None.
Proof.
  intros E H1 H2 H3. destruct (dec_find_ns i e x) as [ns|] eqn:Ed; [|reflexivity]. exfalso.
  unfold dec_find_ns in Ed. destruct (if emptyb _ then _ else _) as [v|] eqn:E1.
  - apply H1. destruct (emptyb _); [discriminate|]. unfold dec_ns_by_uri in E1.
    eapply collect_keys; eauto. destruct (map_get i (x_space x)) eqn:E2; [left|right]; eapply map_get_value; eauto.
  - assert (Hin : (In ns (map snd i) \/ In ns (map snd e)) /\ ns_name ns = get_prefix (x_local x)).
    { unfold dec_ns_by_prefix in Ed. destruct (find _ (map snd i)) as [w|] eqn:E2.
      - injection Ed as <-. apply find_some in E2 as [E2 E3]. apply eqb_eq in E3. auto.
      - apply find_some in Ed as [E3 E4]. apply eqb_eq in E4. auto. }
    destruct Hin as [Hin Hn]. destruct (known_names _ _ _ _ E Hin) as [(o & Ho & Hon)|(u & Hu)].
    + apply (H2 o Ho). congruence.
    + rewrite Hn in Hu. exact (H3 u Hu).
Qed.

Lemma properties_ok_each i e ps : forall l nodes p, decode_properties ver reg kinds i e l ps = Ok nodes -> In p ps ->
  exists l1 l2, decode_property ver reg kinds i e l1 p = Ok l2.
Proof.
  induction ps as [|q ps IH]; intros l nodes p; [intros _ []|]. cbn [decode_properties].
  destruct (decode_property ver reg kinds i e l q) as [l1|z|] eqn:Eq; cbn [bind]; try discriminate.
  intros E [->|Hin]; eauto.
Qed.

Lemma undeclared_fails sync_from x root rdf s : chain_ok reg root rdf -> In (PElem s) (properties rdf) ->
  ~ In (x_space (n_name s)) (map snd (decls (n_nodes rdf))) ->
  (forall o, In o h -> ns_name (fst o) <> get_prefix (x_local (n_name s))) ->
  (forall u, ~ In (get_prefix (x_local (n_name s)), u) (decls (n_nodes rdf))) ->
  (forall r, snd (decode ver reg kinds sync_from x root) <> Ok r) /\
  same_but_toolkit x (fst (decode ver reg kinds sync_from x root)).
Proof.
  intros Hc Hin H1 H2 H3. rewrite (decode_ok_chain _ _ _ _ _ _ _ Hc). destruct (collect reg (n_nodes rdf)) as [i e] eqn:Ec.
  destruct (decode_properties ver reg kinds i e [] (properties rdf)) as [nodes|z|] eqn:Ed.
  - exfalso. destruct (properties_ok_each _ _ _ _ _ _ Ed Hin) as (l1 & l2 & E). cbn [decode_property] in E.
    unfold decode_node, lookup_node in E. rewrite (undeclared_none _ _ _ _ Ec H1 H2 H3) in E. discriminate.
  - split; [discriminate|apply toolkit_read_same].
  - split; [discriminate|apply toolkit_read_same].
Qed.

(* documents without models: all properties with declared namespaces are accepted *)
Lemma declared_find (rdf : node) i e x : (forall o, In o h -> ns_name (fst o) <> "") -> collect reg (n_nodes rdf) = (i, e) ->
  x_space x <> "" -> In (x_space x) (map snd (decls (n_nodes rdf))) -> exists ns, dec_find_ns i e x = Some ns.
Proof.
  intros Hne Ec Hx Hin. rewrite collect_pairs_eq in Ec. destruct (collect_spec h _ i e Hne Ec (x_space x)) as [C1 C2].
  unfold dec_find_ns. apply emptyb_false in Hx. rewrite Hx. unfold dec_ns_by_uri.
  destruct (reg_get_prefix reg (x_space x)) as [|c p] eqn:Er.
  - destruct (C2 eq_refl) as [_ He]. rewrite He. destruct (first_decl_in _ _ Hin) as [q ->]. cbn [option_map].
    destruct (map_get i (x_space x)); eauto.
  - destruct C1 as (_ & C & _); [discriminate|]. destruct (C Hin) as (ns & _ & ->). eauto.
Qed.

Definition no_models (l : list node) : Prop := Forall (fun n => n_model n = None) l.
Lemma lookup_no_model i e l x ns : (forall f s, kinds f s = None) -> no_models l -> dec_find_ns i e x = Some ns ->
  exists l' j n, lookup_node kinds i e l x = Ok (l', j) /\ nth_error l' j = Some n /\ n_model n = None /\ no_models l'.
Proof.
  intros Hk Hl Hx. unfold lookup_node. rewrite Hx. destruct (find_index _ l) as [j|] eqn:Ej.
  - destruct (find_index_some _ _ _ Ej) as (n & Hn & _). exists l, j, n. repeat split; auto.
    unfold no_models in Hl. rewrite Forall_forall in Hl. apply Hl. eapply nth_error_In; eauto.
  - assert (Hm : new_tmodel kinds ns = None) by (unfold new_tmodel; destruct (ns_factory ns); [now rewrite Hk|reflexivity]).
    rewrite Hm. exists (l ++ [new_node (ns_xml_name ns "")])%list, (List.length l), (new_node (ns_xml_name ns "")).
    repeat split; auto.
    + rewrite nth_error_app2, Nat.sub_diag by lia. reflexivity.
    + apply Forall_app. split; [exact Hl|repeat constructor].
Qed.
Lemma replace_nth_no_models l j n : no_models l -> n_model n = None -> no_models (replace_nth j n l).
Proof.
  intros Hl Hn. revert j. induction Hl as [|a l Ha Hl IH]; intros j; [destruct j; constructor|].
  destruct j; cbn; constructor; auto. apply IH.
Qed.

Lemma properties_accept (rdf : node) i e ps : (forall f s, kinds f s = None) -> (forall o, In o h -> ns_name (fst o) <> "") ->
  collect reg (n_nodes rdf) = (i, e) ->
  (forall s, In (PElem s) ps -> x_space (n_name s) <> "" /\ In (x_space (n_name s)) (map snd (decls (n_nodes rdf)))) ->
  (forall a, In (PAttr a) ps -> is_decl a = true \/
     (x_space (a_name a) <> "" /\ In (x_space (a_name a)) (map snd (decls (n_nodes rdf))))) ->
  (forall p u, In (p, u) (decls (n_nodes rdf)) -> has_char ":" p = false) ->
  (forall o, In o h -> has_char ":" (ns_name (fst o)) = false) ->
  forall l, no_models l -> exists nodes, decode_properties ver reg kinds i e l ps = Ok nodes.
Proof.
  intros Hk Hne Ec. induction ps as [|p ps IH]; intros He Ha Hp Ho l Hl; cbn [decode_properties]; [eauto|].
  assert (S : exists l1, decode_property ver reg kinds i e l p = Ok l1 /\ no_models l1).
  { destruct p as [a|s]; cbn [decode_property].
    - unfold decode_attribute. destruct (Ha a (or_introl eq_refl)) as [Hd|(Hs & Hin)].
      + exists l. split; [|exact Hl]. unfold is_decl in Hd. unfold translate. rewrite Hd, orb_true_r.
        unfold skip_field. now rewrite Hd.
      + destruct (skip_field _); [exists l; auto|].
        destruct (declared_find rdf i e _ Hne Ec Hs Hin) as [ns Hns].
        assert (exists ns', dec_find_ns i e (translate reg i e (a_name a)) = Some ns') as [ns' Hns'].
        { unfold translate. destruct (emptyb _ || _) eqn:Eb; [eauto|]. rewrite Hns. unfold dec_find_ns. cbn [x_space emptyb x_local].
          assert (Hcolon : has_char ":" (ns_name ns) = false).
          { destruct (known_names _ _ _ ns Ec (dec_find_in _ _ _ _ Hns)) as [(o & Hin' & <-)|(u & Hu)]; eauto. }
          assert (Hpre : get_prefix (expand ns (x_local (a_name a))) = ns_name ns).
          { now apply expand_prefix. }
          rewrite Hpre. unfold dec_ns_by_prefix. pose proof (dec_find_in _ _ _ _ Hns) as [Hi|Hi].
          - destruct (find _ (map snd i)) as [v|] eqn:Ef; [eauto|]. exfalso.
            pose proof (List.find_none _ _ Ef ns Hi) as F. cbn beta in F. rewrite eqb_refl in F. discriminate.
          - destruct (find _ (map snd i)) as [v|] eqn:Ef; [eauto|].
            destruct (find _ (map snd e)) as [v|] eqn:Ef2; [eauto|]. exfalso.
            pose proof (List.find_none _ _ Ef2 ns Hi) as F. cbn beta in F. rewrite eqb_refl in F. discriminate. }
        destruct (lookup_no_model i e l _ _ Hk Hl Hns') as (l1 & j & n & -> & Hn & Hm & Hl1). cbn [bind].
        rewrite Hn, Hm. eexists. split; [reflexivity|]. destruct (emptyb _); auto. apply replace_nth_no_models; auto.
        destruct n; exact Hm.
    - unfold decode_node. destruct (He s (or_introl eq_refl)) as (Hs & Hin).
      destruct (declared_find rdf i e _ Hne Ec Hs Hin) as [ns Hns].
      destruct (lookup_no_model i e l _ _ Hk Hl Hns) as (l1 & j & n & -> & Hn & Hm & Hl1). cbn [bind].
      rewrite Hn, Hm. eexists. split; [reflexivity|]. destruct (is_zero _); auto. apply replace_nth_no_models; auto.
      destruct n; exact Hm. }
  destruct S as (l1 & -> & Hl1). cbn [bind]. apply IH; auto.
  - intros s Hin. apply He. now right.
  - intros a Hin. apply Ha. now right.
Qed.
End F.
