(* Decoding: namespaces, names, the element chain and unknown properties. *)
From Coq Require Import List Arith ZArith Bool Ascii String Lia.
From Verif Require Import GoStr GoStrFacts GoMap Spec SpecFacts Names Semver RegistryM SpecRegistry RegistryFacts
  NodeM DocM DocFacts ArrayM TypeM DecodeM SpecDecode.
Import ListNotations.
Local Open Scope string_scope.

Section F.
Context {X : Type}.
Notation node := (node (tmodel X)).
Notation doc := (doc (tmodel X)).

(* ---- namespaces ------------------------------------------------------------------------------ *)

Lemma declared_decls (l : list node) :
  map (fun a => (x_local (a_name a), a_value a)) (declared l) = decls l.
Proof.
  unfold declared, decls. induction l as [|n l IH]; [reflexivity|]. cbn [flat_map].
  rewrite map_app, filter_app, map_app, IH. f_equal. unfold get_attr, al_get, is_decl. f_equal.
  apply filter_ext. intros a. cbn [emptyb orb]. now rewrite andb_true_r.
Qed.

Definition collect_pairs (reg : registry) (ds : list (string * string)) : nsmaps :=
  fold_left (fun m d => add_namespace reg m (fst d) (snd d)) ds ([], []).

Lemma collect_pairs_eq reg (l : list node) : collect reg l = collect_pairs reg (decls l).
Proof.
  unfold collect, collect_pairs. rewrite <- declared_decls.
  generalize (([], []) : nsmaps). induction (declared l) as [|a r IH]; intros m; [reflexivity|].
  cbn [fold_left map fst snd]. apply IH.
Qed.

(* the first declaration of a URI *)
Definition first_decl (ds : list (string * string)) (u : string) : option string :=
  option_map fst (find (fun d => snd d =? u) ds).

Lemma find_app {A} (f : A -> bool) l1 l2 :
  find f (l1 ++ l2)%list = match find f l1 with Some x => Some x | None => find f l2 end.
Proof. induction l1 as [|a l IH]; [reflexivity|]. cbn. destruct (f a); auto. Qed.

Lemma collect_spec h ds i e : (forall o, In o h -> ns_name (fst o) <> "") ->
  collect_pairs (registry_of h) ds = (i, e) -> forall u,
  let reg := registry_of h in
  (reg_get_prefix reg u <> "" ->
     map_get e u = None /\
     (In u (map snd ds) -> exists ns, get_namespace reg (reg_get_prefix reg u) = Ok ns /\ map_get i u = Some ns) /\
     (~ In u (map snd ds) -> map_get i u = None))
  /\ (reg_get_prefix reg u = "" ->
     map_get i u = None /\ map_get e u = option_map (fun p => Namespace p u None) (first_decl ds u)).
Proof.
  intros Hne. revert i e. induction ds as [|[p v] ds IH] using rev_ind; intros i e E u reg; subst reg.
  - injection E as <- <-. split; intros Hu; [repeat split; auto; intros []|split; reflexivity].
  - unfold collect_pairs in E. rewrite fold_left_app in E. cbn [fold_left fst snd] in E.
    fold (collect_pairs (registry_of h) ds) in E. destruct (collect_pairs (registry_of h) ds) as [i0 e0].
    specialize (IH i0 e0 eq_refl). pose proof (IH u) as [I1 I2]. unfold add_namespace in E.
    destruct (reg_get_prefix (registry_of h) v) as [|c s] eqn:Ev.
    + cbn [emptyb negb] in E.
      destruct (IH v) as [_ Iv]. specialize (Iv Ev). destruct Iv as [Iv1 Iv2].
      assert (Ei : i = i0) by (destruct (map_get e0 v); injection E as <- <-; reflexivity). subst i0.
      assert (He : forall w, v <> w -> map_get e w = map_get e0 w).
      { intros w Hw. destruct (map_get e0 v); injection E as <-; [reflexivity|]. now apply map_get_set_neq. }
      split; intros Hu.
      * destruct (string_dec v u) as [->|Hn]; [congruence|].
        destruct (I1 Hu) as (J1 & J2 & J3). rewrite (He u Hn), map_app, in_app_iff. cbn.
        split; [exact J1|]. split; [intros [H|[H|[]]]; [auto|congruence]|]. intros H. apply J3. tauto.
      * destruct (I2 Hu) as [J1 J2]. split; [exact J1|].
        unfold first_decl. rewrite find_app. cbn [find snd fst]. destruct (string_dec v u) as [->|Hn].
        -- rewrite eqb_refl. unfold first_decl in J2. destruct (find _ ds) as [[p' v']|] eqn:Ef; cbn [option_map] in *.
           ++ rewrite J2 in E. injection E as <-. exact J2.
           ++ rewrite J2 in E. injection E as <-. cbn [fst]. apply map_get_set_eq.
        -- rewrite (He u Hn), J2. unfold first_decl. destruct (find _ ds) as [[p' v']|]; [reflexivity|].
           now apply eqb_neq in Hn as ->.
    + cbn [emptyb negb] in E.
      assert (exists ns, get_namespace (registry_of h) (String c s) = Ok ns) as [ns Hns].
      { assert (exists o, In o h /\ ns_uri (fst o) = v) as (o & Ho & Hov).
        { unfold reg_get_prefix in Ev. destruct (map_get (r_uris (registry_of h)) v) as [n|] eqn:En; [|discriminate].
          apply get_uris_spec in En as (Hn & gs & Hl). exists (n, gs). split; auto. now apply last_by_in in Hl. }
        assert (exists n gs, In (n, gs) h /\ ns_name n = String c s) as (n & gs & Hin & Hname).
        { unfold reg_get_prefix in Ev. destruct (map_get (r_uris (registry_of h)) v) as [n|] eqn:En; [|discriminate].
          apply get_uris_spec in En as (Hn & gs & Hl). exists n, gs. split; auto. now apply last_by_in in Hl. }
        destruct (proj1 (last_by_exists (fun o => ns_name (fst o)) h (String c s))) as ((n' & gs') & Hl & Hk).
        { exists (n, gs). auto. }
        exists n'. apply get_namespace_ok. cbn in Hk. eauto. }
      rewrite Hns in E. injection E as <- <-. split; intros Hu.
      * destruct (I1 Hu) as (J1 & J2 & J3). split; [exact J1|].
        rewrite map_app, in_app_iff. cbn [map snd In]. destruct (string_dec v u) as [->|Hn].
        -- rewrite map_get_set_eq. split; [intros _; exists ns; split; [|reflexivity]; now rewrite Ev|].
           intros H. exfalso. apply H. auto.
        -- rewrite map_get_set_neq by auto. split; [intros [H|[H|[]]]; [auto|congruence]|]. intros H. apply J3. tauto.
      * destruct (I2 Hu) as [J1 J2].
        assert (v <> u) by congruence. rewrite map_get_set_neq by auto. split; [exact J1|].
        rewrite J2. unfold first_decl. rewrite find_app. destruct (find _ ds); [reflexivity|].
        cbn [find snd]. apply eqb_neq in H as ->. reflexivity.
Qed.

Lemma first_decl_in ds u : In u (map snd ds) -> exists p, first_decl ds u = Some p.
Proof.
  unfold first_decl. intros H. destruct (find (fun d => snd d =? u) ds) as [d|] eqn:E; [exists (fst d); reflexivity|]. exfalso.
  apply in_map_iff in H as (d0 & Hs & Hd). apply (find_none _ _ E) in Hd. rewrite Hs, eqb_refl in Hd. discriminate.
Qed.

Lemma first_decl_by ds u p : first_decl ds u = Some p <-> first_by snd (p, u) ds.
Proof.
  unfold first_decl. rewrite (first_by_find snd (p, u) ds). cbn [snd].
  destruct (find (fun d => snd d =? u) ds) as [[p' u']|] eqn:E; cbn [option_map fst].
  - apply find_some in E as [_ E]. cbn in E. apply eqb_eq in E as ->. split; [intros [= ->]|intros [= ->]]; reflexivity.
  - split; discriminate.
Qed.

Lemma translate_declared h ds i e u l p : (forall o, In o h -> ns_name (fst o) <> "") ->
  collect_pairs (registry_of h) ds = (i, e) -> In u (map snd ds) -> u <> "" -> u <> "xmlns" -> l <> "" ->
  standard_prefix h ds u p ->
  translate (registry_of h) i e (XName u l) = XName "" (p ++ ":" ++ l).
Proof.
  intros Hne E Hu Hu0 Hu1 Hl Hp. pose proof (collect_spec h ds i e Hne E u) as [C1 C2].
  unfold translate. cbn [x_space x_local]. apply emptyb_false in Hu0. rewrite Hu0. apply eqb_neq in Hu1. rewrite Hu1.
  cbn [orb]. unfold dec_find_ns. cbn [x_space x_local]. rewrite Hu0. unfold dec_ns_by_uri.
  assert (Hx : forall ns, ns_name ns = p -> expand ns l = p ++ ":" ++ l).
  { intros ns Hn. unfold expand. apply emptyb_false in Hl. rewrite Hl. cbn [join]. now rewrite Hn. }
  destruct Hp as [(n & gs & Hlast & Hn & Hp)|[Hno Hf]].
  - destruct (reg_get_prefix_spec h u) as [P _]. specialize (P n gs Hlast Hn).
    assert (Hpne : p <> "").
    { rewrite <- Hp. exact (Hne (n, gs) (last_by_in _ _ _ Hlast)). }
    rewrite Hp in P. rewrite P in C1, C2. destruct (C1 Hpne) as (_ & (ns & Hg & Hi) & _); [exact Hu|].
    rewrite Hi. f_equal. apply Hx. now apply get_namespace_ok in Hg as [Hg _].
  - destruct (reg_get_prefix_spec h u) as [_ P]. specialize (P Hno). destruct (C2 P) as [Hi He].
    rewrite Hi, He. apply first_decl_by in Hf. rewrite Hf. cbn [option_map]. f_equal. now apply Hx.
Qed.

Lemma standard_prefix_exists h ds u : In u (map snd ds) -> exists p, standard_prefix h ds u p.
Proof.
  intros Hu. destruct (map_get (r_uris (registry_of h)) u) as [n|] eqn:E.
  - apply get_uris_spec in E as (Hn & gs & Hl). exists (ns_name n). left. exists n, gs. auto.
  - destruct (first_decl_in ds u Hu) as [p Hp]. exists p. right. split; [|now apply first_decl_by].
    intros Ho. apply (last_by_exists (fun o => ns_uri (fst o))) in Ho as ((n & gs) & Hl & Hn).
    assert (map_get (r_uris (registry_of h)) u = Some n) by (apply get_uris_spec; eauto). congruence.
Qed.

Lemma prefix_split p l p' l' : has_char ":" p = false -> has_char ":" p' = false ->
  p ++ ":" ++ l = p' ++ ":" ++ l' -> p = p' /\ l = l'.
Proof.
  intros H1 H2 E. assert (Hi : index_char ":" (p ++ ":" ++ l) = index_char ":" (p' ++ ":" ++ l')) by now rewrite E.
  cbn [String.append] in Hi. rewrite !index_char_app in Hi by assumption. injection Hi as Hi.
  assert (Hp : p = p').
  { rewrite <- (stake_app p (":" ++ l)), <- (stake_app p' (":" ++ l')), E, Hi. reflexivity. }
  subst p'. split; auto. apply app_inj_l in E. cbn in E. now injection E.
Qed.

(* ---- the element chain ------------------------------------------------------------------------- *)
Variable ver : version.
Variable kinds : nat -> string -> option (mkind X).
Notation decode_attribute := (decode_attribute ver).
Notation decode_properties reg i e := (decode_properties ver reg kinds i e).
Notation decode_property reg i e := (decode_property ver reg kinds i e).

Lemma last_indep {A} (m : list A) : forall (x y z : A), last (x :: m) y = last (x :: m) z.
Proof. induction m as [|a m IH]; intros x y z; [reflexivity|]. exact (IH a y z). Qed.
Lemma last_app {A} (l1 l2 : list A) d : last (l1 ++ l2)%list d = last l2 (last l1 d).
Proof.
  destruct l2 as [|b l2]; [now rewrite List.app_nil_r|].
  rewrite (last_indep l2 b _ d). induction l1 as [|a l1 IH]; [reflexivity|].
  destruct l1 as [|c l1]; [reflexivity|]. exact IH.
Qed.

Lemma decode_properties_app reg i e ps qs : forall l,
  decode_properties reg i e l (ps ++ qs)%list
  = bind (decode_properties reg i e l ps) (fun l => decode_properties reg i e l qs).
Proof.
  induction ps as [|p ps IH]; intros l; [reflexivity|]. cbn [app SpecDecode.decode_properties].
  destruct (decode_property reg i e l p); cbn [bind]; auto.
Qed.

Definition about_attr (a : attr) : bool := (x_space (a_name a) =? ns_rdf_uri) && (x_local (a_name a) =? "about").

Lemma decode_attrs_props reg i e al : forall about l,
  decode_attrs ver reg kinds i e about l al
  = bind (decode_properties reg i e l (map PAttr (filter (fun a => negb (x_space (a_name a) =? ns_rdf_uri)) al)))
      (fun l => Ok (last (map a_value (filter about_attr al)) about, l)).
Proof.
  induction al as [|a al IH]; intros about l; [reflexivity|]. cbn [decode_attrs filter]. unfold about_attr at 1.
  destruct (x_space (a_name a) =? ns_rdf_uri) eqn:E; cbn [negb andb].
  - rewrite IH. destruct (x_local (a_name a) =? "about"); [|reflexivity].
    destruct (decode_properties _ _ _ _ _); cbn [bind]; [|reflexivity|reflexivity].
    cbn [map]. change (a_value a :: map a_value (filter about_attr al))%list
      with ([a_value a] ++ map a_value (filter about_attr al))%list. rewrite last_app. reflexivity.
  - cbn [map SpecDecode.decode_properties SpecDecode.decode_property].
    destruct (DecodeM.decode_attribute ver reg kinds i e l a); cbn [bind]; auto.
Qed.

Lemma decode_kids_props reg i e kl : forall l,
  decode_kids ver reg kinds i e l kl = decode_properties reg i e l (map PElem kl).
Proof.
  induction kl as [|k kl IH]; intros l; [reflexivity|]. cbn.
  destruct (decode_node ver reg kinds i e l k); cbn [bind]; auto.
Qed.

Lemma decode_descriptions_props reg i e dl : forall about l,
  Forall (fun n => is_elem reg n "rdf:Description") dl ->
  decode_descriptions ver reg kinds i e about l dl
  = bind (decode_properties reg i e l (flat_map properties_of dl))
      (fun l => Ok (last (map a_value (filter about_attr (flat_map n_attrs dl))) about, l)).
Proof.
  induction dl as [|n dl IH]; intros about l H; [reflexivity|]. inversion_clear H as [|? ? Hn Hd].
  cbn [decode_descriptions flat_map]. unfold is_elem in Hn. rewrite Hn, eqb_refl. cbn [negb].
  rewrite decode_properties_app. unfold properties_of at 1. rewrite decode_properties_app, decode_attrs_props.
  destruct (decode_properties reg i e l (map PAttr _)) as [l1|s|]; cbn [bind]; [|reflexivity|reflexivity].
  rewrite decode_kids_props. destruct (decode_properties reg i e l1 (map PElem _)) as [l2|s|]; cbn [bind]; [|reflexivity|reflexivity].
  rewrite IH by assumption. destruct (decode_properties reg i e l2 _); cbn [bind]; [|reflexivity|reflexivity].
  now rewrite filter_app, map_app, last_app.
Qed.

Lemma decode_descriptions_broken reg i e dl : forall about l r,
  ~ Forall (fun n => is_elem reg n "rdf:Description") dl ->
  decode_descriptions ver reg kinds i e about l dl <> Ok r.
Proof.
  induction dl as [|n dl IH]; intros about l r H; [exfalso; apply H; constructor|]. cbn [decode_descriptions].
  destruct (full_name reg n =? "rdf:Description") eqn:E; [|discriminate]. cbn [negb]. apply eqb_eq in E.
  destruct (decode_attrs _ _ _ _ _ _ _ _) as [[ab l1]|s|]; cbn [bind]; try discriminate.
  destruct (decode_kids _ _ _ _ _ _ _) as [l2|s|]; cbn [bind]; try discriminate.
  apply IH. intros Hd. apply H. now constructor.
Qed.

Variable sync_from : doc -> doc * result unit.
Notation decode reg := (decode ver reg kinds sync_from).

(* the document with another toolkit *)
Definition same_but_toolkit (x y : doc) : Prop := exists s, y = with_toolkit x s.
Lemma sbt_refl x : same_but_toolkit x x.
Proof. exists (d_toolkit x). destruct x; reflexivity. Qed.

(* x after the toolkit attribute was read *)
Definition toolkit_read (reg : registry) (x : doc) (root : node) : doc :=
  if full_name reg root =? "x:xmpmeta" then
    match get_attr root ns_x_uri "xmptk" with
    | a :: _ => with_toolkit x (trim_space (a_value a))
    | [] => x
    end
  else x.
Lemma toolkit_read_same reg x root : same_but_toolkit x (toolkit_read reg x root).
Proof.
  unfold toolkit_read. destruct (_ =? _); [|apply sbt_refl]. destruct (get_attr _ _ _); [apply sbt_refl|].
  now eexists.
Qed.

Lemma decode_ok_chain reg x root rdf : chain_ok reg root rdf ->
  decode reg x root =
  (let '(i, e) := collect reg (n_nodes rdf) in
   match decode_properties reg i e [] (properties rdf) with
   | Ok nodes => sync_from (Doc "" nodes (d_dirty x) (about_of rdf) i e)
   | Err s => (toolkit_read reg x root, Err s)
   | Panic => (toolkit_read reg x root, Panic)
   end).
Proof.
  intros [[Hr Hroot] Hd].
  assert (G : decode reg x root
    = let '(i, e) := collect reg (n_nodes rdf) in
      match decode_descriptions ver reg kinds i e "" [] (n_nodes rdf) with
      | Ok (about, nodes) => sync_from (Doc "" nodes (d_dirty (toolkit_read reg x root)) about i e)
      | Err s => (toolkit_read reg x root, Err s)
      | Panic => (toolkit_read reg x root, Panic)
      end).
  { unfold DecodeM.decode, toolkit_read. unfold is_elem in *. destruct Hroot as [->|[Hx Hn]].
    - rewrite Hr. change ("rdf:RDF" =? "x:xmpmeta") with false. cbv iota. rewrite Hr, eqb_refl. reflexivity.
    - rewrite Hx, Hn, eqb_refl. cbn [negb]. destruct (get_attr _ _ _); rewrite Hr; reflexivity. }
  rewrite G. destruct (collect reg (n_nodes rdf)) as [i e]. rewrite decode_descriptions_props by exact Hd.
  unfold properties. destruct (decode_properties reg i e [] _) as [l|s|]; cbn [bind]; try reflexivity.
  f_equal. f_equal. unfold toolkit_read. destruct (_ =? _); [|reflexivity]. destruct (get_attr _ _ _); reflexivity.
Qed.

Lemma decode_broken_chain reg x root : (forall rdf, ~ chain_ok reg root rdf) ->
  (forall r, snd (decode reg x root) <> Ok r) /\ fst (decode reg x root) = toolkit_read reg x root.
Proof.
  intros H. unfold DecodeM.decode, toolkit_read.
  destruct (full_name reg root =? "x:xmpmeta") eqn:Ex.
  - set (x1 := match get_attr root ns_x_uri "xmptk" with [] => x | _ :: _ => _ end).
    destruct (n_nodes root) as [|r [|r2 l]] eqn:En; [split; [discriminate|reflexivity]| |split; [discriminate|reflexivity]].
    destruct (full_name reg r =? "rdf:RDF") eqn:Er; [|split; [discriminate|reflexivity]]. cbn [negb].
    apply eqb_eq in Ex, Er. destruct (collect reg (n_nodes r)) as [i e].
    destruct (decode_descriptions _ _ _ _ _ _ _ _) as [[ab nodes]|s|] eqn:Ed; [|split; [discriminate|reflexivity]..].
    exfalso. apply (decode_descriptions_broken _ _ _ _ _ _ (ab, nodes) (fun F => H r (conj (conj Er (or_intror (conj Ex En))) F))) in Ed.
    contradiction.
  - destruct (full_name reg root =? "rdf:RDF") eqn:Er; [|split; [discriminate|reflexivity]]. cbn [negb].
    apply eqb_eq in Er. destruct (collect reg (n_nodes root)) as [i e].
    destruct (decode_descriptions _ _ _ _ _ _ _ _) as [[ab nodes]|s|] eqn:Ed; [|split; [discriminate|reflexivity]..].
    exfalso. apply (decode_descriptions_broken _ _ _ _ _ _ (ab, nodes) (fun F => H root (conj (conj Er (or_introl eq_refl)) F))) in Ed.
    contradiction.
Qed.

Lemma decode_properties_fail reg i e ps : forall l,
  (forall r, decode_properties reg i e l ps <> Ok r) <->
  exists pre p post l1, ps = (pre ++ p :: post)%list /\ decode_properties reg i e l pre = Ok l1 /\
    forall r, decode_property reg i e l1 p <> Ok r.
Proof.
  induction ps as [|p ps IH]; intros l; cbn [SpecDecode.decode_properties].
  - split; [intros H; exfalso; now apply (H l)|]. intros (pre & p & post & l1 & E & _). destruct pre; discriminate.
  - destruct (decode_property reg i e l p) as [l1|s|] eqn:Ep; cbn [bind].
    + rewrite IH. split.
      * intros (pre & q & post & l2 & -> & H1 & H2). exists (p :: pre), q, post, l2.
        split; [reflexivity|]. split; auto. cbn [SpecDecode.decode_properties]. now rewrite Ep.
      * intros (pre & q & post & l2 & E & H1 & H2). destruct pre as [|p' pre].
        -- injection E as <- <-. injection H1 as <-. exfalso. now apply (H2 l1).
        -- injection E as <- ->. cbn [SpecDecode.decode_properties] in H1. rewrite Ep in H1. exists pre, q, post, l2. auto.
    + split; [|discriminate]. intros _. exists [], p, ps, l. split; [reflexivity|]. split; [reflexivity|]. rewrite Ep. discriminate.
    + split; [|discriminate]. intros _. exists [], p, ps, l. split; [reflexivity|]. split; [reflexivity|]. rewrite Ep. discriminate.
Qed.
End F.
