(* The hypotheses of SpecTrip.v give those of XmlTripFacts.v. *)
From Coq Require Import List Arith ZArith Bool Ascii String Permutation Lia.
From Verif Require Import GoStr GoStrFacts GoMap Spec SpecFacts Names Semver RegistryM SpecRegistry RegistryFacts BasicFacts PathFacts
  NodeM DocM DocFacts ArrayM TypeM DecodeM JsonM SpecJson SpecType SpecTree SpecTrip SpecDecode TypeFacts TreeFacts FormFacts DecodeFacts
  DecodeKeepFacts EncodeKeepFacts DecodeDocFacts TripFacts EncTripFacts XmlTripFacts.
Import ListNotations.
Local Open Scope string_scope.

Section N.
Context {X : Type}.
Variable ver : version.

Lemma names_in_all (P : string -> Prop) : forall t, Forall P (names_in t) -> all_names P t.
Proof.
  fix IH 1. intros t H. destruct t as [s|fs|l|l]; try exact I.
  - cbn [names_in] in H. cbn [all_names]. induction fs as [|[s t] fs IHf]; [exact I|]. inversion H as [|? ? H1 H2]; subst. apply Forall_app in H2.
    split; [split; [exact H1|apply IH; apply H2]|apply IHf; apply H2].
  - cbn [names_in] in H. cbn [all_names]. induction l as [|t l IHl]; [exact I|]. apply Forall_app in H. split; [apply IH; apply H|apply IHl; apply H].
Qed.
Lemma says_members (m : tmodel X) : says ver m = members ver (k_fields (tm_kind m)) (tm_vals m).
Proof. unfold says, record_ty, record_of. rewrite tree_struct. reflexivity. Qed.

Variable h : list reg_op.
Notation reg := (registry_of h).
Variable kinds : nat -> string -> option (mkind X).
Notation model := (tmodel X).
Notation node := (node model).
Notation doc := (doc model).
Variable d : doc.
Hypothesis Hs : sane_registry h.
Hypothesis Hd : storable_doc ver h kinds d.

Lemma known_goodns p ns : get_namespace reg p = Ok ns -> ~ In p ["rdf"; "xml"; "x"] -> ns_name ns = p /\ goodns h ns.
Proof.
  intros E N. destruct Hs as (Hi & _ & _ & _ & Ho). assert (K := E). apply get_namespace_ok in K. destruct K as (En & gs & L).
  split; [exact En|]. subst p. assert (Hin : In (ns, gs) h). { destruct L as (a & b & -> & _). apply in_or_app. right. now left. }
  destruct (Ho _ Hin) as (O1 & O2 & O3). cbn [fst] in *. split; [exact E|]. split; [now apply uri_prefix_agree|].
  cbn [In] in *. repeat split; auto; tauto.
Qed.
Lemma doc_maps p ns : find_ns_by_prefix reg d p = Some ns <-> get_namespace reg p = Ok ns.
Proof.
  destruct Hd as (_ & _ & _ & Hm).
  assert (A : forall (m : gomap namespace) v, (forall u ns, In (u, ns) m -> get_namespace reg (ns_name ns) = Ok ns) -> find (fun v => ns_name v =? p) (map snd m) = Some v ->
    get_namespace reg p = Ok v).
  { intros m v H E. apply find_some in E. destruct E as [E1 E2]. apply String.eqb_eq in E2. subst p. apply in_map_iff in E1. destruct E1 as ([u w] & <- & K).
    exact (H _ _ K). }
  unfold find_ns_by_prefix. destruct (find _ (map snd (d_int d))) as [v|] eqn:E1.
  { apply A in E1; [|intros u w K; apply (Hm u w); apply in_or_app; now left]. rewrite E1. split; congruence. }
  destruct (find _ (map snd (d_ext d))) as [v|] eqn:E2.
  { apply A in E2; [|intros u w K; apply (Hm u w); apply in_or_app; now right]. rewrite E2. split; congruence. }
  destruct (get_namespace reg p); split; congruence.
Qed.
Lemma free_goodp p : free_prefix h p -> goodp h d p.
Proof.
  intros (N & ns & E). exists ns. split; [now apply doc_maps|]. now apply (known_goodns p).
Qed.
Lemma proper_gname s : proper_name h s -> gname h d s.
Proof. intros (p & l & -> & Hl & Hp). exists p, l. repeat split; auto. now apply free_goodp. Qed.

Lemma get_prefix_plain s : has_char ":" s = false -> get_prefix s = s.
Proof. intros H. unfold get_prefix. apply index_char_none in H. now rewrite H. Qed.

Definition pair_of (m : model) : mkind X * list (gval X) := (tm_kind m, tm_vals m).

Lemma model_fit m : storable_model ver h kinds m -> fit ver (pair_of m) /\
  Forall (fun f => gname h d (fst f) /\ all_names (gname h d) (snd f)) (mem ver (pair_of m)).
Proof.
  intros (M1 & M2 & M3 & M4 & M5 & M6 & M7 & M8). apply wf_struct in M2. destruct M2 as (W1 & W2 & W3).
  assert (M5' : Forall (gname h d) (names_in (PRecord (says ver m)))).
  { eapply Forall_impl; [|exact M5]. exact proper_gname. }
  apply names_in_all, all_names_fields in M5'. rewrite says_members in *.
  split; [|exact M5'].
  destruct M7 as (home & H1 & H2 & H3). unfold fit, pair_of. cbn [fst snd].
  assert (Eh : home_ns (tm_kind m) = home). { unfold home_ns. destruct (k_namespaces (tm_kind m)); [discriminate|]. cbn in *. congruence. }
  rewrite Eh. repeat split; auto.
  - intros E. rewrite E in H1. discriminate.
  - intros s Hm. unfold mem in Hm. cbn [fst snd] in Hm. apply in_map_iff in Hm. destruct Hm as ([s' t] & Es & K). cbn [fst] in Es. subst s'.
    rewrite Forall_forall in M5'. destruct (M5' _ K) as [G _]. cbn [fst] in G. destruct G as (p & l & E & Hl & Hp). apply goodp_plain in Hp. subst s.
    rewrite get_prefix_qualified by exact Hp. eapply M6; [exact K|exact Hp].
Qed.

Lemma models_nodes : Forall2 (node_of h d (goodp h d)) (map pair_of (models_of d)) (d_nodes d).
Proof.
  destruct Hd as (H & _). unfold models_of. induction H as [|n l [(B1 & B2 & B3 & B4) P] F IH]; [constructor|].
  cbn [flat_map]. destruct (n_model n) as [m|] eqn:E; [|now elim B1]. cbn [List.app map]. constructor; [|exact IH].
  assert (G := free_goodp _ P). assert (Gp := goodp_plain h d _ G). unfold node_of. rewrite E. destruct m as [k vs]. repeat split; auto.
  destruct P as (P1 & ns & P2). destruct (known_goodns _ _ P2 P1) as [En Hg]. exists ns. rewrite En. repeat split; auto.
  unfold enc_find_ns, find_ns. cbn [new_name x_space x_local emptyb negb]. rewrite get_prefix_plain by exact Gp. now apply doc_maps.
Qed.

Lemma pairs_apart (l : list model) : Forall (storable_model ver h kinds) l ->
  ForallOrdPairs (fun m m' => forall p, k_can (tm_kind m) p = true -> k_can (tm_kind m') p = true -> False) l ->
  NoDup (map pair_of l) /\
  (forall m m' p, In m (map pair_of l) -> In m' (map pair_of l) -> k_can (fst m) p = true -> k_can (fst m') p = true -> m = m').
Proof.
  intros F O. induction O as [|m l A O IH]; [split; [constructor|intros ? ? ? []]|]. inversion F as [|? ? Fm Fl]; subst.
  destruct (IH Fl) as [N U]. rewrite Forall_forall in A. cbn [map]. split.
  - constructor; [|exact N]. intros K. apply in_map_iff in K. destruct K as (m' & E & K).
    destruct Fm as (_ & _ & _ & _ & _ & _ & (home & _ & Hc & _) & _). apply (A m' K (ns_name home) Hc). injection E as -> _. exact Hc.
  - intros a b p [<-|Ha] [<-|Hb] Ca Cb; auto.
    + apply in_map_iff in Hb. destruct Hb as (m' & <- & K). elim (A m' K p Ca Cb).
    + apply in_map_iff in Ha. destruct Ha as (m' & <- & K). elim (A m' K p Cb Ca).
    + exact (U a b p Ha Hb Ca Cb).
Qed.

Lemma speaks_shown (m : model) : speaks ver m = shown ver (pair_of m).
Proof. reflexivity. Qed.
Lemma stored_pair (m : model) : stored ver m = TModel (tm_kind m) (as_stored ver (k_init (tm_kind m)) (k_fields (tm_kind m)) (tm_vals m)).
Proof. reflexivity. Qed.

Theorem doc_xml_trip (sync_from : doc -> doc * result unit) x : exists p d',
  encode ver reg d = Ok p /\ decode ver reg kinds sync_from x (xml_read [] p) = sync_from d'
  /\ Forall bare_model (d_nodes d') /\ Permutation (models_of d') (map (stored ver) (filter (speaks ver) (models_of d)))
  /\ (filter (speaks ver) (models_of d) <> [] -> d_about d' = d_about d).
Proof.
  assert (Hs' := Hs). destruct Hs' as (Hi & Rx & Rm & Rr & Ho). assert (Hd' := Hd). destruct Hd' as (D1 & D2 & D3 & D4).
  destruct (pairs_apart _ D2 D3) as [Nd Own].
  assert (Px : reg_get_prefix reg ns_rdf_uri = "rdf") by exact (uri_prefix_agree h Hi _ _ Rr).
  assert (Pr : reg_get_prefix reg ns_x_uri = "x") by exact (uri_prefix_agree h Hi _ _ Rx).
  assert (Hcore : forall p ns, p = "rdf" \/ p = "xml" -> find_ns_by_prefix reg d p = Some ns -> is_core ns = true).
  { intros p ns [-> | ->] E; apply doc_maps in E; [rewrite Rr in E|rewrite Rm in E]; injection E as <-; reflexivity. }
  assert (Hne : forall o, In o h -> ns_name (fst o) <> "").
  { intros o K E. destruct (Ho o K) as [A _]. rewrite E in A. apply A. now left. }
  assert (Hnew : forall m ns, In m (map pair_of (models_of d)) -> goodns h ns -> k_can (fst m) (ns_name ns) = true ->
    new_tmodel kinds ns = Some (TModel (fst m) (k_init (fst m)))).
  { intros m ns Hm Hg Hc. apply in_map_iff in Hm. destruct Hm as (m' & <- & Hm). rewrite Forall_forall in D2. specialize (D2 m' Hm).
    destruct D2 as (_ & _ & _ & _ & _ & _ & _ & Hf). destruct (Hf (ns_name ns) ns (proj1 Hg) Hc) as (f & F1 & F2).
    unfold new_tmodel. rewrite F1, F2. reflexivity. }
  assert (Hfit : Forall (fit ver) (map pair_of (models_of d))).
  { apply Forall_map. eapply Forall_impl; [|exact D2]. intros m Hm. apply model_fit. exact Hm. }
  assert (Hnames : Forall (fun f => gname h d (fst f) /\ all_names (gname h d) (snd f)) (flat_map (mem ver) (map pair_of (models_of d)))).
  { apply Forall_forall. intros f Hf. apply in_flat_map in Hf. destruct Hf as (m & Hm & Hf). apply in_map_iff in Hm. destruct Hm as (m' & <- & Hm).
    rewrite Forall_forall in D2. destruct (model_fit m' (D2 m' Hm)) as [_ A]. rewrite Forall_forall in A. auto. }
  assert (Har : Forall (arrays_ok ver ["Seq"; "Bag"; "Alt"]) (map pair_of (models_of d))).
  { eapply Forall_impl; [|exact Hfit]. intros m (_ & _ & _ & _ & _ & W & _). unfold arrays_ok. now apply wf_fields_arr. }
  destruct (xml_trip h d _ (incl_refl _) Hcore Hne Px Pr (ex_intro _ _ Rr) ver kinds _ Hnew Hfit Nd Own Hnames models_nodes Har sync_from x)
    as (p & E & d' & sel & Ed & En & Ps & Ab).
  assert (Ef : filter (shown ver) (map pair_of (models_of d)) = map pair_of (filter (speaks ver) (models_of d))).
  { clear. induction (models_of d) as [|m l IH]; [reflexivity|]. cbn [map filter]. rewrite speaks_shown. destruct (shown ver (pair_of m)); cbn [map]; now rewrite IH. }
  exists p, d'. split; [exact E|]. split; [exact Ed|]. rewrite En. split; [|split].
  - apply Forall_map. apply Forall_forall. intros m _. repeat split. discriminate.
  - rewrite Ef in Ps.
    assert (Em : models_of d' = map (fun m => TModel (fst m) (as_stored ver (k_init (fst m)) (k_fields (fst m)) (snd m))) sel).
    { unfold models_of. rewrite En. clear. induction sel as [|m l IH]; [reflexivity|]. cbn [map flat_map final n_model List.app]. now rewrite IH. }
    rewrite Em. rewrite (Permutation_map _ Ps), map_map. apply Permutation_refl'. apply map_ext. intros m. reflexivity.
  - intros K. apply Ab. rewrite Ef. destruct (filter (speaks ver) (models_of d)); [now elim K|discriminate].
Qed.
End N.
