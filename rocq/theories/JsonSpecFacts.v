(* The JSON round trip in the terms of SpecTrip.v. *)
From Coq Require Import List Arith ZArith Bool Ascii String Permutation Lia.
From Verif Require Import GoStr GoStrFacts GoMap Spec Names Semver RegistryM SpecRegistry RegistryFacts BasicFacts PathFacts
  NodeM DocM DocFacts ArrayM TypeM DecodeM JsonM SpecJson SpecType SpecTree SpecTrip SpecDecode TypeFacts TreeFacts FormFacts
  DecodeFacts DecodeKeepFacts EncodeKeepFacts DecodeDocFacts TripFacts EncTripFacts XmlTripFacts TripSpecFacts JsonFacts JsonTripFacts.
Import ListNotations.
Local Open Scope string_scope.

Section N.
Context {X : Type}.
Variable ver : version.
Variable h : list reg_op.
Notation reg := (registry_of h).
Variable kinds : nat -> string -> option (mkind X).
Notation model := (tmodel X).
Notation node := (node model).
Notation doc := (doc model).
Variable d : doc.
Hypothesis Hs : sane_registry h.
Hypothesis Hd : storable_doc ver h kinds d.
Hypothesis Hj : Forall (json_model ver) (models_of d).

Theorem doc_json_trip (sync_from : doc -> doc * result unit) x : exists j,
  to_json ver reg d = Ok j /\
  forall j', same_jdoc j j' -> exists d',
    from_json ver reg kinds sync_from x j' = sync_from d'
    /\ Forall bare_model (d_nodes d') /\ Permutation (models_of d') (map (stored ver) (filter (speaks ver) (models_of d)))
    /\ d_about d' = d_about d /\ (d_toolkit d <> "" -> d_toolkit d' = d_toolkit d).
Proof.
  assert (Hs' := Hs). destruct Hs' as (Hi & Rx & Rm & Rr & Ho). assert (Hd' := Hd). destruct Hd' as (D1 & D2 & D3 & D4).
  destruct (pairs_apart _ _ _ _ D2 D3) as [Nd Own].
  assert (Px : reg_get_prefix reg ns_rdf_uri = "rdf") by exact (uri_prefix_agree h Hi _ _ Rr).
  assert (Hcore : forall p ns, p = "rdf" \/ p = "xml" -> find_ns_by_prefix reg d p = Some ns -> is_core ns = true).
  { intros p ns [-> | ->] E; apply (doc_maps ver h kinds d Hd) in E; [rewrite Rr in E|rewrite Rm in E]; injection E as <-; reflexivity. }
  assert (Hne : forall o, In o h -> ns_name (fst o) <> "").
  { intros o K E. destruct (Ho o K) as [A _]. rewrite E in A. apply A. now left. }
  assert (Hnew : forall m ns, In m (map pair_of (models_of d)) -> goodns h ns -> k_can (fst m) (ns_name ns) = true ->
    new_tmodel kinds ns = Some (TModel (fst m) (k_init (fst m)))).
  { intros m ns Hm Hg Hc. apply in_map_iff in Hm. destruct Hm as (m' & <- & Hm). rewrite Forall_forall in D2. specialize (D2 m' Hm).
    destruct D2 as (_ & _ & _ & _ & _ & _ & _ & Hf). destruct (Hf (ns_name ns) ns (proj1 Hg) Hc) as (f & F1 & F2).
    unfold new_tmodel. rewrite F1, F2. reflexivity. }
  assert (Hfit : Forall (fit ver) (map pair_of (models_of d))).
  { apply Forall_map. eapply Forall_impl; [|exact D2]. intros m Hm. apply (model_fit ver h kinds d Hs Hd). exact Hm. }
  assert (Hnames : Forall (fun f => gname h d (fst f) /\ all_names (gname h d) (snd f)) (flat_map (mem ver) (map pair_of (models_of d)))).
  { apply Forall_forall. intros f Hf. apply in_flat_map in Hf. destruct Hf as (m & Hm & Hf). apply in_map_iff in Hm. destruct Hm as (m' & <- & Hm).
    rewrite Forall_forall in D2. destruct (model_fit ver h kinds d Hs Hd m' (D2 m' Hm)) as [_ A]. rewrite Forall_forall in A. auto. }
  assert (Har : Forall (arrays_ok ver ["Seq"; "Bag"]) (map pair_of (models_of d))).
  { apply Forall_map. eapply Forall_impl; [|exact Hj]. intros m (Hm & _). exact Hm. }
  assert (Hjs : Forall (fun f => json_ok (snd f) /\ loud (snd f) = true) (flat_map (mem ver) (map pair_of (models_of d)))).
  { apply Forall_forall. intros f Hf. apply in_flat_map in Hf. destruct Hf as (m & Hm & Hf). apply in_map_iff in Hm. destruct Hm as (m' & <- & Hm).
    rewrite Forall_forall in Hj. destruct (Hj m' Hm) as (_ & J1 & J2).
    change (tree_of ver (record_ty (tm_kind m')) (record_of m')) with (PRecord (mem ver (pair_of m'))) in J1, J2.
    rewrite Forall_forall in J2. split; [|auto]. destruct J1 as (_ & _ & _ & J1). apply json_ok_all in J1. rewrite Forall_forall in J1. auto. }
  destruct (json_trip h d Px Hcore Hne ver kinds _ Hnew Hfit Nd Own Hnames (models_nodes ver h kinds d Hs Hd) Har Hjs sync_from x)
    as (j & E & Ej & Et & H).
  assert (Ef : filter (shown ver) (map pair_of (models_of d)) = map pair_of (filter (speaks ver) (models_of d))).
  { clear. induction (models_of d) as [|m l IH]; [reflexivity|]. cbn [map filter]. rewrite speaks_shown. destruct (shown ver (pair_of m)); cbn [map]; now rewrite IH. }
  exists j. split; [exact E|]. intros j' (A1 & A2 & A3 & A4). destruct (H j' A1 A2 A3 A4) as (d' & sel & Ed & En & Ps & Ab & At).
  exists d'. split; [exact Ed|]. rewrite En. split; [|split; [|split]].
  - apply Forall_map. apply Forall_forall. intros m _. repeat split. discriminate.
  - rewrite Ef in Ps.
    assert (Em : models_of d' = map (fun m => TModel (fst m) (as_stored ver (k_init (fst m)) (k_fields (fst m)) (snd m))) sel).
    { unfold models_of. rewrite En. clear. induction sel as [|m l IH]; [reflexivity|]. cbn [map flat_map final n_model List.app]. now rewrite IH. }
    rewrite Em. rewrite (Permutation_map _ Ps), map_map. apply Permutation_refl'. apply map_ext. intros m. reflexivity.
  - exact Ab.
  - intros K. rewrite At. apply Et. destruct (d_toolkit d); [now elim K|reflexivity].
Qed.
End N.
