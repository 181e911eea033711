(* C72, C73: documents of models, written and read again *)
From Coq Require Import List Arith ZArith Bool Ascii String Permutation Lia.
From Verif Require Import GoStr GoStrFacts GoMap Spec Names Semver RegistryM SpecRegistry RegistryFacts NodeM DocM ArrayM TypeM
  DecodeM JsonM SpecJson SpecType SpecTree SpecTrip SpecDecode TripSpecFacts JsonSpecFacts PropDecode PropJson.
Import ListNotations.
Local Open Scope string_scope.

(* ---- C72 ---- *)
(* SpecTrip.v says when a document is storable, what a model says (speaks) and how it comes back (stored:
   SpecType.v's norm of its record). Encoding such a document, writing it as XML, reading it and decoding it
   gives the same models, each once, in some order, without those that say nothing, and the same rdf:about. *)
Theorem C72_models_survive_xml : forall X ver h (kinds : nat -> string -> option (mkind X)) d,
  sane_registry h -> storable_doc ver h kinds d ->
  forall sync_from x, exists p d',
    encode ver (registry_of h) d = Ok p
    /\ decode ver (registry_of h) kinds sync_from x (xml_read [] p) = sync_from d'
    /\ Forall bare_model (d_nodes d')
    /\ Permutation (models_of d') (map (stored ver) (filter (speaks ver) (models_of d)))
    /\ (filter (speaks ver) (models_of d) <> [] -> d_about d' = d_about d).
Proof. intros X ver h kinds d Hs Hd sync_from x. exact (doc_xml_trip ver h kinds d Hs Hd sync_from x). Qed.
Print Assumptions C72_models_survive_xml.

(* A Dublin Core like model with attributes, texts, numbers, alternatives and records, and a second model. *)
Definition fa (s : string) : finfo := Finfo s true false false false v0 v0.
Definition k_full : mkind unit := MKind [ns_dc] (fun s => s =? "dc")
  [(fa "dc:type", TText upper_codec); (fi "dc:count", TInt 64); (fi "dc:tags", TArr seq_info TStr);
   (fi "dc:title", TAlt true);
   (fi "dc:parts", TArr seq_info (TStruct (StructInfo _ None false) [(fi "foo:part", TInt 64); (fa "dc:on", TBool)]))]
  [VStr ""; VInt 0; VArr [] []; VAlt []; VArr [] []].
Definition ns_foo : namespace := Namespace "foo" u_foo (Some 1).
Definition k_foo : mkind unit := MKind [ns_foo] (fun s => s =? "foo") [(fi "foo:name", TStr)] [VStr ""].
Definition ns_bar : namespace := Namespace "bar" "http://bar.example/" (Some 2).
Definition k_bar : mkind unit := MKind [ns_bar] (fun s => s =? "bar") [(fi "bar:name", TStr)] [VStr ""].
Definition h2 : list reg_op := [(ns_x, []); (ns_xml, []); (ns_rdf, []); (ns_dc, []); (ns_foo, []); (ns_bar, [])].
Definition kinds2 (f : nat) (s : string) : option (mkind unit) :=
  if s =? "dc" then Some k_full else if s =? "foo" then Some k_foo else if s =? "bar" then Some k_bar else None.
Definition model1 : tmodel unit := TModel k_full
  [VStr "Still"; VInt (-12); VArr [VStr " a "; VStr "b"] []; VAlt [AltItem "hello" "en" true; AltItem "hallo" "de" false];
   VArr [VStruct [VInt 0; VBool true]; VStruct [VInt 7; VBool false]] []].
Definition model2 : tmodel unit := TModel k_foo [VStr "me"].
Definition model3 : tmodel unit := TModel k_bar [VStr ""].
Definition of_model (p : string) (m : tmodel unit) : node (tmodel unit) := Node (XName "" p) [] (Some m) "" [].
Definition doc2 : doc (tmodel unit) := Doc "tool" [of_model "foo" model2; of_model "bar" model3; of_model "dc" model1] true "uuid:1" [(u_dc, ns_dc)] [].

Lemma h2_at : forall p ns, get_namespace (registry_of h2) p = Ok ns -> In ns [ns_x; ns_xml; ns_rdf; ns_dc; ns_foo; ns_bar] /\ ns_name ns = p.
Proof.
  intros p ns E. apply get_namespace_ok in E. destruct E as (En & gs & a & b & Eh & _). split; [|exact En].
  assert (K : In (ns, gs) h2) by (rewrite Eh; apply in_or_app; right; now left).
  apply (in_map fst) in K. exact K.
Qed.
Lemma sane_h2 : sane_registry h2.
Proof.
  split; [|split; [reflexivity|split; [reflexivity|split; [reflexivity|]]]].
  - intros a b Ha Hb. cbn in Ha, Hb.
    repeat (destruct Ha as [<-|Ha]); try contradiction; repeat (destruct Hb as [<-|Hb]); try contradiction; split; intros E; try reflexivity; discriminate E.
  - intros o Ho. cbn in Ho. repeat (destruct Ho as [<-|Ho]); try contradiction; cbn; intuition discriminate.
Qed.
Lemma proper p l : free_prefix h2 p -> l <> "" -> proper_name h2 (p ++ ":" ++ l).
Proof. intros H1 H2. exists p, l. auto. Qed.
Lemma free_dc : free_prefix h2 "dc". Proof. split; [cbn; intuition discriminate|eexists; reflexivity]. Qed.
Lemma free_foo : free_prefix h2 "foo". Proof. split; [cbn; intuition discriminate|eexists; reflexivity]. Qed.
Lemma free_bar : free_prefix h2 "bar". Proof. split; [cbn; intuition discriminate|eexists; reflexivity]. Qed.
Lemma split_name p l q m : has_char ":" p = false -> has_char ":" q = false -> p ++ ":" ++ l = q ++ ":" ++ m -> p = q.
Proof.
  intros Hp Hq E. assert (A := f_equal get_prefix E). rewrite !PathFacts.get_prefix_qualified in A; auto.
Qed.
Lemma can_field (m : tmodel unit) p0 : Forall (fun f => exists l, fst f = p0 ++ ":" ++ l) (says v0 m) -> has_char ":" p0 = false ->
  k_can (tm_kind m) p0 = true -> forall p l t, In (p ++ ":" ++ l, t) (says v0 m) -> has_char ":" p = false -> k_can (tm_kind m) p = true.
Proof.
  intros H Hc Ck p l t K Hp. rewrite Forall_forall in H. destruct (H _ K) as (l' & E). cbn [fst] in E.
  apply split_name in E; auto. now subst p.
Qed.

Example C72_hyps : sane_registry h2 /\ storable_doc v0 h2 kinds2 doc2
  /\ map (speaks v0) (models_of doc2) = [true; false; true]
  /\ stored v0 model1 <> model1 /\ stored v0 model2 = model2.
Proof.
  split; [exact sane_h2|]. split; [|split; [vm_compute; reflexivity|split; [vm_compute; discriminate|vm_compute; reflexivity]]].
  split; [|split; [|split]].
  - repeat apply Forall_cons; try apply Forall_nil; (split; [repeat split; discriminate|]); [exact free_foo|exact free_bar|exact free_dc].
  - repeat apply Forall_cons; try apply Forall_nil.
    + split; [repeat constructor|]. split; [repeat split; cbn; try tauto; try (repeat constructor; cbn; intuition discriminate); intros ? [<-|[]]; cbn; intuition discriminate|].
      split; [vm_compute; tauto|]. split; [vm_compute; tauto|].
      split; [repeat apply Forall_cons; try apply Forall_nil; exact (proper "foo" "name" free_foo ltac:(discriminate))|].
      split; [apply (can_field model2 "foo"); [|reflexivity|reflexivity]; repeat constructor; exists "name"; reflexivity|].
      split; [exists ns_foo; repeat split|].
      intros p ns E C. apply String.eqb_eq in C. subst p. injection E as <-. exists 1. split; reflexivity.
    + split; [repeat constructor|]. split; [repeat split; cbn; try tauto; try (repeat constructor; cbn; intuition discriminate); intros ? [<-|[]]; cbn; intuition discriminate|].
      split; [vm_compute; tauto|]. split; [vm_compute; tauto|].
      split; [apply Forall_nil|].
      split; [apply (can_field model3 "bar"); [constructor|reflexivity|reflexivity]|].
      split; [exists ns_bar; repeat split|].
      intros p ns E C. apply String.eqb_eq in C. subst p. injection E as <-. exists 2. split; reflexivity.
    + split; [repeat constructor|]. split.
      { apply TypeFacts.wf_struct. split; [repeat constructor; cbn; intuition discriminate|]. split.
        - intros f Hf. cbn in Hf. repeat destruct Hf as [<-|Hf]; try contradiction; cbn; intuition discriminate.
        - repeat apply Forall_cons; try apply Forall_nil; cbn; try tauto. split; [tauto|]. split; [repeat constructor; cbn; intuition discriminate|].
          split; [|tauto]. intros f [<-|[<-|[]]]; cbn; intuition discriminate. }
      split.
      { unfold record_ty, record_of. rewrite TypeFacts.storable_struct.
        assert (A : alt_ok true [AltItem "hello" "en" true; AltItem "hallo" "de" false]).
        { split; [discriminate|]. right. exists [], (AltItem "hello" "en" true), [AltItem "hallo" "de" false].
          repeat split; try (repeat constructor; discriminate). right. repeat split; try discriminate. intros ? []. }
        cbn [TypeFacts.fields_ok k_fields k_full tm_kind tm_vals model1]. repeat (split; [intros _; first [exact A | vm_compute; repeat split; intros; try discriminate]|]); exact I. }
      split; [vm_compute; tauto|].
      split.
      { repeat apply Forall_cons; try apply Forall_nil; first [ exact (proper "dc" "type" free_dc ltac:(discriminate)) | exact (proper "dc" "count" free_dc ltac:(discriminate))
          | exact (proper "dc" "tags" free_dc ltac:(discriminate)) | exact (proper "dc" "title" free_dc ltac:(discriminate)) | exact (proper "dc" "parts" free_dc ltac:(discriminate))
          | exact (proper "foo" "part" free_foo ltac:(discriminate)) | exact (proper "dc" "on" free_dc ltac:(discriminate)) ]. }
      split.
      { apply (can_field model1 "dc"); [|reflexivity|reflexivity].
        repeat constructor; [exists "type"|exists "count"|exists "tags"|exists "title"|exists "parts"]; reflexivity. }
      split; [exists ns_dc; repeat split|].
      intros p ns E C. apply String.eqb_eq in C. subst p. injection E as <-. exists 0. split; reflexivity.
  - repeat constructor; intros p A B; apply String.eqb_eq in A, B; subst; discriminate.
  - intros u ns [[= <- <-]|[]]. reflexivity.
Qed.

(* ---- C73 ---- *)
(* The same for the JSON form, with the members of every JSON object in any order, for models JSON can hold
   (json_model in SpecTrip.v). The toolkit name is kept too. *)
Theorem C73_models_survive_json_partial : forall X ver h (kinds : nat -> string -> option (mkind X)) d,
  sane_registry h -> storable_doc ver h kinds d -> Forall (json_model ver) (models_of d) ->
  forall sync_from x, exists j,
    to_json ver (registry_of h) d = Ok j
    /\ forall j', same_jdoc j j' -> exists d',
         from_json ver (registry_of h) kinds sync_from x j' = sync_from d'
         /\ Forall bare_model (d_nodes d')
         /\ Permutation (models_of d') (map (stored ver) (filter (speaks ver) (models_of d)))
         /\ d_about d' = d_about d /\ (d_toolkit d <> "" -> d_toolkit d' = d_toolkit d).
Proof. intros X ver h kinds d Hs Hd Hj sync_from x. exact (doc_json_trip ver h kinds d Hs Hd Hj sync_from x). Qed.
Print Assumptions C73_models_survive_json_partial.

Lemma reorder_refl j : reorder j j.
Proof.
  induction j as [j Hj|l Hl|m Hm] using PanicFacts.json_ind'.
  - destruct j; try contradiction; constructor.
  - constructor. induction Hl; constructor; auto.
  - apply (ro_obj m m); [apply Permutation_refl|]. induction Hm; constructor; auto.
Qed.
(* the document of C72_hyps *)
Example C73_hyps : Forall (json_model v0) (models_of doc2)
  /\ exists j j', to_json v0 (registry_of h2) doc2 = Ok j /\ same_jdoc j j' /\ j' <> j.
Proof.
  split.
  - repeat apply Forall_cons; try apply Forall_nil; (split; [vm_compute; tauto|]).
    + split; [|repeat constructor]. vm_compute. repeat split; try (repeat constructor; cbn; intuition discriminate); cbn; intuition discriminate.
    + split; [|repeat constructor]. vm_compute. repeat split; try constructor; tauto.
    + split; [|repeat constructor].
      assert (A : alts_ok [("x-default", "hello"); ("en", "hello"); ("de", "hallo")]).
      { split; [discriminate|]. split; [repeat constructor; discriminate|]. right. exists [], "hello", "en", [("de", "hallo")].
        repeat split; try discriminate. repeat constructor; discriminate. }
      let t := eval vm_compute in (tree_of v0 (record_ty (tm_kind model1)) (record_of model1)) in change (json_ok t).
      cbn [json_ok snd map fst].
      repeat match goal with
             | |- alts_ok _ => exact A
             | |- _ /\ _ => split
             | |- True => exact I
             | |- flat_value _ => exact I
             | |- NoDup _ => repeat constructor; cbn; intuition discriminate
             | |- Forall member_name _ => repeat apply Forall_cons; try apply Forall_nil; (split; [discriminate|cbn; intuition discriminate])
             | |- ~ _ => cbn; intuition discriminate
             end.
  - eexists. eexists (JDoc "uuid:1" "tool" [("bar", "http://bar.example/"); ("foo", u_foo); ("dc", u_dc)] _). split; [vm_compute; reflexivity|]. split.
    + split; [reflexivity|]. split; [reflexivity|]. split; [apply perm_swap|]. cbn [j_models].
      eapply ro_obj; [apply perm_swap|]. repeat apply Forall2_cons; try apply Forall2_nil; (split; [reflexivity|apply reorder_refl]).
    + discriminate.
Qed.

(* A model whose properties hold no text at all (written because of the flag "empty") survives XML but not JSON:
   IsZero looks at texts only. *)
Definition k_blank : mkind unit := MKind [ns_foo] (fun s => s =? "foo") [(Finfo "foo:name" false true false false v0 v0, TStr)] [VStr ""].
Definition kinds3 (f : nat) (s : string) : option (mkind unit) := if s =? "foo" then Some k_blank else None.
Definition doc3 : doc (tmodel unit) := Doc "tool" [of_model "foo" (TModel k_blank [VStr ""])] true "uuid:1" [] [].
Theorem C73_blank_models_lost_refuted :
  sane_registry h2 /\ storable_doc v0 h2 kinds3 doc3 /\ filter (speaks v0) (models_of doc3) = models_of doc3
  /\ exists j, to_json v0 (registry_of h2) doc3 = Ok j /\ j_models j = []
       /\ forall sync_from x, exists d', from_json v0 (registry_of h2) kinds3 sync_from x j = sync_from d' /\ models_of d' = [].
Proof.
  split; [exact sane_h2|]. split; [|split; [reflexivity|]].
  - split; [|split; [|split]].
    + repeat apply Forall_cons; try apply Forall_nil; (split; [repeat split; discriminate|]). exact free_foo.
    + repeat apply Forall_cons; try apply Forall_nil.
      split; [repeat constructor|]. split; [repeat split; cbn; try tauto; try (repeat constructor; cbn; intuition discriminate); intros ? [<-|[]]; cbn; intuition discriminate|].
      split; [vm_compute; tauto|]. split; [vm_compute; tauto|].
      split; [repeat apply Forall_cons; try apply Forall_nil; exact (proper "foo" "name" free_foo ltac:(discriminate))|].
      split; [apply (can_field (TModel k_blank [VStr ""]) "foo"); [|reflexivity|reflexivity]; repeat constructor; exists "name"; reflexivity|].
      split; [exists ns_foo; repeat split|].
      intros p ns E C. apply String.eqb_eq in C. subst p. injection E as <-. exists 1. split; reflexivity.
    + repeat constructor.
    + intros u ns [].
  - eexists. split; [vm_compute; reflexivity|]. split; [reflexivity|]. intros sync_from x. eexists. split; reflexivity.
Qed.
Print Assumptions C73_blank_models_lost_refuted.
