(* C81-C84: documents of the models the library comes with *)
From Coq Require Import List Arith ZArith Bool Ascii String Permutation.
From Verif Require Import GoStr GoMap Spec SpecFacts Names Semver RegistryM SpecRegistry RegistryFacts NodeM DocM ArrayM TypeM TagM DecodeM JsonM
  SpecType SpecTree SpecJson SpecTrip ModelTypes SpecLib TripSpecFacts JsonSpecFacts LibFacts LibCheck.
Import ListNotations.
Local Open Scope string_scope.

(* ---- C81 ---------------------------------------------------------------------------------------------- *)

(* Whatever the text forms of its types, every document of models of the library (ModelTypes.v: all types of /repo/models
   with their tags) whose values can be stored (SpecLib.v) survives being written as XML and read back: the models come back
   with the values of [stored] (SpecTrip.v), as far as they say anything, and there are no others. *)
Theorem C81_library_survives_xml_partial : forall X (cdc : string -> codec X) den_zero ver h kinds d,
  library_program cdc den_zero h kinds -> library_doc cdc den_zero ver h d ->
  forall sync_from x, exists p d',
    encode ver (registry_of h) d = Ok p
    /\ decode ver (registry_of h) kinds sync_from x (xml_read [] p) = sync_from d'
    /\ Forall bare_model (d_nodes d')
    /\ Permutation (models_of d') (map (stored ver) (filter (speaks ver) (models_of d)))
    /\ (filter (speaks ver) (models_of d) <> [] -> d_about d' = d_about d).
Proof.
  intros X cdc den_zero ver h kinds d Hp Hd sync_from x.
  exact (doc_xml_trip ver h kinds d (library_sane cdc den_zero h kinds Hp) (lib_doc cdc den_zero ver h kinds Hp d Hd) sync_from x).
Qed.
Print Assumptions C81_library_survives_xml_partial.

(* An example: Dublin Core, Media Management with references and a history, and iXML. Types with a text form hold texts. *)
Definition plain (s : string) : codec unit :=
  Codec _ (fun v => match v with VStr s => Ok (Some s) | _ => Err "type" end) (fun _ s => Ok (VStr (trim_space s))) (VStr "")
        (fun v => match v with VStr "" => true | _ => false end) true.
Definition no_den (v : gval unit) : bool := match v with VStr "" => true | _ => false end.
Definition with_fields (fs : list (finfo * ty unit)) (init : list (gval unit)) (l : list (string * gval unit)) : list (gval unit) :=
  map (fun fi => match find (fun p => fst p =? f_name (fst (fst fi))) l with Some p => snd p | None => snd fi end) (combine fs init).
Definition fill (k : mkind unit) (l : list (string * gval unit)) : tmodel unit := TModel k (with_fields (k_fields k) (k_init k) l).
Definition record (r : list (@gofield unit)) (l : list (string * gval unit)) : gval unit :=
  VStruct (with_fields (fields r) (map (fun f => zero (snd f)) (fields r)) l).
Definition lib_h : list reg_op := (library ++ core)%list.
Definition lib_k := library_kinds plain no_den.
Definition m_dc := fill (k_dc_DublinCore plain)
  [("dc:creator", VArr [VStr "A "; VStr "B"] []); ("dc:title", VAlt [AltItem "T" "en" true; AltItem "Titel" "de" false]); ("dc:source", VStr "s")].
Definition m_mm := fill (k_xmpmm_XmpMM plain)
  [("xmpMM:DocumentID", VStr "1"); ("xmpMM:DerivedFrom", VPtr (record (fs_xmpmm_ResourceRef plain) [("stRef:documentID", VStr "0"); ("stRef:manageUI", VStr "u")]));
   ("xmpMM:Ingredients", VArr [VPtr (record (fs_xmpmm_ResourceRef plain) [("stRef:filePath", VStr "f")])] [])].
Definition m_ixml := fill (k_ixml_IXML plain) [("iXML:version", VStr ""); ("iXML:take", VInt 3)].
Definition lib_node (p : string) (m : tmodel unit) : node (tmodel unit) := Node (XName "" p) [] (Some m) "" [].
Definition lib_d : doc (tmodel unit) := Doc "" [lib_node "dc" m_dc; lib_node "xmpMM" m_mm; lib_node "iXML" m_ixml] true "a" [] [].

Lemma lib_program : library_program plain no_den lib_h lib_k.
Proof.
  split; [|split; [|split]].
  - unfold lib_h. rewrite !map_app. intros x H. apply in_app_iff. apply in_app_iff in H. tauto.
  - assert (N : NoDup (map ns_name (map fst lib_h))) by (apply nodupb_nodup; vm_compute; reflexivity).
    assert (U : NoDup (map ns_uri (map fst lib_h))) by (apply nodupb_nodup; vm_compute; reflexivity).
    assert (G : forall {A} (g : A -> string) l, NoDup (map g l) -> forall a b, In a l -> In b l -> g a = g b -> a = b).
    { intros A g l. induction l as [|x l IH]; intros Nd a b Ha Hb E; [contradiction|]. inversion Nd as [|? ? N1 N2]; subst.
      destruct Ha as [<-|Ha], Hb as [<-|Hb]; auto; elim N1; [rewrite E|rewrite <- E]; now apply in_map. }
    intros a b Ha Hb [E|E]; [exact (G _ ns_name _ N a b Ha Hb E)|exact (G _ ns_uri _ U a b Ha Hb E)].
  - apply Forall_forall. unfold lib_h, library, core. cbn [map fst List.app]. repeat apply Forall_cons; try apply Forall_nil; cbn; intuition discriminate.
  - intros f p k H. exact H.
Qed.
Definition v0 : version := Version 0 0 0.
Ltac find_kind k l :=
  lazymatch l with
  | k :: _ => left; reflexivity
  | _ :: ?r => right; find_kind k r
  end.
Lemma not_mixed ns (P : Prop) : inb (ns_name ns) mixed = false -> Exists (fun ns => In (ns_name ns) mixed) [ns] -> P.
Proof. intros H E. apply Exists_cons in E. destruct E as [E|E]; [|inversion E]. apply inb_in in E. congruence. Qed.
Ltac lib_model m k ns :=
  split; [change (In k (library_models plain no_den)); unfold library_models; lazymatch goal with |- In _ ?l => find_kind k l end|];
  change (k_namespaces (tm_kind m)) with [ns];
  split; [apply Forall_cons; [unfold lib_h, library, core; cbn [map fst List.app]; repeat (first [left; reflexivity|right])|apply Forall_nil]|];
  split; [apply storableb_ok; vm_compute; reflexivity|]; split; [apply snugb_ok; vm_compute; reflexivity|];
  apply not_mixed; reflexivity.
Example C81_hyps : library_program plain no_den lib_h lib_k /\ library_doc plain no_den v0 lib_h lib_d
  /\ map (speaks v0) (models_of lib_d) = [true; true; true] /\ exists m, In m (models_of lib_d) /\ stored v0 m <> m.
Proof.
  split; [exact lib_program|]. split; [|split; [vm_compute; reflexivity|]].
  2:{ exists m_ixml. split; [right; right; now left|]. intros E. apply (f_equal (fun m => hd VNil (tm_vals m))) in E. vm_compute in E. discriminate. }
  split; [|split; [|split]].
  - repeat apply Forall_cons; try apply Forall_nil; (split; [repeat split; discriminate|]); (split; [cbn; intuition discriminate|eexists; vm_compute; reflexivity]).
  - apply Forall_cons; [|apply Forall_cons; [|apply Forall_cons; [|apply Forall_nil]]]; [lib_model m_dc (k_dc_DublinCore plain) ns_dc_NsDc|lib_model m_mm (k_xmpmm_XmpMM plain) ns_xmpmm_NsXmpMM|lib_model m_ixml (k_ixml_IXML plain) ns_ixml_NsIXML].
  - cbn [map]. repeat constructor; cbn; intuition discriminate.
  - intros u ns [].
Qed.

(* What is not covered by the theorem above, and lost. A document with one model, written, read back: *)
Definition one (p : string) (m : tmodel unit) : doc (tmodel unit) := Doc "" [lib_node p m] true "a" [] [].
Definition ok_sync (d : doc (tmodel unit)) : doc (tmodel unit) * result unit := (d, Ok tt).
Definition there_and_back (d : doc (tmodel unit)) : result (list (tmodel unit)) :=
  bind (encode v0 (registry_of lib_h) d) (fun p =>
    let '(d', r) := decode v0 (registry_of lib_h) lib_k ok_sync d (xml_read [] p) in bind r (fun _ => Ok (models_of d'))).
(* (prefix of the model, its properties) *)
Definition content (l : list (tmodel unit)) : list (list string * list (string * pval)) :=
  map (fun m => (map ns_name (k_namespaces (tm_kind m)), says v0 m)) l.

(* MarkerTypeList (models/xmp_dm/types.go:433) has no methods to write or read it: the types of a marker are written as a list that
   is not read back, the type of a track cannot be written at all. *)
Definition m_markers := fill (k_xmpdm_XmpDM plain no_den) [("xmpDM:markers",
  VArr [record (fs_xmpdm_Marker plain) [("xmpDM:name", VStr "a"); ("xmpDM:type", VArr [VStr "Chapter"; VStr "Cue"] [])]] [])].
Theorem C81_marker_types_lost_refuted :
  says v0 m_markers = [("xmpDM:markers", PList [PRecord [("xmpDM:name", PLeaf "a"); ("xmpDM:type", PLeaf "")]])]
  /\ (exists p, encode v0 (registry_of lib_h) (one "xmpDM" m_markers) = Ok p)
  /\ exists l, there_and_back (one "xmpDM" m_markers) = Ok l
       /\ content l = [(["xmpDM"], [("xmpDM:markers", PList [PRecord [("xmpDM:name", PLeaf "a")]])])].
Proof.
  split; [vm_compute; reflexivity|]. split; [eexists; vm_compute; reflexivity|].
  destruct (there_and_back (one "xmpDM" m_markers)) as [l|e|] eqn:E; [|exfalso; revert E; vm_compute; discriminate|exfalso; revert E; vm_compute; discriminate].
  exists l. split; [reflexivity|]. apply (f_equal (fun r => match r with Ok l => content l | _ => [] end)) in E. rewrite <- E. vm_compute. reflexivity.
Qed.
Print Assumptions C81_marker_types_lost_refuted.
Definition m_tracks := fill (k_xmpdm_XmpDM plain no_den) [("xmpDM:Tracks",
  VArr [record (fs_xmpdm_Track plain) [("xmpDM:trackName", VStr "a"); ("xmpDM:trackType", VArr [VStr "Chapter"] [])]] [])].
Theorem C81_track_type_not_writable_refuted : encode v0 (registry_of lib_h) (one "xmpDM" m_tracks) = Err "xmp: no method for marshalling type".
Proof. vm_compute. reflexivity. Qed.
Print Assumptions C81_track_type_not_writable_refuted.
(* A field of another namespace comes back in a model of that namespace, and is empty in its own. *)
Definition m_dji := fill (k_dji_DJI plain) [("drone-dji:SpeedX", VStr "1"); ("tiff:Model", VStr "FC350")].
Theorem C81_foreign_field_moves_refuted :
  content [m_dji] = [(["drone-dji"], [("drone-dji:SpeedX", PLeaf "1"); ("tiff:Model", PLeaf "FC350")])]
  /\ exists l, there_and_back (one "drone-dji" m_dji) = Ok l
       /\ content l = [(["drone-dji"], [("drone-dji:SpeedX", PLeaf "1")]); (["tiff"], [("tiff:Model", PLeaf "FC350")])].
Proof.
  split; [vm_compute; reflexivity|].
  destruct (there_and_back (one "drone-dji" m_dji)) as [l|e|] eqn:E; [|exfalso; revert E; vm_compute; discriminate|exfalso; revert E; vm_compute; discriminate].
  exists l. split; [reflexivity|]. apply (f_equal (fun r => match r with Ok l => content l | _ => [] end)) in E. rewrite <- E. vm_compute. reflexivity.
Qed.
Print Assumptions C81_foreign_field_moves_refuted.

(* ---- C82 ---------------------------------------------------------------------------------------------- *)

(* The same through JSON, with the members of all objects in any order: beyond C81 only the languages of alternatives, lists of
   type Alt and properties without any text need care (json_library in SpecLib.v). *)
Theorem C82_library_survives_json_partial : forall X (cdc : string -> codec X) den_zero ver h kinds d,
  library_program cdc den_zero h kinds -> library_doc cdc den_zero ver h d -> Forall (json_library ver) (models_of d) ->
  forall sync_from x, exists j,
    to_json ver (registry_of h) d = Ok j
    /\ forall j', same_jdoc j j' -> exists d',
         from_json ver (registry_of h) kinds sync_from x j' = sync_from d'
         /\ Forall bare_model (d_nodes d')
         /\ Permutation (models_of d') (map (stored ver) (filter (speaks ver) (models_of d)))
         /\ d_about d' = d_about d /\ (d_toolkit d <> "" -> d_toolkit d' = d_toolkit d).
Proof.
  intros X cdc den_zero ver h kinds d Hp Hd Hj sync_from x.
  apply (doc_json_trip ver h kinds d (library_sane cdc den_zero h kinds Hp) (lib_doc cdc den_zero ver h kinds Hp d Hd)).
  destruct Hd as (_ & Hd & _). rewrite Forall_forall in *. intros m K. exact (lib_json cdc den_zero ver h m (Hd m K) (Hj m K)).
Qed.
Print Assumptions C82_library_survives_json_partial.

Example C82_hyps : Forall (json_library v0) (models_of lib_d) /\ exists j, to_json v0 (registry_of lib_h) lib_d = Ok j /\ List.length (j_models j) = 3.
Proof.
  split; [|eexists; split; vm_compute; reflexivity].
  apply Forall_cons; [|apply Forall_cons; [|apply Forall_cons; [|apply Forall_nil]]]; (split; [apply arraysb_ok; vm_compute; reflexivity|]);
    (split; [apply altsb_ok; vm_compute; reflexivity|apply forallb_Forall_snd; vm_compute; reflexivity]).
Qed.

(* ---- C83 ---------------------------------------------------------------------------------------------- *)

(* Records that say themselves whether they are empty (IsZero) say so only when all their fields are. *)
Theorem C83_empty_records_partial : forall X (cdc : string -> codec X) den_zero i fs vs,
  In (TStruct i fs) (own_zero_records cdc den_zero) -> blank_value (TStruct i fs) (VStruct vs) = true ->
  forall f t v, In (f, t, v) (combine fs vs) -> blank_value t v = true.
Proof. intros X. exact own_zero_sound. Qed.
Print Assumptions C83_empty_records_partial.
Example C83_hyps : exists i fs vs, t_xmpbase_Thumbnail = TStruct i fs /\ blank_value (TStruct i fs) (@VStruct unit vs) = true /\ List.length (combine fs vs) = 4.
Proof. eexists _, _, [VStr ""; VInt 0; VInt 0; VStr ""]. split; [reflexivity|]. split; vm_compute; reflexivity. Qed.
(* ResourceRef forgets one field: a reference that has only a ManageUI is not written, a MediaTime ignores the numerator of its scale. *)
Definition m_ui := fill (k_xmpmm_XmpMM plain) [("xmpMM:DocumentID", VStr "1");
  ("xmpMM:DerivedFrom", VPtr (record (fs_xmpmm_ResourceRef plain) [("stRef:manageUI", VStr "http://example.com")]))].
Theorem C83_manage_ui_refuted :
  blank_value (t_xmpmm_ResourceRef plain) (record (fs_xmpmm_ResourceRef plain) [("stRef:manageUI", VStr "http://example.com")]) = true
  /\ says v0 m_ui = [("xmpMM:DocumentID", PLeaf "1")]
  /\ exists l, there_and_back (one "xmpMM" m_ui) = Ok l /\ content l = [(["xmpMM"], [("xmpMM:DocumentID", PLeaf "1")])].
Proof.
  split; [vm_compute; reflexivity|]. split; [vm_compute; reflexivity|].
  destruct (there_and_back (one "xmpMM" m_ui)) as [l|e|] eqn:E; [|exfalso; revert E; vm_compute; discriminate|exfalso; revert E; vm_compute; discriminate].
  exists l. split; [reflexivity|]. apply (f_equal (fun r => match r with Ok l => content l | _ => [] end)) in E. rewrite <- E. vm_compute. reflexivity.
Qed.
Print Assumptions C83_manage_ui_refuted.
(* with any Rational whose denominator is 0, whatever its numerator *)
Theorem C83_media_time_refuted : forall X (cdc : string -> codec X) den_zero scale, den_zero scale = true ->
  blank_value (t_xmpdm_MediaTime cdc den_zero) (VStruct [scale; VInt 0]) = true.
Proof. intros X cdc den_zero scale H. cbn. exact H. Qed.
Print Assumptions C83_media_time_refuted.
