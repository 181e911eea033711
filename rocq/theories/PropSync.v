(* C84-C91: the models of the library tell each other what they know, when a document is saved and when it is read *)
From Coq Require Import List Arith ZArith Bool Ascii String.
From Verif Require Import GoStr GoMap Names Semver RegistryM PVList NodeM DocM ArrayM TypeM TagM DecodeM ModelTypes SpecTrip SpecLib SpecSync SyncModelsM
  SyncSpecFacts SyncSavedFacts SyncAgainFacts SyncThmFacts SyncReadFacts SyncReadThm SyncSelfFacts PropLib.
Import ListNotations.
Local Open Scope string_scope.

(* the program can create the models of the library *)
Definition makes_library {X} (cdc : string -> codec X) den_zero (kinds : nat -> string -> option (mkind X)) : Prop :=
  forall f p k, library_kinds cdc den_zero f p = Some k -> kinds f p = Some k.
(* a date, and a truth value, is unset in a new model *)
Definition unset_at_first {X} (cdc : string -> codec X) : Prop :=
  c_empty (cdc "xmp.Date") (c_zero (cdc "xmp.Date")) = true /\ c_empty (cdc "xmp.Bool") (c_zero (cdc "xmp.Bool")) = true.

(* the examples: types with a text form hold texts (plain), a conversion gives its first argument, native fields without xmp tag are unset *)
Definition conv1 (s : string) (l : list (gval unit)) : result (gval unit) := match l with v :: _ => Ok v | [] => Err "unset" end.
Definition no_genre (s : string) : option string := None.
Definition grow1 (n : nat) : nat := S n.
Definition lops := lib_ops lib_k grow1 (fun l => l) conv1.
Definition save (d : doc (tmodel unit)) : doc (tmodel unit) * result unit := sync_to_xmp lops d.
Definition load (d : doc (tmodel unit)) : doc (tmodel unit) * result unit := sync_from_xmp lib_k grow1 (fun l => l) conv1 no_genre d.
Definition doc_of (l : list (string * tmodel unit)) : doc (tmodel unit) := Doc "" (map (fun p => lib_node (fst p) (snd p)) l) true "a" [] [].
Definition alt1 (s : string) : gval unit := VAlt [AltItem s "" true].
Lemma lib_makes : makes_library plain no_den lib_k. Proof. intros f p k H. exact H. Qed.
Lemma plain_unset : unset_at_first plain. Proof. split; reflexivity. Qed.

Definition s_dc := fill (k_dc_DublinCore plain) [("dc:title", alt1 "B"); ("dc:source", VStr "s")].
Definition s_xmp := fill (k_xmpbase_XmpBase plain) [("xmp:CreateDate", VStr "2001"); ("xmp:CreatorTool", VStr "tool")].
Definition s_dm := fill (k_xmpdm_XmpDM plain no_den) [("xmpDM:logComment", VStr "keep"); ("xmpDM:genre", VStr "Jazz, Pop")].
Definition s_pdf := fill (k_pdf_PDFInfo plain) [("dc:title", alt1 "A"); ("dc:creator", VArr [VStr "me"] []); ("pdf:Copyright", VStr "(c)"); ("xmp:CreateDate", VStr "1999")].
Definition s_id3 := fill (k_id3_ID3 plain) [("id3:recordingTime", VStr "2002"); ("id3:albumTitle", VStr "album"); ("id3:contentType", VArr [VStr "Rock"] [])].
Definition s_ixml := fill (k_ixml_IXML plain) [("iXML:take", VInt 3); ("iXML:note", VStr "")].
Definition s_exif := fill (k_exif_ExifInfo plain) [("xmp:CreatorTool", VStr "own"); ("tiff:Make", VStr "m")].
Definition s_tiff := fill (k_tiff_TiffInfo plain) [("tiff:Make", VStr "maker"); ("tiff:ImageWidth", VInt 7)].
Definition s_doc := doc_of [("dc", s_dc); ("pdf", s_pdf); ("xmp", s_xmp); ("id3", s_id3)].
Ltac find_kind k l := lazymatch l with k :: _ => left; reflexivity | _ :: ?r => right; find_kind k r end.
Ltac a_model k := split; [change (In k (library_models plain no_den)); unfold library_models; lazymatch goal with |- In _ ?l => find_kind k l end|vm_compute; reflexivity].
Lemma done (p : doc (tmodel unit) * result unit) : snd p = Ok tt -> p = (fst p, Ok tt). Proof. destruct p. cbn. now intros ->. Qed.
Lemma s_library : library_values plain no_den s_doc.
Proof.
  apply Forall_cons; [a_model (k_dc_DublinCore plain)|]. apply Forall_cons; [a_model (k_pdf_PDFInfo plain)|].
  apply Forall_cons; [a_model (k_xmpbase_XmpBase plain)|]. apply Forall_cons; [a_model (k_id3_ID3 plain)|]. apply Forall_nil.
Qed.
Lemma s_saved : save s_doc = (fst (save s_doc), Ok tt). Proof. apply done. vm_compute. reflexivity. Qed.

(* ---- C84 ---------------------------------------------------------------------------------------------- *)

(* What a document says in Dublin Core about title, creator, description and rights, and in the basic model about the date of the
   last change and the tool (the rows of [copied]), it still says after saving, whatever else it holds, and even if saving fails. *)
Theorem C84_saving_keeps_what_is_said_partial : forall X (cdc : string -> codec X) den_zero kinds growth sortf conv d d' r s v,
  makes_library cdc den_zero kinds -> unset_at_first cdc -> library_values cdc den_zero d ->
  sync_to_xmp (lib_ops kinds growth sortf conv) d = (d', r) -> In s (copied cdc) ->
  said d (sh_prefix s) (sh_name s) = Some v -> said d' (sh_prefix s) (sh_name s) = Some v.
Proof. intros X cdc den_zero kinds growth sortf conv d d' r s v Hk Hz Hl H. exact (said_kept cdc den_zero kinds growth sortf conv Hk Hz d d' r s v Hl H). Qed.
Print Assumptions C84_saving_keeps_what_is_said_partial.
Example C84_hyps : makes_library plain no_den lib_k /\ unset_at_first plain /\ library_values plain no_den s_doc
  /\ save s_doc = (fst (save s_doc), Ok tt)
  /\ said s_doc "dc" "dc:title" = Some (alt1 "B") /\ said (fst (save s_doc)) "dc" "dc:title" = Some (alt1 "B").
Proof.
  split; [exact lib_makes|]. split; [exact plain_unset|]. split; [exact s_library|]. split; [exact s_saved|]. split; vm_compute; reflexivity.
Qed.
(* Not so the date of creation: an ID3 model with a recording time replaces it. And not the media properties: an iXML model replaces
   them even by empty values. *)
Theorem C84_creation_date_refuted : exists d d', library_values plain no_den d /\ save d = (d', Ok tt)
  /\ said d "xmp" "xmp:CreateDate" = Some (VStr "2001") /\ said d' "xmp" "xmp:CreateDate" = Some (VStr "2002").
Proof.
  exists s_doc, (fst (save s_doc)). split; [exact s_library|]. split; [exact s_saved|]. split; vm_compute; reflexivity.
Qed.
Print Assumptions C84_creation_date_refuted.
Definition s_audio := doc_of [("xmpDM", s_dm); ("iXML", s_ixml)].
Theorem C84_comment_refuted : exists d d', library_values plain no_den d /\ save d = (d', Ok tt)
  /\ said d "xmpDM" "xmpDM:logComment" = Some (VStr "keep") /\ said d' "xmpDM" "xmpDM:logComment" = None.
Proof.
  exists s_audio, (fst (save s_audio)). split.
  { apply Forall_cons; [a_model (k_xmpdm_XmpDM plain no_den)|]. apply Forall_cons; [a_model (k_ixml_IXML plain)|]. apply Forall_nil. }
  split; [apply done; vm_compute; reflexivity|]. split; vm_compute; reflexivity.
Qed.
Print Assumptions C84_comment_refuted.

(* ---- C85 ---------------------------------------------------------------------------------------------- *)

(* After saving a changed document, each of the 22 properties that models of the library share (copied and overwritten in SpecSync.v)
   says: the last value demanded by a model; or else what it said before; or else the first set value that a model proposes. *)
Theorem C85_saving_fills_shared_properties_partial : forall X (cdc : string -> codec X) den_zero kinds growth sortf conv d d' s,
  makes_library cdc den_zero kinds -> unset_at_first cdc -> library_values cdc den_zero d -> d_dirty d = true ->
  sync_to_xmp (lib_ops kinds growth sortf conv) d = (d', Ok tt) -> In s (copied cdc ++ overwritten cdc conv)%list ->
  said d' (sh_prefix s) (sh_name s) = chosen s d.
Proof. intros X cdc den_zero kinds growth sortf conv d d' s Hk Hz. exact (said_after cdc den_zero kinds growth sortf conv Hk Hz d d' s). Qed.
Print Assumptions C85_saving_fills_shared_properties_partial.
Example C85_hyps : library_values plain no_den s_doc /\ d_dirty s_doc = true /\ save s_doc = (fst (save s_doc), Ok tt)
  /\ map (fun s => chosen s s_doc) (copied plain)
     = [Some (alt1 "B"); Some (VArr [VStr "me"] []); None; Some (alt1 "(c)"); None; Some (VStr "tool")]
  /\ said (fst (save s_doc)) "xmpDM" "xmpDM:album" = Some (VStr "album")
  /\ said (fst (save s_doc)) "xmpDM" "xmpDM:genre" = Some (VStr "Rock").
Proof. split; [exact s_library|]. split; [reflexivity|]. split; [exact s_saved|]. repeat split; vm_compute; reflexivity. Qed.

(* ---- C86 ---------------------------------------------------------------------------------------------- *)

(* Saving again after marking the document as changed succeeds, and changes nothing and adds nothing. *)
Theorem C86_saving_again_changes_nothing_partial : forall X (cdc : string -> codec X) den_zero kinds growth sortf conv d d' d'' r,
  makes_library cdc den_zero kinds -> library_values cdc den_zero d -> d_dirty d = true ->
  sync_to_xmp (lib_ops kinds growth sortf conv) d = (d', Ok tt) ->
  sync_to_xmp (lib_ops kinds growth sortf conv) (set_dirty d') = (d'', r) ->
  r = Ok tt /\ same_but cdc den_zero (fun _ _ => False) [] d' d''.
Proof. intros X cdc den_zero kinds growth sortf conv d d' d'' r Hk. exact (saved_again cdc den_zero kinds growth sortf conv Hk d d' d'' r). Qed.
Print Assumptions C86_saving_again_changes_nothing_partial.
Example C86_hyps : library_values plain no_den s_doc /\ d_dirty s_doc = true /\ save s_doc = (fst (save s_doc), Ok tt)
  /\ List.length (d_nodes (fst (save s_doc))) = 5 /\ snd (save (set_dirty (fst (save s_doc)))) = Ok tt.
Proof. split; [exact s_library|]. split; [reflexivity|]. split; [exact s_saved|]. split; vm_compute; reflexivity. Qed.

(* ---- C87 ---------------------------------------------------------------------------------------------- *)

(* Saving changes only the properties listed in saving_changes (SpecSync.v), whether it succeeds or not: all other properties, nodes and
   their order stay, and the only new nodes are Dublin Core, basic, media and rights models, if the document had none. *)
Theorem C87_saving_changes_nothing_else_partial : forall X (cdc : string -> codec X) den_zero kinds growth sortf conv d d' r,
  makes_library cdc den_zero kinds -> library_values cdc den_zero d -> sync_to_xmp (lib_ops kinds growth sortf conv) d = (d', r) ->
  same_but cdc den_zero (saving_changes cdc conv) ["dc"; "xmp"; "xmpDM"; "xmpRights"] d d'.
Proof. intros X cdc den_zero kinds growth sortf conv d d' r Hk. exact (saved_same cdc den_zero kinds growth sortf conv Hk d d' r). Qed.
Print Assumptions C87_saving_changes_nothing_else_partial.
Example C87_hyps : library_values plain no_den s_doc /\ save s_doc = (fst (save s_doc), Ok tt)
  /\ ~ saving_changes plain conv1 s_dc "dc:source" /\ ~ saving_changes plain conv1 s_pdf "dc:title"
  /\ saving_changes plain conv1 s_dc "dc:creator".
Proof.
  split; [exact s_library|]. split; [exact s_saved|].
  split; [|split]; [intros [H|[[H _]|[[H _]|[H _]]]]; try discriminate..|].
  - repeat (apply Exists_cons in H; destruct H as [[H1 H2]|H]; [revert H1 H2; vm_compute; discriminate|]). inversion H.
  - repeat (apply Exists_cons in H; destruct H as [[H1 H2]|H]; [revert H1 H2; vm_compute; discriminate|]). inversion H.
  - left. right. left. split; reflexivity.
Qed.

(* ---- C88 ---------------------------------------------------------------------------------------------- *)

(* If conversions do not fail, saving a changed document succeeds exactly if no ID3 model has a date and a time of ID3 v2.3 but
   no recording time. *)
Theorem C88_saving_succeeds_partial : forall X (cdc : string -> codec X) den_zero kinds growth sortf conv d d' r,
  makes_library cdc den_zero kinds -> unset_at_first cdc -> (forall s v l, exists w, conv s (v :: l) = Ok w) -> library_values cdc den_zero d -> d_dirty d = true ->
  sync_to_xmp (lib_ops kinds growth sortf conv) d = (d', r) -> (r = Ok tt <-> Forall savable (models_of d)).
Proof. intros X cdc den_zero kinds growth sortf conv d d' r Hk Hz. exact (saves cdc den_zero kinds growth sortf conv Hk Hz d d' r). Qed.
Print Assumptions C88_saving_succeeds_partial.
Lemma conv1_total s v l : exists w, conv1 s (v :: l) = Ok w. Proof. eexists; reflexivity. Qed.
Example C88_hyps : (forall s v l, exists w, conv1 s (v :: l) = Ok w) /\ library_values plain no_den s_doc /\ d_dirty s_doc = true
  /\ Forall savable (models_of s_doc) /\ existsb (fun m => is_a m "id3") (models_of s_doc) = true.
Proof.
  split; [exact conv1_total|]. split; [exact s_library|]. split; [reflexivity|]. split; [|vm_compute; reflexivity].
  repeat apply Forall_cons; try apply Forall_nil; intros H H1 H2; vm_compute in H1; discriminate.
Qed.
(* Such an ID3 model makes saving panic: time.Date is called without a location (models/id3/model.go:170). *)
Definition s_id3v23 := fill (k_id3_ID3 plain) [("id3:date_v23", VStr "0102"); ("id3:time_v23", VStr "1200")].
Theorem C88_id3_date_refuted : exists d, library_values plain no_den d /\ snd (save d) = Panic.
Proof.
  exists (doc_of [("id3", s_id3v23)]). split; [|vm_compute; reflexivity].
  apply Forall_cons; [a_model (k_id3_ID3 plain)|apply Forall_nil].
Qed.
Print Assumptions C88_id3_date_refuted.

(* ---- C89 ---------------------------------------------------------------------------------------------- *)

(* When a document has been read, every model of the native formats has in each field of the 46 rows of [mirrors] (SpecSync.v) what
   the first model of the XMP side says. *)
Theorem C89_reading_copies_to_native_models_partial : forall X (cdc : string -> codec X) den_zero kinds growth sortf conv genre_v1 d d' i n m,
  library_values cdc den_zero d -> sync_from_xmp kinds growth sortf conv genre_v1 d = (d', Ok tt) ->
  nth_error (d_nodes d) i = Some n -> n_model n = Some m ->
  exists n' m', nth_error (d_nodes d') i = Some n' /\ n_model n' = Some m'
    /\ forall r, In r mirrors -> is_a m (mi_to r) = true -> own m' (mi_field r) = mirrored r d m.
Proof. intros X cdc den_zero kinds growth sortf conv genre_v1. exact (read_mirrors cdc den_zero kinds growth sortf conv genre_v1). Qed.
Print Assumptions C89_reading_copies_to_native_models_partial.
(* It changes nothing but the fields in reading_changes and adds no node. *)
Theorem C89_reading_changes_nothing_else_partial : forall X (cdc : string -> codec X) den_zero kinds growth sortf conv genre_v1 d d' r,
  library_values cdc den_zero d -> sync_from_xmp kinds growth sortf conv genre_v1 d = (d', r) ->
  same_but cdc den_zero reading_changes [] d d'.
Proof. intros X cdc den_zero kinds growth sortf conv genre_v1. exact (read_same cdc den_zero kinds growth sortf conv genre_v1). Qed.
Print Assumptions C89_reading_changes_nothing_else_partial.
(* It does not fail unless a conversion does. *)
Theorem C89_reading_succeeds_partial : forall X (cdc : string -> codec X) den_zero kinds growth sortf conv genre_v1 d d' r,
  (forall s v l, exists w, conv s (v :: l) = Ok w) -> library_values cdc den_zero d ->
  sync_from_xmp kinds growth sortf conv genre_v1 d = (d', r) -> r = Ok tt.
Proof. intros X cdc den_zero kinds growth sortf conv genre_v1. exact (reads cdc den_zero kinds growth sortf conv genre_v1). Qed.
Print Assumptions C89_reading_succeeds_partial.
Definition r_doc := doc_of [("dc", s_dc); ("pdf", s_pdf); ("xmp", s_xmp); ("exif", s_exif); ("tiff", s_tiff)].
Lemma r_library : library_values plain no_den r_doc.
Proof.
  apply Forall_cons; [a_model (k_dc_DublinCore plain)|]. apply Forall_cons; [a_model (k_pdf_PDFInfo plain)|].
  apply Forall_cons; [a_model (k_xmpbase_XmpBase plain)|]. apply Forall_cons; [a_model (k_exif_ExifInfo plain)|].
  apply Forall_cons; [a_model (k_tiff_TiffInfo plain)|]. apply Forall_nil.
Qed.
Lemma r_loaded : load r_doc = (fst (load r_doc), Ok tt). Proof. apply done. vm_compute. reflexivity. Qed.
Definition owns (d : doc (tmodel unit)) (p f : string) : list (gval unit) :=
  map (fun m => own m f) (filter (fun m => is_a m p) (models_of d)).
Example C89_hyps : library_values plain no_den r_doc /\ load r_doc = (fst (load r_doc), Ok tt)
  /\ (forall s v l, exists w, conv1 s (v :: l) = Ok w)
  /\ owns r_doc "pdf" "dc:title" = [alt1 "A"] /\ owns (fst (load r_doc)) "pdf" "dc:title" = [alt1 "B"]
  /\ owns r_doc "exif" "tiff:Make" = [VStr "m"] /\ owns (fst (load r_doc)) "exif" "tiff:Make" = [VStr "maker"]
  /\ owns (fst (load r_doc)) "exif" "tiff:ImageWidth" = [VInt 7].
Proof. split; [exact r_library|]. split; [exact r_loaded|]. split; [exact conv1_total|]. repeat split; vm_compute; reflexivity. Qed.
(* The tool is the exception: the test in ExifInfo.SyncFromXMP (models/exif/model.go:295) is the wrong way round. A tool in the basic
   model does not reach the Exif model, and where there is none the Exif model loses its own. *)
Theorem C89_exif_tool_refuted :
  (exists d d', library_values plain no_den d /\ load d = (d', Ok tt) /\ said d "xmp" "xmp:CreatorTool" = Some (VStr "tool")
     /\ owns d' "exif" "xmp:CreatorTool" = [VStr "own"])
  /\ (exists d d', library_values plain no_den d /\ load d = (d', Ok tt) /\ said d "xmp" "xmp:CreatorTool" = None
     /\ owns d "exif" "xmp:CreatorTool" = [VStr "own"] /\ owns d' "exif" "xmp:CreatorTool" = [VStr ""]).
Proof.
  split.
  - exists r_doc, (fst (load r_doc)). split; [exact r_library|]. split; [exact r_loaded|]. split; vm_compute; reflexivity.
  - set (d := doc_of [("xmp", fill (k_xmpbase_XmpBase plain) []); ("exif", s_exif)]). exists d, (fst (load d)). split.
    { apply Forall_cons; [a_model (k_xmpbase_XmpBase plain)|]. apply Forall_cons; [a_model (k_exif_ExifInfo plain)|]. apply Forall_nil. }
    split; [apply done; vm_compute; reflexivity|]. repeat split; vm_compute; reflexivity.
Qed.
Print Assumptions C89_exif_tool_refuted.
(* The artists of Exif are joined with a comma when read, and split at semicolons when saved: two creators become one. *)
Definition e_doc := doc_of [("dc", fill (k_dc_DublinCore plain) [("dc:creator", VArr [VStr "me"; VStr "you"] [])]); ("exif", fill (k_exif_ExifInfo plain) [])].
Theorem C89_exif_creators_refuted : exists d d1 d2, library_values plain no_den d /\ load d = (d1, Ok tt) /\ save (set_dirty d1) = (d2, Ok tt)
  /\ owns d1 "exif" "dc:creator" = [VArr [VStr "me"; VStr "you"] []] /\ owns d2 "exif" "dc:creator" = [VArr [VStr "me,you"] []].
Proof.
  exists e_doc, (fst (load e_doc)), (fst (save (set_dirty (fst (load e_doc))))). split.
  { apply Forall_cons; [a_model (k_dc_DublinCore plain)|]. apply Forall_cons; [a_model (k_exif_ExifInfo plain)|]. apply Forall_nil. }
  split; [apply done; vm_compute; reflexivity|]. split; [apply done; vm_compute; reflexivity|]. split; vm_compute; reflexivity.
Qed.
Print Assumptions C89_exif_creators_refuted.

(* ---- C90 ---------------------------------------------------------------------------------------------- *)

(* Doing what reading does once more changes nothing, but for the genres of ID3. *)
Theorem C90_reading_again_changes_nothing_partial : forall X (cdc : string -> codec X) den_zero kinds growth sortf conv genre_v1 d d' d'' r,
  library_values cdc den_zero d -> sync_from_xmp kinds growth sortf conv genre_v1 d = (d', Ok tt) ->
  sync_from_xmp kinds growth sortf conv genre_v1 d' = (d'', r) ->
  r = Ok tt /\ same_but cdc den_zero (fun m f => is_a m "id3" = true /\ f = "id3:contentType") [] d' d''.
Proof. intros X cdc den_zero kinds growth sortf conv genre_v1. exact (read_again cdc den_zero kinds growth sortf conv genre_v1). Qed.
Print Assumptions C90_reading_again_changes_nothing_partial.
(* The list of genres of ID3 gets longer with every reading of a document with a genre. *)
Theorem C90_genres_grow_refuted : forall X (cdc : string -> codec X) den_zero kinds growth sortf conv genre_v1 d d' i n m,
  library_values cdc den_zero d -> sync_from_xmp kinds growth sortf conv genre_v1 d = (d', Ok tt) ->
  nth_error (d_nodes d) i = Some n -> n_model n = Some m -> is_a m "id3" = true -> said d "xmpDM" "xmpDM:genre" <> None ->
  exists n' m', nth_error (d_nodes d') i = Some n' /\ n_model n' = Some m'
    /\ List.length (own_texts m "id3:contentType") < List.length (own_texts m' "id3:contentType").
Proof. intros X cdc den_zero kinds growth sortf conv genre_v1. exact (read_genre cdc den_zero kinds growth sortf conv genre_v1). Qed.
Print Assumptions C90_genres_grow_refuted.
Definition g_doc := doc_of [("xmpDM", s_dm); ("id3", s_id3)].
Example C90_hyps : library_values plain no_den r_doc /\ load r_doc = (fst (load r_doc), Ok tt)
  /\ library_values plain no_den g_doc /\ load g_doc = (fst (load g_doc), Ok tt) /\ said g_doc "xmpDM" "xmpDM:genre" <> None
  /\ owns (fst (load g_doc)) "id3" "id3:contentType" = [VArr [VStr "Rock"; VStr "Jazz, Pop"; VStr "Jazz, Pop"] []].
Proof.
  split; [exact r_library|]. split; [exact r_loaded|]. split.
  { apply Forall_cons; [a_model (k_xmpdm_XmpDM plain no_den)|]. apply Forall_cons; [a_model (k_id3_ID3 plain)|]. apply Forall_nil. }
  split; [apply done; vm_compute; reflexivity|]. split; [vm_compute; discriminate|vm_compute; reflexivity].
Qed.

(* ---- C91 ---------------------------------------------------------------------------------------------- *)

(* A title set in Dublin Core is not always the one in the file: PDFInfo has a field for the same property, which is written as well
   if its node comes later, and the later one is read. The document below was read with title A; then its title was set to B. *)
Definition write_and_read (d : doc (tmodel unit)) : doc (tmodel unit) * result unit :=
  match save d with
  | (d1, Ok _) => match encode v0 (registry_of lib_h) d1 with
                  | Ok p => decode v0 (registry_of lib_h) lib_k load d (xml_read [] p)
                  | Err e => (d, Err e)
                  | Panic => (d, Panic)
                  end
  | (d1, e) => (d1, e)
  end.
Definition t_doc := doc_of [("dc", s_dc); ("pdf", fill (k_pdf_PDFInfo plain) [("dc:title", alt1 "A")])].
Theorem C91_title_refuted : exists d d', library_values plain no_den d /\ said d "dc" "dc:title" = Some (alt1 "B")
  /\ write_and_read d = (d', Ok tt) /\ said d' "dc" "dc:title" = Some (alt1 "A").
Proof.
  exists t_doc, (fst (write_and_read t_doc)). split.
  { apply Forall_cons; [a_model (k_dc_DublinCore plain)|]. apply Forall_cons; [a_model (k_pdf_PDFInfo plain)|]. apply Forall_nil. }
  split; [vm_compute; reflexivity|]. split; [apply done; vm_compute; reflexivity|]. vm_compute. reflexivity.
Qed.
Print Assumptions C91_title_refuted.

(* ---- C122 --------------------------------------------------------------------------------------------- *)

(* After saving a changed document each of the 16 properties that EXIF and RIFF models compute from their native fields (the rows of
   derived_properties in SpecSync.v) has the computed value if there is one, unless it only fills and was set; otherwise it is as before. *)
Theorem C122_native_fields_are_saved_partial : forall X (cdc : string -> codec X) den_zero kinds growth sortf conv d d' c i n m,
  makes_library cdc den_zero kinds -> library_values cdc den_zero d -> d_dirty d = true ->
  sync_to_xmp (lib_ops kinds growth sortf conv) d = (d', Ok tt) -> In c (derived_properties conv) ->
  nth_error (d_nodes d) i = Some n -> n_model n = Some m -> is_a m (co_of c) = true ->
  exists n' m', nth_error (d_nodes d') i = Some n' /\ n_model n' = Some m' /\ own m' (co_name c) = after_saving c m.
Proof.
  intros X cdc den_zero kinds growth sortf conv d d' c i n m Hk Hl Hd H Hc Hn Hm Ha.
  destruct (derived_saved cdc den_zero kinds growth sortf conv Hk d d' c i m Hl Hd H Hc) as (m' & E & V).
  - unfold model_at. now rewrite Hn.
  - exact Ha.
  - unfold model_at in E. destruct (nth_error (d_nodes d') i) as [n'|]; [|discriminate]. eauto.
Qed.
Print Assumptions C122_native_fields_are_saved_partial.
(* the example: the native latitude is set, and the native person of the RIFF data *)
Definition conv2 (s : string) (l : list (gval unit)) : result (gval unit) :=
  match l with
  | v :: _ => Ok v
  | [] => if existsb (String.eqb s) ["ExifInfo.GPSLatitude"; "ExifInfo.GPSLatitudeRef"; "RiffInfo.EncodedBy2"; "RiffInfo.Starring2"] then Ok (VStr s) else Err "unset"
  end.
Definition n_exif := fill (k_exif_ExifInfo plain) [("tiff:Artist", VStr "a;b"); ("dc:creator", VArr [VStr "old"] []); ("tiff:Software", VStr "soft"); ("xmp:CreatorTool", VStr "own")].
Definition n_riff := fill (k_riff_RiffInfo plain) [("riffinfo:EncodedBy", VStr "me")].
Definition n_doc := doc_of [("exif", n_exif); ("riffinfo", n_riff)].
Definition n_saved := sync_to_xmp (lib_ops lib_k grow1 (fun l => l) conv2) n_doc.
Example C122_hyps : library_values plain no_den n_doc /\ d_dirty n_doc = true /\ snd n_saved = Ok tt
  /\ List.length (derived_properties conv2) = 16
  /\ map (fun f => own n_exif f) ["exif:GPSLatitude"; "dc:creator"; "xmp:CreatorTool"] = [VStr ""; VArr [VStr "old"] []; VStr "own"]
  /\ (match models_of (fst n_saved) with x :: y :: _ => (map (own x) ["exif:GPSLatitude"; "dc:creator"; "xmp:CreatorTool"], map (own y) ["riffinfo:EncodedBy"; "riffinfo:Starring"]) | _ => ([], []) end)
     = ([VStr "ExifInfo.GPSLatitude"; VArr [VStr "a"; VStr "b"] []; VStr "own"], [VStr "me"; VStr "RiffInfo.Starring2"]).
Proof.
  split; [apply Forall_cons; [a_model (k_exif_ExifInfo plain)|]; apply Forall_cons; [a_model (k_riff_RiffInfo plain)|]; apply Forall_nil|].
  repeat split; vm_compute; reflexivity.
Qed.
