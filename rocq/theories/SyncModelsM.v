(* SyncToXMP and SyncFromXMP of the models of the library, and the loops that call them: xmp/document.go:84-93 (the loop of
   syncToXMP, document.go:96-108, is sync_to_xmp of DocM.v). All models of the library not named here have methods that
   only return nil.
   A model is a tmodel (DecodeM.v) of a kind of ModelTypes.v; a field is named by its xmp tag. A SyncToXMP method is a list of
   [step]s, computed from the receiver x before the first of them runs: no method reads a field of x after changing it, but
   to ask whether it is empty, which is what [only] is for.
   Fields tagged xmp "-" are not part of a tmodel; SyncToXMP only reads them. Their values are a parameter, see native.
   Simplifications: XMP, IXML and the native location of QtInfo are unset, whose methods therefore do nothing here; what
   ExifInfo.SyncFromXMP assigns to its native DateTimeDigitized is left out. Assigning a slice copies it:
   the two models do not share it as they do in Go.
   Parameters: conv, the conversions between Go types that are named below, and genre_v1, the name of a genre of ID3v1
   (ParseGenreV1(v).String(), models/id3/genre.go). *)
From Coq Require Import List Arith ZArith Bool Ascii String.
From Verif Require Import GoStr GoMap Names Semver RegistryM PathM PVList NodeM FilterM ArrayM CodecM DocM TypeM TagM DecodeM TPathM ModelTypes.
Import ListNotations.
Local Open Scope string_scope.

Definition newline : string := String "010"%char "".

Section Sync.
Context {X : Type}.
Notation model := (tmodel X).
Notation doc := (doc (tmodel X)).
Notation gval := (gval X).
Variable kinds : nat -> string -> option (mkind X).
Variable growth : nat -> nat.
Variable sortf : list path_value -> list path_value.
Variable conv : string -> list gval -> result gval.
Variable genre_v1 : string -> option string.

(* ---- fields by tag ------------------------------------------------------------------------------------- *)

Fixpoint field_index (fs : list (finfo * ty X)) (f : string) : option nat :=
  match fs with
  | [] => None
  | (i, _) :: r => if f_name i =? f then Some 0 else option_map S (field_index r f)
  end.
(* x.F, with its type *)
Definition get_field (x : model) (f : string) : option (ty X * gval) :=
  match field_index (k_fields (tm_kind x)) f with
  | Some i => match nth_error (k_fields (tm_kind x)) i, nth_error (tm_vals x) i with
              | Some (_, t), Some v => Some (t, v)
              | _, _ => None
              end
  | None => None
  end.
(* x.F = v *)
Definition put_field (x : model) (f : string) (v : gval) : model :=
  match field_index (k_fields (tm_kind x)) f with
  | Some i => TModel (tm_kind x) (set_nth i v (tm_vals x))
  | None => x
  end.
Definition value (x : model) (f : string) : gval := match get_field x f with Some (_, v) => v | None => VNil end.
(* len(x.F) == 0, x.F == "" or x.F.IsZero() *)
Definition unset (x : model) (f : string) : bool := match get_field x f with Some (t, v) => is_empty t v | None => true end.
Definition text (v : gval) : string := match v with VStr s => s | _ => "" end.
Definition alts (v : gval) : alt_string := match v with VAlt l => l | _ => [] end.
Definition texts (v : gval) : list string := match v with VArr l _ => map text l | _ => [] end.
Definition list_of (l : list string) : gval := VArr (map VStr l) [].

(* ---- writing: SyncToXMP ---------------------------------------------------------------------------------- *)

Inductive target := Model (ns : namespace) | Self.
Inductive step :=
| Make (ns : namespace)                          (* m, err := ns.MakeModel(d); if err != nil { return err } *)
| Set_ (only : bool) (t : target) (f : string) (v : result gval)    (* m.F = v or x.F = v; only: if m.F is empty *)
| Stop (r : result unit).
Definition put t f v := Set_ false t f v.
Definition fill t f v := Set_ true t f v.
Definition when (b : bool) (l : list step) : list step := if b then l else [].
Notation dc := (Model ns_dc_NsDc).
Notation base := (Model ns_xmpbase_NsXmp).
Notation dm := (Model ns_xmpdm_NsXmpDM).
Notation rights := (Model ns_xmprights_NsXmpRights).

(* models/pdf/model.go:98-131 *)
Definition pdf_to (x : model) : list step :=
  [Make ns_dc_NsDc;
   fill dc "dc:title" (Ok (value x "dc:title"));
   fill dc "dc:creator" (Ok (value x "dc:creator"));
   fill dc "dc:description" (Ok (value x "dc:description"));
   fill dc "dc:rights" (Ok (VAlt (alt_add_default [] "" (text (value x "pdf:Copyright")))));
   Make ns_xmpbase_NsXmp;
   fill base "xmp:CreateDate" (Ok (value x "xmp:CreateDate"));
   fill base "xmp:ModifyDate" (Ok (value x "xmp:ModifyDate"));
   fill base "xmp:CreatorTool" (Ok (value x "xmp:CreatorTool"))].

(* models/tiff/model.go:121-161 *)
Definition tiff_to (x : model) : list step :=
  (Make ns_dc_NsDc ::
   when (negb (unset x "dc:creator")) [fill dc "dc:creator" (Ok (value x "dc:creator"))] ++
   when (negb (unset x "tiff:Artist")) [fill dc "dc:creator" (Ok (list_of (split_str "," (text (value x "tiff:Artist")))))] ++
   [fill dc "dc:description" (Ok (value x "dc:description"));
    fill dc "dc:description" (Ok (value x "tiff:ImageDescription"));
    fill dc "dc:rights" (Ok (value x "dc:rights"));
    fill dc "dc:rights" (Ok (value x "tiff:Copyright"));
    Make ns_xmpbase_NsXmp;
    fill base "xmp:ModifyDate" (Ok (value x "xmp:ModifyDate"));
    fill base "xmp:ModifyDate" (Ok (value x "tiff:DateTime"))] ++
   when (negb (unset x "xmp:CreatorTool")) [fill base "xmp:CreatorTool" (Ok (value x "xmp:CreatorTool"))])%list.

(* the value of a native field of the models of a document, [] if it is unset: conv without arguments *)
Definition native (f : string) : list gval := match conv f [] with Ok v => [v] | _ => [] end.
(* models/riff/model.go:201-220 *)
Definition riff_to (x : model) : list step :=
  (map (fun v => fill Self "riffinfo:DateTimeOriginal" (Ok v)) (native "RiffInfo.DateTimeOriginal2") ++
   map (fun v => fill Self "riffinfo:EncodedBy" (Ok v)) (native "RiffInfo.EncodedBy2") ++
   map (fun v => fill Self "riffinfo:Starring" (Ok v)) (native "RiffInfo.Starring2") ++
   [Make ns_dc_NsDc; fill dc "dc:title" (Ok (value x "riffinfo:name"))])%list.

(* models/id3/model.go:149-224. time.Date panics when its location is nil (170). *)
Definition id3_to (x : model) : list step :=
  let has f := negb (unset x f) in
  let lang := text (value x "id3:language") in
  (when (has "id3:titleDescription" || has "id3:copyright")
     (Make ns_dc_NsDc ::
      when (has "id3:titleDescription")
        [fill dc "dc:title" (Ok (VAlt (alt_add_default [] lang (text (value x "id3:titleDescription")))))] ++
      when (has "id3:copyright")
        [fill dc "dc:rights" (Ok (VAlt (alt_add_default [] lang (text (value x "id3:copyright")))))]) ++
   when (unset x "id3:recordingTime" && has "id3:date_v23" && has "id3:time_v23") [Stop Panic] ++
   when (has "id3:recordingTime")
     [Make ns_xmpbase_NsXmp; put base "xmp:CreateDate" (Ok (value x "id3:recordingTime"))] ++
   [Make ns_xmpdm_NsXmpDM] ++
   when (has "id3:comments") [put dm "xmpDM:logComment" (Ok (value x "id3:comments"))] ++
   when (has "id3:albumTitle") [put dm "xmpDM:album" (Ok (value x "id3:albumTitle"))] ++
   [put dm "xmpDM:partOfCompilation" (conv "xmp.Bool(id3.Bool)" [value x "id3:isCompilation"])] ++
   when (has "id3:composer") [put dm "xmpDM:composer" (Ok (value x "id3:composer"))] ++
   when (has "id3:contentType") [put dm "xmpDM:genre" (Ok (VStr (join ", " (texts (value x "id3:contentType")))))] ++
   when (has "id3:leadPerformer") [put dm "xmpDM:artist" (Ok (value x "id3:leadPerformer"))] ++
   when (has "id3:modifiedBy") [put dm "xmpDM:engineer" (Ok (value x "id3:modifiedBy"))] ++
   when (has "id3:partOfASet") [put dm "xmpDM:discNumber" (conv "TrackNum.Track" [value x "id3:partOfASet"])] ++
   when (has "id3:trackNumber") [put dm "xmpDM:trackNumber" (conv "TrackNum.Track" [value x "id3:trackNumber"])] ++
   when (has "id3:unsynchronizedLyrics")
     [put dm "xmpDM:lyrics" (Ok (VStr (join newline (texts (value x "id3:unsynchronizedLyrics")))))] ++
   when (has "id3:copyrightInformation")
     [Make ns_xmprights_NsXmpRights; put rights "xmpRights:WebStatement" (Ok (value x "id3:copyrightInformation"))])%list.

(* models/ixml/model.go:113-130 *)
Definition ixml_to (x : model) : list step :=
  ([Make ns_xmpdm_NsXmpDM;
    put dm "xmpDM:tapeName" (Ok (value x "iXML:soundRoll"));
    put dm "xmpDM:scene" (Ok (value x "iXML:sceneName"));
    put dm "xmpDM:trackNumber" (Ok (value x "iXML:take"));
    put dm "xmpDM:logComment" (Ok (value x "iXML:note"));
    put dm "xmpDM:projectName" (Ok (value x "iXML:project"));
    put dm "xmpDM:good" (conv "xmp.Bool(ixml.Bool)" [value x "iXML:circled"])] ++
   match value x "iXML:speed" with
   | VPtr s => [put dm "xmpDM:startTimecode" (conv "Speed.XmpTimecode" [s]);
                put dm "xmpDM:audioSampleRate" (conv "Speed.FileSampleRate.Value" [s])]
   | _ => []
   end)%list.

(* models/exif/model.go:366-377: the coordinate, if the conversion succeeds and is not empty *)
Definition gps_coord (coord ref : string) : list gval :=
  flat_map (fun v => flat_map (fun r => match conv "convertGPStoXMP" [v; r] with
                                        | Ok w => if emptyb (text w) then [] else [w]
                                        | _ => []
                                        end) (native ref)) (native coord).
(* models/exif/model.go:331-385; conv "convertDateToXMP" is the first value it returns *)
Definition exif_to (x : model) : list step :=
  let has f := negb (unset x f) in
  (when (has "exif:DateTimeOriginal")
     [put Self "photoshop:DateCreated" (conv "convertDateToXMP" [value x "exif:DateTimeOriginal"; value x "exif:SubSecTimeOriginal"])] ++
   map (fun v => put Self "exif:DateTimeDigitized" (conv "convertDateToXMP" [v; value x "exif:SubSecTimeDigitized"]))
     (native "ExifInfo.DateTimeDigitized") ++
   when (has "tiff:DateTime")
     [put Self "xmp:ModifyDate" (conv "convertDateToXMP" [value x "tiff:DateTime"; value x "exif:SubSecTime"])] ++
   when (has "tiff:Artist") [put Self "dc:creator" (Ok (list_of (split_str ";" (text (value x "tiff:Artist")))))] ++
   when (has "tiff:ImageDescription")
     [fill Self "dc:description" (bind (new_alt_string [ArgString (text (value x "tiff:ImageDescription"))]) (fun l => Ok (VAlt l)))] ++
   when (has "tiff:Copyright")
     [fill Self "dc:rights" (bind (new_alt_string [ArgString (text (value x "tiff:Copyright"))]) (fun l => Ok (VAlt l)))] ++
   when (has "tiff:Software") [fill Self "xmp:CreatorTool" (Ok (value x "tiff:Software"))] ++
   match value x "exif:ISOSpeedRatings" with
   | VArr (s :: _) _ => [put Self "exif:PhotographicSensitivity" (Ok s)]
   | _ => []
   end ++
   map (fun v => put Self "exif:GPSLatitude" (Ok v)) (gps_coord "ExifInfo.GPSLatitude" "ExifInfo.GPSLatitudeRef") ++
   map (fun v => put Self "exif:GPSLongitude" (Ok v)) (gps_coord "ExifInfo.GPSLongitude" "ExifInfo.GPSLongitudeRef") ++
   map (fun v => put Self "exif:GPSDestLatitude" (Ok v)) (gps_coord "ExifInfo.GPSDestLatitude" "ExifInfo.GPSDestLatitudeRef") ++
   map (fun v => put Self "exif:GPSDestLongitude" (Ok v)) (gps_coord "ExifInfo.GPSDestLongitude" "ExifInfo.GPSDestLongitudeRef") ++
   map (fun v => put Self "exif:GPSTimeStamp" (conv "convertGPSTimestamp" (v :: native "ExifInfo.GPSTimeStamp"))) (native "ExifInfo.GPSDateStamp"))%list.

(* the name of the first namespace of a model, which tells the models of the library apart *)
Definition home (x : model) : string := match k_namespaces (tm_kind x) with ns :: _ => ns_name ns | [] => "" end.
Definition steps_to (x : model) : list step :=
  let h := home x in
  if h =? "pdf" then pdf_to x
  else if h =? "tiff" then tiff_to x
  else if h =? "riffinfo" then riff_to x
  else if h =? "id3" then id3_to x
  else if h =? "iXML" then ixml_to x
  else if h =? "exif" then exif_to x
  else [].

(* the Model interface of these models but for SyncToXMP; the accessors of TPathM.v *)
Definition base_ops : model_ops model :=
  ModelOps _ tm_can (fun m => k_namespaces (tm_kind m))
    (fun f p => option_map (fun k => TModel k (k_init k)) (kinds f p))
    (fun m p => TPathM.get_model_path (k_fields (tm_kind m)) (tm_vals m) p)
    (fun m p v fl => let '(vs, r) := TPathM.set_model_path growth (k_fields (tm_kind m)) (tm_vals m) p v fl in
                     (TModel (tm_kind m) vs, r))
    (fun m => TPathM.list_model_paths sortf (StructInfo _ None false) (k_fields (tm_kind m)) (tm_vals m) (home m))
    (fun _ _ d => (d, Ok tt)).

(* assignment through the model pointer of node i *)
Definition put_model (d : doc) (i : nat) (m : model) : doc :=
  match nth_error (d_nodes d) i with
  | Some n => with_nodes d (replace_nth i (set_model n (Some m)) (d_nodes d))
  | None => d
  end.
Definition set_at (d : doc) (i : nat) (only : bool) (f : string) (v : result gval) : doc * result unit :=
  match model_at d i with
  | Some m =>
      match get_field m f with
      | Some (t, w) =>
          if only && negb (is_empty t w) then (d, Ok tt)
          else match v with
               | Ok v => (put_model d i (put_field m f v), Ok tt)
               | Err e => (d, Err e)
               | Panic => (d, Panic)
               end
      | None => (d, Panic)                           (* not a model of that type: a nil pointer *)
      end
  | None => (d, Panic)
  end.
(* i: the node of the receiver. The pointer MakeModel returned is that of the first model for the namespace. *)
Definition run_step (i : nat) (d : doc) (s : step) : doc * result unit :=
  match s with
  | Make ns => match make_model base_ops d ns with
               | (d', Ok _) => (d', Ok tt)
               | (d', Err e) => (d', Err e)
               | (d', Panic) => (d', Panic)
               end
  | Set_ only Self f v => set_at d i only f v
  | Set_ only (Model ns) f v =>
      match doc_find_model base_ops d ns with
      | Some j => set_at d j only f v
      | None => (d, Panic)
      end
  | Stop r => (d, r)
  end.
Fixpoint run_steps (i : nat) (l : list step) (d : doc) : doc * result unit :=
  match l with
  | [] => (d, Ok tt)
  | s :: r => match run_step i d s with
              | (d', Ok _) => run_steps i r d'
              | (d', e) => (d', e)
              end
  end.

(* the models of the library *)
Definition lib_ops : model_ops model :=
  ModelOps _ (mo_can base_ops) (mo_namespaces base_ops) (mo_new base_ops) (mo_get base_ops) (mo_set base_ops) (mo_list base_ops)
    (fun m i d => run_steps i (steps_to m) d).

(* ---- reading: SyncFromXMP ----------------------------------------------------------------------------------- *)

(* m := ns.FindModel(d) *)
Definition found (d : doc) (ns : namespace) : option model :=
  match doc_find_model base_ops d ns with Some i => model_at d i | None => None end.
Definition assigns := list (string * result gval).
Definition if_found (o : option model) (l : model -> assigns) : assigns := match o with Some m => l m | None => [] end.
Definition only_if (b : bool) (l : assigns) : assigns := if b then l else [].

(* models/pdf/model.go:81-96 *)
Definition pdf_from (d : doc) (x : model) : assigns :=
  (if_found (found d ns_dc_NsDc) (fun m =>
     [("dc:title", Ok (value m "dc:title"));
      ("dc:creator", Ok (value m "dc:creator"));
      ("dc:description", Ok (value m "dc:description"))] ++
     only_if (negb (emptyb (alt_default (alts (value m "dc:rights")))))
       [("pdf:Copyright", Ok (VStr (alt_default (alts (value m "dc:rights")))))]) ++
   if_found (found d ns_xmpbase_NsXmp) (fun m =>
     [("xmp:CreatorTool", Ok (value m "xmp:CreatorTool"));
      ("xmp:CreateDate", Ok (value m "xmp:CreateDate"));
      ("xmp:ModifyDate", Ok (value m "xmp:ModifyDate"))]))%list.

(* models/tiff/model.go:106-119 *)
Definition tiff_from (d : doc) (x : model) : assigns :=
  (if_found (found d ns_dc_NsDc) (fun m =>
     [("dc:creator", Ok (value m "dc:creator"));
      ("dc:description", Ok (value m "dc:description"));
      ("dc:rights", Ok (value m "dc:rights"))]) ++
   if_found (found d ns_xmpbase_NsXmp) (fun m =>
     ("xmp:ModifyDate", Ok (value m "xmp:ModifyDate")) ::
     only_if (negb (unset m "xmp:CreatorTool")) [("xmp:CreatorTool", Ok (value m "xmp:CreatorTool"))]))%list.

(* m.G if it is set *)
Definition copy (m : model) (g f : string) : assigns := only_if (negb (unset m g)) [(f, Ok (value m g))].

(* models/riff/model.go:159-199 *)
Definition riff_from (d : doc) (x : model) : assigns :=
  (if_found (found d ns_dc_NsDc) (fun m =>
     copy m "dc:rights" "dc:rights" ++ copy m "dc:subject" "dc:subject" ++ copy m "dc:type" "dc:type" ++
     copy m "dc:description" "dc:description" ++ copy m "dc:title" "riffinfo:name" ++
     [("dc:source", Ok (value m "dc:source"))]) ++
   if_found (found d ns_xmpbase_NsXmp) (fun m =>
     copy m "xmp:CreateDate" "xmp:CreateDate" ++ [("xmp:CreatorTool", Ok (value m "xmp:CreatorTool"))]) ++
   if_found (found d ns_xmpdm_NsXmpDM) (fun m =>
     copy m "xmpDM:artist" "xmpDM:artist" ++ copy m "xmpDM:logComment" "xmpDM:logComment" ++
     copy m "xmpDM:genre" "xmpDM:genre" ++ copy m "xmpDM:engineer" "xmpDM:engineer"))%list.

(* Genre.UnmarshalText, models/id3/types.go:146-164: it appends, and for a part that is no genre of ID3v1 the whole text *)
Definition genre_unmarshal (old : list string) (s : string) : list string :=
  (old ++ map (fun v => match genre_v1 (trim_space v) with
                        | Some g => g
                        | None => if s =? "RX" then "Remix" else if s =? "CR" then "Cover" else s
                        end) (split_str "," s))%list.

Definition positive (v : gval) : bool := match v with VInt z => (0 <? z)%Z | _ => false end.
(* models/id3/model.go:87-147 *)
Definition id3_from (d : doc) (x : model) : assigns :=
  (if_found (found d ns_dc_NsDc) (fun m =>
     only_if (negb (unset m "dc:title")) [("id3:titleDescription", Ok (VStr (alt_default (alts (value m "dc:title")))))] ++
     only_if (negb (unset m "dc:rights")) [("id3:copyright", Ok (VStr (alt_default (alts (value m "dc:rights")))))]) ++
   if_found (found d ns_xmpbase_NsXmp) (fun m => copy m "xmp:CreateDate" "id3:recordingTime") ++
   if_found (found d ns_xmpdm_NsXmpDM) (fun m =>
     copy m "xmpDM:artist" "id3:leadPerformer" ++ copy m "xmpDM:album" "id3:albumTitle" ++
     copy m "xmpDM:logComment" "id3:comments" ++
     only_if (negb (unset m "xmpDM:genre"))
       [("id3:contentType", Ok (list_of (genre_unmarshal (texts (value x "id3:contentType")) (text (value m "xmpDM:genre")))))] ++
     only_if (positive (value m "xmpDM:trackNumber")) [("id3:trackNumber", conv "TrackNum" [value m "xmpDM:trackNumber"])] ++
     [("id3:isCompilation", conv "id3.Bool(xmp.Bool)" [value m "xmpDM:partOfCompilation"])] ++
     copy m "xmpDM:composer" "id3:composer" ++ copy m "xmpDM:engineer" "id3:modifiedBy" ++
     only_if (positive (value m "xmpDM:discNumber")) [("id3:partOfASet", conv "TrackNum" [value m "xmpDM:discNumber"])] ++
     only_if (negb (unset m "xmpDM:lyrics"))
       [("id3:unsynchronizedLyrics", Ok (list_of (split_str newline (text (value m "xmpDM:lyrics")))))]) ++
   if_found (found d ns_xmprights_NsXmpRights) (fun m => copy m "xmpRights:WebStatement" "id3:copyrightInformation"))%list.

(* models/exif/model.go:266-329 *)
Definition tiff_fields : list string :=
  ["tiff:BitsPerSample"; "tiff:Compression"; "tiff:ImageLength"; "tiff:ImageWidth"; "tiff:Make"; "tiff:Model"; "tiff:Orientation";
   "tiff:PhotometricInterpretation"; "tiff:PlanarConfiguration"; "tiff:PrimaryChromaticities"; "tiff:ReferenceBlackWhite";
   "tiff:ResolutionUnit"; "tiff:SamplesPerPixel"; "tiff:TransferFunction"; "tiff:WhitePoint"; "tiff:XResolution";
   "tiff:YCbCrCoefficients"; "tiff:YCbCrPositioning"; "tiff:YCbCrSubSampling"; "tiff:YResolution"].
Definition exif_from (d : doc) (x : model) : assigns :=
  (only_if (negb (unset x "exif:DateTimeDigitized"))
     [("exif:SubSecTimeDigitized", conv "Nanosecond" [value x "exif:DateTimeDigitized"])] ++
   match value x "exif:ISOSpeedRatings" with
   | VArr (s :: _) _ => [("exif:PhotographicSensitivity", Ok s)]
   | _ => []
   end ++
   if_found (found d ns_dc_NsDc) (fun m =>
     [("dc:creator", Ok (value m "dc:creator"));
      ("tiff:Artist", Ok (VStr (join "," (texts (value m "dc:creator")))));
      ("dc:description", Ok (value m "dc:description"));
      ("tiff:ImageDescription", Ok (VStr (alt_default (alts (value m "dc:description")))));
      ("dc:rights", Ok (value m "dc:rights"));
      ("tiff:Copyright", Ok (VStr (alt_default (alts (value m "dc:rights")))))]) ++
   if_found (found d ns_xmpbase_NsXmp) (fun m =>
     only_if (negb (unset m "xmp:ModifyDate"))
       [("xmp:ModifyDate", Ok (value m "xmp:ModifyDate"));
        ("tiff:DateTime", conv "exif.Date" [value m "xmp:ModifyDate"]);
        ("exif:SubSecTime", conv "Nanosecond" [value m "xmp:ModifyDate"])] ++
     only_if (unset m "xmp:CreatorTool")
       [("xmp:CreatorTool", Ok (value m "xmp:CreatorTool")); ("tiff:Software", Ok (value m "xmp:CreatorTool"))]) ++
   if_found (found d ns_tiff_NsTiff) (fun m => map (fun f => (f, Ok (value m f))) tiff_fields) ++
   if_found (found d ns_ps_NsPhotoshop) (fun m =>
     only_if (negb (unset m "photoshop:DateCreated"))
       [("photoshop:DateCreated", Ok (value m "photoshop:DateCreated"));
        ("exif:DateTimeOriginal", conv "exif.Date" [value m "photoshop:DateCreated"]);
        ("exif:SubSecTimeOriginal", conv "Nanosecond" [value m "photoshop:DateCreated"])]))%list.

Definition assigns_from (d : doc) (x : model) : assigns :=
  let h := home x in
  if h =? "pdf" then pdf_from d x
  else if h =? "tiff" then tiff_from d x
  else if h =? "riffinfo" then riff_from d x
  else if h =? "id3" then id3_from d x
  else if h =? "exif" then exif_from d x
  else [].
Fixpoint run_assigns (i : nat) (l : assigns) (d : doc) : doc * result unit :=
  match l with
  | [] => (d, Ok tt)
  | (f, v) :: r => match set_at d i false f v with
                   | (d', Ok _) => run_assigns i r d'
                   | (d', e) => (d', e)
                   end
  end.

(* xmp/document.go:84-93 *)
Fixpoint sync_from_loop (k i : nat) (d : doc) : doc * result unit :=
  match k with
  | 0 => (d, Ok tt)
  | S k' =>
      match model_at d i with
      | None => sync_from_loop k' (S i) d
      | Some m =>
          match run_assigns i (assigns_from d m) d with
          | (d', Ok _) => sync_from_loop k' (S i) d'
          | (d', e) => (d', e)
          end
      end
  end.
Definition sync_from_xmp (d : doc) : doc * result unit := sync_from_loop (List.length (d_nodes d)) 0 d.
End Sync.
