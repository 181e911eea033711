(* What documents of the models of the library say, and which models speak about the same things. Used in PropSync.v. *)
From Coq Require Import List Arith ZArith Bool Ascii String.
From Verif Require Import GoStr GoMap Names RegistryM NodeM DocM ArrayM CodecM TypeM DecodeM SpecTrip ModelTypes.
Import ListNotations.
Local Open Scope string_scope.

Section S.
Context {X : Type}.
Variable cdc : string -> codec X.
Variable den_zero : gval X -> bool.
Variable conv : string -> list (gval X) -> result (gval X).
Notation model := (tmodel X).
Notation gval := (gval X).
Notation doc := (doc (tmodel X)).

(* the field of a model with an xmp tag: its type and value *)
Definition field (x : model) (f : string) : option (ty X * gval) :=
  match find (fun p => f_name (fst (fst p)) =? f) (combine (k_fields (tm_kind x)) (tm_vals x)) with
  | Some ((_, t), v) => Some (t, v)
  | None => None
  end.
Definition own (x : model) (f : string) : gval := match field x f with Some (_, v) => v | None => VNil end.
Definition own_text (x : model) (f : string) : string := match own x f with VStr s => s | _ => "" end.
Definition own_texts (x : model) (f : string) : list string :=
  match own x f with VArr l _ => map (fun v => match v with VStr s => s | _ => "" end) l | _ => [] end.
Definition is_a (x : model) (p : string) : bool := k_can (tm_kind x) p.

(* a value that is set *)
Definition seen (t : ty X) (v : gval) : option gval := if is_empty t v then None else Some v.
(* What the document says about property f: what the first model for the prefix p has in the field with that tag, if it is set. *)
Definition said (d : doc) (p f : string) : option gval :=
  match find (fun m => is_a m p) (models_of d) with
  | Some m => match field m f with Some (t, v) => seen t v | None => None end
  | None => None
  end.

(* a document of models of the library *)
Definition library_values (d : doc) : Prop :=
  Forall (fun m => In (tm_kind m) (library_models cdc den_zero) /\ List.length (tm_vals m) = List.length (k_fields (tm_kind m)))
         (models_of d).

(* ---- which models have something to say about the properties of others -------------------------------------- *)

Definition if_a (x : model) (p : string) (l : list gval) : list gval := if is_a x p then l else [].
Definition if_set (x : model) (f : string) (l : list gval) : list gval :=
  match field x f with Some (t, v) => if is_empty t v then [] else l | None => [] end.
Definition one_alt (lang s : string) : gval := VAlt (if emptyb s then [] else [AltItem s lang true]).
Definition strs (l : list string) : gval := VArr (map VStr l) [].
Definition good (r : result gval) : list gval := match r with Ok v => [v] | _ => [] end.

(* a property of a model of the library; what another model proposes for it, and what another model demands *)
Record shared := Shared {
  sh_prefix : string; sh_name : string; sh_type : ty X;
  proposes : model -> list gval;
  demands : model -> list gval
}.
Definition no_one : model -> list gval := fun _ => [].
Definition only (p f : string) : model -> list gval := fun x => if_a x p (if_set x f [own x f]).
Definition copied : list shared :=
  [Shared "dc" "dc:title" (TAlt true)
     (fun x => if_a x "pdf" [own x "dc:title"] ++ if_a x "riffinfo" [own x "riffinfo:name"]
               ++ if_a x "id3" [one_alt (own_text x "id3:language") (own_text x "id3:titleDescription")])%list no_one;
   Shared "dc" "dc:creator" (t_xmp_StringList cdc)
     (fun x => if_a x "pdf" [own x "dc:creator"]
               ++ if_a x "tiff" (own x "dc:creator" :: if_set x "tiff:Artist" [strs (split_str "," (own_text x "tiff:Artist"))]))%list no_one;
   Shared "dc" "dc:description" (TAlt true)
     (fun x => if_a x "pdf" [own x "dc:description"]
               ++ if_a x "tiff" [own x "dc:description"; own x "tiff:ImageDescription"])%list no_one;
   Shared "dc" "dc:rights" (TAlt true)
     (fun x => if_a x "pdf" [one_alt "" (own_text x "pdf:Copyright")]
               ++ if_a x "tiff" [own x "dc:rights"; own x "tiff:Copyright"]
               ++ if_a x "id3" [one_alt (own_text x "id3:language") (own_text x "id3:copyright")])%list no_one;
   Shared "xmp" "xmp:ModifyDate" (t_xmp_Date cdc)
     (fun x => if_a x "pdf" [own x "xmp:ModifyDate"] ++ if_a x "tiff" [own x "xmp:ModifyDate"; own x "tiff:DateTime"])%list no_one;
   Shared "xmp" "xmp:CreatorTool" TStr
     (fun x => if_a x "pdf" [own x "xmp:CreatorTool"] ++ if_a x "tiff" [own x "xmp:CreatorTool"])%list no_one].
Definition overwritten : list shared :=
  [Shared "xmp" "xmp:CreateDate" (t_xmp_Date cdc) (fun x => if_a x "pdf" [own x "xmp:CreateDate"]) (only "id3" "id3:recordingTime");
   Shared "xmpRights" "xmpRights:WebStatement" TStr no_one (only "id3" "id3:copyrightInformation");
   Shared "xmpDM" "xmpDM:album" TStr no_one (only "id3" "id3:albumTitle");
   Shared "xmpDM" "xmpDM:composer" TStr no_one (only "id3" "id3:composer");
   Shared "xmpDM" "xmpDM:artist" TStr no_one (only "id3" "id3:leadPerformer");
   Shared "xmpDM" "xmpDM:engineer" TStr no_one (only "id3" "id3:modifiedBy");
   Shared "xmpDM" "xmpDM:genre" TStr no_one
     (fun x => if_a x "id3" (if_set x "id3:contentType" [VStr (join ", " (own_texts x "id3:contentType"))]));
   Shared "xmpDM" "xmpDM:lyrics" TStr no_one
     (fun x => if_a x "id3" (if_set x "id3:unsynchronizedLyrics" [VStr (join (String "010"%char "") (own_texts x "id3:unsynchronizedLyrics"))]));
   Shared "xmpDM" "xmpDM:partOfCompilation" (t_xmp_Bool cdc) no_one
     (fun x => if_a x "id3" (good (conv "xmp.Bool(id3.Bool)" [own x "id3:isCompilation"])));
   Shared "xmpDM" "xmpDM:discNumber" (TInt 64) no_one
     (fun x => if_a x "id3" (if_set x "id3:partOfASet" (good (conv "TrackNum.Track" [own x "id3:partOfASet"]))));
   Shared "xmpDM" "xmpDM:logComment" TStr no_one
     (fun x => if_a x "id3" (if_set x "id3:comments" [own x "id3:comments"]) ++ if_a x "iXML" [own x "iXML:note"])%list;
   Shared "xmpDM" "xmpDM:trackNumber" (TInt 64) no_one
     (fun x => if_a x "id3" (if_set x "id3:trackNumber" (good (conv "TrackNum.Track" [own x "id3:trackNumber"])))
               ++ if_a x "iXML" [own x "iXML:take"])%list;
   Shared "xmpDM" "xmpDM:tapeName" TStr no_one (fun x => if_a x "iXML" [own x "iXML:soundRoll"]);
   Shared "xmpDM" "xmpDM:scene" TStr no_one (fun x => if_a x "iXML" [own x "iXML:sceneName"]);
   Shared "xmpDM" "xmpDM:projectName" TStr no_one (fun x => if_a x "iXML" [own x "iXML:project"]);
   Shared "xmpDM" "xmpDM:good" (t_xmp_Bool cdc) no_one
     (fun x => if_a x "iXML" (good (conv "xmp.Bool(ixml.Bool)" [own x "iXML:circled"])))].

(* SyncToXMP of an ID3 model panics if it has the date and the time of ID3 v2.3 but no recording time *)
Definition set_ (x : model) (f : string) : bool := match field x f with Some (t, v) => negb (is_empty t v) | None => false end.
Definition savable (x : model) : Prop :=
  is_a x "id3" = true -> set_ x "id3:date_v23" = true -> set_ x "id3:time_v23" = true -> set_ x "id3:recordingTime" = true.

(* properties of models with fields for native formats that are computed from these *)
Definition of_exif : list string :=
  ["photoshop:DateCreated"; "xmp:ModifyDate"; "dc:creator"; "dc:description"; "dc:rights"; "xmp:CreatorTool"; "exif:PhotographicSensitivity";
   "exif:DateTimeDigitized"; "exif:GPSLatitude"; "exif:GPSLongitude"; "exif:GPSDestLatitude"; "exif:GPSDestLongitude"; "exif:GPSTimeStamp"].
Definition of_riff : list string := ["riffinfo:DateTimeOriginal"; "riffinfo:EncodedBy"; "riffinfo:Starring"].
(* all properties that saving may change *)
Definition saving_changes (m : model) (f : string) : Prop :=
  Exists (fun s => is_a m (sh_prefix s) = true /\ sh_name s = f) (copied ++ overwritten)
  \/ is_a m "xmpDM" = true /\ In f ["xmpDM:startTimecode"; "xmpDM:audioSampleRate"]
  \/ is_a m "exif" = true /\ In f of_exif
  \/ is_a m "riffinfo" = true /\ In f of_riff.

(* Properties of EXIF and RIFF models that saving computes from their native fields: the new values (at most one), and whether they
   replace a value that is set. A native field without xmp tag is conv without arguments; it is unset if that fails. *)
Record derived := Derived { co_of : string; co_name : string; co_replaces : bool; co_new : model -> list gval }.
Definition native_value (f : string) : list gval := good (conv f []).
Definition coordinate (c r : string) : list gval :=
  filter (fun w => match w with VStr s => negb (emptyb s) | _ => false end)
    (flat_map (fun v => flat_map (fun w => good (conv "convertGPStoXMP" [v; w])) (native_value r)) (native_value c)).
Definition derived_properties : list derived :=
  [Derived "exif" "photoshop:DateCreated" true
     (fun x => if_set x "exif:DateTimeOriginal" (good (conv "convertDateToXMP" [own x "exif:DateTimeOriginal"; own x "exif:SubSecTimeOriginal"])));
   Derived "exif" "exif:DateTimeDigitized" true
     (fun x => flat_map (fun v => good (conv "convertDateToXMP" [v; own x "exif:SubSecTimeDigitized"])) (native_value "ExifInfo.DateTimeDigitized"));
   Derived "exif" "xmp:ModifyDate" true
     (fun x => if_set x "tiff:DateTime" (good (conv "convertDateToXMP" [own x "tiff:DateTime"; own x "exif:SubSecTime"])));
   Derived "exif" "dc:creator" true (fun x => if_set x "tiff:Artist" [strs (split_str ";" (own_text x "tiff:Artist"))]);
   Derived "exif" "dc:description" false (fun x => if_set x "tiff:ImageDescription" [one_alt "" (own_text x "tiff:ImageDescription")]);
   Derived "exif" "dc:rights" false (fun x => if_set x "tiff:Copyright" [one_alt "" (own_text x "tiff:Copyright")]);
   Derived "exif" "xmp:CreatorTool" false (fun x => if_set x "tiff:Software" [own x "tiff:Software"]);
   Derived "exif" "exif:PhotographicSensitivity" true
     (fun x => match own x "exif:ISOSpeedRatings" with VArr (s :: _) _ => [s] | _ => [] end);
   Derived "exif" "exif:GPSLatitude" true (fun _ => coordinate "ExifInfo.GPSLatitude" "ExifInfo.GPSLatitudeRef");
   Derived "exif" "exif:GPSLongitude" true (fun _ => coordinate "ExifInfo.GPSLongitude" "ExifInfo.GPSLongitudeRef");
   Derived "exif" "exif:GPSDestLatitude" true (fun _ => coordinate "ExifInfo.GPSDestLatitude" "ExifInfo.GPSDestLatitudeRef");
   Derived "exif" "exif:GPSDestLongitude" true (fun _ => coordinate "ExifInfo.GPSDestLongitude" "ExifInfo.GPSDestLongitudeRef");
   Derived "exif" "exif:GPSTimeStamp" true
     (fun _ => flat_map (fun v => good (conv "convertGPSTimestamp" (v :: native_value "ExifInfo.GPSTimeStamp"))) (native_value "ExifInfo.GPSDateStamp"));
   Derived "riffinfo" "riffinfo:DateTimeOriginal" false (fun _ => native_value "RiffInfo.DateTimeOriginal2");
   Derived "riffinfo" "riffinfo:EncodedBy" false (fun _ => native_value "RiffInfo.EncodedBy2");
   Derived "riffinfo" "riffinfo:Starring" false (fun _ => native_value "RiffInfo.Starring2")].
(* the value after saving *)
Definition after_saving (c : derived) (x : model) : gval :=
  match co_new c x with
  | v :: _ => if co_replaces c || negb (set_ x (co_name c)) then v else own x (co_name c)
  | [] => own x (co_name c)
  end.

(* d' is d but for the models' fields that [changes] names, and for new models of prefixes [made] which had none *)
Definition same_but (changes : model -> string -> Prop) (made : list string) (d d' : doc) : Prop :=
  d_about d' = d_about d /\ d_toolkit d' = d_toolkit d /\ d_ext d' = d_ext d
  /\ (forall i n, nth_error (d_nodes d) i = Some n -> exists n',
        nth_error (d_nodes d') i = Some n'
        /\ n_name n' = n_name n /\ n_attrs n' = n_attrs n /\ n_value n' = n_value n /\ n_nodes n' = n_nodes n
        /\ match n_model n with
           | None => n_model n' = None
           | Some m => exists m', n_model n' = Some m' /\ tm_kind m' = tm_kind m
                       /\ forall f, ~ changes m f -> field m' f = field m f
           end)
  /\ (forall i n', nth_error (d_nodes d') i = Some n' -> List.length (d_nodes d) <= i -> exists m p,
        n_model n' = Some m /\ In p made /\ is_a m p = true
        /\ In (tm_kind m) (library_models cdc den_zero)
        /\ (forall f, ~ changes m f -> field m f = field (TModel (tm_kind m) (k_init (tm_kind m))) f)
        /\ Forall (fun m => is_a m p = false) (models_of d)).

(* the value that is used: the last that is demanded, or else the one the document has, or else the first one proposed *)
Definition chosen (s : shared) (d : doc) : option gval :=
  match rev (flat_map (demands s) (models_of d)) with
  | v :: _ => seen (sh_type s) v
  | [] => match said d (sh_prefix s) (sh_name s) with
          | Some v => Some v
          | None => find (fun v => negb (is_empty (sh_type s) v)) (flat_map (proposes s) (models_of d))
          end
  end.

(* ---- reading --------------------------------------------------------------------------------------------- *)

(* When a document is read, the model for prefix mi_to gets in its field mi_field what the first model for prefix mi_from has
   in its field mi_source: always, or only if that is set. *)
Record mirror := Mirror { mi_to : string; mi_field : string; mi_from : string; mi_source : string; mi_always : bool }.
Definition mirrors : list mirror :=
  (map (fun f => Mirror "pdf" f "dc" f true) ["dc:title"; "dc:creator"; "dc:description"]
   ++ map (fun f => Mirror "pdf" f "xmp" f true) ["xmp:CreatorTool"; "xmp:CreateDate"; "xmp:ModifyDate"]
   ++ map (fun f => Mirror "tiff" f "dc" f true) ["dc:creator"; "dc:description"; "dc:rights"]
   ++ [Mirror "tiff" "xmp:ModifyDate" "xmp" "xmp:ModifyDate" true; Mirror "tiff" "xmp:CreatorTool" "xmp" "xmp:CreatorTool" false]
   ++ map (fun f => Mirror "riffinfo" f "dc" f false) ["dc:rights"; "dc:subject"; "dc:type"; "dc:description"]
   ++ [Mirror "riffinfo" "riffinfo:name" "dc" "dc:title" false; Mirror "riffinfo" "dc:source" "dc" "dc:source" true;
       Mirror "riffinfo" "xmp:CreateDate" "xmp" "xmp:CreateDate" false; Mirror "riffinfo" "xmp:CreatorTool" "xmp" "xmp:CreatorTool" true]
   ++ map (fun f => Mirror "riffinfo" f "xmpDM" f false) ["xmpDM:artist"; "xmpDM:logComment"; "xmpDM:genre"; "xmpDM:engineer"]
   ++ [Mirror "id3" "id3:recordingTime" "xmp" "xmp:CreateDate" false; Mirror "id3" "id3:leadPerformer" "xmpDM" "xmpDM:artist" false;
       Mirror "id3" "id3:albumTitle" "xmpDM" "xmpDM:album" false; Mirror "id3" "id3:comments" "xmpDM" "xmpDM:logComment" false;
       Mirror "id3" "id3:composer" "xmpDM" "xmpDM:composer" false; Mirror "id3" "id3:modifiedBy" "xmpDM" "xmpDM:engineer" false;
       Mirror "id3" "id3:copyrightInformation" "xmpRights" "xmpRights:WebStatement" false]
   ++ map (fun f => Mirror "exif" f "dc" f true) ["dc:creator"; "dc:description"; "dc:rights"]
   ++ [Mirror "exif" "xmp:ModifyDate" "xmp" "xmp:ModifyDate" false; Mirror "exif" "photoshop:DateCreated" "photoshop" "photoshop:DateCreated" false]
   ++ map (fun f => Mirror "exif" f "tiff" f true)
        ["tiff:BitsPerSample"; "tiff:Compression"; "tiff:ImageLength"; "tiff:ImageWidth"; "tiff:Make"; "tiff:Model"; "tiff:Orientation";
         "tiff:PhotometricInterpretation"; "tiff:PlanarConfiguration"; "tiff:PrimaryChromaticities"; "tiff:ReferenceBlackWhite";
         "tiff:ResolutionUnit"; "tiff:SamplesPerPixel"; "tiff:TransferFunction"; "tiff:WhitePoint"; "tiff:XResolution";
         "tiff:YCbCrCoefficients"; "tiff:YCbCrPositioning"; "tiff:YCbCrSubSampling"; "tiff:YResolution"])%list.
(* what the field of model m is to be after reading d *)
Definition mirrored (r : mirror) (d : doc) (m : model) : gval :=
  match find (fun s => is_a s (mi_from r)) (models_of d) with
  | Some s => if mi_always r || set_ s (mi_source r) then own s (mi_source r) else own m (mi_field r)
  | None => own m (mi_field r)
  end.
(* all fields that reading may change *)
Definition computed : list (string * string) :=
  [("pdf", "pdf:Copyright"); ("id3", "id3:titleDescription"); ("id3", "id3:copyright"); ("id3", "id3:contentType"); ("id3", "id3:trackNumber");
   ("id3", "id3:isCompilation"); ("id3", "id3:partOfASet"); ("id3", "id3:unsynchronizedLyrics"); ("exif", "exif:SubSecTimeDigitized");
   ("exif", "exif:PhotographicSensitivity"); ("exif", "tiff:Artist"); ("exif", "tiff:ImageDescription"); ("exif", "tiff:Copyright");
   ("exif", "tiff:DateTime"); ("exif", "exif:SubSecTime"); ("exif", "xmp:CreatorTool"); ("exif", "tiff:Software");
   ("exif", "exif:DateTimeOriginal"); ("exif", "exif:SubSecTimeOriginal")].
Definition reading_changes (m : model) (f : string) : Prop :=
  Exists (fun r => is_a m (mi_to r) = true /\ mi_field r = f) mirrors \/ Exists (fun c => is_a m (fst c) = true /\ snd c = f) computed.
End S.
