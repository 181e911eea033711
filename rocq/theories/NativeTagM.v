(* Native tags of the models: the struct tag under the key that is the name of the model's first namespace
   (xmp/native.go:52-60, 402-408, xmp/typeinfo.go:148, 198), the tag methods of the models, which pass the tag on to
   NativeM.v's functions, and the two that change it first: ExifInfo (models/exif/model.go:378-414) and ID3
   (models/id3/model.go:334-497). Simplifications: NativeM.v's; the texts of errors. *)
From Coq Require Import List Arith ZArith Bool Ascii String.
From Verif Require Import GoStr GoMap Names Semver RegistryM NodeM ArrayM TypeM TagM DecodeM ModelTypes NativeTags TPathM NativeM.
Import ListNotations.
Local Open Scope string_scope.

(* reflect.StructTag.Get *)
Fixpoint tag_get (key : string) (kv : list (string * string)) : string :=
  match kv with
  | [] => ""
  | (k, v) :: r => if k =? key then v else tag_get key r
  end.

Section Models.
Context {X : Type}.
Notation gval := (gval X).

(* a model: the Go type, its first namespace, its fields and their struct tags *)
Record lmodel := LModel { lm_go : string; lm_ns : namespace; lm_raw : list (@gofield X); lm_tags : struct_tags }.

Definition lm_key (m : lmodel) : string := ns_name (lm_ns m).
(* the struct getTypeInfo looks at; all fields of the models are exported *)
Definition lm_struct (m : lmodel) : list sfield := map (fun r => SField true (fst r) (tag_get (lm_key m) (snd r))) (lm_tags m).
Fixpoint retag (key : string) (r : list gofield) (tags : struct_tags) : list (@gofield X) :=
  match r, tags with
  | f :: r', t :: tags' => F (go_name f) (tag_get key (snd t)) (go_type f) :: retag key r' tags'
  | _, _ => []
  end.
(* the native fields with their types *)
Definition lm_fields (m : lmodel) : list (finfo * ty X) := fields (retag (lm_key m) (lm_raw m) (lm_tags m)).

(* GetTag, SetTag, CanTag, GetLocaleTag, SetLocaleTag and ListTags, e.g. models/riff/model.go:222-272. The calls of
   getTypeInfo: native.go:352-357, 251-254. *)
Definition lm_get (m : lmodel) (vs : list gval) (tag : string) : result string :=
  bind (type_info (lm_struct m)) (fun _ => get_native [lm_ns m] (lm_fields m) vs tag).
Definition lm_set (m : lmodel) (vs : list gval) (tag value : string) : list gval * result unit :=
  match type_info (lm_struct m) with
  | Ok _ => set_native [lm_ns m] (lm_fields m) vs tag value
  | Err e => (vs, Err e)
  | Panic => (vs, Panic)
  end.
Definition lm_can (m : lmodel) (vs : list gval) (tag : string) : result bool :=
  match lm_get m vs tag with Ok _ => Ok true | Err _ => Ok false | Panic => Panic end.
Variable text_elem : codec X -> bool.
Definition lm_get_locale (m : lmodel) (vs : list gval) (lang tag : string) : result string :=
  bind (type_info (lm_struct m)) (fun _ => get_locale text_elem [lm_ns m] (lm_fields m) vs lang tag).
Definition lm_set_locale (m : lmodel) (vs : list gval) (lang tag value : string) : list gval * result unit :=
  match type_info (lm_struct m) with
  | Ok _ => set_locale [lm_ns m] (lm_fields m) vs lang tag value
  | Err e => (vs, Err e)
  | Panic => (vs, Panic)
  end.
Definition lm_list (m : lmodel) (vs : list gval) : result (list tag) :=
  bind (type_info (lm_struct m)) (fun _ => list_native [lm_ns m] (lm_fields m) vs).

Variable cdc : string -> codec X.
Variable den_zero : gval -> bool.

(* the models by name; Namespaces methods: ModelTypes.v *)
Definition lm_riff : lmodel := LModel "riff.RiffInfo" ns_riff_NsRiff (fs_riff_RiffInfo cdc) st_riff_RiffInfo.
Definition lm_exif : lmodel := LModel "exif.ExifInfo" ns_exif_NsExif (fs_exif_ExifInfo cdc) st_exif_ExifInfo.
Definition lm_exifex : lmodel := LModel "exif.ExifEXInfo" ns_exif_NsExifEX (fs_exif_ExifEXInfo cdc) st_exif_ExifEXInfo.
Definition lm_id3 : lmodel := LModel "id3.ID3" ns_id3_NsID3 (fs_id3_ID3 cdc) st_id3_ID3.
Definition lm_dji : lmodel := LModel "dji.DJI" ns_dji_NsDJI (fs_dji_DJI cdc) st_dji_DJI.
Definition tagged_models : list lmodel := [
  LModel "cc.CC" ns_cc_NsCC fs_cc_CC st_cc_CC;
  LModel "crs.CameraRawInfo" ns_crs_NsCrs (fs_crs_CameraRawInfo cdc) st_crs_CameraRawInfo;
  LModel "dc.DublinCore" ns_dc_NsDc (fs_dc_DublinCore cdc) st_dc_DublinCore;
  LModel "digikam.Digikam" ns_digikam_NsDk (fs_digikam_Digikam cdc) st_digikam_Digikam;
  lm_dji; lm_exif; lm_exifex;
  LModel "exif.ExifAuxInfo" ns_exif_NsExifAux (fs_exif_ExifAuxInfo cdc) st_exif_ExifAuxInfo;
  lm_id3;
  LModel "itunes.ITunesMetadata" ns_itunes_NsITunes (fs_itunes_ITunesMetadata cdc) st_itunes_ITunesMetadata;
  LModel "ixml.IXML" ns_ixml_NsIXML (fs_ixml_IXML cdc) st_ixml_IXML;
  LModel "mp4.MP4Info" ns_mp4_NsMP4 (fs_mp4_MP4Info cdc) st_mp4_MP4Info;
  LModel "pdf.PDFInfo" ns_pdf_NsPDF (fs_pdf_PDFInfo cdc) st_pdf_PDFInfo;
  LModel "pm.Photomechanic" ns_pm_NsPm (fs_pm_Photomechanic cdc) st_pm_Photomechanic;
  LModel "ps.PhotoshopInfo" ns_ps_NsPhotoshop (fs_ps_PhotoshopInfo cdc) st_ps_PhotoshopInfo;
  LModel "qt.QtInfo" ns_qt_NsQuicktime (fs_qt_QtInfo cdc) st_qt_QtInfo;
  LModel "qt.QtUserdata" ns_qt_NsQuicktime (fs_qt_QtUserdata cdc) st_qt_QtUserdata;
  LModel "qt.QtMetadata" ns_qt_NsQuicktime (fs_qt_QtMetadata cdc) st_qt_QtMetadata;
  LModel "qt.QtPlayer" ns_qt_NsQuicktime (fs_qt_QtPlayer cdc) st_qt_QtPlayer;
  LModel "qt.QtProApps" ns_qt_NsQuicktime (fs_qt_QtProApps cdc) st_qt_QtProApps;
  lm_riff;
  LModel "tiff.TiffInfo" ns_tiff_NsTiff (fs_tiff_TiffInfo cdc) st_tiff_TiffInfo;
  LModel "xmpbase.XmpBase" ns_xmpbase_NsXmp (fs_xmpbase_XmpBase cdc) st_xmpbase_XmpBase;
  LModel "xmpbj.JobTicket" ns_xmpbj_NsXmpBJ fs_xmpbj_JobTicket st_xmpbj_JobTicket;
  LModel "xmpdm.XmpDM" ns_xmpdm_NsXmpDM (fs_xmpdm_XmpDM cdc den_zero) st_xmpdm_XmpDM;
  LModel "xmpmm.XmpMM" ns_xmpmm_NsXmpMM (fs_xmpmm_XmpMM cdc) st_xmpmm_XmpMM;
  LModel "xmprights.XmpRights" ns_xmprights_NsXmpRights (fs_xmprights_XmpRights cdc) st_xmprights_XmpRights;
  LModel "xmptpg.PagedText" ns_xmptpg_NsXmpTPg (fs_xmptpg_PagedText cdc) st_xmptpg_PagedText].

(* ---- ExifInfo ---- *)
(* models/exif/model.go:378-381 *)
Definition exif_can (vs : list gval) (tag : string) : result bool := lm_can lm_exif vs tag.
(* models/exif/model.go:383-390 *)
Definition exif_get (vs : list gval) (tag : string) : result string := lm_get lm_exif vs (to_lower tag).
(* models/exif/model.go:392-398 *)
Definition exif_set (vs : list gval) (tag value : string) : list gval * result unit := lm_set lm_exif vs (to_lower tag) value.
(* models/exif/model.go:400-407 *)
Definition exif_get_locale (vs : list gval) (lang tag : string) : result string := lm_get_locale lm_exif vs lang (to_lower tag).
(* models/exif/model.go:409-415 *)
Definition exif_set_locale (vs : list gval) (lang tag value : string) : list gval * result unit :=
  lm_set_locale lm_exif vs lang (to_lower tag) value.

(* ---- ID3 ---- *)
(* models/id3/model.go:336-344 *)
Definition v11_tags : list (string * string) :=
  [("0x0003", "TIT2"); ("0x0021", "TPE1"); ("0x003f", "TALB"); ("0x005d", "TYER"); ("0x0061", "COMM"); ("0x007d", "TRCK");
   ("0x007f", "TCON")].
(* models/id3/model.go:346-415 *)
Definition v22_tags : list (string * string) :=
  [("BUF", "RBUF"); ("CNT", "PCNT"); ("COM", "COMM"); ("CRA", "AENC"); ("CRM", "ENCR"); ("ETC", "ETCO");
   ("EQU", "EQU2"); ("GEO", "GEOB"); ("IPL", "TIPL"); ("LNK", "LINK"); ("MCI", "MCDI"); ("MLL", "MLLT");
   ("PIC", "APIC"); ("POP", "POPM"); ("REV", "RVRB"); ("RVA", "RVA2"); ("SLT", "SYLT"); ("STC", "SYTC");
   ("TAL", "TALB"); ("TBP", "TBPM"); ("TCM", "TCOM"); ("TCO", "TMED"); ("TCR", "TCOP"); ("TDA", "TDRC");
   ("TDY", "TDLY"); ("TEN", "TENC"); ("TFT", "TFLT"); ("TIM", "TDRC"); ("TKE", "TKEY"); ("TLA", "TLAN");
   ("TLE", "TLEN"); ("TMT", "TMED"); ("TOA", "TOPE"); ("TOF", "TOFN"); ("TOL", "TOLY"); ("TOR", "TORY");
   ("TOT", "TOAL"); ("TP1", "TPE1"); ("TP2", "TPE2"); ("TP3", "TPE3"); ("TP4", "TPE4"); ("TPA", "TPOS");
   ("TPB", "TPUB"); ("TRC", "TSRC"); ("TRD", "TDRC"); ("TRK", "TRCK"); ("TSI", "TSIZ"); ("TSS", "TSSE");
   ("TT1", "TIT1"); ("TT2", "TIT2"); ("TT3", "TIT3"); ("TXT", "TEXT"); ("TXX", "TXXX"); ("TYE", "TYER");
   ("UFI", "UFID"); ("ULT", "USLT"); ("WAF", "WOAF"); ("WAR", "WOAR"); ("WAS", "WOAS"); ("WCM", "WCOM");
   ("WCP", "WCOP"); ("WPB", "WPUB"); ("WXX", "WXXX"); ("TCP", "TCMP"); ("TST", "TSOT"); ("TS2", "TSO2");
   ("TSA", "TSOA"); ("TSP", "TSOP"); ("TSC", "TSOC")].
Fixpoint assoc_str (l : list (string * string)) (k : string) : option string :=
  match l with
  | [] => None
  | (a, b) :: r => if a =? k then Some b else assoc_str r k
  end.
(* models/id3/model.go:417-433 mapTagToV24 *)
Definition map_tag (tag : string) : result string :=
  if Nat.ltb 4 (String.length tag) then
    match assoc_str v11_tags tag with Some t => Ok t | None => Err "id3: unknown v1 tag" end
  else if Nat.ltb (String.length tag) 4 then
    match assoc_str v22_tags tag with Some t => Ok t | None => Err "id3: unknown v2.2 tag" end
  else Ok tag.
(* models/id3/model.go:435-442 *)
Definition id3_can (vs : list gval) (tag : string) : result bool :=
  match map_tag tag with Ok t => lm_can lm_id3 vs t | Err _ => Ok false | Panic => Panic end.
(* models/id3/model.go:444-454 *)
Definition id3_get (vs : list gval) (tag : string) : result string := bind (map_tag tag) (lm_get lm_id3 vs).
(* models/id3/model.go:456-465 *)
Definition id3_set (vs : list gval) (tag value : string) : list gval * result unit :=
  match map_tag tag with Ok t => lm_set lm_id3 vs t value | Err e => (vs, Err e) | Panic => (vs, Panic) end.
(* models/id3/model.go:467-479 *)
Definition id3_get_locale (vs : list gval) (lang tag : string) : result string :=
  bind (map_tag tag) (lm_get_locale lm_id3 vs lang).
(* models/id3/model.go:481-486: the tag is not mapped *)
Definition id3_set_locale (vs : list gval) (lang tag value : string) : list gval * result unit :=
  lm_set_locale lm_id3 vs lang tag value.
End Models.
Arguments lmodel : clear implicits.
