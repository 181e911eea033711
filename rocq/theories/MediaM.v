(* Small types of media models. The location of QuickTime metadata: models/qt/qt_metadata.go:125-165, models/qt/types.go:18, 49-58.
   Simplifications: a date is a value of any type, which the code only copies; the altitude is an exact decimal (NumM.v). Only the
   seven fields the two methods use are modelled. *)
From Coq Require Import List Arith ZArith NArith Bool Ascii String.
From Verif Require Import GoStr CodecM SpeedM NumM ArrayM.
Import ListNotations.
Local Open Scope nat_scope.
Local Open Scope string_scope.

Section S.
Context {D : Type}.

(* models/qt/types.go:49-58 *)
Record location := Location { lo_body : string; lo_date : D; lo_lon : string; lo_lat : string; lo_alt : fl; lo_name : string; lo_note : string; lo_role : Z }.
(* the native fields and the composite field: models/qt/qt_metadata.go:66-71, 109 *)
Record qt_meta := QtMeta { qm_body : string; qm_date : D; qm_iso : string; qm_name : string; qm_note : string; qm_role : Z; qm_location : option location }.

(* QtMetadata.SyncFromXMP: models/qt/qt_metadata.go:125-138 *)
Definition qt_sync_from (x : qt_meta) : qt_meta :=
  match qm_location x with
  | None => x
  | Some l => QtMeta (lo_body l) (lo_date l) (join "+" [lo_lat l; lo_lon l; format_fl (lo_alt l)]) (lo_name l) (lo_note l) (lo_role l) (Some l)
  end.

(* the loop over the parts, models/qt/qt_metadata.go:151-161; ParseFloat gives 0 with a syntax error *)
Definition qt_part (l : location) (i : nat) (v : string) : location :=
  match i with
  | 0 => Location (lo_body l) (lo_date l) (lo_lon l) v (lo_alt l) (lo_name l) (lo_note l) (lo_role l)
  | 1 => Location (lo_body l) (lo_date l) v (lo_lat l) (lo_alt l) (lo_name l) (lo_note l) (lo_role l)
  | 2 => let a := match parse_float (trim_suffix "/" v) with Some a => a | None => FDec 0 0 end in
         Location (lo_body l) (lo_date l) (lo_lon l) (lo_lat l) a (lo_name l) (lo_note l) (lo_role l)
  | _ => l
  end.
Fixpoint qt_parts (l : location) (i : nat) (vs : list string) : location :=
  match vs with [] => l | v :: r => qt_parts (qt_part l i v) (S i) r end.
(* QtMetadata.SyncToXMP: models/qt/qt_metadata.go:140-165 *)
Definition qt_sync_to (x : qt_meta) : qt_meta :=
  match qm_location x with
  | Some _ => x
  | None =>
      if negb (qm_iso x =? "") && negb (qm_name x =? "") then
        let l := Location (qm_body x) (qm_date x) "" "" (FDec 0 0) (qm_name x) (qm_note x) (qm_role x) in
        QtMeta (qm_body x) (qm_date x) (qm_iso x) (qm_name x) (qm_note x) (qm_role x) (Some (qt_parts l 0 (split_char "+" (qm_iso x))))
      else x
  end.
End S.
Arguments location D : clear implicits.
Arguments qt_meta D : clear implicits.

(* ---- RIFF lists of texts: models/riff/types.go:22-60 ---- *)

(* StringArray.UnmarshalText: models/riff/types.go:28-31 *)
Definition riff_strings (s : string) : list string := split_str "; " s.
(* AltString.UnmarshalText: models/riff/types.go:43-50 *)
Fixpoint riff_add_all (l : alt_string) (vs : list string) : result alt_string :=
  match vs with [] => Ok l | v :: r => bind (alt_add l "eng" v) (fun l' => riff_add_all l' r) end.
(* models/riff/types.go:43-50, starting from an empty list *)
Definition riff_alt (s : string) : result alt_string := riff_add_all [] (split_str "; " s).

(* ---- YCbCrSubSampling: models/tiff/types.go:21-52 ---- *)

(* YCbCrSubSampling.String: models/tiff/types.go:24-48 *)
Definition ycc_name (x : list Z) : string :=
  match x with
  | a :: b :: _ =>
      if (a =? 1)%Z && (b =? 1)%Z then "4:4:4" else if (a =? 1)%Z && (b =? 2)%Z then "4:4:0" else if (a =? 1)%Z && (b =? 4)%Z then "4:4:1"
      else if (a =? 2)%Z && (b =? 1)%Z then "4:2:2" else if (a =? 2)%Z && (b =? 2)%Z then "4:2:0" else if (a =? 2)%Z && (b =? 4)%Z then "4:2:1"
      else if (a =? 4)%Z && (b =? 1)%Z then "4:1:1" else if (a =? 4)%Z && (b =? 2)%Z then "4:1:0" else "undefined"
  | _ => "undefined"
  end.
(* YCbCrSubSampling.IsZero: models/tiff/types.go:50-52 *)
Definition ycc_zero (x : list Z) : bool :=
  match x with a :: b :: _ => (a =? 0)%Z && (b =? 0)%Z | _ => true end.
