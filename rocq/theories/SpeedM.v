(* The time code of an iXML file: Speed.XmpTimecode (models/ixml/types.go:147-171), ParseTimecodeFormat
   (models/xmp_dm/types.go:547-577), Rational.Value (xmp/xmp_types.go:520-525). Simplification: the float64 numbers of the
   code are exact rational numbers here. *)
From Coq Require Import List Arith ZArith QArith Bool Ascii String.
From Verif Require Import GoStr CodecM.
Import ListNotations.
Local Open Scope string_scope.

(* xmp/xmp_types.go:520-525 *)
Definition rat_value (num den : Z) : Q :=
  if (den =? 0)%Z then 1%Q else Qmake (num * Z.sgn den) (Z.to_pos (Z.abs den)).

Definition qlt (a b : Q) : bool := negb (Qle_bool b a).
(* models/xmp_dm/types.go:547-577; the formats: models/xmp_dm/enum.go. Both cases of lines 567-571 give 5994DropTimecode. *)
Definition parse_timecode_format (f : Q) (drop : bool) : string :=
  if Qle_bool (23975 # 1000) f && qlt f (23997 # 1000) then "23976Timecode"
  else if Qeq_bool f 24 then "24Timecode"
  else if Qeq_bool f 25 then "25Timecode"
  else if qlt (2996 # 100) f && qlt f (2998 # 100) then (if drop then "2997DropTimecode" else "2997NonDropTimecode")
  else if Qeq_bool f 30 then "30Timecode"
  else if Qeq_bool f 50 then "50Timecode"
  else if qlt (5993 # 100) f && qlt f (5995 # 100) then (if drop then "5994DropTimecode" else "5994DropTimecode")
  else if Qeq_bool f 60 then "60Timecode"
  else "".

(* models/ixml/types.go:133-145, the fields that are read *)
Record speed := Speed {
  sp_num : Z; sp_den : Z;                                (* TimecodeRate *)
  sp_drop : bool;                                        (* TimecodeFlag == TimecodeFlagDF *)
  sp_hi : Z; sp_lo : Z;                                  (* TimestampSamplesSinceMidnightHI, LO *)
  sp_rate : Z                                            (* TimestampSampleRate *)
}.
Record timecode_out := TcOut { to_format : string; to_h : Z; to_m : Z; to_s : Z; to_f : Z; to_drop : bool }.

(* int64(f) of a float: truncation *)
Definition qtrunc (q : Q) : Z := Z.quot (Qnum q) (Zpos (Qden q)).
(* models/ixml/types.go:147-171. Division by zero panics. *)
Definition xmp_timecode (x : speed) : result timecode_out :=
  let samples := wrap64 (Z.lor (wrap64 (sp_hi x * 2 ^ 32)) (sp_lo x) * 1000) in
  let rate0 := wrap64 (sp_rate x * 1000) in
  let rate := if (rate0 =? 0)%Z then qtrunc (rat_value (sp_num x) (sp_den x) * 1000) else rate0 in
  if (rate =? 0)%Z then Panic
  else
    let sec := wrap64 (Z.quot samples rate) in
    let h := Z.quot sec 3600 in
    let m := Z.quot (wrap64 (sec - wrap64 (h * 3600))) 60 in
    let s := wrap64 (wrap64 (sec - wrap64 (h * 3600)) - wrap64 (m * 60)) in
    let f := Z.quot (wrap64 (Z.quot (wrap64 (Z.rem samples rate * sp_num x)) rate)) 1000 in
    Ok (TcOut (parse_timecode_format (rat_value (sp_num x) (sp_den x)) (sp_drop x)) h m s f (sp_drop x)).
