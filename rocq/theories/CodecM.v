(* Text codecs (MarshalText / UnmarshalText) of the value types of xmp/xmp_types.go, xmp/units.go and of the
   models. An UnmarshalText method is modelled as a function of the receiver's old value and of the text; it
   returns the new value, an error, or a panic. A MarshalText method that may return nil bytes (nothing is
   written) returns an option. Integers are Z; the Go width is a bound on them (int_ok 64). *)
From Coq Require Import List Arith ZArith Bool Ascii String.
Import ListNotations.
From Verif Require Import GoStr.
Local Open Scope string_scope.

(* ---- library functions ------------------------------------------------------------------- *)

(* two's complement reduction: conversion to int64 / uint32 (language specification) *)
Definition wrap64 (z : Z) : Z := ((z + 2 ^ 63) mod 2 ^ 64 - 2 ^ 63)%Z.
Definition u32 (z : Z) : Z := (z mod 2 ^ 32)%Z.

(* strings.Split(s, sep) for a non-empty separator; the fuel String.length s is enough, every separator found
   shortens the text *)
Fixpoint split_fuel (n : nat) (sep s : string) : list string :=
  match n with
  | 0 => [s]
  | S n' => match index sep s with
            | None => [s]
            | Some i => stake i s :: split_fuel n' sep (sdrop (i + String.length sep) s)
            end
  end.
Definition split_str (sep s : string) : list string := split_fuel (String.length s) sep s.

(* strings.Fields: maximal runs of non-space bytes *)
Fixpoint split_space (s : string) : list string :=
  match s with
  | EmptyString => [EmptyString]
  | String c r => if is_space c then EmptyString :: split_space r
                  else match split_space r with
                       | [] => [String c EmptyString]      (* unreachable *)
                       | x :: xs => String c x :: xs
                       end
  end.
Definition fields (s : string) : list string := filter (fun x => negb (emptyb x)) (split_space s).

(* fmt.Sscanf with two %d verbs (Go library). A %d verb skips blanks but not newlines, then reads an optional
   sign and at least one decimal digit and converts with ParseInt(_, 10, 64); a byte of the format must match;
   a blank of the format must match at least one blank. Input after the last verb is ignored. *)
Fixpoint skip_blank (s : string) : string :=
  match s with
  | String c r => if is_space c && negb (Ascii.eqb c "010") then skip_blank r else s
  | EmptyString => EmptyString
  end.
Fixpoint span_digits (s : string) : string * string :=
  match s with
  | String c r => match digit_val c with
                  | Some _ => let '(d, t) := span_digits r in (String c d, t)
                  | None => (EmptyString, s)
                  end
  | EmptyString => (EmptyString, EmptyString)
  end.
Definition scan_int (s : string) : option (Z * string) :=
  let s := skip_blank s in
  let '(sg, s1) := match s with
                   | String "-" r => ("-", r)
                   | String "+" r => ("+", r)
                   | _ => ("", s)
                   end in
  let '(d, t) := span_digits s1 in
  match parse_int 64 (sg ++ d) with Some z => Some (z, t) | None => None end.
Definition scan_lit (c : ascii) (s : string) : option string :=
  match s with String d r => if Ascii.eqb c d then Some r else None | EmptyString => None end.
(* a lone blank in the format *)
Definition scan_blank (s : string) : option string :=
  match s with
  | String c r => if is_space c && negb (Ascii.eqb c "010") then Some (skip_blank r) else None
  | EmptyString => Some EmptyString
  end.
(* "%d<c>%d" *)
Definition sscanf2 (sep : string -> option string) (s : string) : option (Z * Z) :=
  match scan_int s with
  | Some (a, r) => match sep r with
                   | Some r' => match scan_int r' with Some (b, _) => Some (a, b) | None => None end
                   | None => None
                   end
  | None => None
  end.

(* result of an optional value *)
Definition of_opt {A} (msg : string) (o : option A) : result A :=
  match o with Some a => Ok a | None => Err msg end.

(* ---- xmp/xmp_types.go --------------------------------------------------------------------- *)

(* xmp/xmp_types.go:64-69 Bool.MarshalText *)
Definition bool_marshal (x : bool) : string := if x then "True" else "False".
(* xmp/xmp_types.go:71-82 Bool.UnmarshalText *)
Definition bool_unmarshal (old : bool) (s : string) : result bool :=
  if (s =? "True") || (s =? "true") || (s =? "TRUE") then Ok true
  else if (s =? "False") || (s =? "false") || (s =? "FALSE") then Ok false
  else Err "invalid bool".

(* xmp/xmp_types.go:155-158, with StringList.Contains (xmp/array.go) *)
Definition illegal_zero (s : string) : bool := (s =? "--") || (s =? "00/00/00T00:00:00+00:00").

(* a byte of a string; the Go indexing expression is in range in repairTZ *)
Definition byte_at (s : string) (n : nat) : ascii := match String.get n s with Some c => c | None => "000"%char end.
Definition zone_sign (c : ascii) : bool := Ascii.eqb c "+" || Ascii.eqb c "-" || Ascii.eqb c "Z".

(* xmp/xmp_types.go:165-189 repairTZ *)
Definition repair_tz (v : string) : string :=
  if illegal_zero v then "0001-01-01T00:00:00Z" else
  let l := String.length v in
  if Nat.ltb l 20 then v else
  if zone_sign (byte_at v (l - 5)) then stake (l - 4) v ++ "0" ++ sdrop (l - 4) v
  else if zone_sign (byte_at v (l - 2)) then stake (l - 1) v ++ "0" ++ sdrop (l - 1) v ++ ":00"
  else if zone_sign (byte_at v (l - 6)) && negb (contains ":" (sdrop (l - 6) v))
       then stake (l - 5) v ++ sdrop (l - 4) v
  else v.

(* xmp/xmp_types.go:336-341 GUID.Issuer *)
Definition guid_issuer (x : string) : string :=
  match last_index_char ":" x with Some i => stake i x | None => "" end.

(* xmp/xmp_types.go:504-507 Rational *)
Record rational := Rat { r_num : Z; r_den : Z }.
(* xmp/xmp_types.go:527-537 Rational.String, MarshalText *)
Definition rat_marshal (x : rational) : string := itoa (r_num x) ++ "/" ++ itoa (r_den x).
(* xmp/xmp_types.go:568-600 Rational.UnmarshalText. The conversion of a decimal fraction (lines 577-586, floating
   point) is the parameter fl. *)
Definition rat_unmarshal (fl : string -> option rational) (old : rational) (s : string) : result rational :=
  if emptyb s then Ok old else
  of_opt "invalid rational"
    (if contains "." s then fl s
     else if contains "/" s then option_map (fun p => Rat (fst p) (snd p)) (sscanf2 (scan_lit "/") s)
     else if contains " " s then option_map (fun p => Rat (fst p) (snd p)) (sscanf2 scan_blank s)
     else option_map (fun n => Rat n 1) (parse_int 64 s)).

(* ---- xmp/units.go ------------------------------------------------------------------------- *)

(* the texts that stand for a missing number: xmp/units.go:53, 107 *)
Definition null_number (s : string) : bool :=
  (s =? "") || (s =? "-") || (s =? "--") || (s =? "---") || (s =? "NaN") || (s =? "unknown").

(* xmp/units.go:51-62, 64-78 NullInt.MarshalText, ParseNullInt, NullInt.UnmarshalText *)
Definition null_int_marshal (x : Z) : string := itoa x.
Definition null_int_unmarshal (old : Z) (s : string) : result Z :=
  if null_number s then Ok old else of_opt "invalid syntax" (parse_int 64 s).

(* xmp/units.go:105-129 SplitInt.UnmarshalText. u += uint32(v) << ((3-i)*8) in uint32. *)
Definition shift_add (u : Z) (v : Z) (i : Z) : Z := u32 (u + u32 (u32 v * 2 ^ ((3 - i) * 8))).
Definition split_int_unmarshal (old : Z) (s : string) : result Z :=
  if null_number s then Ok old else
  match parse_int 32 s with
  | Some i => Ok (u32 i)
  | None =>
      match split_char ":" s with
      | [f0; f1; f2; f3] =>
          match parse_int 8 f0, parse_int 8 f1, parse_int 8 f2, parse_int 8 f3 with
          | Some v0, Some v1, Some v2, Some v3 =>
              Ok (shift_add (shift_add (shift_add (shift_add 0 v0 0) v1 1) v2 2) v3 3)
          | _, _, _, _ => Err "invalid syntax"
          end
      | _ => Err "invalid syntax"
      end
  end.
(* SplitInt has no MarshalText: the encoder writes the kind uint32 in decimal (xmp/marshal.go:596-597) *)
Definition split_int_marshal (x : Z) : string := itoa x.

(* xmp/units.go:142-171 NullString *)
Definition null_string_marshal (x : string) : string := x.
Definition null_string_unmarshal (old s : string) : result string :=
  if negb (emptyb old) then Ok old else
  let s := trim_space s in
  if (s =? "") || (s =? "-") || (s =? "--") || (s =? "unknown") then Ok old else Ok s.

(* xmp/units.go:180-205 NullBool *)
Definition null_bool_marshal (x : bool) : string := format_bool x.
Definition null_bool_unmarshal (old : bool) (s : string) : result bool :=
  let d := to_lower s in
  if (d =? "") || (d =? "-") || (d =? "--") || (d =? "---") then Ok old
  else Ok ((d =? "true") || (d =? "on") || (d =? "yes") || (d =? "1") || (d =? "enabled")).

(* ---- models/xmp_dm/types.go --------------------------------------------------------------- *)

(* models/xmp_dm/types.go:316-319 FrameRate, 328-341 String, IsZero *)
Record frame_rate := FR { fr_rate : Z; fr_base : Z }.
Definition fr_zero (x : frame_rate) : bool := (fr_base x =? 0)%Z || (fr_rate x =? 0)%Z.
Definition fr_marshal (x : frame_rate) : string :=
  "f" ++ itoa (fr_rate x) ++ (if (1 <? fr_base x)%Z then "s" ++ itoa (fr_base x) else "").
(* models/xmp_dm/types.go:343-366 FrameRate.UnmarshalText *)
Definition fr_unmarshal (old : frame_rate) (s : string) : result frame_rate :=
  match s with
  | String "f" v =>
      let tokens := split_char "s" v in
      match parse_int 64 (nth 0 tokens "") with
      | None => Err "invalid frame rate"
      | Some r =>
          match (if Nat.ltb 1 (List.length tokens) then parse_int 64 (nth 1 tokens "") else Some 0%Z) with
          | None => Err "invalid frame rate"
          | Some b => Ok (FR r (if (b =? 0)%Z then 1%Z else b))
          end
      end
  | _ => Err "invalid frame rate"
  end.

(* models/xmp_dm/types.go:181-195 FrameCount, IsZero, Sub *)
Record frame_count := FC { fc_count : Z; fc_rate : frame_rate }.
Definition fc_zero_val : frame_count := FC 0 (FR 0 0).
Definition fc_zero (x : frame_count) : bool := (fc_count x =? 0)%Z && fr_zero (fc_rate x).
Definition fc_sub (x y : frame_count) : frame_count := FC (wrap64 (fc_count x - fc_count y)) (fc_rate x).
(* models/xmp_dm/types.go:228-244 FrameCount.String, MarshalText *)
Definition fc_marshal (x : frame_count) : string :=
  if (fc_count x =? 0)%Z then "0"
  else if (fc_count x =? -1)%Z then "maximum"
  else itoa (fc_count x) ++ fr_marshal (fc_rate x).
(* models/xmp_dm/types.go:201-226 FrameCount.UnmarshalText *)
Definition fc_unmarshal (old : frame_count) (s : string) : result frame_count :=
  bind (match index_char "f" s with
        | Some i => bind (fr_unmarshal (FR 1 1) (sdrop i s)) (fun r => Ok (r, stake i s))
        | None => Ok (FR 1 1, s)
        end)
       (fun p => let '(r, v) := p in
          if v =? "maximum" then Ok (FC (-1) r)
          else bind (of_opt "invalid counter" (parse_int 64 v)) (fun c => Ok (FC c r))).

(* models/xmp_dm/types.go:36-40 Part *)
Record part := Part { p_path : string; p_start : frame_count; p_dur : frame_count }.
(* models/xmp_dm/types.go:111-127 Part.MarshalText *)
Definition part_marshal (x : part) : string :=
  p_path x ++ (if negb (emptyb (p_path x)) && negb (has_suffix_str "/" (p_path x)) then "/" else "") ++
  (if fc_zero (p_dur x) then ""
   else "time:" ++ (if fc_zero (p_start x) then "" else fc_marshal (p_start x) ++ "d") ++ fc_marshal (p_dur x)).
(* models/xmp_dm/types.go:75-109 Part.UnmarshalText *)
Definition part_unmarshal (old : part) (s : string) : result part :=
  let tokens := split_str "time:" s in
  let path := nth 0 tokens "" in
  if negb (Nat.ltb 1 (List.length tokens)) then Ok (Part path fc_zero_val fc_zero_val) else
  let t := nth 1 tokens "" in
  match index_char "d" t with
  | Some i =>
      bind (fc_unmarshal fc_zero_val (stake i t)) (fun st =>
      bind (fc_unmarshal fc_zero_val (sdrop (i + 1) t)) (fun du => Ok (Part path st du)))
  | None =>
      match index_char "r" t with
      | Some i =>
          bind (fc_unmarshal fc_zero_val (stake i t)) (fun st =>
          bind (fc_unmarshal fc_zero_val (sdrop (i + 1) t)) (fun e => Ok (Part path st (fc_sub e st))))
      | None => bind (fc_unmarshal fc_zero_val t) (fun du => Ok (Part path fc_zero_val du))
      end
  end.

(* models/xmp_dm/types.go:159-169 PartList.MarshalText *)
Definition slash_prefix (b : string) : string := if has_prefix_str "/" b then b else "/" ++ b.
Definition parts_marshal (l : list part) : string := join ";" (map (fun p => slash_prefix (part_marshal p)) l).
(* models/xmp_dm/types.go:146-157 PartList.UnmarshalText *)
Fixpoint parts_read (l : list string) : result (list part) :=
  match l with
  | [] => Ok []
  | v :: r => bind (part_unmarshal (Part "" fc_zero_val fc_zero_val) v) (fun p =>
              bind (parts_read r) (fun ps => Ok (p :: ps)))
  end.
Definition parts_unmarshal (old : list part) (s : string) : result (list part) := parts_read (split_char ";" s).

(* models/xmp_dm/types.go:579-587 Timecode (Format is kept unchanged by both directions and left out) *)
Record timecode := TC { tc_value : string; tc_h : Z; tc_m : Z; tc_s : Z; tc_f : Z; tc_drop : bool }.
Definition two_digits (z : Z) : string := (if (z <? 10)%Z then "0" else "") ++ itoa z.
(* models/xmp_dm/types.go:589-615 Timecode.String *)
Definition tc_string (x : timecode) : string :=
  let sep := if tc_drop x then ";" else ":" in
  two_digits (tc_h x) ++ sep ++ two_digits (tc_m x) ++ sep ++ two_digits (tc_s x) ++ sep ++ two_digits (tc_f x).
(* models/xmp_dm/types.go:617-640 Timecode.Unpack. An error leaves the receiver partly changed, which is not
   modelled: the callers drop it (lines 668-671, 704-708). *)
Definition tc_unpack (x : timecode) : result timecode :=
  match split_char (if tc_drop x then ";" else ":") (tc_value x) with
  | h :: m :: s :: f :: _ =>
      match atoi h, atoi m, atoi s, atoi f with
      | Some h, Some m, Some s, Some f => Ok (TC (tc_value x) h m s f (tc_drop x))
      | _, _, _, _ => Err "invalid number"
      end
  | _ => Err "missing fields"
  end.
(* models/xmp_dm/types.go:660-671, 694-709: the value read from the timeValue text *)
Definition tc_unmarshal (s : string) : result timecode :=
  let v := if emptyb s then "00:00:00:00" else s in
  tc_unpack (TC v 0 0 0 0 (contains ";" v)).

(* ---- models/exif/types.go ----------------------------------------------------------------- *)

(* models/exif/types.go:34-44 ByteArray.String, MarshalText; a byte is a Z in 0..255 *)
Definition bytes_marshal (l : list Z) : string := join " " (map itoa l).
Fixpoint read_bytes (l : list string) : result (list Z) :=
  match l with
  | [] => Ok []
  | v :: r => match parse_uint 8 v with
              | Some b => bind (read_bytes r) (fun bs => Ok (b :: bs))
              | None => Err "invalid byte"
              end
  end.
(* models/exif/types.go:46-61 ByteArray.UnmarshalText *)
Definition bytes_unmarshal (old : list Z) (s : string) : result (list Z) :=
  match fields s with [] => Ok old | fs => read_bytes fs end.

(* make([]T, 0, n) with n an int: panics when n is negative or when the memory exceeds the address space
   (Go runtime makeslice: element size w, at most 2^48 bytes on amd64) *)
Definition make_ok (w n : Z) : bool := (0 <=? n)%Z && (n * w <=? 2 ^ 48)%Z.

(* models/exif/types.go:211-215 CFAPattern, 262-266 DeviceSettings and 159-164 OECF *)
Record grid (A : Type) := Grid { g_cols : Z; g_rows : Z; g_values : list A }.
Arguments Grid {A} _ _ _.
Arguments g_cols {A} _.
Arguments g_rows {A} _.
Arguments g_values {A} _.

Definition read_strings (l : list string) : result (list string) := Ok l.

(* models/exif/types.go:228-252 CFAPattern.UnmarshalText; element size 1 *)
(* models/exif/types.go:279-299 DeviceSettings.UnmarshalText; a string header has 16 bytes *)
Definition grid_unmarshal {A} (w : Z) (rd : list string -> result (list A)) (s : string) : result (grid A) :=
  match fields s with
  | [] => Ok (Grid 0 0 [])
  | c :: r0 =>
      match atoi c with
      | None => Err "invalid columns"
      | Some c =>
          match r0 with
          | [] => Ok (Grid c 0 [])
          | r :: vs =>
              match atoi r with
              | None => Err "invalid rows"
              | Some r => if make_ok w (wrap64 (c * r)) then bind (rd vs) (fun l => Ok (Grid c r l)) else Panic
              end
          end
      end
  end.
Definition cfa_unmarshal (s : string) : result (grid Z) := grid_unmarshal 1 read_bytes s.
Definition device_unmarshal (s : string) : result (grid string) := grid_unmarshal 16 read_strings s.

(* models/exif/types.go:159-164 OECF *)
Record oecf := OECF { o_cols : Z; o_rows : Z; o_names : list string; o_values : list rational }.
(* the loop body for i > 1: lines 192-200 *)
Fixpoint oecf_rest (fl : string -> option rational) (cols : Z) (i : Z) (l : list string)
    : result (list string * list rational) :=
  match l with
  | [] => Ok ([], [])
  | v :: r =>
      if (1 <? i)%Z && (i <? cols + 1)%Z
      then bind (oecf_rest fl cols (i + 1) r) (fun p => Ok (v :: fst p, snd p))
      else bind (rat_unmarshal fl (Rat 0 0) v) (fun x =>
           bind (oecf_rest fl cols (i + 1) r) (fun p => Ok (fst p, x :: snd p)))
  end.
(* models/exif/types.go:177-204 OECF.UnmarshalText; a string header has 16 bytes, a Rational too *)
Definition oecf_unmarshal (fl : string -> option rational) (s : string) : result oecf :=
  match fields s with
  | [] => Ok (OECF 0 0 [] [])
  | c :: r0 =>
      match atoi c with
      | None => Err "invalid columns"
      | Some c =>
          if negb (make_ok 16 c) then Panic else
          match r0 with
          | [] => Ok (OECF c 0 [] [])
          | r :: vs =>
              match atoi r with
              | None => Err "invalid rows"
              | Some r => if make_ok 16 (wrap64 (c * r))
                          then bind (oecf_rest fl c 2 vs) (fun p => Ok (OECF c r (fst p) (snd p)))
                          else Panic
              end
          end
      end
  end.

(* models/exif/types.go:309-315 Flash *)
Record flash := Flash { f_fired : bool; f_function : bool; f_mode : Z; f_red_eye : bool; f_return : Z }.
(* models/exif/types.go:321-335 Flash.UnmarshalText *)
Definition flash_unmarshal (old : flash) (s : string) : result flash :=
  if emptyb s then Ok old else
  match parse_int 32 s with
  | None => Err "invalid flash"
  | Some v => Ok (Flash (0 <? Z.land v 1)%Z (0 <? Z.land v 32)%Z (Z.land (Z.shiftr v 3) 3)%Z
                        (0 <? Z.land v 64)%Z (Z.land (Z.shiftr v 1) 3)%Z)
  end.

(* ---- other models -------------------------------------------------------------------------- *)

(* models/id3/types.go:177-180 TrackNum, 206-215 MarshalText, 190-204 UnmarshalText *)
Record track_num := Track { t_track : Z; t_total : Z }.
Definition track_marshal (x : track_num) : string :=
  if (t_total x =? 0)%Z then itoa (t_track x) else itoa (t_track x) ++ "/" ++ itoa (t_total x).
Definition track_unmarshal (old : track_num) (s : string) : result track_num :=
  of_opt "invalid track number"
    (if contains "/" s then option_map (fun p => Track (fst p) (snd p)) (sscanf2 (scan_lit "/") s)
     else option_map (fun n => Track n 0) (atoi s)).

(* models/crs/types.go:26-29, models/qt/types.go:65-68 Point *)
Record point := Pt { pt_x : Z; pt_y : Z }.
(* models/crs/types.go:35-45, 47-55 *)
Definition crs_point_marshal (p : point) : string := itoa (pt_x p) ++ ", " ++ itoa (pt_y p).
Definition crs_point_unmarshal (old : point) (s : string) : result point :=
  of_opt "invalid point"
    (option_map (fun p => Pt (fst p) (snd p))
       (sscanf2 (fun r => match scan_lit "," r with Some r' => scan_blank r' | None => None end) s)).
(* models/qt/types.go:74-108 *)
Definition qt_point_marshal (p : point) : option string :=
  if (pt_x p =? 0)%Z && (pt_y p =? 0)%Z then None else Some (itoa (pt_x p) ++ "," ++ itoa (pt_y p)).
Definition qt_point_unmarshal (old : point) (s : string) : result point :=
  of_opt "invalid point"
    (option_map (fun p => Pt (fst p) (snd p))
       (sscanf2 (if contains "/" s then scan_lit "/" else if contains ":" s then scan_lit ":"
                 else if contains " " s then scan_blank else if contains ";" s then scan_lit ";"
                 else scan_lit ",") s)).

(* models/itunes/types.go:70-75 and models/qt/types.go:110-115 ContentRating (same code in both) *)
Record content_rating := CR { cr_standard : string; cr_rating : string; cr_score : string; cr_reasons : string }.
(* models/itunes/types.go:81-92, 116-121 *)
Definition cr_marshal (x : content_rating) : option string :=
  if emptyb (cr_standard x) && emptyb (cr_rating x) then None
  else Some ("(" ++ cr_standard x ++ "|" ++ cr_rating x ++ "|" ++ cr_score x ++ "|" ++ cr_reasons x).
(* models/itunes/types.go:94-114 *)
Definition cr_unmarshal (old : content_rating) (s : string) : result content_rating :=
  let l := split_char "|" (trim_suffix ")" (trim_prefix "(" (trim_space s))) in
  Ok (CR (nth 1 l "") (nth 2 l "") (nth 3 l "") (nth 4 l "")).

(* models/ixml/types.go:32-49 Bool *)
Definition ixml_bool_marshal (x : bool) : string := if x then "TRUE" else "FALSE".
Definition ixml_bool_unmarshal (old : bool) (s : string) : result bool :=
  let d := to_lower s in
  if d =? "true" then Ok true else if d =? "false" then Ok false else Err "invalid bool".

(* models/ixml/enum.go:95-117, 160-182, 252-274: the lists of take types, location types and location times.
   ParseTakeType, ParseLocationType and ParseLocationTime return the string they are given for every string. *)
Definition words_marshal (l : list string) : option string := match l with [] => None | _ => Some (join "," l) end.
Definition words_unmarshal (old : list string) (s : string) : result (list string) := Ok (split_char "," s).

(* models/pm/model.go:153-158, 164-197 Preferences *)
Record prefs := Prefs { pr_tag : Z; pr_color : Z; pr_rating : Z; pr_frame : Z }.
Definition prefs_marshal (x : prefs) : string :=
  itoa (pr_tag x) ++ ":" ++ itoa (pr_color x) ++ ":" ++ itoa (pr_rating x) ++ ":" ++ itoa (pr_frame x).
Definition prefs_unmarshal (old : prefs) (s : string) : result prefs :=
  match split_char ":" s with
  | [a; b; c; d] =>
      match atoi a, atoi b, atoi c, atoi d with
      | Some a, Some b, Some c, Some d => Ok (Prefs a b c d)
      | _, _, _, _ => Err "invalid prefs"
      end
  | _ => Err "invalid prefs"
  end.

(* models/xmp_base/types.go:96-109 Identifier *)
Record identifier := Ident { id_id : string; id_scheme : string }.
Definition ident_marshal (x : identifier) : string :=
  (if emptyb (id_scheme x) then "" else id_scheme x ++ ":") ++ id_id x.
Definition ident_unmarshal (old : identifier) (s : string) : result identifier := Ok (Ident s (id_scheme old)).

(* models/id3/types.go:125-142 GenreV1. The table GenreMap (models/id3/enum.go:258-452) is the parameter [gm]; Go
   ranges over it in an unspecified order, here the order of the list. A GenreV1 is a byte. *)
Fixpoint genre_name (gm : list (Z * string)) (x : Z) : option string :=
  match gm with
  | [] => None
  | (k, v) :: r => if (k =? x)%Z then Some v else genre_name r x
  end.
Fixpoint genre_code (gm : list (Z * string)) (s : string) : option Z :=
  match gm with
  | [] => None
  | (k, v) :: r => if v =? s then Some k else genre_code r s
  end.
Definition genre_marshal (gm : list (Z * string)) (x : Z) : string :=
  match genre_name gm x with Some v => v | None => itoa x end.
Definition genre_parse (gm : list (Z * string)) (s : string) : option Z :=
  match genre_code gm s with
  | Some k => Some k
  | None => match atoi s with Some t => Some (t mod 256)%Z | None => None end
  end.
(* models/id3/types.go:146-172 Genre *)
Definition genres_marshal (l : list string) : string := join ", " l.
Definition genres_unmarshal (gm : list (Z * string)) (old : list string) (value : string) : result (list string) :=
  Ok (old ++ map (fun v => match genre_parse gm (trim_space v) with
                           | Some g => genre_marshal gm g
                           | None => if value =? "RX" then "Remix" else if value =? "CR" then "Cover" else value
                           end) (split_char "," value))%list.

(* ---- durations in media time attributes --------------------------------------------------- *)

(* strconv.Atoi with its error dropped: 0 for a syntax error, the nearest int64 when out of range *)
Definition atoi_lenient (s : string) : Z :=
  match atoi s with
  | Some z => z
  | None =>
      match s with
      | String "-" r => match parse_digits r with Some _ => (- 2 ^ 63)%Z | None => 0%Z end
      | String "+" r => match parse_digits r with Some _ => (2 ^ 63 - 1)%Z | None => 0%Z end
      | _ => match parse_digits s with Some _ => (2 ^ 63 - 1)%Z | None => 0%Z end
      end
  end.
(* models/xmp_dm/types.go:513-544 MediaTime.UnmarshalXMPAttr: the value in milliseconds; the scale is always 1/1000.
   int64(math.Pow10(9-n)) is 10^(9-n), and 0 for n > 9. *)
Definition media_time_ms (v : string) : Z :=
  let fs := split_char "." v in
  let d := match fs with
           | _ :: f1 :: _ =>
               match parse_int 64 f1 with
               | Some i => let n := Z.of_nat (String.length f1) in
                           if (n <=? 9)%Z then wrap64 (i * 10 ^ (9 - n)) else 0%Z
               | None => 0%Z
               end
           | _ => 0%Z
           end in
  let '(h, m, s) := match split_char ":" (nth 0 fs "") with
                    | [a; b; c] => (atoi_lenient a, atoi_lenient b, atoi_lenient c)
                    | [b; c] => (0%Z, atoi_lenient b, atoi_lenient c)
                    | [c] => (0%Z, 0%Z, atoi_lenient c)
                    | _ => (0%Z, 0%Z, 0%Z)
                    end in
  let dur := wrap64 (d + wrap64 (wrap64 (wrap64 (3600000000000 * h) + wrap64 (60000000000 * m)) + wrap64 (1000000000 * s))) in
  Z.quot dur 1000000.
