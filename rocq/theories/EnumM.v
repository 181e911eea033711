(* Enumerations: the take types, location types, location times and timecode flags of iXML (models/ixml/enum.go) and the
   media types of iTunes (models/itunes/enum.go). *)
From Coq Require Import List ZArith Bool Ascii String.
From Verif Require Import GoStr RegistryM NodeM CodecM.
Import ListNotations.
Local Open Scope string_scope.

(* models/ixml/enum.go:72-93 ParseTakeType with the constants of 25-32 *)
Definition parse_take_type (s : string) : string :=
  if s =? "DEFAULT" then "DEFAULT" else if s =? "NO_GOOD" then "NO_GOOD" else if s =? "FALSE_START" then "FALSE_START"
  else if s =? "WILD_TRACK" then "WILD_TRACK" else if s =? "PICKUP" then "PICKUP" else if s =? "REHEARSAL" then "REHEARSAL"
  else if s =? "ANNOUNCEMENT" then "ANNOUNCEMENT" else if s =? "SOUND_GUIDE" then "SOUND_GUIDE" else s.
(* models/ixml/enum.go:131-140 ParseLocationType with the constants of 124-125 *)
Definition parse_location_type (s : string) : string :=
  if s =? "INT" then "INT" else if s =? "EXT" then "EXT" else s.
(* models/ixml/enum.go:211-232 ParseLocationTime with the constants of 198-205 *)
Definition parse_location_time (s : string) : string :=
  if s =? "SUNRISE" then "SUNRISE" else if s =? "MORNING" then "MORNING" else if s =? "MIDDAY" then "MIDDAY"
  else if s =? "DAY" then "DAY" else if s =? "AFTERNOON" then "AFTERNOON" else if s =? "EVENING" then "EVENING"
  else if s =? "SUNSET" then "SUNSET" else if s =? "NIGHT" then "NIGHT" else s.

(* models/ixml/enum.go:106-117, 171-182, 263-274: UnmarshalText of the three lists. strings.Split never gives an empty
   list here, so the early return is dead code. *)
Definition list_unmarshal (parse : string -> string) (old : list string) (s : string) : result (list string) :=
  match split_char "," s with [] => Ok old | l => Ok (map parse l) end.

(* models/ixml/enum.go:423-432 ParseTimecodeFlag with the constants of 418-420 *)
Definition parse_timecode_flag (s : string) : string :=
  if s =? "DF" then "DF" else if s =? "NDF" then "NDF" else "".
(* models/ixml/enum.go:434-442 TimecodeFlag.UnmarshalText *)
Definition timecode_flag_unmarshal (old : string) (s : string) : result string :=
  let f := parse_timecode_flag s in if f =? "" then Err "ixml: invalid timecode flag" else Ok f.

(* models/itunes/enum.go:40-69 MediaType.String with the constants of 28-37 *)
Definition media_type_string (x : Z) : string :=
  if Z.eqb x 0 then "Home Video" else if Z.eqb x 1 then "Music" else if Z.eqb x 2 then "Audiobook"
  else if Z.eqb x 5 then "Whacked Bookmark" else if Z.eqb x 6 then "Music Video" else if Z.eqb x 9 then "Movie"
  else if Z.eqb x 10 then "TV Show" else if Z.eqb x 11 then "Booklet" else if Z.eqb x 14 then "Ringtone"
  else if Z.eqb x 21 then "Podcast" else "(" ++ itoa x ++ ")".

(* models/dc/types.go:42-47 LocaleArray.Default *)
Definition locale_default (l : list string) : string := match l with [] => "" | s :: _ => s end.
