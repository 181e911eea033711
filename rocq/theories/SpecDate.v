(* Vocabulary of the properties of dates and times, C92-C97: the calendar, the texts and what they denote. A moment is
   given by the record of DateM.v: the fields of calendar and clock, and the offset from UTC in seconds. *)
From Coq Require Import List Arith NArith ZArith Bool Ascii String.
From Verif Require Import GoStr Spec SpecCodec DateM.
Import ListNotations.
Local Open Scope string_scope.

(* ---- the calendar ---- *)
Definition leap (y : Z) : Prop := (4 | y)%Z /\ (~ (100 | y)%Z \/ (400 | y)%Z).
Inductive month_days (y : Z) : Z -> Z -> Prop :=
| long_month m : In m [1; 3; 5; 7; 8; 10; 12]%Z -> month_days y m 31
| short_month m : In m [4; 6; 9; 11]%Z -> month_days y m 30
| february_leap : leap y -> month_days y 2 29
| february : ~ leap y -> month_days y 2 28.
(* a day of the calendar; texts have four digits for the year *)
Definition calendar (y m d : Z) : Prop := (0 <= y <= 9999)%Z /\ exists n, month_days y m n /\ (1 <= d <= n)%Z.
Definition clock (h mi s : Z) : Prop := (0 <= h <= 23)%Z /\ (0 <= mi <= 59)%Z /\ (0 <= s <= 59)%Z.

(* ---- texts ---- *)
Definition dig (n : Z) : string := String (ascii_of_N (Z.to_N (48 + n))) "".
Definition two (z : Z) : string := dig (z / 10) ++ dig (z mod 10).
Definition four (z : Z) : string := two (z / 100) ++ two (z mod 100).
Definition day_text (sep : string) (y m d : Z) : string := four y ++ sep ++ two m ++ sep ++ two d.
Definition clock_text (h mi s : Z) : string := two h ++ ":" ++ two mi ++ ":" ++ two s.

(* a fraction of a second: a period and up to nine digits, with its value in nanoseconds *)
Inductive fraction : string -> Z -> Prop :=
| fraction_none : fraction "" 0
| fraction_digits ds : (1 <= List.length ds <= 9)%nat -> Forall (fun d => 0 <= d <= 9)%Z ds ->
    fraction ("." ++ String.concat "" (map dig ds))
      (fold_left (fun a d => a * 10 + d) ds 0 * 10 ^ Z.of_nat (9 - List.length ds))%Z.

(* a zone with hours and minutes, in seconds east of UTC; the zone a time may have: none (taken as UTC), Z or hours and minutes *)
Inductive num_zone (sep : string) : string -> Z -> Prop :=
| zone_east h m : (0 <= h <= 23)%Z -> (0 <= m <= 59)%Z -> num_zone sep ("+" ++ two h ++ sep ++ two m) (h * 3600 + m * 60)
| zone_west h m : (0 <= h <= 23)%Z -> (0 <= m <= 59)%Z -> num_zone sep ("-" ++ two h ++ sep ++ two m) (- (h * 3600 + m * 60)).
Inductive opt_zone : string -> Z -> Prop :=
| opt_zone_none : opt_zone "" 0
| opt_zone_utc : opt_zone "Z" 0
| opt_zone_num z o : num_zone ":" z o -> opt_zone z o.

(* ---- what the texts denote ---- *)
(* the forms of the XMP specification (ISO 8601): year, month, day, and day with a time to the minute, to the second and
   with a fraction *)
Inductive iso : string -> gtime -> Prop :=
| iso_year y : (0 <= y <= 9999)%Z -> iso (four y) (GTime y 1 1 0 0 0 0 0)
| iso_month y m : (0 <= y <= 9999)%Z -> (1 <= m <= 12)%Z -> iso (four y ++ "-" ++ two m) (GTime y m 1 0 0 0 0 0)
| iso_day y m d : calendar y m d -> iso (day_text "-" y m d) (GTime y m d 0 0 0 0 0)
| iso_minute y m d h mi z o : calendar y m d -> clock h mi 0 -> opt_zone z o ->
    iso (day_text "-" y m d ++ "T" ++ two h ++ ":" ++ two mi ++ z) (GTime y m d h mi 0 0 o)
| iso_second y m d h mi s f ns z o : calendar y m d -> clock h mi s -> fraction f ns -> opt_zone z o ->
    iso (day_text "-" y m d ++ "T" ++ clock_text h mi s ++ f ++ z) (GTime y m d h mi s ns o).

(* the other forms named in the comments of xmp/xmp_types.go:122-153 *)
Inductive other_form : string -> gtime -> Prop :=
| form_exr y m d h mi s f ns : calendar y m d -> clock h mi s -> fraction f ns ->
    other_form (day_text "-" y m d ++ " " ++ clock_text h mi s ++ f) (GTime y m d h mi s ns 0)
| form_exr_minute y m d h mi : calendar y m d -> clock h mi 0 ->
    other_form (day_text "-" y m d ++ " " ++ two h ++ ":" ++ two mi) (GTime y m d h mi 0 0 0)
| form_mxf y m d h mi s f ns : calendar y m d -> clock h mi s -> fraction f ns ->
    other_form (day_text ":" y m d ++ " " ++ clock_text h mi s ++ f) (GTime y m d h mi s ns 0)
| form_arri_csv y m d h mi s z o : calendar y m d -> clock h mi s -> num_zone ":" z o ->
    other_form (day_text "/" y m d ++ "T" ++ clock_text h mi s ++ z) (GTime y m d h mi s 0 o)
| form_arri_csv_short y m d h mi s z o : calendar y m d -> (1969 <= y <= 2068)%Z -> clock h mi s -> num_zone ":" z o ->
    other_form (two (y mod 100) ++ "/" ++ two m ++ "/" ++ two d ++ "T" ++ clock_text h mi s ++ z) (GTime y m d h mi s 0 o)
| form_arri_qt y m d h mi s z o : calendar y m d -> clock h mi s -> num_zone ":" z o ->
    other_form (day_text "" y m d ++ "T" ++ two h ++ "h" ++ two mi ++ "m" ++ two s ++ z) (GTime y m d h mi s 0 o)
| form_arri_xml y m d h mi s z o : calendar y m d -> clock h mi s -> num_zone ":" z o ->
    other_form (day_text "" y m d ++ "T" ++ two h ++ "h" ++ two mi ++ "m" ++ two s ++ "s" ++ z) (GTime y m d h mi s 0 o)
| form_id3 y m d : calendar y m d -> other_form (day_text ":" y m d) (GTime y m d 0 0 0 0 0)
| form_iptc h mi s z o : clock h mi s -> num_zone ":" z o -> other_form (clock_text h mi s ++ z) (GTime 0 1 1 h mi s 0 o)
| form_iptc_local h mi s : clock h mi s -> other_form (clock_text h mi s) (GTime 0 1 1 h mi s 0 0)
| form_getty h mi s z o : clock h mi s -> num_zone "" z o -> other_form (two h ++ two mi ++ two s ++ z) (GTime 0 1 1 h mi s 0 o).

(* ---- moments ---- *)
(* a moment whose fields are those of a day and a clock, in a zone of whole minutes less than a day from UTC *)
Definition proper (t : gtime) : Prop :=
  calendar (g_year t) (g_month t) (g_day t) /\ clock (g_hour t) (g_min t) (g_sec t) /\ (0 <= g_nsec t < 10 ^ 9)%Z /\
  (60 | g_off t)%Z /\ (Z.abs (g_off t) < 24 * 3600)%Z.
Definition whole_second (t : gtime) : gtime :=
  GTime (g_year t) (g_month t) (g_day t) (g_hour t) (g_min t) (g_sec t) 0 (g_off t).
(* the same time of day on the day that stands for "no day" *)
Definition time_of_day (t : gtime) : gtime := GTime 0 1 1 (g_hour t) (g_min t) (g_sec t) 0 (g_off t).
(* the beginning of the calendar, which stands for "no date" *)
Definition no_date : gtime := GTime 1 1 1 0 0 0 0 0.

(* ---- EXIF and ID3 ---- *)
(* the forms exif.Date lists (models/exif/types.go:88-102) *)
Inductive exif_form : string -> gtime -> Prop :=
| exif_iso y m d h mi s f ns z o : calendar y m d -> clock h mi s -> fraction f ns -> opt_zone z o ->
    exif_form (day_text "-" y m d ++ "T" ++ clock_text h mi s ++ f ++ z) (GTime y m d h mi s ns o)
| exif_iso_minute y m d h mi : calendar y m d -> clock h mi 0 ->
    exif_form (day_text "-" y m d ++ "T" ++ two h ++ ":" ++ two mi) (GTime y m d h mi 0 0 0)
| exif_zone y m d h mi s f ns z o : calendar y m d -> clock h mi s -> fraction f ns -> num_zone ":" z o ->
    exif_form (day_text ":" y m d ++ " " ++ clock_text h mi s ++ f ++ z) (GTime y m d h mi s ns o)
| exif_plain y m d h mi s f ns : calendar y m d -> clock h mi s -> fraction f ns ->
    exif_form (day_text ":" y m d ++ " " ++ clock_text h mi s ++ f) (GTime y m d h mi s ns 0)
| exif_minute y m d h mi : calendar y m d -> clock h mi 0 ->
    exif_form (day_text ":" y m d ++ " " ++ two h ++ ":" ++ two mi) (GTime y m d h mi 0 0 0)
| exif_day y m d : calendar y m d -> exif_form (day_text ":" y m d) (GTime y m d 0 0 0 0 0)
| exif_month y m : (0 <= y <= 9999)%Z -> (1 <= m <= 12)%Z -> exif_form (four y ++ ":" ++ two m) (GTime y m 1 0 0 0 0 0)
| exif_year y : (0 <= y <= 9999)%Z -> exif_form (four y) (GTime y 1 1 0 0 0 0 0).
(* what the clock of a moment shows, read in UTC *)
Definition clock_in_utc (t : gtime) : gtime :=
  GTime (g_year t) (g_month t) (g_day t) (g_hour t) (g_min t) (g_sec t) 0 0.
(* the day of a year and the time of a day, without a year: the texts of the ID3 v2.3 frames TDAT (DDMM) and TIME (HHMM) *)
Definition tdat (m d : Z) : string := two d ++ two m.
Definition tim (h mi : Z) : string := two h ++ two mi.
