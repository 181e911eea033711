(* Dates and times: time.Parse and Time.Format of the Go standard library (as of Go 1.17, the version of /repo/go.mod) for the
   layouts of this library, xmp/xmp_types.go:87-299 (Date, Time), models/exif/types.go:63-135 (Date, convertDateToXMP),
   models/id3/types.go:52-104 (Time23, Date23) and models/pm/model.go:119-150 (Time).
   A time.Time is given by its fields on the clock of its location and the offset of the location at that
   moment; which location it is (UTC, Local or a fixed zone) and the monotonic clock are left out. *)
From Coq Require Import List Arith ZArith Bool Ascii String.
From Verif Require Import GoStr ArrayM CodecM.
Import ListNotations.
Local Open Scope string_scope.

(* time.Time; the offset is in seconds east of UTC *)
Record gtime := GTime {
  g_year : Z; g_month : Z; g_day : Z; g_hour : Z; g_min : Z; g_sec : Z; g_nsec : Z; g_off : Z
}.

(* time.isLeap, daysIn *)
Definition is_leap (y : Z) : bool := (y mod 4 =? 0)%Z && (negb (y mod 100 =? 0)%Z || (y mod 400 =? 0)%Z).
Definition days_in (m y : Z) : Z :=
  if (m =? 2)%Z && is_leap y then 29%Z
  else nth (Z.to_nat m) [0; 31; 28; 31; 30; 31; 30; 31; 31; 30; 31; 30; 31]%Z 0%Z.

(* time.Date: the days from 0001-01-01 to a date, and the seconds from 0001-01-01T00:00:00Z to a time *)
Definition days_before (m y : Z) : Z :=
  (nth (Z.to_nat m) [0; 0; 31; 59; 90; 120; 151; 181; 212; 243; 273; 304; 334] 0
   + (if (2 <? m) && is_leap y then 1 else 0))%Z.
Definition abs_days (y m d : Z) : Z :=
  ((y - 1) * 365 + (y - 1) / 4 - (y - 1) / 100 + (y - 1) / 400 + days_before m y + (d - 1))%Z.
Definition abs_sec (t : gtime) : Z :=
  (abs_days (g_year t) (g_month t) (g_day t) * 86400 + g_hour t * 3600 + g_min t * 60 + g_sec t - g_off t)%Z.

(* time.Time{} and Time.IsZero *)
Definition zero_time : gtime := GTime 1 1 1 0 0 0 0 0.
Definition time_is_zero (t : gtime) : bool := (abs_sec t =? 0)%Z && (g_nsec t =? 0)%Z.

(* ---- layouts ---- *)

(* the elements of a layout: time.stdLongYear, stdYear, stdZeroMonth, stdZeroDay, stdHour, stdZeroMinute, stdZeroSecond,
   stdFracSecond0, stdFracSecond9, stdNumColonTZ, stdNumTZ, stdISO8601ColonTZ *)
Inductive std := SLongYear | SYear | SMonth | SDay | SHour | SMinute | SSecond
  | SFrac0 (n : nat) | SFrac9 (n : nat) | SNumColonTZ | SNumTZ | SISOColonTZ.

Definition is_digit (c : ascii) : bool := match digit_val c with Some _ => true | None => false end.
Definition comma_or_period (c : ascii) : bool := Ascii.eqb c "." || Ascii.eqb c ",".

(* the length of the run of c at the start of s *)
Fixpoint run_len (c : ascii) (s : string) : nat :=
  match s with String d s' => if Ascii.eqb c d then S (run_len c s') else 0 | EmptyString => 0 end.
Definition digit_first (s : string) : bool := match s with String c _ => is_digit c | EmptyString => false end.

(* time.nextStdChunk at one position of the layout. The elements no layout of the library has (names of months and days,
   12-hour clock, numbers without leading zero, other zones) are left out. *)
Definition std_at (s : string) : option (std * string) :=
  if has_prefix_str "01" s then Some (SMonth, sdrop 2 s)
  else if has_prefix_str "02" s then Some (SDay, sdrop 2 s)
  else if has_prefix_str "04" s then Some (SMinute, sdrop 2 s)
  else if has_prefix_str "05" s then Some (SSecond, sdrop 2 s)
  else if has_prefix_str "06" s then Some (SYear, sdrop 2 s)
  else if has_prefix_str "15" s then Some (SHour, sdrop 2 s)
  else if has_prefix_str "2006" s then Some (SLongYear, sdrop 4 s)
  else if has_prefix_str "-0700" s then Some (SNumTZ, sdrop 5 s)
  else if has_prefix_str "-07:00" s then Some (SNumColonTZ, sdrop 6 s)
  else if has_prefix_str "Z07:00" s then Some (SISOColonTZ, sdrop 6 s)
  else match s with
       | String c (String d r) =>
           if comma_or_period c && (Ascii.eqb d "0" || Ascii.eqb d "9") then
             let n := run_len d (String d r) in
             if digit_first (sdrop n (String d r)) then None
             else Some ((if Ascii.eqb d "0" then SFrac0 n else SFrac9 n), sdrop n (String d r))
           else None
       | _ => None
       end.

(* a layout is literal text, element, literal text, element, ..., literal text *)
Definition layout := (list (string * std) * string)%type.
Fixpoint chunks_fuel (n : nat) (lit s : string) : layout :=
  match n with
  | O => ([], lit)
  | S n =>
      match s with
      | EmptyString => ([], lit)
      | String c s' =>
          match std_at s with
          | Some (e, rest) => let r := chunks_fuel n "" rest in ((lit, e) :: fst r, snd r)
          | None => chunks_fuel n (lit ++ String c "") s'
          end
      end
  end.
Definition chunks (s : string) : layout := chunks_fuel (S (String.length s)) "" s.

(* ---- time.Parse ---- *)

(* time.atoi *)
Definition time_atoi (s : string) : option Z :=
  match s with
  | String c s' =>
      if Ascii.eqb c "-" then option_map (fun n => (- Z.of_N n)%Z) (digits_acc 0 s')
      else if Ascii.eqb c "+" then option_map Z.of_N (digits_acc 0 s')
      else option_map Z.of_N (digits_acc 0 s)
  | EmptyString => Some 0%Z
  end.

(* time.getnum *)
Definition getnum (fixed : bool) (s : string) : option (Z * string) :=
  match s with
  | String a r =>
      match digit_val a with
      | Some x =>
          match r with
          | String b r' =>
              match digit_val b with
              | Some y => Some (Z.of_N (x * 10 + y), r')
              | None => if fixed then None else Some (Z.of_N x, r)
              end
          | EmptyString => if fixed then None else Some (Z.of_N x, r)
          end
      | None => None
      end
  | EmptyString => None
  end.

(* time.cutspace, skip *)
Fixpoint cutspace (s : string) : string :=
  match s with String c s' => if Ascii.eqb c " " then cutspace s' else s | EmptyString => s end.
Fixpoint skip_lit (prefix value : string) : option string :=
  match prefix with
  | EmptyString => Some value
  | String a p =>
      if Ascii.eqb a " " then
        match value with
        | String c _ => if Ascii.eqb c " " then skip_lit p (cutspace value) else None
        | EmptyString => skip_lit p value
        end
      else
        match value with
        | String c v => if Ascii.eqb c a then skip_lit p v else None
        | EmptyString => None
        end
  end.

(* time.parseNanoseconds on the first n bytes of s *)
Definition parse_nanoseconds (s : string) (n : nat) : option Z :=
  match s with
  | String c _ =>
      if comma_or_period c then
        let n := Nat.min n 10 in
        match time_atoi (stake (n - 1) (sdrop 1 s)) with
        | Some z => if (z <? 0)%Z then None else Some (z * 10 ^ Z.of_nat (10 - n))%Z
        | None => None
        end
      else None
  | EmptyString => None
  end.

Fixpoint digit_run (s : string) : nat :=
  match s with String c s' => if is_digit c then S (digit_run s') else 0 | EmptyString => 0 end.

(* the fields read so far; month and day are -1 and the zone is None before they are read *)
Record pstate := PState {
  p_year : Z; p_month : Z; p_day : Z; p_hour : Z; p_min : Z; p_sec : Z; p_nsec : Z; p_zone : option Z
}.
Definition p_start : pstate := PState 0 (-1) (-1) 0 0 0 0 None.

Definition set_year z (p : pstate) := PState z (p_month p) (p_day p) (p_hour p) (p_min p) (p_sec p) (p_nsec p) (p_zone p).
Definition set_month z (p : pstate) := PState (p_year p) z (p_day p) (p_hour p) (p_min p) (p_sec p) (p_nsec p) (p_zone p).
Definition set_day z (p : pstate) := PState (p_year p) (p_month p) z (p_hour p) (p_min p) (p_sec p) (p_nsec p) (p_zone p).
Definition set_hour z (p : pstate) := PState (p_year p) (p_month p) (p_day p) z (p_min p) (p_sec p) (p_nsec p) (p_zone p).
Definition set_min z (p : pstate) := PState (p_year p) (p_month p) (p_day p) (p_hour p) z (p_sec p) (p_nsec p) (p_zone p).
Definition set_sec z (p : pstate) := PState (p_year p) (p_month p) (p_day p) (p_hour p) (p_min p) z (p_nsec p) (p_zone p).
Definition set_nsec z (p : pstate) := PState (p_year p) (p_month p) (p_day p) (p_hour p) (p_min p) (p_sec p) z (p_zone p).
Definition set_zone z (p : pstate) := PState (p_year p) (p_month p) (p_day p) (p_hour p) (p_min p) (p_sec p) (p_nsec p) z.

(* a number of two digits within bounds *)
Definition ranged (lo hi : Z) (r : option (Z * string)) : option (Z * string) :=
  match r with Some (z, v) => if (lo <=? z)%Z && (z <=? hi)%Z then Some (z, v) else None | None => None end.

(* the seconds east of UTC from sign, hours and minutes *)
Definition zone_of (sg h m : string) : option Z :=
  match time_atoi h, time_atoi m with
  | Some hr, Some mm =>
      if sg =? "+" then Some ((hr * 60 + mm) * 60)%Z
      else if sg =? "-" then Some (- ((hr * 60 + mm) * 60))%Z
      else None
  | _, _ => None
  end.

(* one round of the loop of time.parse, after the literal text was skipped; [next] is the element that comes
   next in the layout *)
Definition is_frac (e : option std) : bool :=
  match e with Some (SFrac0 _) | Some (SFrac9 _) => true | _ => false end.
Definition parse_std (e : std) (next : option std) (p : pstate) (v : string) : option (pstate * string) :=
  match e with
  | SLongYear =>
      if Nat.ltb (String.length v) 4 || negb (digit_first v) then None
      else match time_atoi (stake 4 v) with Some y => Some (set_year y p, sdrop 4 v) | None => None end
  | SYear =>
      if Nat.ltb (String.length v) 2 then None
      else match time_atoi (stake 2 v) with
           | Some y => Some (set_year (if (69 <=? y)%Z then y + 1900 else y + 2000)%Z p, sdrop 2 v)
           | None => None
           end
  | SMonth => option_map (fun x => (set_month (fst x) p, snd x)) (ranged 1 12 (getnum true v))
  | SDay => option_map (fun x => (set_day (fst x) p, snd x)) (getnum true v)
  | SHour => option_map (fun x => (set_hour (fst x) p, snd x)) (ranged 0 23 (getnum false v))
  | SMinute => option_map (fun x => (set_min (fst x) p, snd x)) (ranged 0 59 (getnum true v))
  | SSecond =>
      match ranged 0 59 (getnum true v) with
      | None => None
      | Some (z, v) =>
          match v with
          | String c w =>
              if comma_or_period c && digit_first w && negb (is_frac next) then
                let n := S (digit_run w) in
                match parse_nanoseconds v n with
                | Some ns => Some (set_nsec ns (set_sec z p), sdrop n v)
                | None => None
                end
              else Some (set_sec z p, v)
          | EmptyString => Some (set_sec z p, v)
          end
      end
  | SFrac0 k =>
      if Nat.ltb (String.length v) (S k) then None
      else match parse_nanoseconds v (S k) with Some ns => Some (set_nsec ns p, sdrop (S k) v) | None => None end
  | SFrac9 _ =>
      match v with
      | String c w =>
          if comma_or_period c && digit_first w then
            let n := S (Nat.min 9 (digit_run w)) in
            match parse_nanoseconds v n with Some ns => Some (set_nsec ns p, sdrop n v) | None => None end
          else Some (p, v)
      | EmptyString => Some (p, v)
      end
  | SISOColonTZ | SNumColonTZ | SNumTZ =>
      let numeric :=
        match e with
        | SNumTZ =>
            if Nat.ltb (String.length v) 5 then None
            else match zone_of (stake 1 v) (stake 2 (sdrop 1 v)) (stake 2 (sdrop 3 v)) with
                 | Some z => Some (set_zone (Some z) p, sdrop 5 v) | None => None end
        | _ =>
            if Nat.ltb (String.length v) 6 then None
            else if negb (Ascii.eqb (byte_at v 3) ":") then None
            else match zone_of (stake 1 v) (stake 2 (sdrop 1 v)) (stake 2 (sdrop 4 v)) with
                 | Some z => Some (set_zone (Some z) p, sdrop 6 v) | None => None end
        end in
      match e, v with
      | SISOColonTZ, String c w => if Ascii.eqb c "Z" then Some (set_zone (Some 0%Z) p, w) else numeric
      | _, _ => numeric
      end
  end.

Fixpoint parse_loop (l : list (string * std)) (last : string) (p : pstate) (v : string) : option pstate :=
  match l with
  | [] => match skip_lit last v with Some EmptyString => Some p | _ => None end
  | (lit, e) :: r =>
      match skip_lit lit v with
      | Some v =>
          match parse_std e (match r with (_, e') :: _ => Some e' | [] => None end) p v with
          | Some (p, v) => parse_loop r last p v
          | None => None
          end
      | None => None
      end
  end.

(* the end of time.parse: defaults and the check of the day; without zone the location is UTC *)
Definition finish (p : pstate) : option gtime :=
  let m := if (p_month p <? 0)%Z then 1%Z else p_month p in
  let d := if (p_day p <? 0)%Z then 1%Z else p_day p in
  if (1 <=? d)%Z && (d <=? days_in m (p_year p))%Z
  then Some (GTime (p_year p) m d (p_hour p) (p_min p) (p_sec p) (p_nsec p) (match p_zone p with Some z => z | None => 0 end))
  else None.
Definition parse_layout (l : layout) (v : string) : option gtime :=
  match parse_loop (fst l) (snd l) p_start v with Some p => finish p | None => None end.
Definition time_parse (f v : string) : option gtime := parse_layout (chunks f) v.

(* ---- Time.Format ---- *)

(* time.appendInt *)
Fixpoint pad_zeros (k : nat) : string := match k with 0 => "" | S k => String "0" (pad_zeros k) end.
Definition append_int (z : Z) (w : nat) : string :=
  let s := itoa (Z.abs z) in
  (if (z <? 0)%Z then "-" else "") ++ pad_zeros (w - String.length s) ++ s.

(* the zone -07:00 or -0700; the seconds of the offset are dropped *)
Definition format_zone (sep : string) (off : Z) : string :=
  let zone := Z.quot off 60 in
  (if (zone <? 0)%Z then "-" else "+") ++ append_int (Z.abs zone / 60) 2 ++ sep ++ append_int (Z.abs zone mod 60) 2.

(* one element of Time.AppendFormat; fractions of a second are in no layout the library writes *)
Definition format_std (e : std) (t : gtime) : string :=
  match e with
  | SLongYear => append_int (g_year t) 4
  | SYear => append_int (Z.max 0 (g_year t) mod 100) 2
  | SMonth => append_int (g_month t) 2
  | SDay => append_int (g_day t) 2
  | SHour => append_int (g_hour t) 2
  | SMinute => append_int (g_min t) 2
  | SSecond => append_int (g_sec t) 2
  | SFrac0 _ | SFrac9 _ => ""
  | SNumColonTZ => format_zone ":" (g_off t)
  | SNumTZ => format_zone "" (g_off t)
  | SISOColonTZ => if (g_off t =? 0)%Z then "Z" else format_zone ":" (g_off t)
  end.
Definition format_layout (l : layout) (t : gtime) : string :=
  String.concat "" (map (fun x => fst x ++ format_std (snd x) t) (fst l)) ++ snd l.
Definition time_format (f : string) (t : gtime) : string := format_layout (chunks f) t.

Definition rfc3339 : string := "2006-01-02T15:04:05Z07:00".   (* time.RFC3339 *)

(* the first layout that fits: the loops at xmp/xmp_types.go:194-198, 277-281, models/exif/types.go:109-114 *)
Fixpoint first_fit (l : list string) (v : string) : option gtime :=
  match l with
  | [] => None
  | f :: l => match time_parse f v with Some t => Some t | None => first_fit l v end
  end.

(* ---- xmp.Date: xmp/xmp_types.go:87-216 ---- *)

(* xmp/xmp_types.go:107-109 Date.String *)
Definition date_string (t : gtime) : string := time_format rfc3339 t.
(* xmp/xmp_types.go:115-120 Date.MarshalText; None is nil *)
Definition date_marshal (t : gtime) : option string := if time_is_zero t then None else Some (date_string t).

(* xmp/xmp_types.go:122-153 *)
Definition date_formats : list string := [
  "2006-01-02T15:04:05.999999999";
  rfc3339;
  "2006-01-02T15:04-07:00";
  "2006-01-02";
  "2006-01-02 15:04:05";
  "2006-01-02T15:04:05.999999999Z07:00";
  "2006-01-02T15:04:05.999999999Z";
  "2006-01-02T15:04:05Z";
  "2006-01-02T15:04:05-0700";
  "2006:01:02 15:04:05.999";
  "2006/01/02T15:04:05-07:00";
  "06/01/02T15:04:05-07:00";
  "20060102T15h04m05-07:00";
  "20060102T15h04m05s-07:00";
  "2006-01-02T15:04:05";
  "2006-01-02T15:04Z";
  "2006-01-02T15:04";
  "2006-01-02 15:04";
  "2006:01:02";
  "2006-01";
  "2006";
  "15:04:05-07:00";
  "15:04:05";
  "150405-0700";
  "2006-01-02T00:00:00.000000000";
  "2006-01-00T00:00:00.000000000";
  "2006-00-00T00:00:00.000000000";
  "2006-01-02T00:00:00Z";
  "2006-01-00T00:00:00Z";
  "2006-00-00T00:00:00Z"
].

(* xmp/xmp_types.go:191-202 ParseDate *)
Definition parse_date (v : string) : result gtime :=
  if emptyb v then Err "invalid datetime"
  else match first_fit date_formats (repair_tz v) with Some t => Ok t | None => Err "invalid datetime" end.

(* xmp/xmp_types.go:204-216 Date.UnmarshalText *)
Definition date_unmarshal (old : gtime) (s : string) : result gtime :=
  if emptyb s then Ok zero_time else parse_date s.

(* xmp/xmp_types.go:228-239 DateList.UnmarshalXMP for a node with text only *)
Definition date_list_text (old : list gtime) (s : string) : result (list gtime) :=
  bind (parse_date s) (fun d => Ok (old ++ [d])%list).

(* ---- xmp.Time: xmp/xmp_types.go:243-299 ---- *)

(* xmp/xmp_types.go:254-256 Time.String *)
Definition time_string (t : gtime) : string := time_format "15:04:05-07:00" t.
(* xmp/xmp_types.go:262-267 Time.MarshalText *)
Definition time_marshal (t : gtime) : option string := if time_is_zero t then None else Some (time_string t).
(* xmp/xmp_types.go:269-273 *)
Definition time_formats : list string := ["15:04:05-07:00"; "15:04:05"; "150405-0700"].
(* xmp/xmp_types.go:275-284 ParseTime *)
Definition parse_time (v : string) : result gtime :=
  if emptyb v then Err "invalid time" else of_opt "invalid time" (first_fit time_formats v).
(* xmp/xmp_types.go:286-296 Time.UnmarshalText *)
Definition time_unmarshal (old : gtime) (s : string) : result gtime :=
  if emptyb s then Ok old else parse_time s.

(* ---- exif.Date: models/exif/types.go:63-116 ---- *)

Definition exif_date_format : string := "2006:01:02 15:04:05".   (* models/exif/types.go:30 *)
(* models/exif/types.go:77-82 Date.MarshalText *)
Definition exif_date_marshal (t : gtime) : option string :=
  if time_is_zero t then None else Some (time_format exif_date_format t).
(* models/exif/types.go:88-102 *)
Definition exif_formats : list string := [
  "2006-01-02T15:04:05.999999999";
  "2006-01-02T15:04:05.999999999Z07:00";
  "2006-01-02T15:04:05.999999999Z";
  "2006-01-02T15:04:05Z";
  "2006-01-02T15:04:05";
  "2006-01-02T15:04";
  "2006:01:02 15:04:05.999999999-07:00";
  "2006:01:02 15:04:05-07:00";
  "2006:01:02 15:04:05";
  "2006:01:02 15:04";
  "2006:01:02";
  "2006:01";
  "2006"
].
(* models/exif/types.go:104-116 Date.UnmarshalText *)
Definition exif_date_unmarshal (old : gtime) (s : string) : result gtime :=
  if emptyb s then Ok old else of_opt "invalid datetime" (first_fit exif_formats s).

(* models/exif/types.go:118-135 convertDateToXMP: the date and the error. [unix] is time.Unix, whose result is on
   the clock of the local zone. *)
Definition convert_date (unix : Z -> Z -> gtime) (d : gtime) (s : string) : gtime * option string :=
  if time_is_zero d then (zero_time, None) else
  let s := trim_space s in
  if negb (emptyb s) then (d, None)
  else match parse_int 64 s with
       | None => (d, Some "invalid subsecond format")
       | Some i => (unix (abs_sec d - 62135596800)%Z (i * 10 ^ (9 - Z.of_nat (String.length s)))%Z, None)
       end.

(* ---- id3: models/id3/types.go:36-104 ---- *)

Definition time23_format : string := "1504".   (* models/id3/types.go:37 *)
Definition date23_format : string := "0102".   (* models/id3/types.go:38 *)
(* models/id3/types.go:62-77 *)
Definition time23_unmarshal (old : gtime) (s : string) : result gtime := of_opt "invalid time" (time_parse time23_format s).
Definition time23_marshal (t : gtime) : option string := if time_is_zero t then None else Some (time_format time23_format t).
(* models/id3/types.go:89-104 *)
Definition date23_unmarshal (old : gtime) (s : string) : result gtime := of_opt "invalid date" (time_parse date23_format s).
Definition date23_marshal (t : gtime) : option string := if time_is_zero t then None else Some (time_format date23_format t).

(* ---- pm: models/pm/model.go:119-150 ---- *)

Definition pm_format : string := "150405-0700".   (* models/pm/model.go:121 *)
Definition pm_time_marshal (t : gtime) : option string := if time_is_zero t then None else Some (time_format pm_format t).
Definition pm_time_unmarshal (old : gtime) (s : string) : result gtime :=
  if emptyb s then Ok old else of_opt "invalid time" (time_parse pm_format s).
