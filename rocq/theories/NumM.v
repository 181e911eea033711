(* Decimal numbers: NullFloat and NullFloat64 (xmp/units.go:309-451), the decimal form of Rational (xmp/xmp_types.go:539-586),
   GPS coordinates (models/exif/types.go:356-415). Simplifications: a finite floating point number is the decimal fraction
   that is its shortest text, arithmetic is exact (no rounding of binary fractions), there is no negative zero, and numbers
   out of the range of float64 are not refused. *)
From Coq Require Import List Arith ZArith NArith QArith Qround Qabs Bool Ascii String.
From Verif Require Import GoStr CodecM SpeedM.
Import ListNotations.
Local Open Scope nat_scope.
Local Open Scope string_scope.

Inductive fl := FNaN | FInf (neg : bool) | FDec (m : Z) (k : nat).          (* FDec m k is m / 10^k *)
Definition pow10 (k : nat) : Z := (10 ^ Z.of_nat k)%Z.
Definition dec_q (m : Z) (k : nat) : Q := Qmake m (Z.to_pos (pow10 k)).

(* ---- strconv.ParseFloat, the decimal notations (Go library); hexadecimal ones are not modelled ---- *)

Definition sign_of (s : string) : bool * string :=
  match s with String "-" r => (true, r) | String "+" r => (false, r) | _ => (false, s) end.
Definition exponent (s : string) : option Z :=
  match s with
  | EmptyString => Some 0%Z
  | String c r => if Ascii.eqb c "e" || Ascii.eqb c "E"
                  then let '(n, d) := sign_of r in
                       match parse_digits d with Some v => Some (if n then - Z.of_N v else Z.of_N v)%Z | None => None end
                  else None
  end.
Definition shift (m : Z) (k : nat) (e : Z) : fl :=
  let p := (Z.of_nat k - e)%Z in if (p <? 0)%Z then FDec (m * 10 ^ (- p)) 0 else FDec m (Z.to_nat p).
Definition parse_dec (s : string) : option fl :=
  let '(neg, s1) := sign_of s in
  let '(i, s2) := span_digits s1 in
  let '(f, s3) := match s2 with String "." r => span_digits r | _ => ("", s2) end in
  match parse_digits (i ++ f), exponent s3 with
  | Some n, Some e => Some (shift (if neg then - Z.of_N n else Z.of_N n) (String.length f) e)
  | _, _ => None
  end.
Definition parse_float (s : string) : option fl :=
  let l := to_lower s in
  if l =? "nan" then Some FNaN
  else if (l =? "inf") || (l =? "+inf") || (l =? "infinity") || (l =? "+infinity") then Some (FInf false)
  else if (l =? "-inf") || (l =? "-infinity") then Some (FInf true)
  else parse_dec s.

(* ---- strconv.FormatFloat(x, 'f', -1, _) and with a precision (Go library) ---- *)

Fixpoint zero_pad (n : nat) : string := match n with 0 => "" | S k => String "0" (zero_pad k) end.
(* the k digits of n < 10^k *)
Definition frac_digits (k : nat) (n : Z) : string := let d := itoa n in zero_pad (k - String.length d) ++ d.
Definition format_dec (m : Z) (k : nat) : string :=
  (if (m <? 0)%Z then "-" else "") ++ itoa (Z.abs m / pow10 k) ++
  match k with 0 => "" | _ => "." ++ frac_digits k (Z.abs m mod pow10 k) end.
(* the shortest form has no zeros at the end *)
Fixpoint shortest (m : Z) (k : nat) : Z * nat :=
  match k with 0 => (m, 0) | S j => if (m mod 10 =? 0)%Z then shortest (m / 10) j else (m, k) end.
Definition format_fl (x : fl) : string :=
  match x with
  | FNaN => "NaN"
  | FInf neg => if neg then "-Inf" else "+Inf"
  | FDec m k => let '(m', k') := shortest m k in format_dec m' k'
  end.

(* ---- NullFloat, NullFloat64: xmp/units.go:320-340, 393-411 ---- *)

(* the regular expression [^0-9e.+-] of line 319 *)
Definition float_char (c : ascii) : bool :=
  match digit_val c with
  | Some _ => true
  | None => Ascii.eqb c "e" || Ascii.eqb c "." || Ascii.eqb c "+" || Ascii.eqb c "-"
  end.
Fixpoint clean_float (s : string) : string :=
  match s with
  | EmptyString => EmptyString
  | String c r => if float_char c then String c (clean_float r) else clean_float r
  end.
(* None: EEmptyValue *)
Definition parse_null_float (d : string) : result (option fl) :=
  let l := to_lower d in
  if (l =? "") || (l =? "-") || (l =? "--") || (l =? "---") || (l =? "unknown") then Ok None
  else if l =? "nan" then Ok (Some FNaN)
  else if l =? "-inf" then Ok (Some (FInf true))
  else if (l =? "+inf") || (l =? "inf") then Ok (Some (FInf false))
  else match parse_float (clean_float d) with Some x => Ok (Some x) | None => Err "invalid syntax" end.
(* units.go:342-344, 346-356; 413-415, 417-427 *)
Definition null_float_marshal (x : fl) : string := format_fl x.
Definition null_float_unmarshal (old : fl) (s : string) : result fl :=
  match parse_null_float s with
  | Ok (Some x) => Ok x
  | Ok None => Ok old
  | Err e => Err e
  | Panic => Panic
  end.
(* units.go:358-370, 429-441. The JSON text of a finite number is the parameter num (encoding/json). *)
Definition null_float_json (num : Z -> nat -> string) (x : fl) : string :=
  match x with
  | FNaN => """NaN"""
  | FInf true => """+Inf"""
  | FInf false => """-Inf"""
  | FDec m k => num m k
  end.
(* bytes.Trim(data, a double quote) *)
Definition quote : ascii := """"%char.
Fixpoint trim_quotes_left (s : string) : string :=
  match s with String c r => if Ascii.eqb c quote then trim_quotes_left r else s | EmptyString => EmptyString end.
Fixpoint trim_quotes_right (s : string) : string :=
  match s with
  | EmptyString => EmptyString
  | String c r => match trim_quotes_right r with
                  | EmptyString => if Ascii.eqb c quote then EmptyString else String c EmptyString
                  | t => String c t
                  end
  end.
Definition trim_quotes (s : string) : string := trim_quotes_right (trim_quotes_left s).
(* units.go:372-380, 443-451 *)
Definition null_float_unjson (old : fl) (data : string) : result fl :=
  match data with
  | EmptyString => Ok old
  | String c _ => if Ascii.eqb c quote then null_float_unmarshal old (trim_quotes data) else null_float_unmarshal old data
  end.

(* ---- decimal rationals ---- *)

(* xmp/xmp_types.go:539-544: the loop ends before the fuel for numbers of 64 bits (NumFacts.v) *)
Fixpoint gcd_loop (fuel : nat) (x y : Z) : Z :=
  match fuel with
  | 0 => x
  | S n => if (y =? 0)%Z then x else gcd_loop n y (Z.rem x y)
  end.
Definition go_gcd (x y : Z) : Z := gcd_loop 130 x y.

(* xmp/xmp_types.go:546-566: the first case covers the next two *)
Definition float_to_rational (f : Q) : rational :=
  let den := if qlt 2147%Q f then 10000%Z else if qlt 214748%Q f then 100%Z else if qlt 21474836%Q f then 1%Z else 1000000%Z in
  let rnd := if qlt f 0%Q then (- (1 # 2))%Q else (1 # 2)%Q in
  let nom := qtrunc (f * inject_Z den + rnd)%Q in
  let g := go_gcd nom den in
  Rat (Z.quot nom g) (Z.quot den g).

(* xmp/xmp_types.go:577-586: the decimal case of Rational.UnmarshalText. int64 of an infinite number is left to the
   implementation: the parameter inf. *)
Definition decimal_rational (inf : Z) (v : string) : option rational :=
  match parse_float v with
  | Some (FDec m k) =>
      let f := dec_q m k in
      if qlt f 1%Q
      then Some (Rat 1 (Z.quot (if Qeq_bool f 0%Q then inf else qtrunc (1000 / f + 50)%Q) 1000))
      else Some (float_to_rational f)
  | Some FNaN => None
  | Some (FInf _) => None
  | None => None
  end.
Definition rational_unmarshal (inf : Z) : rational -> string -> result rational := rat_unmarshal (decimal_rational inf).

(* ---- GPS coordinates: models/exif/types.go:356 ---- *)

Record gps := Gps { g_deg : rational; g_min : rational; g_sec : rational }.
(* models/exif/types.go:358-373; the number of degrees fits an int. What int makes of NaN and infinities is the parameter odd. *)
Definition gps_unmarshal (odd : gps) (s : string) : result gps :=
  match parse_float s with
  | None => Err "invalid decimal GPS coordinate"
  | Some x =>
      if match s with String "-" _ => false | _ => Nat.ltb 3 (String.length (hd "" (split_char "." s))) end
      then Err "invalid decimal GPS coordinate"
      else match x with
           | FDec m k =>
               let val := Qabs (dec_q m k) in
               let degrees := Qfloor val in
               let minutes := Qfloor (60 * (val - inject_Z degrees))%Q in
               let seconds := (3600 * (val - inject_Z degrees - inject_Z minutes / 60))%Q in
               Ok (Gps (float_to_rational (inject_Z degrees)) (float_to_rational (inject_Z minutes)) (float_to_rational seconds))
           | _ => Ok odd
           end
  end.

(* rounding to the nearest, to even when two are as near *)
Definition round_even (q : Q) : Z :=
  let f := Qfloor q in
  let r := (q - inject_Z f)%Q in
  if qlt r (1 # 2)%Q then f else if qlt (1 # 2)%Q r then (f + 1)%Z else if Z.even f then f else (f + 1)%Z.
Definition frac_of (r : rational) : Q := rat_value (r_num r) (r_den r).
(* models/exif/types.go:375-396 *)
Definition gps_to_xmp (r : gps) (ref : string) : result string :=
  if ref =? "" then Ok ""
  else if (r_den (g_deg r) =? 0)%Z || (r_den (g_min r) =? 0)%Z || (r_den (g_sec r) =? 0)%Z then Err "invalid GPS coordinate"
  else
    let min := (frac_of (g_deg r) * 60 + frac_of (g_min r) + frac_of (g_sec r) / 60)%Q in
    let ideg := qtrunc (min / 60)%Q in
    let min := (min - inject_Z ideg * 60)%Q in
    Ok (itoa ideg ++ "," ++ format_dec (round_even (min * inject_Z (pow10 7))%Q) 7 ++ ref).

(* models/exif/types.go:398-415: the nanoseconds that are added to the date; Rational.Value: xmp/xmp_types.go:520-525 *)
Fixpoint gps_time (i : nat) (l : list rational) : Z :=
  match l with
  | [] => 0%Z
  | v :: r =>
      ((match i with
        | 0%nat => qtrunc (frac_of v * 3600000000000)%Q
        | 1%nat => qtrunc (frac_of v * 60000000000)%Q
        | 2%nat => qtrunc (frac_of v * 1000000000)%Q
        | _ => 0
        end) + gps_time (S i) r)%Z
  end.
(* None is the zero date *)
Definition gps_timestamp (date : option Z) (x : list rational) : option Z :=
  match date with None => None | Some t => Some (t + gps_time 0 x)%Z end.
