(* Durations (xmp/units.go:221-307) and the JSON forms of NullInt and NullBool (80-92, 207-219), with the functions String and
   ParseDuration of the package time of the Go library they are made of. Simplifications: products and quotients of
   floating point numbers are exact, which they are where the theorems say so; only ASCII white space is white space. *)
From Coq Require Import List Arith ZArith NArith Bool Ascii String.
From Verif Require Import GoStr CodecM SpeedM NumM.
Import ListNotations.
Local Open Scope nat_scope.
Local Open Scope string_scope.

Definition nanosecond := 1%Z.
Definition microsecond := 1000%Z.
Definition millisecond := 1000000%Z.
Definition second := 1000000000%Z.
Definition minute := 60000000000%Z.
Definition hour := 3600000000000%Z.
(* the letter mu of SI units: U+00B5, and the Greek letter U+03BC *)
Definition micro_sign : string := String "194"%char (String "181"%char "").
Definition greek_mu : string := String "206"%char (String "188"%char "").

(* ---- time.Duration.String (Go library; xmp/units.go:228-230) ---- *)

(* fmtFrac: prec digits, without zeros at the end, and the quotient *)
Fixpoint fmt_frac_loop (prec : nat) (v : Z) (print : bool) (buf : string) : Z * bool * string :=
  match prec with
  | 0 => (v, print, buf)
  | S n => let digit := Z.rem v 10 in
           let print := print || negb (digit =? 0)%Z in
           fmt_frac_loop n (Z.quot v 10) print (if print then String (ascii_of_nat (48 + Z.to_nat digit)) buf else buf)
  end.
Definition fmt_frac (prec : nat) (v : Z) : Z * string :=
  let '(q, print, buf) := fmt_frac_loop prec v false "" in (q, if print then String "." buf else buf).
Definition fmt_int (v : Z) : string := itoa v.
Definition go_duration_string (d : Z) : string :=
  let neg := (d <? 0)%Z in
  let u := Z.abs d in
  let body :=
    if (u <? second)%Z then
      if (u =? 0)%Z then "0s"
      else let '(prec, unit) := if (u <? microsecond)%Z then (0, "ns") else if (u <? millisecond)%Z then (3, micro_sign ++ "s") else (6, "ms") in
           let '(q, frac) := fmt_frac prec u in fmt_int q ++ frac ++ unit
    else let '(secs, frac) := fmt_frac 9 u in
         let s := fmt_int (Z.rem secs 60) ++ frac ++ "s" in
         let mins := Z.quot secs 60 in
         if (0 <? mins)%Z then
           let s := fmt_int (Z.rem mins 60) ++ "m" ++ s in
           let hours := Z.quot mins 60 in
           if (0 <? hours)%Z then fmt_int hours ++ "h" ++ s else s
         else s in
  if neg then "-" ++ body else body.

(* ---- time.ParseDuration (Go library; used in xmp/units.go:238,248) ---- *)

Fixpoint leading_int (x : Z) (s : string) : option (Z * string) :=
  match s with
  | EmptyString => Some (x, s)
  | String c r => match digit_val c with
                  | Some k => if (2 ^ 63 / 10 <? x)%Z then None
                              else let y := (x * 10 + Z.of_N k)%Z in if (2 ^ 63 <? y)%Z then None else leading_int y r
                  | None => Some (x, s)
                  end
  end.
Fixpoint leading_fraction (over : bool) (x scale : Z) (s : string) : Z * Z * string :=
  match s with
  | EmptyString => (x, scale, s)
  | String c r => match digit_val c with
                  | Some k => if over || ((2 ^ 63 - 1) / 10 <? x)%Z then leading_fraction true x scale r
                              else let y := (x * 10 + Z.of_N k)%Z in
                                   if (2 ^ 63 <? y)%Z then leading_fraction true x scale r else leading_fraction false y (scale * 10)%Z r
                  | None => (x, scale, s)
                  end
  end.
Definition digit_or_point (c : ascii) : bool := Ascii.eqb c "." || match digit_val c with Some _ => true | None => false end.
Fixpoint span_unit (s : string) : string * string :=
  match s with
  | EmptyString => ("", "")
  | String c r => if digit_or_point c then ("", s) else let '(u, t) := span_unit r in (String c u, t)
  end.
Definition unit_map (u : string) : option Z :=
  if u =? "ns" then Some nanosecond
  else if (u =? "us") || (u =? micro_sign ++ "s") || (u =? greek_mu ++ "s") then Some microsecond
  else if u =? "ms" then Some millisecond
  else if u =? "s" then Some second
  else if u =? "m" then Some minute
  else if u =? "h" then Some hour
  else None.
(* one turn of the loop: what is added, and the rest of the text *)
Definition duration_part (s : string) : option (Z * string) :=
  match s with
  | EmptyString => None
  | String c _ =>
      if negb (digit_or_point c) then None else
      match leading_int 0 s with
      | None => None
      | Some (v, s1) =>
          let pre := negb (Nat.eqb (String.length s1) (String.length s)) in
          let '(f, scale, s2, post) :=
            match s1 with
            | String c1 r => if Ascii.eqb c1 "."
                             then let '(f, scale, s2) := leading_fraction false 0 1 r in (f, scale, s2, negb (Nat.eqb (String.length s2) (String.length r)))
                             else (0%Z, 1%Z, s1, false)
            | EmptyString => (0%Z, 1%Z, s1, false)
            end in
          if negb pre && negb post then None else
          let '(u, s3) := span_unit s2 in
          match unit_map u with
          | None => None
          | Some unit =>
              if (2 ^ 63 / unit <? v)%Z then None else
              let v := (v * unit)%Z in
              let v := if (0 <? f)%Z then (v + f * unit / scale)%Z else v in
              if (2 ^ 63 <? v)%Z then None else Some (v, s3)
          end
      end
  end.
Fixpoint duration_loop (fuel : nat) (d : Z) (s : string) : option Z :=
  match s with
  | EmptyString => Some d
  | _ => match fuel with
         | 0 => None                                  (* not reached: every turn takes a byte *)
         | S n => match duration_part s with
                  | Some (v, r) => if (2 ^ 63 <? d + v)%Z then None else duration_loop n (d + v)%Z r
                  | None => None
                  end
         end
  end.
Definition go_parse_duration (s : string) : option Z :=
  let '(neg, s) := match s with String "-" r => (true, r) | String "+" r => (false, r) | _ => (false, s) end in
  if s =? "0" then Some 0%Z
  else if emptyb s then None
  else match duration_loop (String.length s) 0 s with
       | Some d => if neg then Some (- d)%Z else if (2 ^ 63 - 1 <? d)%Z then None else Some d
       | None => None
       end.

(* ---- xmp.Duration ---- *)

(* xmp/units.go:242-247 *)
Fixpoint without_space (s : string) : string :=
  match s with
  | EmptyString => ""
  | String c r => if is_space c then without_space r else String c (without_space r)
  end.
(* xmp/units.go:232-252 *)
Definition parse_duration (s : string) : result Z :=
  match parse_int 64 s with
  | Some i => Ok (wrap64 (i * second))
  | None => match go_parse_duration s with
            | Some d => Ok d
            | None => of_opt "invalid syntax" (go_parse_duration (without_space s))
            end
  end.
(* xmp/units.go:254-256, 258-265 *)
Definition duration_marshal (d : Z) : string := go_duration_string d.
Definition duration_unmarshal (old : Z) (s : string) : result Z := parse_duration s.
(* Duration has no MarshalJSON: encoding/json writes the text as JSON string *)
Definition duration_json (d : Z) : string := String quote (duration_marshal d ++ String quote "").
(* xmp/units.go:267-279 *)
Definition duration_unjson (old : Z) (data : string) : result Z :=
  match data with
  | EmptyString => Ok old
  | String c _ => if Ascii.eqb c quote then duration_unmarshal old (trim_quotes data)
                  else match parse_int 64 data with Some i => Ok (wrap64 (i * second)) | None => Err "invalid syntax" end
  end.
(* xmp/units.go:281-287: a quotient by 0 is infinite or NaN; whatever integer that becomes, its product with 0 is 0 *)
Definition truncate (d r : Z) : Z :=
  if (r =? 0)%Z then 0%Z
  else if (0 <? d)%Z then wrap64 (- (- d / r) * r) else wrap64 (d / r * r).
(* xmp/units.go:289-307 *)
Definition round_to (unit d : Z) : Z := Z.quot (truncate d unit) unit.
Definition round_to_days := round_to (24 * hour).
Definition round_to_hours := round_to hour.
Definition round_to_minutes := round_to minute.
Definition round_to_seconds := round_to second.
Definition round_to_millisecond := round_to millisecond.

(* ---- NullInt and NullBool in JSON: xmp/units.go:80-92, 207-219 ---- *)

Definition null_int_json (x : Z) : string := null_int_marshal x.
Definition null_int_unjson (old : Z) (data : string) : result Z :=
  match data with
  | EmptyString => Ok old
  | String c _ => if Ascii.eqb c quote then null_int_unmarshal old (trim_quotes data) else null_int_unmarshal old data
  end.
Definition null_bool_json (x : bool) : string := null_bool_marshal x.
Definition null_bool_unjson (old : bool) (data : string) : result bool :=
  match data with
  | EmptyString => Ok old
  | String c _ => if Ascii.eqb c quote then null_bool_unmarshal old (trim_quotes data) else null_bool_unmarshal old data
  end.
