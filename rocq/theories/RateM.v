(* Video frame rates: the text form of VideoFrameRate *)
From Coq Require Import List Arith ZArith QArith Bool Ascii String.
From Verif Require Import GoStr Spec CodecM NumM.
Import ListNotations.
Local Open Scope nat_scope.
Local Open Scope string_scope.

(* strings.ToUpper for ASCII (models/xmp_dm/types.go:285) *)
Definition upper_char (c : ascii) : ascii :=
  let n := nat_of_ascii c in if Nat.leb 97 n && Nat.leb n 122 then ascii_of_nat (n - 32) else c.
Fixpoint to_upper (s : string) : string :=
  match s with EmptyString => EmptyString | String c r => String (upper_char c) (to_upper r) end.

(* models/xmp_dm/types.go:281 VideoFrameRate. Simplified: a number is exact, as in NumM. *)
Inductive rate := RNumber (q : Q) | ROther (x : fl).
Definition rate_of (x : fl) : rate := match x with FDec m k => RNumber (dec_q m k) | _ => ROther x end.

(* xmp/xmp_types.go:520-525 Rational.Value *)
Definition rat_value (x : rational) : Q :=
  if (r_den x =? 0)%Z then 1%Q else (inject_Z (r_num x) / inject_Z (r_den x))%Q.

(* models/xmp_dm/types.go:301-303 *)
Definition strip_rate (s : string) : string :=
  trim_suffix "p" (trim_suffix "i" (trim_space (trim_suffix "fps" s))).

(* models/xmp_dm/types.go:283-311 VideoFrameRate.UnmarshalText. inf as in NumM.decimal_rational. *)
Definition rate_unmarshal (inf : Z) (s : string) : result rate :=
  let u := to_upper s in
  if u =? "NTSC" then Ok (RNumber (2997 # 100))
  else if u =? "PAL" then Ok (RNumber 25)
  else match rational_unmarshal inf (Rat 0 0) s with
       | Ok r => Ok (RNumber (rat_value r))
       | Panic => Panic
       | Err _ => match parse_float (strip_rate s) with
                  | Some x => Ok (rate_of x)
                  | None => Err "invalid video frame rate value"
                  end
       end.
