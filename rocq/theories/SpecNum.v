(* Vocabulary of the properties of decimal numbers C117-C121; independent of the models. *)
From Coq Require Import List Arith NArith ZArith QArith Qpower Bool Ascii String.
From Verif Require Import GoStr SpecCodec.
Import ListNotations.
Local Open Scope nat_scope.
Local Open Scope string_scope.

Inductive signed : string -> Z -> Prop :=
| no_sign : signed "" 1
| plus_sign : signed "+" 1
| minus_sign : signed "-" (-1).

(* digits with an optional sign and an optional fraction denote a number *)
Definition decimal (t : string) (q : Q) : Prop :=
  exists sg s i z f n k, signed sg s /\ numeral i z /\ t = sg ++ i ++ f
    /\ (f = "" /\ n = 0%Z /\ k = 0 \/ exists d, f = "." ++ d /\ numeral d n /\ k = String.length d)
    /\ (q == inject_Z s * (inject_Z z + inject_Z n / inject_Z (10 ^ Z.of_nat k)))%Q.

(* the same with an exponent after the letter e *)
Definition scientific (e : ascii) (t : string) (q : Q) : Prop :=
  exists m qm es s x k, decimal m qm /\ signed es s /\ numeral x k /\ t = m ++ String e (es ++ x) /\ (q == qm * 10 ^ (s * k))%Q.

(* a fraction of whole numbers *)
Definition fraction (num den : Z) (q : Q) : Prop := den <> 0%Z /\ (q * inject_Z den == inject_Z num)%Q.

(* the XMP text of a coordinate: degrees, minutes with a fraction, direction *)
Definition gps_text (t : string) (deg : Z) (min : Q) (ref : string) : Prop :=
  exists d m, numeral d deg /\ decimal m min /\ t = d ++ "," ++ m ++ ref.
