(* Vocabulary of the codec properties C45-C51, C64-C66; independent of the models. *)
From Coq Require Import List Arith NArith ZArith Bool Ascii String.
From Verif Require Import GoStr Spec.
Import ListNotations.
Local Open Scope string_scope.

(* what is written for x is read as x, whatever the receiver held before *)
Definition round_trips {A} (marshal : A -> string) (unmarshal : A -> string -> result A) (x : A) : Prop :=
  forall old, unmarshal old (marshal x) = Ok x.
(* the same for a MarshalText that may write nothing *)
Definition round_trips_if_written {A} (marshal : A -> option string) (unmarshal : A -> string -> result A) (x : A) : Prop :=
  forall old s, marshal x = Some s -> unmarshal old s = Ok x.

Definition word64 (z : Z) : Prop := (- 2 ^ 63 <= z < 2 ^ 63)%Z.
Definition uint32 (z : Z) : Prop := (0 <= z < 2 ^ 32)%Z.
Definition byte (z : Z) : Prop := (0 <= z < 256)%Z.

(* a decimal number with any number of leading zeros *)
Fixpoint zeros (k : nat) : string := match k with 0 => "" | S k => String "0" (zeros k) end.
Definition numeral (s : string) (z : Z) : Prop := (0 <= z)%Z /\ exists k, s = zeros k ++ itoa z.

(* [s] has no white space in it and is not empty *)
Definition word (s : string) : Prop := s <> "" /\ forall c, has_char c s = true -> is_space c = false.

(* ---- time zones ---- *)
Definition digit (c : ascii) (n : Z) : Prop := (0 <= n <= 9)%Z /\ c = ascii_of_N (Z.to_N (48 + n)).
Definition sign (c : ascii) (n : Z) : Prop := c = "+"%char /\ n = 1%Z \/ c = "-"%char /\ n = (-1)%Z.

(* the zones written in the date formats of the library, with the offset in minutes *)
Inductive zone : string -> Z -> Prop :=
| zone_utc : zone "Z" 0
| zone_colon s a b c d ns na nb nc nd : sign s ns -> digit a na -> digit b nb -> digit c nc -> digit d nd ->
    zone (String s (String a (String b (String ":" (String c (String d "")))))) (ns * (60 * (10 * na + nb) + 10 * nc + nd)).
(* hours and minutes without colon *)
Inductive zone_basic : string -> Z -> Prop :=
| zone_plain s a b c d ns na nb nc nd : sign s ns -> digit a na -> digit b nb -> digit c nc -> digit d nd ->
    zone_basic (String s (String a (String b (String c (String d ""))))) (ns * (60 * (10 * na + nb) + 10 * nc + nd)).
(* the defective zones: one digit of hours with or without minutes *)
Inductive zone_short : string -> Z -> Prop :=
| zone_h_mm s b c d ns nb nc nd : sign s ns -> digit b nb -> digit c nc -> digit d nd ->
    zone_short (String s (String b (String ":" (String c (String d ""))))) (ns * (60 * nb + 10 * nc + nd))
| zone_h s b ns nb : sign s ns -> digit b nb -> zone_short (String s (String b "")) (ns * (60 * nb)).

(* a date and time without zone: at least 18 bytes, none of the last six is a sign or the letter Z *)
Definition local_time (p : string) : Prop :=
  exists q t, p = q ++ t /\ String.length t = 6 /\ 12 <= String.length q /\
    lacks "+" t /\ lacks "-" t /\ lacks "Z" t.

(* ---- media values ---- *)
(* the values a text can denote: a base of at least one; the counts 0 and "maximum" carry no rate *)
Definition rate_ok (rate base : Z) : Prop := word64 rate /\ word64 base /\ (1 <= base)%Z.
Definition count_ok (count rate base : Z) : Prop :=
  word64 count /\ rate_ok rate base /\ ((count = 0 \/ count = -1)%Z -> rate = 1%Z /\ base = 1%Z).

(* a path that the text form can hold: empty or closed by a slash, without the time marker *)
Definition path_ok (p : string) : Prop := (p = "" \/ exists q, p = q ++ "/") /\ ~ exists a b, p = a ++ "time:" ++ b.
