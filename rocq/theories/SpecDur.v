(* What texts of durations denote. Used in PropDur.v. *)
From Coq Require Import List Arith ZArith NArith Bool Ascii String.
Import ListNotations.
Local Open Scope string_scope.

(* the number that a text of digits is *)
Definition digit (c : ascii) : Prop := 48 <= nat_of_ascii c <= 57.
Fixpoint digits (s : string) : Prop := match s with String c r => digit c /\ digits r | EmptyString => True end.
Fixpoint number (s : string) : Z :=
  match s with
  | EmptyString => 0
  | String c r => (Z.of_nat (nat_of_ascii c - 48) * 10 ^ Z.of_nat (String.length r) + number r)%Z
  end.

(* units and their nanoseconds; the micro sign and the Greek letter mu in UTF-8 *)
Definition units : list (string * Z) :=
  [("ns", 1); ("us", 1000); (String "194" (String "181" "s"), 1000); (String "206" (String "188" "s"), 1000);
   ("ms", 1000000); ("s", 1000000000); ("m", 60 * 1000000000); ("h", 60 * (60 * 1000000000))]%Z.

(* a part of a duration: digits, maybe a point and more digits, and a unit *)
Record part := Part { whole : string; decimals : option string; unit_name : string; unit_size : Z }.
Definition part_text (p : part) : string :=
  whole p ++ match decimals p with Some f => "." ++ f | None => "" end ++ unit_name p.
Definition decimals_of (p : part) : string := match decimals p with Some f => f | None => "" end.
(* there is a digit, and the decimals denote a whole number of nanoseconds *)
Definition good_part (p : part) : Prop :=
  digits (whole p) /\ digits (decimals_of p) /\ (whole p <> "" \/ decimals_of p <> "") /\ In (unit_name p, unit_size p) units
  /\ (10 ^ Z.of_nat (String.length (decimals_of p)) | unit_size p)%Z.
Definition part_size (p : part) : Z :=
  (number (whole p) * unit_size p + number (decimals_of p) * (unit_size p / 10 ^ Z.of_nat (String.length (decimals_of p))))%Z.
Definition parts_text (l : list part) : string := String.concat "" (map part_text l).
Definition parts_size (l : list part) : Z := fold_right Z.add 0%Z (map part_size l).
Inductive signed : string -> Z -> Prop := NoSign : signed "" 1 | Plus : signed "+" 1 | Minus : signed "-" (-1).

(* b is a with blanks, tabs and line ends anywhere *)
Definition blank (c : ascii) : Prop := In (nat_of_ascii c) [9; 10; 11; 12; 13; 32].
Inductive spaced : string -> string -> Prop :=
| SNil : spaced "" ""
| SBlank c a b : blank c -> spaced a b -> spaced a (String c b)
| SChar c a b : ~ blank c -> spaced a b -> spaced (String c a) (String c b).

(* numbers of nanoseconds of 64 bits *)
Definition is_int64 (d : Z) : Prop := (- 9223372036854775808 <= d <= 9223372036854775807)%Z.
Definition per_second : Z := 1000000000%Z.
