(* Go strings and the functions of packages strings/strconv that go-xmp uses.
   A Go string is modelled as a Coq [string], i.e. a finite list of bytes ([ascii]).
   This file models the Go standard library, not a file in /repo; each definition cites
   the place in /repo where the library function is used. *)
From Coq Require Import List Arith ZArith Bool Ascii String DecimalString.
Export ListNotations.
Local Open Scope string_scope.

(* outcome of a Go call that returns (value, error); [Panic] is a run-time panic *)
Inductive result (A : Type) : Type :=
| Ok (a : A)
| Err (e : string)
| Panic.
Arguments Ok {A} a.
Arguments Err {A} e.
Arguments Panic {A}.

Definition is_ok {A} (r : result A) : bool := match r with Ok _ => true | _ => false end.
Definition is_err {A} (r : result A) : bool := match r with Err _ => true | _ => false end.
Definition bind {A B} (r : result A) (f : A -> result B) : result B :=
  match r with Ok a => f a | Err e => Err e | Panic => Panic end.

(* s == t on strings *)
Notation "a =? b" := (String.eqb a b) (at level 70) : string_scope.

(* s == "" *)
Definition emptyb (s : string) : bool := match s with EmptyString => true | _ => false end.

(* s[:n], n <= len(s) *)
Fixpoint stake (n : nat) (s : string) : string :=
  match n, s with
  | S n', String c s' => String c (stake n' s')
  | _, _ => EmptyString
  end.

(* s[n:], n <= len(s) *)
Fixpoint sdrop (n : nat) (s : string) : string :=
  match n, s with
  | S n', String _ s' => sdrop n' s'
  | _, _ => s
  end.

(* strings.HasPrefix(s, p) (xmp/typeinfo.go:226) *)
Definition has_prefix_str (p s : string) : bool := String.prefix p s.

(* strings.HasSuffix(s, p) (xmp/path.go:175,183) *)
Definition has_suffix_str (p s : string) : bool :=
  Nat.leb (String.length p) (String.length s) &&
  (sdrop (String.length s - String.length p) s =? p).

(* strings.TrimPrefix(s, p) (xmp/path.go:154,165) *)
Definition trim_prefix (p s : string) : string :=
  if has_prefix_str p s then sdrop (String.length p) s else s.

(* strings.TrimSuffix(s, p) (xmp/path.go:1260) *)
Definition trim_suffix (p s : string) : string :=
  if has_suffix_str p s then stake (String.length s - String.length p) s else s.

(* strings.Index / bytes.Index (xmp/namespace.go:208, xmp/reader.go:73); None stands for -1 *)
Fixpoint index (sub s : string) : option nat :=
  if String.prefix sub s then Some 0
  else match s with
       | EmptyString => None
       | String _ s' => option_map S (index sub s')
       end.

(* strings.Contains(s, sub) *)
Definition contains (sub s : string) : bool :=
  match index sub s with Some _ => true | None => false end.

(* single byte occurrences *)
Fixpoint has_char (c : ascii) (s : string) : bool :=
  match s with
  | EmptyString => false
  | String d s' => Ascii.eqb c d || has_char c s'
  end.

(* strings.Index(s, string(c)) for a one byte separator *)
Fixpoint index_char (c : ascii) (s : string) : option nat :=
  match s with
  | EmptyString => None
  | String d s' => if Ascii.eqb c d then Some 0 else option_map S (index_char c s')
  end.

(* strings.LastIndex(s, string(c)) (xmp/xmp_types.go:337) *)
Fixpoint last_index_char (c : ascii) (s : string) : option nat :=
  match s with
  | EmptyString => None
  | String d s' =>
      match last_index_char c s' with
      | Some i => Some (S i)
      | None => if Ascii.eqb c d then Some 0 else None
      end
  end.

(* strings.Count(s, string(c)) (xmp/path.go:156) *)
Fixpoint count_char (c : ascii) (s : string) : nat :=
  match s with
  | EmptyString => 0
  | String d s' => (if Ascii.eqb c d then 1 else 0) + count_char c s'
  end.

(* strings.Split(s, string(c)) for a one byte separator (xmp/path.go:167, xmp/semver.go:31) *)
Fixpoint split_char (c : ascii) (s : string) : list string :=
  match s with
  | EmptyString => [EmptyString]
  | String d s' =>
      if Ascii.eqb c d then EmptyString :: split_char c s'
      else match split_char c s' with
           | [] => [String d EmptyString]        (* unreachable: split_char is never empty *)
           | x :: xs => String d x :: xs
           end
  end.

(* strings.Join(l, sep) (xmp/path.go:117) *)
Definition join (sep : string) (l : list string) : string := String.concat sep l.

(* strings.ToLower restricted to ASCII (xmp/sync.go:121); bytes >= 0x80 are left unchanged:
   the Unicode case folding of multi-byte runes is not modelled. *)
Definition lower_char (c : ascii) : ascii :=
  let n := nat_of_ascii c in
  if Nat.leb 65 n && Nat.leb n 90 then ascii_of_nat (n + 32) else c.
Fixpoint to_lower (s : string) : string :=
  match s with
  | EmptyString => EmptyString
  | String c s' => String (lower_char c) (to_lower s')
  end.

(* unicode.IsSpace restricted to ASCII: '\t' '\n' '\v' '\f' '\r' ' ' *)
Definition is_space (c : ascii) : bool :=
  let n := nat_of_ascii c in
  (Nat.leb 9 n && Nat.leb n 13) || Nat.eqb n 32.

Fixpoint trim_left (s : string) : string :=
  match s with
  | EmptyString => EmptyString
  | String c s' => if is_space c then trim_left s' else s
  end.

(* remove trailing spaces *)
Fixpoint trim_right (s : string) : string :=
  match s with
  | EmptyString => EmptyString
  | String c s' =>
      match trim_right s' with
      | EmptyString => if is_space c then EmptyString else String c EmptyString
      | t => String c t
      end
  end.

(* strings.TrimSpace (xmp/unmarshal.go:509, xmp/node.go:377), ASCII white space only *)
Definition trim_space (s : string) : string := trim_right (trim_left s).

(* ---- numbers ---------------------------------------------------------------------------- *)

Definition digit_val (c : ascii) : option N :=
  let n := N_of_ascii c in
  if (48 <=? n)%N && (n <=? 57)%N then Some (n - 48)%N else None.

Fixpoint digits_acc (acc : N) (s : string) : option N :=
  match s with
  | EmptyString => Some acc
  | String c s' =>
      match digit_val c with
      | Some d => digits_acc (acc * 10 + d)%N s'
      | None => None
      end
  end.

(* a non-empty run of decimal digits *)
Definition parse_digits (s : string) : option N :=
  match s with EmptyString => None | _ => digits_acc 0%N s end.

(* strconv.ParseInt(s, 10, bits): optional sign, decimal digits, range check
   (xmp/unmarshal.go:485, xmp/units.go:57,112,117). *)
Definition int_chk (bits z : Z) : option Z :=
  if (- 2 ^ (bits - 1) <=? z)%Z && (z <? 2 ^ (bits - 1))%Z then Some z else None.
Definition parse_int (bits : Z) (s : string) : option Z :=
  match s with
  | String "-"%char s' => match parse_digits s' with Some n => int_chk bits (- Z.of_N n)%Z | None => None end
  | String "+"%char s' => match parse_digits s' with Some n => int_chk bits (Z.of_N n) | None => None end
  | _ => match parse_digits s with Some n => int_chk bits (Z.of_N n) | None => None end
  end.

(* strconv.Atoi: ParseInt(s, 10, 0) on a 64-bit platform (xmp/semver.go:34, xmp/path.go:1263) *)
Definition atoi (s : string) : option Z := parse_int 64 s.

(* strconv.ParseUint(s, 10, bits): no sign accepted (xmp/unmarshal.go:491) *)
Definition parse_uint (bits : Z) (s : string) : option Z :=
  match parse_digits s with
  | Some n => if (Z.of_N n <? 2 ^ bits)%Z then Some (Z.of_N n) else None
  | None => None
  end.

Definition int_ok (bits : Z) (z : Z) : Prop := (- 2 ^ (bits - 1) <= z < 2 ^ (bits - 1))%Z.
Definition int64 (z : Z) : Prop := int_ok 64 z.

(* strconv.Itoa / strconv.FormatInt(_, 10) / fmt "%d" (xmp/path.go:178, xmp/marshal.go:594) *)
Definition itoa (z : Z) : string := NilZero.string_of_int (Z.to_int z).

(* strconv.FormatBool (xmp/marshal.go:602) *)
Definition format_bool (b : bool) : string := if b then "true" else "false".

(* strconv.ParseBool (xmp/unmarshal.go:503) *)
Definition parse_bool (s : string) : option bool :=
  if (s =? "1") || (s =? "t") || (s =? "T") || (s =? "TRUE") || (s =? "true") || (s =? "True") then Some true
  else if (s =? "0") || (s =? "f") || (s =? "F") || (s =? "FALSE") || (s =? "false") || (s =? "False") then Some false
  else None.
