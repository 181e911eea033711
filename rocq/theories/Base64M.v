(* Values as texts: ToString and ToRawString with base64, NewIdentifierArray *)
From Coq Require Import List Arith ZArith NArith Bool Ascii String.
From Verif Require Import GoStr Spec CodecM.
Import ListNotations.
Local Open Scope string_scope.
Local Open Scope Z_scope.

Definition byte_val (c : ascii) : Z := Z.of_N (N_of_ascii c).
Definition byte_of (z : Z) : ascii := ascii_of_N (Z.to_N z).

(* base64.StdEncoding.EncodeToString (Go library), used in xmp/marshal.go:710, 720: the digits ... *)
Definition digit64 (n : Z) : ascii :=
  byte_of (if n <? 26 then 65 + n else if n <? 52 then 71 + n else if n <? 62 then n - 4 else if n =? 62 then 43 else 47).
(* ... and three bytes at a time; what is left over is padded *)
Fixpoint encode64 (l : list ascii) : list ascii :=
  match l with
  | a :: b :: c :: r =>
      let v := byte_val a * 65536 + byte_val b * 256 + byte_val c in
      digit64 (v / 262144) :: digit64 (v / 4096 mod 64) :: digit64 (v / 64 mod 64) :: digit64 (v mod 64) :: encode64 r
  | [a; b] =>
      let v := byte_val a * 65536 + byte_val b * 256 in
      [digit64 (v / 262144); digit64 (v / 4096 mod 64); digit64 (v / 64 mod 64); "="%char]
  | [a] =>
      let v := byte_val a * 65536 in
      [digit64 (v / 262144); digit64 (v / 4096 mod 64); "="%char; "="%char]
  | [] => []
  end.

(* base64.StdEncoding.DecodeString (Go library), used in xmp/marshal.go:679: line breaks are skipped wherever they are,
   the text must be padded, the bits that the padding leaves over are not looked at *)
Definition undigit64 (c : ascii) : option Z :=
  let n := byte_val c in
  if (65 <=? n) && (n <=? 90) then Some (n - 65)
  else if (97 <=? n) && (n <=? 122) then Some (n - 71)
  else if (48 <=? n) && (n <=? 57) then Some (n + 4)
  else if n =? 43 then Some 62 else if n =? 47 then Some 63 else None.
Definition line_break (c : ascii) : bool := Ascii.eqb c "010" || Ascii.eqb c "013".
Fixpoint decode64_from (l : list ascii) : option (list ascii) :=
  match l with
  | [] => Some []
  | a :: b :: c :: d :: r =>
      match undigit64 a, undigit64 b with
      | Some x, Some y =>
          match undigit64 c with
          | Some z =>
              match undigit64 d with
              | Some w => let v := x * 262144 + y * 4096 + z * 64 + w in
                          match decode64_from r with
                          | Some t => Some (byte_of (v / 65536) :: byte_of (v / 256 mod 256) :: byte_of (v mod 256) :: t)
                          | None => None
                          end
              | None => if Ascii.eqb d "=" && match r with [] => true | _ => false end
                        then let v := x * 262144 + y * 4096 + z * 64 in Some [byte_of (v / 65536); byte_of (v / 256 mod 256)]
                        else None
              end
          | None => if Ascii.eqb c "=" && Ascii.eqb d "=" && match r with [] => true | _ => false end
                    then Some [byte_of ((x * 262144 + y * 4096) / 65536)] else None
          end
      | _, _ => None
      end
  | _ => None
  end.
Definition decode64 (s : string) : option string :=
  option_map string_of_list_ascii (decode64_from (filter (fun c => negb (line_break c)) (list_ascii_of_string s))).

(* xmp/marshal.go:678-681 *)
Definition is_base64 (s : string) : bool := match decode64 s with Some _ => true | None => false end.

(* the values given to ToString; simplified: floats are left out, VStringer is a value with a String method that returns s,
   VOther a value of another kind that fmt prints as s *)
Inductive gval :=
| GNil | GInt (z : Z) | GUint (z : Z) | GBool (b : bool) | GStr (s : string) | GBytes (s : string) | GStringer (s : string) | GOther (s : string).

(* xmp/marshal.go:683-725 ToRawString: arrays and slices of bytes alike *)
Definition to_raw_string (v : gval) : result string :=
  match v with
  | GInt z => Ok (itoa z)
  | GUint z => Ok (itoa z)
  | GBool b => Ok (if b then "true" else "false")
  | GStr s => Ok s
  | GBytes s => Ok (if negb (is_base64 s) then string_of_list_ascii (encode64 (list_ascii_of_string s)) else s)
  | GStringer _ | GOther _ => Err "no method for converting type to string"
  | GNil => Panic
  end.
(* xmp/marshal.go:664-676 ToString *)
Definition to_string (v : gval) : string :=
  match v with
  | GNil => ""
  | GStringer s => s
  | _ => match to_raw_string v with Ok s => s | _ => match v with GOther s => s | _ => "" end end
  end.

(* models/xmp_base/types.go:113-121 NewIdentifierArray: the identifiers, all without a scheme *)
Fixpoint new_identifiers (items : list gval) : list string :=
  match items with
  | [] => []
  | v :: r => let s := to_string v in if String.eqb s "" then new_identifiers r else s :: new_identifiers r
  end.
