(* Base64 after RFC 4648, for C135; independent of the models. *)
From Coq Require Import List ZArith NArith Ascii String.
Import ListNotations.
Local Open Scope string_scope.
Local Open Scope Z_scope.

Definition base64_alphabet : string := "ABCDEFGHIJKLMNOPQRSTUVWXYZabcdefghijklmnopqrstuvwxyz0123456789+/".
Definition base64_digit (c : ascii) (v : Z) : Prop := 0 <= v /\ String.get (Z.to_nat v) base64_alphabet = Some c.
Definition byte_value (c : ascii) (v : Z) : Prop := v = Z.of_N (N_of_ascii c).

(* [base64 data text]: three bytes are four digits of six bits, one or two last bytes are filled up with zero bits and = *)
Inductive base64 : string -> string -> Prop :=
| base64_nil : base64 "" ""
| base64_1 a x d0 d1 v0 v1 : byte_value a x -> base64_digit d0 v0 -> base64_digit d1 v1 ->
    v0 * 64 + v1 = x * 16 -> base64 (String a "") (String d0 (String d1 "=="))
| base64_2 a b x y d0 d1 d2 v0 v1 v2 : byte_value a x -> byte_value b y -> base64_digit d0 v0 -> base64_digit d1 v1 -> base64_digit d2 v2 ->
    v0 * 4096 + v1 * 64 + v2 = (x * 256 + y) * 4 -> base64 (String a (String b "")) (String d0 (String d1 (String d2 "=")))
| base64_3 a b c x y z d0 d1 d2 d3 v0 v1 v2 v3 data text : byte_value a x -> byte_value b y -> byte_value c z ->
    base64_digit d0 v0 -> base64_digit d1 v1 -> base64_digit d2 v2 -> base64_digit d3 v3 ->
    v0 * 262144 + v1 * 4096 + v2 * 64 + v3 = x * 65536 + y * 256 + z -> base64 data text ->
    base64 (String a (String b (String c data))) (String d0 (String d1 (String d2 (String d3 text)))).
