(* Versions: xmp/semver.go *)
From Coq Require Import List Arith ZArith Bool Ascii String.
From Verif Require Import GoStr.
Local Open Scope string_scope.
Local Open Scope Z_scope.

(* xmp/semver.go:23-27 *)
Record version := Version { v_major : Z; v_minor : Z; v_patch : Z }.

(* xmp/semver.go:29-57 *)
Definition parse_version (s : string) : result version :=
  match split_char "." s with
  | [a; b; c] =>
      match atoi c, atoi b, atoi a with
      | Some z, Some y, Some x => Ok (Version x y z)
      | _, _, _ => Err "illegal version"
      end
  | [a; b] =>
      match atoi b, atoi a with
      | Some y, Some x => Ok (Version x y 0)
      | _, _ => Err "illegal version"
      end
  | [a] => match atoi a with Some x => Ok (Version x 0 0) | None => Err "illegal version" end
  | _ => Err "illegal version"
  end.

(* xmp/semver.go:59-61 *)
Definition version_string (v : version) : string :=
  (itoa (v_major v) ++ "." ++ itoa (v_minor v) ++ "." ++ itoa (v_patch v))%string.

(* 64-bit two's complement wrap-around of Go int addition *)
Definition wrap64 (z : Z) : Z := (z + 2 ^ 63) mod 2 ^ 64 - 2 ^ 63.

(* xmp/semver.go:63-65 (int addition wraps) *)
Definition version_is_zero (v : version) : bool :=
  (wrap64 (wrap64 (v_major v + v_minor v) + v_patch v)) =? 0.

(* xmp/semver.go:80-82 *)
Definition version_equal (v a : version) : bool :=
  (v_major v =? v_major a) && (v_minor v =? v_minor a) && (v_patch v =? v_patch a).

(* xmp/semver.go:84-88 *)
Definition version_before (v a : version) : bool :=
  (v_major v <? v_major a)
  || ((v_major v =? v_major a) && (v_minor v <? v_minor a))
  || ((v_major v =? v_major a) && (v_minor v =? v_minor a) && (v_patch v <? v_patch a)).

(* xmp/semver.go:90-94 *)
Definition version_after (v a : version) : bool :=
  (v_major v >? v_major a)
  || ((v_major v =? v_major a) && (v_minor v >? v_minor a))
  || ((v_major v =? v_major a) && (v_minor v =? v_minor a) && (v_patch v >? v_patch a)).

(* xmp/semver.go:67-78 *)
Definition version_between (v a b : version) : bool :=
  if version_is_zero v then true
  else if version_is_zero a then version_before v b || version_equal v a
  else if version_is_zero b then version_after v a || version_equal v a
  else version_equal v a || version_equal v b || (version_after v a && version_before v b).
