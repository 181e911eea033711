(* Path/value lists: xmp/path.go:28-110 *)
From Coq Require Import List Arith ZArith Bool Ascii String.
From Verif Require Import GoStr PathM SyncFlags.
Local Open Scope string_scope.

(* xmp/path.go:28-33 *)
Record path_value := PathValue { pv_path : path; pv_ns : string; pv_value : string; pv_flags : Z }.

(* xmp/path.go:37-42 *)
Definition pvl_add (x : list path_value) (p : path) (v : string) : list path_value :=
  if emptyb v then x else x ++ [PathValue p "" v 0].

(* xmp/path.go:44-49 *)
Definition pvl_add_flags (x : list path_value) (p : path) (v : string) (f : Z) : list path_value :=
  if emptyb v then x else x ++ [PathValue p "" v f].

(* xmp/path.go:51-58 *)
Definition pvl_find (x : list path_value) (p : path) : option path_value :=
  find (fun v => pv_path v =? p) x.

(* loop of xmp/path.go:64-69 *)
Fixpoint pvl_unique_loop (last : path) (x : list path_value) : list path_value :=
  match x with
  | [] => []
  | v :: r => if last =? pv_path v then pvl_unique_loop last r
              else v :: pvl_unique_loop (pv_path v) r
  end.

(* xmp/path.go:61-71 *)
Definition pvl_unique (x : list path_value) : list path_value := pvl_unique_loop "" x.

(* body of the first loop of Diff, xmp/path.go:81-90 *)
Definition diff_step1 (y : list path_value) (diff : list path_value) (xv : path_value) : list path_value :=
  match pvl_find y (pv_path xv) with
  | None => pvl_add_flags diff (pv_path xv) (pv_value xv) DELETE
  | Some yv => if negb (pv_value yv =? pv_value xv)
               then pvl_add_flags diff (pv_path xv) (pv_value xv) REPLACE
               else diff
  end.

(* body of the second loop of Diff, xmp/path.go:91-96 *)
Definition diff_step2 (x : list path_value) (diff : list path_value) (yv : path_value) : list path_value :=
  match pvl_find x (pv_path yv) with
  | None => pvl_add_flags diff (pv_path yv) (pv_value yv) CREATE
  | Some _ => diff
  end.

(* xmp/path.go:73-98 *)
Definition pvl_diff (x y : list path_value) : list path_value :=
  match x, y with
  | [], _ => y
  | _, [] => x
  | _, _ => fold_left (diff_step2 x) y (fold_left (diff_step1 y) x [])
  end.
