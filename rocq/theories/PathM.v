(* Paths: xmp/path.go:112-240 and 1255-1271 *)
From Coq Require Import List Arith ZArith Bool Ascii String.
From Verif Require Import GoStr Names.
Local Open Scope string_scope.

Definition path := string.

(* xmp/path.go:116-118 *)
Definition new_path (prefix : string) (segments : list string) : path :=
  prefix ++ ":" ++ join "/" segments.

(* xmp/path.go:121-123 *)
Definition is_xmp_path (x : path) : bool :=
  match index_char ":" x with Some _ => true | None => false end.

(* xmp/path.go:125-130 *)
Definition namespace_prefix (x : path) : string :=
  match index_char ":" x with Some i => stake i x | None => x end.

(* xmp/path.go:141-149 MatchNamespace *)
Definition match_namespace (x : path) (ns : option namespace) : bool :=
  match ns with
  | None => false
  | Some n => match index_char ":" x with
              | Some i => ns_name n =? stake i x
              | None => false
              end
  end.

(* xmp/path.go:151-160 *)
Definition path_len (x : path) : nat :=
  match index_char ":" x with
  | Some i => let s := trim_prefix "/" (sdrop (S i) x) in
              if emptyb s then 0 else count_char "/" s + 1
  | None => 0
  end.

(* xmp/path.go:162-171 *)
Definition fields (x : path) : list string :=
  match index_char ":" x with
  | Some i => let y := trim_prefix "/" (sdrop (S i) x) in
              if emptyb y then [] else split_char "/" y
  | None => []
  end.

(* xmp/path.go:173-179 *)
Definition append_index (x : path) (i : Z) : path :=
  if has_suffix_str "]" x then x ++ "/[" ++ itoa i ++ "]" else x ++ "[" ++ itoa i ++ "]".

(* xmp/path.go:181-187 *)
Definition append_index_string (x : path) (s : string) : path :=
  if has_suffix_str "]" x then x ++ "/[" ++ s ++ "]" else x ++ "[" ++ s ++ "]".

(* xmp/path.go:189-193 *)
Definition push (x : path) (segment : list string) : path :=
  new_path (namespace_prefix x) (fields x ++ segment).

(* xmp/path.go:195-205; the branch l=1 is the default branch with an empty remainder *)
Definition pop (x : path) : string * path :=
  match fields x with
  | [] => ("", x)
  | f => (last f "", new_path (namespace_prefix x) (removelast f))
  end.

(* xmp/path.go:207-228; the branch len(f)=1 is the default branch with an empty remainder *)
Definition pop_front (x : path) : string * path :=
  match fields x with
  | [] => ("", x)
  | seg :: rest =>
      if has_prefix seg then (strip_prefix seg, new_path (get_prefix seg) rest)
      else (seg, new_path (namespace_prefix x) rest)
  end.

(* xmp/path.go:230-240 *)
Definition peek_namespace_prefix (x : path) : string :=
  match fields x with
  | [] => namespace_prefix x
  | f :: _ => if has_prefix f then get_prefix f else namespace_prefix x
  end.

(* xmp/path.go:1255-1271 parsePathSegment: (name, idx, lang) *)
Definition parse_segment (name : string) : string * Z * string :=
  match index_char "[" name with
  | Some k =>
      if Nat.ltb 0 k && Nat.ltb (k + 1) (String.length name) then
        let s := trim_suffix "]" (sdrop (k + 1) name) in
        if emptyb s then (stake k name, 0%Z, "")
        else match atoi s with
             | Some j => (stake k name, j, "")
             | None => (stake k name, (-1)%Z, s)
             end
      else (name, (-1)%Z, "")
  | None => (name, (-1)%Z, "")
  end.

(* the loop "for n, walker := path.PopFront(); n != ""; n, walker = walker.PopFront()"
   (xmp/path.go:284,554), listing the visited (segment, remaining path) pairs *)
Fixpoint walk (fuel : nat) (x : path) : option (list (string * path)) :=
  match fuel with
  | 0 => None                                   (* out of fuel *)
  | S f =>
      let '(n, w) := pop_front x in
      if emptyb n then Some []
      else option_map (cons (n, w)) (walk f w)
  end.
