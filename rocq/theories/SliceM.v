(* The dictionaries of iXML, models/ixml/enum.go, on Go slices that may share their array.
   A slice is a header (array, length, capacity); a heap holds the arrays. Every header of this model begins at the
   first element of its array: literals, append and x[:i] keep it so, and x[i+1:] occurs only as a source of append.
   Elements are the string types of the dictionaries. *)
From Coq Require Import List Arith ZArith Bool Ascii String.
From Verif Require Import GoStr.
Import ListNotations.
Local Open Scope string_scope.

Record slice := Slice { s_arr : nat; s_len : nat; s_cap : nat }.
Definition heap := list (list string).
Definition array (h : heap) (a : nat) : list string := nth a h [].
(* the elements a program sees through a header *)
Definition view (h : heap) (x : slice) : list string := firstn (s_len x) (array h (s_arr x)).

Fixpoint put {A} (i : nat) (v : A) (l : list A) : list A :=
  match l, i with
  | [], _ => []
  | _ :: r, 0 => v :: r
  | e :: r, S j => e :: put j v r
  end.

(* the nil slice: array 0 of every heap is empty *)
Definition no_arrays : heap := [[]].
Definition nil_slice : slice := Slice 0 0 0.
(* a composite literal, make(T, n) followed by stores, or the result of strings.Split: an array of its own without spare
   elements *)
Definition literal (h : heap) (l : list string) : heap * slice :=
  ((h ++ [l])%list, Slice (List.length h) (List.length l) (List.length l)).

(* append(x, t). grow gives the capacity of a new array that has to hold n elements; what Go chooses is left open *)
Definition append_one (grow : nat -> nat) (h : heap) (x : slice) (t : string) : heap * slice :=
  let n := S (s_len x) in
  if Nat.ltb (s_len x) (s_cap x)
  then (put (s_arr x) (put (s_len x) t (array h (s_arr x))) h, Slice (s_arr x) n (s_cap x))
  else let c := Nat.max (grow n) n in
       ((h ++ [(view h x ++ t :: repeat "" (c - n))%list])%list, Slice (List.length h) n c).

(* append(x[:i], x[i+1:]...): the capacity always suffices, the elements move in the array of x *)
Definition cut (h : heap) (x : slice) (i : nat) : heap * slice :=
  let l := array h (s_arr x) in
  (put (s_arr x) (firstn i l ++ skipn (S i) (firstn (s_len x) l) ++ skipn (s_len x - 1) l)%list h,
   Slice (s_arr x) (s_len x - 1) (s_cap x)).

(* models/ixml/enum.go:37-44, 184-191, 276-283, 376-383 Contains *)
Fixpoint contains (l : list string) (t : string) : bool :=
  match l with [] => false | v :: r => if v =? t then true else contains r t end.
Definition set_contains (h : heap) (x : slice) (t : string) : bool := contains (view h x) t.

(* models/ixml/enum.go:46-50, 142-146, 234-238, 385-389 Add *)
Definition set_add (grow : nat -> nat) (h : heap) (x : slice) (t : string) : heap * slice :=
  if negb (set_contains h x t) then append_one grow h x t else (h, x).

(* models/ixml/enum.go:52-62, 148-158, 240-250, 391-401 Del: the loop keeps the last index *)
Fixpoint del_index (i : nat) (idx : option nat) (l : list string) (t : string) : option nat :=
  match l with
  | [] => idx
  | v :: r => del_index (S i) (if v =? t then Some i else idx) r t
  end.
Definition set_del (h : heap) (x : slice) (t : string) : heap * slice :=
  match del_index 0 None (view h x) t with
  | Some i => cut h x i
  | None => (h, x)
  end.

(* models/ixml/enum.go:403-407 FunctionSet.Merge. The header of the argument is evaluated once, its elements when they
   are reached. *)
Fixpoint merge_loop (grow : nat -> nat) (n i : nat) (h : heap) (x s : slice) : heap * slice :=
  match n with
  | 0 => (h, x)
  | S m => let '(h', x') := set_add grow h x (nth i (array h (s_arr s)) "") in merge_loop grow m (S i) h' x' s
  end.
Definition set_merge (grow : nat -> nat) (h : heap) (x s : slice) : heap * slice := merge_loop grow (s_len s) 0 h x s.

(* models/ixml/enum.go:409-413 FunctionSet.Sub *)
Fixpoint sub_loop (n i : nat) (h : heap) (x s : slice) : heap * slice :=
  match n with
  | 0 => (h, x)
  | S m => let '(h', x') := set_del h x (nth i (array h (s_arr s)) "") in sub_loop m (S i) h' x' s
  end.
Definition set_sub (h : heap) (x s : slice) : heap * slice := sub_loop (s_len s) 0 h x s.

(* models/ixml/enum.go:64-69 TakeTypeList.IsDefault *)
Definition take_is_default (h : heap) (x : slice) : bool :=
  if Nat.eqb (s_len x) 0 then true else set_contains h x "DEFAULT".

(* models/ixml/enum.go:362-374: the predefined function sets, in the order of the source *)
Definition predefined : list (list string) :=
  [["M-MID_SIDE"; "S-MID_SIDE"]; ["X-X_Y "; "Y-X_Y"]; ["L-MIX"; "R-MIX"]; ["MIX"]; ["LEFT"; "RIGHT"];
   ["F-DMS"; "8-DMS"; "R-DMS"]; ["L-LCR"; "C-LCR"; "R-LCR"]; ["L-LCRS"; "C-LCRS"; "R-LCRS"; "S-LCRS"];
   ["L-5.1"; "C-5.1"; "R-5.1"; "Ls-5.1"; "Rs-5.1"; "LFE-5.1"];
   ["L-7.1"; "Lc-7.1"; "C-7.1"; "Rc-7.1"; "R-7.1"; "Ls-7.1"; "Rs-7.1"; "LFE-7.1"];
   ["W-SOUNDFIELD"; "X-SOUNDFIELD"; "Y-SOUNDFIELD"; "Z-SOUNDFIELD"]].
(* their package level variables: each a literal of its own *)
Definition package_heap : heap := (no_arrays ++ predefined)%list.
Definition package_set (i : nat) : slice :=
  let n := List.length (nth i predefined []) in Slice (S i) n n.

(* ---- upgrade of documents of earlier iXML versions ---- *)
(* models/ixml/types.go:51-59; XMLName is left out *)
Record sync_point := SyncPoint { sp_type : string; sp_func : string; sp_comment : string; sp_low : Z; sp_high : Z; sp_event : Z }.
(* models/ixml/model.go:71-95: the fields upgrade reads or writes; the list of take types as its elements (ParseXML makes the
   model itself, so its lists share no array), user data by its comment, None for a nil pointer, and the remaining fields as R *)
Record ixml (R : Type) := IXml { ix_takes : list string; ix_not_good : bool; ix_false_start : bool; ix_wild : bool;
  ix_pre : Z; ix_sync : list sync_point; ix_comment : option string; ix_rest : R }.
Arguments IXml {R}. Arguments ix_takes {R}. Arguments ix_not_good {R}. Arguments ix_false_start {R}. Arguments ix_wild {R}.
Arguments ix_pre {R}. Arguments ix_sync {R}. Arguments ix_comment {R}. Arguments ix_rest {R}.

(* models/ixml/enum.go:46-50 on an unshared list *)
Definition take_add (l : list string) (t : string) : list string := if negb (contains l t) then (l ++ [t])%list else l.

(* models/ixml/types.go:63-70 *)
Fixpoint contains_func (i : nat) (l : list sync_point) (f : string) : option nat :=
  match l with [] => None | v :: r => if sp_func v =? f then Some i else contains_func (S i) r f end.

Definition set_low (z : Z) (p : sync_point) : sync_point :=
  SyncPoint (sp_type p) (sp_func p) (sp_comment p) z (sp_high p) (sp_event p).
Fixpoint change {A} (f : A -> A) (i : nat) (l : list A) : list A :=
  match l, i with [], _ => [] | a :: r, 0 => f a :: r | a :: r, S j => a :: change f j r end.

(* models/ixml/model.go:198-214 *)
Definition v13_to_v14 {R} (x : ixml R) : ixml R :=
  if (0 <? ix_pre x)%Z then
    IXml (ix_takes x) (ix_not_good x) (ix_false_start x) (ix_wild x) 0
      (match contains_func 0 (ix_sync x) "PRE_RECORD_SAMPLECOUNT" with
       | Some i => change (set_low (ix_pre x)) i (ix_sync x)
       | None => (ix_sync x ++ [SyncPoint "RELATIVE" "PRE_RECORD_SAMPLECOUNT"
                    "upgrade from deprecated property root.PRE_RECORD_SAMPLECOUNT" (ix_pre x) 0 0])%list
       end) (ix_comment x) (ix_rest x)
  else x.

(* models/ixml/model.go:179-196 *)
Definition v1x_to_v20 {R} (x : ixml R) : ixml R :=
  let a := if ix_not_good x then take_add (ix_takes x) "NO_GOOD" else ix_takes x in
  let b := if ix_false_start x then take_add a "FALSE_START" else a in
  let c := if ix_wild x then take_add b "WILD_TRACK" else b in
  IXml c false false false (ix_pre x) (ix_sync x) (option_map trim_space (ix_comment x)) (ix_rest x).

(* models/ixml/model.go:169-177; neither step fails *)
Definition upgrade {R} (x : ixml R) : ixml R := v1x_to_v20 (v13_to_v14 x).
