(* Sorting marker lists: models/xmp_dm/types.go:412-420. *)
From Coq Require Import List Arith ZArith Bool Ascii String.
From Verif Require Import GoStr CodecM MmM.
Import ListNotations.
Local Open Scope string_scope.

Section S.
Context {A : Type}.
Notation marker := (marker A).

(* models/xmp_dm/types.go:412 Len *)
Definition marker_len (l : list marker) : nat := List.length l.
(* models/xmp_dm/types.go:413 Swap; indexes out of range panic *)
Definition marker_swap (l : list marker) (i j : nat) : result (list marker) :=
  match nth_error l i, nth_error l j with
  | Some a, Some b => Ok (update_nth (fun _ => a) j (update_nth (fun _ => b) i l))
  | _, _ => Panic
  end.
(* models/xmp_dm/types.go:414 Less *)
Definition marker_less (l : list marker) (i j : nat) : result bool :=
  match nth_error l i, nth_error l j with
  | Some a, Some b => Ok (is_smaller (mk_start a) (mk_start b))
  | _, _ => Panic
  end.

Fixpoint marker_swaps (l : list marker) (sw : list (nat * nat)) : result (list marker) :=
  match sw with [] => Ok l | (i, j) :: r => bind (marker_swap l i j) (fun l => marker_swaps l r) end.

(* models/xmp_dm/types.go:416-418 Sort calls sort.Sort, which only exchanges elements by Swap and ends when no element is
   less than the one before it. Which exchanges it makes depends on the Go release: any are allowed here. That sort.Sort
   ends is not modelled; it promises so for every strict weak order. *)
Definition marker_sort (l l' : list marker) : Prop :=
  (exists sw, marker_swaps l sw = Ok l') /\
  forall i, S i < marker_len l' -> marker_less l' (S i) i = Ok false.
End S.
