(* ResourceRefArray.DeleteIndex on the memory of the slice (models/xmp_mm/types.go:71-85) *)
From Coq Require Import List Arith ZArith Bool Ascii String.
From Verif Require Import GoStr MmM.
Import ListNotations.
Local Open Scope string_scope.

(* A slice is a length; all slices here start at the beginning of one array, whose cells are [arr] (the capacity is its
   length). A cell is a pointer to a reference, given by the document id of the reference; None is nil. *)
Definition cells := list (option string).
(* the elements x[0:n] *)
Definition elems (arr : cells) (n : nat) : cells := firstn n arr.
(* copy(arr[i:], vals), as append does when the capacity suffices *)
Definition put_cells (arr : cells) (i : nat) (vals : cells) : cells :=
  (firstn i arr ++ vals ++ skipn (i + List.length vals) arr)%list.

(* models/xmp_mm/types.go:80-85 DeleteIndex: the array and the length of *x afterwards. append(x[:idx], x[idx+1:]...)
   needs len(x)-1 cells, so it never allocates. x[idx+1:] panics for idx = len(x). *)
Definition delete_cells (arr : cells) (n : nat) (idx : Z) : result (cells * nat) :=
  if (idx <? 0)%Z || (Z.of_nat n <? idx)%Z then Ok (arr, n)
  else if (Z.of_nat n <? idx + 1)%Z then Panic
  else let i := Z.to_nat idx in
       let tail := firstn (n - (i + 1)) (skipn (i + 1) arr) in
       Ok (put_cells arr i tail, i + List.length tail).

(* The program
     for _, r := range x { x.DeleteIndex(x.Index(r.DocumentID)) }
   The range statement keeps the slice of the start: it reads the cells 0 .. len-1 of the array one after the other, as
   they are at that moment. *)
Fixpoint delete_loop (todo i : nat) (arr : cells) (n : nat) : result (cells * nat) :=
  match todo with
  | 0 => Ok (arr, n)
  | S k =>
      match nth_error arr i with
      | Some (Some did) =>
          bind (ref_index (elems arr n) did) (fun idx =>
          bind (delete_cells arr n idx) (fun p => delete_loop k (S i) (fst p) (snd p)))
      | _ => Panic                                            (* nil reference *)
      end
  end.
Definition delete_all (arr : cells) (n : nat) : result (cells * nat) := delete_loop n 0 arr n.
(* The same from the last index to the first: for i := len(x)-1; i >= 0; i-- { x.DeleteIndex(i) } *)
Fixpoint delete_down (n : nat) (arr : cells) : result (cells * nat) :=
  match n with
  | 0 => Ok (arr, 0)
  | S k => bind (delete_cells arr (S k) (Z.of_nat k)) (fun p => delete_down k (fst p))
  end.
