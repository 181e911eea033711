(* growSlice with the limits of memory: TPathM.grow_slice leaves them out *)
From Coq Require Import List Arith ZArith Bool Lia.
From Verif Require Import GoStr ArrayM CodecM TypeM TPathM.
Import ListNotations.
Local Open Scope Z_scope.

(* xmp/path.go:1273-1286 growSlice(v, n) for a slice with elements l and the rest sp of its backing array, of
   elements of w bytes. reflect.MakeSlice panics when the capacity is negative or less than the length, or when
   it needs more than 2^48 bytes (make_ok); n*2 wraps around at 64 bits; SetLen panics beyond the capacity. *)
Definition grow_slice_mem {X} (w : Z) (te : ty X) (l sp : list (gval X)) (n : Z) : result (list (gval X) * list (gval X)) :=
  let k := Z.of_nat (List.length l) in
  if k <=? n then
    let c := k + Z.of_nat (List.length sp) in
    let c' := if c <=? n then Z.max (wrap64 (n * 2)) 4 else c in
    if (c <=? n) && (negb (make_ok w c') || (c' <? k)) then Panic
    else if c' <? n + 1 then Panic
    else let sp' := if c <=? n then repeat (zero te) (Z.to_nat c' - List.length l) else sp in
         Ok ((l ++ firstn (Z.to_nat (n + 1) - List.length l) sp')%list, skipn (Z.to_nat (n + 1) - List.length l) sp')
  else Ok (l, sp).
