(* C132, continued: indices and memory *)
From Coq Require Import List String Arith ZArith Bool Lia.
From Verif Require Import GoStr ArrayM CodecM SpecCodec CodecFacts2 TypeM TPathM GrowM.
Import ListNotations.
Local Open Scope Z_scope.

Lemma firstn_repeat {A} (x : A) n : forall m, (n <= m)%nat -> firstn n (repeat x m) = repeat x n.
Proof. induction n as [|n IH]; intros [|m] L; cbn; try lia; [reflexivity|reflexivity|]. f_equal. apply IH. lia. Qed.
Lemma skipn_repeat {A} (x : A) n : forall m, skipn n (repeat x m) = repeat x (m - n).
Proof. induction n as [|n IH]; intros [|m]; cbn; auto. Qed.

(* As long as twice the index fits into memory, growing a list is what the model of SetPath does. *)
Theorem C132_grow_partial : forall X w (te : ty X) l sp n, 0 < w -> 0 <= n -> w * Z.max (n * 2) 4 <= 2 ^ 48 ->
  grow_slice_mem w te l sp n = Ok (grow_slice te l sp (Z.to_nat n)).
Proof.
  intros X w te l sp n W N L. assert (L' : Z.max (n * 2) 4 <= 2 ^ 48) by nia.
  unfold grow_slice_mem, grow_slice. rewrite wrap64_small by (unfold word64; lia).
  replace (Nat.leb (List.length l) (Z.to_nat n)) with (Z.of_nat (List.length l) <=? n).
  2: { destruct (Z.leb_spec (Z.of_nat (List.length l)) n), (Nat.leb_spec (List.length l) (Z.to_nat n)); auto; lia. }
  destruct (Z.leb_spec (Z.of_nat (List.length l)) n) as [K|K]; [|reflexivity].
  replace (Nat.leb (List.length l + List.length sp) (Z.to_nat n)) with (Z.of_nat (List.length l) + Z.of_nat (List.length sp) <=? n).
  2: { destruct (Z.leb_spec (Z.of_nat (List.length l) + Z.of_nat (List.length sp)) n), (Nat.leb_spec (List.length l + List.length sp) (Z.to_nat n)); auto; lia. }
  replace (Z.to_nat (n + 1)) with (S (Z.to_nat n)) by lia.
  destruct (Z.leb_spec (Z.of_nat (List.length l) + Z.of_nat (List.length sp)) n) as [C|C]; cbn [andb].
  - unfold make_ok. rewrite (proj2 (Z.leb_le 0 _)) by lia. rewrite (proj2 (Z.leb_le _ (2 ^ 48))) by lia. cbn [andb negb orb].
    rewrite (proj2 (Z.ltb_ge _ (Z.of_nat (List.length l)))) by lia. rewrite (proj2 (Z.ltb_ge _ (n + 1))) by lia.
    rewrite firstn_repeat by lia. rewrite skipn_repeat.
    replace (Z.to_nat (Z.max (n * 2) 4) - List.length l - (S (Z.to_nat n) - List.length l))%nat with (Nat.max (Z.to_nat n * 2) 4 - S (Z.to_nat n))%nat by lia.
    reflexivity.
  - rewrite (proj2 (Z.ltb_ge _ (n + 1))) by lia. reflexivity.
Qed.
Print Assumptions C132_grow_partial.

(* Every greater index from 2^47 on crashes, however long the list is, unless the list has that capacity. *)
Theorem C132_index_refuted : forall X w (te : ty X) l sp n, 0 < w -> 2 ^ 47 < n < 2 ^ 63 ->
  Z.of_nat (List.length l + List.length sp) <= n -> grow_slice_mem w te l sp n = Panic.
Proof.
  intros X w te l sp n W N C. unfold grow_slice_mem. rewrite (proj2 (Z.leb_le _ n)) by lia. rewrite (proj2 (Z.leb_le _ n)) by lia. cbn [andb].
  destruct (Z.ltb_spec n (2 ^ 62)) as [S|S].
  - rewrite wrap64_small by (unfold word64; lia). replace (make_ok w (Z.max (n * 2) 4)) with false; [reflexivity|].
    symmetry. unfold make_ok. apply andb_false_iff. right. apply Z.leb_gt. nia.
  - assert (E : wrap64 (n * 2) = n * 2 - 2 ^ 64).
    { unfold wrap64. assert (Q : (n * 2 + 2 ^ 63) mod 2 ^ 64 = n * 2 + 2 ^ 63 - 2 ^ 64) by (symmetry; apply (Z.mod_unique _ _ 1); lia). lia. }
    rewrite E. replace (Z.max (n * 2 - 2 ^ 64) 4) with 4 by lia. rewrite (proj2 (Z.ltb_lt 4 (n + 1))) by lia. now destruct (_ || _).
Qed.
Print Assumptions C132_index_refuted.

Example C132_grow_hyps : grow_slice_mem 16 (TStr : ty unit) [VStr "a"%string] [] 3 = Ok ([VStr "a"; VStr ""; VStr ""; VStr ""]%string, [VStr ""; VStr ""]%string) /\
  0 < 16 /\ 16 * Z.max (3 * 2) 4 <= 2 ^ 48 /\ grow_slice_mem 16 (TStr : ty unit) [] [] (2 ^ 62) = Panic.
Proof. vm_compute. repeat split; discriminate || reflexivity. Qed.
