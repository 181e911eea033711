(* C147: lists of references and deletion *)
From Coq Require Import List Arith ZArith Bool Ascii String Lia.
From Verif Require Import GoStr MmM MmFacts RefSliceM.
Import ListNotations.
Local Open Scope string_scope.

Lemma delete_cells_in : forall a x b rest,
  delete_cells ((a ++ x :: b) ++ rest)%list (List.length (a ++ x :: b)) (Z.of_nat (List.length a)) =
    Ok ((a ++ b ++ last b x :: rest)%list, List.length (a ++ b)).
Proof.
  intros a x b rest. unfold delete_cells.
  assert (L : List.length (a ++ x :: b) = List.length a + S (List.length b)) by (rewrite List.app_length; reflexivity).
  rewrite L. replace (Z.of_nat (List.length a) <? 0)%Z with false by (symmetry; apply Z.ltb_ge; lia).
  replace (Z.of_nat (List.length a + S (List.length b)) <? Z.of_nat (List.length a))%Z with false by (symmetry; apply Z.ltb_ge; lia).
  replace (Z.of_nat (List.length a + S (List.length b)) <? Z.of_nat (List.length a) + 1)%Z with false by (symmetry; apply Z.ltb_ge; lia).
  cbn [orb]. rewrite Nat2Z.id.
  assert (S1 : skipn (List.length a + 1) ((a ++ x :: b) ++ rest)%list = (b ++ rest)%list).
  { rewrite <- List.app_assoc. rewrite skipn_app, skipn_all2 by lia. replace (List.length a + 1 - List.length a) with 1 by lia. reflexivity. }
  rewrite S1. replace (List.length a + S (List.length b) - (List.length a + 1)) with (List.length b) by lia.
  rewrite firstn_app, Nat.sub_diag, firstn_all, firstn_O, List.app_nil_r. f_equal. f_equal; [|now rewrite List.app_length].
  unfold put_cells. rewrite <- List.app_assoc. rewrite firstn_app, Nat.sub_diag, firstn_all, firstn_O, List.app_nil_r. f_equal. f_equal.
  rewrite skipn_app, skipn_all2 by lia. replace (List.length a + List.length b - List.length a) with (List.length b) by lia.
  cbn [app]. destruct b as [|y b] using rev_ind; [reflexivity|]. rewrite last_last, List.app_length, Nat.add_comm. cbn [List.length Nat.add].
  cbn [skipn]. rewrite <- List.app_assoc, skipn_app, skipn_all, Nat.sub_diag. reflexivity.
Qed.

Lemma split_at : forall (l : cells) i, i < List.length l -> exists a x b, l = (a ++ x :: b)%list /\ List.length a = i.
Proof.
  intros l i H. destruct (nth_error l i) as [x|] eqn:E; [|apply nth_error_None in E; lia].
  apply nth_error_split in E. destruct E as (a & b & -> & L). now exists a, x, b.
Qed.

(* The list itself: after DeleteIndex it has the elements DeleteIndex of the list of C62 has, for every array. *)
Theorem C147_deletes : forall arr n idx, n <= List.length arr ->
  bind (delete_cells arr n idx) (fun p => Ok (elems (fst p) (snd p))) = delete_index (elems arr n) idx.
Proof.
  intros arr n idx H. unfold delete_cells, delete_index, elems.
  assert (L : List.length (firstn n arr) = n) by (rewrite firstn_length; lia). rewrite L.
  destruct ((idx <? 0)%Z || (Z.of_nat n <? idx)%Z) eqn:O; [reflexivity|].
  destruct (Z.ltb_spec (Z.of_nat n) (idx + 1)) as [C|C]; [reflexivity|]. apply orb_false_iff in O. destruct O as [O1 O2].
  apply Z.ltb_ge in O1. apply Z.ltb_ge in O2. cbn [bind fst snd]. f_equal.
  replace (Z.to_nat (idx + 1)) with (Z.to_nat idx + 1) by lia. set (i := Z.to_nat idx).
  assert (Hi : i < n) by (unfold i; lia). set (t := firstn (n - (i + 1)) (skipn (i + 1) arr)).
  assert (Lt : List.length t = n - (i + 1)) by (unfold t; rewrite firstn_length, skipn_length; lia).
  unfold put_cells. rewrite List.app_assoc.
  assert (L2 : i + List.length t = List.length (firstn i arr ++ t)) by (rewrite List.app_length, firstn_length; lia).
  rewrite L2 at 1. rewrite firstn_app, Nat.sub_diag, firstn_all, firstn_O, List.app_nil_r.
  rewrite firstn_firstn, Nat.min_l by lia. f_equal. unfold t. rewrite skipn_firstn_comm. reflexivity.
Qed.
Print Assumptions C147_deletes.

(* A list taken before (y := x.Ingredients) is overwritten: it loses the deleted reference and has its last one twice.
   [rest] is the unused part of the array. *)
Theorem C147_earlier_list_refuted : forall a x b rest arr n,
  delete_cells ((a ++ x :: b) ++ rest)%list (List.length (a ++ x :: b)) (Z.of_nat (List.length a)) = Ok (arr, n) ->
  elems arr (List.length (a ++ x :: b)) = (a ++ b ++ [last b x])%list /\ elems arr n = (a ++ b)%list.
Proof.
  intros a x b rest arr n E. rewrite delete_cells_in in E. injection E as <- <-. unfold elems. split.
  - replace (a ++ b ++ last b x :: rest)%list with ((a ++ b ++ [last b x]) ++ rest)%list by (rewrite <- !List.app_assoc; reflexivity).
    replace (List.length (a ++ x :: b)) with (List.length (a ++ b ++ [last b x])) by (rewrite !List.app_length; cbn [List.length]; lia).
    now rewrite firstn_app, Nat.sub_diag, firstn_all, firstn_O, List.app_nil_r.
  - rewrite List.app_assoc, firstn_app, Nat.sub_diag, firstn_all, firstn_O, List.app_nil_r. reflexivity.
Qed.
Print Assumptions C147_earlier_list_refuted.

Lemma shifted_same : forall (b : cells) x, (b ++ [last b x])%list = x :: b <-> Forall (eq x) b.
Proof.
  induction b as [|y b IH]; intros x; [split; [constructor|reflexivity]|]. split.
  - intros E. cbn [app] in E. injection E as -> E. constructor; [reflexivity|]. apply IH.
    replace (last b x) with (last (x :: b) x); [exact E|]. destruct b; reflexivity.
  - intros F. apply Forall_cons_iff in F. destruct F as [<- F]. cbn [app]. f_equal. apply IH in F.
    replace (last (x :: b) x) with (last b x); [exact F|]. destruct b; reflexivity.
Qed.

(* So an earlier list stays the same exactly if all references from the deleted one on are the same, in particular if
   the last one is deleted. *)
Theorem C147_earlier_list_partial : forall a x b rest arr n,
  delete_cells ((a ++ x :: b) ++ rest)%list (List.length (a ++ x :: b)) (Z.of_nat (List.length a)) = Ok (arr, n) ->
  (elems arr (List.length (a ++ x :: b)) = (a ++ x :: b)%list <-> Forall (eq x) b).
Proof.
  intros a x b rest arr n E. destruct (C147_earlier_list_refuted a x b rest arr n E) as [-> _]. split.
  - intros K. apply app_inv_head in K. now apply shifted_same.
  - intros F. f_equal. now apply shifted_same.
Qed.
Print Assumptions C147_earlier_list_partial.

(* ---- deleting all references in a loop ---- *)
Lemma ref_index_in : forall l i did k, ref_index_from i l did = Ok k -> (k = -1 \/ (i <= k < i + Z.of_nat (List.length l)))%Z.
Proof.
  induction l as [|[d|] l IH]; intros i did k E; cbn [ref_index_from] in E; try discriminate.
  - injection E as <-. now left.
  - destruct (d =? did); [injection E as <-; right; cbn [List.length]; lia|]. apply IH in E. cbn [List.length]. lia.
Qed.
Lemma ref_index_total : forall l i did, Forall (fun d => d <> None) l -> exists k, ref_index_from i l did = Ok k.
Proof.
  induction l as [|[d|] l IH]; intros i did H; cbn [ref_index_from]; [now eexists| |].
  - apply Forall_cons_iff in H. destruct H as [_ H]. destruct (d =? did); [now eexists|now apply IH].
  - apply Forall_cons_iff in H. destruct H as [H _]. now elim H.
Qed.
Lemma last_in : forall (b : cells) x, last b x = x \/ In (last b x) b.
Proof. induction b as [|y b IH]; intros x; [now left|]. right. destruct b as [|z b]; [now left|]. right. destruct (IH x) as [E|I]; [|exact I].
  clear -E. change (last (z :: b) x) with (last (y :: z :: b) x) in *. cbn [last] in *. revert z E. induction b as [|w b IHb]; intros z E; [now left|right; now apply IHb]. Qed.

(* the second of at least three references stays *)
Definition keeps (b : string) (arr : cells) (n : nat) : Prop :=
  0 < n <= List.length arr /\ exists rest, arr = Some b :: rest /\ Forall (fun d => d <> None /\ d <> Some b) rest.
Lemma keeps_step : forall b arr n idx, keeps b arr n -> (idx = -1 \/ 1 <= idx < Z.of_nat n)%Z ->
  exists arr' n', delete_cells arr n idx = Ok (arr', n') /\ keeps b arr' n' /\ List.length arr' = List.length arr.
Proof.
  intros b arr n idx (Hn & rest & -> & F) [-> | Hi].
  - exists (Some b :: rest), n. split; [reflexivity|]. split; [|reflexivity]. split; [exact Hn|]. now exists rest.
  - destruct (split_at (firstn n (Some b :: rest)) (Z.to_nat idx)) as (a & x & c & E & L).
    { rewrite firstn_length. lia. }
    destruct a as [|a0 a]; [cbn [List.length] in L; lia|].
    assert (R : (Some b :: rest = ((a0 :: a) ++ x :: c) ++ skipn n (Some b :: rest))%list) by (rewrite <- E; symmetry; apply firstn_skipn).
    assert (N : n = List.length ((a0 :: a) ++ x :: c)) by (rewrite <- E, firstn_length; lia).
    remember (skipn n (Some b :: rest)) as sk eqn:Esk. clear Esk.
    pose proof (delete_cells_in (a0 :: a) x c sk) as D. rewrite <- R, <- N, L, Z2Nat.id in D by lia.
    eexists. eexists. split; [exact D|]. cbn [app] in R. injection R as <- R. subst rest.
    apply Forall_app in F. destruct F as [F1 F4]. apply Forall_app in F1. destruct F1 as [F1 F2]. apply Forall_cons_iff in F2. destruct F2 as [F2 F3].
    split; [split|].
    + cbn [app List.length]. rewrite !List.app_length. cbn [List.length]. lia.
    + eexists. split; [reflexivity|]. apply Forall_app. split; [exact F1|]. apply Forall_app. split; [exact F3|]. constructor; [|exact F4].
      destruct (last_in c x) as [-> | I]; [exact F2|]. rewrite Forall_forall in F3. now apply F3.
    + cbn [app List.length]. rewrite !List.app_length. cbn [List.length]. rewrite ?List.app_length. cbn [List.length]. lia.
Qed.
Lemma keeps_loop : forall todo i b arr n, keeps b arr n -> 1 <= i -> i + todo <= List.length arr ->
  exists arr' n', delete_loop todo i arr n = Ok (arr', n') /\ keeps b arr' n'.
Proof.
  induction todo as [|k IH]; intros i b arr n K Hi Hl; [now exists arr, n|].
  pose proof K as (Hn & rest & E & F). cbn [delete_loop].
  destruct (nth_error arr i) as [d|] eqn:D; [|apply nth_error_None in D; lia].
  assert (Id : In d rest). { rewrite E in D. destruct i as [|i]; [lia|]. cbn [nth_error] in D. eapply nth_error_In; exact D. }
  rewrite Forall_forall in F. destruct (F d Id) as [N1 N2]. destruct d as [did|]; [|now elim N1].
  assert (Fe : Forall (fun d => d <> None) (elems arr n)).
  { apply Forall_forall. intros y I. assert (I' : In y arr) by (rewrite <- (firstn_skipn n arr); apply in_or_app; now left).
    rewrite E in I'. destruct I' as [<-|I']; [discriminate|]. now destruct (F y I'). }
  unfold ref_index. destruct (ref_index_total (elems arr n) 0 did Fe) as [idx X]. rewrite X. cbn [bind].
  assert (R : (idx = -1 \/ 1 <= idx < Z.of_nat n)%Z).
  { unfold elems in X. rewrite E in X. destruct n as [|n]; [lia|]. cbn [firstn ref_index_from] in X.
    destruct (String.eqb_spec b did) as [->|_]; [now elim N2|]. apply ref_index_in in X. rewrite firstn_length in X.
    destruct X as [X|X]; [now left|right; lia]. }
  destruct (keeps_step b arr n idx K R) as (arr' & n' & -> & K' & L'). cbn [bind fst snd]. apply IH; [exact K'|lia|lia].
Qed.

(* Deleting each reference in a range loop does not empty the list: of three or more references to different documents
   the second stays. *)
Theorem C147_loop_leaves_refuted : forall (a b c : string) r, NoDup (a :: b :: c :: r) ->
  let l := map Some (a :: b :: c :: r) in
  exists arr n, delete_all l (List.length l) = Ok (arr, n) /\ In (Some b) (elems arr n).
Proof.
  intros a b c r ND l. unfold delete_all. subst l. cbn [map List.length]. set (t := map Some r).
  cbn [delete_loop nth_error]. unfold ref_index, elems.
  cbn [firstn ref_index_from]. rewrite String.eqb_refl. cbn [bind].
  pose proof (delete_cells_in [] (Some a) (Some b :: Some c :: t) []) as D. rewrite List.app_nil_r in D. cbn [app List.length] in D.
  change (Z.of_nat 0) with 0%Z in D. rewrite D. cbn [bind fst snd].
  assert (K : keeps b (Some b :: Some c :: t ++ [last (Some b :: Some c :: t) (Some a)])%list (S (S (List.length t)))).
  { split; [cbn [List.length]; rewrite List.app_length; cbn [List.length]; lia|]. eexists. split; [reflexivity|].
    assert (F : Forall (fun d => d <> None /\ d <> Some b) (Some c :: t)).
    { change (Some c :: t) with (map Some (c :: r)). apply Forall_map. apply Forall_forall. intros d I. split; [discriminate|].
      intros [= ->]. inversion ND as [|? ? _ ND']. inversion ND' as [|? ? NI _]. now apply NI. }
    change (last (Some b :: Some c :: t) (Some a)) with (last (Some c :: t) (Some a)).
    pose proof F as F'. apply Forall_cons_iff in F'. destruct F' as [Fc Ft]. constructor; [exact Fc|]. apply Forall_app. split; [exact Ft|].
    constructor; [|constructor]. destruct (last_in t (Some c)) as [Q|Q].
    - replace (last (Some c :: t) (Some a)) with (last t (Some c)); [now rewrite Q|]. clear. revert c. induction t as [|x t IH]; intros c; [reflexivity|].
      destruct t; [reflexivity|]. exact (IH c).
    - replace (last (Some c :: t) (Some a)) with (last t (Some c)); [rewrite Forall_forall in Ft; now apply Ft|]. clear. revert c. induction t as [|x t IH]; intros c; [reflexivity|].
      destruct t; [reflexivity|]. exact (IH c). }
  destruct (keeps_loop (S (S (List.length t))) 1 b _ _ K) as (arr & n & E & K'); [lia|cbn [List.length]; rewrite List.app_length; cbn [List.length]; lia|].
  exists arr, n. split; [exact E|]. destruct K' as (Hn & rest & -> & _). destruct n; [lia|]. now left.
Qed.
Print Assumptions C147_loop_leaves_refuted.

(* Deleting from the last to the first empties every list. *)
Theorem C147_down_empties : forall n arr, n <= List.length arr -> exists arr', delete_down n arr = Ok (arr', 0).
Proof.
  induction n as [|n IH]; intros arr H; [now exists arr|]. cbn [delete_down].
  destruct (split_at (firstn (S n) arr) n) as (a & x & b & E & L); [rewrite firstn_length; lia|].
  assert (R : arr = ((a ++ x :: b) ++ skipn (S n) arr)%list) by (rewrite <- E; symmetry; apply firstn_skipn).
  assert (N : S n = List.length (a ++ x :: b)) by (rewrite <- E, firstn_length; lia).
  pose proof (delete_cells_in a x b (skipn (S n) arr)) as D. rewrite <- R, <- N, L in D. rewrite D. cbn [bind fst].
  apply IH. rewrite !List.app_length. cbn [List.length]. rewrite List.app_length in N. lia.
Qed.
Print Assumptions C147_down_empties.

Example C147_hyps :
  (exists arr n, delete_cells [Some "a"; Some "b"; Some "c"; None] 3 0 = Ok (arr, n) /\ elems arr n = [Some "b"; Some "c"] /\
     elems arr 3 = [Some "b"; Some "c"; Some "c"]) /\
  delete_all [Some "a"; Some "b"; Some "c"; Some "d"; Some "e"] 5 = Ok ([Some "b"; Some "d"; Some "e"; Some "e"; Some "e"], 2) /\
  NoDup ["a"; "b"; "c"; "d"].
Proof.
  split; [|split].
  - eexists. eexists. split; [reflexivity|]. split; reflexivity.
  - reflexivity.
  - repeat constructor; cbn; intuition discriminate.
Qed.
