(* C136: lists of nodes that a program took from a document *)
From Coq Require Import List Arith ZArith Bool Ascii String Lia.
From Verif Require Import GoStr GoStrFacts Names SliceM SpecSlice SliceFacts NodeSliceM SpecNodeSlice.
Import ListNotations.
Local Open Scope string_scope.

Section P.
Variables (local : string -> string) (registered : string -> bool).
Notation named := (fun v => strip_prefix (local v)).

Lemma first_index_some p l1 v l2 : forall i, (forall y, In y l1 -> p y = false) -> p v = true -> first_index p i (l1 ++ v :: l2) = Some (i + List.length l1).
Proof.
  induction l1 as [|y l1 IH]; intros i H Hv; cbn [first_index app List.length]; [rewrite Hv; f_equal; lia|]. rewrite H by now left. rewrite IH; [f_equal; lia| |exact Hv]. intros z Hz. apply H. now right.
Qed.
Lemma first_index_none p l : forall i, (forall y, In y l -> p y = false) -> first_index p i l = None.
Proof. induction l as [|y l IH]; intros i H; cbn [first_index]; [reflexivity|]. rewrite H by now left. apply IH. intros z Hz. apply H. now right. Qed.

(* ---- one removal in an array that ends with copies of the last node ---- *)
Lemma cut_array h x S_ a R1 tl : valid h x -> array h (s_arr x) = (S_ ++ a :: R1 ++ tl)%list -> s_len x = List.length S_ + S (List.length R1) ->
  let '(h', x') := cut h x (List.length S_) in valid h' x' /\ s_arr x' = s_arr x /\ s_len x' = List.length S_ + List.length R1
    /\ array h' (s_arr x) = (S_ ++ R1 ++ last (a :: R1) "" :: tl)%list.
Proof.
  intros V E L. assert (Vw : view h x = (S_ ++ a :: R1)%list).
  { unfold view. rewrite E, L. rewrite firstn_app. replace (List.length S_ + S (List.length R1) - List.length S_) with (S (List.length R1)) by lia. rewrite firstn_all2 by lia. cbn [firstn]. rewrite firstn_app, Nat.sub_diag, firstn_all. cbn [firstn]. now rewrite List.app_nil_r. }
  pose proof (cut_view h x S_ a R1 V Vw) as C. destruct (cut h x (List.length S_)) as [h' x'] eqn:Ec. destruct C as [V' W']. pose proof (f_equal fst Ec) as Eh. pose proof (f_equal snd Ec) as Ex. unfold cut in Eh, Ex. cbv zeta in Eh, Ex. cbn [fst snd] in Eh, Ex. subst h' x'. cbn [s_arr s_len] in *.
  split; [exact V'|]. split; [reflexivity|]. split; [lia|]. destruct V as (A & _ & _). rewrite array_put_same by exact A. change (firstn (s_len x) (array h (s_arr x))) with (view h x). rewrite Vw.
  assert (F1 : firstn (List.length S_) (array h (s_arr x)) = S_) by (rewrite E, firstn_app, Nat.sub_diag, firstn_all; cbn [firstn]; apply List.app_nil_r).
  assert (F2 : skipn (S (List.length S_)) (S_ ++ a :: R1) = R1) by (rewrite skipn_app, skipn_all2 by lia; replace (S (List.length S_) - List.length S_) with 1 by lia; reflexivity).
  assert (F3 : skipn (s_len x - 1) (array h (s_arr x)) = last (a :: R1) "" :: tl); [|now rewrite F1, F2, F3]. rewrite E, L. replace (List.length S_ + S (List.length R1) - 1) with (List.length S_ + List.length R1) by lia.
  rewrite skipn_app. rewrite skipn_all2 by lia. replace (List.length S_ + List.length R1 - List.length S_) with (List.length R1) by lia. cbn [app].
  clear. revert a. induction R1 as [|b R1 IH]; intros a; [reflexivity|]. exact (IH b).
Qed.

(* ---- C136 ---- *)
Definition distinct (w : world) (l : list string) : Prop :=
  NoDup l /\ NoDup (map named l) /\ forall v, In v l -> registered (strip_prefix (local v)) = true /\ ~ In v (w_closed w).

Lemma remove_first w S_ a R1 tl : valid (w_heap w) (w_nodes w) -> distinct w (S_ ++ a :: R1) ->
  array (w_heap w) (s_arr (w_nodes w)) = (S_ ++ a :: R1 ++ tl)%list -> s_len (w_nodes w) = List.length S_ + S (List.length R1) ->
  exists w', remove_by_name local registered w (node_name local w a) = w' /\ valid (w_heap w') (w_nodes w') /\ s_arr (w_nodes w') = s_arr (w_nodes w)
    /\ s_len (w_nodes w') = List.length S_ + List.length R1 /\ w_closed w' = a :: w_closed w
    /\ array (w_heap w') (s_arr (w_nodes w)) = (S_ ++ R1 ++ last (a :: R1) "" :: tl)%list /\ nodes w = (S_ ++ a :: R1)%list /\ nodes w' = (S_ ++ R1)%list.
Proof.
  intros V (Nd & Nn & Hl) E L.
  assert (Vw : nodes w = (S_ ++ a :: R1)%list).
  { unfold nodes, view. rewrite E, L. rewrite firstn_app. replace (List.length S_ + S (List.length R1) - List.length S_) with (S (List.length R1)) by lia. rewrite firstn_all2 by lia. cbn [firstn]. rewrite firstn_app, Nat.sub_diag, firstn_all. cbn [firstn]. now rewrite List.app_nil_r. }
  assert (Na : forall v, In v (S_ ++ a :: R1) -> node_name local w v = strip_prefix (local v)).
  { intros v Hv. unfold node_name. destruct (contains (w_closed w) v) eqn:C; [|reflexivity]. apply contains_iff in C. exfalso. now apply (Hl v Hv). }
  assert (Ia : In a (S_ ++ a :: R1)) by (apply in_or_app; right; now left).
  unfold remove_by_name. rewrite (Na a Ia). rewrite (proj1 (Hl a Ia)). unfold remove_namespace. rewrite Vw.
  rewrite (first_index_some (fun v => node_name local w v =? strip_prefix (local a)) S_ a R1 0).
  - cbn [Nat.add]. pose proof (cut_array (w_heap w) (w_nodes w) S_ a R1 tl V E L) as C. pose proof (cut_view (w_heap w) (w_nodes w) S_ a R1 V Vw) as C2.
    destruct (cut (w_heap w) (w_nodes w) (List.length S_)) as [h' x']. destruct C as (V' & A' & L' & E'). destruct C2 as [_ C2].
    eexists. split; [reflexivity|]. cbn [w_heap w_nodes w_closed]. split; [exact V'|]. split; [exact A'|]. split; [exact L'|]. split; [|split; [exact E'|split; [reflexivity|exact C2]]].
    f_equal. rewrite app_nth2 by lia. now rewrite Nat.sub_diag.
  - intros y Hy. rewrite Na by (apply in_or_app; now left). apply eqb_neq. intros K. rewrite map_app in Nn. cbn [map] in Nn. apply NoDup_remove_2 in Nn. apply Nn. apply in_or_app. left. rewrite <- K. exact (in_map (fun v => strip_prefix (local v)) S_ y Hy).
  - rewrite (Na a Ia). apply eqb_refl.
Qed.

Lemma walk_closed list : forall n i w, registered "" = false -> (forall j, i <= j < i + n -> In (nth j (array (w_heap w) (s_arr list)) "") (w_closed w)) -> walk local registered n i w list = w.
Proof.
  induction n as [|n IH]; intros i w H0 H; cbn [walk]; [reflexivity|].
  assert (E : remove_by_name local registered w (node_name local w (nth i (array (w_heap w) (s_arr list)) "")) = w).
  { unfold node_name. assert (C : contains (w_closed w) (nth i (array (w_heap w) (s_arr list)) "") = true) by (apply contains_iff; apply H; lia). rewrite C. unfold remove_by_name. now rewrite H0. }
  rewrite E. apply IH; auto. intros j Hj. apply H. lia.
Qed.
Lemma nth_tail (S_ : list string) z t tl j : List.length S_ <= j < List.length S_ + t -> nth j (S_ ++ repeat z t ++ tl) "" = z.
Proof.
  intros H. rewrite app_nth2 by lia. rewrite app_nth1 by (rewrite repeat_length; lia). apply nth_error_nth. apply nth_error_repeat. lia.
Qed.
Lemma repeat_front (z : string) t tl : (z :: repeat z t ++ tl)%list = (repeat z (S t) ++ tl)%list. Proof. reflexivity. Qed.

Lemma walk_from list z tl : registered "" = false -> forall m R S_ w t, List.length R <= m -> R <> [] -> last R "" = z -> valid (w_heap w) (w_nodes w) -> distinct w (S_ ++ R) ->
  s_arr list = s_arr (w_nodes w) -> s_len (w_nodes w) = List.length S_ + List.length R -> array (w_heap w) (s_arr (w_nodes w)) = (S_ ++ R ++ repeat z t ++ tl)%list ->
  nodes (walk local registered (List.length R + t) (List.length S_) w list) = (S_ ++ skipped R)%list.
Proof.
  intros H0. induction m as [|m IH]; intros R S_ w t Lm Hne Hz V D A L E; [destruct R; [congruence|cbn in Lm; lia]|].
  destruct R as [|a R1]; [congruence|]. cbn [List.length Nat.add walk]. rewrite A.
  assert (Na : nth (List.length S_) (array (w_heap w) (s_arr (w_nodes w))) "" = a) by (rewrite E, app_nth2 by lia; now rewrite Nat.sub_diag). rewrite Na.
  destruct (remove_first w S_ a R1 (repeat z t ++ tl) V D E L) as (w' & Ew & V' & A' & L' & C' & E' & _ & N'). rewrite Ew. rewrite Hz, repeat_front in E'.
  assert (D' : distinct w' (S_ ++ R1)).
  { destruct D as (D1 & D2 & D3). split; [now apply NoDup_remove_1 in D1|]. rewrite map_app in *. cbn [map] in D2. split; [now apply NoDup_remove_1 in D2|]. intros v Hv. rewrite C'.
    assert (Iv : In v (S_ ++ a :: R1)) by (apply in_app_or in Hv; apply in_or_app; cbn [In]; tauto). split; [now apply D3|]. intros [->|K]; [|now apply (D3 v Iv)]. apply NoDup_remove_2 in D1. auto. }
  destruct R1 as [|b R2].
  - cbn [List.length Nat.add]. cbn [last] in Hz. subst z. rewrite walk_closed.
    + rewrite N'. reflexivity.
    + exact H0.
    + intros j Hj. rewrite A, E'. cbn [app]. rewrite (nth_tail S_ a (S t)) by lia. rewrite C'. now left.
  - destruct R2 as [|c R3].
    + cbn [List.length Nat.add walk]. cbn [last] in Hz. subst z. rewrite A.
      assert (Nb : nth (S (List.length S_)) (array (w_heap w') (s_arr (w_nodes w))) "" = b).
      { rewrite E'. rewrite app_nth2 by lia. replace (S (List.length S_) - List.length S_) with 1 by lia. reflexivity. }
      rewrite Nb. rewrite <- A' in E'. cbn [app] in E'. destruct (remove_first w' S_ b [] (repeat b (S t) ++ tl) V' D' E' L') as (w2 & Ew2 & V2 & A2 & L2 & C2 & E2 & _ & N2). rewrite Ew2.
      rewrite walk_closed; [rewrite N2; reflexivity|exact H0|]. intros j Hj. rewrite A, <- A', E2. cbn [app last]. rewrite repeat_front. rewrite (nth_tail S_ b (S (S t))) by lia. rewrite C2. now left.
    + pose proof (IH (c :: R3) (S_ ++ [b])%list w' (S t)) as K. rewrite app_length in K. cbn [List.length] in K. assert (Q : forall q, ((S_ ++ [b]) ++ q)%list = (S_ ++ b :: q)%list) by (intros q; rewrite <- List.app_assoc; reflexivity). rewrite !Q in K. cbn [app] in K.
      replace (List.length S_ + 1) with (S (List.length S_)) in K by lia. cbn [List.length Nat.add]. replace (List.length R3 + t) with (List.length R3 + t) by lia.
      change (skipped (a :: b :: c :: R3)) with (b :: skipped (c :: R3)).
      replace (S (S (List.length R3 + t))) with (S (List.length R3) + S t) by lia. apply K.
      * cbn [List.length] in Lm. lia.
      * discriminate.
      * exact Hz.
      * exact V'.
      * exact D'.
      * now rewrite A'.
      * rewrite L'. cbn [List.length]. lia.
      * rewrite A', E'. reflexivity.
Qed.
End P.

(* A list taken from the document stays as it was, whatever is added to the document later. *)
Theorem C136_added grow l : forall w, valid (w_heap w) (w_nodes w) ->
  let w' := fold_left (append_node grow) l w in
  view (w_heap w') (take_nodes w) = nodes w /\ nodes w' = (nodes w ++ l)%list.
Proof.
  assert (H : forall l w y, valid (w_heap w) (w_nodes w) -> valid (w_heap w) y -> (s_arr y <> s_arr (w_nodes w) \/ s_len y <= s_len (w_nodes w)) -> let w' := fold_left (append_node grow) l w in
    view (w_heap w') y = view (w_heap w) y /\ nodes w' = (nodes w ++ l)%list).
  { clear l. induction l as [|n l IH]; intros w y V Vy H; cbn [fold_left]; [split; [reflexivity|now rewrite List.app_nil_r]|].
    unfold append_node at 2 4. pose proof (append_view grow (w_heap w) (w_nodes w) n V) as A. destruct (append_one grow (w_heap w) (w_nodes w) n) as [h' x'] eqn:E. destruct A as [V' Vw].
    assert (Fr : view h' y = view (w_heap w) y) by (apply (append_frame _ _ _ _ _ _ _ E Vy); tauto).
    destruct (IH (World h' x' (w_closed w)) y V' (append_keeps_valid _ _ _ _ _ _ _ E Vy)) as [I1 I2].
    - cbn [w_nodes]. pose proof (append_len _ _ _ _ _ _ E) as Le. unfold append_one in E. destruct (Nat.ltb (s_len (w_nodes w)) (s_cap (w_nodes w))); injection E as <- <-; cbn [s_arr s_len] in *; [destruct H; [now left|right; lia]|left; destruct Vy; lia].
    - split; [exact (eq_trans I1 Fr)|]. rewrite I2. unfold nodes at 1. cbn [w_heap w_nodes]. rewrite Vw. unfold nodes. now rewrite <- List.app_assoc. }
  intros w V. apply H; auto.
Qed.
Print Assumptions C136_added.

(* RemoveNode takes the node out; a list taken before loses it too, and shows its last node twice. *)
Theorem C136_removed_refuted w l1 a l2 : valid (w_heap w) (w_nodes w) -> nodes w = (l1 ++ a :: l2)%list -> ~ In a l1 ->
  nodes (remove_node w a) = (l1 ++ l2)%list /\ view (w_heap (remove_node w a)) (take_nodes w) = (l1 ++ l2 ++ [last (a :: l2) ""])%list.
Proof.
  intros V E N. unfold remove_node. rewrite E.
  rewrite (first_index_some (fun v => v =? a) l1 a l2 0); [|intros y Hy; apply eqb_neq; intros ->; auto|apply eqb_refl]. cbn [Nat.add].
  pose proof (view_length _ _ V) as L. fold (nodes w) in L. rewrite E, app_length in L. cbn [List.length] in L.
  assert (Ar : array (w_heap w) (s_arr (w_nodes w)) = (l1 ++ a :: l2 ++ skipn (s_len (w_nodes w)) (array (w_heap w) (s_arr (w_nodes w))))%list).
  { rewrite <- (firstn_skipn (s_len (w_nodes w)) (array (w_heap w) (s_arr (w_nodes w)))) at 1. change (firstn (s_len (w_nodes w)) (array (w_heap w) (s_arr (w_nodes w)))) with (nodes w). rewrite E. now rewrite <- List.app_assoc. }
  pose proof (cut_array (w_heap w) (w_nodes w) l1 a l2 _ V Ar (eq_sym L)) as C. pose proof (cut_view (w_heap w) (w_nodes w) l1 a l2 V E) as C2.
  destruct (cut (w_heap w) (w_nodes w) (List.length l1)) as [h' x']. destruct C as (_ & _ & _ & E'). destruct C2 as [_ C2]. split; [exact C2|].
  unfold view, take_nodes. cbn [w_heap]. rewrite E'. generalize (skipn (s_len (w_nodes w)) (array (w_heap w) (s_arr (w_nodes w)))). intros tl. rewrite <- L. generalize (last (a :: l2) ""). intros z.
  replace (l1 ++ l2 ++ z :: tl)%list with ((l1 ++ l2 ++ [z]) ++ tl)%list by (rewrite <- !List.app_assoc; reflexivity).
  assert (Q : List.length l1 + S (List.length l2) = List.length (l1 ++ l2 ++ [z])%list) by (rewrite !app_length; cbn [List.length]; lia). rewrite Q.
  rewrite firstn_app, Nat.sub_diag, firstn_all. cbn [firstn]. apply List.app_nil_r.
Qed.
Print Assumptions C136_removed_refuted.

(* AddNode of a node whose name is there puts it in the place of the old one, also in lists taken before. *)
Theorem C136_replaced_refuted local grow w l1 a l2 n : valid (w_heap w) (w_nodes w) -> nodes w = (l1 ++ a :: l2)%list ->
  local_name local w a = local_name local w n -> (forall v, In v l1 -> local_name local w v <> local_name local w n) ->
  nodes (add_node local grow w n) = (l1 ++ n :: l2)%list /\ view (w_heap (add_node local grow w n)) (take_nodes w) = (l1 ++ n :: l2)%list.
Proof.
  intros V E Ea N. unfold add_node. rewrite E. rewrite (first_index_some _ l1 a l2 0); [|intros y Hy; apply eqb_neq; now apply N|now apply eqb_eq]. cbn [Nat.add].
  assert (K : view (put (s_arr (w_nodes w)) (put (List.length l1) n (array (w_heap w) (s_arr (w_nodes w)))) (w_heap w)) (w_nodes w) = (l1 ++ n :: l2)%list); [|split; exact K].
  pose proof (view_length _ _ V) as L. fold (nodes w) in L. rewrite E, app_length in L. cbn [List.length] in L. destruct V as (A & B & C).
  unfold view. rewrite array_put_same by exact A. rewrite put_split by (unfold array; lia). rewrite firstn_app, firstn_all2 by (rewrite firstn_length; lia). rewrite firstn_length. replace (Nat.min (List.length l1) (List.length (array (w_heap w) (s_arr (w_nodes w))))) with (List.length l1) by (unfold array; lia).
  replace (s_len (w_nodes w) - List.length l1) with (S (List.length l2)) by lia. cbn [firstn].
  assert (F1 : firstn (List.length l1) (array (w_heap w) (s_arr (w_nodes w))) = l1).
  { replace (List.length l1) with (Nat.min (List.length l1) (s_len (w_nodes w))) by lia. rewrite <- firstn_firstn. change (firstn (s_len (w_nodes w)) (array (w_heap w) (s_arr (w_nodes w)))) with (nodes w). rewrite E, firstn_app, Nat.sub_diag, firstn_all. cbn [firstn]. apply List.app_nil_r. }
  rewrite F1. f_equal. f_equal. rewrite firstn_skipn_comm. replace (S (List.length l1) + List.length l2) with (s_len (w_nodes w)) by lia.
  change (firstn (s_len (w_nodes w)) (array (w_heap w) (s_arr (w_nodes w)))) with (nodes w). rewrite E, skipn_app, skipn_all2 by lia. replace (S (List.length l1) - List.length l1) with 1 by lia. reflexivity.
Qed.
Print Assumptions C136_replaced_refuted.

(* Removing each node of the document's list while walking it leaves every other node but the last. *)
Theorem C136_walk_refuted local registered w l : valid (w_heap w) (w_nodes w) -> nodes w = l -> distinct local registered w l -> registered "" = false ->
  nodes (remove_each local registered w (take_nodes w)) = skipped l /\ (skipped l = [] <-> List.length l <= 2).
Proof.
  intros V E D H0. split.
  - unfold remove_each, take_nodes. pose proof (view_length _ _ V) as L. fold (nodes w) in L. rewrite E in L. rewrite <- L. destruct l as [|a l]; [exact E|].
    pose proof (walk_from local registered (w_nodes w) (last (a :: l) "") (skipn (s_len (w_nodes w)) (array (w_heap w) (s_arr (w_nodes w)))) H0 (List.length (a :: l)) (a :: l) [] w 0) as K.
    rewrite Nat.add_0_r in K. cbn [app] in K. apply K; auto.
    + discriminate.
    + cbn [repeat app]. rewrite <- (firstn_skipn (s_len (w_nodes w)) (array (w_heap w) (s_arr (w_nodes w)))) at 1. change (firstn (s_len (w_nodes w)) (array (w_heap w) (s_arr (w_nodes w)))) with (nodes w). now rewrite E.
  - destruct l as [|a [|b [|c l]]]; cbn [skipped List.length]; split; (reflexivity || discriminate || lia).
Qed.
Print Assumptions C136_walk_refuted.

(* With the names collected first, as FilterNamespaces does it, all go. *)
Theorem C136_collected local registered : forall l w, valid (w_heap w) (w_nodes w) -> nodes w = l -> distinct local registered w l ->
  nodes (remove_names local registered w (map (node_name local w) l)) = [].
Proof.
  assert (H : forall l w, valid (w_heap w) (w_nodes w) -> nodes w = l -> distinct local registered w l -> nodes (remove_names local registered w (map (fun v => strip_prefix (local v)) l)) = []).
  { induction l as [|a l IH]; intros w V E D; [exact E|]. unfold remove_names. cbn [map fold_left].
    pose proof (view_length _ _ V) as L. fold (nodes w) in L. rewrite E in L. cbn [List.length] in L.
    assert (Ar : array (w_heap w) (s_arr (w_nodes w)) = ([] ++ a :: l ++ skipn (s_len (w_nodes w)) (array (w_heap w) (s_arr (w_nodes w))))%list).
    { rewrite <- (firstn_skipn (s_len (w_nodes w)) (array (w_heap w) (s_arr (w_nodes w)))) at 1. change (firstn (s_len (w_nodes w)) (array (w_heap w) (s_arr (w_nodes w)))) with (nodes w). now rewrite E. }
    destruct (remove_first local registered w [] a l _ V D Ar (eq_sym L)) as (w' & Ew & V' & _ & _ & C' & _ & _ & N').
    assert (Na : node_name local w a = strip_prefix (local a)).
    { unfold node_name. destruct (contains (w_closed w) a) eqn:C; [|reflexivity]. apply contains_iff in C. exfalso. destruct D as (_ & _ & D). now apply (D a (or_introl eq_refl)). }
    rewrite Na in Ew. rewrite Ew. apply IH; [exact V'|exact N'|]. destruct D as (D1 & D2 & D3). cbn [map] in D2. inversion D1; inversion D2; subst. split; [assumption|]. split; [assumption|].
    intros v Hv. split; [apply D3; now right|]. rewrite C'. intros [->|K]; [contradiction|]. now apply (D3 v (or_intror Hv)). }
  intros l w V E D. rewrite <- (H l w V E D). f_equal. f_equal. apply map_ext_in. intros v Hv. unfold node_name. destruct (contains (w_closed w) v) eqn:C; [|reflexivity]. apply contains_iff in C. exfalso.
  destruct D as (_ & _ & D). now apply (D v Hv).
Qed.
Print Assumptions C136_collected.

Definition three : world := World [[]; ["1"; "2"; "3"; ""]] (Slice 1 3 4) [].
Definition three_local (v : string) : string := if v =? "1" then "dc" else if v =? "2" then "pdf" else if v =? "3" then "xmp" else v.
Example C136_hyps : valid (w_heap three) (w_nodes three) /\ nodes three = ["1"; "2"; "3"] /\ distinct three_local (fun s => negb (s =? "")) three ["1"; "2"; "3"]
  /\ nodes (remove_each three_local (fun s => negb (s =? "")) three (take_nodes three)) = ["2"]
  /\ view (w_heap (remove_node three "1")) (take_nodes three) = ["2"; "3"; "3"].
Proof.
  split; [split; [cbn; lia|split; [cbn; lia|reflexivity]]|]. split; [reflexivity|]. split.
  - split; [repeat constructor; cbn; intuition discriminate|]. split; [vm_compute; repeat constructor; cbn; intuition discriminate|]. intros v [<-|[<-|[<-|[]]]]; (split; [reflexivity|intros []]).
  - split; vm_compute; reflexivity.
Qed.

(* ---- C137: node loops -------------------------------------------------------------------------------------- *)

(* A node is added below another: the tree stays a tree just if the other node is not below the new one. *)
Theorem C137_exact_partial g n x g' : no_loop g -> append_child g n x = Some g' -> (no_loop g' <-> ~ reach g x n).
Proof.
  intros NL H. unfold append_child in H. destruct (eqb_spec x n) as [_|Hx]; [discriminate|]. injection H as <-. set (g' := fun v => if v =? n then (g n ++ [x])%list else g v).
  assert (Sub : forall a b, In b (g a) -> In b (g' a)).
  { intros a b I. unfold g'. destruct (eqb_spec a n) as [->|_]; [apply in_or_app; now left|exact I]. }
  assert (Mono : forall a b, reach g a b -> reach g' a b).
  { induction 1 as [a b I|a b c I R IH]; [apply reach_child; auto|]. eapply reach_step; [apply Sub; exact I|exact IH]. }
  assert (New : In x (g' n)) by (unfold g'; rewrite eqb_refl; apply in_or_app; right; now left).
  assert (Cases : forall a b, reach g' a b -> reach g a b \/ ((a = n \/ reach g a n) /\ (b = x \/ reach g x b)) \/ reach g x n).
  { induction 1 as [a b I|a b c I R IH].
    - unfold g' in I. destruct (eqb_spec a n) as [->|_]; [|left; now apply reach_child]. apply in_app_or in I as [I|[<-|[]]]; [left; now apply reach_child|right; left; split; now left].
    - unfold g' in I. destruct (eqb_spec a n) as [->|Ha].
      + apply in_app_or in I as [I|[<-|[]]].
        * destruct IH as [IH|[[[->|IH1] IH2]|IH]].
          -- left. eapply reach_step; eauto.
          -- right. left. split; [now left|exact IH2].
          -- right. left. split; [now left|exact IH2].
          -- right. right. exact IH.
        * destruct IH as [IH|[[[->|IH1] IH2]|IH]].
          -- right. left. split; [now left|now right].
          -- right. left. split; [now left|exact IH2].
          -- right. right. exact IH1.
          -- right. right. exact IH.
      + destruct IH as [IH|[[[->|IH1] IH2]|IH]].
        * left. eapply reach_step; eauto.
        * right. left. split; [right; now apply reach_child|exact IH2].
        * right. left. split; [right; eapply reach_step; eauto|exact IH2].
        * right. right. exact IH. }
  split.
  - intros H R. apply (H n). eapply reach_step; [exact New|]. now apply Mono.
  - intros H a R. destruct (Cases a a R) as [K|[[[->|K1] [E|K2]]|K]]; try tauto.
    + now apply (NL a).
    + now symmetry in E.
    + subst a. exact (H K1).
    + apply H. clear - K1 K2. induction K2 as [a b I|a b c I R IH]; [eapply reach_step; eauto|]. eapply reach_step; [exact I|]. apply IH. exact K1.
Qed.
Print Assumptions C137_exact_partial.

(* So for new nodes, which have no children. *)
Theorem C137_new_node_partial g n x g' : no_loop g -> g x = [] -> append_child g n x = Some g' -> no_loop g'.
Proof. intros NL E H. apply (proj2 (C137_exact_partial g n x g' NL H)). intros R. inversion R; subst; rewrite E in *; contradiction. Qed.
Print Assumptions C137_new_node_partial.

(* The check finds a node that is added to itself, but not two nodes that are added to each other. *)
Theorem C137_self g n : append_child g n n = None.
Proof. unfold append_child. now rewrite eqb_refl. Qed.
Print Assumptions C137_self.
Theorem C137_two_refuted : exists g g1 g2 a b, no_loop g /\ append_child g a b = Some g1 /\ append_child g1 b a = Some g2 /\ no_loop g1 /\ reach g2 a a.
Proof.
  set (g := fun _ : string => @nil string). exists g. do 2 eexists. exists "a", "b".
  assert (N : no_loop g) by (intros a R; inversion R; contradiction).
  split; [exact N|]. split; [reflexivity|]. split; [reflexivity|]. split.
  - apply (C137_new_node_partial g "a" "b"); [exact N|reflexivity|reflexivity].
  - apply (reach_step _ "a" "b"); [now left|]. apply reach_child. now left.
Qed.
Print Assumptions C137_two_refuted.
