(* C99-C102: the dictionaries of iXML and the upgrade of earlier versions *)
From Coq Require Import List Arith ZArith Bool Ascii String Lia.
From Verif Require Import GoStr SliceM SpecSlice SliceFacts CodecM.
Import ListNotations.
Local Open Scope string_scope.

(* ---- C99: the lists act as sets ---- *)
Theorem C99_contains : forall h x t, set_contains h x t = true <-> In t (view h x).
Proof. intros h x t. apply contains_iff. Qed.
Print Assumptions C99_contains.
Theorem C99_add : forall grow h x t h' x', valid h x -> set_add grow h x t = (h', x') ->
  valid h' x' /\ (In t (view h x) -> view h' x' = view h x) /\ (~ In t (view h x) -> view h' x' = (view h x ++ [t])%list).
Proof. intros grow h x t h' x' V E. pose proof (add_view grow h x t V) as H. now rewrite E in H. Qed.
Print Assumptions C99_add.
(* in a list without duplicates Del removes the value and nothing else *)
Theorem C99_del_partial : forall h x t h' x', valid h x -> NoDup (view h x) -> set_del h x t = (h', x') ->
  valid h' x' /\ keeps (fun e => e <> t) (view h x) (view h' x').
Proof. intros h x t h' x' V N E. pose proof (del_view h x t V N) as H. now rewrite E in H. Qed.
Print Assumptions C99_del_partial.
(* in general it removes the last occurrence *)
Theorem C99_del_last : forall h x t l1 l2 h' x', valid h x -> view h x = (l1 ++ t :: l2)%list -> ~ In t l2 -> set_del h x t = (h', x') ->
  view h' x' = (l1 ++ l2)%list.
Proof. intros h x t l1 l2 h' x' V W N E. pose proof (del_last h x t l1 l2 V W N) as H. rewrite E in H. apply H. Qed.
Print Assumptions C99_del_last.
Theorem C99_del_absent : forall h x t, ~ In t (view h x) -> set_del h x t = (h, x).
Proof. exact del_absent. Qed.
(* so a list read from a text with a value twice still contains it after Del *)
Theorem C99_del_refuted : exists l h x h' x', words_unmarshal [] "PICKUP,PICKUP" = Ok l /\ literal no_arrays l = (h, x) /\ valid h x
  /\ set_del h x "PICKUP" = (h', x') /\ set_contains h' x' "PICKUP" = true.
Proof.
  exists ["PICKUP"; "PICKUP"], [[]; ["PICKUP"; "PICKUP"]], (Slice 1 2 2), [[]; ["PICKUP"; "PICKUP"]], (Slice 1 1 2).
  split; [vm_compute; reflexivity|]. split; [reflexivity|]. split; [unfold valid; cbn; lia|]. split; vm_compute; reflexivity.
Qed.
(* starting from nothing, Adds never make duplicates; the list has the values in the order of their first Add *)
Theorem C99_built_by_add : forall grow l h x h' x', valid h x -> NoDup (view h x) -> adds grow h x l = (h', x') ->
  valid h' x' /\ NoDup (view h' x') /\ (forall e, In e (view h' x') <-> In e (view h x) \/ In e l) /\ exists m, view h' x' = (view h x ++ m)%list.
Proof.
  intros grow l. induction l as [|t l IH]; intros h x h' x' V N E; cbn [adds] in E.
  - injection E as <- <-. split; [exact V|]. split; [exact N|]. split; [cbn; tauto|]. exists []. now rewrite List.app_nil_r.
  - pose proof (add_view grow h x t V) as A. destruct (set_add grow h x t) as [h1 x1]. destruct A as (V1 & A1 & A2).
    destruct (in_dec string_dec t (view h x)) as [I|I].
    + specialize (A1 I). destruct (IH h1 x1 h' x' V1 ltac:(now rewrite A1) E) as (W & D & S & m & M). split; [exact W|]. split; [exact D|]. rewrite A1 in *.
      split; [|exists m; exact M]. intros e. rewrite S. cbn. split; [tauto|]. intros [H|[<-|H]]; auto.
    + specialize (A2 I). assert (N1 : NoDup (view h1 x1)).
      { rewrite A2. apply NoDup_rev in N. rewrite <- (rev_involutive (view h x ++ [t])). apply NoDup_rev. rewrite rev_app_distr. cbn. constructor; [now rewrite <- in_rev|exact N]. }
      destruct (IH h1 x1 h' x' V1 N1 E) as (W & D & S & m & M). split; [exact W|]. split; [exact D|]. rewrite A2 in *. split.
      * intros e. rewrite S, in_app_iff. cbn. tauto.
      * exists (t :: m). rewrite M. now rewrite <- List.app_assoc.
Qed.
Print Assumptions C99_built_by_add.
Theorem C99_is_default : forall h x, valid h x -> (take_is_default h x = true <-> view h x = [] \/ In "DEFAULT" (view h x)).
Proof.
  intros h x V. unfold take_is_default. pose proof (view_length h x V) as L. destruct (Nat.eqb_spec (s_len x) 0) as [Z|Z].
  - rewrite Z in L. apply length_zero_iff_nil in L. rewrite L. cbn. tauto.
  - unfold set_contains. rewrite contains_iff. split; [auto|]. intros [E|H]; [rewrite E in L; cbn in L; lia|exact H].
Qed.
Print Assumptions C99_is_default.
Example C99_hyps : let h := [[]; ["INT"; "EXT"; "INT"]] in let x := Slice 1 3 3 in valid h x /\ view h x = ["INT"; "EXT"; "INT"]
  /\ view (fst (set_del h x "EXT")) (snd (set_del h x "EXT")) = ["INT"; "INT"]
  /\ view (fst (set_add S h x "NEW")) (snd (set_add S h x "NEW")) = ["INT"; "EXT"; "INT"; "NEW"] /\ valid no_arrays nil_slice.
Proof. cbn zeta. split; [unfold valid; cbn; lia|]. split; [reflexivity|]. split; [reflexivity|]. split; [reflexivity|]. unfold valid; cbn; lia. Qed.

(* ---- C100: Merge is the union, Sub the difference ---- *)
(* also if the two sets share an array *)
Theorem C100_merge : forall grow h x s h' x', valid h x -> valid h s -> set_merge grow h x s = (h', x') ->
  valid h' x' /\ (exists m, view h' x' = (view h x ++ m)%list) /\ (NoDup (view h x) -> NoDup (view h' x'))
  /\ (forall e, In e (view h' x') <-> In e (view h x) \/ In e (view h s)).
Proof. intros grow h x s h' x' V W E. pose proof (merge_view grow h x s V W) as H. now rewrite E in H. Qed.
Print Assumptions C100_merge.
Theorem C100_sub_partial : forall h x s h' x', valid h x -> valid h s -> apart x s -> NoDup (view h x) -> set_sub h x s = (h', x') ->
  valid h' x' /\ keeps (fun e => ~ In e (view h s)) (view h x) (view h' x').
Proof. intros h x s h' x' V W P N E. pose proof (sub_view h x s V W P N) as H. now rewrite E in H. Qed.
Print Assumptions C100_sub_partial.
(* a set minus itself need not be empty: the loop reads the elements it moves *)
Theorem C100_sub_self_refuted : exists h x h' x', valid h x /\ NoDup (view h x) /\ set_sub h x x = (h', x') /\ view h' x' = ["C-LCR"].
Proof.
  exists package_heap, (package_set 6). eexists. eexists. split; [unfold valid; cbn; lia|]. split.
  - vm_compute. repeat constructor; cbn; intuition discriminate.
  - split; vm_compute; reflexivity.
Qed.
Example C100_hyps : let x := package_set 4 in let s := package_set 3 in valid package_heap x /\ valid package_heap s /\ apart x s
  /\ view (fst (set_merge S package_heap x s)) (snd (set_merge S package_heap x s)) = ["LEFT"; "RIGHT"; "MIX"].
Proof. cbn zeta. split; [unfold valid; cbn; lia|]. split; [unfold valid; cbn; lia|]. split; [unfold apart; cbn; lia|]. vm_compute; reflexivity. Qed.

(* ---- C101: changing one copy of a set leaves the others ---- *)
(* Add and Merge on a copy of a set without spare elements, as all predefined sets are *)
Theorem C101_adds_full : forall grow l h x y h' x', valid h y -> s_len x = s_cap x -> adds grow h x l = (h', x') -> view h' y = view h y.
Proof. intros grow l h x y h' x' (A & _) F E. unfold view. now rewrite (adds_full grow l h x F h' x' E). Qed.
Print Assumptions C101_adds_full.
Theorem C101_merge_full : forall grow h x s y h' x', valid h y -> s_len x = s_cap x -> set_merge grow h x s = (h', x') -> view h' y = view h y.
Proof. intros grow h x s y h' x' V F E. destruct (merge_loop_adds grow _ _ _ _ _ _ _ E) as [l K]. now apply (C101_adds_full grow l h x y h' x'). Qed.
Print Assumptions C101_merge_full.
Theorem C101_predefined_are_full : forall i, i < List.length predefined -> valid package_heap (package_set i) /\ s_len (package_set i) = s_cap (package_set i)
  /\ view package_heap (package_set i) = nth i predefined [] /\ NoDup (nth i predefined []).
Proof.
  intros i H. split; [|split; [reflexivity|split]].
  - unfold valid, package_set, package_heap. cbn [s_arr s_len s_cap]. rewrite app_length. cbn [no_arrays List.length]. split; [lia|]. split; [lia|]. reflexivity.
  - unfold view, package_set, package_heap, array. cbn [s_arr s_len no_arrays List.app nth]. apply firstn_all.
  - do 11 (destruct i as [|i]; [vm_compute; repeat constructor; cbn; intuition discriminate|]). cbn in H. lia.
Qed.
Print Assumptions C101_predefined_are_full.
(* one Add, in general: headers of other arrays and those that end before the new element *)
Theorem C101_add : forall grow h x t y h' x', set_add grow h x t = (h', x') -> valid h y ->
  apart x y \/ s_len y <= s_len x \/ s_len x = s_cap x -> view h' y = view h y.
Proof. intros grow h x t y h' x' E V H. apply (add_frame grow h x t y h' x' E V). destruct H as [H|H]; [left; unfold apart in H; auto|auto]. Qed.
Print Assumptions C101_add.
Theorem C101_del_partial : forall h x t y h' x', set_del h x t = (h', x') -> apart x y -> view h' y = view h y.
Proof. exact del_frame. Qed.
Print Assumptions C101_del_partial.
Theorem C101_sub_partial : forall h x s y h' x', set_sub h x s = (h', x') -> apart x y -> view h' y = view h y.
Proof. intros h x s y h' x' E P. exact (sub_frame_loop _ _ _ _ _ _ _ _ E P). Qed.
Print Assumptions C101_sub_partial.
(* Del and Sub on a copy of a predefined set change the predefined set, for each of them with more than one element *)
Theorem C101_del_refuted : forall i, i < List.length predefined -> 1 < List.length (nth i predefined []) ->
  exists t h' x', In t (nth i predefined []) /\ set_del package_heap (package_set i) t = (h', x')
    /\ view h' (package_set i) <> nth i predefined [] /\ ~ In t (view h' (package_set i)).
Proof.
  intros i H L. do 11 (destruct i as [|i]; [cbn in L; first [exfalso; lia|eexists; eexists; eexists; split; [left; reflexivity|];
    split; [vm_compute; reflexivity|]; split; [vm_compute; discriminate|vm_compute; intuition discriminate]]|]). cbn in H. lia.
Qed.
Print Assumptions C101_del_refuted.
Theorem C101_sub_refuted : exists h' x', set_sub package_heap (package_set 0) (package_set 0) = (h', x') /\ view h' (package_set 0) = ["S-MID_SIDE"; "S-MID_SIDE"].
Proof. eexists. eexists. split; vm_compute; reflexivity. Qed.
(* and an Add after a Del overwrites the last element the other copy sees *)
Theorem C101_add_after_del_refuted : exists h1 x1 h2 x2, set_del package_heap (package_set 4) "LEFT" = (h1, x1) /\ set_add S h1 x1 "VIDEO" = (h2, x2)
  /\ view h2 (package_set 4) = ["RIGHT"; "VIDEO"].
Proof. eexists. eexists. eexists. eexists. split; [vm_compute; reflexivity|]. split; vm_compute; reflexivity. Qed.
Example C101_hyps : let x := package_set 0 in valid package_heap x /\ s_len x = s_cap x
  /\ view (fst (adds S package_heap x ["VIDEO"; "MIX"])) (snd (adds S package_heap x ["VIDEO"; "MIX"])) = ["M-MID_SIDE"; "S-MID_SIDE"; "VIDEO"; "MIX"]
  /\ 1 < List.length (nth 0 predefined []).
Proof. cbn zeta. split; [unfold valid; cbn; lia|]. split; [reflexivity|]. split; [vm_compute; reflexivity|cbn; lia]. Qed.

(* ---- C102: upgrade of earlier versions ---- *)
(* the deprecated flags end in the list of take types: the former list, then the missing ones *)
Theorem C102_take_types : forall (R : Type) (x : ixml R), exists m, ix_takes (upgrade x) = (ix_takes x ++ m)%list /\ NoDup m
  /\ forall e, In e m <-> ~ In e (ix_takes x) /\ ((e = "NO_GOOD" /\ ix_not_good x = true) \/ (e = "FALSE_START" /\ ix_false_start x = true) \/ (e = "WILD_TRACK" /\ ix_wild x = true)).
Proof. intros R x. destruct (upgrade_takes x) as (m & A & _ & B & C). exists m. auto. Qed.
Print Assumptions C102_take_types.
Theorem C102_flags_cleared : forall (R : Type) (x : ixml R), ix_not_good (upgrade x) = false /\ ix_false_start (upgrade x) = false /\ ix_wild (upgrade x) = false
  /\ (ix_pre (upgrade x) <= 0)%Z /\ ix_rest (upgrade x) = ix_rest x /\ ix_comment (upgrade x) = option_map trim_space (ix_comment x).
Proof. intros R x. apply upgrade_done. Qed.
Print Assumptions C102_flags_cleared.
(* the count of pre-recorded samples ends in the first sync point for it, or in a new one at the end; all others stay *)
Theorem C102_samples_existing : forall (R : Type) (x : ixml R) l1 p l2, (0 < ix_pre x)%Z -> ix_sync x = (l1 ++ p :: l2)%list ->
  sp_func p = "PRE_RECORD_SAMPLECOUNT" -> (forall q, In q l1 -> sp_func q <> "PRE_RECORD_SAMPLECOUNT") ->
  ix_sync (upgrade x) = (l1 ++ SyncPoint (sp_type p) (sp_func p) (sp_comment p) (ix_pre x) (sp_high p) (sp_event p) :: l2)%list.
Proof. intros R x. apply upgrade_found. Qed.
Print Assumptions C102_samples_existing.
Theorem C102_samples_new : forall (R : Type) (x : ixml R), (0 < ix_pre x)%Z -> (forall q, In q (ix_sync x) -> sp_func q <> "PRE_RECORD_SAMPLECOUNT") ->
  exists p, ix_sync (upgrade x) = (ix_sync x ++ [p])%list /\ sp_type p = "RELATIVE" /\ sp_func p = "PRE_RECORD_SAMPLECOUNT"
    /\ sp_low p = ix_pre x /\ sp_high p = 0%Z /\ sp_event p = 0%Z.
Proof. intros R x. apply upgrade_absent. Qed.
Print Assumptions C102_samples_new.
Theorem C102_no_samples : forall (R : Type) (x : ixml R), (ix_pre x <= 0)%Z -> ix_sync (upgrade x) = ix_sync x /\ ix_pre (upgrade x) = ix_pre x.
Proof. intros R x. apply upgrade_sync. Qed.
Print Assumptions C102_no_samples.
Theorem C102_idempotent : forall (R : Type) (x : ixml R), upgrade (upgrade x) = upgrade x.
Proof. intros R x. apply upgrade_again. Qed.
Print Assumptions C102_idempotent.
Example C102_hyps : upgrade (IXml ["PICKUP"; "NO_GOOD"] true false true 480 [SyncPoint "ABSOLUTE" "HEAD_SLATE" "" 5 0 0] (Some " wind ") tt)
  = IXml ["PICKUP"; "NO_GOOD"; "WILD_TRACK"] false false false 0
      [SyncPoint "ABSOLUTE" "HEAD_SLATE" "" 5 0 0; SyncPoint "RELATIVE" "PRE_RECORD_SAMPLECOUNT" "upgrade from deprecated property root.PRE_RECORD_SAMPLECOUNT" 480 0 0]
      (Some "wind") tt.
Proof. vm_compute. reflexivity. Qed.
