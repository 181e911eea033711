From Coq Require Import List Arith ZArith Bool Ascii String Lia.
From Verif Require Import GoStr GoStrFacts SliceM SpecSlice.
Import ListNotations.
Local Open Scope string_scope.
Local Open Scope list_scope.

Lemma put_length {A} i (v : A) l : List.length (put i v l) = List.length l.
Proof. revert i. induction l; intros [|i]; cbn; auto. Qed.
Lemma nth_put_same {A} i (v d : A) l : i < List.length l -> nth i (put i v l) d = v.
Proof. revert i. induction l; intros [|i]; cbn; intros H; try lia; auto. apply IHl; lia. Qed.
Lemma nth_put_other {A} i j (v d : A) l : i <> j -> nth j (put i v l) d = nth j l d.
Proof. revert i j. induction l; intros [|i] [|j] H; cbn; auto; try lia. Qed.
Lemma put_split {A} i (v : A) l : i < List.length l -> put i v l = firstn i l ++ v :: skipn (S i) l.
Proof. revert i. induction l; intros [|i]; cbn; intros H; try lia; auto. rewrite IHl by lia. reflexivity. Qed.
Lemma firstn_put_below {A} n i (v : A) l : n <= i -> firstn n (put i v l) = firstn n l.
Proof. revert n i. induction l; intros [|n] [|i] H; cbn; auto; try lia. rewrite IHl by lia. reflexivity. Qed.
Lemma firstn_put_next {A} i (v : A) l : i < List.length l -> firstn (S i) (put i v l) = firstn i l ++ [v].
Proof. revert i. induction l; intros [|i]; cbn [put List.length]; intros H; try lia; auto. rewrite firstn_cons, IHl by lia. reflexivity. Qed.
Lemma put_app_l {A} i (v : A) l r : i < List.length l -> put i v (l ++ r) = put i v l ++ r.
Proof. revert i. induction l; intros [|i]; cbn; intros H; try lia; auto. rewrite IHl by lia. reflexivity. Qed.

Lemma contains_iff l t : contains l t = true <-> In t l.
Proof.
  induction l as [|v l IH]; cbn; [split; [discriminate|tauto]|]. destruct (String.eqb_spec v t) as [->|N]; [split; auto|].
  rewrite IH. split; [auto|intros [E|E]; [congruence|auto]].
Qed.
Lemma contains_false l t : contains l t = false <-> ~ In t l.
Proof. rewrite <- contains_iff. destruct (contains l t); split; congruence. Qed.

Lemma array_app_l h r a : a < List.length h -> array (h ++ r) a = array h a.
Proof. apply app_nth1. Qed.
Lemma view_app h r y : s_arr y < List.length h -> view (h ++ r) y = view h y.
Proof. intros H. unfold view. now rewrite array_app_l. Qed.
Lemma view_length h x : valid h x -> List.length (view h x) = s_len x.
Proof. intros (A & L & C). unfold view, array. rewrite firstn_length. lia. Qed.
Lemma view_put_other h a l y : a <> s_arr y -> view (put a l h) y = view h y.
Proof. intros N. unfold view, array. now rewrite nth_put_other. Qed.
Lemma array_put_same h a l : a < List.length h -> array (put a l h) a = l.
Proof. apply nth_put_same. Qed.

(* ---- append ---- *)
Lemma append_view grow h x t : valid h x -> let '(h', x') := append_one grow h x t in valid h' x' /\ view h' x' = view h x ++ [t].
Proof.
  intros (A & L & C). unfold append_one. destruct (Nat.ltb_spec (s_len x) (s_cap x)) as [I|I].
  - split.
    + unfold valid. cbn [s_arr s_len s_cap]. rewrite put_length, nth_put_same by easy. rewrite put_length. unfold array. lia.
    + unfold view. cbn [s_arr s_len]. rewrite array_put_same by easy. apply firstn_put_next. unfold array. lia.
  - split.
    + unfold valid. cbn [s_arr s_len s_cap]. rewrite app_length. cbn [List.length]. split; [lia|]. split; [lia|].
      rewrite app_nth2, Nat.sub_diag by lia. cbn [nth]. rewrite app_length. cbn [List.length]. rewrite repeat_length.
      rewrite view_length by (unfold valid; auto). lia.
    + unfold view at 1. cbn [s_arr s_len]. unfold array. rewrite app_nth2, Nat.sub_diag by lia. cbn [nth].
      change (view h x ++ t :: repeat "" (Nat.max (grow (S (s_len x))) (S (s_len x)) - S (s_len x)))
        with (view h x ++ [t] ++ repeat "" (Nat.max (grow (S (s_len x))) (S (s_len x)) - S (s_len x))).
      rewrite List.app_assoc. rewrite firstn_app. rewrite app_length. cbn [List.length]. rewrite view_length by (unfold valid; auto).
      replace (S (s_len x) - (s_len x + 1)) with 0 by lia. rewrite firstn_O, List.app_nil_r. apply firstn_all2.
      rewrite app_length. cbn [List.length]. rewrite view_length by (unfold valid; auto). lia.
Qed.
Lemma append_heap grow h x t h' x' : append_one grow h x t = (h', x') -> List.length h <= List.length h'.
Proof. unfold append_one. destruct (Nat.ltb (s_len x) (s_cap x)); intros [= <- <-]; [rewrite put_length|rewrite app_length]; lia. Qed.
Lemma append_keeps_valid grow h x t y h' x' : append_one grow h x t = (h', x') -> valid h y -> valid h' y.
Proof.
  intros E (A & L & C). unfold append_one in E. destruct (Nat.ltb (s_len x) (s_cap x)); injection E as <- <-.
  - unfold valid. rewrite put_length. split; [easy|]. split; [easy|]. destruct (Nat.eq_dec (s_arr x) (s_arr y)) as [Q|Q].
    + rewrite Q, nth_put_same by easy. rewrite put_length. exact C.
    + now rewrite nth_put_other.
  - unfold valid. rewrite app_length. split; [lia|]. split; [easy|]. now rewrite app_nth1.
Qed.
(* what other headers see *)
Lemma append_frame grow h x t y h' x' : append_one grow h x t = (h', x') -> valid h y ->
  s_arr y <> s_arr x \/ s_len y <= s_len x \/ s_len x = s_cap x -> view h' y = view h y.
Proof.
  intros E (A & L & C) H. unfold append_one in E. destruct (Nat.ltb_spec (s_len x) (s_cap x)) as [I|I]; injection E as <- <-.
  - destruct (Nat.eq_dec (s_arr x) (s_arr y)) as [Q|Q]; [|now apply view_put_other].
    unfold view. rewrite Q, array_put_same by easy. apply firstn_put_below. destruct H as [H|[H|H]]; [congruence|exact H|lia].
  - now apply view_app.
Qed.

(* ---- add ---- *)
Lemma add_in grow h x t : set_contains h x t = true -> set_add grow h x t = (h, x).
Proof. unfold set_add. now intros ->. Qed.
Lemma add_view grow h x t : valid h x -> let '(h', x') := set_add grow h x t in
  valid h' x' /\ (In t (view h x) -> view h' x' = view h x) /\ (~ In t (view h x) -> view h' x' = view h x ++ [t]).
Proof.
  intros V. unfold set_add, set_contains. destruct (contains (view h x) t) eqn:C; cbn [negb].
  - apply contains_iff in C. split; [exact V|]. split; [auto|]. intros N. contradiction.
  - apply contains_false in C. pose proof (append_view grow h x t V) as H. destruct (append_one grow h x t) as [h' x'].
    destruct H as [W E]. split; [exact W|]. split; [intros N; contradiction|auto].
Qed.
Lemma add_keeps_valid grow h x t y h' x' : set_add grow h x t = (h', x') -> valid h y -> valid h' y.
Proof. unfold set_add. destruct (negb _); [apply append_keeps_valid|]. now intros [= <- <-]. Qed.
Lemma add_frame grow h x t y h' x' : set_add grow h x t = (h', x') -> valid h y ->
  s_arr y <> s_arr x \/ s_len y <= s_len x \/ s_len x = s_cap x -> view h' y = view h y.
Proof. unfold set_add. destruct (negb _); [apply append_frame|]. now intros [= <- <-]. Qed.

(* the new header is the old array or a fresh one *)
Lemma append_where grow h x t h' x' : append_one grow h x t = (h', x') ->
  (s_arr x' = s_arr x /\ s_len x < s_cap x /\ s_cap x' = s_cap x /\ List.length h' = List.length h) \/ (s_arr x' = List.length h /\ s_cap x <= s_len x).
Proof.
  unfold append_one. destruct (Nat.ltb_spec (s_len x) (s_cap x)); intros [= <- <-]; cbn; [left|right]; [|lia]. now rewrite put_length.
Qed.
Lemma append_len grow h x t h' x' : append_one grow h x t = (h', x') -> s_len x' = S (s_len x).
Proof. unfold append_one. destruct (Nat.ltb (s_len x) (s_cap x)); intros [= <- <-]; reflexivity. Qed.

(* any number of Adds to a header without spare elements *)
Fixpoint adds (grow : nat -> nat) (h : heap) (x : slice) (l : list string) : heap * slice :=
  match l with [] => (h, x) | t :: r => let '(h', x') := set_add grow h x t in adds grow h' x' r end.
Lemma adds_fresh grow n l : forall h x, n <= s_arr x -> n <= List.length h -> forall h' x', adds grow h x l = (h', x') -> forall a, a < n -> array h' a = array h a.
Proof.
  induction l as [|t l IH]; cbn [adds]; intros h x F G h' x' E a A; [now injection E as <- <-|].
  destruct (set_add grow h x t) as [h1 x1] eqn:D. transitivity (array h1 a).
  - eapply IH; [| |exact E|exact A].
    + unfold set_add in D. destruct (negb _); [|now injection D as <- <-]. destruct (append_where _ _ _ _ _ _ D) as [(-> & _)|(-> & _)]; auto.
    + unfold set_add in D. destruct (negb _); [|now injection D as <- <-]. apply append_heap in D. lia.
  - unfold set_add in D. destruct (negb _); [|now injection D as <- <-]. unfold append_one in D.
    destruct (Nat.ltb (s_len x) (s_cap x)); injection D as <- <-.
    + unfold array. apply nth_put_other. lia.
    + apply array_app_l. lia.
Qed.
Lemma adds_full grow l : forall h x, s_len x = s_cap x -> forall h' x', adds grow h x l = (h', x') -> forall a, a < List.length h -> array h' a = array h a.
Proof.
  induction l as [|t l IH]; cbn [adds]; intros h x F h' x' E a A; [now injection E as <- <-|].
  unfold set_add in E. destruct (negb (set_contains h x t)); [|now eapply IH; eassumption].
  unfold append_one in E. rewrite F, Nat.ltb_irrefl in E.
  erewrite adds_fresh with (n := List.length h); [| |..|exact E|exact A]; cbn [s_arr]; [|lia|rewrite app_length; lia].
  apply array_app_l. exact A.
Qed.

(* ---- del ---- *)
Lemma del_index_spec t l : forall i acc, (exists l1 l2, l = l1 ++ t :: l2 /\ ~ In t l2 /\ del_index i acc l t = Some (i + List.length l1))
  \/ (~ In t l /\ del_index i acc l t = acc).
Proof.
  induction l as [|v l IH]; intros i acc; cbn [del_index]; [right; auto|].
  destruct (IH (S i) (if v =? t then Some i else acc)) as [(l1 & l2 & -> & N & E)|[N E]].
  - left. exists (v :: l1), l2. split; [reflexivity|]. split; [exact N|]. rewrite E. cbn [List.length]. f_equal. lia.
  - destruct (String.eqb_spec v t) as [->|D].
    + left. exists [], l. split; [reflexivity|]. split; [exact N|]. rewrite E. cbn. now rewrite Nat.add_0_r.
    + right. split; [intros [Q|Q]; [congruence|auto]|exact E].
Qed.
Lemma cut_view h x l1 t l2 : valid h x -> view h x = l1 ++ t :: l2 ->
  let '(h', x') := cut h x (List.length l1) in valid h' x' /\ view h' x' = l1 ++ l2.
Proof.
  intros V E. pose proof (view_length h x V) as LV. destruct V as (A & L & C). rewrite E, app_length in LV. cbn [List.length] in LV.
  assert (F1 : firstn (List.length l1) (array h (s_arr x)) = l1).
  { unfold view in E. rewrite <- (firstn_firstn (array h (s_arr x)) (List.length l1) (s_len x)) || idtac.
    replace (List.length l1) with (Nat.min (List.length l1) (s_len x)) by lia. rewrite <- firstn_firstn, E.
    rewrite firstn_app, Nat.sub_diag. cbn [firstn]. rewrite List.app_nil_r. apply firstn_all. }
  assert (F2 : skipn (S (List.length l1)) (firstn (s_len x) (array h (s_arr x))) = l2).
  { unfold view in E. rewrite E. rewrite skipn_app. rewrite skipn_all2 by lia. replace (S (List.length l1) - List.length l1) with 1 by lia. reflexivity. }
  unfold cut. cbn zeta. rewrite F1, F2. split.
  - unfold valid. cbn [s_arr s_len s_cap]. rewrite put_length, nth_put_same by easy. rewrite !app_length, skipn_length. unfold array. lia.
  - unfold view. cbn [s_arr s_len]. rewrite array_put_same by easy.
    rewrite List.app_assoc, firstn_app, app_length.
    replace (s_len x - 1 - (List.length l1 + List.length l2)) with 0 by lia. rewrite firstn_O, List.app_nil_r. apply firstn_all2. rewrite app_length. lia.
Qed.
Lemma del_last h x t l1 l2 : valid h x -> view h x = l1 ++ t :: l2 -> ~ In t l2 ->
  let '(h', x') := set_del h x t in valid h' x' /\ view h' x' = l1 ++ l2.
Proof.
  intros V E N. unfold set_del. destruct (del_index_spec t (view h x) 0 None) as [(m1 & m2 & M & K & ->)|[K D]].
  - cbn [Nat.add]. assert (Q : m1 = l1 /\ m2 = l2).
    { rewrite E in M. clear E V. revert l1 M. induction m1 as [|a m1 IH]; intros [|b l1] M; cbn in M.
      - injection M as ->. auto.
      - injection M as -> <-. exfalso. apply K. apply in_or_app. right. left. reflexivity.
      - injection M as <- ->. exfalso. apply N. apply in_or_app. right. left. reflexivity.
      - injection M as <- M. destruct (IH _ M) as [-> ->]. auto. }
    destruct Q as [-> ->]. now apply (cut_view h x l1 t l2).
  - exfalso. apply K. rewrite E. apply in_or_app. right. left. reflexivity.
Qed.
Lemma del_absent h x t : ~ In t (view h x) -> set_del h x t = (h, x).
Proof.
  intros N. unfold set_del. destruct (del_index_spec t (view h x) 0 None) as [(m1 & m2 & M & K & _)|[K ->]]; [|reflexivity].
  exfalso. apply N. rewrite M. apply in_or_app. right. left. reflexivity.
Qed.
Lemma in_split_last (t : string) l : In t l -> exists l1 l2, l = l1 ++ t :: l2 /\ ~ In t l2.
Proof.
  induction l as [|a l IH]; [intros []|]. intros [->|H].
  - destruct (in_dec string_dec t l) as [I|I].
    + destruct (IH I) as (l1 & l2 & -> & N). exists (t :: l1), l2. auto.
    + exists [], l. auto.
  - destruct (IH H) as (l1 & l2 & -> & N). exists (a :: l1), l2. auto.
Qed.
Lemma keeps_all (p : string -> Prop) l : (forall e, In e l -> p e) -> keeps p l l.
Proof. induction l; intros H; constructor; [apply H; left; reflexivity|]. apply IHl. intros e E. apply H. right. exact E. Qed.
Lemma keeps_app p a b c d : keeps p a b -> keeps p c d -> keeps p (a ++ c) (b ++ d).
Proof. induction 1; cbn; auto; constructor; auto. Qed.
Lemma keeps_in p l r : keeps p l r -> forall e, In e r <-> In e l /\ p e.
Proof.
  induction 1 as [|e l r P K IH|e l r P K IH]; intros z; cbn; [tauto| |].
  - rewrite IH. split; [intros [<-|H]; tauto|tauto].
  - rewrite IH. split; [tauto|]. intros [[<-|H] Q]; tauto.
Qed.
Lemma keeps_nodup p l r : keeps p l r -> NoDup l -> NoDup r.
Proof.
  induction 1 as [|e l r P K IH|e l r P K IH]; intros D; auto.
  - inversion D; subst. constructor; [rewrite (keeps_in _ _ _ K); tauto|auto].
  - inversion D; subst. auto.
Qed.
Lemma del_view h x t : valid h x -> NoDup (view h x) -> let '(h', x') := set_del h x t in
  valid h' x' /\ keeps (fun e => e <> t) (view h x) (view h' x').
Proof.
  intros V D. destruct (in_dec string_dec t (view h x)) as [I|I].
  - destruct (in_split_last _ _ I) as (l1 & l2 & E & N). pose proof (del_last h x t l1 l2 V E N) as H.
    destruct (set_del h x t) as [h' x']. destruct H as [W ->]. split; [exact W|]. rewrite E. rewrite E in D.
    apply NoDup_remove in D as [_ D]. apply keeps_app; [|apply keeps_no; [tauto|]]; apply keeps_all; intros e K ->; apply D; apply in_or_app; auto.
  - rewrite del_absent by exact I. split; [exact V|]. apply keeps_all. intros e K ->. auto.
Qed.
Lemma del_arr h x t h' x' : set_del h x t = (h', x') -> s_arr x' = s_arr x.
Proof. unfold set_del. destruct (del_index 0 None (view h x) t); intros [= <- <-]; reflexivity. Qed.
Lemma del_other_array h x t h' x' a : set_del h x t = (h', x') -> a <> s_arr x -> array h' a = array h a.
Proof.
  unfold set_del. destruct (del_index 0 None (view h x) t) as [i|]; [|now intros [= <- <-]].
  unfold cut. intros [= <- <-] N. apply nth_put_other. auto.
Qed.
Lemma del_frame h x t y h' x' : set_del h x t = (h', x') -> apart x y -> view h' y = view h y.
Proof. intros E N. unfold view. rewrite (del_other_array _ _ _ _ _ _ E); [reflexivity|]. unfold apart in N. auto. Qed.

(* ---- merge ---- *)
Lemma nth_view h s i : i < s_len s -> nth i (array h (s_arr s)) "" = nth i (view h s) "".
Proof.
  intros H. unfold view. generalize (array h (s_arr s)) as l. generalize (s_len s) as n, H. clear H.
  intros n H l. revert i l H. induction n; intros i l H; [lia|]. destruct l, i; cbn; auto. apply IHn. lia.
Qed.
(* the elements of s not yet read are as they were, and the new header sees no more of a shared array than was read *)
Definition merge_inv (h : heap) (x s : slice) (l : list string) (i : nat) : Prop :=
  skipn i (view h s) = l /\ (s_arr x = s_arr s -> s_len x <= i \/ firstn (s_len x) (array h (s_arr s)) = view h x).
Lemma merge_loop_view grow n : forall i h x s, valid h x -> valid h s -> s_len s = i + n ->
  let '(h', x') := merge_loop grow n i h x s in
  valid h' x' /\ (exists m, view h' x' = view h x ++ m) /\ (NoDup (view h x) -> NoDup (view h' x'))
  /\ (forall e, In e (view h' x') <-> In e (view h x) \/ In e (skipn i (view h s))).
Proof.
  induction n as [|n IH]; intros i h x s V W L; cbn [merge_loop].
  - split; [exact V|]. split; [exists []; now rewrite List.app_nil_r|]. split; [auto|]. intros e. rewrite skipn_all2; [cbn; tauto|].
    rewrite view_length by exact W. lia.
  - rewrite nth_view by lia. set (v := nth i (view h s) "").
    assert (SK : skipn i (view h s) = v :: skipn (S i) (view h s)).
    { assert (K : i < List.length (view h s)) by (rewrite view_length by exact W; lia). revert K. unfold v. generalize (view h s) as l. clear.
      induction i; intros [|a l] K; cbn in *; try lia; auto. apply IHi. lia. }
    pose proof (add_view grow h x v V) as AV. destruct (set_add grow h x v) as [h1 x1] eqn:E. destruct AV as (V1 & AI & AN).
    assert (W1 : valid h1 s) by (eapply add_keeps_valid; eassumption).
    assert (SAME : skipn (S i) (view h1 s) = skipn (S i) (view h s)).
    { unfold set_add in E. destruct (set_contains h x v) eqn:C; cbn [negb] in E; [now injection E as <- <-|].
      destruct (Nat.eq_dec (s_arr s) (s_arr x)) as [Q|Q]; [|f_equal; eapply append_frame; [exact E|exact W|auto]].
      destruct (Nat.le_gt_cases (s_cap x) (s_len x)) as [F|F]; [f_equal; eapply append_frame; [exact E|exact W|]; right; right; destruct V; lia|].
      assert (I : s_len x <= i).
      { destruct (Nat.le_gt_cases (s_len x) i) as [K|K]; [exact K|exfalso]. unfold set_contains in C. apply contains_false in C. apply C.
        unfold v. rewrite <- nth_view by lia. rewrite Q. rewrite (nth_view h x) by exact K. apply nth_In. rewrite view_length by exact V. lia. }
      unfold append_one in E. destruct (Nat.ltb_spec (s_len x) (s_cap x)); [|lia]. injection E as <- <-.
      unfold view. rewrite Q. rewrite array_put_same by (destruct V; easy).
      assert (G : forall (l : list string) a b c w, a < b -> skipn b (firstn c (put a w l)) = skipn b (firstn c l)).
      { clear. induction l as [|z l IHl]; intros a b c w K; [now destruct a|]. destruct a as [|a], b as [|b], c as [|c]; cbn; try lia; try reflexivity. apply IHl. lia. }
      apply G. lia. }
    specialize (IH (S i) h1 x1 s V1 W1 ltac:(lia)). destruct (merge_loop grow n (S i) h1 x1 s) as [h2 x2].
    destruct IH as (V2 & (m & M) & D & IN). rewrite SAME in IN.
    assert (VX : (In v (view h x) /\ view h1 x1 = view h x) \/ (~ In v (view h x) /\ view h1 x1 = view h x ++ [v])).
    { destruct (in_dec string_dec v (view h x)); [left|right]; auto. }
    split; [exact V2|]. split; [|split].
    + destruct VX as [[_ Q]|[_ Q]]; rewrite M, Q; [exists m; reflexivity|exists (v :: m); now rewrite <- List.app_assoc].
    + intros N. apply D. destruct VX as [[_ ->]|[K ->]]; [exact N|]. apply NoDup_rev in N. rewrite <- (rev_involutive (view h x ++ [v])).
      apply NoDup_rev. rewrite rev_app_distr. cbn. constructor; [now rewrite <- in_rev|exact N].
    + intros e. rewrite IN, SK. cbn [In]. destruct VX as [[K ->]|[K ->]].
      * split; [tauto|]. intros [H|[<-|H]]; tauto.
      * rewrite in_app_iff. cbn. tauto.
Qed.
Lemma merge_view grow h x s : valid h x -> valid h s -> let '(h', x') := set_merge grow h x s in
  valid h' x' /\ (exists m, view h' x' = view h x ++ m) /\ (NoDup (view h x) -> NoDup (view h' x'))
  /\ (forall e, In e (view h' x') <-> In e (view h x) \/ In e (view h s)).
Proof. intros V W. apply (merge_loop_view grow (s_len s) 0 h x s V W). reflexivity. Qed.
(* merge is a series of Adds *)
Lemma merge_loop_adds grow n : forall i h x s h' x', merge_loop grow n i h x s = (h', x') -> exists l, adds grow h x l = (h', x').
Proof.
  induction n as [|n IH]; intros i h x s h' x' E; cbn [merge_loop] in E; [exists []; exact E|].
  destruct (set_add grow h x (nth i (array h (s_arr s)) "")) as [h1 x1] eqn:D. destruct (IH _ _ _ _ _ _ E) as [l K].
  exists (nth i (array h (s_arr s)) "" :: l). cbn [adds]. now rewrite D.
Qed.

(* ---- sub ---- *)
Lemma keeps_two p q l r z : keeps p l r -> keeps q r z -> keeps (fun e => p e /\ q e) l z.
Proof.
  intros K. revert z. induction K as [|e l r P K IH|e l r P K IH]; intros z H.
  - inversion H. constructor.
  - inversion H; subst; [apply keeps_yes; auto|apply keeps_no; [tauto|auto]].
  - apply keeps_no; [tauto|auto].
Qed.
Lemma keeps_iff (p q : string -> Prop) l r : (forall e, p e <-> q e) -> keeps p l r -> keeps q l r.
Proof. intros E. induction 1; constructor; auto; rewrite <- E; auto. Qed.
Lemma sub_loop_view n : forall i h x s, valid h x -> apart x s -> NoDup (view h x) -> s_len s = i + n -> valid h s ->
  let '(h', x') := sub_loop n i h x s in
  valid h' x' /\ keeps (fun e => ~ In e (skipn i (view h s))) (view h x) (view h' x').
Proof.
  induction n as [|n IH]; intros i h x s V P D L W; cbn [sub_loop].
  - split; [exact V|]. apply keeps_all. intros e _. rewrite skipn_all2; [intros []|]. rewrite view_length by exact W. lia.
  - rewrite nth_view by lia. set (v := nth i (view h s) "").
    assert (SK : skipn i (view h s) = v :: skipn (S i) (view h s)).
    { assert (K : i < List.length (view h s)) by (rewrite view_length by exact W; lia). revert K. unfold v. generalize (view h s) as l. clear.
      induction i; intros [|a l] K; cbn in *; try lia; auto. apply IHi. lia. }
    pose proof (del_view h x v V D) as DV. destruct (set_del h x v) as [h1 x1] eqn:E. destruct DV as (V1 & K1).
    assert (SAME : view h1 s = view h s) by (eapply del_frame; eassumption).
    assert (W1 : valid h1 s).
    { destruct W as (A & B & C). split; [|split; [exact B|]].
      - unfold set_del in E. destruct (del_index 0 None (view h x) v); injection E as <- <-; [now rewrite put_length|exact A].
      - change (nth (s_arr s) h1 []) with (array h1 (s_arr s)). rewrite (del_other_array _ _ _ _ _ _ E); [exact C|]. unfold apart in P. auto. }
    specialize (IH (S i) h1 x1 s V1). destruct (sub_loop n (S i) h1 x1 s) as [h2 x2]. destruct IH as (V2 & K2).
    + unfold apart. now rewrite (del_arr _ _ _ _ _ E).
    + eapply keeps_nodup; eassumption.
    + lia.
    + exact W1.
    + split; [exact V2|]. rewrite SAME in K2. eapply keeps_iff; [|eapply keeps_two; [exact K1|exact K2]].
      intros e. rewrite SK. cbn [In]. split; [intros [A B] [C|C]; [congruence|auto]|]. intros H. split; [intros ->|]; auto.
Qed.
Lemma sub_view h x s : valid h x -> valid h s -> apart x s -> NoDup (view h x) -> let '(h', x') := set_sub h x s in
  valid h' x' /\ keeps (fun e => ~ In e (view h s)) (view h x) (view h' x').
Proof. intros V W P D. apply (sub_loop_view (s_len s) 0 h x s V P D eq_refl W). Qed.
Lemma sub_frame_loop n : forall i h x s y h' x', sub_loop n i h x s = (h', x') -> apart x y -> view h' y = view h y.
Proof.
  induction n as [|n IH]; intros i h x s y h' x' E P; cbn [sub_loop] in E; [now injection E as <- <-|].
  destruct (set_del h x (nth i (array h (s_arr s)) "")) as [h1 x1] eqn:D.
  rewrite (IH _ _ _ _ y _ _ E); [now apply (del_frame _ _ _ _ _ _ D)|]. unfold apart. now rewrite (del_arr _ _ _ _ _ D).
Qed.

(* ---- upgrade ---- *)
Lemma take_add_spec l t : (In t l -> take_add l t = l) /\ (~ In t l -> take_add l t = l ++ [t]).
Proof. unfold take_add. split; intros H; [apply contains_iff in H|apply contains_false in H]; now rewrite H. Qed.
Lemma take_add_in l t e : In e (take_add l t) <-> In e l \/ e = t.
Proof.
  destruct (take_add_spec l t) as [A B]. destruct (in_dec string_dec t l) as [I|I]; [rewrite (A I)|rewrite (B I), in_app_iff; cbn].
  - split; [tauto|intros [H| ->]; auto].
  - split; [intros [H|[H|[]]]; auto|intros [H|H]; auto].
Qed.
Lemma take_add_prefix l t : exists m, take_add l t = l ++ m.
Proof. unfold take_add. destruct (negb (contains l t)); [exists [t]; reflexivity|exists []; now rewrite List.app_nil_r]. Qed.
Lemma take_add_nodup l t : NoDup l -> NoDup (take_add l t).
Proof.
  intros N. destruct (take_add_spec l t) as [A B]. destruct (in_dec string_dec t l) as [I|I]; [now rewrite (A I)|rewrite (B I)].
  apply NoDup_rev in N. rewrite <- (rev_involutive (l ++ [t])). apply NoDup_rev. rewrite rev_app_distr. cbn. constructor; [now rewrite <- in_rev|exact N].
Qed.
Lemma contains_func_spec f l : forall i, (exists l1 p l2, l = l1 ++ p :: l2 /\ sp_func p = f /\ (forall q, In q l1 -> sp_func q <> f) /\ contains_func i l f = Some (i + List.length l1))
  \/ ((forall q, In q l -> sp_func q <> f) /\ contains_func i l f = None).
Proof.
  induction l as [|v l IH]; intros i; cbn [contains_func]; [right; split; [intros q []|reflexivity]|].
  destruct (String.eqb_spec (sp_func v) f) as [Q|Q].
  - left. exists [], v, l. split; [reflexivity|]. split; [exact Q|]. split; [intros q []|]. cbn. now rewrite Nat.add_0_r.
  - destruct (IH (S i)) as [(l1 & p & l2 & -> & F & N & E)|[N E]].
    + left. exists (v :: l1), p, l2. split; [reflexivity|]. split; [exact F|]. split; [intros q [<-|H]; auto|]. rewrite E. cbn [List.length]. f_equal. lia.
    + right. split; [intros q [<-|H]; auto|exact E].
Qed.
Lemma change_app {A} (f : A -> A) l1 p l2 : change f (List.length l1) (l1 ++ p :: l2) = l1 ++ f p :: l2.
Proof. induction l1; cbn; [reflexivity|]. now rewrite IHl1. Qed.
Lemma upgrade_sync {R} (x : ixml R) : (ix_pre x <= 0)%Z -> ix_sync (upgrade x) = ix_sync x /\ ix_pre (upgrade x) = ix_pre x.
Proof. intros H. unfold upgrade, v13_to_v14. replace (0 <? ix_pre x)%Z with false by (symmetry; apply Z.ltb_ge; lia). auto. Qed.
Lemma upgrade_found {R} (x : ixml R) l1 p l2 : (0 < ix_pre x)%Z -> ix_sync x = l1 ++ p :: l2 -> sp_func p = "PRE_RECORD_SAMPLECOUNT" ->
  (forall q, In q l1 -> sp_func q <> "PRE_RECORD_SAMPLECOUNT") ->
  ix_sync (upgrade x) = l1 ++ SyncPoint (sp_type p) (sp_func p) (sp_comment p) (ix_pre x) (sp_high p) (sp_event p) :: l2.
Proof.
  intros H E F N. unfold upgrade, v13_to_v14. replace (0 <? ix_pre x)%Z with true by (symmetry; now apply Z.ltb_lt). cbn [v1x_to_v20 ix_sync].
  destruct (contains_func_spec "PRE_RECORD_SAMPLECOUNT" (ix_sync x) 0) as [(m1 & q & m2 & M & G & K & ->)|[K _]].
  - cbn [Nat.add]. assert (Q : m1 = l1 /\ q = p /\ m2 = l2).
    { rewrite E in M. clear E H. revert m1 M K. induction l1 as [|a l1 IH]; intros [|b m1] M K; cbn in M.
      - injection M as -> ->. auto.
      - injection M as -> ->. exfalso. apply (K b); [left; reflexivity|exact F].
      - injection M as -> <-. exfalso. apply (N q); [left; reflexivity|exact G].
      - injection M as -> M. destruct (IH (fun z Z => N z (or_intror Z)) m1 M (fun z Z => K z (or_intror Z))) as (-> & -> & ->). auto. }
    destruct Q as (-> & -> & ->). rewrite E. exact (change_app (set_low (ix_pre x)) l1 p l2).
  - exfalso. apply (K p); [rewrite E; apply in_or_app; right; left; reflexivity|exact F].
Qed.
Lemma upgrade_absent {R} (x : ixml R) : (0 < ix_pre x)%Z -> (forall q, In q (ix_sync x) -> sp_func q <> "PRE_RECORD_SAMPLECOUNT") ->
  exists p, ix_sync (upgrade x) = ix_sync x ++ [p] /\ sp_type p = "RELATIVE" /\ sp_func p = "PRE_RECORD_SAMPLECOUNT" /\ sp_low p = ix_pre x /\ sp_high p = 0%Z /\ sp_event p = 0%Z.
Proof.
  intros H N. unfold upgrade, v13_to_v14. replace (0 <? ix_pre x)%Z with true by (symmetry; now apply Z.ltb_lt). cbn [v1x_to_v20 ix_sync].
  destruct (contains_func_spec "PRE_RECORD_SAMPLECOUNT" (ix_sync x) 0) as [(m1 & q & m2 & M & G & K & _)|[K ->]].
  - exfalso. apply (N q); [rewrite M; apply in_or_app; right; left; reflexivity|exact G].
  - eexists. split; [reflexivity|]. auto 6.
Qed.
Lemma upgrade_takes {R} (x : ixml R) : exists m, ix_takes (upgrade x) = ix_takes x ++ m
  /\ (forall e, In e m -> ~ In e (ix_takes x)) /\ NoDup m
  /\ forall e, In e m <-> ~ In e (ix_takes x) /\ ((e = "NO_GOOD" /\ ix_not_good x = true) \/ (e = "FALSE_START" /\ ix_false_start x = true) \/ (e = "WILD_TRACK" /\ ix_wild x = true)).
Proof.
  assert (T : ix_takes (upgrade x) = let a := if ix_not_good x then take_add (ix_takes x) "NO_GOOD" else ix_takes x in
    let b := if ix_false_start x then take_add a "FALSE_START" else a in if ix_wild x then take_add b "WILD_TRACK" else b).
  { unfold upgrade, v13_to_v14. destruct (0 <? ix_pre x)%Z; reflexivity. }
  rewrite T. clear T. cbn zeta. generalize (ix_takes x) as l. intros l.
  assert (STEP : forall (b : bool) t l m, (forall e, In e m -> ~ In e l) -> NoDup m ->
     exists m', (if b then take_add (l ++ m) t else l ++ m) = l ++ m' /\ (forall e, In e m' -> ~ In e l) /\ NoDup m' /\
       (forall e, In e m' <-> In e m \/ (b = true /\ e = t /\ ~ In e l))).
  { clear. intros b t l m D N. destruct b; [|exists m; intuition congruence]. destruct (take_add_spec (l ++ m) t) as [A B].
    destruct (in_dec string_dec t (l ++ m)) as [I|I].
    - rewrite (A I). exists m. split; [reflexivity|]. split; [exact D|]. split; [exact N|]. intros e. split; [auto|].
      intros [H|(_ & -> & H)]; [exact H|]. apply in_app_iff in I as [I|I]; [contradiction|exact I].
    - rewrite (B I). exists (m ++ [t]). rewrite in_app_iff in I. split; [now rewrite List.app_assoc|]. split; [|split].
      + intros e. rewrite in_app_iff. cbn. intros [H|[<-|[]]]; [now apply D|tauto].
      + apply NoDup_rev in N. rewrite <- (rev_involutive (m ++ [t])). apply NoDup_rev. rewrite rev_app_distr. cbn. constructor; [rewrite <- in_rev; tauto|exact N].
      + intros e. rewrite in_app_iff. cbn. split; [intros [H|[<-|[]]]; [auto|right; split; [reflexivity|]; split; [reflexivity|tauto]]|].
        intros [H|(_ & -> & _)]; auto. }
  destruct (STEP (ix_not_good x) "NO_GOOD" l [] ltac:(intros e []) (NoDup_nil _)) as (m1 & E1 & D1 & N1 & I1). rewrite List.app_nil_r in E1. rewrite E1.
  destruct (STEP (ix_false_start x) "FALSE_START" l m1 D1 N1) as (m2 & E2 & D2 & N2 & I2). rewrite E2.
  destruct (STEP (ix_wild x) "WILD_TRACK" l m2 D2 N2) as (m3 & E3 & D3 & N3 & I3). rewrite E3.
  exists m3. split; [reflexivity|]. split; [exact D3|]. split; [exact N3|]. intros e. rewrite I3, I2, I1. cbn. tauto.
Qed.
Lemma upgrade_done {R} (x : ixml R) : ix_not_good (upgrade x) = false /\ ix_false_start (upgrade x) = false /\ ix_wild (upgrade x) = false
  /\ (ix_pre (upgrade x) <= 0)%Z /\ ix_rest (upgrade x) = ix_rest x /\ ix_comment (upgrade x) = option_map trim_space (ix_comment x).
Proof.
  unfold upgrade, v13_to_v14. destruct (Z.ltb_spec 0 (ix_pre x)); cbn; repeat split; lia.
Qed.
Lemma upgrade_again {R} (x : ixml R) : upgrade (upgrade x) = upgrade x.
Proof.
  destruct (upgrade_done x) as (A & B & C & D & E & F). destruct (upgrade_sync (upgrade x) D) as [S P].
  set (y := upgrade x) in *. unfold upgrade in *. unfold v13_to_v14 in *. replace (0 <? ix_pre y)%Z with false in * by (symmetry; apply Z.ltb_ge; lia).
  unfold v1x_to_v20 in *. rewrite A, B, C. assert (G : option_map trim_space (ix_comment y) = ix_comment y).
  { rewrite F. destruct (ix_comment x); [cbn; now rewrite trim_space_idem|reflexivity]. }
  rewrite G. clearbody y. destruct y; cbn in *; subst; reflexivity.
Qed.
