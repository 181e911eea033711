(* C138: closing documents and nodes *)
From Coq Require Import List Arith Lia Bool String Permutation.
From Verif Require Import GoStr Names NodeM PoolM SpecPool PoolFacts PoolCloseM.
Import ListNotations.
Local Open Scope string_scope.

(* The nodes xs were given back and nothing else changed: their fields are empty, every other node, every attribute
   array is as before, and as many of them as the pool had room for are behind the nodes that were in it, once each. *)
Definition given_back {M} (cap : nat) (s s' : store M) (xs : list addr) : Prop :=
  (forall x, In x xs -> s_cells s' x = Cell (XName "" "") None None "" []) /\
  (forall x, ~ In x xs -> s_cells s' x = s_cells s x) /\
  s_arrs s' = s_arrs s /\ s_next s' = s_next s /\ s_anext s' = s_anext s /\
  exists back, s_pool s' = (s_pool s ++ back)%list /\ NoDup back /\ incl back xs /\
    List.length back = Nat.min (List.length xs) (cap - List.length (s_pool s)).

Section F.
Context {M : Type}.
Notation store := (store M).
Variable cap : nat.

Lemma back_nil (s : store) : given_back cap s s [].
Proof. repeat split; auto; try easy. exists []. rewrite List.app_nil_r. repeat split; [constructor|easy]. Qed.

Lemma back_app (s1 s2 s3 : store) xs ys : given_back cap s1 s2 xs -> given_back cap s2 s3 ys ->
  (forall x, In x xs -> ~ In x ys) -> given_back cap s1 s3 (xs ++ ys)%list.
Proof.
  intros (A1 & A2 & A3 & A4 & A5 & b & A6 & A7 & A8 & A9) (B1 & B2 & B3 & B4 & B5 & c & B6 & B7 & B8 & B9) D.
  split; [|split; [|split; [|split; [|split]]]]; try congruence.
  - intros x Hx. destruct (in_dec Nat.eq_dec x ys) as [Hy|Hy]; [auto|]. rewrite B2 by auto. apply A1.
    apply in_app_or in Hx. tauto.
  - intros x Hx. rewrite B2, A2; auto; intros H; apply Hx, in_or_app; auto.
  - exists (b ++ c)%list. split; [rewrite B6, A6; now rewrite List.app_assoc|]. split; [|split].
    + apply NoDup_app_intro; auto. intros x Hb Hc. apply (D x); auto.
    + intros x Hx. apply in_or_app. apply in_app_or in Hx. destruct Hx; auto.
    + rewrite !List.app_length, B9, A6, List.app_length. lia.
Qed.

Lemma back_one (s : store) a : given_back cap s (give_back cap s a) [a].
Proof.
  unfold give_back. cbn [s_pool set_cell]. destruct (Nat.ltb_spec (List.length (s_pool s)) cap) as [L|L]; cbn.
  - split; [intros x [<-|[]]; cbn; now rewrite upd_same|]. split; [intros x Hx; cbn; rewrite upd_other; auto; intros ->; apply Hx; now left|].
    repeat split. exists [a]. split; [reflexivity|]. split; [constructor; [easy|constructor]|]. split; [apply incl_refl|cbn [List.length]; lia].
  - split; [intros x [<-|[]]; cbn; now rewrite upd_same|]. split; [intros x Hx; cbn; rewrite upd_other; auto; intros ->; apply Hx; now left|].
    repeat split. exists []. rewrite List.app_nil_r. split; [reflexivity|]. split; [constructor|]. split; [easy|cbn [List.length]; lia].
Qed.

Lemma back_order (s s' : store) xs ys : given_back cap s s' xs -> Permutation xs ys -> given_back cap s s' ys.
Proof.
  intros (A1 & A2 & A3 & A4 & A5 & b & A6 & A7 & A8 & A9) P.
  assert (E : forall x, In x ys <-> In x xs) by (intros x; split; apply Permutation_in; auto; now apply Permutation_sym).
  repeat split; auto.
  - intros x Hx. apply A1, E, Hx.
  - intros x Hx. apply A2. intros H. apply Hx, E, H.
  - exists b. repeat split; auto. { intros x Hx. apply E. auto. } rewrite <- (Permutation_length P). auto.
Qed.

Definition closes (f : nat) : Prop := forall (s : store) a xs, lists s a xs -> NoDup xs -> List.length xs <= f ->
  exists s', mem_close cap f s a = Some s' /\ given_back cap s s' xs.

Lemma lists_head (s : store) a xs : lists s a xs -> 1 <= List.length xs.
Proof. intros H. inversion H. cbn. lia. Qed.

Lemma closes_all f : closes f -> forall l xss (s : store), Forall2 (lists s) l xss -> NoDup (List.concat xss) ->
  List.length (List.concat xss) <= f -> exists s', close_all cap f s l = Some s' /\ given_back cap s s' (List.concat xss).
Proof.
  intros Hf. induction l as [|v l IH]; intros xss s HL HN Hl; inversion HL as [|? xs ? xss' L1 L2]; subst; cbn [List.concat] in *.
  - exists s. split; [reflexivity|apply back_nil].
  - rewrite List.app_length in Hl.
    assert (N1 : NoDup xs) by (clear - HN; induction xs as [|z xs IH]; cbn in HN; inversion HN as [|? ? Q1 Q2]; subst; constructor; auto; intros H; apply Q1, in_or_app; now left).
    assert (N2 : NoDup (List.concat xss')) by (clear - HN; induction xs as [|z xs IH]; cbn in HN; auto; inversion HN; auto).
    assert (D : forall x, In x xs -> ~ In x (List.concat xss')).
    { clear - HN. intros x Hx Hy. induction xs as [|z xs IH]; [destruct Hx|]. cbn in HN. inversion HN as [|? ? Q1 Q2]; subst. destruct Hx as [->|Hx].
      - apply Q1, in_or_app. now right.
      - auto. }
    destruct (Hf s v xs L1 N1) as (s1 & E1 & B1); [lia|].
    destruct (IH xss' s1) as (s2 & E2 & B2); auto; [|lia|].
    + assert (D' : forall x, In x (List.concat xss') -> s_cells s1 x = s_cells s x) by (intros x Hx; apply B1; intros H; exact (D x H Hx)).
      clear - L2 D'. induction L2 as [|k y l1 l2 Q _ IH]; constructor.
      * apply (lists_cells s); auto. intros x Hx. apply D'. cbn. apply in_or_app. now left.
      * apply IH. intros x Hx. apply D'. cbn. apply in_or_app. now right.
    + exists s2. cbn [close_all]. rewrite E1. split; auto. now apply (back_app s s1).
Qed.

Definition go_close (f : nat) :=
  (fix go (s : store) (l : list addr) : option store :=
               match l with
               | [] => Some s
               | v :: rest => match mem_close cap f s v with Some s' => go s' rest | None => None end
               end).
Lemma go_all f : forall l s, go_close f s l = close_all cap f s l.
Proof. induction l as [|v l IH]; intros s; cbn; auto. destruct (mem_close cap f s v); auto. Qed.

Lemma mem_close_closes f : closes f.
Proof.
  induction f as [|f IH]; intros s a xs L N Hl; [apply lists_head in L; lia|].
  inversion L as [? ls HL]; subst. inversion N as [|? ? N1 N2]; subst. cbn in Hl.
  destruct (closes_all f IH _ _ _ HL N2) as (s1 & E & B); [lia|].
  exists (give_back cap s1 a). split.
  - cbn [mem_close]. fold (go_close f). rewrite go_all, E. reflexivity.
  - apply (back_order _ _ (List.concat ls ++ [a])%list); [|apply Permutation_sym, Permutation_cons_append].
    apply (back_app s s1); auto; [apply back_one|]. intros x Hx [<-|[]]. auto.
Qed.

Lemma back_agree (s s' : store) xs b : given_back cap s s' xs -> (forall x, reach s b x -> ~ In x xs) -> agree s s' b.
Proof. intros (A1 & A2 & A3 & _) H. split; [intros x Hx; apply A2; auto|intros r _; now rewrite A3]. Qed.
End F.

(* Close of a document whose nodes are in use, none of them twice: exactly its nodes are given back, once each, the
   document has no nodes afterwards (so that closing it again gives nothing back), no node in the pool is there twice, and
   every other tree in use still holds the same data. *)
Theorem C138_close_document : forall M cap (s : store M) d xss fuel,
  NoDup (s_pool s) -> Forall2 (lists s) d xss -> NoDup (List.concat xss) -> Forall (in_use s) d ->
  List.length (List.concat xss) <= fuel ->
  exists s', doc_close cap fuel s d = Some (s', []) /\ doc_close cap fuel s' [] = Some (s', []) /\
    given_back cap s s' (List.concat xss) /\ NoDup (s_pool s') /\
    forall b n, rep s b n -> in_use s b -> (forall x, reach s b x -> ~ In x (List.concat xss)) -> rep s' b n /\ in_use s' b.
Proof.
  intros M cap s d xss fuel HP HL HN HU Hf.
  destruct (closes_all cap fuel (mem_close_closes cap fuel) d xss s HL HN Hf) as (s' & E & B).
  exists s'. unfold doc_close. rewrite E. split; [reflexivity|]. split; [reflexivity|]. split; [exact B|].
  pose proof B as (A1 & A2 & A3 & A4 & A5 & b & A6 & A7 & A8 & A9). split.
  - rewrite A6. apply NoDup_app_intro; auto. intros x Hx Hb. apply A8 in Hb. apply in_concat in Hb. destruct Hb as (xs & Hxs & Hb).
    clear - HL HU Hxs Hb Hx. induction HL as [|k y l1 l2 Q _ IH]; [destruct Hxs|]. inversion HU as [|? ? U1 U2]; subst.
    destruct Hxs as [->|Hxs]; [|auto]. apply (lists_reach _ _ _ Q) in Hb. destruct U1 as [U1 _]. destruct (U1 x Hb). auto.
  - intros c n R U D. pose proof (back_agree cap s s' _ c B D) as G. split; [now apply (rep_agree s)|]. split.
    + intros x Hx. apply (reach_agree _ _ _ _ G) in Hx. destruct U as [U _]. destruct (U x Hx) as [U1 U2]. rewrite A4, A6. split; auto.
      intros Hi. apply in_app_or in Hi. destruct Hi as [Hi|Hi]; auto. apply (D x Hx). auto.
    + intros r Hr. apply (reach_arr_agree _ _ _ _ G) in Hr. rewrite A5. now apply U.
Qed.
Print Assumptions C138_close_document.

(* What the encoders do with the raw nodes of a document: they are copied and the copy is closed after use. The nodes of
   the document hold the same data and stay in use, and the pool is ready for use. If the pool has room for the whole copy then every
   node of the copy is in it. *)
Theorem C138_copy_and_close : forall M cap (s : store M) a n fuel,
  NoDup (s_pool s) -> (forall x, In x (s_pool s) -> x < s_next s) -> rep s a n -> in_use s a -> depth n <= fuel ->
  exists s1 a' xs, mem_copy fuel s a = Some (s1, a') /\ lists s1 a' xs /\ NoDup xs /\ rep s1 a' n /\
    forall fuel', List.length xs <= fuel' ->
    exists s2, mem_close cap fuel' s1 a' = Some s2 /\ given_back cap s1 s2 xs /\ rep s2 a n /\ in_use s2 a /\
      NoDup (s_pool s2) /\ (forall x, In x (s_pool s2) -> x < s_next s2) /\
      (List.length (s_pool s1) + List.length xs <= cap -> incl xs (s_pool s2)).
Proof.
  intros M cap s a n fuel P1 P2 R U D.
  destruct (mem_copy_copies fuel s a n (conj P1 P2) R U D) as (s1 & a' & E & R' & G & (M1 & M2 & M3) & L & xs & X1 & X2).
  exists s1, a', xs. repeat (split; auto). intros fuel' Hf.
  destruct (mem_close_closes cap fuel' s1 a' xs X1 X2 Hf) as (s2 & E2 & B). exists s2. split; [exact E2|]. split; [exact B|].
  pose proof (in_use_agree _ _ _ U G) as Ha.
  assert (Dj : forall x, reach s1 a x -> ~ In x xs).
  { intros x Hx Hi. apply (lists_reach _ _ _ X1) in Hi. apply (reach_agree _ _ _ _ Ha) in Hx. apply (in_use_avail _ _ _ U Hx). auto. }
  pose proof (back_agree cap s1 s2 xs a B Dj) as G2.
  assert (U1 : in_use s1 a) by (apply (in_use_grows s); auto; intros x Hx; destruct U as [U _]; destruct (U x Hx); lia).
  pose proof B as (A1 & A2 & A3 & A4 & A5 & b & A6 & A7 & A8 & A9). destruct (g_pool _ _ G) as [Q1 Q2].
  split; [apply (rep_agree s1); auto; now apply (rep_agree s)|]. split; [|split; [|split]].
  - split.
    + intros x Hx. apply (reach_agree _ _ _ _ G2) in Hx. destruct U1 as [U1 _]. destruct (U1 x Hx) as [U2 U3]. rewrite A4, A6. split; auto.
      intros Hi. apply in_app_or in Hi. destruct Hi as [Hi|Hi]; auto. apply (Dj x Hx). auto.
    + intros r Hr. apply (reach_arr_agree _ _ _ _ G2) in Hr. rewrite A5. now apply U1.
  - rewrite A6. apply NoDup_app_intro; auto. intros x Hx Hb. apply A8, (lists_reach _ _ _ X1) in Hb. destruct M3 as [M3 _]. destruct (M3 x Hb). auto.
  - intros x Hx. rewrite A4. rewrite A6 in Hx. apply in_app_or in Hx. destruct Hx as [Hx|Hx]; [auto|].
    apply A8, (lists_reach _ _ _ X1) in Hx. destruct M3 as [M3 _]. now destruct (M3 x Hx).
  - intros Hc x Hx. rewrite A6. apply in_or_app. right.
    assert (L' : List.length xs <= List.length b) by lia. exact (NoDup_length_incl A7 L' A8 x Hx).
Qed.
Print Assumptions C138_copy_and_close.

(* Clear gives back the children of a node and keeps the node itself: its name, attributes, model and text. *)
Theorem C138_clear : forall M cap (s : store M) a xs fuel, lists s a xs -> NoDup xs -> List.length xs <= fuel ->
  exists s', node_clear cap fuel s a = Some s' /\
    (let c := s_cells s a in s_cells s' a = Cell (c_name c) (c_attr c) (c_model c) (c_value c) []) /\
    (forall x, In x xs -> x <> a -> s_cells s' x = Cell (XName "" "") None None "" []) /\
    (forall x, ~ In x xs -> s_cells s' x = s_cells s x) /\
    s_arrs s' = s_arrs s /\
    exists back, s_pool s' = (s_pool s ++ back)%list /\ NoDup back /\ ~ In a back /\ incl back xs /\
      List.length back = Nat.min (List.length xs - 1) (cap - List.length (s_pool s)).
Proof.
  intros M cap s a xs fuel L N Hf. inversion L as [? ls HL]; subst. inversion N as [|? ? N1 N2]; subst. cbn in Hf.
  destruct (closes_all cap fuel (mem_close_closes cap fuel) _ _ _ HL N2) as (s1 & E & B); [lia|].
  unfold node_clear. rewrite E. eexists. split; [reflexivity|]. pose proof B as (A1 & A2 & A3 & A4 & A5 & b & A6 & A7 & A8 & A9).
  split; [cbn; now rewrite upd_same, A2|]. split.
  { intros x [->|Hx] Hne; [congruence|]. cbn. rewrite upd_other by auto. now apply A1. }
  split.
  { intros x Hx. cbn. rewrite upd_other by (intros ->; apply Hx; now left). apply A2. intros H. apply Hx. now right. }
  split; [exact A3|]. exists b. repeat split; auto.
  - intros x Hx. right. auto.
  - rewrite A9. cbn. f_equal. lia.
Qed.
Print Assumptions C138_clear.

(* A node that is in two documents is given back twice: then NewNode hands it out twice and two owners write to it.
   (Node lists are shared by d2.Nodes() appended into another document.) *)
Theorem C138_shared_nodes_come_twice : exists (s s' : store unit) d1 d2 s1 s2 x y,
  NoDup (s_pool s) /\ Forall (in_use s) d1 /\ Forall (in_use s) d2 /\
  doc_close 9 9 s d1 = Some (s1, []) /\ doc_close 9 9 s1 d2 = Some (s2, []) /\
  mem_new s2 (new_name "a") = (s', x) /\ snd (mem_new s' (new_name "b")) = y /\ x = y.
Proof.
  set (s := Store (fun _ => Cell (new_name "n") None None "" []) (fun _ => []) 1 0 [] : store unit).
  assert (U : in_use s 0).
  { split.
    - intros x Hx. inversion Hx as [|k z Hk]; subst; [cbn; lia|destruct Hk].
    - intros r (x & _ & Hr). cbn in Hr. discriminate. }
  exists s. eexists. exists [0], [0]. do 4 eexists. split; [constructor|]. split; [auto|]. split; [auto|].
  split; [vm_compute; reflexivity|]. split; [vm_compute; reflexivity|]. split; [vm_compute; reflexivity|]. split; reflexivity.
Qed.
Print Assumptions C138_shared_nodes_come_twice.

(* a document of two trees with three nodes beside another node; the pool has room for two nodes only *)
Example C138_hyps :
  let cells a := if Nat.eqb a 0 then Cell (new_name "a") (Some 0) (Some tt) "v" [2] else Cell (new_name "b") None None "w" [] in
  let s : store unit := Store cells (fun _ => [Attr (new_name "k") "x"]) 6 1 [5] in
  Forall2 (lists s) [0; 3] [[0; 2]; [3]] /\ NoDup (List.concat [[0; 2]; [3]]) /\ Forall (in_use s) [0; 3] /\ in_use s 4 /\
  exists s', doc_close 3 3 s [0; 3] = Some (s', []) /\ s_pool s' = [5; 2; 0] /\ s_cells s' 3 = clean empty_name /\ s_cells s' 4 = cells 4.
Proof.
  cbv zeta. split; [|split; [|split; [|split]]].
  - assert (L : forall s a, c_kids (s_cells s a) = [] -> lists s a [a] (M := unit)).
    { intros s a E. change [a] with (a :: @List.concat addr []). constructor. rewrite E. constructor. }
    constructor; [|constructor; [|constructor]].
    + change [0; 2] with (0 :: List.concat [[2]]). constructor. cbn. constructor; [apply L; reflexivity|constructor].
    + apply L. reflexivity.
  - cbn. repeat constructor; cbn; intuition lia.
  - assert (U : forall s a, (forall x, reach s a x -> x < s_next s /\ ~ In x (s_pool s)) -> (forall r, reach_arr s a r -> r < s_anext s) -> in_use s a (M := unit)) by (split; auto).
    constructor; [|constructor; [|constructor]]; apply U.
    + intros x Hx. inversion Hx as [|k z Hk Hr]; subst; [cbn; lia|]. cbn in Hk. destruct Hk as [<-|[]].
      inversion Hr as [|k z Hk Hr']; subst; [cbn; lia|]. destruct Hk.
    + intros r (x & Hx & Hr). inversion Hx as [|k z Hk Hr']; subst; [cbn in Hr; injection Hr as <-; cbn; lia|]. cbn in Hk. destruct Hk as [<-|[]].
      inversion Hr' as [|k z Hk Hr'']; subst; [discriminate|destruct Hk].
    + intros x Hx. inversion Hx as [|k z Hk Hr]; subst; [cbn; lia|]. destruct Hk.
    + intros r (x & Hx & Hr). inversion Hx as [|k z Hk Hr']; subst; [discriminate|destruct Hk].
  - split.
    + intros x Hx. inversion Hx as [|k z Hk Hr]; subst; [cbn; lia|]. destruct Hk.
    + intros r (x & Hx & Hr). inversion Hx as [|k z Hk Hr']; subst; [discriminate|destruct Hk].
  - eexists. split; [vm_compute; reflexivity|]. repeat split.
Qed.
