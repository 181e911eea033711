(* Lemmas about TPathM.v *)
From Coq Require Import List Arith ZArith Bool Ascii String Lia Permutation.
From Verif Require ArrayFacts.
From Verif Require Import GoStr GoStrFacts GoMap Names Semver PathM PathFacts PVList SyncFlags NodeM ArrayM DocM TypeM TagM TPathM.
From Verif Require Import SpecBasic BasicFacts SpecTag TagFacts SpecType TypeFacts SpecTPath.
Import ListNotations.
Local Open Scope string_scope.

(* ---- segments ---------------------------------------------------------------------------------- *)

Definition seg_word (s : tseg) : string := g_name s ++ sub_text (g_sub s).
Fixpoint tsteps (l : list tseg) : list (string * bool) :=
  match l with
  | [] => []
  | s :: r => (seg_word s, match r with [] => false | _ => true end) :: tsteps r
  end.

Definition seg_idx (s : subscript) : Z := match s with SIndex k => Z.of_nat k | _ => (-1)%Z end.
Definition seg_lang (s : subscript) : string := match s with SLang g => g | _ => "" end.

Lemma sub_no_char c s : match g_sub s with SLang g => no_char c g | _ => True end ->
  is_digit c = false -> Ascii.eqb c "-" = false -> Ascii.eqb c "[" = false -> Ascii.eqb c "]" = false ->
  no_char c (sub_text (g_sub s)).
Proof.
  intros H D M B1 B2. unfold no_char. destruct (g_sub s) as [|k|g]; cbn [sub_text]; [reflexivity| |].
  - rewrite !has_char_app. cbn [has_char]. rewrite (itoa_no_char c) by auto.
    rewrite ?(Ascii.eqb_sym "[" c), ?(Ascii.eqb_sym "]" c), B1, B2. reflexivity.
  - rewrite !has_char_app. cbn [has_char]. rewrite H.
    rewrite ?(Ascii.eqb_sym "[" c), ?(Ascii.eqb_sym "]" c), B1, B2. reflexivity.
Qed.

Lemma tseg_spec_ok s : tseg_ok s -> seg_spec_ok (tseg_spec s).
Proof.
  intros ((N1 & N2 & N3 & N4) & P & S). unfold seg_spec_ok, tseg_spec. cbn [fst snd].
  assert (A : forall c, c = "/"%char \/ c = ":"%char -> no_char c (g_name s) -> no_char c (g_name s ++ sub_text (g_sub s))).
  { intros c Hc Hn. unfold no_char in *. rewrite has_char_app, Hn. apply sub_no_char.
    - destruct (g_sub s) as [|k|g]; auto. destruct S as (_ & S1 & S2 & _). destruct Hc as [->| ->]; assumption.
    - destruct Hc as [->| ->]; reflexivity.
    - destruct Hc as [->| ->]; reflexivity.
    - destruct Hc as [->| ->]; reflexivity.
    - destruct Hc as [->| ->]; reflexivity. }
  split; [|split].
  - destruct (g_name s); [congruence|discriminate].
  - apply A; auto.
  - destruct (g_ns s); [exact P|]. apply A; auto.
Qed.

Lemma steps_tpath p l : no_char ":" p -> Forall tseg_ok l -> steps (tpath p l) = tsteps l.
Proof.
  intros Hp Hl. unfold steps, tpath. rewrite <- (map_map tseg_spec seg_text).
  assert (F : Forall seg_spec_ok (map tseg_spec l)).
  { apply Forall_map. eapply Forall_impl; [|exact Hl]. apply tseg_spec_ok. }
  assert (G : forall q m, no_char ":" q -> Forall seg_spec_ok m -> path_len (new_path q (map seg_text m)) = List.length m).
  { intros q m Hq Hm. rewrite path_len_fields, fields_new, map_length; auto.
    apply Forall_map. eapply Forall_impl; [|exact Hm]. apply seg_text_ok. }
  rewrite (G p _ Hp F), walk_visits by (auto; lia). clear F. revert p Hp.
  induction Hl as [|s l Hs Hl IH]; intros p Hp; [reflexivity|].
  cbn [map walk_spec fst snd tsteps]. f_equal.
  - unfold tseg_spec at 1. cbn [snd]. f_equal.
    rewrite (G _ (map tseg_spec l)).
    + rewrite map_length. destruct l; reflexivity.
    + unfold tseg_spec. cbn [fst]. destruct Hs as (_ & P & _). destruct (g_ns s); [exact (proj1 (proj2 P))|exact Hp].
    + apply Forall_map. eapply Forall_impl; [|exact Hl]. apply tseg_spec_ok.
  - apply IH. unfold tseg_spec. cbn [fst]. destruct Hs as (_ & P & _). destruct (g_ns s); [exact (proj1 (proj2 P))|exact Hp].
Qed.

Lemma tpath_is_path p l : no_char ":" p -> is_xmp_path (tpath p l) = true.
Proof. intros H. unfold is_xmp_path, tpath, new_path. rewrite index_char_prefix by auto. reflexivity. Qed.

Lemma parse_tseg s : tseg_ok s -> parse_segment (seg_word s) = (g_name s, seg_idx (g_sub s), seg_lang (g_sub s)).
Proof.
  intros ((N1 & N2 & N3 & N4) & _ & S). unfold seg_word. destruct (g_sub s) as [|k|g]; cbn [sub_text seg_idx seg_lang].
  - rewrite app_nil_r. now apply parse_segment_plain.
  - rewrite parse_segment_suffix by auto. rewrite (proj2 (emptyb_false _) (itoa_nonempty _)), atoi_itoa by (cbv iota in S; unfold int64, int_ok; cbn; lia). reflexivity.
  - destruct S as (S1 & S2 & S3 & S4). rewrite parse_segment_suffix by auto.
    rewrite (proj2 (emptyb_false _) S1), S4. reflexivity.
Qed.

Lemma idx_ok s : (seg_idx s <? -1)%Z = false.
Proof. apply Z.ltb_ge. destruct s; cbn [seg_idx]; lia. Qed.
Lemma idx_nat s : Z.to_nat (seg_idx s) = index_of s.
Proof. destruct s; cbn [seg_idx index_of]; [reflexivity|apply Nat2Z.id|reflexivity]. Qed.

Section F.
Context {X : Type}.
Notation gval := (gval X).
Notation ty := (ty X).

(* ---- fields and pointers ------------------------------------------------------------------------- *)

Lemma asked_local n f : no_char ":" n -> (asked n f <-> local_name_of f n).
Proof.
  intros H. unfold asked. assert (~ prefixed n) as P.
  { rewrite <- prefixed_iff. rewrite has_prefix_none by exact H. discriminate. }
  tauto.
Qed.

Lemma lookup_field n (fs : list (finfo * ty)) vs a f t v b : no_char ":" n -> field_at n fs vs a f t v b ->
  lookup fs n = Some (List.length a) /\ nth_error fs (List.length a) = Some (f, t) /\ nth_error vs (List.length a) = Some v.
Proof.
  intros N (fa & fb & -> & -> & L & M & F). rewrite <- L at 1 2. split; [|split; [apply nth_error_mid|apply nth_error_mid]].
  unfold lookup. apply native_found. left. rewrite map_app. cbn [map]. split.
  - exists (tag_of (f, t)). split.
    + rewrite <- (map_length tag_of fa). apply nth_error_mid.
    + apply asked_local; auto.
  - intros i x Hi Hx. rewrite nth_error_app1 in Hx by (rewrite map_length; exact Hi).
    apply nth_error_In in Hx. apply in_map_iff in Hx. destruct Hx as (g & <- & Hg).
    rewrite asked_local by auto. cbn [tag_of ti_name]. rewrite Forall_forall in F. exact (F g Hg).
Qed.

Lemma under_deref (t : ty) v t' v' : under t v t' v' -> deref t v = (t', v').
Proof. intros H. inversion H as [u|u w|u w P]; subst; cbn [deref]; try reflexivity. destruct t'; cbn in *; congruence || reflexivity. Qed.
Lemma under_drill (t : ty) v t' v' : under t v t' v' -> v <> VNil -> drill t v = (t', v').
Proof. intros H N. inversion H as [u|u w|u w P]; subst; cbn [drill]; try reflexivity; [congruence|]. destruct t'; cbn in *; congruence || reflexivity. Qed.
Lemma reref_wrap (t : ty) w : reref t w = wrap t w.
Proof. destruct t; reflexivity. Qed.
Lemma under_wrap (t : ty) v t' v' w : under t v t' v' -> under t (wrap t w) t' w.
Proof. intros H. inversion H as [u|u x|u x P]; subst; unfold wrap; cbn [is_ptr]; try constructor. rewrite P. now constructor. Qed.

Lemma shown_checks (f : finfo) (t : ty) v : shown (f, t, v) ->
  is_nil v = false /\ f_omit f || (negb (f_empty f) && is_empty t v) = false.
Proof.
  intros (O & N & E). rewrite blank_eq in E. split.
  - destruct v; cbn; congruence.
  - rewrite O. cbn [orb]. destruct E as [->| ->]; [reflexivity|]. now rewrite andb_false_r.
Qed.

Lemma shows_leaf (t : ty) v s : shows_as t v s -> leaf_text t v = Ok s.
Proof.
  intros H. unfold leaf_text, leaf_enc.
  inversion H as [s1|s1|bb|bits z|bits z|c v1 s1 E1|i t1 c v1 s1 E1 E2]; subst; cbn [simple_text bind]; try reflexivity.
  - now rewrite E1.
  - rewrite E1, E2. reflexivity.
Qed.

(* ---- GetModelPath ---------------------------------------------------------------------------------- *)

Lemma find_app_first {A} (P : A -> bool) a x b : Forall (fun y => P y = false) a -> P x = true -> find P (a ++ x :: b)%list = Some x.
Proof. intros F E. induction F as [|y a Hy F IH]; cbn [List.app find]; [now rewrite E|]. now rewrite Hy. Qed.

Lemma get_found g (fs : list (finfo * ty)) vs segs t v tr : finds g fs vs segs t v tr -> g = false ->
  Forall tseg_ok segs -> Forall shown tr -> forall s, reads t v (last_sub segs) s -> get_steps (tsteps segs) fs vs = Ok s.
Proof.
  intros H. induction H as [fs vs s a f t0 v0 b t v FA U
    |fs vs s r a f t0 v0 b i fs' us t v tr FA U D IH
    |fs vs s r a f t0 v0 b i te l sp e si fs' us t v tr FA U AX NE UE D IH
    |fs vs s r a f t0 v0 b i te l sp si fs' us t v tr G FA U AX LE SP UE D IH]; intros Hg Hok Hsh out HR; [| | |congruence].
  - inversion Hok as [|? ? Hs _]; subst. inversion Hsh as [|? ? Hv _]; subst.
    destruct (lookup_field _ _ _ _ _ _ _ _ (proj2 (proj2 (proj2 (proj1 Hs)))) FA) as (L1 & L2 & L3).
    destruct (shown_checks _ _ _ Hv) as [C1 C2].
    cbn [tsteps get_steps]. rewrite parse_tseg by auto. cbv iota beta. rewrite idx_ok, L1, L2, L3, C1, C2.
    rewrite (under_drill _ _ _ _ U (proj1 (proj2 Hv))).
    cbn [last_sub rev List.app g_sub] in HR. change (match rev [s] with [] => SNone | s0 :: _ => g_sub s0 end) with (g_sub s) in HR.
    inversion HR as [t' v' sub s' ST SH|i te l sp e te' e' sub s' AX NE UE SH|m l1 g x l2 NG EG FG|m l1 x l2 sub SB DX FD]; subst.
    + pose proof (shows_leaf _ _ _ SH) as SL. inversion SH; subst; try exact SL.
      cbn [single] in ST. destruct v; try exact SL. destruct (ar_xmp i); [discriminate|exact SL].
    + rewrite AX, idx_nat, NE, (under_deref _ _ _ _ UE). now apply shows_leaf.
    + cbn [seg_lang]. rewrite (proj2 (emptyb_false _) NG). unfold alt_get. rewrite (proj2 (emptyb_false _) NG).
      rewrite (find_app_first _ l1 x l2); [reflexivity| |apply eqb_refl].
      eapply Forall_impl; [|exact FG]. intros y Hy. now apply eqb_neq.
    + assert (seg_lang (g_sub s) = "") as -> by (destruct SB as [->|(k & ->)]; reflexivity).
      cbn [emptyb]. unfold alt_default. now rewrite (find_app_first _ l1 x l2).
  - inversion Hok as [|? ? Hs Hr]; subst. inversion Hsh as [|? ? Hv Ht]; subst.
    destruct (lookup_field _ _ _ _ _ _ _ _ (proj2 (proj2 (proj2 (proj1 Hs)))) FA) as (L1 & L2 & L3).
    destruct (shown_checks _ _ _ Hv) as [C1 C2].
    cbn [tsteps get_steps]. rewrite parse_tseg by auto. cbv iota beta. rewrite idx_ok, L1, L2, L3, C1, C2.
    rewrite (under_drill _ _ _ _ U (proj1 (proj2 Hv))).
    assert (NR : r <> []) by (inversion D; discriminate).
    destruct r as [|s2 r]; [congruence|]. apply IH; auto.
    unfold last_sub in *. cbn [rev] in HR. cbn [rev].
    destruct (rev r) as [|z q]; cbn [List.app] in *; exact HR.
  - inversion Hok as [|? ? Hs Hr]; subst. inversion Hsh as [|? ? Hv Ht]; subst.
    destruct (lookup_field _ _ _ _ _ _ _ _ (proj2 (proj2 (proj2 (proj1 Hs)))) FA) as (L1 & L2 & L3).
    destruct (shown_checks _ _ _ Hv) as [C1 C2].
    cbn [tsteps get_steps]. rewrite parse_tseg by auto. cbv iota beta. rewrite idx_ok, L1, L2, L3, C1, C2.
    rewrite (under_drill _ _ _ _ U (proj1 (proj2 Hv))).
    assert (NR : r <> []) by (inversion D; discriminate).
    destruct r as [|s2 r]; [congruence|]. rewrite AX, idx_nat, NE, (under_deref _ _ _ _ UE). apply IH; auto.
    unfold last_sub in *. cbn [rev] in HR. cbn [rev].
    destruct (rev r) as [|z q]; cbn [List.app] in *; exact HR.
Qed.

(* ---- SetModelPath ---------------------------------------------------------------------------------- *)
Variable growth : nat -> nat.

Definition set_last (t : ty) (v : gval) (idx : Z) (lang value : string) (flags : Z) : gval * result unit :=
  match t, v with
  | TAlt _, VAlt a => set_alt a lang value flags
  | TArr i te, VArr l sp => if ar_xmp i then set_slice growth te l sp idx value flags else set_leaf t v value flags
  | _, _ => set_leaf t v value flags
  end.

Lemma zeros_repeat (z : gval) l : Forall (eq z) l -> l = repeat z (List.length l).
Proof. intros H. induction H as [|x l <- H IH]; cbn [List.length repeat]; [reflexivity|now rewrite <- IH]. Qed.

Lemma grow_zero (te : ty) (l sp : list gval) n : Forall (eq (zero te)) sp -> List.length l <= n ->
  exists sp', grow_slice te l sp n = ((l ++ repeat (zero te) (S n - List.length l))%list, sp') /\ Forall (eq (zero te)) sp'.
Proof.
  intros Z L. unfold grow_slice. rewrite (proj2 (Nat.leb_le _ _) L).
  destruct (Nat.leb (List.length l + List.length sp) n) eqn:E.
  - eexists. split; [reflexivity|]. apply Forall_forall. intros x Hx. now apply repeat_spec in Hx.
  - apply Nat.leb_gt in E. exists (skipn (S n - List.length l) sp). split.
    + f_equal. f_equal. rewrite <- (firstn_skipn (S n - List.length l) sp) in Z. apply Forall_app in Z.
      rewrite (zeros_repeat _ _ (proj1 Z)), firstn_length. f_equal. lia.
    + rewrite <- (firstn_skipn (S n - List.length l) sp) in Z. apply Forall_app in Z. exact (proj2 Z).
Qed.

Lemma split_nth {A} (l : list A) k e : nth_error l k = Some e -> exists l1 l2, l = (l1 ++ e :: l2)%list /\ List.length l1 = k.
Proof. apply nth_error_split. Qed.

Lemma field_at_new n (fs : list (finfo * ty)) vs a f t v b w : field_at n fs vs a f t v b -> field_at n fs (a ++ w :: b)%list a f t w b.
Proof. intros (fa & fb & -> & -> & H). exists fa, fb. auto. Qed.

Lemma set_found g (fs : list (finfo * ty)) vs segs t v tr value flags : finds g fs vs segs t v tr -> Forall tseg_ok segs ->
  (g = true -> on flags (Z.lor CREATE APPEND) = true /\ on flags DELETE && emptyb value = false) ->
  forall w e, set_last t v (seg_idx (last_sub segs)) (seg_lang (last_sub segs)) value flags = (w, e) ->
  exists vs' tr', set_steps growth (tsteps segs) fs vs value flags = (vs', e) /\ puts fs vs segs w vs'
    /\ finds false fs vs' segs t w tr'.
Proof.
  intros H. induction H as [fs vs s a f t0 v0 b t v FA U
    |fs vs s r a f t0 v0 b i fs' us t v tr FA U D IH
    |fs vs s r a f t0 v0 b i te l sp e0 si fs' us t v tr FA U AX NE UE D IH
    |fs vs s r a f t0 v0 b i te l sp si fs' us t v tr G FA U AX LE SP UE D IH]; intros Hok Hg w e HL.
  - inversion Hok as [|? ? Hs _]; subst.
    destruct (lookup_field _ _ _ _ _ _ _ _ (proj2 (proj2 (proj2 (proj1 Hs)))) FA) as (L1 & L2 & L3).
    exists (a ++ wrap t0 w :: b)%list, [(f, t0, wrap t0 w)]. split; [|split].
    + cbn [tsteps set_steps]. rewrite parse_tseg by auto. cbv iota beta. rewrite idx_ok, L1, L2, L3.
      rewrite (under_deref _ _ _ _ U). cbn [last_sub rev List.app] in HL.
      change (match rev [s] with [] => SNone | s0 :: _ => g_sub s0 end) with (g_sub s) in HL.
      assert (E : (match t with
                  | TAlt _ => match v with VAlt a => set_alt a (seg_lang (g_sub s)) value flags | _ => set_leaf t v value flags end
                  | TArr i te => match v with VArr l sp => if ar_xmp i then set_slice growth te l sp (seg_idx (g_sub s)) value flags else set_leaf (TArr i te) (VArr l sp) value flags | _ => set_leaf t v value flags end
                  | _ => set_leaf t v value flags end) = (w, e)).
      { rewrite <- HL. unfold set_last. destruct t, v; reflexivity. }
      clear HL. destruct FA as (fa & fb & -> & -> & FA).
      destruct t, v; rewrite E, set_nth_mid, reref_wrap; reflexivity.
    + econstructor. exact FA.
    + econstructor; [eapply field_at_new; exact FA|]. eapply under_wrap. exact U.
  - inversion Hok as [|? ? Hs Hr]; subst.
    destruct (lookup_field _ _ _ _ _ _ _ _ (proj2 (proj2 (proj2 (proj1 Hs)))) FA) as (L1 & L2 & L3).
    assert (NR : r <> []) by (inversion D; discriminate).
    destruct r as [|s2 r]; [congruence|].
    destruct (IH Hr Hg w e) as (us' & tr' & S1 & S2 & S3).
    { rewrite <- HL. unfold last_sub. cbn [rev]. destruct (rev r) as [|z q]; reflexivity. }
    exists (a ++ wrap t0 (VStruct us') :: b)%list, ((f, t0, wrap t0 (VStruct us')) :: tr'). split; [|split].
    + change (tsteps (s :: s2 :: r)) with ((seg_word s, true) :: tsteps (s2 :: r)).
      remember (tsteps (s2 :: r)) as q eqn:Eq. cbn [set_steps]. rewrite parse_tseg by auto. cbv iota beta. rewrite idx_ok, L1, L2, L3.
      rewrite (under_deref _ _ _ _ U).
      rewrite S1. destruct FA as (fa & fb & -> & -> & FA). rewrite set_nth_mid, reref_wrap. reflexivity.
    + eapply puts_struct; eauto.
    + eapply finds_struct; [eapply field_at_new; exact FA|eapply under_wrap; exact U|exact S3].
  - inversion Hok as [|? ? Hs Hr]; subst.
    destruct (lookup_field _ _ _ _ _ _ _ _ (proj2 (proj2 (proj2 (proj1 Hs)))) FA) as (L1 & L2 & L3).
    assert (NR : r <> []) by (inversion D; discriminate).
    destruct r as [|s2 r]; [congruence|].
    destruct (IH Hr Hg w e) as (us' & tr' & S1 & S2 & S3).
    { rewrite <- HL. unfold last_sub. cbn [rev]. destruct (rev r) as [|z q]; reflexivity. }
    destruct (split_nth _ _ _ NE) as (l1 & l2 & -> & Hl).
    exists (a ++ wrap t0 (VArr (l1 ++ wrap te (VStruct us') :: l2) sp) :: b)%list,
      ((f, t0, wrap t0 (VArr (l1 ++ wrap te (VStruct us') :: l2)%list sp)) :: tr'). split; [|split].
    + change (tsteps (s :: s2 :: r)) with ((seg_word s, true) :: tsteps (s2 :: r)).
      remember (tsteps (s2 :: r)) as q eqn:Eq. cbn [set_steps]. rewrite parse_tseg by auto. cbv iota beta. rewrite idx_ok, L1, L2, L3.
      rewrite (under_deref _ _ _ _ U), AX, idx_nat.
      replace (Nat.leb (List.length (l1 ++ e0 :: l2)%list) (index_of (g_sub s))) with false.
      2:{ symmetry. apply Nat.leb_gt. rewrite List.app_length. cbn [List.length]. lia. }
      rewrite NE, (under_deref _ _ _ _ UE).
      rewrite S1. destruct FA as (fa & fb & -> & -> & FA). rewrite set_nth_mid, !reref_wrap. rewrite <- Hl, set_nth_mid. reflexivity.
    + eapply puts_elem; eauto.
    + eapply finds_elem; [eapply field_at_new; exact FA|eapply under_wrap; exact U|exact AX| |eapply under_wrap; exact UE|exact S3].
      rewrite <- Hl. apply nth_error_mid.
  - inversion Hok as [|? ? Hs Hr]; subst.
    destruct (lookup_field _ _ _ _ _ _ _ _ (proj2 (proj2 (proj2 (proj1 Hs)))) FA) as (L1 & L2 & L3).
    assert (NR : r <> []) by (inversion D; discriminate).
    destruct r as [|s2 r]; [congruence|].
    destruct (IH Hr Hg w e) as (us' & tr' & S1 & S2 & S3).
    { rewrite <- HL. unfold last_sub. cbn [rev]. destruct (rev r) as [|z q]; reflexivity. }
    destruct (grow_zero te l sp (index_of (g_sub s)) SP LE) as (sp' & GS & _).
    destruct (Hg eq_refl) as [HC HD].
    remember (index_of (g_sub s)) as k.
    assert (LL : (l ++ repeat (zero te) (S k - List.length l))%list = ((l ++ repeat (zero te) (k - List.length l)) ++ [zero te])%list).
    { rewrite <- List.app_assoc. f_equal. replace (S k - List.length l) with ((k - List.length l) + 1) by lia.
      rewrite repeat_app. reflexivity. }
    assert (LK : List.length (l ++ repeat (zero te) (k - List.length l))%list = k).
    { rewrite List.app_length, repeat_length. lia. }
    exists (a ++ wrap t0 (VArr (l ++ repeat (zero te) (k - List.length l) ++ [wrap te (VStruct us')]) sp') :: b)%list,
      ((f, t0, wrap t0 (VArr (l ++ repeat (zero te) (k - List.length l) ++ [wrap te (VStruct us')])%list sp')) :: tr').
    rewrite List.app_assoc. split; [|split].
    + change (tsteps (s :: s2 :: r)) with ((seg_word s, true) :: tsteps (s2 :: r)).
      remember (tsteps (s2 :: r)) as q eqn:Eq. cbn [set_steps]. rewrite parse_tseg by auto. cbv iota beta. rewrite idx_ok, L1, L2, L3.
      rewrite (under_deref _ _ _ _ U), AX, idx_nat, <- Heqk.
      rewrite (proj2 (Nat.leb_le _ _) LE), HD, HC. cbn [negb]. rewrite GS, LL.
      assert (SN : forall x y, set_nth k x ((l ++ repeat (zero te) (k - List.length l)) ++ [y])%list = ((l ++ repeat (zero te) (k - List.length l)) ++ [x])%list).
      { intros x y. rewrite <- LK at 1. apply set_nth_mid. }
      assert (NT : forall x, nth_error ((l ++ repeat (zero te) (k - List.length l)) ++ [x])%list k = Some x).
      { intros x. rewrite <- LK at 2. apply nth_error_mid. }
      rewrite !SN, NT, (under_deref _ _ _ _ UE).
      rewrite S1, !SN, !reref_wrap. destruct FA as (fa & fb & -> & -> & FA). rewrite !set_nth_mid. reflexivity.
    + rewrite <- List.app_assoc. rewrite Heqk. eapply puts_new; eauto; rewrite <- ?Heqk; eauto.
    + eapply finds_elem; [eapply field_at_new; exact FA|eapply under_wrap; exact U|exact AX| |eapply under_wrap; exact UE|exact S3].
      rewrite <- Heqk. rewrite <- LK at 2. apply nth_error_mid.
Qed.

(* ---- the last segment ------------------------------------------------------------------------------- *)

Lemma has_on flags F : (0 <= F)%Z -> (has flags F <-> on flags F = true).
Proof.
  intros H. unfold has, on. assert (0 <= Z.land flags F)%Z by (apply Z.land_nonneg; auto).
  rewrite Z.ltb_lt. lia.
Qed.
Lemma not_has_on flags F : (0 <= F)%Z -> (~ has flags F <-> on flags F = false).
Proof. intros H. rewrite has_on by exact H. now rewrite not_true_iff_false. Qed.
Lemma on_lor flags F G : (0 <= F)%Z -> (0 <= G)%Z -> on flags (Z.lor F G) = on flags F || on flags G.
Proof.
  intros HF HG. unfold on. rewrite Z.land_lor_distr_r.
  assert (0 <= Z.land flags F)%Z by (apply Z.land_nonneg; auto).
  assert (0 <= Z.land flags G)%Z by (apply Z.land_nonneg; auto).
  assert (0 <= Z.lor (Z.land flags F) (Z.land flags G))%Z by (apply Z.lor_nonneg; auto).
  apply eq_iff_eq_true. rewrite orb_true_iff, !Z.ltb_lt.
  pose proof (Z.lor_eq_0_iff (Z.land flags F) (Z.land flags G)) as E. lia.
Qed.

Lemma reads_leaf (t : ty) v s w : single t = true -> reads_as t v s w ->
  (match t with
   | TText c => c_dec c v s
   | TArr i _ => match ar_text i with Some c => c_dec c v s | None => set_simple_value t v s end
   | _ => set_simple_value t v s
   end) = Ok w.
Proof.
  intros S H.
  inversion H as [v1 s1|v1 s1|v1 s1 b E1|bits v1 s1 z E1|bits v1 s1 z E1|c v1 s1 w1 E1|i t1 c v1 s1 w1 E1 E2]; subst;
    cbn [set_simple_value]; rewrite ?E1, ?E2; try reflexivity.
Qed.
Lemma reads_new (t : ty) s w : reads_as t (zero t) s w -> new_elem t s = Ok w.
Proof.
  intros H. unfold new_elem.
  inversion H as [v1 s1|v1 s1|v1 s1 b E1|bits v1 s1 z E1|bits v1 s1 z E1|c v1 s1 w1 E1|i t1 c v1 s1 w1 E1 E2]; subst;
    cbn [set_simple_value]; rewrite ?E1, ?E2; try reflexivity. exact E1.
Qed.

Lemma flag_pos : (0 <= REPLACE)%Z /\ (0 <= CREATE)%Z /\ (0 <= APPEND)%Z /\ (0 <= UNIQUE)%Z /\ (0 <= DELETE)%Z.
Proof. repeat split; discriminate. Qed.
Ltac flags_in H := first
  [ apply (not_has_on _ REPLACE) in H; [|apply flag_pos] | apply (not_has_on _ CREATE) in H; [|apply flag_pos]
  | apply (not_has_on _ APPEND) in H; [|apply flag_pos] | apply (not_has_on _ UNIQUE) in H; [|apply flag_pos]
  | apply (not_has_on _ DELETE) in H; [|apply flag_pos]
  | apply (has_on _ REPLACE) in H; [|apply flag_pos] | apply (has_on _ CREATE) in H; [|apply flag_pos]
  | apply (has_on _ APPEND) in H; [|apply flag_pos] | apply (has_on _ UNIQUE) in H; [|apply flag_pos]
  | apply (has_on _ DELETE) in H; [|apply flag_pos] ].

Lemma on_rc flags : has flags REPLACE \/ has flags CREATE -> on flags (Z.lor REPLACE CREATE) = true.
Proof.
  intros H. rewrite on_lor by apply flag_pos. destruct H as [H|H]; flags_in H; rewrite H; [reflexivity|apply orb_true_r].
Qed.

Lemma alt_index_none l g : Forall (fun y => ai_lang y <> g) l -> alt_index l g = None.
Proof. intros F. induction F as [|y l H F IH]; cbn [alt_index]; [reflexivity|]. rewrite (proj2 (eqb_neq _ _) H), IH. reflexivity. Qed.
Lemma alt_index_first a x b g : Forall (fun y => ai_lang y <> g) a -> ai_lang x = g -> alt_index (a ++ x :: b)%list g = Some (List.length a).
Proof.
  intros F E. induction F as [|y a H F IH]; cbn [List.app alt_index List.length].
  - rewrite E, eqb_refl. reflexivity.
  - rewrite (proj2 (eqb_neq _ _) H), IH. reflexivity.
Qed.
Lemma set_value_mid a x b v : set_nth_value (a ++ x :: b)%list (List.length a) v = (a ++ AltItem v (ai_lang x) (ai_default x) :: b)%list.
Proof. induction a as [|y a IH]; cbn [List.app set_nth_value List.length]; [reflexivity|now rewrite IH]. Qed.
Lemma set_def_id x : ai_default x = false -> set_def x false = x.
Proof. destruct x. cbn. intros ->. reflexivity. Qed.
Lemma add_with_default x r g value : value <> "" -> ai_default x = true -> Forall (fun y => ai_default y = false) r ->
  alt_add (x :: r) g value = Ok ((x :: r) ++ [AltItem value g false])%list.
Proof.
  intros V D F. unfold alt_add. rewrite (proj2 (emptyb_false _) V). unfold ensure_default.
  assert (M : map (fun y => set_def y false) (r ++ [AltItem value g false])%list = (r ++ [AltItem value g false])%list).
  { rewrite map_app. cbn [map]. f_equal. induction F as [|y r H F IH]; cbn [map]; [reflexivity|]. now rewrite IH, set_def_id. }
  cbn [List.app]. destruct (r ++ [AltItem value g false])%list as [|z q] eqn:E; [destruct r; discriminate|].
  rewrite <- E in *. cbn [clear_defaults]. rewrite D, M. rewrite E. reflexivity.
Qed.

Lemma sets_last (t : ty) v sub value flags w : sets t v sub value flags w ->
  set_last t v (seg_idx sub) (seg_lang sub) value flags = (w, Ok tt).
Proof.
  intros H. inversion H as
    [t1 v1 sub1 va fl w1 ST RD RP
    |m a x b g va fl V G NU NA RC EG FG
    |m l g va fl V G NA UF FG HD
    |m g va fl V UF G
    |m l va fl V NU NA RC
    |m va fl V UF
    |m l fl HD
    |m d a x b g fl HD G EG FG D F
    |m x g fl HD G EG
    |m l g fl HD G FG]; subst.
  - assert (L : set_leaf t v value flags = (w, Ok tt)).
    { unfold set_leaf. replace (negb (on flags REPLACE) && negb (emptyb value) && negb (is_empty t v)) with false.
      - pose proof (reads_leaf _ _ _ _ ST RD) as RL. rewrite RL. reflexivity.
      - symmetry. destruct RP as [R|[->|R]].
        + flags_in R. rewrite R. reflexivity.
        + cbn [emptyb negb]. now rewrite andb_false_r.
        + rewrite blank_eq in R. rewrite R. apply andb_false_r. }
    unfold set_last. destruct t; cbn [single] in ST; try discriminate; try exact L.
    destruct v; try exact L. destruct (ar_xmp i); [discriminate|exact L].
  - cbn [set_last seg_lang]. unfold set_alt. flags_in NU. flags_in NA. rewrite NU, NA, (on_rc _ RC).
    rewrite !(proj2 (emptyb_false _) V), (proj2 (emptyb_false _) G). cbn [andb negb].
    unfold alt_set. rewrite (proj2 (emptyb_false _) V), alt_index_first by auto. rewrite set_value_mid. reflexivity.
  - cbn [set_last seg_lang]. unfold set_alt. flags_in NA.
    destruct HD as (x & r & -> & D & F).
    rewrite !(proj2 (emptyb_false _) V), ?(proj2 (emptyb_false _) G), NA. cbn [andb negb].
    destruct (on flags UNIQUE) eqn:EU; cbn [andb].
    + unfold alt_add_unique. rewrite (proj2 (emptyb_false _) V), alt_index_none by auto. cbn [option_map].
      rewrite add_with_default by auto. reflexivity.
    + replace (on flags (Z.lor REPLACE CREATE)) with true.
      * unfold alt_set. cbn [andb]. rewrite (proj2 (emptyb_false _) V), alt_index_none by auto. rewrite add_with_default by auto. reflexivity.
      * symmetry. apply on_rc. destruct UF as [U|U]; [flags_in U; congruence|exact U].
  - cbn [set_last seg_lang]. unfold set_alt.
    rewrite !(proj2 (emptyb_false _) V), ?(proj2 (emptyb_false _) G). cbn [andb negb].
    assert (A : alt_add [] g value = Ok [AltItem value g true]).
    { unfold alt_add. rewrite (proj2 (emptyb_false _) V). reflexivity. }
    destruct (on flags UNIQUE) eqn:EU; cbn [andb].
    + unfold alt_add_unique. rewrite (proj2 (emptyb_false _) V). cbn [alt_index option_map]. rewrite A. reflexivity.
    + destruct (on flags APPEND) eqn:EA; cbn [andb]; [rewrite A; reflexivity|].
      replace (on flags (Z.lor REPLACE CREATE)) with true.
      * cbn [andb]. unfold alt_set. rewrite (proj2 (emptyb_false _) V). cbn [alt_index]. rewrite A. reflexivity.
      * symmetry. apply on_rc. destruct UF as [U|[U|U]]; [flags_in U; congruence|flags_in U; congruence|exact U].
  - cbn [set_last seg_lang]. unfold set_alt. flags_in NU. flags_in NA. rewrite NU, NA, (on_rc _ RC).
    rewrite (proj2 (emptyb_false _) V). cbn [andb negb emptyb]. unfold new_alt_string, new_alt_items. cbn [flat_map].
    rewrite (proj2 (emptyb_false _) V). reflexivity.
  - cbn [set_last seg_lang]. unfold set_alt.
    assert (A : alt_add [] "" value = Ok [AltItem value "" true]).
    { unfold alt_add. rewrite (proj2 (emptyb_false _) V). reflexivity. }
    rewrite (proj2 (emptyb_false _) V). cbn [andb negb].
    destruct (on flags UNIQUE) eqn:EU; cbn [andb].
    + unfold alt_add_unique. rewrite (proj2 (emptyb_false _) V). cbn [alt_index option_map]. rewrite A. reflexivity.
    + destruct UF as [U|U]; flags_in U; [congruence|]. rewrite U. cbn [andb]. rewrite A. reflexivity.
  - cbn [set_last seg_lang]. unfold set_alt. flags_in HD. rewrite HD. cbn [emptyb negb]. rewrite !andb_false_r. reflexivity.
  - cbn [set_last seg_lang]. unfold set_alt. flags_in HD. rewrite HD, (proj2 (emptyb_false _) G). cbn [emptyb negb]. rewrite !andb_false_r. cbn [andb].
    unfold alt_remove_lang. change (d :: a ++ x :: b)%list with ((d :: a) ++ x :: b)%list.
    rewrite alt_index_first by auto. rewrite firstn_app, Nat.sub_diag, firstn_all, firstn_O, List.app_nil_r.
    rewrite skipn_app, skipn_all2 by lia. replace (S (List.length (d :: a)) - List.length (d :: a)) with 1 by lia. cbn [skipn List.app].
    rewrite ArrayFacts.ensure_id; [reflexivity|]. split; [exact D|]. rewrite Forall_forall in F. exact F.
  - cbn [set_last seg_lang]. unfold set_alt. flags_in HD. rewrite HD, (proj2 (emptyb_false _) G). cbn [emptyb negb]. rewrite !andb_false_r. cbn [andb].
    unfold alt_remove_lang. cbn [alt_index]. rewrite String.eqb_refl. reflexivity.
  - cbn [set_last seg_lang]. unfold set_alt. flags_in HD. rewrite HD, (proj2 (emptyb_false _) G). cbn [emptyb negb]. rewrite !andb_false_r. cbn [andb].
    unfold alt_remove_lang. rewrite alt_index_none by auto. reflexivity.
Qed.

(* ---- slices ------------------------------------------------------------------------------------------ *)

Lemma shows_enc (t : ty) v s : shows_as t v s -> leaf_enc t v = Ok (Some s).
Proof.
  intros H. unfold leaf_enc.
  inversion H as [s1|s1|bb|bits z|bits z|c v1 s1 E1|i t1 c v1 s1 E1 E2]; subst; cbn [simple_text bind]; try reflexivity.
  - exact E1.
  - rewrite E1. exact E2.
Qed.
Lemma shows_not_ptr (t : ty) v s : shows_as t v s -> is_ptr t = false.
Proof. intros H. inversion H; reflexivity. Qed.

Lemma scan_new (te : ty) l value : Forall (fun e => exists s, shows_as te e s /\ s <> value) l -> unique_scan te l value = (l, UNew).
Proof.
  intros F. induction F as [|e l (s & S & N) F IH]; cbn [unique_scan]; [reflexivity|].
  pose proof (shows_not_ptr _ _ _ S) as P.
  assert (D : deref te e = (te, e)) by (destruct te; cbn in *; congruence || reflexivity).
  rewrite D. rewrite (shows_enc _ _ _ S). rewrite (proj2 (eqb_neq value s)) by congruence. rewrite IH.
  f_equal. f_equal. destruct te; cbn in *; congruence || reflexivity.
Qed.
Lemma scan_equal (te : ty) a e b value : Forall (fun e => exists s, shows_as te e s /\ s <> value) a -> shows_as te e value ->
  unique_scan te (a ++ e :: b)%list value = ((a ++ e :: b)%list, UEqual).
Proof.
  intros F S. induction F as [|y l (s & S1 & N) F IH]; cbn [unique_scan List.app].
  - pose proof (shows_not_ptr _ _ _ S) as P.
    assert (D : deref te e = (te, e)) by (destruct te; cbn in *; congruence || reflexivity).
    rewrite D, (shows_enc _ _ _ S), eqb_refl. f_equal. f_equal. destruct te; cbn in *; congruence || reflexivity.
  - pose proof (shows_not_ptr _ _ _ S1) as P.
    assert (D : deref te y = (te, y)) by (destruct te; cbn in *; congruence || reflexivity).
    rewrite D, (shows_enc _ _ _ S1). rewrite (proj2 (eqb_neq value s)) by congruence. rewrite IH.
    f_equal. f_equal. destruct te; cbn in *; congruence || reflexivity.
Qed.

Lemma append_zeros (te : ty) l sp x : Forall (eq (zero te)) sp -> exists sp', slice_append growth te l sp x = VArr (l ++ [x])%list sp' /\ Forall (eq (zero te)) sp'.
Proof.
  intros F. unfold slice_append. destruct sp as [|y sp].
  - eexists. split; [reflexivity|]. apply Forall_forall. intros z Hz. now apply repeat_spec in Hz.
  - exists sp. split; [reflexivity|]. now inversion F.
Qed.

(* the spare part stays zero unless the last of several elements is removed *)
Lemma edits_slice (te : ty) l sp sub value flags l' : Forall (eq (zero te)) sp -> edits te l sub value flags l' ->
  exists sp', set_slice growth te l sp (seg_idx sub) value flags = (VArr l' sp', Ok tt)
    /\ (Forall (eq (zero te)) sp' \/ value = "" /\ exists e, l = (l' ++ [e])%list).
Proof.
  intros Z H. inversion H as
    [l0 va fl x V HA NU RD|l0 va fl x V HU RD F|l0 va fl x V NA NU RC RD|a e b va fl x V RC RD|l0 k va fl x V RC RD LE|a e b fl HD|l0 fl HD]; subst;
    cbn [seg_idx]; unfold set_slice.
  - flags_in HA. flags_in NU. rewrite HA, NU, (proj2 (emptyb_false _) V). cbn [andb negb Z.eqb Pos.eqb].
    rewrite (reads_new _ _ _ RD). destruct (append_zeros te l sp x Z) as (sp' & -> & Z'). exists sp'. auto.
  - flags_in HU. rewrite HU, (proj2 (emptyb_false _) V). cbn [andb negb Z.eqb Pos.eqb].
    rewrite scan_new by auto. rewrite (reads_new _ _ _ RD).
    destruct (append_zeros te l sp x Z) as (sp' & -> & Z'). exists sp'. auto.
  - flags_in NA. flags_in NU. rewrite NA, NU, (on_rc _ RC), (proj2 (emptyb_false _) V). cbn [andb negb Z.eqb Pos.eqb].
    rewrite (reads_new _ _ _ RD). destruct (append_zeros te [] [] x (Forall_nil _)) as (sp' & -> & Z'). exists sp'. auto.
  - replace (Z.of_nat (List.length a) =? -1)%Z with false by (symmetry; apply Z.eqb_neq; lia).
    replace (Z.of_nat (List.length a) >? -1)%Z with true by (symmetry; rewrite Z.gtb_ltb; apply Z.ltb_lt; lia).
    rewrite !andb_false_r, (on_rc _ RC), (proj2 (emptyb_false _) V). cbn [andb negb]. rewrite (reads_new _ _ _ RD), Nat2Z.id.
    unfold grow_slice. replace (Nat.leb (List.length (a ++ e :: b)%list) (List.length a)) with false.
    2:{ symmetry. apply Nat.leb_gt. rewrite List.app_length. cbn [List.length]. lia. }
    rewrite set_nth_mid. exists sp. auto.
  - replace (Z.of_nat k =? -1)%Z with false by (symmetry; apply Z.eqb_neq; lia).
    replace (Z.of_nat k >? -1)%Z with true by (symmetry; rewrite Z.gtb_ltb; apply Z.ltb_lt; lia).
    rewrite !andb_false_r, (on_rc _ RC), (proj2 (emptyb_false _) V). cbn [andb negb]. rewrite (reads_new _ _ _ RD), Nat2Z.id.
    destruct (grow_zero te l sp k Z LE) as (sp' & -> & Z'). exists sp'. split; [|auto]. f_equal. f_equal.
    replace (S k - List.length l) with ((k - List.length l) + 1) by lia. rewrite repeat_app. cbn [repeat].
    rewrite List.app_assoc.
    assert (LK : List.length (l ++ repeat (zero te) (k - List.length l))%list = k) by (rewrite List.app_length, repeat_length; lia).
    rewrite <- LK at 1. rewrite set_nth_mid, <- List.app_assoc. reflexivity.
  - replace (Z.of_nat (List.length a) =? -1)%Z with false by (symmetry; apply Z.eqb_neq; lia).
    replace (Z.of_nat (List.length a) >? -1)%Z with true by (symmetry; rewrite Z.gtb_ltb; apply Z.ltb_lt; lia).
    flags_in HD. rewrite !andb_false_r, HD. cbn [andb negb emptyb]. rewrite ?andb_false_r. cbn [andb]. rewrite Nat2Z.id.
    rewrite List.app_length. cbn [List.length].
    replace (Nat.leb (List.length a + S (List.length b)) (List.length a)) with false by (symmetry; apply Nat.leb_gt; lia).
    destruct (Nat.eqb (List.length a) 0) eqn:E0.
    + apply Nat.eqb_eq in E0. destruct a; [|discriminate]. cbn [List.app tl]. exists sp. auto.
    + destruct (Nat.eqb (List.length a) (List.length a + S (List.length b) - 1)) eqn:E1.
      * apply Nat.eqb_eq in E1. destruct b; [|cbn [List.length] in E1; lia].
        rewrite firstn_app, firstn_all, Nat.sub_diag. cbn [firstn]. rewrite !List.app_nil_r.
        eexists. split; [reflexivity|]. right. split; [reflexivity|]. exists e. reflexivity.
      * rewrite firstn_app, firstn_all, Nat.sub_diag. cbn [firstn]. rewrite List.app_nil_r.
        rewrite skipn_app, skipn_all2 by lia. replace (S (List.length a) - List.length a) with 1 by lia.
        cbn [skipn List.app]. exists []. auto.
  - flags_in HD. rewrite HD. cbn [emptyb negb]. rewrite !andb_false_r. cbn [andb Z.gtb Z.compare Z.eqb Pos.eqb]. exists []. auto.
Qed.
End F.
