(* Documents whose models do not crash: GetPath, SetPath, ListPaths, Sync and Merge do not crash either *)
From Coq Require Import List Arith ZArith Bool Ascii String Lia.
From Verif Require Import GoStr GoStrFacts GoMap Names RegistryM FilterM PathM PVList SyncFlags NodeM NodeFacts DocM TPathM SpecSafePath SpecSafeDoc PropNode.
Import ListNotations.
Local Open Scope string_scope.

Section S.
Context {M : Type}.
Variable ops : model_ops M.
Variable good : M -> Prop.
Variable sortf : list path_value -> list path_value.
Hypothesis Safe : safe_models ops good.
Notation good_doc := (good_doc good).
Notation bad := deletes_language.

Let Hget := safe_get _ _ Safe.
Let Hset := safe_set _ _ Safe.
Let Hlist := safe_list _ _ Safe.
Let Hnew := safe_new _ _ Safe.
Let Hns := safe_ns _ _ Safe.
Let Hsync := safe_sync _ _ Safe.

Definition good_node (n : node M) : Prop := forall m, n_model n = Some m -> good m.

Lemma find_index_bound {A} (t : A -> bool) l i : find_index t l = Some i -> exists x, nth_error l i = Some x /\ t x = true.
Proof.
  revert i. induction l as [|a l IH]; intros i; cbn [find_index]; [discriminate|]. destruct (t a) eqn:E; [intros [= <-]; exists a; auto|].
  destruct (find_index t l) as [j|]; [|discriminate]. intros [= <-]. cbn [nth_error]. now apply IH.
Qed.
Lemma find_index_miss {A} (t : A -> bool) l : find_index t l = None -> forall x, In x l -> t x = false.
Proof.
  induction l as [|a l IH]; cbn [find_index]; [intros _ x []|]. destruct (t a) eqn:E; [discriminate|]. destruct (find_index t l); [discriminate|].
  intros _ x [<-|I]; auto.
Qed.
Lemma replace_nth_length {A} (x : A) l : forall i, List.length (replace_nth i x l) = List.length l.
Proof. induction l as [|a l IH]; intros [|i]; cbn; auto. Qed.
Lemma replace_nth_Forall {A} (P : A -> Prop) x l : Forall P l -> P x -> forall i, Forall P (replace_nth i x l).
Proof. intros F H. induction F; intros [|i]; cbn; constructor; auto. Qed.
Lemma nth_replace {A} (x : A) l : forall i y, nth_error l i = Some y -> nth_error (replace_nth i x l) i = Some x.
Proof. induction l as [|a l IH]; intros [|i] y; cbn; try discriminate; [reflexivity|apply IH]. Qed.
Lemma nth_good d i n : good_doc d -> nth_error (d_nodes d) i = Some n -> good_node n.
Proof. intros G E. apply nth_error_In in E. exact (proj1 (Forall_forall _ _) G _ E). Qed.
Lemma model_at_good d i m : good_doc d -> model_at d i = Some m -> good m.
Proof. intros G. unfold model_at. destruct (nth_error (d_nodes d) i) as [n|] eqn:E; [|discriminate]. intros Em. exact (nth_good _ _ _ G E _ Em). Qed.

Lemma set_model_model (n : node M) o : n_model (set_model n o) = o.
Proof. now destruct n. Qed.

(* references used inside SetPath *)
Definition good_mref (d : doc M) (r : mref) : Prop := forall m, mref_get d r = Some m -> good m.
Definition good_nref (d : doc M) (r : nref) : Prop := match r with NNil => False | NAt i => i < List.length (d_nodes d) | NClosed => True end.
Lemma nref_some d r : good_nref d r -> exists n, nref_get d r = Some n.
Proof.
  destruct r as [|i|]; cbn; [tauto| |eauto]. intros L. destruct (nth_error (d_nodes d) i) eqn:E; [eauto|]. apply nth_error_None in E. lia.
Qed.

Lemma node_set_model reg (n : node M) p v fl : n_model (fst (node_set_path (mo_can ops) reg n p v fl)) = n_model n.
Proof.
  unfold node_set_path. cbn [set_path_f]. destruct (pop_front p) as [seg p']. destruct (parse_segment seg) as [[name idx] lang].
  destruct (idx <? -1)%Z; [reflexivity|]. destruct (emptyb name && (idx =? -1)%Z && emptyb lang); [destruct (Nat.eqb (path_len p') 0); destruct n; reflexivity|].
  destruct (negb _ && _); [reflexivity|]. destruct (upd_first _ _ (n_nodes n)) as [[l e]|]; [destruct n; reflexivity|].
  destruct (on fl CREATE && negb (emptyb v)); [|reflexivity]. destruct (set_child _ _ _ _ _ _ _ _) as [c' e]. destruct n; reflexivity.
Qed.

Lemma put_good d r m : good_doc d -> good m -> good_doc (mref_put d r m) /\ List.length (d_nodes (mref_put d r m)) = List.length (d_nodes d).
Proof.
  intros G Gm. destruct r as [|i|m0]; cbn [mref_put]; auto. destruct (nth_error (d_nodes d) i) as [n|] eqn:E; [|auto].
  cbn [with_nodes d_nodes]. split; [|apply replace_nth_length]. unfold good_doc. cbn [with_nodes d_nodes]. apply replace_nth_Forall; [exact G|].
  intros m' Em. rewrite set_model_model in Em. injection Em as <-. exact Gm.
Qed.
Lemma ref_set_good reg d r p v fl : good_doc d -> good_nref d r -> good_doc (fst (ref_set_path ops reg d r p v fl)) /\ snd (ref_set_path ops reg d r p v fl) <> Panic.
Proof.
  intros G R. unfold ref_set_path. destruct (nref_some _ _ R) as (n & E). rewrite E.
  pose proof (proj2 (C20_no_panic (mo_can ops) reg n p v fl)) as NP. pose proof (node_set_model reg n p v fl) as NM.
  destruct (node_set_path (mo_can ops) reg n p v fl) as [n' e]. cbn [fst snd] in *. split; [|exact NP].
  destruct r as [|i|]; cbn [nref_put]; auto. unfold good_doc. cbn [with_nodes d_nodes]. apply replace_nth_Forall; [exact G|].
  intros m Em. rewrite NM in Em. exact (nth_good _ _ _ G E _ Em).
Qed.
Lemma ref_get_good d r p : good_nref d r -> ref_get_path ops d r p <> Panic.
Proof. intros R. unfold ref_get_path. destruct (nref_some _ _ R) as (n & ->). exact (proj1 (C20_no_panic (mo_can ops) empty_registry n p "" 0)). Qed.

Definition keeps (P : Prop) (x : doc M * result unit) : Prop := good_doc (fst x) /\ (snd x = Panic -> P).

Lemma rest_keeps reg d p v fl m n : good_doc d -> good_mref d m -> good_nref d n -> keeps (bad p v fl) (set_path_rest ops reg d p v fl m n).
Proof.
  intros G Gm Gn. unfold set_path_rest. pose proof (ref_get_good d n p Gn) as RG.
  set (cur := match mref_get d m with Some mv => if is_not_found (mo_get ops mv p) then ref_get_path ops d n p else mo_get ops mv p | None => ref_get_path ops d n p end).
  assert (C : cur <> Panic).
  { unfold cur. destruct (mref_get d m) as [mv|] eqn:E; [|exact RG]. destruct (is_not_found _); [exact RG|]. apply Hget, Gm, E. }
  change (keeps (bad p v fl) match cur with
    | Panic => (d, Panic) | Err e => (d, Err e)
    | Ok dest =>
      if dest =? v then (d, Ok tt)
      else if emptyb dest && negb (on fl (Z.lor (Z.lor CREATE APPEND) UNIQUE)) then (d, stop fl "create flag required")
      else if negb (emptyb dest) && negb (on fl (Z.lor (Z.lor (Z.lor REPLACE DELETE) APPEND) UNIQUE)) then (d, stop fl "update flag required")
      else let '(d', e) := match mref_get d m with
          | Some mv => let '(mv', e) := mo_set ops mv p v fl in let d' := mref_put d m mv' in
              if is_not_found e then ref_set_path ops reg d' n p v fl else (d', e)
          | None => ref_set_path ops reg d n p v fl end in
        match e with Ok _ => (set_dirty d', Ok tt) | Err s => (d', if on fl NOFAIL then Ok tt else Err s) | Panic => (d', Panic) end
    end).
  destruct cur as [dest|e|]; [|split; [exact G|discriminate]|congruence].
  destruct (dest =? v); [split; [exact G|discriminate]|].
  assert (ST : forall msg, keeps (bad p v fl) (d, stop fl msg)) by (intros msg; split; [exact G|]; unfold stop; cbn [snd]; destruct (on fl NOFAIL); discriminate).
  destruct (emptyb dest && _); [apply ST|]. destruct (negb (emptyb dest) && _); [apply ST|].
  set (z := match mref_get d m with Some mv => _ | None => _ end).
  assert (K : keeps (bad p v fl) z).
  { unfold z. destruct (mref_get d m) as [mv|] eqn:E.
    - destruct (Hset mv p v fl (Gm _ E)) as [S1 S2]. destruct (mo_set ops mv p v fl) as [mv' e]. cbn [fst snd] in *.
      destruct (put_good d m mv' G S1) as [P1 P2]. cbv zeta. destruct (is_not_found e).
      + destruct (ref_set_good reg (mref_put d m mv') n p v fl P1) as [R1 R2]; [destruct n; cbn in *; auto; now rewrite P2|].
        split; [exact R1|]. intros Q. contradiction.
      + split; auto.
    - destruct (ref_set_good reg d n p v fl G Gn) as [R1 R2]. split; [exact R1|]. intros Q. contradiction. }
  clearbody z. destruct z as [d' e]. destruct K as [K1 K2]. cbn [fst snd] in *. destruct e as [u|s|]; split; cbn [fst snd]; auto; try discriminate.
  destruct (on fl NOFAIL); discriminate.
Qed.

Lemma remove_nth_Forall {A} (P : A -> Prop) l : Forall P l -> forall i, Forall P (remove_nth i l).
Proof.
  intros F i. unfold remove_nth. apply Forall_app. split; apply Forall_forall; intros x I; apply (proj1 (Forall_forall _ _) F).
  - rewrite <- (firstn_skipn i l). apply in_or_app. now left.
  - rewrite <- (firstn_skipn (S i) l). apply in_or_app. now right.
Qed.
Lemma remove_nth_length {A} (l : list A) i : i < List.length l -> List.length (remove_nth i l) = List.length l - 1.
Proof. intros L. unfold remove_nth. rewrite app_length, firstn_length, skipn_length. lia. Qed.

Lemma with_keeps reg d ns p v fl m n : good_doc d -> good_mref d m -> good_nref d n -> keeps (bad p v fl) (set_path_with ops reg d ns p v fl m n).
Proof.
  intros G Gm Gn. unfold set_path_with.
  destruct (emptyb v && negb (on fl DELETE)). { split; [exact G|]. unfold stop. cbn [snd]. destruct (on fl NOFAIL); discriminate. }
  destruct (Nat.eqb (path_len p) 0 && on fl DELETE); [|now apply rest_keeps].
  unfold remove_namespace_i. destruct (find_index _ (d_nodes d)) as [k|] eqn:F; [|now apply rest_keeps].
  destruct (find_index_bound _ _ _ F) as (x & Ex & _). assert (Lk : k < List.length (d_nodes d)) by (apply nth_error_Some; congruence).
  match goal with |- keeps _ (set_path_rest _ _ ?dd _ _ _ _ _) => set (d' := dd) end.
  assert (N' : d_nodes d' = remove_nth k (d_nodes d)) by reflexivity.
  assert (G' : good_doc d') by (unfold good_doc; rewrite N'; now apply remove_nth_Forall).
  apply rest_keeps; [exact G'| |].
  - destruct m as [|i|m0]; cbn [mref_remove]; [intros m; discriminate| |exact Gm].
    destruct (Nat.eqb i k).
    + destruct (model_at d i) as [m|] eqn:E; [|intros m; discriminate]. intros m' [= <-]. exact (model_at_good _ _ _ G E).
    + intros m E. eapply model_at_good; [exact G'|exact E].
  - destruct n as [|i|]; cbn [nref_remove good_nref] in *; auto. destruct (Nat.eqb_spec i k); cbn [good_nref]; [exact I|].
    rewrite N', remove_nth_length by exact Lk. unfold shift. destruct (Nat.ltb_spec k i); lia.
Qed.

Lemma nl_add_good (l : list (node M)) n : Forall good_node l -> n_model n = None -> Forall good_node (nl_add l n).
Proof.
  intros F N. assert (Gn : good_node n) by (intros m; rewrite N; discriminate).
  induction F as [|a l Ha F IH]; cbn [nl_add]; [repeat constructor; auto|].
  match goal with |- context [if ?b then _ else _] => destruct b end; constructor; auto.
Qed.

Lemma nl_add_in (l : list (node M)) n : In n (nl_add l n).
Proof. induction l as [|a l IH]; cbn [nl_add]; [now left|]. destruct (_ =? _); [now left|now right]. Qed.

Lemma add_good d m : good_doc d -> good m -> exists d' i, add_model ops d m = (d', Ok i) /\ good_doc d' /\ model_at d' i = Some m.
Proof.
  intros G Gm. unfold add_model. destruct (mo_namespaces ops m) as [|ns0 rest] eqn:EN; [exfalso; exact (Hns m Gm EN)|].
  match goal with |- context [doc_find_node ops ?dd ns0] => set (d1 := dd) end. assert (N1 : d_nodes d1 = d_nodes d) by reflexivity.
  assert (GM : forall n, good_node (set_model n (Some m))) by (intros n m' Em; rewrite set_model_model in Em; injection Em as <-; exact Gm).
  destruct (doc_find_node ops d1 ns0) as [i|] eqn:FN.
  - destruct (find_index_bound _ _ _ FN) as (x & Ex & _). rewrite Ex. eexists _, i. split; [reflexivity|]. split.
    + exact (replace_nth_Forall good_node _ _ G (GM x) i).
    + unfold model_at. change (match nth_error (replace_nth i (set_model x (Some m)) (d_nodes d1)) i with Some n => n_model n | None => None end = Some m).
      rewrite (nth_replace _ _ _ x Ex). apply set_model_model.
  - eexists _, _. split; [reflexivity|]. split.
    + change (Forall good_node (d_nodes d1 ++ [set_model (new_node (ns_xml_name ns0 "")) (Some m)])%list). apply Forall_app. split; [exact G|]. constructor; [apply GM|constructor].
    + unfold model_at. change (match nth_error (d_nodes d1 ++ [set_model (new_node (ns_xml_name ns0 "")) (Some m)])%list (List.length (d_nodes d1)) with Some n => n_model n | None => None end = Some m).
      rewrite nth_error_app2, Nat.sub_diag by lia. apply set_model_model.
Qed.
Lemma make_good d ns : good_doc d -> good_doc (fst (make_model ops d ns)) /\ snd (make_model ops d ns) <> Panic.
Proof.
  intros G. unfold make_model. destruct (doc_find_model ops d ns); [split; [exact G|discriminate]|]. destruct (new_model ops ns) as [m|] eqn:NM; [|split; [exact G|discriminate]].
  assert (Gm : good m). { unfold new_model in NM. destruct (ns_factory ns); [|discriminate]. eapply Hnew; eauto. }
  split; [|discriminate]. change (Forall good_node (d_nodes d ++ [set_model (new_node (ns_xml_name ns "")) (Some m)])%list). apply Forall_app. split; [exact G|].
  constructor; [|constructor]. intros m' Em. rewrite set_model_model in Em. injection Em as <-. exact Gm.
Qed.

Lemma ns_keeps reg d ns p v fl : good_doc d -> keeps (bad p v fl) (set_path_ns ops reg d ns p v fl).
Proof.
  intros G. unfold set_path_ns. destruct (doc_find_model ops d ns) as [i|] eqn:FM.
  - apply with_keeps; [exact G|intros m E; eapply model_at_good; eauto|].
    destruct (find_index_bound _ _ _ FM) as (x & Ex & Tx). unfold doc_find_node. destruct (find_index (matches (mo_can ops) (ns_name ns)) (d_nodes d)) as [j|] eqn:FN.
    + destruct (find_index_bound _ _ _ FN) as (y & Ey & _). cbn [good_nref]. apply nth_error_Some. congruence.
    + exfalso. apply nth_error_In in Ex. pose proof (find_index_miss _ _ FN x Ex) as Q. unfold matches in Q. unfold model_can in Tx. rewrite Tx, orb_true_r in Q. discriminate.
  - destruct (match doc_find_node ops d ns with None => true | Some _ => false end && _).
    { split; [exact G|]. unfold stop. cbn [snd]. destruct (on fl NOFAIL); discriminate. }
    destruct (new_model ops ns) as [m|] eqn:NM.
    + assert (Gm : good m). { unfold new_model in NM. destruct (ns_factory ns); [|discriminate]. eapply Hnew; eauto. }
      destruct (add_good d m G Gm) as (d2 & i & E & G2 & L). rewrite E.
      apply with_keeps; [exact G2|intros m' E'; eapply model_at_good; [exact G2|exact E']|].
      cbn [good_nref]. unfold model_at in L. apply nth_error_Some. destruct (nth_error (d_nodes d2) i); congruence.
    + destruct (doc_find_node ops d ns) as [j|] eqn:FN.
      * apply with_keeps; [exact G|intros m E; discriminate|]. destruct (find_index_bound _ _ _ FN) as (y & Ey & _). cbn [good_nref]. apply nth_error_Some. congruence.
      * match goal with |- context [with_nodes d ?l] => set (l' := l) end. assert (G' : Forall good_node l') by (apply nl_add_good; [exact G|reflexivity]).
        cbv zeta. cbn [with_nodes d_nodes]. destruct (find_index _ l') as [j|] eqn:F.
        -- apply with_keeps; [exact G'|intros m E; discriminate|]. destruct (find_index_bound _ _ _ F) as (y & Ey & _). cbn [good_nref with_nodes d_nodes]. apply nth_error_Some. congruence.
        -- exfalso. pose proof (nl_add_in (d_nodes d) (new_node (ns_root_name ns))) as I. pose proof (find_index_miss _ _ F _ I) as Q. cbn in Q. now rewrite String.eqb_refl in Q.
Qed.

Lemma get_safe reg d p : good_doc d -> doc_get_path ops reg d p <> Panic.
Proof.
  intros G. unfold doc_get_path. destruct (negb (is_xmp_path p)); [discriminate|]. destruct (path_namespace reg d p) as [ns|]; [|discriminate].
  destruct (find_node (mo_can ops) (d_nodes d) (ns_name ns)) as [n|] eqn:F; [|discriminate].
  assert (I : In n (d_nodes d)) by (unfold find_node in F; now apply find_some in F).
  assert (Gn : good_node n) by exact (proj1 (Forall_forall _ _) G _ I).
  pose proof (proj1 (C20_no_panic (mo_can ops) empty_registry n p "" 0)) as NP. cbv zeta.
  assert (R : match node_get_path (mo_can ops) n p with Err _ => Err "path error" | r => r end <> Panic) by (destruct (node_get_path (mo_can ops) n p); congruence).
  destruct (n_model n) as [m|] eqn:Em; [|exact R]. pose proof (Hget m p (Gn _ Em)) as Q. destruct (mo_get ops m p) as [x|x|]; [discriminate| |congruence]. destruct (_ =? _); [exact R|discriminate].
Qed.

Lemma set_safe reg d desc : good_doc d ->
  good_doc (snd (fst (doc_set_path ops reg d desc))) /\ (snd (doc_set_path ops reg d desc) = Panic -> bad (pv_path desc) (pv_value desc) (pv_flags desc)).
Proof.
  intros G. unfold doc_set_path. set (fl := if (pv_flags desc =? 0)%Z then DEFAULT else pv_flags desc).
  assert (B : bad (pv_path desc) (pv_value desc) fl -> bad (pv_path desc) (pv_value desc) (pv_flags desc)).
  { intros (A & D & L). split; [exact A|]. split; [|exact L]. unfold fl in D. destruct (Z.eqb_spec (pv_flags desc) 0); [now left|exact D]. }
  clearbody fl. destruct (negb (is_xmp_path (pv_path desc))); [split; [exact G|discriminate]|].
  destruct (path_namespace reg d (pv_path desc)) as [ns|].
  - destruct (ns_keeps reg d ns (pv_path desc) (pv_value desc) fl G) as [A C]. destruct (set_path_ns _ _ _ _ _ _ _) as [d' e]. split; [exact A|auto].
  - destruct (emptyb (pv_ns desc)); [split; [exact G|discriminate]|].
    match goal with |- context [set_path_ns ops ?r d ?ns _ _ _] => destruct (ns_keeps r d ns (pv_path desc) (pv_value desc) fl G) as [A C] end.
    destruct (set_path_ns _ _ _ _ _ _ _) as [d' e]. split; [exact A|auto].
Qed.

Lemma sync_loop_safe k : forall i d, good_doc d -> good_doc (fst (sync_to_loop ops k i d)) /\ snd (sync_to_loop ops k i d) <> Panic.
Proof.
  induction k as [|k IH]; intros i d G; cbn [sync_to_loop]; [split; [exact G|discriminate]|]. destruct (model_at d i) as [m|] eqn:E; [|now apply IH].
  destruct (Hsync m i d (model_at_good _ _ _ G E) G) as [A B]. destruct (mo_sync_to ops m i d) as [d' [u|e|]]; cbn [fst snd] in *; [now apply IH|split; [exact A|discriminate]|congruence].
Qed.
Lemma list_nodes_safe reg l : Forall good_node l -> list_nodes ops sortf reg l <> Panic.
Proof.
  induction 1 as [|n l Gn F IH]; cbn [list_nodes]; [discriminate|]. cbv zeta. destruct (n_model n) as [m|] eqn:E.
  - pose proof (Hlist m (Gn _ E)) as Q. destruct (mo_list ops m); [|discriminate|congruence]. destruct (list_nodes ops sortf reg l); congruence.
  - destruct (list_nodes ops sortf reg l); congruence.
Qed.
Lemma list_safe reg d : good_doc d -> good_doc (fst (doc_list_paths ops sortf reg d)) /\ snd (doc_list_paths ops sortf reg d) <> Panic.
Proof.
  intros G. unfold doc_list_paths. assert (S : good_doc (fst (sync_to_xmp ops d)) /\ snd (sync_to_xmp ops d) <> Panic).
  { unfold sync_to_xmp. destruct (negb (d_dirty d)); [split; [exact G|discriminate]|].
    destruct (sync_loop_safe (List.length (d_nodes d)) 0 d G) as [A B]. destruct (sync_to_loop ops _ 0 d) as [d' [u|e|]]; split; cbn [fst snd] in *; auto; discriminate. }
  destruct (sync_to_xmp ops d) as [d' [u|e|]]; destruct S as [A B]; cbn [fst snd] in *; [|split; [exact A|discriminate]|congruence].
  split; [exact A|]. pose proof (list_nodes_safe reg (d_nodes d') A). destruct (list_nodes ops sortf reg (d_nodes d')); congruence.
Qed.

Lemma merge_loop_safe l fl : forall reg d, good_doc d ->
  good_doc (snd (fst (merge_loop ops reg d l fl))) /\ (snd (merge_loop ops reg d l fl) = Panic -> exists v, In v l /\ bad (pv_path v) (pv_value v) fl).
Proof.
  induction l as [|v l IH]; intros reg d G; cbn [merge_loop]; [split; [exact G|discriminate]|].
  destruct (set_safe reg d (PathValue (pv_path v) (pv_ns v) (pv_value v) fl) G) as [A B].
  destruct (doc_set_path ops reg d _) as [[reg' d'] [u|e|]]; cbn [fst snd pv_path pv_value pv_flags] in *.
  - destruct (IH reg' d' A) as [C D]. split; [exact C|]. intros Q. destruct (D Q) as (w & I & W). exists w. split; [now right|exact W].
  - split; [exact A|discriminate].
  - split; [exact A|]. intros _. exists v. split; [now left|auto].
Qed.

Lemma remove_safe d ns : good_doc d -> good_doc (fst (remove_namespace d ns)).
Proof.
  intros G. unfold remove_namespace, remove_namespace_i. destruct (find_index _ (d_nodes d)) as [k|]; cbn [fst]; [|exact G].
  exact (remove_nth_Forall good_node _ G k).
Qed.
Lemma filter_safe reg f d : good_doc d -> good_doc (fst (filter_apply reg f d)).
Proof.
  assert (R : forall l b d, good_doc d -> good_doc (fst (fold_left (fun '(d, b) ns => let '(d', r) := remove_namespace d ns in (d', b || r)) l (d, b)))).
  { induction l as [|ns l IH]; intros b e G; cbn [fold_left]; [exact G|]. pose proof (remove_safe e ns G) as K. destruct (remove_namespace e ns) as [e' r]. now apply IH. }
  assert (K : forall keep l b d, good_doc d -> good_doc (fst (fold_left (fun '(d, b) ns => if nsl_contains keep (Some ns) then (d, b) else let '(d', r) := remove_namespace d ns in (d', b || r)) l (d, b)))).
  { intros keep. induction l as [|ns l IH]; intros b e G; cbn [fold_left]; [exact G|]. destruct (nsl_contains keep (Some ns)); [now apply IH|].
    pose proof (remove_safe e ns G) as H. destruct (remove_namespace e ns) as [e' r]. now apply IH. }
  intros G. unfold filter_apply.
  assert (G1 : good_doc (fst (match f_include f with [] => (d, false) | l => filter_namespaces reg d l end))).
  { destruct (f_include f) as [|a l]; [exact G|]. unfold filter_namespaces. now apply K. }
  destruct (match f_include f with [] => (d, false) | l => filter_namespaces reg d l end) as [d1 r1]. cbn [fst] in G1.
  assert (G2 : good_doc (fst (match f_exclude f with [] => (d1, false) | l => remove_namespaces d1 l end))).
  { destruct (f_exclude f) as [|a l]; [exact G1|]. unfold remove_namespaces. now apply R. }
  destruct (match f_exclude f with [] => (d1, false) | l => remove_namespaces d1 l end) as [d2 r2]. exact G2.
Qed.

Lemma copy_safe d sp dp fl sm dr conv m m' : good_doc d -> sm = Some m -> good m -> mref_get d dr = Some m' -> good m' ->
  good_doc (fst (sync_copy ops d sp dp fl sm dr conv)) /\ (snd (sync_copy ops d sp dp fl sm dr conv) = Panic -> exists v, bad dp v fl).
Proof.
  intros G -> Gm E Gm'. unfold sync_copy. rewrite E. cbn [DocM.get_model_path DocM.set_model_path]. pose proof (Hget m sp Gm) as Q1. pose proof (Hget m' dp Gm') as Q2.
  assert (NF : forall e, nofail fl (forget (Err e : result string)) <> Panic) by (intros e; cbn; destruct (on fl NOFAIL); discriminate).
  destruct (mo_get ops m sp) as [sv|e|]; [|split; [exact G|intros Q; destruct (NF _ Q)]|congruence].
  destruct (mo_get ops m' dp) as [dv|e|]; [|split; [exact G|intros Q; destruct (NF _ Q)]|congruence].
  destruct (sv =? dv); [split; [exact G|discriminate]|]. destruct (emptyb sv && _); [split; [exact G|discriminate]|].
  destruct (emptyb dv && _); [split; [exact G|discriminate]|]. destruct (negb (emptyb dv) && _); [split; [exact G|discriminate]|]. cbv zeta.
  set (v := match conv with Some f => f sv | None => sv end). destruct (Hset m' dp v fl Gm') as [A B]. destruct (mo_set ops m' dp v fl) as [w e]. cbn [fst snd] in *.
  destruct (put_good d dr w G A) as [P _]. destruct e as [u|e|]; split; cbn [fst snd]; auto; try discriminate; [|eauto].
  cbn. destruct (on fl NOFAIL); discriminate.
Qed.

Lemma sync_safe reg d sp dp fl v conv : good_doc d ->
  good_doc (fst (doc_sync ops reg d sp dp fl v conv)) /\ (snd (doc_sync ops reg d sp dp fl v conv) = Panic -> crash_reason ops sortf reg d (DSync sp dp fl v conv)).
Proof.
  intros G. unfold doc_sync. set (fl' := if (fl =? 0)%Z then DEFAULT else fl).
  assert (B : (exists x, bad dp x fl') -> exists x, bad dp x fl).
  { intros (x & A & D & L). exists x. split; [exact A|]. split; [|exact L]. unfold fl' in D. destruct (Z.eqb_spec fl 0); [now left|exact D]. }
  assert (CR : on fl' CREATE = true -> fl = 0%Z \/ on fl CREATE = true) by (unfold fl'; destruct (Z.eqb_spec fl 0); auto).
  clearbody fl'. destruct (negb (is_xmp_path sp) || _); [split; [exact G|discriminate]|].
  destruct (path_namespace reg d sp) as [sns|]; [|split; [exact G|discriminate]]. destruct (path_namespace reg d dp) as [dns|] eqn:ED; [|split; [exact G|discriminate]].
  destruct (doc_find_model ops d sns) as [si|] eqn:FS; [|split; [exact G|discriminate]].
  assert (SM : exists m, model_at d si = Some m /\ good m).
  { destruct (find_index_bound _ _ _ FS) as (x & Ex & Tx). unfold model_at. rewrite Ex. unfold model_can in Tx. destruct (n_model x) as [m|] eqn:Em; [|discriminate].
    exists m. split; [reflexivity|]. exact (nth_good _ _ _ G Ex _ Em). }
  destruct SM as (m & SM & Gm). cbn [crash_reason].
  assert (CP : forall d' dr m', good_doc d' -> mref_get d' dr = Some m' -> good m' ->
    good_doc (fst (sync_copy ops d' sp dp fl' (model_at d si) dr conv)) /\ (snd (sync_copy ops d' sp dp fl' (model_at d si) dr conv) = Panic -> exists x, bad dp x fl)).
  { intros d' dr m' G' E' Gm'. destruct (copy_safe d' sp dp fl' (model_at d si) dr conv m m' G' SM Gm E' Gm') as [P Q]. split; auto. }
  assert (NOP : forall P : Prop, good_doc (fst (d, Ok tt : result unit)) /\ (snd (d, Ok tt : result unit) = Panic -> P)) by (intros P; split; [exact G|discriminate]).
  unfold sync_dest. destruct v as [i|].
  - destruct (model_at d i) as [mi|] eqn:Ei; cbn [option_map].
    + pose proof (model_at_good _ _ _ G Ei) as Gi. pose proof (Hns mi Gi) as N. destruct (mo_namespaces ops mi) as [|ns0 r]; [congruence|].
      destruct (namespace_prefix dp =? ns_name ns0); [|apply NOP].
      destruct (CP d (MAt i) mi G Ei Gi) as [P Q]. split; [exact P|]. intros X. left. auto.
    + split; [exact G|]. intros _. right. right. eauto.
  - destruct (doc_find_model ops d dns) as [i|] eqn:FD.
    + destruct (find_index_bound _ _ _ FD) as (x & Ex & Tx). unfold model_can in Tx. destruct (n_model x) as [mi|] eqn:Em; [|discriminate].
      assert (Ei : model_at d i = Some mi) by (unfold model_at; rewrite Ex; exact Em).
      destruct (CP d (MAt i) mi G Ei (model_at_good _ _ _ G Ei)) as [P Q]. split; [exact P|]. intros X. left. auto.
    + destruct (on fl' CREATE); cbn [negb]; [|apply NOP]. destruct (new_model ops dns) as [mn|] eqn:NM.
      * assert (Gn : good mn). { unfold new_model in NM. destruct (ns_factory dns); [|discriminate]. eapply Hnew; eauto. }
        destruct (add_good d mn G Gn) as (d2 & i & E & G2 & Ei). rewrite E.
        destruct (CP d2 (MAt i) mn G2 Ei Gn) as [P Q]. split; [exact P|]. intros X. left. auto.
      * split; [|intros _; right; left; exists dns; split; [reflexivity|]; split; [exact ED|]; split; [exact FD|]; split; [exact NM|]; exact (CR eq_refl)]. unfold sync_copy. cbn [mref_get]. destruct (DocM.get_model_path ops (model_at d si) sp); try exact G.
        destruct (DocM.get_model_path ops None dp); try exact G. cbn [DocM.set_model_path].
        repeat match goal with |- context [if ?b then (d, _) else _] => destruct b; [exact G|] end. destruct (if emptyb (fst (pop_front dp)) then _ else _); exact G.
Qed.
End S.
