(* Frame, success and absence of panics for raw nodes; unique children; empty trees *)
From Coq Require Import List Arith ZArith Bool Ascii String Lia.
From Verif Require Import GoStr GoStrFacts Names PathM SyncFlags PVList RegistryM NodeM Spec SpecFacts SpecBasic PathFacts SpecNode NodeFacts NodePathFacts.
Local Open Scope string_scope.

Section Ops.
Context {M : Type}.
Variable can : M -> string -> bool.
Variable reg : registry.
Notation matches := (matches can).
Notation read := (read can).
Notation write := (write can reg).
Notation set_path_f := (set_path_f can reg).

(* ---- success ---- *)
Lemma upd_nth_ok i : forall f (l : list (node M)), i < List.length l -> (forall c, snd (f c) = Ok tt) -> snd (upd_nth i f l) = Ok tt.
Proof.
  induction i as [|i IH]; intros f [|v r] Hl Hf; cbn in *; try lia.
  - specialize (Hf v). destruct (f v). exact Hf.
  - specialize (IH f r). destruct (upd_nth i f r). cbn in *. apply IH; auto. lia.
Qed.

Lemma upd_nth_no_panic i : forall f (l : list (node M)), i < List.length l -> (forall c, snd (f c) <> Panic) -> snd (upd_nth i f l) <> Panic.
Proof.
  induction i as [|i IH]; intros f [|v r] Hl Hf; cbn in *; try lia.
  - specialize (Hf v). destruct (f v). exact Hf.
  - specialize (IH f r). destruct (upd_nth i f r). cbn in *. apply IH; auto. lia.
Qed.

Lemma grow_length i (l : list (node M)) : i < List.length (grow i l).
Proof. unfold grow. rewrite app_length, repeat_length. lia. Qed.

Lemma upd_first_snd t f (l : list (node M)) l' e : upd_first t f l = Some (l', e) -> exists c, In c l /\ e = snd (f c).
Proof.
  revert l' e. induction l as [|v r IH]; cbn; intros l' e H; [discriminate|].
  destruct (t v).
  - destruct (f v) as [o e'] eqn:E. inversion H; subst. exists v. rewrite E. auto.
  - destruct (upd_first t f r) as [[r' e']|]; [|discriminate]. inversion H; subst.
    destruct (IH r' e eq_refl) as (c & Hc & He). exists c. auto.
Qed.

Lemma set_array_snd rec (c : node M) p' idx value flags (P : result unit -> Prop) :
  (forall arr : node M, P (snd (if Nat.ltb 0 (path_len p') then
      let i := Z.to_nat (if (idx <? 0)%Z then 0%Z else idx) in
      if Nat.leb (List.length (n_nodes arr)) i && negb (on flags (Z.lor CREATE APPEND)) && negb (emptyb value)
      then (Some arr, Err "CREATE flag required to extend array")
      else let '(l, e) := upd_nth i (fun li => rec li p') (grow i (n_nodes arr)) in
           (Some (set_nodes arr l), e)
    else set_array_end arr idx value flags))) ->
  (on flags CREATE = false -> P (Err "CREATE flag required to make array")) ->
  P (snd (set_array can rec c p' idx value flags)).
Proof.
  intros Ha Hc. unfold set_array. cbv beta zeta in *.
  destruct (upd_first (matches "Seq") _ _) as [[l e]|] eqn:E.
  { cbn [snd]. apply upd_first_snd in E as (arr & _ & ->). apply Ha. }
  clear E. destruct (upd_first (matches "Bag") _ _) as [[l e]|] eqn:E.
  { cbn [snd]. apply upd_first_snd in E as (arr & _ & ->). apply Ha. }
  destruct (on flags CREATE); cbn [negb]; [|now apply Hc].
  specialize (Ha (new_node (new_name "rdf:Seq"))).
  match goal with |- context [match ?x with (_, _) => _ end] => destruct x as [[a|] e] end; exact Ha.
Qed.

Lemma set_alt_snd (c : node M) lang value flags (P : result unit -> Prop) :
  (forall arr : node M, P (snd (set_alt_end arr lang value flags))) ->
  (on flags (Z.lor CREATE APPEND) = false -> P (Err "CREATE flag required to extend array")) ->
  P (snd (set_alt can c lang value flags)).
Proof.
  intros Ha Hc. unfold set_alt.
  destruct (upd_first (matches "Alt") _ _) as [[l e]|] eqn:E.
  { cbn [snd]. apply upd_first_snd in E as (arr & _ & ->). apply Ha. }
  destruct (on flags (Z.lor CREATE APPEND)); cbn [negb]; [|now apply Hc].
  specialize (Ha (new_node (new_name "rdf:Alt"))). destruct (set_alt_end _ _ _ _) as [[a|] e]; exact Ha.
Qed.

Lemma set_array_end_ok (arr : node M) idx value flags : value <> "" -> (-1 <= idx)%Z ->
  on flags (Z.lor REPLACE CREATE) = true -> snd (set_array_end arr idx value flags) = Ok tt.
Proof.
  intros Hv Hi Hf. unfold set_array_end. rewrite (proj2 (emptyb_false _) Hv), Hf. cbn [negb andb]. rewrite !andb_true_r.
  destruct (idx =? -1)%Z eqn:E.
  - rewrite !andb_true_r. destruct (on flags UNIQUE). { destruct (existsb _ _); reflexivity. }
    destruct (on flags APPEND); reflexivity.
  - rewrite !andb_false_r. apply Z.eqb_neq in E. replace (-1 <? idx)%Z with true by (symmetry; apply Z.ltb_lt; lia).
    assert (H := upd_nth_ok (Z.to_nat idx) (fun v => (set_value v value, Ok tt)) (grow (Z.to_nat idx) (n_nodes arr)) (grow_length _ _) (fun _ => eq_refl)).
    destruct (upd_nth _ _ _). exact H.
Qed.

Lemma set_alt_end_succeeds (arr : node M) lang value flags : value <> "" ->
  on flags (Z.lor REPLACE CREATE) = true -> snd (set_alt_end arr lang value flags) = Ok tt.
Proof.
  intros Hv Hf. unfold set_alt_end. rewrite (proj2 (emptyb_false _) Hv), Hf. cbn [negb andb]. rewrite !andb_true_r.
  destruct (on flags UNIQUE). { destruct (existsb _ _); reflexivity. }
  destruct (on flags APPEND); [reflexivity|].
  destruct (upd_first _ _ _) as [[l e]|] eqn:E; [|reflexivity].
  apply upd_first_snd in E as (c & _ & ->). reflexivity.
Qed.

Lemma on_create flags : on flags CREATE = true -> on flags (Z.lor REPLACE CREATE) = true /\ on flags (Z.lor CREATE APPEND) = true.
Proof.
  unfold on. intros H. apply Z.ltb_lt in H.
  assert (T : Z.testbit flags 0 = true).
  { change CREATE with (Z.ones 1) in H. rewrite Z.land_ones in H by lia. rewrite Z.bit0_odd.
    rewrite Zmod_odd in H. destruct (Z.odd flags); auto. lia. }
  assert (G : forall m, (0 <= m)%Z -> Z.testbit m 0 = true -> (0 <? Z.land flags m)%Z = true).
  { intros m Hm Hb. apply Z.ltb_lt. assert (0 <= Z.land flags m)%Z by (apply Z.land_nonneg; auto).
    destruct (Z.eq_dec (Z.land flags m) 0) as [E|]; [|lia].
    assert (B : Z.testbit (Z.land flags m) 0 = true) by now rewrite Z.land_spec, T, Hb.
    rewrite E in B. discriminate. }
  split; apply G; cbn; auto; lia.
Qed.

Lemma sel_idx_ge s : (-1 <= sel_idx s)%Z.
Proof. destruct s; cbn; lia. Qed.

Theorem write_succeeds l : forall ns value flags (n : node M), no_char ":" ns -> Forall pseg_ok l -> value <> "" -> on flags CREATE = true ->
  snd (write ns l value flags n) = Ok tt.
Proof.
  induction l as [|s rest IH]; intros ns value flags n Hns Hok Hv Hc; [reflexivity|].
  inversion Hok as [|? ? H1 H2]; subst. destruct (on_create flags Hc) as [Hrc Hca].
  pose proof (next_ns_ok ns s Hns H1) as Hn'.
  assert (Hch : forall c, snd (set_child can reg (fun li _ => write (next_ns ns s) rest value flags li) c
     (render (next_ns ns s) rest) (sel_idx (ps_sel s)) (sel_lang (ps_sel s)) value flags) = Ok tt).
  { intros c. unfold set_child. destruct (_ || _).
    - apply (set_array_snd _ c _ _ value flags (fun r => r = Ok tt)).
      + intros arr. destruct (Nat.ltb _ _).
        * cbv zeta. rewrite Hca. cbn [negb]. rewrite andb_false_r. cbn [andb].
          match goal with |- snd (let '(l, e) := upd_nth ?i ?f ?l in _) = _ =>
            assert (U := upd_nth_ok i f l (grow_length _ _) (fun c => IH _ value flags c Hn' H2 Hv Hc)); destruct (upd_nth i f l) end.
          exact U.
        * apply set_array_end_ok; auto. apply sel_idx_ge.
      + congruence.
    - destruct (negb _).
      + apply (set_alt_snd c _ value flags (fun r => r = Ok tt)); [intros; now apply set_alt_end_succeeds|congruence].
      + unfold set_simple. destruct (Nat.ltb _ _); [apply IH; auto|]. rewrite Hrc, (proj2 (emptyb_false _) Hv). reflexivity. }
  cbn [NodeFacts.write]. destruct (_ && _); [reflexivity|].
  destruct (upd_first _ _ _) as [[l' e]|] eqn:E.
  - apply upd_first_snd in E as (c & _ & ->). specialize (Hch c). destruct (set_child _ _ _ c _ _ _ _ _). exact Hch.
  - rewrite Hc, (proj2 (emptyb_false _) Hv). cbn [andb negb].
    match goal with |- context [set_child _ _ _ ?c] => specialize (Hch c); destruct (set_child can reg (fun li _ => write (next_ns ns s) rest value flags li) c _ _ _ value flags) end.
    exact Hch.
Qed.

(* ---- no panics ---- *)
Lemma set_path_no_panic fuel : forall n p value flags, path_len p < fuel -> snd (set_path_f fuel n p value flags) <> Panic.
Proof.
  induction fuel as [|f IH]; intros n p value flags Hl; [lia|].
  cbn [NodeM.set_path_f]. destruct (pop_front p) as [seg p'] eqn:Ep.
  destruct (parse_segment seg) as [[name idx] lang] eqn:Eseg.
  destruct (Z.ltb idx (-1)) eqn:Ei; [discriminate|]. apply Z.ltb_ge in Ei.
  destruct (emptyb name && (idx =? -1)%Z && emptyb lang) eqn:Een; [discriminate|].
  match goal with |- context [if ?b then (n, Ok tt) else _] => destruct b end; [discriminate|].
  assert (Hd : path_len p' < f).
  { destruct (Nat.eq_dec (path_len p) 0) as [Hz|Hz].
    - exfalso. rewrite pop_front_empty in Ep by auto. injection Ep as <- <-. vm_compute in Eseg. injection Eseg as <- <- <-. vm_compute in Een. discriminate Een.
    - replace p' with (snd (pop_front p)) by now rewrite Ep. pose proof (pop_front_decreases p). lia. }
  assert (Hch : forall c, snd (set_child can reg (fun li q => set_path_f f li q value flags) c p' idx lang value flags) <> Panic).
  { intros c. unfold set_child. destruct (_ || _).
    - apply (set_array_snd _ c _ _ value flags (fun r => r <> Panic)); [|discriminate].
      intros arr. destruct (Nat.ltb _ _).
      + cbv zeta.
        match goal with |- context [if ?b then (Some arr, Err _) else _] => destruct b end; [discriminate|].
        match goal with |- context [upd_nth ?i ?g ?k] =>
          pose proof (upd_nth_no_panic i g k (grow_length _ _) (fun c => IH c p' value flags Hd)) as U; destruct (upd_nth i g k) end.
        exact U.
      + unfold set_array_end. cbv zeta.
        repeat match goal with |- context [if ?b then _ else _] => destruct b end; try discriminate.
        assert (H := upd_nth_ok (Z.to_nat idx) (fun v => (set_value v value, Ok tt)) (grow (Z.to_nat idx) (n_nodes arr)) (grow_length _ _) (fun _ => eq_refl)).
        destruct (upd_nth _ _ _). cbn in *. rewrite H. discriminate.
    - destruct (negb _).
      + apply (set_alt_snd c _ value flags (fun r => r <> Panic)); [|discriminate]. intros arr.
        unfold set_alt_end. cbv zeta.
        repeat match goal with |- context [if ?b then _ else _] => destruct b end; try discriminate;
        (match goal with |- context [upd_first ?t ?g ?l] => destruct (upd_first t g l) as [[? ?]|] eqn:E end; [|discriminate];
         apply upd_first_snd in E as (x & _ & ->); discriminate).
      + unfold set_simple. destruct (Nat.ltb _ _); [now apply IH|].
        repeat match goal with |- context [if ?b then _ else _] => destruct b end; discriminate. }
  destruct (upd_first _ _ _) as [[l' e]|] eqn:E.
  - apply upd_first_snd in E as (c & _ & ->). specialize (Hch c). destruct (set_child _ _ _ c _ _ _ _ _). exact Hch.
  - match goal with |- context [if ?b then _ else (n, Err _)] => destruct b end; [|discriminate].
    match goal with |- context [set_child _ _ _ ?c] => specialize (Hch c); destruct (set_child can reg (fun li q => set_path_f f li q value flags) c p' idx lang value flags) end.
    exact Hch.
Qed.

(* ---- frame ---- *)
(* n' differs from n at most in children with local name nm *)
Definition same_but (nm : string) (n n' : node M) : Prop :=
  n_name n' = n_name n /\ n_attrs n' = n_attrs n /\ n_model n' = n_model n /\ n_value n' = n_value n /\
  (forall nm', nm' <> nm -> find_node can (n_nodes n') nm' = find_node can (n_nodes n) nm').

Lemma suffix_parse nm suffix : name_ok nm -> suffix_ok suffix -> fst (fst (parse_segment (nm ++ suffix))) = nm.
Proof.
  intros (H1 & H2 & H3 & H4) [->|(t & -> & Ht & _)].
  - rewrite app_nil_r, parse_segment_plain by auto. reflexivity.
  - unfold parse_segment. rewrite index_char_app by auto.
    replace (Nat.ltb 0 (String.length nm)) with true by (destruct nm; [congruence|reflexivity]).
    replace (Nat.ltb (String.length nm + 1) (String.length (nm ++ String "[" t))) with true.
    2:{ symmetry. apply Nat.ltb_lt. rewrite length_app. cbn. destruct t; [congruence|cbn; lia]. }
    cbn [andb]. rewrite stake_app. destruct (emptyb _); [reflexivity|]. destruct (atoi _); reflexivity.
Qed.

Lemma first_prop_pop p nm : first_prop p nm -> name_ok nm /\ no_char ":" (namespace_prefix (snd (pop_front p))) /\
  exists idx lang, parse_segment (fst (pop_front p)) = (nm, idx, lang).
Proof.
  intros (ns & pfx & suffix & rest & Hns & Hpfx & Hnm & Hsuf & ->).
  assert (Ht : (nm ++ suffix)%string <> "" /\ no_char "/" (nm ++ suffix) /\ no_char ":" (nm ++ suffix)).
  { destruct Hnm as (A & B & C & D). repeat split.
    - destruct nm; cbn; congruence.
    - apply no_char_app; auto. destruct Hsuf as [->|(t & -> & _ & H & _)]; [reflexivity|exact H].
    - apply no_char_app; auto. destruct Hsuf as [->|(t & -> & _ & _ & H)]; [reflexivity|exact H]. }
  destruct (pop_front_head ns pfx (nm ++ suffix) rest) as (rest' & E); try tauto.
  rewrite E. cbn [fst snd]. split; auto. split; [apply namespace_prefix_no_colon|].
  pose proof (suffix_parse nm suffix Hnm Hsuf) as P. destruct (parse_segment (nm ++ suffix)) as [[a i] l]. cbn in P. subst. eauto.
Qed.

Lemma nl_add_find (l : list (node M)) x nm : (forall c, In c l -> n_model c = None) -> n_model x = None ->
  node_local x <> nm -> find_node can (nl_add l x) nm = find_node can l nm.
Proof.
  intros Hm Hx Hn. unfold find_node. induction l as [|v r IH]; cbn [nl_add find].
  - rewrite matches_none, (proj2 (eqb_neq _ _) Hn) by auto. reflexivity.
  - destruct (x_local (n_name v) =? x_local (n_name x)) eqn:E.
    + cbn [find]. rewrite !matches_none by (auto; apply Hm; now left).
      apply eqb_eq in E. assert (node_local v = node_local x) by (unfold node_local; congruence).
      rewrite H, (proj2 (eqb_neq _ _) Hn). reflexivity.
    + cbn [find]. destruct (matches nm v); auto. apply IH. intros; apply Hm; now right.
Qed.

Lemma upd_first_find t f (l l' : list (node M)) e nm :
  (forall c c', In c l -> t c = true -> fst (f c) = Some c' -> matches nm c' = false) ->
  (forall c, In c l -> t c = true -> matches nm c = false) ->
  upd_first t f l = Some (l', e) -> find_node can l' nm = find_node can l nm.
Proof.
  unfold find_node. revert l'. induction l as [|v r IH]; intros l' H1 H2 H; cbn in H; [discriminate|].
  destruct (t v) eqn:Et.
  - specialize (H1 v). specialize (H2 v (or_introl eq_refl) Et). destruct (f v) as [o e'] eqn:Ef. inversion H; subst.
    cbn [find]. rewrite H2. destruct o as [v'|]; auto. cbn [find]. rewrite (H1 v'); auto. now left.
  - destruct (upd_first t f r) as [[r' e']|] eqn:E; [|discriminate]. inversion H; subst. cbn [find].
    destruct (matches nm v); auto. apply IH; auto.
    + intros c c' Hc. apply H1. now right.
    + intros c Hc. apply H2. now right.
Qed.

Definition children_raw (n : node M) : Prop := forall c, In c (n_nodes n) -> n_model c = None.

Lemma set_path_f_keeps fuel : forall p value flags, keeps (fun n => set_path_f fuel n p value flags).
Proof.
  destruct fuel as [|f]; intros p value flags n; cbn [NodeM.set_path_f fst]; [auto|].
  destruct (pop_front p) as [seg p']. destruct (parse_segment seg) as [[name idx] lang].
  destruct (Z.ltb idx (-1)); [auto|].
  destruct (_ && _ && _). { cbn [fst]. destruct (Nat.eqb _ _); auto. destruct n; cbn; auto. }
  destruct (_ && _); [auto|].
  destruct (upd_first _ _ _) as [[? ?]|]; cbn [fst]; [destruct n; cbn; auto|].
  destruct (_ && _); [|auto].
  match goal with |- context [set_child ?a ?b ?c ?d ?e ?f ?g ?h ?i] => destruct (set_child a b c d e f g h i) as [? ?] end.
  cbn [fst]. destruct n; cbn; auto.
Qed.

Theorem set_path_frame n p nm value flags : children_raw n -> first_prop p nm ->
  same_but nm n (fst (node_set_path can reg n p value flags)).
Proof.
  intros Hraw Hp. destruct (first_prop_pop p nm Hp) as (Hnm & Hns & idx & lang & Eseg).
  assert (Hrefl : same_but nm n n) by (repeat split; auto).
  unfold node_set_path. generalize (path_len p) as f. intros f. cbn [NodeM.set_path_f].
  destruct (pop_front p) as [seg p'] eqn:Ep. cbn [fst snd] in *. rewrite Eseg.
  destruct (Z.ltb idx (-1)); [exact Hrefl|].
  rewrite (proj2 (emptyb_false nm)) by apply Hnm. cbn [andb negb].
  rewrite strip_prefix_none by apply Hnm. rewrite has_prefix_none by apply Hnm. cbn [negb].
  destruct (_ && _); [exact Hrefl|].
  assert (Hk : keeps (fun c => set_child can reg (fun li q => set_path_f f li q value flags) c p' idx lang value flags)).
  { apply set_child_keeps. apply set_path_f_keeps. }
  destruct (upd_first _ _ _) as [[l e]|] eqn:E.
  - cbn [fst]. destruct (set_nodes_keeps n l) as (A & B & C & D & F). repeat split; auto.
    intros nm' Hne. rewrite F. refine (upd_first_find _ _ _ _ _ _ _ _ E).
    + intros c c' Hc Ht. specialize (Hk c). cbn beta in Hk.
      destruct (set_child can reg (fun li q => set_path_f f li q value flags) c p' idx lang value flags) as [c1 e1] eqn:Es. cbn [fst] in *. intros Hs; injection Hs as <-.
      destruct Hk as (K1 & _ & K3). rewrite matches_none in Ht by now apply Hraw. rewrite matches_none by (rewrite K3; now apply Hraw).
      rewrite (node_local_eq _ _ K1). apply eqb_eq in Ht. rewrite Ht. apply eqb_neq. auto.
    + intros c Hc Ht. rewrite matches_none in Ht by now apply Hraw. rewrite matches_none by now apply Hraw. apply eqb_eq in Ht. rewrite Ht. apply eqb_neq; auto.
  - destruct (_ && _); [|exact Hrefl].
    match goal with |- context [set_child _ _ _ ?c] => set (x0 := c) end. specialize (Hk x0). cbn beta in Hk.
    destruct (set_child can reg (fun li q => set_path_f f li q value flags) x0 p' idx lang value flags) as [c1 e1] eqn:Es. cbn [fst] in *.
    destruct Hk as (K1 & _ & K3). unfold add_node. destruct (set_nodes_keeps n (nl_add (n_nodes n) c1)) as (A & B & C & D & F). repeat split; auto.
    intros nm' Hne. rewrite F. apply nl_add_find; [exact Hraw|rewrite K3; reflexivity|].
    rewrite (node_local_eq _ _ K1). unfold node_local, x0. cbn [n_name new_node new_name x_local].
    rewrite strip_prefix_qualified by auto. auto.
Qed.

Theorem same_but_get nm n n' q nm' : same_but nm n n' -> first_prop q nm' -> nm' <> nm ->
  node_get_path can n' q = node_get_path can n q.
Proof.
  intros (_ & A & _ & V & F) Hq Hne. destruct (first_prop_pop q nm' Hq) as (Hnm & _ & idx & lang & Eseg).
  unfold node_get_path. generalize (path_len q) as f. intros f. cbn [NodeM.get_path_f].
  destruct (pop_front q) as [seg p'] eqn:Ep. cbn [fst snd] in *. rewrite Eseg.
  destruct (Z.ltb idx (-1)); [reflexivity|].
  rewrite (proj2 (emptyb_false nm')) by apply Hnm. cbn [andb negb].
  rewrite strip_prefix_none by apply Hnm. rewrite F by auto. unfold get_attr. rewrite A. reflexivity.
Qed.

(* ---- AddNode / AddAttr ---- *)
Lemma nl_add_spec (l : list (node M)) x :
  (exists pre v post, l = (pre ++ v :: post)%list /\ x_local (n_name v) = x_local (n_name x) /\
     Forall (fun w => x_local (n_name w) <> x_local (n_name x)) pre /\ nl_add l x = (pre ++ x :: post)%list) \/
  (Forall (fun w => x_local (n_name w) <> x_local (n_name x)) l /\ nl_add l x = (l ++ [x])%list).
Proof.
  induction l as [|v r IH]; [right; auto|]. cbn [nl_add]. destruct (_ =? _) eqn:E.
  - left. apply eqb_eq in E. exists [], v, r. auto.
  - apply eqb_neq in E. destruct IH as [(pre & w & post & -> & H1 & H2 & H3)|[H1 H2]].
    + left. exists (v :: pre), w, post. rewrite H3. auto.
    + right. rewrite H2. auto.
Qed.

Lemma al_add_spec (l : list attr) x :
  (exists pre v post, l = (pre ++ v :: post)%list /\ x_local (a_name v) = x_local (a_name x) /\
     Forall (fun w => x_local (a_name w) <> x_local (a_name x)) pre /\ al_add l x = (pre ++ Attr (a_name v) (a_value x) :: post)%list) \/
  (Forall (fun w => x_local (a_name w) <> x_local (a_name x)) l /\ al_add l x = (l ++ [x])%list).
Proof.
  induction l as [|v r IH]; [right; auto|]. cbn [al_add]. destruct (_ =? _) eqn:E.
  - left. apply eqb_eq in E. exists [], v, r. auto.
  - apply eqb_neq in E. destruct IH as [(pre & w & post & -> & H1 & H2 & H3)|[H1 H2]].
    + left. exists (v :: pre), w, post. rewrite H3. auto.
    + right. rewrite H2. auto.
Qed.

Lemma NoDup_snoc {A} (l : list A) x : NoDup l -> ~ In x l -> NoDup (l ++ [x]).
Proof.
  intros H Hx. induction H as [|y l Hy _ IH]; cbn; constructor; auto; try constructor.
  - intros Hi. apply in_app_or in Hi as [Hi|[->|[]]]; auto. apply Hx. now left.
  - apply IH. intros Hi. apply Hx. now right.
Qed.

Lemma nl_add_nodup (l : list (node M)) x : NoDup (map (fun c => x_local (n_name c)) l) -> NoDup (map (fun c => x_local (n_name c)) (nl_add l x)).
Proof.
  intros H. destruct (nl_add_spec l x) as [(pre & v & post & -> & H1 & H2 & ->)|[H1 ->]].
  - rewrite map_app in *. cbn [map] in *. now rewrite <- H1.
  - rewrite map_app. apply NoDup_snoc; auto. intros Hi. apply in_map_iff in Hi as (c & E & Hc).
    rewrite Forall_forall in H1. now apply (H1 c).
Qed.

Lemma al_add_nodup (l : list attr) x : NoDup (map (fun c => x_local (a_name c)) l) -> NoDup (map (fun c => x_local (a_name c)) (al_add l x)).
Proof.
  intros H. destruct (al_add_spec l x) as [(pre & v & post & -> & H1 & H2 & ->)|[H1 ->]].
  - rewrite map_app in *. cbn [map a_name] in *. exact H.
  - rewrite map_app. apply NoDup_snoc; auto. intros Hi. apply in_map_iff in Hi as (c & E & Hc).
    rewrite Forall_forall in H1. now apply (H1 c).
Qed.

(* the children after a sequence of AddNode calls: for each name the last added, at the position of the first *)
Lemma nl_adds_nodup xs : forall l : list (node M), NoDup (map (fun c => x_local (n_name c)) l) ->
  NoDup (map (fun c => x_local (n_name c)) (fold_left nl_add xs l)).
Proof. induction xs as [|x r IH]; intros l H; cbn; auto. apply IH. now apply nl_add_nodup. Qed.

Lemma al_adds_nodup xs : forall l, NoDup (map (fun c => x_local (a_name c)) l) ->
  NoDup (map (fun c => x_local (a_name c)) (fold_left al_add xs l)).
Proof. induction xs as [|x r IH]; intros l H; cbn; auto. apply IH. now apply al_add_nodup. Qed.

Lemma nl_add_in (l : list (node M)) x : NoDup (map (fun c => x_local (n_name c)) l) -> forall c,
  In c (nl_add l x) <-> c = x \/ (In c l /\ x_local (n_name c) <> x_local (n_name x)).
Proof.
  intros Hd c. destruct (nl_add_spec l x) as [(pre & v & post & -> & H1 & H2 & ->)|[H1 ->]].
  - rewrite Forall_forall in H2. rewrite map_app in Hd. cbn [map] in Hd. apply NoDup_remove_2 in Hd.
    rewrite !in_app_iff. cbn. split.
    + intros [H|[H|H]]; auto.
      right. split; auto. intros E. apply Hd. rewrite H1, <- E. apply in_or_app. right.
      apply (in_map (fun c => x_local (n_name c))). auto.
    + intros [->|[[H|[H|H]] Hn]]; auto. subst. congruence.
  - rewrite Forall_forall in H1. rewrite in_app_iff. cbn. split.
    + intros [H|[H|[]]]; auto.
    + intros [->|[H _]]; auto.
Qed.

Lemma nl_adds_in xs : forall l : list (node M), NoDup (map (fun c => x_local (n_name c)) l) -> forall c,
  In c (fold_left nl_add xs l) <->
  last_by (fun c => x_local (n_name c)) c xs \/ (In c l /\ Forall (fun x => x_local (n_name x) <> x_local (n_name c)) xs).
Proof.
  induction xs as [|x r IH]; intros l Hd c; cbn [fold_left].
  - split; [intros H; right; auto|]. intros [(pre & post & E & _)|[H _]]; auto. destruct pre; discriminate.
  - rewrite IH by now apply nl_add_nodup. rewrite nl_add_in by auto. split.
    + intros [(pre & post & -> & Hp)|[[->|[H1 H2]] H3]].
      * left. exists (x :: pre), post. auto.
      * left. exists [], r. auto.
      * right. split; auto.
    + intros [(pre & post & E & Hp)|[H1 H2]].
      * destruct pre as [|y pre]; cbn in E; inversion E; subst; [right; auto|left; exists pre, post; auto].
      * inversion H2; subst. right. split; auto.
Qed.

Lemma attr_after_add (l : list attr) x : exists s, In (Attr (XName s (x_local (a_name x))) (a_value x)) (al_add l x).
Proof.
  destruct (al_add_spec l x) as [(pre & v & post & -> & H1 & H2 & ->)|[H1 ->]].
  - exists (x_space (a_name v)). apply in_or_app. right. left. rewrite <- H1. destruct v as [[? ?] ?]; reflexivity.
  - exists (x_space (a_name x)). apply in_or_app. right. left. destruct x as [[? ?] ?]; reflexivity.
Qed.

Lemma al_get_in l nm v : In v (al_get l "" nm) <-> In v l /\ (nm = "" \/ strip_prefix (x_local (a_name v)) = nm).
Proof.
  unfold al_get. rewrite filter_In. cbn [emptyb orb andb]. rewrite orb_true_iff, eqb_eq, emptyb_true. tauto.
Qed.

(* GetAttr finds exactly the written attribute when no other attribute has the same local name *)
Lemma attr_read_back (l : list attr) x :
  NoDup (map (fun c => x_local (a_name c)) l) -> strip_prefix (x_local (a_name x)) <> "" ->
  (forall a, In a l -> strip_prefix (x_local (a_name a)) = strip_prefix (x_local (a_name x)) -> x_local (a_name a) = x_local (a_name x)) ->
  map a_value (al_get (al_add l x) "" (strip_prefix (x_local (a_name x)))) = [a_value x].
Proof.
  intros Hd Hne Hu. unfold al_get. rewrite (proj2 (emptyb_false _) Hne). cbn [emptyb orb andb].
  induction l as [|v r IH]; cbn [al_add filter].
  - rewrite eqb_refl. reflexivity.
  - cbn in Hd. inversion Hd as [|? ? Hv Hr]; subst. destruct (x_local (a_name v) =? x_local (a_name x)) eqn:E.
    + apply eqb_eq in E. cbn [filter a_name a_value]. rewrite E, eqb_refl. cbn [map a_value]. f_equal.
      clear IH. assert (Hno : forall a, In a r -> strip_prefix (x_local (a_name a)) <> strip_prefix (x_local (a_name x))).
      { intros a Ha He. apply Hv. rewrite E. rewrite <- (Hu a (or_intror Ha) He).
        now apply (in_map (fun c => x_local (a_name c))). }
      clear - Hno. induction r as [|a r IH]; cbn [filter]; auto.
      rewrite (proj2 (eqb_neq _ _) (Hno a (or_introl eq_refl))). apply IH. intros; apply Hno; now right.
    + apply eqb_neq in E. cbn [filter].
      destruct (strip_prefix (x_local (a_name v)) =? strip_prefix (x_local (a_name x))) eqn:E2.
      * apply eqb_eq in E2. exfalso. apply E. apply Hu; auto. now left.
      * apply IH; auto. intros a Ha. apply Hu. now right.
Qed.

(* ---- IsZero ---- *)
Lemma fold_and (l : list (node M)) b : fold_left (fun e x => e && is_zero x) l b = b && forallb is_zero l.
Proof. revert b. induction l as [|x r IH]; intros b; cbn; [now rewrite andb_true_r|]. rewrite IH. now rewrite andb_assoc. Qed.

Lemma is_zero_iff (n : node M) : is_zero n = true <->
  forall x, in_tree x n -> n_model x = None /\ n_value x = "" /\ forall a, In a (n_attrs x) -> a_value a = "".
Proof.
  induction n as [x a m v l IH] using node_ind'. cbn [is_zero]. rewrite fold_and.
  assert (Hat : (Nat.eqb (List.length a) 0 || attrs_is_zero a) = true <-> forall b, In b a -> a_value b = "").
  { destruct a as [|b a]; [cbn; split; auto; intros _ ? []|]. cbn [List.length Nat.eqb orb]. unfold attrs_is_zero.
    rewrite forallb_forall. split; intros H c Hc; [now apply emptyb_true, H|now apply emptyb_true, H]. }
  split.
  - intros H y Hy. destruct (negb _) eqn:E; [discriminate|]. apply negb_false_iff in E. rewrite E in H. cbn [andb] in H.
    apply andb_true_iff in E as [E Ea]. apply andb_true_iff in E as [Em Ev].
    inversion Hy; subst.
    + cbn. split; [destruct m; [discriminate|auto]|]. split; [now apply emptyb_true|]. now apply Hat.
    + cbn [n_nodes] in *. rewrite forallb_forall in H. rewrite Forall_forall in IH. apply (proj1 (IH c H0) (H c H0)); auto.
  - intros H. destruct (H _ (in_here _)) as (Hm & Hv & Ha). cbn in Hm, Hv, Ha. subst m v. apply Hat in Ha. cbn [emptyb]. rewrite Ha.
    cbn [andb negb]. apply forallb_forall. intros c Hc. rewrite Forall_forall in IH. apply IH; auto.
    intros y Hy. apply H. eapply in_below; eauto.
Qed.
End Ops.

Section Ops2.
Context {M : Type}.
Notation child_name := (fun c : node M => x_local (n_name c)).
Notation attr_name := (fun a => x_local (a_name a)).

Lemma add_nodes_fold xs : forall n : node M, fold_left add_node xs n = set_nodes n (fold_left nl_add xs (n_nodes n)).
Proof.
  induction xs as [|x r IH]; intros n; cbn [fold_left]; [now destruct n|].
  rewrite IH. unfold add_node. now destruct n.
Qed.

Lemma add_nodes_spec (n : node M) xs :
  NoDup (map child_name (n_nodes n)) ->
  let n' := fold_left add_node xs n in
  NoDup (map child_name (n_nodes n')) /\
  (forall c, In c (n_nodes n') <->
     last_by child_name c xs \/ (In c (n_nodes n) /\ Forall (fun x => x_local (n_name x) <> x_local (n_name c)) xs)) /\
  n_name n' = n_name n /\ n_attrs n' = n_attrs n /\ n_model n' = n_model n /\ n_value n' = n_value n.
Proof.
  intros H n'. subst n'. rewrite add_nodes_fold.
  destruct (set_nodes_keeps n (fold_left nl_add xs (n_nodes n))) as (A & B & C & D & E). rewrite E.
  split; [now apply nl_adds_nodup|]. split; [intros c; now apply nl_adds_in|]. auto.
Qed.

Lemma add_node_in_place (n x : node M) :
  (exists pre v post, n_nodes n = (pre ++ v :: post)%list /\ x_local (n_name v) = x_local (n_name x) /\
     Forall (fun w => x_local (n_name w) <> x_local (n_name x)) pre /\ n_nodes (add_node n x) = (pre ++ x :: post)%list) \/
  (Forall (fun w => x_local (n_name w) <> x_local (n_name x)) (n_nodes n) /\ n_nodes (add_node n x) = (n_nodes n ++ [x])%list).
Proof.
  unfold add_node. destruct (set_nodes_keeps n (nl_add (n_nodes n) x)) as (_ & _ & _ & _ & ->). apply nl_add_spec.
Qed.

Lemma set_attrs_keeps (n : node M) l : n_name (set_attrs n l) = n_name n /\ n_attrs (set_attrs n l) = l /\ n_model (set_attrs n l) = n_model n
   /\ n_value (set_attrs n l) = n_value n /\ n_nodes (set_attrs n l) = n_nodes n.
Proof. destruct n; cbn; auto 6. Qed.

Lemma add_attrs_fold xs : forall n : node M, fold_left add_attr xs n = set_attrs n (fold_left al_add xs (n_attrs n)).
Proof.
  induction xs as [|x r IH]; intros n; cbn [fold_left]; [now destruct n|].
  rewrite IH. unfold add_attr. now destruct n.
Qed.

Definition has_attr (l : list attr) (k v : string) : Prop := exists s, In (Attr (XName s k) v) l.

Lemma al_add_in (l : list attr) x : NoDup (map attr_name l) -> forall k v,
  has_attr (al_add l x) k v <-> (k = x_local (a_name x) /\ v = a_value x) \/ (has_attr l k v /\ k <> x_local (a_name x)).
Proof.
  intros Hd k v. destruct (al_add_spec l x) as [(pre & w & post & -> & H1 & H2 & ->)|[H1 ->]].
  - rewrite Forall_forall in H2. rewrite map_app in Hd. cbn [map] in Hd. apply NoDup_remove_2 in Hd. unfold has_attr.
    split.
    + intros (s & H). apply in_app_or in H as [H|[H|H]].
      * right. split; [exists s; apply in_or_app; auto|]. apply (H2 _ H).
      * left. inversion H; subst. destruct w as [[ws wl] wv]. cbn in *. inversion H3; subst. auto.
      * right. split; [exists s; apply in_or_app; right; now right|].
        intros ->. apply Hd. rewrite H1. apply in_or_app. right.
        apply (in_map attr_name) in H. exact H.
    + intros [[-> ->]|[[s H] Hn]].
      * exists (x_space (a_name w)). apply in_or_app. right. left. rewrite <- H1. destruct w as [[? ?] ?]; reflexivity.
      * exists s. apply in_app_or in H as [H|[H|H]]; apply in_or_app; auto; [|right; now right].
        subst w. cbn in H1. congruence.
  - rewrite Forall_forall in H1. unfold has_attr. split.
    + intros (s & H). apply in_app_or in H as [H|[H|[]]].
      * right. split; eauto. apply (H1 _ H).
      * left. subst x. auto.
    + intros [[-> ->]|[[s H] Hn]].
      * exists (x_space (a_name x)). apply in_or_app. right. left. destruct x as [[? ?] ?]; reflexivity.
      * exists s. apply in_or_app. auto.
Qed.

Lemma al_adds_in xs : forall l, NoDup (map attr_name l) -> forall k v,
  has_attr (fold_left al_add xs l) k v <->
  (exists s, last_by attr_name (Attr (XName s k) v) xs) \/ (has_attr l k v /\ Forall (fun x => x_local (a_name x) <> k) xs).
Proof.
  induction xs as [|x r IH]; intros l Hd k v; cbn [fold_left].
  - split; [intros H; right; auto|]. intros [(s & pre & post & E & _)|[H _]]; auto. destruct pre; discriminate.
  - rewrite IH by now apply al_add_nodup. rewrite al_add_in by auto. split.
    + intros [(s & pre & post & -> & Hp)|[[[-> ->]|[H1 H2]] H3]].
      * left. exists s, (x :: pre), post. auto.
      * left. exists (x_space (a_name x)), [], r. split; [|exact H3]. destruct x as [[? ?] ?]; reflexivity.
      * right. split; auto.
    + intros [(s & pre & post & E & Hp)|[H1 H2]].
      * destruct pre as [|y pre]; cbn in E; inversion E; subst; [right; auto|left; exists s, pre, post; auto].
      * inversion H2; subst. right. split; auto.
Qed.

Lemma add_attrs_spec (n : node M) xs :
  NoDup (map attr_name (n_attrs n)) ->
  let n' := fold_left add_attr xs n in
  NoDup (map attr_name (n_attrs n')) /\
  (forall k v, (exists s, In (Attr (XName s k) v) (n_attrs n')) <->
     (exists s, last_by attr_name (Attr (XName s k) v) xs) \/
     ((exists s, In (Attr (XName s k) v) (n_attrs n)) /\ Forall (fun x => x_local (a_name x) <> k) xs)) /\
  n_name n' = n_name n /\ n_nodes n' = n_nodes n /\ n_model n' = n_model n /\ n_value n' = n_value n.
Proof.
  intros H n'. subst n'. rewrite add_attrs_fold.
  destruct (set_attrs_keeps n (fold_left al_add xs (n_attrs n))) as (A & B & C & D & E). rewrite B.
  split; [now apply al_adds_nodup|]. split; [intros k v; now apply al_adds_in|]. auto.
Qed.

Lemma add_attr_in_place (n : node M) x :
  (exists pre v post, n_attrs n = (pre ++ v :: post)%list /\ x_local (a_name v) = x_local (a_name x) /\
     Forall (fun w => x_local (a_name w) <> x_local (a_name x)) pre /\
     n_attrs (add_attr n x) = (pre ++ Attr (a_name v) (a_value x) :: post)%list) \/
  (Forall (fun w => x_local (a_name w) <> x_local (a_name x)) (n_attrs n) /\ n_attrs (add_attr n x) = (n_attrs n ++ [x])%list).
Proof.
  unfold add_attr. destruct (set_attrs_keeps n (al_add (n_attrs n) x)) as (_ & -> & _). apply al_add_spec.
Qed.

Lemma get_attr_last (n : node M) name value :
  NoDup (map attr_name (n_attrs n)) -> strip_prefix name <> "" ->
  (forall a, In a (n_attrs n) -> strip_prefix (x_local (a_name a)) = strip_prefix name -> x_local (a_name a) = name) ->
  map a_value (get_attr (add_string_attr n name value) "" (strip_prefix name)) = [value].
Proof.
  intros H1 H2 H3. unfold get_attr, add_string_attr, add_attr.
  destruct (set_attrs_keeps n (al_add (n_attrs n) (Attr (new_name name) value))) as (_ & -> & _).
  apply (attr_read_back (n_attrs n) (Attr (new_name name) value)); auto.
Qed.

Variable can : M -> string -> bool.
Variable reg : registry.

Lemma set_then_get flags n ns l value n' :
  raw n -> Forall pseg_ok l -> no_char ":" ns -> addressable reg flags n l ->
  value <> "" -> on flags (Z.lor REPLACE CREATE) = true ->
  node_set_path can reg n (render ns l) value flags = (n', Ok tt) ->
  node_get_path can n' (render ns l) = Ok value.
Proof.
  intros H1 H2 H3 H4 H5 H6 H7. rewrite set_path_render in H7 by auto. rewrite get_path_render by auto.
  f_equal. eapply write_read; eauto.
Qed.

Lemma create_succeeds (n : node M) ns l value flags :
  no_char ":" ns -> Forall pseg_ok l -> value <> "" -> on flags CREATE = true ->
  snd (node_set_path can reg n (render ns l) value flags) = Ok tt.
Proof. intros. rewrite set_path_render by auto. now apply write_succeeds. Qed.

Lemma node_paths_no_panic (n : node M) p value flags :
  node_get_path can n p <> Panic /\ snd (node_set_path can reg n p value flags) <> Panic.
Proof.
  split.
  - apply (get_path_fuel can (S (path_len p)) (S (path_len p))); lia.
  - apply set_path_no_panic. lia.
Qed.

Lemma set_other_get (n : node M) p q nm1 nm2 value flags :
  (forall c, In c (n_nodes n) -> n_model c = None) -> first_prop p nm1 -> first_prop q nm2 -> nm1 <> nm2 ->
  node_get_path can (fst (node_set_path can reg n p value flags)) q = node_get_path can n q.
Proof.
  intros H1 H2 H3 H4. eapply same_but_get; [|exact H3|exact (not_eq_sym H4)]. now apply set_path_frame.
Qed.
End Ops2.

(* a checker for raw, for the examples *)
Fixpoint rawb {M} (n : node M) : bool :=
  let 'Node _ _ m _ l := n in match m with None => forallb rawb l | Some _ => false end.
Lemma rawb_ok {M} (n : node M) : rawb n = true -> raw n.
Proof.
  induction n as [x a m v l IH] using node_ind'. cbn [rawb]. destruct m; [discriminate|]. intros H.
  apply raw_intro; auto. cbn. rewrite Forall_forall in IH. rewrite forallb_forall in H. auto.
Qed.
