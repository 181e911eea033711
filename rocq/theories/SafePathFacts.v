(* Access by path does not crash on well-formed models *)
From Coq Require Import List Arith ZArith Bool Ascii String Lia Permutation.
From Verif Require Import GoStr GoStrFacts GoMap Names Semver RegistryM PathM PVList SyncFlags NodeM DocM ArrayM SpecArray ArrayFacts TypeM TagM TagFacts TPathM TPathFacts TPathListFacts PanicFacts SpecSafePath.
Import ListNotations.
Local Open Scope string_scope.

Section P.
Context {X : Type}.
Notation ty := (ty X).
Notation gval := (gval X).
Variable tv : codec X -> gval -> Prop.
Variable growth : nat -> nat.
Notation wt := (well_typed tv).
Notation calm := (calm_type tv).
Notation wf := (well_formed tv).

Lemma wt_struct i fs v : wt (TStruct i fs) v <-> exists vs, v = VStruct vs /\ wf fs vs.
Proof.
  cbn [well_typed]. split; intros (vs & -> & H); exists vs; (split; [reflexivity|]); revert vs H; induction fs as [|f fs IH]; intros [|v vs] H; cbn in *; try tauto.
  - constructor.
  - constructor; [tauto|]. apply IH. tauto.
  - inversion H.
  - inversion H.
  - inversion H; subst. split; [assumption|]. apply IH. assumption.
Qed.
Lemma calm_struct i fs : calm (TStruct i fs) <-> calm_model tv fs.
Proof.
  cbn [calm_type]. unfold calm_model. induction fs as [|f fs IH]; split; intros H; [constructor|exact I| |].
  - constructor; [tauto|]. apply IH. tauto.
  - inversion H; subst. split; [assumption|]. apply IH. assumption.
Qed.
Lemma wf_nth fs (vs : list gval) i f t : wf fs vs -> nth_error fs i = Some (f, t) -> exists v, nth_error vs i = Some v /\ wt t v.
Proof.
  intros F. revert i. induction F as [|g v fs vs H F IH]; intros [|i] E; cbn in *; try discriminate.
  - injection E as ->. eauto.
  - eauto.
Qed.
Lemma wf_set fs (vs : list gval) i f t w : wf fs vs -> nth_error fs i = Some (f, t) -> wt t w -> wf fs (set_nth i w vs).
Proof.
  intros F. revert i. induction F as [|g v fs vs H F IH]; intros [|i] E O; cbn in *; try discriminate.
  - injection E as ->. constructor; auto.
  - constructor; [assumption|]. eapply IH; eauto.
Qed.
Lemma calm_nth fs i (f : finfo) (t : ty) : calm_model tv fs -> nth_error fs i = Some (f, t) -> calm t.
Proof. intros C E. apply nth_error_In in E. exact (proj1 (Forall_forall _ _) C _ E). Qed.

Lemma wt_zero (t : ty) : calm t -> wt t (zero t).
Proof.
  induction t using ty_ind'; intros C.
  - destruct t; cbn in *; try tauto; try (exists []; split; [reflexivity|exact I]); try (eexists; reflexivity). exact (proj1 C).
  - exists [], []. repeat split; constructor.
  - left. reflexivity.
  - apply wt_struct. eexists. split; [reflexivity|]. apply calm_struct in C. unfold well_formed, calm_model in *. induction H; cbn [map]; constructor; inversion C; auto.
Qed.

Lemma lookup_bound (fs : list (finfo * ty)) name j : lookup fs name = Some j -> exists f t, nth_error fs j = Some (f, t).
Proof.
  unfold lookup. intros H.
  assert (L : j < List.length (map tag_of fs)).
  { revert H. unfold find_native.
    assert (G : forall l i any j, find_native_from i any l name = Some j -> (forall a, any = Some a -> a < i) -> j < i + List.length l).
    { clear. induction l as [|g l IH]; intros i any j; cbn; [intros E A; specialize (A _ E); lia|].
      repeat match goal with |- context [if ?b then _ else _] => destruct b end; intros E A;
        try (injection E as <-; lia);
        (apply IH in E; [lia|]; intros a Ea; try (injection Ea as <-); try (specialize (A _ Ea)); lia). }
    intros E. apply G in E; [exact E|discriminate]. }
  rewrite map_length in L. destruct (nth_error fs j) as [[f t]|] eqn:E; [eauto|]. apply nth_error_None in E. lia.
Qed.

(* ---- reading -------------------------------------------------------------------------------------- *)

Lemma simple_calm t v : wt t v -> simple_text t v <> Panic.
Proof.
  destruct t; cbn [well_typed]; intros W; try discriminate; destruct W as (s & W); subst; discriminate.
Qed.
Lemma enc_calm t v : calm t -> wt t v -> leaf_enc t v <> Panic.
Proof.
  intros C W. pose proof (simple_calm t v W) as S. destruct t; try (cbn [leaf_enc] in *; destruct (simple_text _ v); cbn [bind]; congruence).
  - cbn [leaf_enc]. destruct C as [_ C]. apply C. exact W.
  - cbn [leaf_enc]. destruct C as [C _]. destruct (ar_text i) as [c|]; [apply C; exact W|]. destruct (simple_text _ v); cbn [bind]; congruence.
Qed.
Lemma text_calm t v : calm t -> wt t v -> leaf_text t v <> Panic.
Proof. intros C W. unfold leaf_text. pose proof (enc_calm t v C W). destruct (leaf_enc t v); cbn [bind]; congruence. Qed.

Lemma drill_wt t v : calm t -> wt t v -> is_nil v = false -> calm (fst (drill t v)) /\ wt (fst (drill t v)) (snd (drill t v)).
Proof.
  intros C W N. destruct t; try (unfold drill; cbn [fst snd]; auto; fail). cbn [well_typed] in W. destruct W as [->|(w & -> & W)]; [discriminate|]. cbn [drill fst snd]. auto.
Qed.
Lemma deref_wt t v : calm t -> wt t v -> calm (fst (deref t v)) /\ wt (fst (deref t v)) (snd (deref t v)).
Proof.
  intros C W. destruct t; try (unfold deref; cbn [fst snd]; auto; fail). cbn [well_typed] in W. destruct W as [->|(w & -> & W)]; cbn [deref fst snd]; [|auto].
  split; [exact C|]. apply wt_zero. exact C.
Qed.
Lemma reref_wt t v w : wt t v -> wt (fst (deref t v)) w -> wt t (reref t w).
Proof.
  intros W V. destruct t; try (unfold deref, reref in *; cbn [fst] in *; auto; fail). cbn [reref well_typed]. right. exists w. split; [reflexivity|].
  cbn [well_typed] in W. destruct W as [->|(u & -> & W)]; exact V.
Qed.

Lemma Forall_nth {A} (P : A -> Prop) l i x : Forall P l -> nth_error l i = Some x -> P x.
Proof. intros F E. apply nth_error_In in E. exact (proj1 (Forall_forall _ _) F _ E). Qed.

Lemma get_calm l : forall fs vs, calm_model tv fs -> wf fs vs -> get_steps l fs vs <> Panic.
Proof.
  induction l as [|[n more] r IH]; intros fs vs C W; cbn [get_steps]; [discriminate|].
  destruct (parse_segment n) as [[name idx] lang]. destruct (idx <? -1)%Z; [discriminate|].
  destruct (lookup fs name) as [j|] eqn:L; [|discriminate].
  destruct (lookup_bound _ _ _ L) as (f & t & E). destruct (wf_nth _ _ _ _ _ W E) as (v & Ev & Wv). rewrite E, Ev.
  destruct (is_nil v) eqn:N; [discriminate|]. destruct (f_omit f || _); [discriminate|].
  destruct (drill_wt t v (calm_nth _ _ _ _ C E) Wv N) as [C' W']. destruct (drill t v) as [t' v']. cbn [fst snd] in *.
  pose proof (text_calm t' v' C' W') as T.
  destruct t'; try exact T.
  - cbn [well_typed] in W'. destruct W' as (a & -> & W'). destruct (emptyb lang); discriminate.
  - cbn [well_typed] in W'. destruct W' as (l & sp & -> & W1 & W2). destruct (ar_xmp i); [|exact T].
    destruct (nth_error l (Z.to_nat idx)) as [e|] eqn:Ee; [|discriminate].
    destruct (deref_wt t' e (proj2 C') (Forall_nth _ _ _ _ W1 Ee)) as [C2 W3]. destruct (deref t' e) as [te e']. cbn [fst snd] in *.
    destruct more; [|apply text_calm; auto].
    destruct te; try (destruct r; discriminate). apply wt_struct in W3. destruct W3 as (vs' & -> & W3). apply IH; [now apply calm_struct in C2|auto].
  - apply wt_struct in W'. destruct W' as (vs' & -> & W'). apply calm_struct in C'. destruct more; [apply IH; auto|exact T].
Qed.

(* ---- writing -------------------------------------------------------------------------------------- *)

Definition keeps (t : ty) (p : gval * result unit) : Prop := wt t (fst p) /\ snd p <> Panic.

Lemma simple_wt t v s : wt t v -> set_simple_value t v s <> Panic /\ forall w, set_simple_value t v s = Ok w -> wt t w.
Proof.
  intros H. unfold set_simple_value. destruct t; try (split; [discriminate|]; intros w [=]; subst; cbn; eauto; fail).
  - destruct (parse_bool (trim_space s)); (split; [discriminate|]); intros w [= <-]; cbn; eauto.
  - destruct (parse_int bits s); (split; [discriminate|]); intros w [= <-]; cbn; eauto.
  - destruct (parse_uint bits s); (split; [discriminate|]); intros w [= <-]; cbn; eauto.
Qed.
Lemma dec_wt t v s : calm t -> wt t v ->
  let r := match t with TText c => c_dec c v s | TArr i _ => match ar_text i with Some c => c_dec c v s | None => set_simple_value t v s end | _ => set_simple_value t v s end in
  r <> Panic /\ forall w, r = Ok w -> wt t w.
Proof.
  intros C W. pose proof (simple_wt t v s W) as S. destruct t; try exact S.
  - destruct C as [_ C]. exact (proj2 (C v W) s).
  - destruct C as [C _]. cbn zeta. destruct (ar_text i) as [c|]; [|exact S]. exact (proj2 (C v W) s).
Qed.
Lemma leaf_keeps t v value flags : calm t -> wt t v -> keeps t (set_leaf t v value flags).
Proof.
  intros C W. unfold set_leaf. destruct (negb (on flags REPLACE) && negb (emptyb value) && negb (is_empty t v)); [split; [exact W|discriminate]|].
  destruct (dec_wt t v value C W) as [D1 D2]. cbn zeta in *.
  match goal with |- keeps t match ?r with _ => _ end => destruct r as [w|m|] end; [|split; [exact W|discriminate]|congruence].
  split; [apply D2; reflexivity|discriminate].
Qed.
Lemma new_wt te value : calm te -> new_elem te value <> Panic /\ forall w, new_elem te value = Ok w -> wt te w.
Proof.
  intros C. pose proof (dec_wt te (zero te) value C (wt_zero te C)) as D. destruct te; exact D.
Qed.

Lemma append_one l v lang : one_default l -> one_default (l ++ [AltItem v lang match l with [] => true | _ => false end])%list.
Proof. intros O. destruct l as [|x l]; [cbn; split; [reflexivity|intros y []]|]. apply one_default_app; [discriminate|auto|reflexivity]. Qed.

Lemma alt_keeps l lang value flags : one_default l ->
  exists l', fst (set_alt (X:=X) l lang value flags) = VAlt l' /\ one_default l' /\
    (snd (set_alt (X:=X) l lang value flags) = Panic -> value = "" /\ on flags DELETE = true /\ lang <> "").
Proof.
  intros O. unfold set_alt. destruct (emptyb value) eqn:V; cbn [negb]; rewrite ?andb_false_r, ?andb_true_r.
  - apply emptyb_true in V. subst value. destruct (on flags DELETE); [|exists l; repeat split; auto; discriminate].
    destruct (emptyb lang) eqn:G; [exists []; repeat split; auto; discriminate|]. apply emptyb_false in G.
    destruct (alt_remove_lang l lang) as [l'|m|] eqn:R.
    + exists l'. split; [reflexivity|]. split; [eapply remove_one_default; eauto|discriminate].
    + exists l. repeat split; auto; discriminate.
    + exists l. repeat split; auto; discriminate.
  - apply emptyb_false in V. destruct (on flags UNIQUE).
    { rewrite add_unique_spec by auto. destruct (alt_index l lang); [destruct (existsb _ _)|].
      - exists l. repeat split; auto; discriminate.
      - eexists. split; [reflexivity|]. split; [now apply append_one|discriminate].
      - eexists. split; [reflexivity|]. split; [now apply append_one|discriminate]. }
    destruct (on flags APPEND).
    { rewrite alt_add_spec by auto. eexists. split; [reflexivity|]. split; [now apply append_one|discriminate]. }
    destruct (on flags (Z.lor REPLACE CREATE)).
    { destruct (emptyb lang).
      - assert (N : new_alt_string [ArgString value] = Ok [AltItem value "" true]).
        { unfold new_alt_string, new_alt_items. cbn [map List.concat flat_map fold_left]. apply emptyb_neq in V. rewrite ?V. reflexivity. }
        rewrite N. eexists. split; [reflexivity|]. split; [cbn; split; [reflexivity|intros y []]|discriminate].
      - destruct (alt_set_spec l lang value O V) as [(pre & x & post & -> & _ & _ & ->)|(_ & ->)]; (eexists; split; [reflexivity|]; split; [|discriminate]).
        + now apply one_default_mid.
        + now apply append_one. }
    exists l. repeat split; auto; discriminate.
Qed.

Lemma Forall_repeat {A} (P : A -> Prop) x n : P x -> Forall P (repeat x n).
Proof. intros H. induction n; constructor; auto. Qed.
Lemma Forall_firstn {A} (P : A -> Prop) l : Forall P l -> forall n, Forall P (firstn n l) /\ Forall P (skipn n l).
Proof. intros F. induction F; intros [|n]; cbn; split; auto; try constructor; auto; apply IHF. Qed.
Lemma set_nth_long (l : list gval) x : forall n, nth_error l n <> None -> nth_error (set_nth n x l) n <> None.
Proof. induction l as [|y l IH]; intros [|n]; cbn; try congruence. apply IH. Qed.
Lemma Forall_set_nth (P : gval -> Prop) l x : Forall P l -> P x -> forall n, Forall P (set_nth n x l).
Proof. intros F H. induction F; intros [|n]; cbn; constructor; auto. Qed.

Definition elems (te : ty) (l sp : list gval) : Prop := Forall (wt te) l /\ Forall (wt te) sp.
Lemma elems_arr i te l sp : elems te l sp -> wt (TArr i te) (VArr l sp).
Proof. intros [A B]. exists l, sp. auto. Qed.
Lemma arr_elems i te l sp : wt (TArr i te) (VArr l sp) -> elems te l sp.
Proof. intros (l' & sp' & [= <- <-] & A & B). split; auto. Qed.

Lemma append_wt i te l sp x : calm te -> elems te l sp -> wt te x -> wt (TArr i te) (slice_append growth te l sp x).
Proof.
  intros C [A B] Wx. unfold slice_append. destruct sp as [|y sp]; apply elems_arr; (split; [apply Forall_app; split; auto|]).
  - apply Forall_repeat, wt_zero, C.
  - now inversion B.
Qed.
Lemma grow_wt te l sp n : calm te -> elems te l sp -> elems te (fst (grow_slice te l sp n)) (snd (grow_slice te l sp n)).
Proof.
  intros C [A B]. unfold grow_slice. pose proof (wt_zero te C) as Z0. destruct (Nat.leb (List.length l) n); [|split; auto].
  destruct (Nat.leb (List.length l + List.length sp) n); cbn [fst snd]; (split; [apply Forall_app; split; auto|]).
  - now apply Forall_repeat.
  - now apply Forall_repeat.
  - now apply Forall_firstn.
  - now apply Forall_firstn.
Qed.
Lemma grow_long (te : ty) l sp n : nth_error (fst (grow_slice te l sp n)) n <> None.
Proof.
  unfold grow_slice. apply nth_error_Some. destruct (Nat.leb (List.length l) n) eqn:E1; [apply Nat.leb_le in E1|apply Nat.leb_gt in E1; exact E1].
  destruct (Nat.leb (List.length l + List.length sp) n) eqn:E2; cbn [fst]; rewrite app_length; [rewrite repeat_length; lia|].
  apply Nat.leb_gt in E2. rewrite firstn_length. lia.
Qed.
Lemma scan_wt te l value : calm te -> Forall (wt te) l ->
  Forall (wt te) (fst (unique_scan te l value)) /\ snd (unique_scan te l value) <> UStop Panic.
Proof.
  intros C F. induction F as [|e l We F IH]; cbn [unique_scan]; [split; [constructor|discriminate]|].
  destruct (deref_wt te e C We) as [C' W']. pose proof (reref_wt te e (snd (deref te e)) We W') as R. destruct (deref te e) as [te' e']. cbn [fst snd] in *.
  pose proof (enc_calm te' e' C' W') as N. destruct (leaf_enc te' e') as [[s|]|m|]; [|split; [constructor; auto|discriminate]..|congruence].
  destruct (value =? s); [split; [constructor; auto|discriminate]|]. destruct (unique_scan te l value) as [r' u]. cbn [fst snd] in *.
  split; [constructor; tauto|tauto].
Qed.

Lemma slice_keeps i te l sp idx value flags : calm te -> elems te l sp -> keeps (TArr i te) (set_slice growth te l sp idx value flags).
Proof.
  intros C E. pose proof (elems_arr i _ _ _ E) as O. unfold set_slice. destruct (new_wt te value C) as [N1 N2].
  assert (K : forall (k : gval -> gval * result unit), (forall x, wt te x -> keeps (TArr i te) (k x)) ->
    keeps (TArr i te) match new_elem te value with Ok x => k x | Err m => (VArr l sp, Err m) | Panic => (VArr l sp, Panic) end).
  { intros k Hk. destruct (new_elem te value) as [x|m|]; [apply Hk, N2; reflexivity|split; [exact O|discriminate]|congruence]. }
  destruct (on flags UNIQUE && negb (emptyb value) && (idx =? -1)%Z).
  { destruct (scan_wt te l value C (proj1 E)) as [S1 S2]. destruct (unique_scan te l value) as [l' u]. cbn [fst snd] in *.
    assert (E' : elems te l' sp) by (split; [auto|apply E]). pose proof (elems_arr i _ _ _ E') as O'.
    destruct u as [|r|].
    - split; [exact O'|discriminate].
    - split; [exact O'|]. cbn [snd]. congruence.
    - destruct (new_elem te value) as [x|m|]; [|split; [exact O'|discriminate]|congruence]. split; [apply append_wt; auto|discriminate]. }
  destruct (on flags APPEND && negb (emptyb value) && (idx =? -1)%Z).
  { apply K. intros x Wx. split; [apply append_wt; auto|discriminate]. }
  destruct (on flags (Z.lor REPLACE CREATE) && negb (emptyb value) && (idx >? -1)%Z).
  { apply K. intros x Wx. pose proof (grow_wt te l sp (Z.to_nat idx) C E) as G. destruct (grow_slice te l sp (Z.to_nat idx)) as [l' sp']. cbn [fst snd] in *.
    split; [|discriminate]. apply elems_arr. split; [apply Forall_set_nth; [apply G|auto]|apply G]. }
  destruct (on flags (Z.lor REPLACE CREATE) && negb (emptyb value) && (idx =? -1)%Z).
  { apply K. intros x Wx. split; [apply append_wt; auto; split; constructor|discriminate]. }
  destruct (on flags DELETE && emptyb value && (idx >? -1)%Z).
  { destruct E as [A B]. pose proof (Forall_firstn _ _ A) as FS.
    destruct (Nat.leb (List.length l) (Z.to_nat idx)); [split; [exact O|discriminate]|].
    destruct (Nat.eqb (Z.to_nat idx) 0); [split; [apply elems_arr; split; [destruct A; [constructor|assumption]|exact B]|discriminate]|].
    destruct (Nat.eqb _ _); (split; [|discriminate]); apply elems_arr; (split; [|try constructor]).
    - apply FS.
    - apply Forall_app. split; [apply FS|exact B].
    - apply Forall_app. split; apply FS. }
  destruct (on flags DELETE && emptyb value && (idx =? -1)%Z); (split; [|discriminate]); [apply elems_arr; split; constructor|exact O].
Qed.

(* the only way to crash *)
Definition drops_lang (l : list (string * bool)) (value : string) (flags : Z) : Prop :=
  value = "" /\ on flags DELETE = true /\ exists n more, In (n, more) l /\ snd (parse_segment n) <> "".
Lemma drops_more s l value flags : drops_lang l value flags -> drops_lang (s :: l) value flags.
Proof. intros (A & B & n & more & I & H). split; [auto|]. split; [auto|]. exists n, more. split; [now right|auto]. Qed.

Lemma set_keeps l value flags : forall fs vs, calm_model tv fs -> wf fs vs ->
  wf fs (fst (set_steps growth l fs vs value flags)) /\ (snd (set_steps growth l fs vs value flags) = Panic -> drops_lang l value flags).
Proof.
  induction l as [|[n more] r IH]; intros fs vs C W; cbn [set_steps]; [split; [exact W|discriminate]|].
  destruct (parse_segment n) as [[name idx] lang] eqn:PS. destruct (idx <? -1)%Z; [split; [exact W|discriminate]|].
  destruct (lookup fs name) as [j|] eqn:L; [|split; [exact W|discriminate]].
  destruct (lookup_bound _ _ _ L) as (f & t & E). destruct (wf_nth _ _ _ _ _ W E) as (v & Ev & Wv). rewrite E, Ev.
  pose proof (calm_nth _ _ _ _ C E) as Ct. destruct (deref_wt t v Ct Wv) as [C' W'].
  pose proof (fun w => reref_wt t v w Wv) as RR. destruct (deref t v) as [t' v']. cbn [fst snd] in *.
  (* what remains to be shown for the new value of the field *)
  assert (K : forall p : gval * result unit, wt t' (fst p) -> (snd p = Panic -> drops_lang ((n, more) :: r) value flags) ->
    wf fs (fst (let '(w, e) := p in (set_nth j (reref t w) vs, e))) /\
    (snd (let '(w, e) := p in (set_nth j (reref t w) vs, e)) = Panic -> drops_lang ((n, more) :: r) value flags)).
  { intros [w e] H1 H2. cbn [fst snd] in *. split; [|exact H2]. eapply wf_set; eauto. }
  assert (KL : keeps t' (set_leaf t' v' value flags)) by now apply leaf_keeps.
  assert (K2 : forall p, keeps t' p -> wt t' (fst p) /\ (snd p = Panic -> drops_lang ((n, more) :: r) value flags)).
  { intros p [H1 H2]. split; [auto|]. intros; contradiction. }
  destruct t'; try (apply K; apply K2; exact KL).
  - cbn [well_typed] in W'. destruct W' as (a & -> & O). destruct (alt_keeps a lang value flags O) as (l' & A1 & A2 & A3).
    apply K; [rewrite A1; exists l'; auto|]. intros Q. destruct (A3 Q) as (B1 & B2 & B3). split; [auto|]. split; [auto|].
    exists n, more. split; [now left|]. now rewrite PS.
  - destruct W' as (l & sp & -> & W1 & W2). assert (EL : elems t' l sp) by (split; auto). destruct C' as [_ C'].
    destruct (ar_xmp i); [|apply K; apply K2; exact KL].
    destruct more; [|apply K; apply K2; now apply slice_keeps].
    assert (EN : forall l' sp' (fresh : bool), elems t' l' sp' -> nth_error l' (Z.to_nat idx) <> None ->
      let p := match nth_error l' (Z.to_nat idx) with
        | None => (VArr l' sp', Panic)
        | Some e0 => let '(te', e') := deref t' e0 in
            match te', e', r with
            | TStruct _ fs', VStruct vs', _ =>
                let '(ws, e) := set_steps growth r fs' vs' value flags in (VArr (set_nth (Z.to_nat idx) (reref t' (VStruct ws)) l') sp', e)
            | _, _, [] => (VArr (set_nth (Z.to_nat idx) (reref t' e') l') sp', if fresh then Err errNotFound else Ok tt)
            | _, _, _ => (VArr (set_nth (Z.to_nat idx) (reref t' e') l') sp', Err errNotFound)
            end
        end in wt (TArr i t') (fst p) /\ (snd p = Panic -> drops_lang ((n, true) :: r) value flags)).
    { intros l' sp' fresh [E1 E2] NN. destruct (nth_error l' (Z.to_nat idx)) as [e0|] eqn:Ee; [|congruence].
      pose proof (Forall_nth _ _ _ _ E1 Ee) as We. destruct (deref_wt t' e0 C' We) as [C2 W3]. pose proof (fun w => reref_wt t' e0 w We) as R2.
      destruct (deref t' e0) as [te e']. cbn [fst snd] in *.
      assert (PL : forall w, wt te w -> wt (TArr i t') (VArr (set_nth (Z.to_nat idx) (reref t' w) l') sp')).
      { intros w Ww. apply elems_arr. split; [|auto]. apply Forall_set_nth; auto. }
      destruct te; try (destruct r; (split; [apply PL; exact W3|]); destruct fresh; discriminate).
      apply wt_struct in W3. destruct W3 as (vs' & -> & W3). apply calm_struct in C2. specialize (IH fs0 vs' C2 W3).
      destruct (set_steps growth r fs0 vs' value flags) as [ws e]. cbn [fst snd] in *. split; [|intros Q; apply drops_more, IH, Q].
      apply PL. apply wt_struct. exists ws. tauto. }
    cbn zeta in EN.
    destruct (Nat.leb (List.length l) (Z.to_nat idx)) eqn:LE.
    + destruct (on flags DELETE && emptyb value); [apply (K (VArr l sp, Ok tt)); [now apply elems_arr|discriminate]|].
      destruct (negb (on flags (Z.lor CREATE APPEND))); [apply (K (VArr l sp, Err _)); [now apply elems_arr|discriminate]|].
      pose proof (grow_wt t' l sp (Z.to_nat idx) C' EL) as G. pose proof (grow_long t' l sp (Z.to_nat idx)) as GL.
      destruct (grow_slice t' l sp (Z.to_nat idx)) as [l' sp']. cbn [fst snd] in *. apply K.
      * apply (EN (set_nth (Z.to_nat idx) (zero t') l') sp' true).
        -- split; [apply Forall_set_nth; [apply G|now apply wt_zero]|apply G].
        -- now apply set_nth_long.
      * apply (EN (set_nth (Z.to_nat idx) (zero t') l') sp' true).
        -- split; [apply Forall_set_nth; [apply G|now apply wt_zero]|apply G].
        -- now apply set_nth_long.
    + apply Nat.leb_gt in LE. assert (NN : nth_error l (Z.to_nat idx) <> None) by now apply nth_error_Some. apply K; apply (EN l sp false EL NN).
  - apply wt_struct in W'. destruct W' as (vs' & -> & W'). apply calm_struct in C'. destruct more; [|apply K; apply K2; exact KL].
    specialize (IH fs0 vs' C' W'). apply K; destruct (set_steps growth r fs0 vs' value flags) as [ws e]; cbn [fst snd] in *.
    + apply wt_struct. exists ws. tauto.
    + intros Q. apply drops_more, IH, Q.
Qed.

(* ---- listing -------------------------------------------------------------------------------------- *)

Section L.
Variable sortf : list path_value -> list path_value.
Notation list_type_paths := (@list_type_paths X sortf).

(* elem_listed without following a pointer *)
Definition item_listed (te' : ty) (e' : gval) (q : path) : listed :=
  match te' with
  | TStruct _ _ => if is_empty te' e' then Add [] else of_result (list_type_paths te' e' q)
  | TArr ai _ => match ar_text ai with
                 | Some c => of_text (c_enc c e') q
                 | None => if is_empty te' e' then Add [] else Stop (Err "not a struct")
                 end
  | TAlt _ | TBytes => if is_empty te' e' then Add [] else Stop (Err "not a struct")
  | _ => of_text (leaf_enc te' e') q
  end.
Definition lists_calm (t : ty) : Prop := calm t -> forall v, wt t v ->
  (forall p, list_type_paths t v p <> Panic) /\ (forall p, is_nil v = false -> field_listed sortf t v p <> Stop Panic) /\
  (forall p, plain_listed sortf t v p <> Stop Panic) /\ (forall q, item_listed t v q <> Stop Panic) /\
  (forall p i, elem_listed sortf t p i v <> Stop Panic).

Lemma text_listed t v p : calm t -> wt t v -> of_text (leaf_enc t v) p <> Stop Panic.
Proof. intros C W. pose proof (enc_calm t v C W). destruct (leaf_enc t v) as [[s|]| |]; cbn [of_text]; congruence. Qed.
Lemma listed_calm t : lists_calm t.
Proof.
  induction t using ty_ind'; intros C v W.
  - assert (T : forall p, of_text (leaf_enc t v) p <> Stop Panic) by (intros; now apply text_listed).
    destruct t; try contradiction; try (split; [discriminate|]; split; [intros; apply T|]; split; [apply T|]; split; [apply T|intros; apply T]).
    + split; [discriminate|]. split; [intros; apply T|]. split; [apply T|]. unfold elem_listed. cbn [deref item_listed].
      split; intros; destruct (is_empty _ v); discriminate.
    + destruct W as (a & -> & O). split; [discriminate|]. split; [discriminate|]. split; [discriminate|]. unfold elem_listed. cbn [deref item_listed].
      split; intros; destruct (is_empty _ _); discriminate.
  - assert (T : forall p, of_text (leaf_enc (TArr i t) v) p <> Stop Panic) by (intros; now apply text_listed).
    assert (G : forall p, plain_listed sortf (TArr i t) v p <> Stop Panic).
    { intros p. destruct W as (l & sp & -> & W1 & W2). cbn [plain_listed]. destruct (ar_xmp i); [|apply T]. clear T.
      generalize 0. induction W1 as [|e l We W1 IH]; intros k; cbn [list_elems]; [discriminate|].
      pose proof (proj2 (proj2 (proj2 (proj2 (IHt (proj2 C) e We)))) p k) as EL. destruct (elem_listed sortf t p k e) as [a|r]; [|exact EL].
      specialize (IH (S k)). destruct (list_elems _ (S k) l); [discriminate|exact IH]. }
    assert (H : forall q, item_listed (TArr i t) v q <> Stop Panic).
    { intros q. cbn [item_listed leaf_enc] in *. specialize (T q). destruct (ar_text i); [exact T|]. destruct (is_empty _ v); discriminate. }
    split; [discriminate|]. split; [intros; apply G|]. split; [exact G|]. split; [exact H|]. intros p k. apply H.
  - assert (T : forall p, of_text (leaf_enc (TPtr t) v) p <> Stop Panic) by (intros; now apply text_listed).
    split; [discriminate|]. cbn [well_typed] in W. split.
    { intros p N. destruct W as [->|(w & -> & W)]; [discriminate|]. cbn [field_listed]. exact (proj1 (proj2 (proj2 (IHt C w W))) p). }
    split; [exact T|]. split; [exact T|]. intros p k. unfold elem_listed.
    destruct W as [->|(w & -> & W)]; cbn [deref]; [exact (proj1 (proj2 (proj2 (proj2 (IHt C _ (wt_zero t C))))) _)|exact (proj1 (proj2 (proj2 (proj2 (IHt C w W)))) _)].
  - apply wt_struct in W. destruct W as (vs & -> & W). apply calm_struct in C.
    assert (A : forall p, list_type_paths (TStruct i fs) (VStruct vs) p <> Panic).
    { intros p. rewrite list_struct. generalize (@nil path_value) as acc. revert p. unfold well_formed in W. revert H C.
      induction W as [|f v fs vs Wv W IH]; intros H C p acc; cbn [list_fields]; [discriminate|]. destruct f as [f t]. inversion H as [|? ? H1 H2]; subst. inversion C as [|? ? C1 C2]; subst. cbn [snd] in *.
      destruct (is_nil v) eqn:N; cbn [orb]; [apply IH; auto|]. destruct (f_omit f || _); [apply IH; auto|].
      pose proof (proj1 (proj2 (H1 C1 v Wv)) (push (field_path p (f_name f)) [field_segment (field_path p (f_name f)) (f_name f)]) N) as FL.
      destruct (field_listed sortf t v _) as [a|r]; [apply IH; auto|congruence]. }
    assert (G : forall p, of_result (list_type_paths (TStruct i fs) (VStruct vs) p) <> Stop Panic).
    { intros p. specialize (A p). destruct (list_type_paths _ _ p); cbn [of_result]; congruence. }
    split; [exact A|]. unfold elem_listed. cbn [field_listed plain_listed value_listed item_listed deref].
    destruct (is_empty _ _); [repeat split; intros; discriminate|]. repeat split; intros; apply G.
Qed.
Lemma list_calm si fs vs ns : calm_model tv fs -> wf fs vs -> list_model_paths sortf si fs vs ns <> Panic.
Proof.
  intros C W. unfold list_model_paths. destruct (is_empty _ _); [discriminate|]. apply listed_calm; [now apply calm_struct|apply wt_struct; eauto].
Qed.
End L.
End P.
