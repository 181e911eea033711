(* Reading never crashes for the types of SpecPanic.v; when reading JSON crashes *)
From Coq Require Import List Arith ZArith Bool Ascii String Lia.
From Verif Require Import GoStr GoStrFacts GoMap Names Semver RegistryM RegistryFacts NodeM NodeFacts DocM ArrayM TypeM DecodeM DecodeFacts JsonM JsonFacts SpecDecode SpecPanic.
Import ListNotations.
Local Open Scope string_scope.

Section P.
Context {X M : Type}.
Notation ty := (ty X).
Notation gval := (gval X).

Definition fine (t : ty) (r : result gval) : Prop := r <> Panic /\ forall w, r = Ok w -> of_type t w.
Definition fields_of (fs : list (finfo * ty)) (vs : list gval) : Prop := Forall2 (fun f v => of_type (snd f) v) fs vs.

Lemma of_struct i fs v : of_type (TStruct i fs) v <-> exists vs, v = VStruct vs /\ fields_of fs vs.
Proof.
  cbn [of_type]. split; intros (vs & -> & H); exists vs; (split; [reflexivity|]); revert vs H; induction fs as [|f fs IH]; intros [|v vs] H; cbn in *; try tauto.
  - constructor.
  - constructor; [tauto|]. apply IH. tauto.
  - inversion H.
  - inversion H.
  - inversion H; subst. split; [assumption|]. apply IH. assumption.
Qed.
Lemma calm_struct it i fs : calm it (TStruct i fs) <-> Forall (fun f : finfo * ty => calm false (snd f)) fs.
Proof.
  cbn [calm]. induction fs as [|f fs IH]; split; intros H; [constructor|exact I| |].
  - constructor; [tauto|]. apply IH. tauto.
  - inversion H; subst. split; [assumption|]. apply IH. assumption.
Qed.

Lemma set_simple_fine t v s : of_type t v -> match t with TText _ | TPtr _ | TStruct _ _ => False | _ => True end -> fine t (set_simple_value t v s).
Proof.
  intros H K. unfold fine, set_simple_value. destruct t; try tauto; cbn [of_type] in *.
  - split; [discriminate|]. intros w [= <-]. eauto.
  - split; [discriminate|]. intros w [= <-]. eauto.
  - destruct (parse_bool (trim_space s)); (split; [discriminate|]); intros w [= <-]; eauto.
  - destruct (parse_int bits s); (split; [discriminate|]); intros w [= <-]; eauto.
  - destruct (parse_uint bits s); (split; [discriminate|]); intros w [= <-]; eauto.
  - split; [discriminate|]. intros w [= <-]. eauto.
  - split; [discriminate|]. intros w [= <-]. exact I.
Qed.

(* the errors of a slice element become panics unless it cannot fail *)
Lemma wrap_fine t fin r : fine t r -> (fin = false -> forall e, r <> Err e) -> fine t (wrap_err fin r).
Proof.
  intros [H1 H2] H. destruct r as [w|e|]; cbn [wrap_err]; [split; auto|destruct fin|congruence].
  - split; [discriminate|]. intros w [=].
  - exfalso. exact (H eq_refl e eq_refl).
Qed.

Fixpoint ty_ind' (P : ty -> Prop)
  (Hs : forall t, match t with TPtr _ | TArr _ _ | TStruct _ _ => False | _ => True end -> P t)
  (Ha : forall i t, P t -> P (TArr i t)) (Hp : forall t, P t -> P (TPtr t))
  (Hst : forall i fs, Forall (fun f => P (snd f)) fs -> P (TStruct i fs)) (t : ty) : P t :=
  match t with
  | TArr i t' => Ha i t' (ty_ind' P Hs Ha Hp Hst t')
  | TPtr t' => Hp t' (ty_ind' P Hs Ha Hp Hst t')
  | TStruct i fs => Hst i fs ((fix go (fs : list (finfo * ty)) : Forall (fun f => P (snd f)) fs :=
                       match fs with [] => Forall_nil _ | f :: r => Forall_cons f (ty_ind' P Hs Ha Hp Hst (snd f)) (go r) end) fs)
  | t => Hs t I
  end.

Lemma zero_of_type (t : ty) : of_type t (zero t).
Proof.
  induction t using ty_ind'.
  - destruct t; cbn in *; try tauto; eauto.
  - exact I.
  - left. reflexivity.
  - apply of_struct. eexists. split; [reflexivity|]. unfold fields_of. induction H; cbn; constructor; auto.
Qed.

Lemma attr_fine t : forall it fin v s, calm it t -> (fin = false -> it = true) -> of_type t v -> fine t (unmarshal_attr t fin v s).
Proof.
  induction t using ty_ind'; intros it fin v s C F O.
  - destruct t; cbn [unmarshal_attr] in *; try tauto; try (apply set_simple_fine; [assumption|exact I]).
    + split; [apply C|]. intros; exact I.
    + destruct O as [l ->]. split; [discriminate|]. intros w [= <-]. cbn. eauto.
  - cbn [unmarshal_attr]. destruct C as [C1 C2]. destruct (ar_text i) as [c|].
    + split; [apply C1|]. intros; exact I.
    + destruct (IHt true false (zero t) s C2 (fun _ => eq_refl) (zero_of_type t)) as [N _].
      destruct fin; [|rewrite C1 in F; discriminate (F eq_refl)].
      destruct (unmarshal_attr t false (zero t) s); cbn [wrap_err bind]; [|split; [discriminate|intros w [=]]|congruence].
      split; [discriminate|]. intros; exact I.
  - cbn [unmarshal_attr].
    assert (O' : of_type t (match v with VPtr w => w | _ => zero t end)).
    { cbn in O. destruct O as [->|(w & -> & O)]; [apply zero_of_type|exact O]. }
    destruct (IHt it fin _ s C F O') as [N1 N2].
    destruct (unmarshal_attr t fin _ s) as [w| |] eqn:E; cbn [bind]; [|split; [discriminate|intros w' [=]]|congruence].
    split; [discriminate|]. intros w' [= <-]. cbn. right. exists w. split; auto.
  - cbn [unmarshal_attr set_simple_value]. split; [discriminate|]. intros w [=].
Qed.

Lemma set_nth_fields fs (vs : list gval) i f t w : fields_of fs vs -> nth_error fs i = Some (f, t) -> of_type t w -> fields_of fs (set_nth i w vs).
Proof.
  intros F. revert i. induction F as [|g v fs vs H F IH]; intros [|i] E O; cbn in *; try discriminate.
  - injection E as ->. constructor; auto.
  - constructor; [assumption|]. eapply IH; eauto.
Qed.
Lemma nth_fields fs (vs : list gval) i f t : fields_of fs vs -> nth_error fs i = Some (f, t) -> exists v, nth_error vs i = Some v /\ of_type t v.
Proof.
  intros F. revert i. induction F as [|g v fs vs H F IH]; intros [|i] E; cbn in *; try discriminate.
  - injection E as ->. eauto.
  - eauto.
Qed.

Variable ver : version.
Lemma find_field_bound fs name j : find_field (X:=X) ver fs name = Some j -> exists f t, nth_error fs j = Some (f, t).
Proof.
  unfold find_field.
  assert (G : forall fs i any j, find_field_from (X:=X) ver i any fs name = Some j ->
     any = Some j \/ (i <= j /\ exists f t, nth_error fs (j - i) = Some (f, t))).
  { clear. induction fs as [|[f t] fs IH]; intros i any j; cbn [find_field_from]; [auto|].
    assert (S1 : (S i <= j /\ exists f0 t0, nth_error fs (j - S i) = Some (f0, t0)) -> i <= j /\ exists f0 t0, nth_error ((f, t) :: fs) (j - i) = Some (f0, t0)).
    { intros (L & f0 & t0 & E). split; [lia|]. exists f0, t0. replace (j - i) with (S (j - S i)) by lia. exact E. }
    assert (S0 : i <= i /\ exists f0 t0, nth_error ((f, t) :: fs) (i - i) = Some (f0, t0)).
    { split; [lia|]. rewrite Nat.sub_diag. cbn. eauto. }
    destruct (negb (active ver f)).
    - intros E. destruct (IH _ _ _ E) as [->|H]; auto.
    - destruct (f_name f =? name).
      + intros [= <-]. right. exact S0.
      + intros E. destruct (IH _ _ _ E) as [Hany|H]; [|auto]. destruct (f_any f); [|auto]. injection Hany as ->. right. exact S0. }
  intros E. destruct (G _ _ _ _ E) as [[=]|(_ & f & t & H)]. rewrite Nat.sub_0_r in H. eauto.
Qed.

Lemma calm_nth fs i f t : Forall (fun f : finfo * ty => calm false (snd f)) fs -> nth_error fs i = Some (f, t) -> calm false t.
Proof. intros H E. rewrite Forall_forall in H. exact (H _ (nth_error_In _ _ E)). Qed.

Variable reg : registry.
Variables imap emap : gomap namespace.

Lemma items_alt_ok (l : list (node M)) acc : alt_items reg l acc <> Panic.
Proof. revert acc. induction l as [|c l IH]; intros acc; cbn [alt_items]; [discriminate|]. destruct (full_name reg c =? "rdf:li"); [apply IH|discriminate]. Qed.

Definition reads_fine (n : node M) : Prop := forall t it fin v, calm it t -> (fin = false -> it = true) -> of_type t v ->
  fine t (unmarshal ver reg imap emap n t fin v).

Lemma reads_fine_all (n : node M) : reads_fine n /\ Forall reads_fine (n_nodes n).
Proof.
  induction n as [x attrs md value kids IH0] using node_ind'.
  assert (IH : Forall reads_fine kids) by (eapply Forall_impl; [|exact IH0]; cbn; tauto).
  split; [|exact IH].
  intros t. induction t using ty_ind'; intros it fin v C F O.
  - destruct t; cbn [unmarshal] in *; try tauto.
    + apply wrap_fine; [apply set_simple_fine; [assumption|exact I]|]. intros _ e. discriminate.
    + apply wrap_fine; [apply set_simple_fine; [assumption|exact I]|]. intros _ e. discriminate.
    + apply wrap_fine; [apply set_simple_fine; [assumption|exact I]|]. intros E. cbn in C. rewrite (F E) in C. discriminate.
    + apply wrap_fine; [apply set_simple_fine; [assumption|exact I]|]. intros E. cbn in C. rewrite (F E) in C. discriminate.
    + apply wrap_fine; [apply set_simple_fine; [assumption|exact I]|]. intros E. cbn in C. rewrite (F E) in C. discriminate.
    + split; [apply C|]. intros; exact I.
    + destruct O as [l ->]. destruct (array_child (Node x attrs md value kids)) as [arr| |] eqn:EA; cbn [bind].
      * assert (N := items_alt_ok (n_nodes arr) l). destruct (alt_items reg (n_nodes arr) l); cbn [bind]; [|split; [discriminate|intros w [=]]|congruence].
        split; [discriminate|]. intros w [= <-]. cbn. eauto.
      * split; [discriminate|intros w [=]].
      * unfold array_child in EA. destruct (n_nodes (Node x attrs md value kids)) as [|arr [|? ?]]; try discriminate.
        destruct ((node_local arr =? "Seq") || (node_local arr =? "Bag") || (node_local arr =? "Alt")); discriminate.
  - cbn [unmarshal]. destruct C as [C1 C2]. destruct (ar_xmp i).
    + destruct kids as [|[ax aa am av items] [|? ?]]; try (split; [discriminate|intros w [=]]).
      destruct ((strip_prefix (x_local ax) =? "Seq") || (strip_prefix (x_local ax) =? "Bag") || (strip_prefix (x_local ax) =? "Alt")); [|split; [discriminate|intros w [=]]].
      split; [|intros; exact I].
      inversion IH0 as [|? ? [_ IHi] _]; subst. cbn [n_nodes] in IHi. clear - IHi C2.
      revert v. induction IHi as [|li items R _ IHl]; intros v; [discriminate|].
      destruct (full_name reg li =? "rdf:li"); [|discriminate].
      destruct (R t true false (zero t) C2 (fun _ => eq_refl) (zero_of_type t)) as [N _].
      destruct (unmarshal ver reg imap emap li t false (zero t)); cbn [bind]; [apply IHl|discriminate|congruence].
    + destruct (ar_text i) as [c|]; [split; [apply C1|intros; exact I]|].
      apply wrap_fine; [split; [discriminate|intros; exact I]|]. intros _ e. discriminate.
  - cbn [unmarshal].
    assert (O' : of_type t (match v with VPtr w => w | _ => zero t end)).
    { cbn in O. destruct O as [->|(w & -> & O)]; [apply zero_of_type|exact O]. }
    destruct (IHt it fin _ C F O') as [N1 N2]. cbn [unmarshal] in N1, N2.
    match goal with |- fine _ (bind ?r _) => destruct r as [w| |] eqn:E end; cbn [bind]; [|split; [discriminate|intros w' [=]]|congruence].
    split; [discriminate|]. intros w' [= <-]. cbn. right. exists w. split; auto.
  - clear H. assert (Cf := proj1 (calm_struct _ _ _) C). apply of_struct in O. destruct O as (vs & -> & O). cbn [unmarshal].
    match goal with |- fine _ (bind (?f attrs vs) ?g) => set (doattrs := f); set (dokids := g) end.
    assert (A : forall l vs, fields_of fs vs -> doattrs l vs <> Panic /\ forall vs', doattrs l vs = Ok vs' -> fields_of fs vs').
    { clear vs O dokids. induction l as [|a l IHl]; intros vs O; cbn [doattrs].
      - split; [discriminate|]. intros vs' [= <-]. exact O.
      - fold doattrs. destruct (skip_field (translate reg imap emap (a_name a))); [apply IHl; exact O|].
        destruct (find_field ver fs (x_local (translate reg imap emap (a_name a)))) as [j|] eqn:Ej; [|split; [discriminate|intros vs' [=]]].
        destruct (find_field_bound _ _ _ Ej) as (f & t' & Ef). rewrite Ef. destruct (nth_fields _ _ _ _ _ O Ef) as (v' & Ev & Ov). rewrite Ev.
        destruct (attr_fine t' false true v' (a_value a) (calm_nth _ _ _ _ Cf Ef) (fun E => ltac:(discriminate E)) Ov) as [N1 N2].
        destruct (unmarshal_attr t' true v' (a_value a)) as [w| |]; cbn [bind]; [|split; [discriminate|intros vs' [=]]|congruence].
        apply IHl. eapply set_nth_fields; eauto. }
    destruct (A attrs vs O) as [A1 A2]. clearbody doattrs. destruct (doattrs attrs vs) as [vs1| |]; cbn [bind]; [|split; [discriminate|intros w [=]]|congruence].
    specialize (A2 vs1 eq_refl). subst dokids. cbv beta.
    match goal with |- fine _ (?f kids (VStruct vs1)) => set (dokids := f) end.
    assert (K : forall l v, Forall reads_fine l -> of_type (TStruct i fs) v -> fine (TStruct i fs) (dokids l v)).
    { clear - Cf C. induction l as [|c l IHl]; intros v IH O; cbn [dokids].
      - split; [discriminate|]. intros w [= <-]. exact O.
      - fold dokids. inversion IH as [|? ? R IH']; subst.
        destruct (name_full reg (translate reg imap emap (n_name c)) =? "rdf:Description").
        + destruct (R (TStruct i fs) true false v (proj2 (calm_struct _ _ _) Cf) (fun _ => eq_refl) O) as [N1 N2].
          destruct (unmarshal ver reg imap emap c (TStruct i fs) false v) as [w| |]; cbn [bind]; [|split; [discriminate|intros w' [=]]|congruence].
          apply IHl; auto.
        + destruct (skip_field (translate reg imap emap (n_name c))); [apply IHl; auto|].
          destruct (find_field ver fs (name_full reg (translate reg imap emap (n_name c)))) as [j|] eqn:Ej; [|split; [discriminate|intros w [=]]].
          apply of_struct in O. destruct O as (vs & -> & O).
          destruct (find_field_bound _ _ _ Ej) as (f & t' & Ef). rewrite Ef. destruct (nth_fields _ _ _ _ _ O Ef) as (v' & Ev & Ov). rewrite Ev.
          destruct (R t' false true v' (calm_nth _ _ _ _ Cf Ef) (fun E => ltac:(discriminate E)) Ov) as [N1 N2].
          destruct (unmarshal ver reg imap emap c t' true v') as [w| |]; cbn [bind]; [|split; [discriminate|intros w' [=]]|congruence].
          apply IHl; auto. apply of_struct. eexists. split; [reflexivity|]. eapply set_nth_fields; eauto. }
    apply K; [exact IH|]. apply of_struct. eauto.
Qed.
Theorem unmarshal_fine n : reads_fine n.
Proof. apply reads_fine_all. Qed.
End P.

(* ---- documents ------------------------------------------------------------------------------------ *)
Section D.
Context {X : Type}.
Notation node := (node (tmodel X)).
Notation doc := (doc (tmodel X)).
Variable ver : version.
Variable reg : registry.
Variable kinds : nat -> string -> option (mkind X).
Hypothesis Hk : calm_kinds kinds.

Definition ok_model (m : tmodel X) : Prop :=
  Forall (fun f : finfo * ty X => calm false (snd f)) (k_fields (tm_kind m)) /\ fields_of (k_fields (tm_kind m)) (tm_vals m).
Definition ok_node (n : node) : Prop := match n_model n with Some m => ok_model m | None => True end.
Definition fine_nodes (r : result (list node)) : Prop := r <> Panic /\ forall l, r = Ok l -> Forall ok_node l.

Lemma fine_err s : fine_nodes (Err s).
Proof. split; [discriminate|intros l [=]]. Qed.
Lemma fine_ok l : Forall ok_node l -> fine_nodes (Ok l).
Proof. split; [discriminate|]. intros l' [= <-]. assumption. Qed.

Lemma find_index_lt {A} (f : A -> bool) l j : find_index f l = Some j -> j < List.length l.
Proof.
  revert j. induction l as [|a l IH]; intros j; cbn [find_index]; [discriminate|]. destruct (f a); [intros [= <-]; cbn; lia|].
  destruct (find_index f l) as [k|]; [|discriminate]. intros [= <-]. cbn. specialize (IH k eq_refl). lia.
Qed.

Lemma lookup_fine i e (l : list node) x : Forall ok_node l ->
  match lookup_node kinds i e l x with Ok (l', j) => Forall ok_node l' /\ j < List.length l' | Err _ => True | Panic => False end.
Proof.
  intros H. unfold lookup_node. destruct (dec_find_ns i e x) as [ns|]; [|exact I].
  destruct (find_index (matches tm_can (ns_name ns)) l) as [j|] eqn:Ef.
  { split; [assumption|]. exact (find_index_lt _ _ _ Ef). }
  destruct (new_tmodel kinds ns) as [m|] eqn:Em.
  - destruct (k_namespaces (tm_kind m)); [exact I|]. rewrite List.app_length. cbn. split; [|lia].
    apply Forall_app. split; [assumption|]. constructor; [|constructor].
    unfold new_tmodel in Em. destruct (ns_factory ns) as [f|]; [|discriminate]. destruct (kinds f (ns_name ns)) as [k|] eqn:Ek; [|discriminate].
    injection Em as <-. destruct (Hk _ _ _ Ek) as [H1 H2]. split; assumption.
  - rewrite List.app_length. cbn. split; [|lia]. apply Forall_app. split; [assumption|]. constructor; [exact I|constructor].
Qed.

Lemma replace_ok (l : list node) i n : Forall ok_node l -> ok_node n -> Forall ok_node (replace_nth i n l).
Proof.
  intros H Hn. revert i. induction H; intros [|i]; cbn; constructor; auto.
Qed.
Lemma nth_lt {A} (l : list A) i : i < List.length l -> exists x, nth_error l i = Some x.
Proof. intros H. destruct (nth_error l i) eqn:E; [eauto|]. apply nth_error_None in E. lia. Qed.

Lemma node_fine i e (l : list node) src : Forall ok_node l -> fine_nodes (decode_node ver reg kinds i e l src).
Proof.
  intros H. unfold decode_node. assert (L := lookup_fine i e l (n_name src) H).
  destruct (lookup_node kinds i e l (n_name src)) as [[l' j]| |]; cbn [bind]; [|apply fine_err|contradiction].
  destruct L as [L1 L2]. destruct (nth_lt _ _ L2) as [n En]. rewrite En.
  assert (On : ok_node n) by (rewrite Forall_forall in L1; apply L1; eapply nth_error_In; eauto).
  assert (ST : fine_nodes (Ok (if is_zero (translate_tree reg i e (set_name src (translate reg i e (n_name src)))) then l'
     else replace_nth j (add_node n (translate_tree reg i e (set_name src (translate reg i e (n_name src))))) l'))).
  { destruct (is_zero _); apply fine_ok; [assumption|]. apply replace_ok; [assumption|]. destruct n; exact On. }
  destruct (n_model n) as [m|] eqn:Em; [|exact ST].
  destruct (find_field ver (k_fields (tm_kind m)) (full_name reg (set_name src (translate reg i e (n_name src))))) as [k|] eqn:Ef; [|exact ST].
  unfold ok_node in On. rewrite Em in On. destruct On as [O1 O2].
  destruct (find_field_bound _ _ _ _ Ef) as (f & t & Et). rewrite Et. destruct (nth_fields _ _ _ _ _ O2 Et) as (v & Ev & Ov). rewrite Ev.
  destruct (unmarshal_fine (M:=tmodel X) ver reg i e (set_name src (translate reg i e (n_name src))) t false true v (calm_nth _ _ _ _ O1 Et) (fun E => ltac:(discriminate E)) Ov) as [N1 N2].
  destruct (unmarshal ver reg i e (set_name src (translate reg i e (n_name src))) t true v) as [w| |]; cbn [bind]; [|apply fine_err|congruence].
  apply fine_ok. unfold set_field. apply replace_ok; [assumption|]. destruct n. cbn. split; [exact O1|]. cbn. eapply set_nth_fields; eauto.
Qed.

Lemma attribute_fine i e (l : list node) a : Forall ok_node l -> fine_nodes (decode_attribute ver reg kinds i e l a).
Proof.
  intros H. unfold decode_attribute. destruct (skip_field (translate reg i e (a_name a))); [apply fine_ok; assumption|].
  assert (L := lookup_fine i e l (translate reg i e (a_name a)) H).
  destruct (lookup_node kinds i e l (translate reg i e (a_name a))) as [[l' j]| |]; cbn [bind]; [|apply fine_err|contradiction].
  destruct L as [L1 L2]. destruct (nth_lt _ _ L2) as [n En]. rewrite En.
  assert (On : ok_node n) by (rewrite Forall_forall in L1; apply L1; eapply nth_error_In; eauto).
  assert (ST : fine_nodes (Ok (if emptyb (a_value a) then l' else replace_nth j (add_attr n (Attr (translate reg i e (a_name a)) (a_value a))) l'))).
  { destruct (emptyb _); apply fine_ok; [assumption|]. apply replace_ok; [assumption|]. destruct n; exact On. }
  destruct (n_model n) as [m|] eqn:Em; [|exact ST].
  destruct (find_field ver (k_fields (tm_kind m)) (x_local (translate reg i e (a_name a)))) as [k|] eqn:Ef; [|exact ST].
  unfold ok_node in On. rewrite Em in On. destruct On as [O1 O2].
  destruct (find_field_bound _ _ _ _ Ef) as (f & t & Et). rewrite Et. destruct (nth_fields _ _ _ _ _ O2 Et) as (v & Ev & Ov). rewrite Ev.
  destruct (attr_fine t false true v (a_value a) (calm_nth _ _ _ _ O1 Et) (fun E => ltac:(discriminate E)) Ov) as [N1 N2].
  destruct (unmarshal_attr t true v (a_value a)) as [w| |]; cbn [bind]; [|apply fine_err|congruence].
  apply fine_ok. unfold set_field. apply replace_ok; [assumption|]. destruct n. cbn. split; [exact O1|]. cbn. eapply set_nth_fields; eauto.
Qed.

Lemma kids_fine i e kl : forall l, Forall ok_node l -> fine_nodes (decode_kids ver reg kinds i e l kl).
Proof.
  induction kl as [|k kl IH]; intros l H; cbn [decode_kids]; [apply fine_ok; exact H|].
  destruct (node_fine i e l k H) as [N1 N2]. destruct (decode_node ver reg kinds i e l k) as [l1| |]; cbn [bind]; [|apply fine_err|congruence].
  apply IH. auto.
Qed.
Lemma properties_fine i e ps : forall l, Forall ok_node l -> fine_nodes (decode_properties ver reg kinds i e l ps).
Proof.
  induction ps as [|k kl IH]; intros l H; cbn [decode_properties]; [apply fine_ok; exact H|].
  assert (S : fine_nodes (decode_property ver reg kinds i e l k)) by (destruct k; [apply attribute_fine|apply node_fine]; exact H).
  destruct S as [N1 N2]. destruct (decode_property ver reg kinds i e l k) as [l1| |]; cbn [bind]; [|apply fine_err|congruence].
  apply IH. auto.
Qed.

Lemma attrs_not_panic i e al : forall about l, Forall ok_node l ->
  match decode_attrs ver reg kinds i e about l al with Ok (_, l') => Forall ok_node l' | Err _ => True | Panic => False end.
Proof.
  induction al as [|a al IH]; intros about l H; cbn [decode_attrs]; [exact H|].
  destruct (x_space (a_name a) =? ns_rdf_uri); [apply IH; exact H|].
  destruct (attribute_fine i e l a H) as [N1 N2]. destruct (decode_attribute ver reg kinds i e l a) as [l1| |]; cbn [bind]; [|exact I|congruence].
  apply IH. auto.
Qed.
Lemma descriptions_not_panic i e dl : forall about l, Forall ok_node l -> decode_descriptions ver reg kinds i e about l dl <> Panic.
Proof.
  induction dl as [|n dl IH]; intros about l H; cbn [decode_descriptions]; [discriminate|].
  destruct (negb (full_name reg n =? "rdf:Description")); [discriminate|].
  assert (A := attrs_not_panic i e (n_attrs n) about l H).
  destruct (decode_attrs ver reg kinds i e about l (n_attrs n)) as [[about' l']| |]; cbn [bind]; [|discriminate|contradiction].
  destruct (kids_fine i e (n_nodes n) l' A) as [N1 N2]. destruct (decode_kids ver reg kinds i e l' (n_nodes n)) as [l1| |]; cbn [bind]; [|discriminate|congruence].
  apply IH. auto.
Qed.

Variable sync_from : doc -> doc * result unit.
Hypothesis Hsync : forall d, snd (sync_from d) <> Panic.

Theorem decode_never_panics x root : snd (decode ver reg kinds sync_from x root) <> Panic.
Proof.
  unfold decode. destruct (full_name reg root =? "x:xmpmeta").
  - destruct (n_nodes root) as [|r [|? ?]]; cbn [snd]; try discriminate.
    destruct (negb (full_name reg r =? "rdf:RDF")); [discriminate|]. destruct (collect reg (n_nodes r)) as [i e].
    assert (N := descriptions_not_panic i e (n_nodes r) "" [] (Forall_nil _)).
    destruct (decode_descriptions ver reg kinds i e "" [] (n_nodes r)) as [[about nodes]| |]; [apply Hsync|discriminate|congruence].
  - destruct (negb (full_name reg root =? "rdf:RDF")); [discriminate|]. destruct (collect reg (n_nodes root)) as [i e].
    assert (N := descriptions_not_panic i e (n_nodes root) "" [] (Forall_nil _)).
    destruct (decode_descriptions ver reg kinds i e "" [] (n_nodes root)) as [[about nodes]| |]; [apply Hsync|discriminate|congruence].
Qed.

(* ---- JSON ---- *)
Lemma models_fine i e roots : forall l, Forall ok_node l -> fine_nodes (decode_models ver reg kinds i e l roots).
Proof.
  induction roots as [|n roots IH]; intros l H; cbn [decode_models]; [apply fine_ok; exact H|].
  match goal with |- fine_nodes (bind (?f (n_attrs n) l) ?g) => set (doattrs := f); assert (A : forall al l, Forall ok_node l -> fine_nodes (doattrs al l)) end.
  { induction al as [|a al IHa]; intros l0 H0; cbn [doattrs]; [apply fine_ok; exact H0|]. fold doattrs.
    destruct (attribute_fine i e l0 a H0) as [N1 N2]. destruct (decode_attribute ver reg kinds i e l0 a) as [l1| |]; cbn [bind]; [|apply fine_err|congruence]. auto. }
  destruct (A (n_attrs n) l H) as [N1 N2]. clearbody doattrs. destruct (doattrs (n_attrs n) l) as [l1| |]; cbn [bind]; [|apply fine_err|congruence].
  destruct (kids_fine i e (n_nodes n) l1 (N2 _ eq_refl)) as [N3 N4]. destruct (decode_kids ver reg kinds i e l1 (n_nodes n)) as [l2| |]; cbn [bind]; [|apply fine_err|congruence].
  auto.
Qed.
End D.

Section JP.
Context {M : Type}.

Lemma has_in m k : map_has m k = true <-> In k (map fst m).
Proof.
  unfold map_has. destruct (map_get m k) eqn:E.
  - split; [|reflexivity]. intros _. apply map_get_in in E. apply (in_map fst) in E. exact E.
  - apply map_get_none_notin in E. split; [discriminate|tauto].
Qed.
Lemma is_item_like j : is_item j = true <-> item_like j.
Proof.
  unfold item_like. destruct j; cbn [is_item]; try (split; [discriminate|intros (m & [=] & _)]).
  rewrite !andb_true_iff, !has_in, Nat.leb_le. split.
  - intros [[[H1 H2] H3] H4]. eauto 10.
  - intros (m' & [= <-] & H). tauto.
Qed.
Lemma not_item_like j : is_item j = false <-> ~ item_like j.
Proof. rewrite <- is_item_like. destruct (is_item j); split; congruence. Qed.

Lemma alt_lis_typed j : match alt_lis (M:=M) j with Ok _ => typed_item j | Err _ => False | Panic => ~ typed_item j end.
Proof.
  unfold typed_item. destruct j as [|b|s|s|l|m]; cbn [alt_lis]; try (intros (m' & s0 & g & b0 & [=] & _); fail).
  destruct (map_get m "isDefault") as [[| | | | |]|] eqn:E1; [ | | | | | | ];
    try (intros (m' & sx & gx & bx & K & A & B & C); injection K as <-; congruence).
  destruct (map_get m "lang") as [[| | | | |]|] eqn:E2;
    try (intros (m' & sx & gx & bx & K & A & B & C); injection K as <-; congruence).
  destruct (map_get m "value") as [[| | | | |]|] eqn:E3;
    try (intros (m' & sx & gx & bx & K & A & B & C); injection K as <-; congruence).
  do 4 eexists. repeat split; eassumption.
Qed.
Lemma all_alt_typed l : match all_alt_lis (M:=M) l with Ok _ => Forall typed_item l | Err _ => False | Panic => exists y, In y l /\ ~ typed_item y end.
Proof.
  induction l as [|j l IH]; cbn [all_alt_lis]; [constructor|].
  assert (A := alt_lis_typed j). destruct (alt_lis j) as [a| |]; cbn [bind]; [|contradiction|exists j; split; [left; reflexivity|exact A]].
  destruct (all_alt_lis l) as [b| |]; cbn [bind]; [constructor; assumption|contradiction|].
  destruct IH as (y & H1 & H2). exists y. split; [right; assumption|assumption].
Qed.

Fixpoint json_ind' (P : json -> Prop) (Hs : forall j, match j with JArr _ | JObj _ => False | _ => True end -> P j)
  (Ha : forall l, Forall P l -> P (JArr l)) (Ho : forall m, Forall (fun kv => P (snd kv)) m -> P (JObj m)) (j : json) : P j :=
  match j with
  | JArr l => Ha l ((fix go (l : list json) : Forall P l := match l with [] => Forall_nil _ | x :: r => Forall_cons x (json_ind' P Hs Ha Ho x) (go r) end) l)
  | JObj m => Ho m ((fix go (m : list (string * json)) : Forall (fun kv => P (snd kv)) m :=
                match m with [] => Forall_nil _ | x :: r => Forall_cons x (json_ind' P Hs Ha Ho (snd x)) (go r) end) m)
  | j => Hs j I
  end.

(* converted, or a crash described by SpecPanic.v *)
Definition settled (name : string) (j : json) (r : result (node M)) : Prop :=
  match r with Ok _ => ~ crashes (negb (emptyb name)) j | Err _ => False | Panic => crashes (negb (emptyb name)) j end.

Lemma crashes_member_cases m k v (Hin : In (k, v) m) nm :
  crashes (negb (emptyb (if is_item (JObj m) && (k =? "value") then "" else k))) v -> crashes nm (JObj m).
Proof.
  intros H. destruct (is_item (JObj m) && (k =? "value")) eqn:E.
  - apply andb_true_iff in E. destruct E as [E1 E2]. apply is_item_like in E1. apply String.eqb_eq in E2.
    eapply cr_unnamed; [exact Hin|right; auto|exact H].
  - destruct k as [|ch k].
    + eapply cr_unnamed; [exact Hin|left; reflexivity|exact H].
    + eapply cr_member; [exact Hin|discriminate| |exact H]. intros [H1 H2]. apply is_item_like in H1. rewrite H1, H2 in E. discriminate.
Qed.
Lemma crashes_obj_inv nm m : crashes nm (JObj m) -> exists k v, In (k, v) m /\ crashes (negb (emptyb (if is_item (JObj m) && (k =? "value") then "" else k))) v.
Proof.
  intros H. inversion H; subst.
  - match goal with K : k <> "" |- _ => rename K into Hk0 end. exists k, v. split; [assumption|].
    assert (E : is_item (JObj m) && (k =? "value") = false).
    { destruct (is_item (JObj m)) eqn:E1; [|reflexivity]. apply is_item_like in E1. apply String.eqb_neq. intros ->. tauto. }
    rewrite E. apply emptyb_false in Hk0. rewrite Hk0. assumption.
  - match goal with K : k = "" \/ _ |- _ => rename K into Hk0 end. exists k, v. split; [assumption|]. destruct Hk0 as [->|[E1 ->]].
    + replace (is_item (JObj m) && ("" =? "value")) with false by (symmetry; apply andb_false_r). assumption.
    + apply is_item_like in E1. rewrite E1. assumption.
Qed.

Theorem json_to_node_settled j : forall name n, settled name j (json_to_node name j n).
Proof.
  induction j using json_ind'; intros name n.
  - destruct j; cbn in *; try tauto; try (intros C; inversion C).
  - cbn [json_to_node]. destruct (emptyb name) eqn:En.
    + unfold settled. rewrite En. cbn. intros C. inversion C.
    + unfold settled. rewrite En. cbn [negb]. destruct (json_array_type l =? "Alt") eqn:Et.
      * assert (A := all_alt_typed l). destruct l as [|x r]; [discriminate|]. cbn [json_array_type] in Et. destruct (is_item x) eqn:Ei; [|discriminate].
        apply is_item_like in Ei. destruct (all_alt_lis (M:=M) (x :: r)) as [lis| |]; cbn [bind]; [|contradiction|].
        -- intros C. inversion C; subst; [|contradiction]. rewrite Forall_forall in A. auto.
        -- destruct A as (y & H1 & H2). eapply cr_alt; eauto.
      * match goal with |- match bind (?f l) _ with _ => _ end => set (go := f);
          assert (A : forall l, Forall (fun j => forall name n, settled name j (json_to_node name j n)) l ->
             match go l with Ok _ => Forall (fun j => ~ crashes false j) l | Err _ => False | Panic => exists y, In y l /\ crashes false y end) end.
        { induction l0 as [|y l0 IHl]; intros F; cbn [go]; [constructor|]. fold go. inversion F; subst.
          assert (S := H2 "" (json_li (M:=M))). unfold settled in S. cbn [emptyb negb] in S.
          destruct (json_to_node "" y json_li) as [a| |]; cbn [bind]; [|contradiction|exists y; split; [left; reflexivity|exact S]].
          specialize (IHl H3). destruct (go l0) as [b| |]; cbn [bind]; [constructor; assumption|contradiction|].
          destruct IHl as (z & Z1 & Z2). exists z. split; [right; assumption|assumption]. }
        specialize (A l H). clearbody go. destruct (go l) as [lis| |]; cbn [bind]; [|contradiction|].
        -- intros C. destruct l as [|x r]; inversion C; subst.
           ++ cbn [json_array_type] in Et. apply is_item_like in H2. rewrite H2 in Et. discriminate.
           ++ rewrite Forall_forall in A. apply (A y); assumption.
        -- destruct A as (y & H1 & H2). destruct l as [|x r]; [contradiction|]. eapply cr_elem; eauto.
           apply not_item_like. cbn [json_array_type] in Et. destruct (is_item x); [discriminate|reflexivity].
  - cbn [json_to_node].
    set (flag := is_item (JObj m)).
    match goal with |- context [ (fix go (m' : list (string * json)) (n : node M) {struct m'} : result (node M) := @?b go m' n) ] => idtac end.
    assert (A : forall l, Forall (fun kv => forall name n, settled name (snd kv) (json_to_node name (snd kv) n)) l -> forall n,
       match (fix go (m' : list (string * json)) (n : node M) : result (node M) :=
           match m' with
           | [] => Ok n
           | (on, ov) :: r => bind (json_to_node (if flag && (on =? "value") then "" else on) ov n) (fun n => go r n)
           end) l n with
       | Ok _ => Forall (fun kv => ~ crashes (negb (emptyb (if flag && (fst kv =? "value") then "" else fst kv))) (snd kv)) l
       | Err _ => False
       | Panic => exists k v, In (k, v) l /\ crashes (negb (emptyb (if flag && (k =? "value") then "" else k))) v
       end).
    { induction l as [|[k v] l IHl]; intros F n0; [constructor|]. inversion F; subst. cbn [snd] in H2.
      assert (S := H2 (if flag && (k =? "value") then "" else k) n0). unfold settled in S.
      destruct (json_to_node (if flag && (k =? "value") then "" else k) v n0) as [a| |]; cbn [bind]; [|contradiction|].
      - specialize (IHl H3 a). match goal with |- match ?r with _ => _ end => destruct r end; [constructor; assumption|contradiction|].
        destruct IHl as (k' & v' & Z1 & Z2). exists k', v'. split; [right; assumption|assumption].
      - exists k, v. split; [left; reflexivity|exact S]. }
    unfold settled. destruct (emptyb name).
    + specialize (A m H n). match goal with |- match ?r with _ => _ end => destruct r end; [|contradiction|].
      * intros C. destruct (crashes_obj_inv _ _ C) as (k & v & H1 & H2). rewrite Forall_forall in A. exact (A (k, v) H1 H2).
      * destruct A as (k & v & H1 & H2). eapply crashes_member_cases; eauto.
    + specialize (A m H (new_node (new_name name))). match goal with |- match bind ?r _ with _ => _ end => destruct r end; cbn [bind]; [|contradiction|].
      * intros C. destruct (crashes_obj_inv _ _ C) as (k & v & H1 & H2). rewrite Forall_forall in A. exact (A (k, v) H1 H2).
      * destruct A as (k & v & H1 & H2). eapply crashes_member_cases; eauto.
Qed.
End JP.

Section FJ.
Context {X : Type}.
Variable ver : version.
Variable reg : registry.
Variable kinds : nat -> string -> option (mkind X).

Lemma model_nodes_settled (l : list (string * json)) : json_safe l -> model_nodes (X:=X) l <> Panic.
Proof.
  induction l as [|[name v] l IH]; intros H; cbn [model_nodes]; [discriminate|].
  assert (IH' := IH (fun nm m k v' H1 H2 => H nm m k v' (or_intror H1) H2)). clear IH.
  destruct v as [| | | |?|m]; cbn [bind]; try discriminate.
  { destruct (model_nodes l); cbn [bind]; congruence. }
  match goal with |- bind (?f m ?n) _ <> _ => set (go := f); assert (A : forall m', incl m' m -> forall n0, go m' n0 <> Panic) end.
  { induction m' as [|[on ov] m' IHm]; intros Hi n0; cbn [go]; [discriminate|]. fold go.
    assert (S := json_to_node_settled (M:=tmodel X) ov on n0). destruct (json_to_node on ov n0) as [a| |]; cbn [bind]; [|discriminate|].
    - apply IHm. intros y Hy. apply Hi. right. exact Hy.
    - cbn in S. exfalso. destruct (H name m on ov (or_introl eq_refl) (Hi _ (or_introl eq_refl))) as [S1 S2].
      destruct on; [exact (S2 eq_refl S)|]. apply S1; [discriminate|exact S]. }
  specialize (A m (fun y Hy => Hy) (new_node (new_name name))). clearbody go. destruct (go m (new_node (new_name name))); cbn [bind]; [|discriminate|congruence].
  destruct (model_nodes l); cbn [bind]; congruence.
Qed.

Theorem from_json_never_panics sync_from x j : calm_kinds kinds -> (forall d, snd (sync_from d) <> Panic) -> json_safe (j_models j) ->
  snd (from_json ver reg kinds sync_from x j) <> Panic.
Proof.
  intros Hk Hs Hj. unfold from_json. match goal with |- context [let '(i, e) := ?f in _] => destruct f as [i e] end.
  assert (N := model_nodes_settled _ Hj). destruct (model_nodes (j_models j)) as [roots| |]; cbn [bind]; [|discriminate|congruence].
  destruct (models_fine ver reg kinds Hk i e roots [] (Forall_nil _)) as [N1 N2].
  destruct (decode_models ver reg kinds i e [] roots); [apply Hs|discriminate|congruence].
Qed.
End FJ.
