(* Writing: the node of a typed value has the form of its value. Reading that node from XML gives a node that
   holds the value (TreeFacts.v). *)
From Coq Require Import List Arith ZArith Bool Ascii String Permutation Lia.
From Verif Require Import GoStr GoStrFacts GoMap Names Semver RegistryM NodeM DocM ArrayM TypeM DecodeM JsonM SpecJson SpecType SpecTree TypeFacts TreeFacts.
Import ListNotations.
Local Open Scope string_scope.

Section Form.
Context {M : Type}.
Notation node := (node M).
Variable T : list string.      (* the array types in use *)

Definition attr_of (f : string * string) : attr := Attr (new_name (fst f)) (snd f).
Definition leaf_of (f : string * string) : string * pval := (fst f, PLeaf (snd f)).

Inductive forms : node -> pval -> Prop :=
| fo_leaf x s : forms (Node (new_name x) [] None s []) (PLeaf s)
| fo_record x am mk kl kfs fs :
    mk = [] \/ mk = [rdf_resource_attr] ->
    Forall2 (fun c f => n_name c = new_name (fst f) /\ forms c (snd f)) kl kfs ->
    Permutation fs (map leaf_of am ++ kfs) ->
    forms (Node (new_name x) (map attr_of am ++ mk) None "" kl) (PRecord fs)
| fo_list x typ items l : In typ T ->
    Forall2 (fun c t => n_name c = new_name "rdf:li" /\ forms c t) items l ->
    forms (Node (new_name x) [] None "" [Node (new_name ("rdf:" ++ typ)) [] None "" items]) (PList l)
| fo_alts x l : forms (Node (new_name x) [] None "" [Node (new_name "rdf:Alt") [] None "" (map (fun i => li_of (fst i) (snd i)) l)]) (PAlts l).

Section Ind.
Variable P : node -> pval -> Prop.
Hypothesis Pleaf : forall x s, P (Node (new_name x) [] None s []) (PLeaf s).
Hypothesis Precord : forall x am mk kl kfs fs, mk = [] \/ mk = [rdf_resource_attr] ->
    Forall2 (fun c f => n_name c = new_name (fst f) /\ forms c (snd f) /\ P c (snd f)) kl kfs ->
    Permutation fs (map leaf_of am ++ kfs) -> P (Node (new_name x) (map attr_of am ++ mk) None "" kl) (PRecord fs).
Hypothesis Plist : forall x typ items l, In typ T ->
    Forall2 (fun c t => n_name c = new_name "rdf:li" /\ forms c t /\ P c t) items l ->
    P (Node (new_name x) [] None "" [Node (new_name ("rdf:" ++ typ)) [] None "" items]) (PList l).
Hypothesis Palts : forall x l, P (Node (new_name x) [] None "" [Node (new_name "rdf:Alt") [] None "" (map (fun i => li_of (fst i) (snd i)) l)]) (PAlts l).
Fixpoint forms_ind2 n t (H : forms n t) : P n t :=
  match H with
  | fo_leaf x s => Pleaf x s
  | fo_record x am mk kl kfs fs Hm F Pm =>
      Precord x am mk kl kfs fs Hm
        ((fix go kl kfs (F : Forall2 (fun c f => n_name c = new_name (fst f) /\ forms c (snd f)) kl kfs) :
            Forall2 (fun c f => n_name c = new_name (fst f) /\ forms c (snd f) /\ P c (snd f)) kl kfs :=
            match F with
            | Forall2_nil _ => Forall2_nil _
            | @Forall2_cons _ _ _ c f l' k' (conj A B) F' => @Forall2_cons _ _ _ c f l' k' (conj A (conj B (forms_ind2 _ _ B))) (go _ _ F')
            end) kl kfs F) Pm
  | fo_list x typ items l Ht F =>
      Plist x typ items l Ht
        ((fix go items l (F : Forall2 (fun c t => n_name c = new_name "rdf:li" /\ forms c t) items l) :
            Forall2 (fun c t => n_name c = new_name "rdf:li" /\ forms c t /\ P c t) items l :=
            match F with
            | Forall2_nil _ => Forall2_nil _
            | @Forall2_cons _ _ _ c f l' k' (conj A B) F' => @Forall2_cons _ _ _ c f l' k' (conj A (conj B (forms_ind2 _ _ B))) (go _ _ F')
            end) items l F)
  | fo_alts x l => Palts x l
  end.
End Ind.
End Form.

Section W.
Context {X M : Type}.
Notation gval := (gval X).
Notation ty := (ty X).
Notation node := (node M).
Variable ver : version.
Notation marshal := (@marshal X M ver).
Notation storable := (@storable X ver).
Notation attr_ok := (@attr_ok X ver).
Notation left_out := (@left_out X ver).
Notation wf_ty := (@wf_ty X ver).
Notation tree_of := (@tree_of X ver).
Notation members := (@members X ver).
Variable T : list string.
Notation forms := (@forms M T).

Notation arrays_in := (@arrays_in X ver T).
Fixpoint fields_arr (fs : list (finfo * ty)) (vs : list gval) : Prop :=
  match fs, vs with
  | (f, t') :: fs', v' :: vs' => (left_out f t' v' = false -> f_attr f = false -> arrays_in t' v') /\ fields_arr fs' vs'
  | _, _ => True
  end.
Lemma arrays_in_fields i fs vs : arrays_in (TStruct i fs) (VStruct vs) = fields_arr fs vs.
Proof. reflexivity. Qed.
Lemma arrays_in_items i t l sp : arrays_in (TArr i t) (VArr l sp) <-> (ar_xmp i = true -> In (ar_type i) T /\ Forall (arrays_in t) l).
Proof.
  cbn [SpecTree.arrays_in].
  assert (E : ((fix all (l : list gval) : Prop := match l with [] => True | x :: r => arrays_in t x /\ all r end) l) <-> Forall (arrays_in t) l).
  { induction l as [|x l IH]; [split; constructor|]. rewrite Forall_cons_iff, IH. reflexivity. }
  tauto.
Qed.

Lemma attr_text_str t : forall v s, attr_ok t v -> attr_text t v = Ok (Some s) -> s = attr_str t v.
Proof.
  induction t as [| | | bi | bu | c | m | i t IH | t IH | i fs IH] using ty_nested_ind; intros v s H E1;
    try (destruct v; try contradiction; cbn in E1; injection E1 as <-; reflexivity).
  - cbn in E1. assert (Ea : attr_str (TText c) v = text_of c v) by (destruct v; reflexivity). rewrite Ea. unfold text_of. now rewrite E1.
  - destruct v; try contradiction. cbn in H, E1. cbn. destruct (ar_text i) as [c|]; [|contradiction]. unfold text_of. now rewrite E1.
  - destruct v; try contradiction. cbn in *. eauto.
Qed.

(* the members written as attributes and those written as elements *)
Fixpoint attr_mem (fs : list (finfo * ty)) (vs : list gval) : list (string * string) :=
  match fs, vs with
  | (f, t) :: fs', v :: vs' =>
      if negb (left_out f t v) && f_attr f then (f_name f, attr_str t v) :: attr_mem fs' vs' else attr_mem fs' vs'
  | _, _ => []
  end.
Fixpoint elem_mem (fs : list (finfo * ty)) (vs : list gval) : list (string * pval) :=
  match fs, vs with
  | (f, t) :: fs', v :: vs' =>
      if negb (left_out f t v) && negb (f_attr f) then (f_name f, tree_of t v) :: elem_mem fs' vs' else elem_mem fs' vs'
  | _, _ => []
  end.
Lemma members_split fs : forall vs, Permutation (members fs vs) (map leaf_of (attr_mem fs vs) ++ elem_mem fs vs).
Proof.
  induction fs as [|[f t] fs IH]; intros [|v vs]; cbn [TreeFacts.members attr_mem elem_mem]; try apply Permutation_refl.
  destruct (left_out f t v); cbn [negb andb]; [apply IH|]. unfold member. destruct (f_attr f); cbn [negb].
  - cbn [map List.app]. apply perm_skip, IH.
  - apply Permutation_cons_app, IH.
Qed.
Lemma attrs_of_mem fs : forall vs, fields_ok ver fs vs -> attrs_of ver fs vs = map attr_of (attr_mem fs vs).
Proof.
  induction fs as [|[f t] fs IH]; intros [|v vs] H; try contradiction; [reflexivity|]. destruct H as [Hf H]. cbn [attrs_of attr_mem].
  rewrite left_out_eq in *. rewrite negb_involutive. destruct (present ver f t v), (f_attr f); cbn [andb negb] in *; auto.
  destruct (attr_rt ver t v true (Hf eq_refl)) as (s & E1 & _). rewrite E1. cbn [map]. rewrite <- IH by exact H. f_equal. unfold attr_of. cbn [fst snd].
  f_equal. now apply attr_text_str; [apply Hf|].
Qed.

Definition written (t : ty) : Prop := forall v x, wf_ty t -> arrays_in t v -> storable t v ->
  exists n, marshal t v (new_node (new_name x)) = Ok n /\ n_name n = new_name x /\ forms n (tree_of t v).

Lemma elems_written fs : forall vs n have, Forall (fun f => written (snd f) /\ wf_ty (snd f)) fs -> fields_arr fs vs -> fields_ok ver fs vs ->
  NoDup (map f_name (filter (in_version ver) (map fst fs))) ->
  (forall c f, In c (n_nodes n) -> In f (map fst fs) -> active ver f = true -> x_local (n_name c) <> f_name f) ->
  exists (N : list node) h, marshal_elems ver fs vs n have = Ok (finish h (set_nodes n (n_nodes n ++ N)%list)) /\
    Forall2 (fun c f => n_name c = new_name (fst f) /\ forms c (snd f)) N (elem_mem fs vs).
Proof.
  induction fs as [|[f t] fs IH]; intros [|v vs] n have HS HR H ND D; try contradiction.
  - exists [], have. split; [|constructor]. cbn [marshal_elems]. rewrite List.app_nil_r, set_nodes_id. reflexivity.
  - apply Forall_cons_iff in HS. destruct HS as [(S1 & W1) HS]. cbn [snd] in S1, W1. destruct HR as [A1 HR]. destruct H as [Hf H]. destruct (names_head ver f t fs ND) as [ND' Hd].
    cbn [marshal_elems elem_mem]. rewrite left_out_eq in *. rewrite negb_involutive.
    destruct (present ver f t v) eqn:Ep; cbn [negb andb] in *; rewrite ?andb_false_r, ?andb_true_r.
    + destruct (f_attr f) eqn:Ea; cbn [negb].
      * apply IH; auto. intros c g Hc Hg Ha. apply D; auto. now right.
      * destruct (S1 v (f_name f) W1 (A1 eq_refl eq_refl) (Hf eq_refl)) as (c & Ec & Nc & Fc). rewrite Ec. cbn [bind].
        assert (Ad : add_node n c = set_nodes n (n_nodes n ++ [c])%list).
        { unfold add_node. rewrite nl_add_new; [reflexivity|]. intros w Hw. rewrite Nc. cbn.
          apply (D w f Hw); [now left|now apply (active_present ver f t v)]. }
        destruct (IH vs (add_node n c) true HS HR H ND') as (N & h & E & HN).
        { intros w g Hw Hg Ha. rewrite Ad, nodes_set in Hw. apply in_app_or in Hw. destruct Hw as [Hw|[<-|[]]].
          - apply (D w g Hw); auto. now right.
          - rewrite Nc. cbn. intros Eq. apply (Hd (active_present ver f t v Ep) g Hg Ha). now symmetry. }
        exists (c :: N), h. split.
        -- rewrite E, Ad, set_nodes_twice, nodes_set, <- List.app_assoc. reflexivity.
        -- constructor; [split; [exact Nc|exact Fc]|exact HN].
    + apply IH; auto. intros c g Hc Hg Ha. apply D; auto. now right.
Qed.

Lemma alt_nodes_written single l : Forall (writable_item single) l ->
  alt_nodes (M:=M) single l = Ok (map (fun i => li_of (fst i) (snd i)) (flat_map alt_pairs l)).
Proof.
  induction l as [|x l IH]; intros H; [reflexivity|]. apply Forall_cons_iff in H. destruct H as [[Hx Hl] H]. cbn [alt_nodes flat_map].
  assert (A : alt_item_nodes (M:=M) single x = Ok (map (fun i => li_of (fst i) (snd i)) (alt_pairs x))).
  { unfold alt_item_nodes, alt_pairs. destruct (ai_default x) eqn:Ed; cbn [orb].
    - destruct (ai_lang x) as [|ch g]; reflexivity.
    - destruct Hl as [Hl|Hl]; [discriminate|]. destruct (ai_lang x) as [|ch g]; [now elim Hl|]. cbn [emptyb]. destruct single; reflexivity. }
  rewrite A, (IH H). cbn [bind]. now rewrite map_app.
Qed.

Theorem marshal_written t : written t.
Proof.
  induction t as [| | | bi | bu | c | m | i t IH | t IH | i fs IH] using ty_nested_ind; intros v x W HA H;
    try (destruct v; try contradiction; eexists; split; [reflexivity|]; split; [reflexivity|]; apply fo_leaf).
  - assert (H' : text_back c (c_zero c) v v (Some "")) by (destruct v; exact H).
    unfold text_back in H'. cbn [TypeM.marshal]. unfold marshal_text.
    assert (Et : tree_of (TText c) v = PLeaf (text_of c v)) by (destruct v; reflexivity). rewrite Et. unfold text_of.
    destruct (c_enc c v) as [[s|]|e|]; try contradiction; (eexists; split; [reflexivity|]; split; [reflexivity|]; apply fo_leaf).
  - destruct v; try contradiction. cbn [SpecType.storable] in H. cbn [TypeM.marshal SpecTree.tree_of]. unfold marshal_alt.
    assert (Hl : l <> []) by apply H. destruct l as [|a l]; [now elim Hl|].
    rewrite alt_nodes_written by (eapply alt_ok_writable; exact H). cbn [bind]. eexists. split; [reflexivity|]. split; [reflexivity|].
    exact (fo_alts T x (flat_map alt_pairs (a :: l))).
  - destruct v as [| | | | |l sp| | |]; try contradiction. destruct W as [Wi Wt]. rewrite arrays_in_items in HA.
    rewrite storable_items in H. rewrite marshal_arr. cbn [SpecTree.tree_of]. destruct (ar_xmp i) eqn:Ex.
    + destruct H as [Hn H]. destruct (HA eq_refl) as [HAi HAt].
      assert (A : exists its, marshal_list (M:=M) ver t l = Ok its /\ Forall2 (fun c t => n_name c = new_name "rdf:li" /\ forms c t) its (map (tree_of t) l)).
      { clear Hn HA. induction l as [|y l IHl]; [exists []; split; [reflexivity|constructor]|]. apply Forall_cons_iff in H. destruct H as [Hy H].
        apply Forall_cons_iff in HAt. destruct HAt as [HAy HAt].
        destruct (IHl H HAt) as (its & E & F). destruct (IH y "rdf:li" Wt HAy Hy) as (c & Ec & Nc & Fc).
        exists (c :: its). split; [|constructor; auto]. cbn [marshal_list]. change (@TypeM.li_node M) with (@new_node M (new_name "rdf:li")).
        rewrite Ec. cbn [bind]. fold (marshal_list (M:=M) ver t). now rewrite E. }
      destruct A as (its & E & F). unfold marshal_items. destruct l as [|y l]; [now elim Hn|]. rewrite E. cbn [bind].
      eexists. split; [reflexivity|]. split; [reflexivity|]. exact (fo_list T x (ar_type i) its (map (tree_of t) (y :: l)) HAi F).
    + destruct (ar_text i) as [c|] eqn:Et; [|contradiction]. unfold text_back in H. unfold marshal_text, text_of.
      destruct (c_enc c (VArr l sp)) as [[s|]|e|]; try contradiction; (eexists; split; [reflexivity|]; split; [reflexivity|]; apply fo_leaf).
  - destruct v as [| | | | | | |v|]; try contradiction. cbn [SpecType.storable] in H. destruct W as [_ W]. exact (IH v x W HA H).
  - destruct v as [| | | | | | | |vs]; try contradiction. rewrite storable_struct in H.
    apply (wf_struct ver) in W. destruct W as (ND & R & W). rewrite arrays_in_fields in HA. rewrite marshal_struct, tree_struct, blank_eq.
    destruct (s_guard i && is_empty (TStruct i fs) (VStruct vs)).
    + eexists. split; [reflexivity|]. split; [reflexivity|]. apply (fo_record T x [] [] [] [] []); [now left|constructor|constructor].
    + rewrite marshal_attrs_ok by (auto; intros a f []). cbn [bind].
      set (n1 := set_attrs (new_node (new_name x)) (n_attrs (new_node (new_name x)) ++ attrs_of ver fs vs)%list).
      assert (HS : Forall (fun f => written (snd f) /\ wf_ty (snd f)) fs).
      { clear -IH W. induction fs; constructor; inversion IH; inversion W; subst; auto. }
      destruct (elems_written fs vs n1 false HS HA H ND) as (N & h & E & F).
      { intros c f Hc. unfold n1 in Hc. destruct Hc. }
      rewrite E. eexists. split; [reflexivity|]. split; [unfold finish; destruct (_ && _); reflexivity|].
      assert (Ap : Permutation (members fs vs) (map leaf_of (attr_mem fs vs) ++ elem_mem fs vs)) by apply members_split.
      assert (A1 : n_attrs (set_nodes n1 (n_nodes n1 ++ N)) = map attr_of (attr_mem fs vs)).
      { unfold n1. cbn. now apply attrs_of_mem. }
      assert (A2 := attrs_finish h (set_nodes n1 (n_nodes n1 ++ N))). rewrite A1 in A2.
      assert (A3 : forall a, In a (map attr_of (attr_mem fs vs)) -> x_local (a_name a) <> "rdf:parseType").
      { rewrite <- attrs_of_mem by exact H. intros a Ha. apply attrs_of_names in Ha. destruct Ha as (f & If & _ & ->). cbn.
        now destruct (not_reserved f (R f If)). }
      specialize (A2 A3).
      assert (Ef : finish h (set_nodes n1 (n_nodes n1 ++ N)) = Node (new_name x) (n_attrs (finish h (set_nodes n1 (n_nodes n1 ++ N)))) None "" N).
      { unfold finish. destruct (_ && _); reflexivity. }
      rewrite Ef, A2. eapply fo_record; [|exact F|exact Ap]. destruct (_ && _); auto.
Qed.
End W.

Lemma wf_arrays {X} ver (t : ty X) : wf_ty ver t -> forall v, arrays_in ver ["Seq"; "Bag"; "Alt"] t v.
Proof.
  induction t as [| | | bi | bu | c | m | i t IH | t IH | i fs IH] using ty_nested_ind; intros W v; try exact I.
  - destruct W as [Wi Wt]. destruct v; try exact I. apply arrays_in_items. intros E. split; [auto|]. apply Forall_forall. auto.
  - destruct W as [_ W]. destruct v; try exact I. exact (IH W _).
  - apply wf_struct in W. destruct W as (_ & _ & W). destruct v; try exact I. rewrite arrays_in_fields. clear -IH W. revert vs.
    induction fs as [|[f t] fs IHf]; intros [|v vs]; try exact I. inversion IH; inversion W; subst. split; [auto|apply IHf; auto].
Qed.
Lemma wf_fields_arr {X} ver (fs : list (finfo * ty X)) : Forall (fun f => wf_ty ver (snd f)) fs -> forall vs, fields_arr ver ["Seq"; "Bag"; "Alt"] fs vs.
Proof.
  induction fs as [|[f t] fs IHf]; intros W [|v vs]; try exact I. inversion W; subst. split; [|apply IHf; auto]. intros _ _. now apply wf_arrays.
Qed.

(* ---- reading the written node from XML ------------------------------------------------------------- *)

(* a property of all member names of a value *)
Fixpoint all_names (P : string -> Prop) (t : pval) : Prop :=
  match t with
  | PRecord fs => (fix all (l : list (string * pval)) : Prop := match l with [] => True | f :: r => (P (fst f) /\ all_names P (snd f)) /\ all r end) fs
  | PList l => (fix all (l : list pval) : Prop := match l with [] => True | x :: r => all_names P x /\ all r end) l
  | _ => True
  end.
Lemma all_names_fields P fs : all_names P (PRecord fs) <-> Forall (fun f => P (fst f) /\ all_names P (snd f)) fs.
Proof.
  cbn [all_names]. induction fs as [|f fs IH]; [split; constructor|]. rewrite Forall_cons_iff, <- IH. reflexivity.
Qed.
Lemma all_names_items P l : all_names P (PList l) <-> Forall (all_names P) l.
Proof.
  cbn [all_names]. induction l as [|f l IH]; [split; constructor|]. rewrite Forall_cons_iff, <- IH. reflexivity.
Qed.

Section R.
Context {X : Type}.
Notation node := (node (tmodel X)).
Variable reg : registry.
Variables imap emap : gomap namespace.
Variable env : gomap string.
Notation translate := (translate reg imap emap).
Variable T : list string.
Hypothesis HT : incl T ["Seq"; "Bag"; "Alt"].
Notation forms := (@forms (tmodel X) T).
Hypothesis Henv : map_get env "rdf" = Some ns_rdf_uri.
Hypothesis Hreg : reg_get_prefix reg ns_rdf_uri = "rdf".
Hypothesis Hmark : skip_field (translate (XName ns_rdf_uri "parseType")) = true.

Definition usable (s : string) : Prop :=
  translate (read_name env (new_name s)) = new_name s /\ get_prefix s <> "xmlns" /\ skip_field (new_name s) = false.

Lemma read_rdf l : read_name env (new_name ("rdf:" ++ l)) = XName ns_rdf_uri l.
Proof.
  unfold read_name. cbn [new_name x_local].
  change (index_char ":" ("rdf:" ++ l)) with (Some 3). cbv iota zeta. change (stake 3 ("rdf:" ++ l)) with "rdf".
  change (sdrop 4 ("rdf:" ++ l)) with l. change ("rdf" =? "xmlns") with false. change ("rdf" =? "xml") with false. cbv iota. now rewrite Henv.
Qed.
Lemma declare_none al : Forall (fun a => get_prefix (x_local (a_name a)) <> "xmlns") al -> declare env al = env.
Proof.
  unfold declare. generalize env. clear. induction al as [|a al IH]; intros env F; [reflexivity|]. inversion F; subst. cbn [fold_left].
  rewrite (proj2 (String.eqb_neq _ _) H1). auto.
Qed.
Lemma xml_read_eq x a m v (l : list node) : Forall (fun a => get_prefix (x_local (a_name a)) <> "xmlns") a ->
  xml_read env (Node x a m v l) =
  Node (read_name env x) (map (fun b => Attr (read_name env (a_name b)) (a_value b)) a) m (trim_space v) (map (xml_read env) l).
Proof. intros F. cbn [xml_read]. rewrite declare_none by exact F. reflexivity. Qed.

Lemma xml_read_name (c : node) : Forall (fun a => get_prefix (x_local (a_name a)) <> "xmlns") (n_attrs c) -> n_name (xml_read env c) = read_name env (n_name c).
Proof. intros F. destruct c. rewrite xml_read_eq by exact F. reflexivity. Qed.
Lemma forms_attrs (n : node) t : forms n t -> all_names usable t -> Forall (fun a => get_prefix (x_local (a_name a)) <> "xmlns") (n_attrs n).
Proof.
  intros H A. inversion H; subst; cbn [n_attrs]; try constructor. apply all_names_fields in A. apply Forall_app. split.
  - rewrite H2 in A. apply Forall_app in A. destruct A as [A _]. clear -A. induction am as [|f am IH]; cbn [map] in *; constructor; inversion A; subst; auto.
    cbn. apply H1.
  - destruct H0 as [->| ->]; [constructor|]. constructor; [|constructor]. vm_compute. discriminate.
Qed.

Lemma perm_Forall {A} (P : A -> Prop) l l' : Permutation l l' -> Forall P l -> Forall P l'.
Proof. intros H F. eapply Permutation_Forall; eauto. Qed.

Theorem forms_xml (n : node) t : forms n t -> all_names usable t -> holds reg imap emap (xml_read env n) t.
Proof.
  intros F0. refine (forms_ind2 T (fun n t => all_names usable t -> holds reg imap emap (xml_read env n) t) _ _ _ _ n t F0); clear n t F0.
  - intros x s _. apply ho_leaf. right. reflexivity.
  - intros x am mk kl kfs fs Hm F P A. assert (A' := A). apply all_names_fields in A. apply (perm_Forall _ _ _ P) in A. apply Forall_app in A. destruct A as [A1 A2].
    rewrite xml_read_eq.
    2:{ apply (forms_attrs (Node (new_name x) (map attr_of am ++ mk) None "" kl) (PRecord fs)); [|exact A'].
        econstructor; eauto. clear -F. induction F as [|? ? ? ? (B & C & D)]; constructor; auto. }
    apply (ho_record _ _ _ _ fs (map leaf_of am) kfs); [| |exact P]; cbn [n_attrs n_nodes].
    + assert (E : filter (real_attr reg imap emap) (map (fun b => Attr (read_name env (a_name b)) (a_value b)) (map attr_of am ++ mk)%list)
                  = map (fun f => Attr (read_name env (new_name (fst f))) (snd f)) am).
      { rewrite map_app, filter_app. rewrite map_map.
        replace (filter _ (map _ mk)) with (@nil attr).
        2:{ destruct Hm as [->| ->]; [reflexivity|]. cbn [map filter]. unfold real_attr. cbn [a_name rdf_resource_attr].
            change "rdf:parseType" with ("rdf:" ++ "parseType"). rewrite read_rdf, Hmark. reflexivity. }
        rewrite List.app_nil_r. clear -A1. induction am as [|f am IH]; [reflexivity|]. inversion A1 as [|? ? [(B1 & B2 & B3) _] A1']; subst.
        cbn [map filter]. unfold real_attr at 1. cbn [a_name attr_of]. cbn [leaf_of fst] in B1, B3. rewrite B1, B3. cbn [negb]. f_equal. apply IH. exact A1'. }
      rewrite E. clear -A1. induction am as [|f am IH]; cbn [map]; constructor; inversion A1 as [|? ? [(B1 & B2 & B3) _] A1']; subst; auto.
    + clear -F A2 Henv Hreg Hmark. induction F as [|c f kl kfs (B & C & D) F IH]; cbn [map]; constructor; inversion A2 as [|? ? [(U1 & U2 & U3) U4] A2']; subst; auto.
      split; [|auto]. rewrite xml_read_name by (eapply forms_attrs; eauto). rewrite B. exact U1.
  - intros x typ items l Ht F A. apply all_names_items in A. rewrite !xml_read_eq by constructor. cbn [map]. rewrite xml_read_eq by constructor.
    eapply ho_list; [reflexivity| |]; cbn [n_nodes].
    + unfold arr_local, node_local. cbn [n_name]. rewrite read_rdf. cbn [x_local]. apply HT in Ht. destruct Ht as [<-|[<-|[<-|[]]]]; vm_compute; auto.
    + clear -F A Henv Hreg. induction F as [|c f kl kfs (B & C & D) F IH]; cbn [map]; constructor; inversion A; subst; auto.
      split; [|auto]. unfold full_name. rewrite xml_read_name by (eapply forms_attrs; eauto). rewrite B. change (read_name env (new_name "rdf:li")) with (read_name env (new_name ("rdf:" ++ "li"))).
      rewrite !read_rdf. cbn [x_space x_local]. unfold short. rewrite Hreg. reflexivity.
  - intros x l _. rewrite !xml_read_eq by constructor. cbn [map]. rewrite xml_read_eq by constructor.
    eapply ho_alts; [reflexivity| |]; cbn [n_nodes].
    + unfold arr_local, node_local. cbn [n_name]. change "rdf:Alt" with ("rdf:" ++ "Alt"). rewrite read_rdf. vm_compute. auto.
    + rewrite map_map. clear -Henv Hreg. induction l as [|i l IH]; cbn [map]; constructor; auto. unfold li_of.
      set (c := xml_read env _).
      assert (E : c = Node (read_name env (new_name ("rdf:" ++ "li"))) [Attr (XName ns_xml_uri "lang") (fst i)] None (trim_space (snd i)) []).
      { unfold c. cbn -[read_name new_name]. reflexivity. }
      rewrite E, read_rdf. split; [|split].
      * unfold full_name. cbn [n_name x_space x_local]. unfold short. rewrite Hreg. reflexivity.
      * eexists. split; [reflexivity|reflexivity].
      * cbn [n_value]. apply trim_space_idem.
Qed.
End R.
