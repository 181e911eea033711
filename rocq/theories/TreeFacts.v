(* Reading: every node that holds the value of a typed value is read as that value. *)
From Coq Require Import List Arith ZArith Bool Ascii String Permutation Lia.
From Verif Require Import GoStr GoStrFacts GoMap Names Semver RegistryM NodeM ArrayM TypeM JsonM SpecJson SpecType SpecTree TypeFacts.
Import ListNotations.
Local Open Scope string_scope.

Section F.
Context {X M : Type}.
Notation gval := (gval X).
Notation ty := (ty X).
Notation node := (node M).
Variable ver : version.
Variable reg : registry.
Variables imap emap : gomap namespace.
Notation unmarshal := (@unmarshal X M ver reg imap emap).
Notation translate := (translate reg imap emap).
Notation norm := (@norm X ver).
Notation storable := (@storable X ver).
Notation attr_ok := (@attr_ok X ver).
Notation left_out := (@left_out X ver).
Notation wf_ty := (@wf_ty X ver).
Notation tree_of := (@tree_of X ver).
Notation snug := (@snug X ver).
Notation find_field := (@find_field X ver).

Definition real_attr (a : attr) : bool := negb (skip_field (translate (a_name a))).
Definition arr_local (n : node) : Prop := In (node_local n) ["Seq"; "Bag"; "Alt"].
Definition alt_li (c : node) (i : string * string) : Prop :=
  full_name reg c = "rdf:li" /\ (exists b, get_attr c "" "lang" = [b] /\ a_value b = fst i)
  /\ trim_space (n_value c) = trim_space (snd i).

(* what a reader of a node with these namespaces finds *)
Inductive holds : node -> pval -> Prop :=
| ho_leaf n s : n_value n = s \/ n_value n = trim_space s -> holds n (PLeaf s)
| ho_record n fs afs kfs :
    Forall2 (fun a f => translate (a_name a) = new_name (fst f) /\ snd f = PLeaf (a_value a)) (filter real_attr (n_attrs n)) afs ->
    Forall2 (fun c f => translate (n_name c) = new_name (fst f) /\ holds c (snd f)) (n_nodes n) kfs ->
    Permutation fs (afs ++ kfs) -> holds n (PRecord fs)
| ho_list n arr l : n_nodes n = [arr] -> arr_local arr ->
    Forall2 (fun c t => full_name reg c = "rdf:li" /\ holds c t) (n_nodes arr) l -> holds n (PList l)
| ho_alts n arr l : n_nodes n = [arr] -> arr_local arr -> Forall2 alt_li (n_nodes arr) l -> holds n (PAlts l).

(* ---- fields -------------------------------------------------------------------------------------- *)

Definition member (f : finfo) (t : ty) (v : gval) : pval := if f_attr f then PLeaf (attr_str t v) else tree_of t v.
Fixpoint members (fs : list (finfo * ty)) (vs : list gval) : list (string * pval) :=
  match fs, vs with
  | (f, t) :: fs', v :: vs' => if left_out f t v then members fs' vs' else (f_name f, member f t v) :: members fs' vs'
  | _, _ => []
  end.
Lemma tree_struct i fs vs : tree_of (TStruct i fs) (VStruct vs) =
  PRecord (if s_guard i && blank_value (TStruct i fs) (VStruct vs) then [] else members fs vs).
Proof. reflexivity. Qed.

Fixpoint after (D : list string) (fs : list (finfo * ty)) (vs : list gval) : list gval :=
  match fs, vs with
  | (f, t) :: fs', v :: vs' =>
      (if left_out f t v then zero t else if in_dec string_dec (f_name f) D then norm t v else zero t) :: after D fs' vs'
  | _, _ => []
  end.
Fixpoint normal (fs : list (finfo * ty)) (vs : list gval) : list gval :=
  match fs, vs with
  | (f, t) :: fs', v :: vs' => (if left_out f t v then zero t else norm t v) :: normal fs' vs'
  | _, _ => []
  end.
Lemma after_nil fs : forall vs, List.length fs = List.length vs -> after [] fs vs = map (fun f => zero (snd f)) fs.
Proof.
  induction fs as [|[f t] fs IH]; intros [|v vs] H; try discriminate H; [reflexivity|]. cbn [after map snd].
  injection H as H. rewrite IH by exact H. destruct (left_out f t v); [reflexivity|]. destruct (in_dec string_dec (f_name f) []) as [[]|]; reflexivity.
Qed.
Lemma after_all D fs : forall vs, (forall m, In m (members fs vs) -> In (fst m) D) -> after D fs vs = normal fs vs.
Proof.
  induction fs as [|[f t] fs IH]; intros [|v vs] H; try reflexivity. cbn [after normal]. cbn [members] in H.
  destruct (left_out f t v); [now rewrite IH|]. rewrite IH by (intros m Hm; apply H; now right).
  destruct (in_dec string_dec (f_name f) D) as [|N]; [reflexivity|]. elim N. apply (H _ (or_introl eq_refl)).
Qed.
Lemma norm_normal i fs vs : norm (TStruct i fs) (VStruct vs) =
  if s_guard i && blank_value (TStruct i fs) (VStruct vs) then zero (TStruct i fs) else VStruct (normal fs vs).
Proof. reflexivity. Qed.

Lemma shown_active f t v : left_out f t v = false -> active ver f = true.
Proof. rewrite left_out_eq. intros H. apply negb_false_iff in H. exact (active_present ver f t v H). Qed.

Lemma members_at fs vs nm T : In (nm, T) (members fs vs) ->
  exists pre f t post vpre v vpost, fs = (pre ++ (f, t) :: post)%list /\ vs = (vpre ++ v :: vpost)%list /\
    List.length pre = List.length vpre /\ left_out f t v = false /\ f_name f = nm /\ T = member f t v.
Proof.
  revert vs. induction fs as [|[f t] fs IH]; intros [|v vs] H; try contradiction. cbn [members] in H.
  assert (R : In (nm, T) (members fs vs) -> exists pre f0 t0 post vpre v0 vpost, ((f, t) :: fs)%list = (pre ++ (f0, t0) :: post)%list /\ (v :: vs)%list = (vpre ++ v0 :: vpost)%list /\
    List.length pre = List.length vpre /\ left_out f0 t0 v0 = false /\ f_name f0 = nm /\ T = member f0 t0 v0).
  { intros K. destruct (IH _ K) as (pre & f0 & t0 & post & vpre & v0 & vpost & -> & -> & H1 & H2).
    exists ((f, t) :: pre), f0, t0, post, (v :: vpre), v0, vpost. repeat split; try apply H2. cbn. now rewrite H1. }
  destruct (left_out f t v) eqn:E; [exact (R H)|]. destruct H as [H|H]; [|exact (R H)]. injection H as <- <-.
  exists [], f, t, fs, [], v, vs. repeat split; auto.
Qed.

Lemma after_app D fs1 vs1 fs2 vs2 : List.length fs1 = List.length vs1 ->
  after D (fs1 ++ fs2)%list (vs1 ++ vs2)%list = (after D fs1 vs1 ++ after D fs2 vs2)%list.
Proof.
  revert vs1. induction fs1 as [|[f t] fs1 IH]; intros [|v vs1] H; try discriminate H; [reflexivity|].
  cbn [List.app after]. rewrite IH by (now injection H). reflexivity.
Qed.
Lemma after_length D fs : forall vs, List.length fs = List.length vs -> List.length (after D fs vs) = List.length fs.
Proof. induction fs as [|[f t] fs IH]; intros [|v vs] H; try discriminate H; [reflexivity|]. cbn. now rewrite IH by (now injection H). Qed.
Lemma after_other nm D fs : forall vs, (forall g, In g (map fst fs) -> active ver g = true -> f_name g <> nm) ->
  after (nm :: D) fs vs = after D fs vs.
Proof.
  induction fs as [|[f t] fs IH]; intros [|v vs] H; try reflexivity. cbn [after].
  rewrite IH by (intros g Hg; apply H; now right). destruct (left_out f t v) eqn:E; [reflexivity|].
  assert (N : f_name f <> nm) by (apply H; [now left|eapply shown_active; eauto]).
  destruct (in_dec string_dec (f_name f) (nm :: D)) as [[K|K]|K]; destruct (in_dec string_dec (f_name f) D) as [L|L]; try reflexivity; try contradiction; try congruence.
  elim K. now right.
Qed.

Lemma after_unsaid nm D fs : forall vs, (forall T, ~ In (nm, T) (members fs vs)) -> after (nm :: D) fs vs = after D fs vs.
Proof.
  induction fs as [|[f t] fs IH]; intros [|v vs] H; try reflexivity. cbn [after]. cbn [members] in H.
  destruct (left_out f t v) eqn:E; [now rewrite IH|]. rewrite IH by (intros T K; apply (H T); now right).
  assert (N : f_name f <> nm) by (intros <-; eapply H; left; reflexivity).
  destruct (in_dec string_dec (f_name f) (nm :: D)) as [[K|K]|K]; destruct (in_dec string_dec (f_name f) D) as [L|L]; try reflexivity; try contradiction; try congruence.
  elim K. now right.
Qed.

Definition distinct (fs : list (finfo * ty)) : Prop := NoDup (map f_name (filter (in_version ver) (map fst fs))).

(* one member is read *)
Lemma step fs vs nm T D : distinct fs -> List.length fs = List.length vs -> In (nm, T) (members fs vs) ->
  exists j f t v, nth_error fs j = Some (f, t) /\ nth_error vs j = Some v /\ find_field fs nm = Some j /\
    left_out f t v = false /\ f_name f = nm /\ T = member f t v /\
    (~ In nm D -> nth_error (after D fs vs) j = Some (zero t)) /\
    set_nth j (norm t v) (after D fs vs) = after (nm :: D) fs vs.
Proof.
  intros ND L H. destruct (members_at _ _ _ _ H) as (pre & f & t & post & vpre & v & vpost & -> & -> & H1 & H2 & <- & ->).
  exists (List.length pre), f, t, v. split; [apply nth_error_mid|]. split; [rewrite H1; apply nth_error_mid|].
  assert (A := shown_active _ _ _ H2). split; [apply find_field_mid; assumption|]. split; [exact H2|]. split; [reflexivity|]. split; [reflexivity|].
  assert (O : forall g, In g (map fst pre) \/ In g (map fst post) -> active ver g = true -> f_name g <> f_name f).
  { intros g Hg Ha E. unfold distinct in ND. rewrite map_app, filter_app, map_app in ND. cbn [map filter fst] in ND.
    change (in_version ver f) with (active ver f) in ND. rewrite A in ND. cbn [map] in ND.
    apply NoDup_remove_2 in ND. apply ND. apply in_or_app. rewrite <- E.
    destruct Hg as [Hg|Hg]; [left|right]; apply in_map; apply filter_In; split; auto. }
  rewrite !after_app by exact H1. assert (Lp : List.length (after D pre vpre) = List.length pre) by (apply after_length; exact H1).
  rewrite (after_other (f_name f) D pre) by (intros g Hg; apply O; now left).
  split.
  - intros N. rewrite <- Lp. cbn [after]. rewrite H2. destruct (in_dec string_dec (f_name f) D); [contradiction|]. apply nth_error_mid.
  - rewrite <- Lp. cbn [after]. rewrite set_nth_mid, H2. f_equal. destruct (in_dec string_dec (f_name f) (f_name f :: D)) as [|K]; [|elim K; now left].
    f_equal. symmetry. apply after_other. intros g Hg. apply O. now right.
Qed.

Lemma members_names_nodup fs vs : distinct fs -> NoDup (map fst (members fs vs)).
Proof.
  unfold distinct. revert vs. induction fs as [|[f t] fs IH]; intros [|v vs] H; try constructor. cbn [members]. cbn [map filter fst] in H.
  destruct (left_out f t v) eqn:E.
  - apply IH. destruct (in_version ver f); [now inversion H|exact H].
  - assert (A := shown_active _ _ _ E). change (active ver f) with (in_version ver f) in A. rewrite A in H. inversion H; subst.
    cbn [map fst]. constructor; [|auto]. intros K. apply H2. apply in_map_iff in K. destruct K as ([nm T] & K1 & K2). cbn in K1.
    destruct (members_at _ _ _ _ K2) as (pre & g & tg & post & vpre & w & vpost & -> & -> & _ & K3 & K4 & _).
    apply in_map_iff. exists g. split; [congruence|]. apply filter_In. split; [|exact (shown_active _ _ _ K3)].
    rewrite map_app. apply in_or_app. right. now left.
Qed.

(* ---- values in one text --------------------------------------------------------------------------- *)

Lemma trim_idem s : trim_space (trim_space s) = trim_space s.
Proof. apply trim_space_idem. Qed.
Lemma trim_solid s : (forall c, has_char c s = true -> is_space c = false) -> trim_space s = s.
Proof.
  intros H. assert (R : trim_right s = s).
  { revert H. induction s as [|c s IH]; intros H; [reflexivity|]. cbn [trim_right].
    assert (IH' : trim_right s = s) by (apply IH; intros d Hd; apply H; cbn [has_char]; rewrite Hd; apply orb_true_r).
    rewrite IH'. destruct s; [|reflexivity]. rewrite H; [reflexivity|]. cbn. now rewrite Ascii.eqb_refl. }
  unfold trim_space. rewrite trim_left_fix; [exact R|]. destruct s as [|c s]; [exact I|]. apply H. cbn. now rewrite Ascii.eqb_refl.
Qed.
Lemma space_no_digit c : is_space c = true -> is_digit c = false /\ Ascii.eqb c "-" = false.
Proof.
  destruct c as [[|] [|] [|] [|] [|] [|] [|] [|]]; vm_compute; intros H; try discriminate H; auto.
Qed.
Lemma trim_itoa z : trim_space (itoa z) = itoa z.
Proof.
  apply trim_solid. intros c Hc. destruct (is_space c) eqn:E; [|reflexivity]. destruct (space_no_digit c E) as [H1 H2].
  rewrite (itoa_no_char c z H1 H2) in Hc. discriminate.
Qed.

Definition loosely (s' s : string) : Prop := s' = s \/ s' = trim_space s.
Lemma loosely_trim s' s : loosely s' s -> trim_space s' = trim_space s.
Proof. intros [->| ->]; [reflexivity|apply trim_idem]. Qed.

Lemma simple_read t v s' : simple_ty t = true -> storable t v -> snug t v -> loosely s' (attr_str t v) ->
  set_simple_value t (zero t) s' = Ok (norm t v).
Proof.
  destruct t; try discriminate; intros _ H S L; destruct v as [s|b|z| | | | | |]; try contradiction; cbn [attr_str] in L; cbn [set_simple_value SpecType.norm].
  - now rewrite (loosely_trim _ _ L).
  - cbn in S. destruct L as [->| ->]; [reflexivity|now rewrite S].
  - rewrite (loosely_trim _ _ L). destruct b; reflexivity.
  - cbn in H. destruct L as [->| ->]; rewrite ?trim_itoa, parse_int_itoa by tauto; reflexivity.
  - cbn in H. assert (E : s' = itoa z) by (destruct L as [->| ->]; [reflexivity|apply trim_itoa]). rewrite E.
    rewrite itoa_nat, parse_uint_utoa by (rewrite ?Z2N.id; lia). rewrite Z2N.id by lia. reflexivity.
Qed.

Lemma text_read (c : codec X) z v w nt s' : text_back c z v w nt -> (nt = None \/ nt = Some "") -> tight c z v -> loosely s' (text_of c v) -> c_dec c z s' = Ok w.
Proof.
  unfold text_back, tight, text_of. intros H Hn T L. destruct (c_enc c v) as [[s|]|e|]; try contradiction.
  - destruct L as [->| ->]; [exact H|]. now rewrite T.
  - destruct Hn as [->| ->]; [contradiction|]. assert (E : s' = "") by (destruct L as [->| ->]; reflexivity). now rewrite E.
Qed.

(* an attribute field read from an attribute *)
Lemma attr_field_attr t : forall v fin, attr_ok t v -> unmarshal_attr t fin (zero t) (attr_str t v) = Ok (norm t v).
Proof.
  intros v fin H. destruct (attr_rt ver t v fin H) as (s & E1 & E2). enough (s = attr_str t v) by congruence.
  clear E2 fin. revert v s H E1. induction t as [| | | bi | bu | c | m | i t IH | t IH | i fs IH] using ty_nested_ind; intros v s H E1;
    try (destruct v; try contradiction; cbn in E1; injection E1 as <-; reflexivity).
  - cbn in E1. assert (Ea : attr_str (TText c) v = text_of c v) by (destruct v; reflexivity). rewrite Ea. unfold text_of. now rewrite E1.
  - destruct v; try contradiction. cbn in H, E1. cbn. destruct (ar_text i) as [c|]; [|contradiction]. unfold text_of. now rewrite E1.
  - destruct v; try contradiction. cbn in *. eauto.
Qed.

(* an attribute field read from an element *)
Lemma attr_field_elem (n : node) t : forall v fin, attr_ok t v -> snug_attr t v -> loosely (n_value n) (attr_str t v) ->
  unmarshal n t fin (zero t) = Ok (norm t v).
Proof.
  induction t as [| | | bi | bu | c | m | i t IH | t IH | i fs IH] using ty_nested_ind; intros v fin H S L;
    try (rewrite unmarshal_simple by reflexivity; rewrite (simple_read _ v) by (try reflexivity; try assumption; destruct v; try contradiction; assumption); reflexivity).
  - rewrite unmarshal_text. assert (Nv : norm (TText c) v = v) by (destruct v; reflexivity). rewrite Nv.
    apply (text_read c (c_zero c) v v None); [destruct v; exact H|now left|destruct v; exact S|destruct v; exact L].
  - destruct v; contradiction.
  - destruct v; try contradiction. destruct S as [S1 S2]. cbn in H. rewrite unmarshal_arr, S1. cbn in L. destruct (ar_text i) as [c|]; [|contradiction].
    apply (text_read c (VArr [] []) (VArr l spare) _ None); auto.
  - destruct v; try contradiction. rewrite unmarshal_ptr. cbn [zero]. rewrite (IH v fin H S L). reflexivity.
  - destruct v; contradiction.
Qed.

(* an element field with a text read from an attribute *)
Lemma elem_field_attr t : forall v fin s, storable t v -> snug t v -> tree_of t v = PLeaf s -> unmarshal_attr t fin (zero t) s = Ok (norm t v).
Proof.
  induction t as [| | | bi | bu | c | m | i t IH | t IH | i fs IH] using ty_nested_ind; intros v fin s H S E;
    try (cbn [unmarshal_attr]; destruct v; try contradiction; injection E as <-;
         apply simple_read; [reflexivity|assumption|assumption|left; reflexivity]).
  - cbn [unmarshal_attr zero]. assert (Nv : norm (TText c) v = v) by (destruct v; reflexivity). rewrite Nv.
    assert (Ev : s = text_of c v) by (destruct v; injection E as <-; reflexivity).
    apply (text_read c (c_zero c) v v (Some "")); [destruct v; exact H|now right|destruct v; exact S|left; exact Ev].
  - destruct v; try contradiction. discriminate E.
  - destruct v; try contradiction. cbn [SpecTree.tree_of] in E. cbn [SpecType.storable] in H. cbn [SpecTree.snug] in S. destruct (ar_xmp i); [discriminate E|].
    injection E as <-. cbn [unmarshal_attr zero]. destruct (ar_text i) as [c|]; [|contradiction].
    apply (text_read c (VArr [] []) (VArr l spare) _ (Some "")); [exact H|now right|exact S|now left].
  - destruct v; try contradiction. cbn [unmarshal_attr zero]. rewrite (IH v fin s H S E). reflexivity.
  - destruct v; try contradiction. discriminate E.
Qed.

Definition reads_back (t : ty) : Prop := forall v (n : node) fin, wf_ty t -> storable t v -> snug t v -> holds n (tree_of t v) ->
  unmarshal n t fin (zero t) = Ok (norm t v).

Lemma snug_fields i fs vs : snug (TStruct i fs) (VStruct vs) = (fix all (fs : list (finfo * ty)) (vs : list gval) : Prop :=
         match fs, vs with
         | (f, t') :: fs', v' :: vs' =>
             (left_out f t' v' = false -> if f_attr f then snug_attr t' v' else snug t' v') /\ all fs' vs'
         | _, _ => True
         end) fs vs.
Proof. reflexivity. Qed.
Fixpoint fields_snug (fs : list (finfo * ty)) (vs : list gval) : Prop :=
  match fs, vs with
  | (f, t') :: fs', v' :: vs' => (left_out f t' v' = false -> if f_attr f then snug_attr t' v' else snug t' v') /\ fields_snug fs' vs'
  | _, _ => True
  end.
Lemma fields_snug_nth fs : forall vs j f t v, fields_snug fs vs -> nth_error fs j = Some (f, t) -> nth_error vs j = Some v -> left_out f t v = false ->
  if f_attr f then snug_attr t v else snug t v.
Proof.
  induction fs as [|[g tg] fs IH]; intros [|w vs] [|j] f t v H E1 E2 L; try discriminate; cbn [nth_error fields_snug fields_ok] in *.
  - injection E1 as -> ->. injection E2 as ->. tauto.
  - destruct H as [_ H]. exact (IH vs j f t v H E1 E2 L).
Qed.
Lemma fields_ok_nth fs : forall vs j f t v, fields_ok ver fs vs -> nth_error fs j = Some (f, t) -> nth_error vs j = Some v -> left_out f t v = false ->
  if f_attr f then attr_ok t v else storable t v.
Proof.
  induction fs as [|[g tg] fs IH]; intros [|w vs] [|j] f t v H E1 E2 L; try discriminate; cbn [nth_error fields_snug fields_ok] in *.
  - injection E1 as -> ->. injection E2 as ->. tauto.
  - destruct H as [_ H]. exact (IH vs j f t v H E1 E2 L).
Qed.

Lemma attr_member_read fs vs j f t v s fin : fields_ok ver fs vs -> fields_snug fs vs -> nth_error fs j = Some (f, t) -> nth_error vs j = Some v ->
  left_out f t v = false -> PLeaf s = member f t v -> unmarshal_attr t fin (zero t) s = Ok (norm t v).
Proof.
  intros H S E1 E2 L E. assert (Ok1 := fields_ok_nth _ _ _ _ _ _ H E1 E2 L). assert (Sn := fields_snug_nth _ _ _ _ _ _ S E1 E2 L).
  unfold member in E. destruct (f_attr f).
  - injection E as ->. now apply attr_field_attr.
  - symmetry in E. eapply elem_field_attr; eauto.
Qed.
Lemma elem_member_read fs vs j f t v (c : node) fin : fields_ok ver fs vs -> fields_snug fs vs -> nth_error fs j = Some (f, t) -> nth_error vs j = Some v ->
  left_out f t v = false -> wf_ty t -> reads_back t -> holds c (member f t v) -> unmarshal c t fin (zero t) = Ok (norm t v).
Proof.
  intros H S E1 E2 L W R Hc. assert (Ok1 := fields_ok_nth _ _ _ _ _ _ H E1 E2 L). assert (Sn := fields_snug_nth _ _ _ _ _ _ S E1 E2 L).
  unfold member in Hc. destruct (f_attr f).
  - inversion Hc; subst. now apply attr_field_elem.
  - apply R; assumption.
Qed.

Lemma nth_field_name (fs : list (finfo * ty)) j f t : nth_error fs j = Some (f, t) -> In f (map fst fs).
Proof. intros H. apply nth_error_In in H. apply (in_map fst) in H. exact H. Qed.

Lemma read_attrs_members fs vs : distinct fs -> fields_ok ver fs vs -> fields_snug fs vs ->
  (forall f, In f (map fst fs) -> ~ In (f_name f) reserved) ->
  forall al afs D, Forall2 (fun a f => translate (a_name a) = new_name (fst f) /\ snd f = PLeaf (a_value a)) (filter real_attr al) afs ->
  incl afs (members fs vs) -> NoDup (map fst afs ++ D)%list ->
  read_attrs ver reg imap emap fs al (after D fs vs) = Ok (after (rev (map fst afs) ++ D) fs vs).
Proof.
  intros Hd Ho Hs Hr. induction al as [|a al IH]; intros afs D F I N; cbn [read_attrs filter] in *.
  - inversion F; subst. reflexivity.
  - unfold real_attr in F at 1. destruct (skip_field (translate (a_name a))) eqn:Es; cbn [negb] in F.
    + apply IH; assumption.
    + inversion F as [|? [nm T] ? afs' [A1 A2] F']; subst. cbn [fst snd] in *. subst T.
      destruct (step fs vs nm (PLeaf (a_value a)) D Hd (fields_length ver fs vs Ho) (I _ (or_introl eq_refl))) as (j & f & t & v & E1 & E2 & E3 & E4 & E5 & E6 & E7 & E8).
      rewrite A1. cbn [new_name x_local]. rewrite E3, E1. cbn [map List.app] in N. inversion N; subst.
      assert (Nd : ~ In (f_name f) D) by (intros K; apply H1; apply in_or_app; now right).
      rewrite (E7 Nd), (attr_member_read fs vs j f t v (a_value a) true Ho Hs E1 E2 E4 E6). cbn [bind]. rewrite E8.
      fold (read_attrs ver reg imap emap fs).
      rewrite (IH afs' (f_name f :: D)).
      * cbn [rev map]. rewrite <- List.app_assoc. reflexivity.
      * exact F'.
      * intros x Hx. apply I. now right.
      * apply (Permutation_NoDup (l := f_name f :: map fst afs' ++ D)%list); [apply Permutation_middle|constructor; assumption].
Qed.

Lemma read_kids_members T fs vs : distinct fs -> fields_ok ver fs vs -> fields_snug fs vs ->
  (forall f, In f (map fst fs) -> ~ In (f_name f) reserved) -> Forall (fun f => wf_ty (snd f) /\ reads_back (snd f)) fs ->
  forall kl kfs D, Forall2 (fun c f => translate (n_name c) = new_name (fst f) /\ holds c (snd f)) kl kfs ->
  incl kfs (members fs vs) -> NoDup (map fst kfs ++ D)%list ->
  read_kids ver reg imap emap T fs kl (VStruct (after D fs vs)) = Ok (VStruct (after (rev (map fst kfs) ++ D) fs vs)).
Proof.
  intros Hd Ho Hs Hr Hw. induction kl as [|c kl IH]; intros kfs D F I N; cbn [read_kids].
  - inversion F; subst. reflexivity.
  - inversion F as [|? [nm U] ? kfs' [A1 A2] F']; subst. cbn [fst snd] in *.
    destruct (step fs vs nm U D Hd (fields_length ver fs vs Ho) (I _ (or_introl eq_refl))) as (j & f & t & v & E1 & E2 & E3 & E4 & E5 & E6 & E7 & E8).
    rewrite A1. assert (Hn : ~ In nm reserved) by (rewrite <- E5; apply Hr; eapply nth_field_name; eauto).
    destruct (not_reserved f) as (R1 & R2 & R3); [now rewrite E5|]. rewrite E5 in R1, R2, R3.
    change (name_full reg (new_name nm)) with nm. rewrite (proj2 (String.eqb_neq nm "rdf:Description") R2), R3, E3, E1.
    cbn [map List.app fst] in N. inversion N as [|? ? N1 N2]; subst.
    assert (Nd : ~ In (f_name f) D) by (intros K; apply N1; apply in_or_app; now right).
    rewrite (E7 Nd).
    assert (W : wf_ty t /\ reads_back t).
    { rewrite Forall_forall in Hw. apply (Hw (f, t)). eapply nth_error_In; eauto. }
    rewrite (elem_member_read fs vs j f t v c true Ho Hs E1 E2 E4 (proj1 W) (proj2 W) A2). cbn [bind]. rewrite E8.
    fold (@read_kids X M ver reg imap emap T fs).
    rewrite (IH kfs' (f_name f :: D)).
    * cbn [rev map fst]. rewrite <- List.app_assoc. reflexivity.
    * exact F'.
    * intros x Hx. apply I. now right.
    * apply (Permutation_NoDup (l := f_name f :: map fst kfs' ++ D)%list); [apply Permutation_middle|constructor; assumption].
Qed.

Lemma alt_li_read c i : alt_li c i -> alt_of_li c = if fst i =? "x-default" then AltItem (trim_space (snd i)) "" true else AltItem (trim_space (snd i)) (fst i) false.
Proof.
  intros (_ & (b & E1 & E2) & E3). unfold alt_of_li. rewrite E1, E3. cbn [fold_left]. rewrite E2. destruct (fst i =? "x-default"); reflexivity.
Qed.
Lemma alts_read (items : list node) l : Forall2 alt_li items (flat_map alt_pairs l) -> Forall (writable_item false) l ->
  forall acc, alt_items reg items acc = Ok (acc ++ flat_map expanded l)%list.
Proof.
  intros F W acc.
  assert (A : forall items ps, Forall2 alt_li items ps -> forall acc, alt_items reg items acc =
     Ok (acc ++ map (fun i : string * string => if fst i =? "x-default" then AltItem (trim_space (snd i)) "" true else AltItem (trim_space (snd i)) (fst i) false) ps)%list).
  { clear. induction 1 as [|c i items ps H F IH]; intros acc; cbn [alt_items map]; [now rewrite List.app_nil_r|].
    assert (H' := H). destruct H' as (E & _). rewrite E. cbn [String.eqb]. rewrite (alt_li_read c i H).
    change ("rdf:li" =? "rdf:li") with true. cbv iota. rewrite IH, <- List.app_assoc. reflexivity. }
  rewrite (A _ _ F). f_equal. f_equal. clear -W. induction l as [|x l IH]; [reflexivity|]. inversion W as [|? ? [W1 W2] W']; subst.
  cbn [flat_map]. rewrite map_app, IH by exact W'. f_equal. unfold alt_pairs, expanded.
  destruct (ai_default x) eqn:Ed.
  - destruct (ai_lang x) as [|ch g] eqn:El; [reflexivity|]. change (String ch g =? "") with false. cbn [emptyb map fst snd].
    rewrite (proj2 (String.eqb_neq (String ch g) "x-default") W1). reflexivity.
  - cbn [map fst snd]. rewrite (proj2 (String.eqb_neq (ai_lang x) "x-default") W1). unfold trim_item. now rewrite Ed.
Qed.

Lemma array_child_local (n arr : node) : n_nodes n = [arr] -> arr_local arr -> array_child n = Ok arr.
Proof.
  intros E [H|[H|[H|[]]]]; unfold array_child; rewrite E, <- H; reflexivity.
Qed.

Theorem holds_read t : reads_back t.
Proof.
  induction t as [| | | bi | bu | c | m | i t IH | t IH | i fs IH] using ty_nested_ind; intros v n fin W H S Hn;
    try (rewrite unmarshal_simple by reflexivity; rewrite (simple_read _ v); [reflexivity|reflexivity|assumption|assumption|];
         destruct v; try contradiction; inversion Hn; assumption).
  - rewrite unmarshal_text. assert (Nv : norm (TText c) v = v) by (destruct v; reflexivity). rewrite Nv.
    assert (L : loosely (n_value n) (text_of c v)) by (destruct v; inversion Hn; subst; assumption).
    apply (text_read c (c_zero c) v v (Some "")); [destruct v; exact H|now right|destruct v; exact S|exact L].
  - destruct v; try contradiction. cbn [SpecType.storable] in H. cbn [SpecTree.tree_of] in Hn. inversion Hn; subst. cbn [zero]. rewrite unmarshal_alt, (array_child_local n arr) by assumption. cbn [bind].
    rewrite (alts_read _ l) by (try assumption; exact (alt_ok_writable m l false H)). cbn [bind List.app]. rewrite (alt_ok_merge m l H). reflexivity.
  - destruct v; try contradiction. cbn [SpecType.storable SpecTree.snug SpecTree.tree_of SpecType.wf_ty] in H, S, Hn, W. rewrite unmarshal_arr. cbn [zero].
    destruct (ar_xmp i).
    + inversion Hn as [| |? arr l' E1 E2 F|]; subst. rewrite (array_child_local n arr) by assumption. cbn [bind].
      destruct H as [_ H]. destruct W as [_ W]. cbn [SpecType.norm].
      assert (A : forall l items old, (fix all (l : list gval) : Prop := match l with [] => True | x :: r => storable t x /\ all r end) l ->
        (fix all (l : list gval) : Prop := match l with [] => True | x :: r => snug t x /\ all r end) l ->
        Forall2 (fun c t => full_name reg c = "rdf:li" /\ holds c t) items (map (tree_of t) l) ->
        read_items ver reg imap emap t items (VArr old []) = Ok (VArr (old ++ map (norm t) l)%list [])).
      { clear -IH W. induction l as [|x l IHl]; intros items old H S F; inversion F as [|? ? ? ? F0 F']; subst; cbn [read_items map].
        - now rewrite List.app_nil_r.
        - destruct H as [H1 H2], S as [S1 S2], F0 as [F1 F2]. rewrite F1. change ("rdf:li" =? "rdf:li") with true. cbv iota.
          rewrite (IH x _ false W H1 S1 F2). cbn [bind arr_append tl]. fold (@read_items X M ver reg imap emap t).
          rewrite IHl by assumption. now rewrite <- List.app_assoc. }
      apply (A l (n_nodes arr) [] H S F).
    + destruct (ar_text i) as [c|]; [|contradiction]. inversion Hn; subst.
      apply (text_read c (VArr [] []) (VArr l spare) _ (Some "")); auto.
  - destruct v; try contradiction. rewrite unmarshal_ptr. cbn [zero]. destruct W as [_ W]. rewrite (IH v n fin W H S Hn). reflexivity.
  - destruct v; try contradiction. rewrite tree_struct in Hn. rewrite norm_normal.
    cbn [zero]. rewrite unmarshal_struct. rewrite storable_struct in H. apply (wf_struct ver) in W. destruct W as (W1 & W2 & W3).
    assert (Sf : fields_snug fs vs) by exact S. assert (L := fields_length ver fs vs H).
    destruct (s_guard i && blank_value (TStruct i fs) (VStruct vs)); inversion Hn as [|? fs0 afs kfs F1 F2 P| |]; subst.
    + apply Permutation_nil in P. apply app_eq_nil in P. destruct P as [-> ->].
      assert (A : forall al D, Forall2 (fun a f => translate (a_name a) = new_name (fst f) /\ snd f = PLeaf (a_value a)) (filter real_attr al) [] ->
        read_attrs ver reg imap emap fs al D = Ok D).
      { clear. induction al as [|a al IH]; intros D F; [reflexivity|]. cbn [filter] in F. unfold real_attr in F at 1.
        cbn [read_attrs]. destruct (skip_field (translate (a_name a))); cbn [negb] in F; [|inversion F]. apply IH. exact F. }
      rewrite A by exact F1. cbn [bind]. inversion F2; subst. cbn [read_kids]. reflexivity.
    + assert (N : NoDup (map fst afs ++ map fst kfs)%list).
      { rewrite <- map_app. eapply Permutation_NoDup; [apply Permutation_map; exact P|]. apply members_names_nodup. exact W1. }
      assert (Nr := members_names_nodup fs vs W1).
      assert (I1 : incl afs (members fs vs)) by (intros x Hx; rewrite P; apply in_or_app; now left).
      assert (I2 : incl kfs (members fs vs)) by (intros x Hx; rewrite P; apply in_or_app; now right).
      rewrite <- (after_nil fs vs L).
      rewrite (read_attrs_members fs vs W1 H Sf W2 (n_attrs n) afs [] F1 I1) by (rewrite List.app_nil_r; clear -N; induction (map fst afs); cbn in *; inversion N; subst; constructor; auto; intros K; apply H1; apply in_or_app; now left).
      cbn [bind]. rewrite List.app_nil_r.
      assert (Hw : Forall (fun f => wf_ty (snd f) /\ reads_back (snd f)) fs).
      { clear -IH W3. induction fs; constructor; inversion IH; inversion W3; subst; auto. }
      rewrite (read_kids_members (TStruct i fs) fs vs W1 H Sf W2 Hw (n_nodes n) kfs (rev (map fst afs)) F2 I2).
      * f_equal. f_equal. apply after_all. intros m Hm. rewrite P in Hm. apply in_or_app. apply in_app_or in Hm.
        destruct Hm as [Hm|Hm]; [right|left]; apply -> in_rev; now apply in_map.
      * apply (Permutation_NoDup (l := map fst afs ++ map fst kfs)%list); [|exact N].
        etransitivity; [apply Permutation_app_comm|]. apply Permutation_app_head. apply Permutation_rev.
Qed.
End F.
