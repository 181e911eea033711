(* Decoding a list of properties that hold the members of some models, in any order, gives these models. *)
From Coq Require Import List Arith ZArith Bool Ascii String Permutation Lia.
From Verif Require Import GoStr GoStrFacts GoMap Names Semver RegistryM NodeM DocM ArrayM TypeM DecodeM JsonM SpecJson SpecType SpecTree SpecTrip
  SpecRegistry SpecDecode TypeFacts TreeFacts.
Import ListNotations.
Local Open Scope string_scope.

Section T.
Context {X : Type}.
Notation gval := (gval X).
Notation node := (node (tmodel X)).
Notation modl := (mkind X * list gval)%type.
Variable ver : version.
Variable reg : registry.
Variable kinds : nat -> string -> option (mkind X).
Variables i e : gomap namespace.
Notation translate := (translate reg i e).
Notation holds := (@holds (tmodel X) reg i e).

Definition mem (m : modl) : list (string * pval) := members ver (k_fields (fst m)) (snd m).
(* the values of a model after the members D were read into a fresh one with values I *)
Fixpoint overlay (D : list string) (I : list gval) (fs : list (finfo * ty X)) (vs : list gval) : list gval :=
  match fs, vs, I with
  | (f, t) :: fs', v :: vs', i0 :: I' =>
      (if left_out ver f t v then i0 else if in_dec string_dec (f_name f) D then norm ver t v else i0) :: overlay D I' fs' vs'
  | _, _, _ => []
  end.
Definition fresh_ok (fs : list (finfo * ty X)) (I : list gval) : Prop := Forall2 (fun f i0 => i0 = zero (snd f) \/ snd f = TStr) fs I.
Definition home_ns (k : mkind X) : namespace := hd (Namespace "" "" None) (k_namespaces k).

(* the values of a model can be stored and its type is sound *)
Definition fit (m : modl) : Prop :=
  let fs := k_fields (fst m) in
  fresh_ok fs (k_init (fst m))
  /\ distinct ver fs /\ fields_ok ver fs (snd m) /\ fields_snug ver fs (snd m)
  /\ (forall f, In f (map fst fs) -> ~ In (f_name f) reserved) /\ Forall (fun f => wf_ty ver (snd f)) fs
  /\ k_namespaces (fst m) <> [] /\ has_char ":" (ns_name (home_ns (fst m))) = false
  /\ k_can (fst m) (ns_name (home_ns (fst m))) = true
  /\ (forall s, In s (map fst (mem m)) -> k_can (fst m) (get_prefix s) = true).

Variable ms : list modl.
Hypothesis Hfit : Forall fit ms.
Hypothesis Hnd : NoDup ms.
Hypothesis Hown : forall m m' p, In m ms -> In m' ms -> k_can (fst m) p = true -> k_can (fst m') p = true -> m = m'.

Definition node_for (D : list string) (m : modl) : node :=
  Node (ns_xml_name (home_ns (fst m)) "") [] (Some (TModel (fst m) (overlay D (k_init (fst m)) (k_fields (fst m)) (snd m)))) "" [].
Definition final (m : modl) : node :=
  Node (ns_xml_name (home_ns (fst m)) "") [] (Some (TModel (fst m) (as_stored ver (k_init (fst m)) (k_fields (fst m)) (snd m)))) "" [].

Lemma fit_in m : In m ms -> fit m.
Proof. rewrite Forall_forall in Hfit. auto. Qed.

Lemma NoDup_app_intro {A} (a b : list A) : NoDup a -> NoDup b -> (forall x, In x a -> ~ In x b) -> NoDup (a ++ b).
Proof.
  induction a as [|x a IH]; intros N1 N2 D; [exact N2|]. inversion N1 as [|? ? K1 K2]; subst. cbn [List.app]. constructor.
  - intros K. apply in_app_or in K. destruct K as [K|K]; [exact (K1 K)|]. exact (D x (or_introl eq_refl) K).
  - apply IH; auto. intros y Hy. apply D. now right.
Qed.
Lemma find_index_first {A} (t : A -> bool) l x : In x l -> (forall y, In y l -> t y = true -> y = x) -> t x = true ->
  exists j, find_index t l = Some j /\ nth_error l j = Some x.
Proof.
  induction l as [|y l IH]; intros H1 H2 H3; [contradiction|]. cbn [find_index]. destruct (t y) eqn:E.
  - exists 0. split; [reflexivity|]. cbn. f_equal. apply H2; [now left|exact E].
  - destruct H1 as [->|H1]; [congruence|]. destruct (IH H1) as (j & E1 & E2); auto.
    { intros z Hz. apply H2. now right. }
    exists (S j). rewrite E1. auto.
Qed.
Lemma find_index_nothing {A} (t : A -> bool) l : (forall y, In y l -> t y = false) -> find_index t l = None.
Proof.
  induction l as [|y l IH]; intros H; [reflexivity|]. cbn [find_index]. rewrite (H y (or_introl eq_refl)), IH; auto.
  intros z Hz. apply H. now right.
Qed.
Lemma find_index_of_map {A B} (g : A -> B) (t : B -> bool) (l : list A) : find_index t (map g l) = find_index (fun x => t (g x)) l.
Proof. induction l as [|x l IH]; [reflexivity|]. cbn [map find_index]. now rewrite IH. Qed.

Lemma no_colon_strip s : has_char ":" s = false -> strip_prefix s = s.
Proof. intros H. unfold strip_prefix. now rewrite (proj2 (index_char_none _ _) H). Qed.
Lemma matches_for p D m : In m ms -> matches tm_can p (node_for D m) = true -> k_can (fst m) p = true.
Proof.
  intros Hm H. unfold matches in H. apply orb_true_iff in H. destruct H as [H|H]; [|exact H].
  destruct (fit_in m Hm) as (_ & _ & _ & _ & _ & _ & _ & F1 & F2 & _).
  unfold node_local, node_for in H. cbn [n_name] in H. unfold ns_xml_name, new_name in H. cbn [x_local emptyb] in H.
  rewrite no_colon_strip in H by exact F1. apply String.eqb_eq in H. now rewrite <- H.
Qed.
Lemma matches_own p D m : k_can (fst m) p = true -> matches tm_can p (node_for D m) = true.
Proof. intros H. unfold matches. cbn [node_for n_model]. unfold tm_can. cbn [tm_kind]. rewrite H. apply orb_true_r. Qed.

Definition inv (D : list string) (l : list node) : Prop :=
  exists sel, l = map (node_for D) sel /\ NoDup sel /\ incl sel ms /\
    forall m, In m ms -> (In m sel <-> exists s T, In (s, T) (mem m) /\ In s D).

Definition nsok (x : xname) (s : string) : Prop :=
  exists ns, dec_find_ns i e x = Some ns /\ ns_name ns = get_prefix s /\
    forall m, In m ms -> k_can (fst m) (get_prefix s) = true -> new_tmodel kinds ns = Some (TModel (fst m) (k_init (fst m))).

Lemma both_length {A B} (R : A -> B -> Prop) l l2 : Forall2 R l l2 -> List.length l = List.length l2.
Proof. induction 1; cbn; congruence. Qed.
Lemma overlay_none D (fs : list (finfo * ty X)) : forall I vs, List.length fs = List.length vs -> List.length fs = List.length I ->
  (forall s T, In (s, T) (members ver fs vs) -> ~ In s D) -> overlay D I fs vs = I.
Proof.
  induction fs as [|[f t] fs IH]; intros [|i0 I] [|v vs] L L' H; try discriminate L; try discriminate L'; [reflexivity|]. cbn [overlay]. cbn [members] in H.
  injection L as L. injection L' as L'. destruct (left_out ver f t v).
  - now rewrite IH.
  - rewrite IH by (try assumption; intros s T K; apply (H s T); now right).
    destruct (in_dec string_dec (f_name f) D) as [K|K]; [|reflexivity]. elim (H (f_name f) (member ver f t v)); [now left|exact K].
Qed.
Lemma overlay_all D (fs : list (finfo * ty X)) : forall I vs, (forall m, In m (members ver fs vs) -> In (fst m) D) ->
  overlay D I fs vs = as_stored ver I fs vs.
Proof.
  induction fs as [|[f t] fs IH]; intros [|i0 I] [|v vs] H; try reflexivity. cbn [overlay as_stored]. cbn [members] in H.
  destruct (left_out ver f t v); [now rewrite IH|]. rewrite IH by (intros m K; apply H; now right).
  destruct (in_dec string_dec (f_name f) D) as [K|K]; [reflexivity|]. elim K. exact (H _ (or_introl eq_refl)).
Qed.
Lemma overlay_other nm D (fs : list (finfo * ty X)) : forall I vs, (forall g, In g (map fst fs) -> active ver g = true -> f_name g <> nm) ->
  overlay (nm :: D) I fs vs = overlay D I fs vs.
Proof.
  induction fs as [|[f t] fs IH]; intros [|i0 I] [|v vs] H; try reflexivity. cbn [overlay].
  rewrite IH by (intros g Hg; apply H; now right). f_equal. destruct (left_out ver f t v) eqn:E; [reflexivity|].
  assert (A := shown_active ver _ _ _ E). assert (Ne := H f (or_introl eq_refl) A).
  destruct (in_dec string_dec (f_name f) (nm :: D)) as [[K|K]|K]; destruct (in_dec string_dec (f_name f) D) as [L|L]; try reflexivity; try contradiction; try congruence.
  elim K. now right.
Qed.
Lemma overlay_unsaid nm D (fs : list (finfo * ty X)) : forall I vs, (forall T, ~ In (nm, T) (members ver fs vs)) -> overlay (nm :: D) I fs vs = overlay D I fs vs.
Proof.
  induction fs as [|[f t] fs IH]; intros [|i0 I] [|v vs] H; try reflexivity. cbn [overlay]. cbn [members] in H.
  destruct (left_out ver f t v) eqn:E; [now rewrite IH|]. rewrite IH by (intros T K; apply (H T); now right). f_equal.
  assert (Ne : nm <> f_name f). { intros ->. apply (H (member ver f t v)). now left. }
  destruct (in_dec string_dec (f_name f) (nm :: D)) as [[K|K]|K]; destruct (in_dec string_dec (f_name f) D) as [L|L]; try reflexivity; try contradiction; try congruence.
  elim K. now right.
Qed.
Lemma overlay_app D fs1 : forall I1 vs1 fs2 I2 vs2, List.length fs1 = List.length vs1 -> List.length fs1 = List.length I1 ->
  overlay D (I1 ++ I2)%list (fs1 ++ fs2)%list (vs1 ++ vs2)%list = (overlay D I1 fs1 vs1 ++ overlay D I2 fs2 vs2)%list.
Proof.
  induction fs1 as [|[f t] fs IH]; intros [|i0 I] [|v vs] fs2 I2 vs2 H H'; try discriminate H; try discriminate H'; [reflexivity|].
  cbn [List.app overlay]. now rewrite IH by (try (now injection H); now injection H').
Qed.
Lemma overlay_length D fs : forall I vs, List.length fs = List.length vs -> List.length fs = List.length I -> List.length (overlay D I fs vs) = List.length fs.
Proof.
  induction fs as [|[f t] fs IH]; intros [|i0 I] [|v vs] H H'; try discriminate H; try discriminate H'; [reflexivity|].
  cbn [overlay List.length]. now rewrite IH by (try (now injection H); now injection H').
Qed.
Lemma fresh_read c (t : ty X) fin i0 w : (i0 = zero t \/ t = TStr) -> unmarshal ver reg i e c t fin (zero t) = Ok w -> unmarshal (M := tmodel X) ver reg i e c t fin i0 = Ok w.
Proof. intros [->| ->] H; [exact H|]. rewrite <- H. now rewrite !unmarshal_simple by reflexivity. Qed.
Lemma fresh_read_attr s (t : ty X) fin i0 w : (i0 = zero t \/ t = TStr) -> unmarshal_attr t fin (zero t) s = Ok w -> unmarshal_attr t fin i0 s = Ok w.
Proof. intros [->| ->] H; exact H. Qed.

(* one member is read *)
Lemma mstep fs vs I nm T D : fresh_ok fs I -> distinct ver fs -> List.length fs = List.length vs -> In (nm, T) (members ver fs vs) ->
  exists j f t v i0, nth_error fs j = Some (f, t) /\ nth_error vs j = Some v /\ find_field ver fs nm = Some j /\ left_out ver f t v = false /\ f_name f = nm /\ T = member ver f t v /\ (~ In nm D -> nth_error (overlay D I fs vs) j = Some i0) /\ (i0 = zero t \/ t = TStr) /\ set_nth j (norm ver t v) (overlay D I fs vs) = overlay (nm :: D) I fs vs.
Proof.
  intros Fr ND L H. destruct (members_at ver _ _ _ _ H) as (pre & f & t & post & vpre & v & vpost & -> & -> & H1 & H2 & <- & ->).
  apply Forall2_app_inv_l in Fr. destruct Fr as (Ipre & I2 & R1 & R2 & ->). inversion R2 as [|? i0 ? Ipost R R3]; subst. cbn [snd] in R.
  exists (List.length pre), f, t, v, i0. split; [apply nth_error_mid|]. split; [rewrite H1; apply nth_error_mid|].
  assert (A := shown_active ver _ _ _ H2). split; [apply find_field_mid; assumption|]. split; [exact H2|]. split; [reflexivity|]. split; [reflexivity|].
  assert (O : forall g, In g (map fst pre) \/ In g (map fst post) -> active ver g = true -> f_name g <> f_name f).
  { intros g Hg Ha E. unfold distinct in ND. rewrite map_app, filter_app, map_app in ND. cbn [map filter fst] in ND.
    change (in_version ver f) with (active ver f) in ND. rewrite A in ND. cbn [map] in ND.
    apply NoDup_remove_2 in ND. apply ND. apply in_or_app. rewrite <- E.
    destruct Hg as [Hg|Hg]; [left|right]; apply in_map; apply filter_In; split; auto. }
  assert (L2 := both_length _ _ _ R1).
  rewrite !overlay_app by assumption. assert (Lp : List.length (overlay D Ipre pre vpre) = List.length pre) by (apply overlay_length; assumption).
  rewrite (overlay_other (f_name f) D pre) by (intros g Hg; apply O; now left).
  split; [|split; [exact R|]].
  - intros N. rewrite <- Lp. cbn [overlay]. rewrite H2. destruct (in_dec string_dec (f_name f) D); [contradiction|]. apply nth_error_mid.
  - rewrite <- Lp. cbn [overlay]. rewrite set_nth_mid, H2. f_equal. destruct (in_dec string_dec (f_name f) (f_name f :: D)) as [|K]; [|elim K; now left].
    f_equal. symmetry. apply overlay_other. intros g Hg. apply O. now right.
Qed.

Lemma lookup_for D l m s T x : inv D l -> In m ms -> In (s, T) (mem m) -> nsok x s ->
  exists sel j, lookup_node kinds i e l x = Ok (map (node_for D) sel, j) /\ NoDup sel /\ incl sel ms /\ nth_error sel j = Some m /\
    forall m', In m' ms -> (In m' sel <-> m' = m \/ exists s T, In (s, T) (mem m') /\ In s D).
Proof.
  intros (sel & -> & N & I & C) Hm Hs (ns & E1 & E2 & E3). unfold lookup_node. rewrite E1, find_index_of_map.
  destruct (fit_in m Hm) as (F1 & F2 & F3 & F4 & F5 & F6 & F7 & F8 & F9 & F10).
  assert (Hc : k_can (fst m) (get_prefix s) = true).
  { apply F10. exact (in_map fst _ _ Hs). }
  assert (U : forall y, In y sel -> matches tm_can (ns_name ns) (node_for D y) = true -> y = m).
  { intros y Hy K. rewrite E2 in K. apply (Hown y m (get_prefix s)); auto. eapply matches_for; eauto. }
  destruct (find_index (fun x0 => matches tm_can (ns_name ns) (node_for D x0)) sel) as [j|] eqn:Ej.
  - assert (In m sel).
    { assert (K : exists y, In y sel /\ matches tm_can (ns_name ns) (node_for D y) = true).
      { clear -Ej. revert j Ej. induction sel as [|y sel IH]; intros j E; [discriminate|]. cbn [find_index] in E.
        destruct (matches tm_can (ns_name ns) (node_for D y)) eqn:K; [exists y; split; [now left|exact K]|].
        destruct (find_index _ sel) as [j'|] eqn:E'; [|discriminate]. destruct (IH _ eq_refl) as (z & Z1 & Z2). exists z. split; [now right|exact Z2]. }
      destruct K as (y & K1 & K2). now rewrite <- (U y K1 K2). }
    destruct (find_index_first (fun x0 => matches tm_can (ns_name ns) (node_for D x0)) sel m H U) as (j' & J1 & J2).
    { rewrite E2. apply matches_own, Hc. }
    rewrite Ej in J1. injection J1 as <-.
    exists sel, j. split; [reflexivity|]. split; [exact N|]. split; [exact I|]. split; [exact J2|].
    intros m' Hm'. rewrite (C m' Hm'). split; [now right|]. intros [->|K]; [|exact K]. now apply C.
  - rewrite (E3 m Hm Hc). cbn [tm_kind]. destruct (k_namespaces (fst m)) as [|ns0 r] eqn:Ek; [now elim F7|].
    assert (Nm : ~ In m sel).
    { intros K. destruct (find_index_first (fun x0 => matches tm_can (ns_name ns) (node_for D x0)) sel m K U) as (j' & J1 & J2); [|congruence].
      rewrite E2. apply matches_own, Hc. }
    exists (sel ++ [m])%list, (List.length sel). split; [|split; [|split; [|split]]].
    + rewrite map_app, map_length. f_equal. f_equal. f_equal. cbn [map]. f_equal. unfold node_for, home_ns. rewrite Ek. cbn [hd].
      unfold set_model, new_node. f_equal. f_equal. f_equal. symmetry. apply overlay_none; [apply (fields_length ver); exact F3|exact (both_length _ _ _ F1)|].
      intros s' T' K1 K2. apply Nm. apply C; auto. exists s', T'. auto.
    + apply (Permutation_NoDup (l := m :: sel)); [apply Permutation_cons_append|constructor; assumption].
    + intros y Hy. apply in_app_or in Hy. destruct Hy as [Hy|[<-|[]]]; auto.
    + rewrite nth_error_app2, Nat.sub_diag by lia. reflexivity.
    + intros m' Hm'. rewrite in_app_iff. rewrite (C m' Hm'). cbn [In]. split; [intros [K|[<-|[]]]; auto|intros [->|K]; auto].
Qed.

Lemma nth_error_sel {A B} (g : A -> B) l j x : nth_error l j = Some x -> nth_error (map g l) j = Some (g x).
Proof. intros H. rewrite nth_error_map, H. reflexivity. Qed.
Lemma replace_map {A B} (f g : A -> B) (l : list A) : forall j x, NoDup l -> nth_error l j = Some x -> (forall y, In y l -> y <> x -> f y = g y) ->
  replace_nth j (g x) (map f l) = map g l.
Proof.
  induction l as [|y l IH]; intros [|j] x N H E; try discriminate H; inversion N as [|? ? N1 N2]; subst; cbn [map replace_nth].
  - injection H as ->. f_equal. apply map_ext_in. intros z Hz. apply E; [now right|]. intros ->. exact (N1 Hz).
  - cbn [nth_error] in H. f_equal.
    + apply E; [now left|]. intros ->. apply nth_error_In in H. exact (N1 H).
    + apply IH; auto. intros z Hz. apply E. now right.
Qed.

Lemma set_back D sel m s T j jf f t v : NoDup sel -> incl sel ms -> nth_error sel j = Some m -> In (s, T) (mem m) ->
  (forall m', In m' ms -> (In m' sel <-> m' = m \/ exists s T, In (s, T) (mem m') /\ In s D)) ->
  nth_error (k_fields (fst m)) jf = Some (f, t) -> nth_error (snd m) jf = Some v -> f_name f = s ->
  set_nth jf (norm ver t v) (overlay D (k_init (fst m)) (k_fields (fst m)) (snd m)) = overlay (s :: D) (k_init (fst m)) (k_fields (fst m)) (snd m) ->
  inv (s :: D) (set_field (map (node_for D) sel) j (node_for D m) (TModel (fst m) (overlay D (k_init (fst m)) (k_fields (fst m)) (snd m))) jf (norm ver t v)).
Proof.
  intros N I J Hs C E1 E2 En E3. unfold set_field. cbn [tm_kind tm_vals]. rewrite E3.
  change (set_model (node_for D m) (Some (TModel (fst m) (overlay (s :: D) (k_init (fst m)) (k_fields (fst m)) (snd m))))) with (node_for (s :: D) m).
  assert (Hm : In m ms) by (apply I; eapply nth_error_In; eauto).
  assert (Hc : k_can (fst m) (get_prefix s) = true).
  { destruct (fit_in m Hm) as (_ & _ & _ & _ & _ & _ & _ & _ & _ & F). apply F. exact (in_map fst _ _ Hs). }
  rewrite (replace_map (node_for D) (node_for (s :: D)) sel j m N J).
  - exists sel. split; [reflexivity|]. split; [exact N|]. split; [exact I|]. intros m' Hm'. rewrite (C m' Hm'). split.
    + intros [->|(s' & T' & K1 & K2)]; [exists s, T; split; [exact Hs|now left]|exists s', T'; split; [exact K1|now right]].
    + intros (s' & T' & K1 & [<-|K2]); [|right; exists s', T'; auto]. left. apply (Hown m' m (get_prefix s)); auto.
      destruct (fit_in m' Hm') as (_ & _ & _ & _ & _ & _ & _ & _ & _ & F).
      apply F. exact (in_map fst _ _ K1).
  - intros m' Hm' Ne. unfold node_for. f_equal. f_equal. f_equal. symmetry. apply overlay_unsaid. intros T' K. apply Ne.
    apply (Hown m' m (get_prefix s)); auto. destruct (fit_in m' (I _ Hm')) as (_ & _ & _ & _ & _ & _ & _ & _ & _ & F). apply F. exact (in_map fst _ _ K).
Qed.

Lemma holds_set_name x (c : node) T : holds c T -> holds (set_name c x) T.
Proof. intros H. destruct c. inversion H; subst; econstructor; eauto. Qed.

Lemma attr_step D l m s a : inv D l -> In m ms -> In (s, PLeaf (a_value a)) (mem m) -> ~ In s D ->
  translate (a_name a) = new_name s -> nsok (new_name s) s ->
  exists l', decode_attribute ver reg kinds i e l a = Ok l' /\ inv (s :: D) l'.
Proof.
  intros Hi Hm Hs Hd Et Hn. destruct (fit_in m Hm) as (F1 & F2 & F3 & F4 & F5 & F6 & F7 & F8 & F9 & F10).
  destruct (mstep (k_fields (fst m)) (snd m) (k_init (fst m)) s (PLeaf (a_value a)) D F1 F2 (fields_length ver _ _ F3) Hs) as (jf & f & t & v & i0 & E1 & E2 & E3 & E4 & E5 & E6 & E7 & E0 & E8).
  destruct (lookup_for D l m s _ (new_name s) Hi Hm Hs Hn) as (sel & j & L1 & L2 & L3 & L4 & L5).
  unfold decode_attribute. rewrite Et.
  assert (Hr : ~ In (f_name f) reserved) by (apply F5; eapply nth_field_name; eauto).
  destruct (not_reserved f Hr) as (_ & _ & Sk). rewrite E5 in Sk. rewrite Sk, L1. cbn [bind]. rewrite (nth_error_sel _ _ _ _ L4).
  cbn [node_for n_model tm_kind tm_vals new_name x_local]. rewrite E3, E1. rewrite (E7 Hd).
  rewrite (fresh_read_attr _ _ _ _ _ E0 (attr_member_read ver _ _ _ _ _ _ _ true F3 F4 E1 E2 E4 E6)). cbn [bind]. eexists. split; [reflexivity|].
  eapply set_back; eauto.
Qed.

Lemma elem_step D l m s T c : inv D l -> In m ms -> In (s, T) (mem m) -> ~ In s D ->
  translate (n_name c) = new_name s -> nsok (n_name c) s -> holds c T ->
  exists l', decode_node ver reg kinds i e l c = Ok l' /\ inv (s :: D) l'.
Proof.
  intros Hi Hm Hs Hd Et Hn Hc. destruct (fit_in m Hm) as (F1 & F2 & F3 & F4 & F5 & F6 & F7 & F8 & F9 & F10).
  destruct (mstep (k_fields (fst m)) (snd m) (k_init (fst m)) s T D F1 F2 (fields_length ver _ _ F3) Hs) as (jf & f & t & v & i0 & E1 & E2 & E3 & E4 & E5 & E6 & E7 & E0 & E8).
  destruct (lookup_for D l m s _ (n_name c) Hi Hm Hs Hn) as (sel & j & L1 & L2 & L3 & L4 & L5).
  unfold decode_node. rewrite L1. cbn [bind]. rewrite (nth_error_sel _ _ _ _ L4).
  cbn [node_for n_model tm_kind tm_vals]. rewrite Et.
  assert (Ef : full_name reg (set_name c (new_name s)) = s) by (destruct c; reflexivity). rewrite Ef, E3, E1, (E7 Hd).
  assert (W : wf_ty ver t) by (rewrite Forall_forall in F6; apply (F6 (f, t)); eapply nth_error_In; eauto).
  assert (Hh : holds (set_name c (new_name s)) (member ver f t v)) by (rewrite <- E6; now apply holds_set_name).
  rewrite (fresh_read _ _ _ _ _ E0 (elem_member_read ver reg i e _ _ _ _ _ _ (set_name c (new_name s)) true F3 F4 E1 E2 E4 W (holds_read ver reg i e t) Hh)).
  cbn [bind]. eexists. split; [reflexivity|]. eapply set_back; eauto.
Qed.

(* properties that hold these members *)
Inductive reads : list (property X) -> list (string * pval) -> Prop :=
| rd_nil : reads [] []
| rd_skip a ps L : skip_field (translate (a_name a)) = true -> reads ps L -> reads (PAttr a :: ps) L
| rd_attr a s ps L : translate (a_name a) = new_name s -> nsok (new_name s) s -> reads ps L ->
    reads (PAttr a :: ps) ((s, PLeaf (a_value a)) :: L)
| rd_elem c s T ps L : translate (n_name c) = new_name s -> nsok (n_name c) s -> holds c T -> reads ps L ->
    reads (PElem c :: ps) ((s, T) :: L).
Lemma reads_app ps L ps' L' : reads ps L -> reads ps' L' -> reads (ps ++ ps') (L ++ L').
Proof. intros H H'. induction H; cbn [List.app]; [exact H'|apply rd_skip|apply rd_attr|apply rd_elem]; auto. Qed.

Lemma reads_run ps L : reads ps L -> forall D l, inv D l -> (forall s T, In (s, T) L -> exists m, In m ms /\ In (s, T) (mem m)) ->
  NoDup (map fst L ++ D) ->
  exists l', decode_properties ver reg kinds i e l ps = Ok l' /\ inv (rev (map fst L) ++ D) l'.
Proof.
  induction 1 as [|a ps L Hk H IH|a s ps L Et Hn H IH|c s T ps L Et Hn Hc H IH]; intros D l Hi Hm N.
  - exists l. split; [reflexivity|exact Hi].
  - cbn [decode_properties decode_property]. unfold decode_attribute at 1. rewrite Hk. cbn [bind]. apply IH; auto.
  - destruct (Hm s _ (or_introl eq_refl)) as (m & M1 & M2). cbn [map List.app fst] in N. inversion N as [|? ? N1 N2]; subst.
    destruct (attr_step D l m s a Hi M1 M2) as (l1 & E & I1); auto. { intros K. apply N1. apply in_or_app. now right. }
    cbn [decode_properties decode_property]. rewrite E. cbn [bind].
    destruct (IH (s :: D) l1 I1) as (l' & E' & I').
    + intros s' T' K. apply Hm. now right.
    + apply (Permutation_NoDup (l := s :: map fst L ++ D)%list); [apply Permutation_middle|constructor; assumption].
    + exists l'. split; [exact E'|]. cbn [map rev fst]. rewrite <- List.app_assoc. exact I'.
  - destruct (Hm s _ (or_introl eq_refl)) as (m & M1 & M2). cbn [map List.app fst] in N. inversion N as [|? ? N1 N2]; subst.
    destruct (elem_step D l m s T c Hi M1 M2) as (l1 & E & I1); auto. { intros K. apply N1. apply in_or_app. now right. }
    cbn [decode_properties decode_property]. rewrite E. cbn [bind].
    destruct (IH (s :: D) l1 I1) as (l' & E' & I').
    + intros s' T' K. apply Hm. now right.
    + apply (Permutation_NoDup (l := s :: map fst L ++ D)%list); [apply Permutation_middle|constructor; assumption].
    + exists l'. split; [exact E'|]. cbn [map rev fst]. rewrite <- List.app_assoc. exact I'.
Qed.

Definition shown (m : modl) : bool := match mem m with [] => false | _ => true end.

Lemma all_names_apart : NoDup (map fst (flat_map mem ms)).
Proof.
  assert (G : forall l, NoDup l -> incl l ms -> NoDup (map fst (flat_map mem l))).
  { induction l as [|m l IH]; intros N I; [constructor|]. inversion N; subst. cbn [flat_map]. rewrite map_app.
    assert (Hm : In m ms) by (apply I; now left). destruct (fit_in m Hm) as (F1 & F2 & F3 & F4 & F5 & F6 & F7 & F8 & F9 & F10).
    assert (I' : incl l ms) by (intros y Hy; apply I; now right).
    assert (G : forall m s, In m ms -> In s (map fst (mem m)) -> k_can (fst m) (get_prefix s) = true).
    { clear -Hfit. intros m s Hm Hs. destruct (fit_in m Hm) as (_ & _ & _ & _ & _ & _ & _ & _ & _ & F). now apply F. }
    apply NoDup_app_intro.
    - apply members_names_nodup. exact F2.
    - apply IH; auto.
    - intros s Hs Hl. apply in_map_iff in Hl. destruct Hl as ([s' T] & Es & K). cbn in Es. subst s'. apply in_flat_map in K. destruct K as (m' & K1 & K2).
      apply H1. assert (m = m') as ->; [|exact K1]. apply (Hown m m' (get_prefix s)); auto. apply G; auto. apply (in_map fst) in K2. exact K2. }
  apply G; [exact Hnd|apply incl_refl].
Qed.

Theorem models_back ps L : reads ps L -> Permutation (flat_map mem ms) L ->
  exists sel, decode_properties ver reg kinds i e [] ps = Ok (map final sel) /\ Permutation sel (filter shown ms).
Proof.
  intros H P. destruct (reads_run ps L H [] []) as (l' & E & (sel & -> & N & I & C)).
  - exists []. split; [reflexivity|]. split; [constructor|]. split; [intros y []|]. intros m _. split; [intros []|intros (s & T & _ & [])].
  - intros s T K. rewrite <- P in K. apply in_flat_map in K. destruct K as (m & K1 & K2). eauto.
  - rewrite List.app_nil_r. apply (Permutation_NoDup (l := map fst (flat_map mem ms))); [now apply Permutation_map|apply all_names_apart].
  - exists sel. rewrite E. split.
    + f_equal. apply map_ext_in. intros m Hm. unfold node_for, final. f_equal. f_equal. f_equal. apply overlay_all. intros x Hx.
      apply in_or_app. left. apply -> in_rev. apply in_map. rewrite <- P. apply in_flat_map. exists m. split; [apply I; exact Hm|exact Hx].
    + apply NoDup_Permutation; [exact N|apply NoDup_filter; exact Hnd|]. intros m. rewrite filter_In. split.
      * intros Hm. split; [apply I; exact Hm|]. apply (C m (I _ Hm)) in Hm. destruct Hm as (s & T & K & _). unfold shown. destruct (mem m); [contradiction|reflexivity].
      * intros [Hm K]. apply (C m Hm). unfold shown in K. destruct (mem m) as [|[s T] r] eqn:Em; [discriminate|]. exists s, T. split; [now left|].
        rewrite List.app_nil_r. apply -> in_rev. apply in_map_iff. exists (s, T). split; [reflexivity|]. rewrite <- P. apply in_flat_map. exists m. split; [exact Hm|].
        rewrite Em. now left.
Qed.
End T.
