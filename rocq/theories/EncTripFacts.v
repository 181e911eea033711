(* What Encode writes for a document of typed models: every member of every model once, below the
   rdf:Description of its prefix, and every prefix used is declared there. *)
From Coq Require Import List Arith ZArith Bool Ascii String Permutation Lia.
From Verif Require Import GoStr GoStrFacts GoMap Spec SpecFacts Names Semver RegistryM SpecRegistry RegistryFacts BasicFacts PathFacts
  NodeM DocM DocFacts ArrayM TypeM DecodeM JsonM SpecJson SpecType SpecTree SpecDecode TypeFacts TreeFacts FormFacts DecodeFacts DecodeKeepFacts EncodeKeepFacts
  DecodeDocFacts TripFacts.
Import ListNotations.
Local Open Scope string_scope.

Section E.
Context {X : Type}.
Notation gval := (gval X).
Notation node := (node (tmodel X)).
Notation doc := (doc (tmodel X)).
Notation modl := (mkind X * list gval)%type.
Variable ver : version.
Variable h : list reg_op.
Notation reg := (registry_of h).
Variable d : doc.
Variable G : string -> Prop.   (* what is known of the names of the root nodes *)

(* a root node with these members *)
Variable T : list string.
Notation forms := (@forms (tmodel X) T).

Definition kid_of (c : node) (f : string * pval) : Prop := n_name c = new_name (fst f) /\ forms c (snd f).
Definition root_shows (r : node) (L : list (string * pval)) : Prop :=
  (root_ok r /\ n_value r = "" /\ G (x_local (n_name r))) /\ exists A K, n_attrs r = map attr_of A /\ Forall2 kid_of (n_nodes r) K /\ Permutation L (map leaf_of A ++ K).
Definition shows (l : list node) (L : list (string * pval)) : Prop :=
  (exists Ls, Forall2 root_shows l Ls /\ Permutation L (List.concat Ls)) /\ NoDup (map (fun r => x_local (n_name r)) l).

Lemma shows_perm l L L' : Permutation L L' -> shows l L -> shows l L'.
Proof. intros P ((Ls & F & Q) & N). split; [|exact N]. exists Ls. split; [exact F|]. now rewrite <- P. Qed.
Lemma shows_ok l L : shows l L -> Forall root_ok l.
Proof. intros ((Ls & F & _) & _). induction F as [|r Lr l Ls [[R _] _] F IH]; constructor; auto. Qed.
Lemma root_perm r L L' : Permutation L L' -> root_shows r L -> root_shows r L'.
Proof. intros P (R & A & K & H1 & H2 & H3). split; [exact R|]. exists A, K. repeat split; auto. now rewrite <- P. Qed.

Lemma new_root x : plain_name x -> G (x_local x) -> root_shows (new_node x) [].
Proof. intros H Hg. split; [split; [split; [reflexivity|exact H]|split; [reflexivity|exact Hg]]|]. exists [], []. repeat split; constructor. Qed.

Lemma Forall2_split {A B} (R : A -> B -> Prop) pre x post l : Forall2 R (pre ++ x :: post)%list l ->
  exists l1 y l2, l = (l1 ++ y :: l2)%list /\ Forall2 R pre l1 /\ R x y /\ Forall2 R post l2.
Proof.
  intros H. apply Forall2_app_inv_l in H. destruct H as (l1 & l2 & F1 & F2 & ->). inversion F2; subst. eauto 10.
Qed.
Lemma replace_mid {A} (pre : list A) x y post : replace_nth (List.length pre) y (pre ++ x :: post)%list = (pre ++ y :: post)%list.
Proof. induction pre as [|a pre IH]; [reflexivity|]. cbn. now rewrite IH. Qed.

Lemma fresh_nodup (l : list node) ns : Forall root_ok l -> find_index (matches tm_can (ns_name ns)) l = None ->
  NoDup (map (fun r => x_local (n_name r)) l) -> NoDup (map (fun r => x_local (n_name r)) l ++ [ns_name ns]).
Proof.
  intros H E N. apply (Permutation_NoDup (Permutation_cons_append _ _)). constructor; [|exact N]. intros K. apply in_map_iff in K.
  destruct K as (r & K1 & K2). rewrite Forall_forall in H. destruct (H r K2) as [_ [_ Hp]].
  assert (Hm := proj1 (DocFacts.find_index_none _ _) E r K2). unfold matches, node_local in Hm. rewrite no_colon_strip, K1, String.eqb_refl in Hm by exact Hp. discriminate.
Qed.
Lemma with_root_shows l L ns f m : shows l L -> has_char ":" (ns_name ns) = false -> G (ns_name ns) ->
  (forall r Lr, root_shows r Lr -> incl Lr L -> exists r', f r = Ok r' /\ n_name r' = n_name r /\ root_shows r' (m :: Lr)) ->
  exists l', with_root l ns f = Ok l' /\ shows l' (m :: L).
Proof.
  intros HS Hc Hg Hf. assert (Hok : Forall root_ok l) by (apply (shows_ok l L); exact HS). destruct HS as ((Ls & F & P) & N). unfold with_root.
  destruct (find_index _ l) as [j|] eqn:Ej.
  - destruct (DocFacts.find_index_some _ _ _ Ej) as (r & Er & _). rewrite Er.
    destruct (nth_error_split _ _ Er) as (pre & post & -> & <-). destruct (Forall2_split _ _ _ _ _ F) as (L1 & Lr & L2 & -> & F1 & R & F2).
    destruct (Hf r Lr R) as (r' & E & En & R').
    { intros y Hy. rewrite P, concat_app. apply in_or_app. right. cbn. apply in_or_app. now left. }
    rewrite E. cbn [bind]. rewrite replace_mid. eexists. split; [reflexivity|]. split; [|rewrite map_app in *; cbn [map] in *; now rewrite En].
    exists (L1 ++ (m :: Lr) :: L2)%list. split.
    + apply Forall2_app; auto.
    + rewrite concat_app in *. cbn [List.concat] in *. cbn [List.app]. rewrite P. apply Permutation_middle.
  - destruct (Hf (new_node (ns_xml_name ns "")) []) as (r' & E & En & R').
    { apply new_root; [|exact Hg]. split; [reflexivity|]. exact Hc. }
    { intros y []. }
    rewrite E. cbn [bind]. eexists. split; [reflexivity|].
    rewrite (nl_add_fresh_root l r' (ns_name ns)); auto; [|rewrite En; reflexivity].
    split; [|rewrite map_app; cbn [map]; rewrite En; now apply fresh_nodup].
    exists (Ls ++ [[m]])%list. split; [apply Forall2_app; [exact F|constructor; [exact R'|constructor]]|].
    rewrite concat_app. cbn [List.concat List.app]. rewrite P. apply Permutation_cons_append.
Qed.

(* the prefixes of the names can be looked up *)
Definition found (s : string) : Prop := exists ns, enc_find_ns reg d (new_name s) = Some ns /\ has_char ":" (ns_name ns) = false /\ G (ns_name ns).

Lemma add_attr_shows r Lr f : root_shows r Lr -> ~ In (fst f) (map fst Lr) ->
  root_shows (add_attr r (attr_of f)) (leaf_of f :: Lr) /\ n_name (add_attr r (attr_of f)) = n_name r.
Proof.
  intros (R & A & K & H1 & H2 & H3) Nf. destruct r as [x al mo v kl]. cbn [n_attrs n_nodes] in *. split; [|reflexivity].
  split; [exact R|]. exists (A ++ [f])%list, K. unfold add_attr. cbn [set_attrs n_attrs n_nodes]. rewrite H1. split; [|split; [exact H2|]].
  - rewrite al_add_new.
    + now rewrite map_app.
    + intros w Hw. apply in_map_iff in Hw. destruct Hw as (g & <- & Hg). cbn. intros E. apply Nf. rewrite <- E, H3, map_app.
      apply in_or_app. left. rewrite map_map. apply in_map_iff. exists g. auto.
  - rewrite map_app, <- List.app_assoc. cbn [map List.app]. rewrite H3. apply Permutation_middle.
Qed.
Lemma add_node_shows r Lr c f : root_shows r Lr -> kid_of c f -> ~ In (fst f) (map fst Lr) ->
  root_shows (add_node r c) (f :: Lr) /\ n_name (add_node r c) = n_name r.
Proof.
  intros (R & A & K & H1 & H2 & H3) Hk Nf. destruct r as [x al mo v kl]. cbn [n_attrs n_nodes] in *. split; [|reflexivity].
  split; [exact R|]. exists A, (K ++ [f])%list. unfold add_node. cbn [set_nodes n_attrs n_nodes]. split; [exact H1|]. split.
  - rewrite nl_add_new; [apply Forall2_app; auto|]. intros w Hw. destruct Hk as [Hk _]. rewrite Hk. cbn.
    assert (Hg : exists g, In g K /\ n_name w = new_name (fst g)).
    { clear -H2 Hw. induction H2 as [|a g kl K [Ha _] H2 IH]; [contradiction|]. destruct Hw as [->|Hw]; [exists g; split; [now left|exact Ha]|].
      destruct (IH Hw) as (g' & G1 & G2). exists g'. split; [now right|exact G2]. }
    destruct Hg as (g & Hg & ->). cbn. intros E. apply Nf. rewrite <- E, H3, map_app. apply in_or_app. right. now apply in_map.
  - rewrite H3, List.app_assoc. apply Permutation_cons_append.
Qed.

Lemma model_attrs_shows (fs : list (finfo * ty X)) : forall vs l L, fields_ok ver fs vs -> (forall f, In f (map fst (attr_mem ver fs vs)) -> found f) ->
  NoDup (map fst (attr_mem ver fs vs) ++ map fst L) -> shows l L ->
  exists l', model_attrs ver reg d fs vs l = Ok l' /\ shows l' (map leaf_of (attr_mem ver fs vs) ++ L).
Proof.
  induction fs as [|[f t] fs IH]; intros [|v vs] l L Ho Hn N Hs; try contradiction; [exists l; auto|].
  destruct Ho as [Hf Ho]. cbn [model_attrs]. cbn [attr_mem] in *. rewrite left_out_eq in *. rewrite negb_involutive in *.
  destruct (present ver f t v) eqn:Ep; cbn [andb negb] in *; rewrite ?andb_false_r, ?andb_true_r; [|apply IH; auto].
  destruct (f_attr f) eqn:Ea; [|apply IH; auto].
  destruct (Hn (f_name f) (or_introl eq_refl)) as (ns & E1 & E2 & E2g). rewrite E1. specialize (Hf eq_refl).
  destruct (attr_rt ver t v true Hf) as (s & E3 & _). assert (Es := attr_text_str ver t v s Hf E3). subst s.
  cbn [map List.app] in N. inversion N as [|? ? N1 N2]; subst.
  destruct (with_root_shows l L ns (fun n => bind (attr_text t v) (fun o => Ok (match o with Some s => add_attr n (Attr (new_name (f_name f)) s) | None => n end)))
    (leaf_of (f_name f, attr_str t v)) Hs E2 E2g) as (l1 & E4 & S1).
  { intros r Lr R I. rewrite E3. cbn [bind]. eexists. split; [reflexivity|].
    destruct (add_attr_shows r Lr (f_name f, attr_str t v) R) as [A B]; [|split; [exact B|exact A]].
    cbn. intros K. apply N1. apply in_or_app. right. apply in_map_iff in K. destruct K as (g & <- & Hg). apply in_map. auto. }
  rewrite E4. cbn [bind]. destruct (IH vs l1 (leaf_of (f_name f, attr_str t v) :: L)) as (l' & E5 & S2); auto.
  - intros g Hg. apply Hn. now right.
  - cbn [map leaf_of fst]. apply (Permutation_NoDup (l := f_name f :: (map fst (attr_mem ver fs vs) ++ map fst L)%list)); [apply Permutation_middle|exact N].
  - exists l'. split; [exact E5|]. eapply shows_perm; [|exact S2]. cbn [map List.app]. symmetry. apply Permutation_middle.
Qed.

Lemma model_elems_shows (fs : list (finfo * ty X)) : forall vs l L, fields_ok ver fs vs -> Forall (fun f => wf_ty ver (snd f)) fs -> fields_arr ver T fs vs ->
  (forall f, In f (map fst (elem_mem ver fs vs)) -> found f) ->
  NoDup (map fst (elem_mem ver fs vs) ++ map fst L) -> shows l L ->
  exists l', model_elems ver reg d fs vs l = Ok l' /\ shows l' (elem_mem ver fs vs ++ L).
Proof.
  induction fs as [|[f t] fs IH]; intros [|v vs] l L Ho W Ar Hn N Hs; try contradiction; [exists l; auto|].
  apply Forall_cons_iff in W. destruct W as [Wt W]. destruct Ar as [At Ar]. cbn [snd] in Wt.
  destruct Ho as [Hf Ho]. cbn [model_elems]. cbn [elem_mem] in *. rewrite left_out_eq in *. rewrite negb_involutive in *.
  destruct (present ver f t v) eqn:Ep; cbn [andb negb] in *; rewrite ?andb_false_r, ?andb_true_r; [|apply IH; auto].
  destruct (f_attr f) eqn:Ea; cbn [negb] in *; [apply IH; auto|].
  destruct (Hn (f_name f) (or_introl eq_refl)) as (ns & E1 & E2 & E2g). rewrite E1. specialize (Hf eq_refl).
  destruct (marshal_written (M := tmodel X) ver T t v (f_name f) Wt (At eq_refl eq_refl) Hf) as (c & E3 & Nc & Fc).
  cbn [map List.app] in N. inversion N as [|? ? N1 N2]; subst.
  destruct (with_root_shows l L ns (fun n => bind (marshal ver t v (new_node (new_name (f_name f)))) (fun c => Ok (add_node n c)))
    (f_name f, tree_of ver t v) Hs E2 E2g) as (l1 & E4 & S1).
  { intros r Lr R I. rewrite E3. cbn [bind]. eexists. split; [reflexivity|].
    destruct (add_node_shows r Lr c (f_name f, tree_of ver t v) R) as [A B]; [split; assumption| |split; [exact B|exact A]].
    cbn. intros K. apply N1. apply in_or_app. right. apply in_map_iff in K. destruct K as (g & <- & Hg). apply in_map. auto. }
  rewrite E4. cbn [bind]. destruct (IH vs l1 ((f_name f, tree_of ver t v) :: L)) as (l' & E5 & S2); auto.
  - intros g Hg. apply Hn. now right.
  - cbn [map fst]. apply (Permutation_NoDup (l := f_name f :: (map fst (elem_mem ver fs vs) ++ map fst L)%list)); [apply Permutation_middle|exact N].
  - exists l'. split; [exact E5|]. eapply shows_perm; [|exact S2]. cbn [List.app]. symmetry. apply Permutation_middle.
Qed.

(* the node of a model in a document: nothing beside the model *)
Definition node_of (m : modl) (n : node) : Prop :=
  n_model n = Some (TModel (fst m) (snd m)) /\ n_attrs n = [] /\ n_nodes n = [] /\ plain_name (n_name n) /\ found (x_local (n_name n)).

Lemma fst_leaf l : map fst (map leaf_of l) = map fst l.
Proof. rewrite map_map. reflexivity. Qed.

Definition arrays_ok (m : modl) : Prop := fields_arr ver T (k_fields (fst m)) (snd m).
Lemma encode_node_shows m n l L : node_of m n -> fit ver m -> arrays_ok m -> (forall s, In s (map fst (mem ver m)) -> found s) ->
  NoDup (map fst (mem ver m) ++ map fst L) -> shows l L ->
  exists l', encode_doc_node ver reg d l n = Ok l' /\ shows l' (mem ver m ++ L).
Proof.
  intros (H1 & H2 & H3 & H4 & (ns & H5 & H6 & H7)) Hf Ar Hn N Hs.
  destruct Hf as (_ & F2 & F3 & F4 & F5 & F6 & _). unfold mem in *.
  set (fs := k_fields (fst m)) in *. set (vs := snd m) in *.
  assert (P := members_split ver fs vs).
  assert (NN : NoDup (map fst (attr_mem ver fs vs) ++ map fst (elem_mem ver fs vs) ++ map fst L)).
  { rewrite List.app_assoc. rewrite <- fst_leaf, <- map_app. eapply Permutation_NoDup; [|exact N]. apply Permutation_app_tail, Permutation_map, P. }
  unfold encode_doc_node. rewrite H1. cbn [tm_kind tm_vals]. fold fs vs.
  destruct (model_attrs_shows fs vs l L F3) as (l1 & E1 & S1); auto.
  { intros s K. apply Hn. rewrite P, map_app, fst_leaf. apply in_or_app. now left. }
  { assert (NN' := NN). apply (Permutation_NoDup (l' := (map fst (elem_mem ver fs vs) ++ map fst (attr_mem ver fs vs) ++ map fst L)%list)) in NN'.
    - clear -NN'. induction (map fst (elem_mem ver fs vs)) as [|a r IH]; [exact NN'|]. inversion NN'; auto.
    - rewrite !List.app_assoc. apply Permutation_app_tail, Permutation_app_comm. }
  rewrite E1. cbn [bind].
  destruct (model_elems_shows fs vs l1 (map leaf_of (attr_mem ver fs vs) ++ L)%list F3 F6 Ar) as (l2 & E2 & S2); [| |exact S1|].
  { intros s K. apply Hn. rewrite P, map_app. apply in_or_app. now right. }
  { rewrite map_app, fst_leaf. eapply Permutation_NoDup; [|exact NN]. rewrite !List.app_assoc. apply Permutation_app_tail, Permutation_app_comm. }
  rewrite E2. cbn [bind].
  assert (S3 : shows l2 (members ver fs vs ++ L)).
  { eapply shows_perm; [|exact S2]. rewrite P, !List.app_assoc. apply Permutation_app_tail, Permutation_app_comm. }
  assert (En : enc_find_ns reg d (n_name n) = Some ns).
  { destruct (n_name n) as [sp lo]. destruct H4 as [H4 _]. cbn in *. now subst sp. }
  rewrite En, H2, H3. destruct (find_index _ l2) as [j|] eqn:Ej.
  - destruct (DocFacts.find_index_some _ _ _ Ej) as (r & Er & _). rewrite Er.
    eexists. split; [reflexivity|].
    destruct (nth_error_split _ _ Er) as (pre & post & -> & <-). rewrite replace_mid.
    replace (set_attrs (set_nodes r (n_nodes r ++ [])) (n_attrs r ++ [])) with r; [exact S3|]. destruct r. cbn. now rewrite !List.app_nil_r.
  - eexists. split; [reflexivity|]. cbn [set_attrs set_nodes new_node n_nodes n_attrs List.app].
    assert (Ens : ns_name ns = x_local (n_name n)).
    { rewrite (enc_ns_plain h d (n_name n) ns (proj1 H4) En). apply plain_prefix, H4. }
    rewrite (nl_add_fresh_root l2 _ (ns_name ns)); [|eapply shows_ok; eauto|exact Ej|symmetry; exact Ens].
    destruct S3 as ((Ls & Fa & Pa) & Nr). split.
    2:{ rewrite map_app. cbn [map n_name]. rewrite <- Ens. apply fresh_nodup; auto. apply (shows_ok l2 (members ver fs vs ++ L)). split; [exists Ls; auto|exact Nr]. }
    exists (Ls ++ [[]])%list. split.
    + apply Forall2_app; [exact Fa|]. constructor; [|constructor]. apply (new_root (n_name n) H4). now rewrite <- Ens.
    + rewrite concat_app. cbn. now rewrite List.app_nil_r.
Qed.

Lemma encode_nodes_shows ms nl : Forall2 node_of ms nl -> Forall (fit ver) ms -> Forall arrays_ok ms -> forall l L,
  (forall s, In s (map fst (flat_map (mem ver) ms)) -> found s) ->
  NoDup (map fst (flat_map (mem ver) ms) ++ map fst L) -> shows l L ->
  exists l', encode_doc_nodes ver reg d l nl = Ok l' /\ shows l' (flat_map (mem ver) ms ++ L).
Proof.
  induction 1 as [|m n ms nl Hmn F IH]; intros Hfit Har l L Hn N Hs; [exists l; auto|].
  inversion Hfit as [|? ? Hm Hms]; subst. inversion Har as [|? ? Am Ams]; subst. cbn [flat_map] in *. rewrite map_app in *.
  destruct (encode_node_shows m n l L Hmn Hm Am) as (l1 & E1 & S1); auto.
  { intros s K. apply Hn. apply in_or_app. now left. }
  { apply (Permutation_NoDup (l' := (map fst (flat_map (mem ver) ms) ++ map fst (mem ver m) ++ map fst L)%list)) in N.
    - clear -N. induction (map fst (flat_map (mem ver) ms)) as [|a r IH]; [exact N|]. inversion N; auto.
    - rewrite !List.app_assoc. apply Permutation_app_tail, Permutation_app_comm. }
  cbn [encode_doc_nodes]. rewrite E1. cbn [bind].
  destruct (IH Hms Ams l1 (mem ver m ++ L)%list) as (l' & E2 & S2); auto.
  { intros s K. apply Hn. apply in_or_app. now right. }
  { rewrite map_app. eapply Permutation_NoDup; [|exact N]. rewrite !List.app_assoc. apply Permutation_app_tail, Permutation_app_comm. }
  exists l'. split; [exact E2|]. eapply shows_perm; [|exact S2]. rewrite !List.app_assoc. apply Permutation_app_tail, Permutation_app_comm.
Qed.
End E.
