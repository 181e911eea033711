(* The encoder writes the properties kept for no model. *)
From Coq Require Import List Arith ZArith Bool Ascii String Lia.
From Verif Require Import GoStr GoStrFacts GoMap Spec SpecFacts Names Semver RegistryM SpecRegistry RegistryFacts
  PathM PathFacts NodeM NodeFacts DocM SpecDoc DocFacts ArrayM TypeM TypeFacts DecodeM SpecDecode DecodeFacts DecodeKeepFacts.
Import ListNotations.
Local Open Scope string_scope.

Section F.
Context {X : Type}.
Notation node := (node (tmodel X)).
Notation doc := (doc (tmodel X)).
Variable ver : version.
Variable h : list reg_op.
Notation reg := (registry_of h).

(* root nodes made by the encoder: no model, plain names *)
Definition root_ok (r : node) : Prop := n_model r = None /\ plain_name (n_name r).

Lemma plain_strip s : has_char ":" s = false -> strip_prefix s = s.
Proof. apply strip_none. Qed.
Lemma plain_prefix s : has_char ":" s = false -> get_prefix s = s.
Proof. intros H. unfold get_prefix. now rewrite (proj2 (index_char_none _ _) H). Qed.

Lemma root_matches p (r : node) : root_ok r -> matches tm_can p r = (x_local (n_name r) =? p).
Proof.
  intros [Hm [_ Hc]]. unfold matches, node_local. rewrite Hm, (plain_strip _ Hc). apply orb_false_r.
Qed.

Lemma nl_add_fresh_root (l : list node) (n : node) p : Forall root_ok l -> find_index (matches tm_can p) l = None ->
  x_local (n_name n) = p -> nl_add l n = (l ++ [n])%list.
Proof.
  intros Hl Hf Hn. apply DecodeKeepFacts.nl_add_fresh. intros Hin. apply in_map_iff in Hin as (v & Hv & Hin).
  rewrite Forall_forall in Hl. pose proof (root_matches p v (Hl v Hin)) as E.
  rewrite Hv, Hn, eqb_refl in E. rewrite (proj1 (find_index_none _ _) Hf v Hin) in E. discriminate.
Qed.

(* with_root changes one root *)
Lemma with_root_spec (l l' : list node) ns f : Forall root_ok l -> has_char ":" (ns_name ns) = false ->
  with_root l ns f = Ok l' ->
  (exists pre r r' post, l = (pre ++ r :: post)%list /\ x_local (n_name r) = ns_name ns /\ f r = Ok r' /\
     l' = (pre ++ r' :: post)%list) \/
  (exists r', f (new_node (ns_xml_name ns "")) = Ok r' /\
     (forall v, In v l -> x_local (n_name v) <> ns_name ns) /\
     l' = nl_add l r').
Proof.
  intros Hl Hc. unfold with_root. destruct (find_index _ l) as [j|] eqn:Ej.
  - destruct (nth_error l j) as [r|] eqn:Er; [|discriminate]. destruct (f r) as [r'|s|] eqn:Ef; try discriminate.
    cbn [bind]. intros [= <-]. left. destruct (nth_error_split _ _ Er) as (pre & post & -> & Hlen).
    exists pre, r, r', post. split; [reflexivity|]. split; [|split; [exact Ef|]].
    + destruct (find_index_some _ _ _ Ej) as (x & Hx & Hm & _). assert (x = r) by congruence. subst x.
      rewrite Forall_forall in Hl. rewrite root_matches in Hm; [now apply eqb_eq in Hm|].
      apply Hl. apply in_or_app. right. now left.
    + subst j. clear. induction pre as [|a pre IH]; [reflexivity|]. cbn. now rewrite IH.
  - destruct (f _) as [r'|s|] eqn:Ef; try discriminate. cbn [bind]. intros [= <-]. right. exists r'.
    split; [reflexivity|]. split; [|reflexivity]. intros v Hv E. rewrite Forall_forall in Hl.
    pose proof (root_matches (ns_name ns) v (Hl v Hv)) as E'. rewrite E, eqb_refl, (proj1 (find_index_none _ _) Ej v Hv) in E'.
    discriminate.
Qed.

Lemma find_test {A} (t : A -> bool) l x : find t l = Some x -> t x = true.
Proof. intros H. now apply find_some in H. Qed.
Lemma prefix_ns (d : doc) p ns : find_ns_by_prefix reg d p = Some ns -> ns_name ns = p.
Proof.
  unfold find_ns_by_prefix. destruct (find _ (map snd (d_int d))) as [v|] eqn:E1.
  { intros [= <-]. apply find_test in E1. now apply eqb_eq. }
  destruct (find _ (map snd (d_ext d))) as [v|] eqn:E2.
  { intros [= <-]. apply find_test in E2. now apply eqb_eq. }
  destruct (get_namespace reg p) as [v|s|] eqn:E3; try discriminate. intros [= <-].
  now apply get_namespace_ok in E3.
Qed.
Lemma enc_ns_plain (d : doc) x ns : x_space x = "" -> enc_find_ns reg d x = Some ns -> ns_name ns = get_prefix (x_local x).
Proof. intros Hs. unfold enc_find_ns, find_ns. rewrite Hs. cbn [emptyb negb]. apply prefix_ns. Qed.

Definition he (l : list node) (c : node) : Prop := exists r, In r l /\ In c (n_nodes r).
Definition ha (l : list node) (a : attr) : Prop := exists r, In r l /\ In a (n_attrs r).

Lemma al_add_other l (a b : attr) : x_local (a_name b) <> x_local (a_name a) -> In a l -> In a (al_add l b).
Proof.
  intros Hn. induction l as [|v l IH]; [intros []|]. cbn. destruct (_ =? _) eqn:E.
  - intros [->|H]; [apply eqb_eq in E; congruence|now right].
  - intros [->|H]; [now left|right; auto].
Qed.
Lemma nl_add_other (l : list node) (a b : node) : x_local (n_name b) <> x_local (n_name a) -> In a l -> In a (nl_add l b).
Proof.
  intros Hn. induction l as [|v l IH]; [intros []|]. cbn. destruct (_ =? _) eqn:E.
  - intros [->|H]; [apply eqb_eq in E; congruence|now right].
  - intros [->|H]; [now left|right; auto].
Qed.

(* one step: f keeps what satisfies KE and KA and keeps the name *)
Lemma with_root_keeps (l l' : list node) ns f c a (K : Prop) (KA : Prop) :
  Forall root_ok l -> has_char ":" (ns_name ns) = false -> with_root l ns f = Ok l' ->
  (forall r r', f r = Ok r' -> n_name r' = n_name r /\ n_model r' = n_model r /\
     (K -> In c (n_nodes r) -> In c (n_nodes r')) /\ (KA -> In a (n_attrs r) -> In a (n_attrs r'))) ->
  Forall root_ok l' /\ (K -> he l c -> he l' c) /\ (KA -> ha l a -> ha l' a).
Proof.
  intros Hl Hc Hw Hf. destruct (with_root_spec _ _ _ _ Hl Hc Hw) as [(pre & r & r' & post & -> & Hr & Ef & ->)|(r' & Ef & Hv & ->)].
  - destruct (Hf _ _ Ef) as (Hn & Hm & H1 & H2). split; [|split].
    + rewrite Forall_app in *. destruct Hl as [Ha Hb]. split; auto. inversion Hb as [|x y Hr0 Hp]; subst. constructor; auto.
      destruct Hr0 as [G1 G2]. unfold root_ok. rewrite Hn, Hm. split; auto.
    + intros HK (v & Hin & Hcin). apply in_app_or in Hin as [Hin|[->|Hin]].
      * exists v. split; auto. apply in_or_app. now left.
      * exists r'. split; auto. apply in_or_app. right. now left.
      * exists v. split; auto. apply in_or_app. right. now right.
    + intros HK (v & Hin & Hcin). apply in_app_or in Hin as [Hin|[->|Hin]].
      * exists v. split; auto. apply in_or_app. now left.
      * exists r'. split; auto. apply in_or_app. right. now left.
      * exists v. split; auto. apply in_or_app. right. now right.
  - destruct (Hf _ _ Ef) as (Hn & Hm & _ & _). cbn in Hn, Hm.
    assert (E : nl_add l r' = (l ++ [r'])%list).
    { apply DecodeKeepFacts.nl_add_fresh. intros Hin. apply in_map_iff in Hin as (v & E & Hin).
      apply (Hv v Hin). rewrite E, Hn. reflexivity. }
    rewrite E. split; [|split].
    + apply Forall_app. split; auto. constructor; auto. split; [exact Hm|]. rewrite Hn. split; [reflexivity|exact Hc].
    + intros _ (v & Hin & Hcin). exists v. split; auto. apply in_or_app. now left.
    + intros _ (v & Hin & Hcin). exists v. split; auto. apply in_or_app. now left.
Qed.

Lemma model_attrs_keep (d : doc) c a fs : forall vs l l', Forall root_ok l -> model_attrs ver reg d fs vs l = Ok l' ->
  Forall root_ok l' /\ (he l c -> he l' c) /\
  ((forall f, In f (map fst fs) -> f_name f <> x_local (a_name a)) -> ha l a -> ha l' a).
Proof.
  induction fs as [|[f t] fs IH]; intros [|v vs] l l' Hl; cbn [model_attrs map fst]; try discriminate.
  { intros [= <-]. auto. }
  destruct (f_attr f && present ver f t v).
  - destruct (enc_find_ns reg d (new_name (f_name f))) as [ns|] eqn:En; [|discriminate].
    apply enc_ns_plain in En; [|reflexivity]. destruct (with_root l ns _) as [l1|s|] eqn:Ew; try discriminate.
    cbn [bind]. intros E.
    assert (Hc : has_char ":" (ns_name ns) = false) by (rewrite En; apply get_prefix_no_colon).
    destruct (with_root_keeps _ _ _ _ c a True (f_name f <> x_local (a_name a)) Hl Hc Ew) as (G1 & G2 & G3).
    + intros r r'. cbn beta. destruct (attr_text t v) as [[s|]|s|]; cbn [bind]; try discriminate; intros [= <-]; auto.
      split; [destruct r; reflexivity|]. split; [destruct r; reflexivity|]. split; [destruct r; auto|].
      intros Hne Hin. destruct r as [x al m w kl]. cbn in *. now apply al_add_other.
    + destruct (IH _ _ _ G1 E) as (J1 & J2 & J3). split; auto. split; [auto|]. intros Hf Hh.
      apply J3; [intros g Hg; apply Hf; now right|]. apply G3; [|exact Hh]. apply Hf. now left.
  - intros E. destruct (IH _ _ _ Hl E) as (J1 & J2 & J3). split; auto. split; [auto|]. intros Hf Hh.
    apply J3; [intros g Hg; apply Hf; now right|exact Hh].
Qed.
Lemma model_elems_keep (d : doc) c a fs : forall vs l l', Forall root_ok l -> model_elems ver reg d fs vs l = Ok l' ->
  Forall root_ok l' /\ (ha l a -> ha l' a) /\
  ((forall f, In f (map fst fs) -> f_name f <> x_local (n_name c)) -> he l c -> he l' c).
Proof.
  induction fs as [|[f t] fs IH]; intros [|v vs] l l' Hl; cbn [model_elems map fst]; try discriminate.
  { intros [= <-]. auto. }
  destruct (negb (f_attr f) && present ver f t v).
  - destruct (enc_find_ns reg d (new_name (f_name f))) as [ns|] eqn:En; [|discriminate].
    apply enc_ns_plain in En; [|reflexivity]. destruct (with_root l ns _) as [l1|s|] eqn:Ew; try discriminate.
    cbn [bind]. intros E.
    assert (Hc : has_char ":" (ns_name ns) = false) by (rewrite En; apply get_prefix_no_colon).
    destruct (with_root_keeps _ _ _ _ c a (f_name f <> x_local (n_name c)) True Hl Hc Ew) as (G1 & G2 & G3).
    + intros r r'. cbn beta. destruct (marshal ver t v _) as [k|s|] eqn:Em; cbn [bind]; try discriminate; intros [= <-].
      apply marshal_name in Em. cbn [n_name new_node] in Em.
      split; [destruct r; reflexivity|]. split; [destruct r; reflexivity|]. split; [|destruct r; auto].
      intros Hne Hin. destruct r as [x al m w kl]. cbn in *. apply nl_add_other; auto. now rewrite Em.
    + destruct (IH _ _ _ G1 E) as (J1 & J2 & J3). split; auto. split; [auto|]. intros Hf Hh.
      apply J3; [intros g Hg; apply Hf; now right|]. apply G2; [|exact Hh]. apply Hf. now left.
  - intros E. destruct (IH _ _ _ Hl E) as (J1 & J2 & J3). split; auto. split; [auto|]. intros Hf Hh.
    apply J3; [intros g Hg; apply Hf; now right|exact Hh].
Qed.

Lemma encode_node_keeps (d : doc) c a n l l' : Forall root_ok l -> plain_name (n_name n) ->
  encode_doc_node ver reg d l n = Ok l' ->
  Forall root_ok l' /\ (In c (n_nodes n) -> he l' c) /\ (In a (n_attrs n) -> ha l' a) /\
  (no_field [n] (x_local (n_name c)) -> he l c -> he l' c) /\
  (no_field [n] (x_local (a_name a)) -> ha l a -> ha l' a).
Proof.
  intros Hl [Hs Hc]. unfold encode_doc_node.
  destruct (match n_model n with Some m => _ | None => Ok l end) as [l1|s|] eqn:E1; try discriminate.
  assert (H1 : Forall root_ok l1 /\ (no_field [n] (x_local (n_name c)) -> he l c -> he l1 c) /\
    (no_field [n] (x_local (a_name a)) -> ha l a -> ha l1 a)).
  { destruct (n_model n) as [m|] eqn:Em; [|injection E1 as <-; auto].
    destruct (model_attrs ver reg d _ _ l) as [l0|s|] eqn:E0; try discriminate. cbn [bind] in E1.
    destruct (model_attrs_keep d c a _ _ _ _ Hl E0) as (G1 & G2 & G3).
    destruct (model_elems_keep d c a _ _ _ _ G1 E1) as (J1 & J2 & J3). split; auto. split.
    - intros Hf Hh. apply J3; auto. intros f Hin. eapply Hf; eauto. now left.
    - intros Hf Hh. apply J2, G3; auto. intros f Hin. eapply Hf; eauto. now left. }
  clear E1. destruct H1 as (G1 & G2 & G3). cbn [bind].
  destruct (enc_find_ns reg d (n_name n)) as [ns|] eqn:En; [|discriminate].
  apply enc_ns_plain in En; [|exact Hs]. rewrite (plain_prefix _ Hc) in En.
  set (add := fun r : node => set_attrs (set_nodes r (n_nodes r ++ n_nodes n)%list) (n_attrs r ++ n_attrs n)%list).
  intros E.
  assert (Hadd : forall r, n_name (add r) = n_name r /\ n_model (add r) = n_model r /\
    n_nodes (add r) = (n_nodes r ++ n_nodes n)%list /\ n_attrs (add r) = (n_attrs r ++ n_attrs n)%list)
    by (intros r; destruct r; auto).
  assert (Hcase : (exists pre r post, l1 = (pre ++ r :: post)%list /\ l' = (pre ++ add r :: post)%list) \/
                  l' = (l1 ++ [add (new_node (n_name n))])%list).
  { destruct (find_index _ l1) as [j|] eqn:Ej.
    - destruct (nth_error l1 j) as [r|] eqn:Er; [|discriminate]. injection E as <-. left.
      destruct (nth_error_split _ _ Er) as (pre & post & -> & Hlen). exists pre, r, post. split; [reflexivity|].
      subst j. clear. induction pre as [|b pre IH]; [reflexivity|]. cbn. now rewrite IH.
    - injection E as <-. right. eapply nl_add_fresh_root; eauto. }
  clear E. destruct Hcase as [(pre & r & post & -> & ->)| ->].
  - destruct (Hadd r) as (A1 & A2 & A3 & A4).
    assert (He : forall x, he (pre ++ r :: post)%list x -> he (pre ++ add r :: post)%list x).
    { intros x (v & Hin & Hx). apply in_app_or in Hin as [Hin|[->|Hin]].
      * exists v. split; auto. apply in_or_app. now left.
      * exists (add v). split; [apply in_or_app; right; now left|]. rewrite A3. apply in_or_app. now left.
      * exists v. split; auto. apply in_or_app. right. now right. }
    assert (Ha : forall x, ha (pre ++ r :: post)%list x -> ha (pre ++ add r :: post)%list x).
    { intros x (v & Hin & Hx). apply in_app_or in Hin as [Hin|[->|Hin]].
      * exists v. split; auto. apply in_or_app. now left.
      * exists (add v). split; [apply in_or_app; right; now left|]. rewrite A4. apply in_or_app. now left.
      * exists v. split; auto. apply in_or_app. right. now right. }
    split; [|split; [|split; [|split]]]; auto.
    + rewrite Forall_app in *. destruct G1 as [F1 F2]. split; auto. inversion F2 as [|x y Hr0 Hp]; subst.
      constructor; auto. unfold root_ok. rewrite A1, A2. exact Hr0.
    + intros Hin. exists (add r). split; [apply in_or_app; right; now left|]. rewrite A3. apply in_or_app. now right.
    + intros Hin. exists (add r). split; [apply in_or_app; right; now left|]. rewrite A4. apply in_or_app. now right.
  - destruct (Hadd (new_node (n_name n))) as (A1 & A2 & A3 & A4).
    split; [|split; [|split; [|split]]].
    + apply Forall_app. split; auto. constructor; auto. unfold root_ok. rewrite A1, A2. split; [reflexivity|]. split; auto.
    + intros Hin. eexists. split; [apply in_or_app; right; now left|]. rewrite A3. apply in_or_app. now right.
    + intros Hin. eexists. split; [apply in_or_app; right; now left|]. rewrite A4. apply in_or_app. now right.
    + intros Hf Hh. destruct (G2 Hf Hh) as (v & Hin & Hx). exists v. split; auto. apply in_or_app. now left.
    + intros Hf Hh. destruct (G3 Hf Hh) as (v & Hin & Hx). exists v. split; auto. apply in_or_app. now left.
Qed.

Lemma no_field_cons (n : node) nl s : no_field (n :: nl) s -> no_field [n] s /\ no_field nl s.
Proof.
  intros H. split; intros n' m f Hin; apply H.
  - destruct Hin as [->|[]]. now left.
  - now right.
Qed.

Lemma encode_nodes_keep (d : doc) c a nl : forall l l', Forall root_ok l -> plain_nodes nl ->
  encode_doc_nodes ver reg d l nl = Ok l' ->
  Forall root_ok l' /\
  (no_field nl (x_local (n_name c)) -> he l c \/ (exists n, In n nl /\ In c (n_nodes n)) -> he l' c) /\
  (no_field nl (x_local (a_name a)) -> ha l a \/ (exists n, In n nl /\ In a (n_attrs n)) -> ha l' a).
Proof.
  induction nl as [|n nl IH]; intros l l' Hl Hp; cbn [encode_doc_nodes].
  - intros [= <-]. split; auto. split; intros _ [H|(n & [] & _)]; auto.
  - inversion Hp as [|x y Hn Hr]; subst. destruct (encode_doc_node ver reg d l n) as [l1|s|] eqn:E1; try discriminate.
    cbn [bind]. intros E. destruct (encode_node_keeps d c a n l l1 Hl Hn E1) as (G1 & G2 & G3 & G4 & G5).
    destruct (IH _ _ G1 Hr E) as (J1 & J2 & J3). split; auto. split.
    + intros Hf Hh. apply no_field_cons in Hf as [Hf1 Hf2]. apply J2; auto.
      destruct Hh as [Hh|(n' & [<-|Hin] & Hc)]; eauto.
    + intros Hf Hh. apply no_field_cons in Hf as [Hf1 Hf2]. apply J3; auto.
      destruct Hh as [Hh|(n' & [<-|Hin] & Hc)]; eauto.
Qed.

Lemma remove_dups_nonempty ns l : In ns l -> remove_dups l <> [].
Proof. destruct l as [|x l]; [intros []|]. intros _. unfold remove_dups. cbn. discriminate. Qed.

Lemma attr_not_bare (d : doc) (r : node) a ns : In a (n_attrs r) ->
  find_ns_by_prefix reg d (get_prefix (x_local (a_name a))) = Some ns -> is_core ns = false ->
  is_bare (description reg d r) = false.
Proof.
  intros Hin Hns Hcore.
  assert (Hnn : node_namespaces reg d r <> []).
  { destruct r as [x al m v kl]. cbn [node_namespaces]. apply (remove_dups_nonempty ns).
    apply in_or_app. right. apply in_flat_map. exists (get_prefix (x_local (a_name a))). split.
    - apply in_or_app. right. apply in_or_app. right. apply in_map_iff. exists a. auto.
    - rewrite Hns, Hcore. now left. }
  unfold is_bare, description. destruct r as [x al m v kl]. cbn [n_attrs n_nodes set_name set_attrs] in *.
  set (nss := node_namespaces reg d (Node x al m v kl)) in *. clearbody nss.
  destruct nss as [|n0 nss]; [congruence|]. rewrite List.app_length. cbn [map List.length].
  destruct al as [|b al]; [destruct Hin|]. cbn [List.length]. 
  destruct (Nat.leb_spec (S (List.length (map ns_attr nss)) + S (S (List.length al))) 2); [lia|reflexivity].
Qed.

Lemma encode_keeps (d : doc) p : plain_nodes (d_nodes d) -> encode ver reg d = Ok p ->
  forall n, In n (d_nodes d) ->
    (forall c, In c (n_nodes n) -> no_field (d_nodes d) (x_local (n_name c)) -> has_elem p c) /\
    (forall a ns, In a (n_attrs n) -> no_field (d_nodes d) (x_local (a_name a)) ->
       find_ns_by_prefix reg d (get_prefix (x_local (a_name a))) = Some ns -> is_core ns = false -> has_attr p a).
Proof.
  intros Hp. unfold encode. destruct (encode_doc_nodes ver reg d [] (d_nodes d)) as [roots|s|] eqn:E; try discriminate.
  cbn [bind]. intros [= <-] n Hn. split.
  - intros c Hc Hf. destruct (encode_nodes_keep d c (Attr (XName "" "") "") _ _ _ (Forall_nil _) Hp E) as (_ & G & _).
    destruct (G Hf (or_intror (ex_intro _ n (conj Hn Hc)))) as (r & Hr & Hcr).
    exists (description reg d r). split.
    + unfold descriptions, packet. cbn [n_nodes flat_map]. rewrite List.app_nil_r. apply filter_In. split; [now apply in_map|].
      unfold is_bare, description. destruct r as [x al m v kl]. cbn in Hcr |- *. destruct kl; [destruct Hcr|].
      now rewrite andb_false_r.
    + destruct r; exact Hcr.
  - intros a ns Ha Hf Hns Hcore.
    destruct (encode_nodes_keep d (new_node (XName "" "")) a _ _ _ (Forall_nil _) Hp E) as (_ & _ & G).
    destruct (G Hf (or_intror (ex_intro _ n (conj Hn Ha)))) as (r & Hr & Har).
    exists (description reg d r). split.
    + unfold descriptions, packet. cbn [n_nodes flat_map]. rewrite List.app_nil_r. apply filter_In. split; [now apply in_map|].
      now rewrite (attr_not_bare d r a ns).
    + destruct r as [x al m v kl]. cbn in *. apply in_or_app. right. now right.
Qed.
End F.
