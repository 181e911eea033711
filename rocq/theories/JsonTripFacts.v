(* A document of typed models, written as JSON and read. *)
From Coq Require Import List Arith ZArith Bool Ascii String Permutation Lia.
From Verif Require Import GoStr GoStrFacts GoMap Spec SpecFacts Names Semver RegistryM SpecRegistry RegistryFacts BasicFacts PathFacts
  NodeM DocM DocFacts ArrayM TypeM DecodeM JsonM SpecBasic SpecTag TagFacts SpecJson SpecType SpecTree SpecDecode JsonFacts PanicFacts TypeFacts TreeFacts FormFacts
  DecodeFacts DecodeKeepFacts EncodeKeepFacts DecodeDocFacts TripFacts EncTripFacts XmlTripFacts.
From Verif Require NodeMoreFacts.
Import ListNotations.
Local Open Scope string_scope.

(* ---- what json_to_node makes: names without a name space, or of RDF -------------------------------- *)
Section Tidy.
Context {M : Type}.
Notation node := (node M).
Fixpoint tidy (n : node) : Prop :=
  let 'Node x a _ _ l := n in
  (x_space x = "" \/ exists s, x = rdf_name s) /\ Forall (fun b => x_space (a_name b) = "") a
  /\ (fix all (l : list node) : Prop := match l with [] => True | c :: r => tidy c /\ all r end) l.
Lemma tidy_eq x a m v l : tidy (Node x a m v l) <->
  (x_space x = "" \/ exists s, x = rdf_name s) /\ Forall (fun b => x_space (a_name b) = "") a /\ Forall tidy l.
Proof.
  cbn [tidy]. assert (E : (fix all (l : list node) : Prop := match l with [] => True | c :: r => tidy c /\ all r end) l <-> Forall tidy l).
  { induction l as [|c r IH]; [split; constructor|]. rewrite Forall_cons_iff, <- IH. reflexivity. }
  rewrite E. reflexivity.
Qed.
Lemma tidy_new s : tidy (new_node (new_name s)).
Proof. apply tidy_eq. split; [now left|]. split; constructor. Qed.
Lemma tidy_rdf s : tidy (new_node (rdf_name s)).
Proof. apply tidy_eq. split; [right; eauto|]. split; constructor. Qed.
Lemma tidy_value n s : tidy n -> tidy (set_value n s).
Proof. destruct n. cbn [set_value]. rewrite !tidy_eq. auto. Qed.
Lemma tidy_append n c : tidy n -> tidy c -> tidy (append_node n c).
Proof. destruct n. unfold append_node. cbn [set_nodes n_nodes]. rewrite !tidy_eq. intros (A & B & C) D. repeat split; auto. apply Forall_app. auto. Qed.
Lemma tidy_nodes n l : tidy n -> Forall tidy l -> tidy (set_nodes n l).
Proof. destruct n. cbn [set_nodes]. rewrite !tidy_eq. intros (A & B & _) D. auto. Qed.
Lemma tidy_lang g s : tidy (json_lang_li g s).
Proof. apply tidy_eq. split; [right; exists "li"; reflexivity|]. split; [repeat constructor|constructor]. Qed.

Lemma alt_lis_tidy l : forall r, all_alt_lis l = Ok r -> Forall tidy r.
Proof.
  induction l as [|x l IH]; intros r; cbn [all_alt_lis]; [intros [= <-]; constructor|].
  destruct (alt_lis x) as [a| |] eqn:E; cbn [bind]; try discriminate. destruct (all_alt_lis l) as [b| |]; cbn [bind]; try discriminate. intros [= <-].
  apply Forall_app. split; [|auto]. clear -E. unfold alt_lis in E. destruct x; try discriminate. destruct (map_get m "isDefault") as [[]|]; try discriminate.
  destruct (map_get m "lang") as [[]|]; try discriminate. destruct (map_get m "value") as [[]|]; try discriminate. injection E as <-.
  destruct b, (emptyb s); repeat apply Forall_cons; try apply Forall_nil; try apply tidy_lang. apply tidy_rdf.
Qed.
Lemma ok_inj {A} (x y : A) : Ok x = Ok y -> y = x.
Proof. congruence. Qed.
Lemma json_tidy j : forall name p n, tidy p -> json_to_node name j p = Ok n -> tidy n.
Proof.
  induction j as [j Hj|l Hl|m Hm] using json_ind'; intros name p n Hp.
  - destruct j; try contradiction; cbn [json_to_node]; try (intros [= <-]; exact Hp);
      (destruct (negb (emptyb name) && negb (name =? "rdf:value")); intros E; apply ok_inj in E; subst n; [apply tidy_append; [exact Hp|apply tidy_value, tidy_new]|now apply tidy_value]).
  - cbn [json_to_node]. destruct (emptyb name); [intros [= <-]; exact Hp|].
    destruct (json_array_type l =? "Alt").
    + destruct (all_alt_lis l) as [r| |] eqn:E; cbn [bind]; try discriminate. intros Eo; apply ok_inj in Eo; subst n. apply tidy_append; [exact Hp|].
      apply tidy_nodes; [apply tidy_new|]. apply Forall_cons; [|constructor]. apply tidy_nodes; [apply tidy_rdf|]. eapply alt_lis_tidy; eauto.
    + match goal with |- bind (?f l) _ = _ -> _ => set (go := f) end.
      assert (A : forall r, go l = Ok r -> Forall tidy r).
      { induction Hl as [|x l Hx Hl IH]; intros r; cbn; [intros [= <-]; constructor|]. fold go.
        destruct (json_to_node "" x json_li) as [a| |] eqn:E; cbn [bind]; try discriminate. destruct (go l) as [b| |]; cbn [bind]; try discriminate. intros [= <-].
        constructor; [|auto]. eapply Hx; [|exact E]. apply tidy_rdf. }
      destruct (go l) as [r| |]; cbn [bind]; try discriminate. intros Eo; apply ok_inj in Eo; subst n. apply tidy_append; [exact Hp|].
      apply tidy_nodes; [apply tidy_new|]. apply Forall_cons; [|constructor]. apply tidy_nodes; [apply tidy_rdf|]. auto.
  - cbn [json_to_node]. generalize (is_item (JObj m)). intros b.
    match goal with |- context [?f m] => set (go := f) end.
    assert (A : forall p n, tidy p -> go m p = Ok n -> tidy n).
    { clear p n Hp. induction Hm as [|[k v] m Hv Hm IH]; intros p n Hp; cbn; [intros [= <-]; exact Hp|]. fold go.
      destruct (json_to_node _ v p) as [a| |] eqn:E; cbn [bind]; try discriminate. apply IH. eapply Hv; [exact Hp|exact E]. }
    destruct (emptyb name); [now apply A|]. destruct (go m (new_node (new_name name))) as [o| |] eqn:E; cbn [bind]; try discriminate. intros Eo; apply ok_inj in Eo; subst n.
    apply tidy_append; [exact Hp|]. eapply A; [|exact E]. apply tidy_new.
Qed.
End Tidy.

Section N.
Context {X : Type}.
Notation node := (node (tmodel X)).
Notation doc := (doc (tmodel X)).
Variable h : list reg_op.
Notation reg := (registry_of h).
Variable d : doc.
Notation T := ["Seq"; "Bag"].
Notation gname := (gname h d).
Notation goodns := (goodns h).
Notation goodp := (goodp h d).
Notation good_members := (Forall (fun f => gname (fst f) /\ all_names gname (snd f))).
Hypothesis Hrdf : reg_get_prefix reg ns_rdf_uri = "rdf".

Lemma gname_not s : gname s -> ~ In (get_prefix s) [""; "rdf"; "xml"; "xmlns"; "parseType"; "x"].
Proof. intros H. destruct (gname_prefix h d s H) as (ns & E & G). rewrite <- (prefix_ns h d _ _ E). apply G. Qed.
Lemma gname_colon s : gname s -> has_char ":" s = true.
Proof. intros (p & l & -> & _). clear. induction p as [|c p IH]; [reflexivity|]. cbn in *. rewrite IH. apply orb_true_r. Qed.
Lemma gname_rdf s l : gname s -> s <> "rdf:" ++ l.
Proof. intros H E. apply (gname_not s H). rewrite E. change (get_prefix ("rdf:" ++ l)) with "rdf". cbn. auto. Qed.
Lemma gname_member s : gname s -> member_name s.
Proof.
  intros H. split; [intros E; subst s; apply (gname_not _ H); cbn; auto|].
  intros [E|[E|[E|[E|[E|[]]]]]]; symmetry in E; revert E; [apply (gname_rdf s "value")|apply (gname_rdf s "parseType")|apply (gname_rdf s "Bag")|apply (gname_rdf s "Seq")|apply (gname_rdf s "Alt")]; exact H.
Qed.

Lemma attr_fields_of am mk : mk = [] \/ mk = [rdf_resource_attr] -> Forall (fun f => gname (fst f)) (map leaf_of am) -> attr_fields (map attr_of am ++ mk) = map leaf_of am.
Proof.
  intros Hm H. unfold attr_fields. rewrite filter_app, map_app. replace (map _ (filter _ mk)) with (@nil (string * pval)) by (destruct Hm as [-> | ->]; reflexivity).
  rewrite List.app_nil_r. induction am as [|f am IH]; [reflexivity|]. cbn [map filter] in *. inversion H as [|? ? H1 H2]; subst. cbn [attr_of a_name new_name x_local].
  destruct (String.eqb_spec (fst f) "rdf:parseType") as [E|_]; [elim (gname_rdf _ "parseType" H1 E)|]. cbn [negb map a_name a_value x_local]. now rewrite IH.
Qed.

Lemma forms_carries n t : @forms (tmodel X) T n t -> all_names gname t -> carries reg n t.
Proof.
  intros F0. refine (forms_ind2 T (fun n t => all_names gname t -> carries reg n t) _ _ _ _ n t F0); clear n t F0.
  - intros x s _. constructor. constructor.
  - intros x am mk kl kfs fs Hm F P A. apply all_names_fields in A. apply (Permutation_Forall P) in A. apply Forall_app in A. destruct A as [A1 A2].
    apply (ca_record reg _ _ _ _ kfs).
    + clear -F A2. induction F as [|c f kl kfs (B & C & D) F IH]; constructor; inversion A2 as [|? ? [U1 U2] A2']; subst; auto. split; [now apply new_full|auto].
    + rewrite attr_fields_of; auto. eapply Forall_impl; [|exact A1]. intros f [Hf _]. exact Hf.
  - intros x typ items l Ht F A. apply all_names_items in A. apply ca_list; [constructor|constructor| |].
    + destruct Ht as [<-|[<-|[]]]; [right|left]; now apply new_full.
    + clear -F A. induction F as [|c f kl kfs (B & C & D) F IH]; constructor; inversion A as [|? ? U2 A2']; subst; auto. split; [now apply new_full|auto].
  - intros x l _. apply ca_alts; [constructor|constructor|now apply new_full|]. clear. induction l as [|i l IH]; cbn [map]; constructor; auto.
    split; [now apply new_full|]. split; [reflexivity|]. split; [reflexivity|]. eexists. split; [reflexivity|]. split; [|reflexivity]. apply local_iff. reflexivity.
Qed.
Lemma root_carries (r : node) L : root_shows goodp T r L -> good_members L -> carries reg r (PRecord L).
Proof.
  intros (((Hm & Hs & Hc) & Hv & Hg) & A & K & H1 & H2 & H3) F. destruct r as [x al mo v kl]. cbn [n_name n_model n_attrs n_nodes n_value] in *. subst mo al v.
  apply (Permutation_Forall H3) in F. apply Forall_app in F. destruct F as [F1 F2].
  apply (ca_record reg _ _ _ _ K).
  - clear -H2 F2. induction H2 as [|c f kl K [B C] H2 IH]; constructor; inversion F2 as [|? ? [U1 U2] A2']; subst; auto. split; [now apply new_full|now apply forms_carries].
  - rewrite <- (List.app_nil_r (map attr_of A)), attr_fields_of; auto. eapply Forall_impl; [|exact F1]. intros f [Hf _]. exact Hf.
Qed.

(* ---- zero ---- *)
Lemma is_zero_eq x a m v (l : list node) : is_zero (Node x a m v l) = true ->
  v = "" /\ attrs_is_zero a = true /\ forallb is_zero l = true.
Proof.
  cbn [is_zero]. set (E := match m with None => true | Some _ => false end && emptyb v && (Nat.eqb (List.length a) 0 || attrs_is_zero a)).
  destruct E eqn:Ee; cbn [negb]; [|discriminate]. rewrite NodeMoreFacts.fold_and. cbn [andb]. intros Z. subst E. apply andb_true_iff in Ee. destruct Ee as [E1 E2].
  apply andb_true_iff in E1. destruct E1 as [_ E1]. split; [destruct v; [reflexivity|discriminate]|]. split; [|exact Z].
  destruct a; [reflexivity|exact E2].
Qed.
Lemma attrs_loud am : attrs_is_zero (map attr_of am) = true -> existsb (fun f => loud (snd f)) (map leaf_of am) = false.
Proof.
  induction am as [|f am IH]; [reflexivity|]. cbn [map attrs_is_zero forallb existsb]. intros H. apply andb_true_iff in H. destruct H as [H1 H2].
  cbn [leaf_of snd loud]. cbn [attr_of a_value] in H1. destruct (snd f); [|discriminate]. cbn. auto.
Qed.
Lemma existsb_perm {A} (f : A -> bool) l l' : Permutation l l' -> existsb f l = existsb f l'.
Proof. induction 1; cbn; auto; [now f_equal|now rewrite !orb_assoc, (orb_comm (f y))|congruence]. Qed.
Lemma zero_app a b : attrs_is_zero (a ++ b) = attrs_is_zero a && attrs_is_zero b.
Proof. apply forallb_app. Qed.
Lemma forms_quiet n t : @forms (tmodel X) T n t -> is_zero n = true -> loud t = false.
Proof.
  intros F0. refine (forms_ind2 T (fun n t => is_zero n = true -> loud t = false) _ _ _ _ n t F0); clear n t F0.
  - intros x s H. apply is_zero_eq in H. destruct H as [-> _]. reflexivity.
  - intros x am mk kl kfs fs Hm F P H. apply is_zero_eq in H. destruct H as (_ & H1 & H2). cbn [loud]. rewrite (existsb_perm _ _ _ P), existsb_app.
    rewrite zero_app in H1. apply andb_true_iff in H1. rewrite attrs_loud by apply H1. cbn [orb]. clear -F H2.
    induction F as [|c f kl kfs (B & C & D) F IH]; [reflexivity|]. cbn [forallb existsb] in *. apply andb_true_iff in H2. rewrite D, IH by apply H2. reflexivity.
  - intros x typ items l Ht F H. apply is_zero_eq in H. destruct H as (_ & _ & H). cbn [forallb] in H. apply andb_true_iff in H. destruct H as [H _].
    apply is_zero_eq in H. destruct H as (_ & _ & H2). cbn [loud]. clear -F H2.
    induction F as [|c f kl kfs (B & C & D) F IH]; [reflexivity|]. cbn [forallb existsb] in *. apply andb_true_iff in H2. rewrite D, IH by apply H2. reflexivity.
  - intros x l H. apply is_zero_eq in H. destruct H as (_ & _ & H). cbn [forallb] in H. apply andb_true_iff in H. destruct H as [H _].
    apply is_zero_eq in H. destruct H as (_ & _ & H2). cbn [loud]. clear -H2.
    induction l as [|i l IH]; [reflexivity|]. cbn [map forallb existsb] in *. apply andb_true_iff in H2. destruct H2 as [H1 H2]. rewrite IH by apply H2.
    apply is_zero_eq in H1. destruct H1 as (E1 & E2 & _). rewrite E1. cbn in E2. destruct (fst i); [reflexivity|discriminate].
Qed.
Lemma root_quiet (r : node) L : root_shows goodp T r L -> Forall (fun f => loud (snd f) = true) L -> is_zero r = true -> L = [].
Proof.
  intros (_ & A & K & H1 & H2 & H3) F Z. destruct r as [x al mo v kl]. cbn [n_attrs n_nodes] in *. subst al. apply is_zero_eq in Z. destruct Z as (_ & Z1 & Z2).
  apply (Permutation_Forall H3) in F. apply Forall_app in F. destruct F as [F1 F2].
  assert (A = []) as ->. { destruct A as [|f A]; [reflexivity|]. cbn [map] in F1. inversion F1 as [|? ? E _]; subst. cbn in E. cbn in Z1. destruct (snd f); [discriminate E|discriminate Z1]. }
  assert (K = []) as ->.
  { inversion H2 as [|c f kl' K' [_ C] _]; subst; [reflexivity|]. inversion F2 as [|? ? E _]; subst. cbn [forallb] in Z2. apply andb_true_iff in Z2.
    rewrite (forms_quiet _ _ C (proj1 Z2)) in E. discriminate. }
  symmetry in H3. now apply Permutation_nil in H3.
Qed.

(* ---- reading ---- *)
Section Rd.
Variables i e : gomap namespace.

Lemma plain_translate s : translate reg i e (new_name s) = new_name s.
Proof. reflexivity. Qed.
Lemma tidy_named (c : node) s : tidy c -> named reg c s -> gname s -> n_name c = new_name s.
Proof.
  destruct c as [[sp lo] a m v l]. intros H N G. apply tidy_eq in H. destruct H as [H _]. unfold named, full_name in N. cbn [n_name x_space x_local] in *. destruct H as [->|(l' & E)].
  - cbn in N. now subst lo.
  - injection E as -> ->. cbn [x_space x_local] in N. change (emptyb ns_rdf_uri) with false in N. cbv iota in N. unfold short in N. rewrite Hrdf in N.
    elim (gname_rdf s l' G). symmetry. exact N.
Qed.
Lemma tidy_rdf_local (c : node) l : tidy c -> named reg c ("rdf:" ++ l) -> has_char ":" l = false -> node_local c = l.
Proof.
  destruct c as [[sp lo] a m v k]. intros H N Hl. apply tidy_eq in H. destruct H as [H _]. unfold named, full_name, node_local in *. cbn [n_name x_space x_local] in *. destruct H as [->|(l' & E)].
  - cbn in N. subst lo. reflexivity.
  - injection E as -> ->. cbn [x_space x_local] in N. change (emptyb ns_rdf_uri) with false in N. cbv iota in N. unfold short in N. rewrite Hrdf in N.
    cbn in N. injection N as ->. now apply no_colon_strip.
Qed.
Lemma attr_real b : x_space (a_name b) = "" -> (x_local (a_name b) = "rdf:parseType" \/ gname (x_local (a_name b))) ->
  real_attr reg i e b = negb (x_local (a_name b) =? "rdf:parseType").
Proof.
  destruct b as [[sp lo] v]. cbn [a_name x_space x_local]. intros -> H. unfold real_attr. cbn [a_name]. change (translate reg i e (XName "" lo)) with (new_name lo). destruct H as [->|H]; [reflexivity|].
  rewrite (proj2 (gname_plain h d lo H)). destruct (String.eqb_spec lo "rdf:parseType") as [E|_]; [elim (gname_rdf lo "parseType" H E)|reflexivity].
Qed.
Lemma attr_fields_in b a : In b a -> Forall (fun f => gname (fst f)) (attr_fields a) -> x_local (a_name b) = "rdf:parseType" \/ gname (x_local (a_name b)).
Proof.
  intros Hb F. destruct (String.eqb_spec (x_local (a_name b)) "rdf:parseType") as [E|E]; [now left|right]. rewrite Forall_forall in F.
  apply (F (x_local (a_name b), PLeaf (a_value b))). unfold attr_fields. apply in_map_iff. exists b. split; [reflexivity|]. apply filter_In. split; [exact Hb|].
  apply String.eqb_neq in E. now rewrite E.
Qed.

Lemma carries_holds (n : node) t : carries reg n t -> tidy n -> all_names gname t -> holds reg i e n t.
Proof.
  intros C0. refine (carries_ind2 reg (fun n t => tidy n -> all_names gname t -> holds reg i e n t) _ _ _ _ n t C0); clear n t C0.
  - intros x a m s _ _ _. apply ho_leaf. now left.
  - intros x a m l kfs fs F P Ht A. apply tidy_eq in Ht. destruct Ht as (_ & Ta & Tl). apply all_names_fields in A. apply (Permutation_Forall P) in A. apply Forall_app in A. destruct A as [A1 A2].
    apply (ho_record _ _ _ _ fs (attr_fields a) kfs); [| |exact P]; cbn [n_attrs n_nodes].
    + assert (A1' : Forall (fun f => gname (fst f)) (attr_fields a)) by (eapply Forall_impl; [|exact A1]; intros f Hf; apply Hf).
      assert (E : filter (real_attr reg i e) a = filter (fun b => negb (x_local (a_name b) =? "rdf:parseType")) a).
      { apply filter_ext_in. intros b Hb. apply attr_real; [rewrite Forall_forall in Ta; auto|]. eapply attr_fields_in; eauto. }
      rewrite E. unfold attr_fields. clear -Ta. induction Ta as [|b a Hb Ta IH]; [constructor|]. cbn [filter]. destruct (negb _); [|exact IH]. cbn [map]. constructor; [|exact IH].
      split; [|reflexivity]. cbn [fst]. destruct b as [[sp lo] v]. cbn in Hb. subst sp. reflexivity.
    + clear -F Tl A2 Hrdf. revert Tl A2. induction F as [|c f kl kfs (B & C & D) F IH]; intros Tl A2; constructor; inversion A2 as [|? ? [U1 U2] A2']; inversion Tl as [|? ? T1 T2]; subst; auto.
      split; [|auto]. now rewrite (tidy_named c (fst f) T1 B U1).
  - intros x a m ax aa am items l _ _ Hn F Ht A. apply tidy_eq in Ht. destruct Ht as (_ & _ & Tl). inversion Tl as [|? ? T1 _]; subst. assert (T1' := T1). apply tidy_eq in T1'. destruct T1' as (_ & _ & Ti).
    apply all_names_items in A. eapply ho_list; [reflexivity| |]; cbn [n_nodes].
    + unfold arr_local. destruct Hn as [Hn|Hn]; [rewrite (tidy_rdf_local _ "Bag" T1 Hn eq_refl)|rewrite (tidy_rdf_local _ "Seq" T1 Hn eq_refl)]; cbn; auto.
    + clear -F Ti A. revert Ti A. induction F as [|c f kl kfs (B & C & D) F IH]; intros Ti A; constructor; inversion A; inversion Ti; subst; auto.
  - intros x a m ax aa am items l _ _ Hn F Ht A. apply tidy_eq in Ht. destruct Ht as (_ & _ & Tl). inversion Tl as [|? ? T1 _]; subst.
    eapply ho_alts; [reflexivity| |]; cbn [n_nodes].
    + unfold arr_local. rewrite (tidy_rdf_local _ "Alt" T1 Hn eq_refl). cbn; auto.
    + clear -F. induction F as [|c p kl l (B1 & B2 & B3 & b & B4 & B5 & B6) F IH]; constructor; auto. split; [exact B1|]. split.
      * exists b. split; [|exact B6]. unfold get_attr, al_get. rewrite B4. apply local_iff in B5. cbn [filter emptyb orb andb]. rewrite B5. reflexivity.
      * now rewrite B2.
Qed.

Variable ver : version.
Variable kinds : nat -> string -> option (mkind X).
Variable ms : list (mkind X * list (gval X)).
Hypothesis Hnew : forall m ns, In m ms -> goodns ns -> k_can (fst m) (ns_name ns) = true -> new_tmodel kinds ns = Some (TModel (fst m) (k_init (fst m))).

Definition props (n : node) : list (property X) := (map PAttr (n_attrs n) ++ map PElem (n_nodes n))%list.
Lemma decode_models_props roots : forall l, decode_models ver reg kinds i e l roots = decode_properties ver reg kinds i e l (flat_map props roots).
Proof.
  induction roots as [|n roots IH]; intros l; [reflexivity|]. cbn [decode_models flat_map]. unfold props at 1. rewrite <- List.app_assoc, !decode_properties_app.
  assert (A : forall al l, (fix attrs (al : list attr) (l : list node) : result (list node) :=
               match al with
               | [] => Ok l
               | a :: al' => bind (decode_attribute ver reg kinds i e l a) (fun l => attrs al' l)
               end) al l = decode_properties ver reg kinds i e l (map PAttr al)).
  { induction al as [|a al IHa]; intros l0; [reflexivity|]. cbn [map SpecDecode.decode_properties SpecDecode.decode_property].
    destruct (decode_attribute ver reg kinds i e l0 a); cbn [bind]; auto. }
  rewrite A. destruct (decode_properties ver reg kinds i e l (map PAttr (n_attrs n))) as [l1| |]; cbn [bind]; [|reflexivity|reflexivity].
  rewrite decode_kids_props, decode_properties_app. destruct (decode_properties ver reg kinds i e l1 (map PElem (n_nodes n))) as [l2| |]; cbn [bind]; auto.
Qed.

Definition seen (s : string) : Prop := exists ns, goodns ns /\ sees i ns /\ ns_name ns = get_prefix s.
Lemma seen_ok s : seen s -> nsok kinds i e ms (new_name s) s.
Proof. intros (ns & G & S & E). eapply see_attr; eauto. Qed.

Lemma root_reads (r : node) L : carries reg r (PRecord L) -> tidy r -> good_members L -> Forall (fun f => seen (fst f)) L ->
  exists L', reads reg kinds i e ms (props r) L' /\ Permutation L L'.
Proof.
  intros C Ht F S. inversion C as [|x a m l kfs fs Fk P| |]; subst. exists (attr_fields a ++ kfs)%list. split; [|exact P].
  apply (Permutation_Forall P) in F. apply Forall_app in F. destruct F as [F1 F2]. apply (Permutation_Forall P) in S. apply Forall_app in S. destruct S as [S1 S2].
  apply tidy_eq in Ht. destruct Ht as (_ & Ta & Tl). unfold props. cbn [n_attrs n_nodes]. apply reads_app.
  - clear -F1 S1 Ta Hnew. revert F1 S1. unfold attr_fields. induction Ta as [|b a Hb Ta IH]; intros F1 S1; [constructor|]. cbn [filter map] in *.
    destruct b as [[sp lo] v]. cbn [a_name a_value x_space x_local] in *. subst sp. destruct (String.eqb_spec lo "rdf:parseType") as [->|Hn]; cbn [negb map] in *.
    + apply rd_skip; [reflexivity|auto].
    + inversion F1; inversion S1; subst. cbn [a_name a_value x_local]. apply (rd_attr reg kinds i e ms (Attr (XName "" lo) v) lo); [reflexivity|now apply seen_ok|auto].
  - clear -F2 S2 Tl Fk Hrdf Hnew. revert F2 S2 Tl. induction Fk as [|c f l kfs [B C] Fk IH]; intros F2 S2 Tl; [constructor|].
    inversion F2 as [|? ? [U1 U2] F2']; inversion S2 as [|? ? V1 S2']; inversion Tl as [|? ? T1 T2]; subst. destruct f as [s t]. cbn [fst snd map] in *.
    assert (En := tidy_named c s T1 B U1). apply rd_elem; [now rewrite En| |now apply carries_holds|auto]. rewrite En. now apply seen_ok.
Qed.
Lemma all_roots_read (roots : list node) Ls : Forall2 (fun r L => carries reg r (PRecord L) /\ tidy r) roots Ls -> Forall good_members Ls ->
  Forall (Forall (fun f => seen (fst f))) Ls ->
  exists L', reads reg kinds i e ms (flat_map props roots) L' /\ Permutation (List.concat Ls) L'.
Proof.
  induction 1 as [|r L roots Ls [C Ht] F IH]; intros G S; [exists []; split; constructor|]. inversion G; inversion S; subst.
  destruct (root_reads r L) as (L1 & E1 & P1); auto. destruct IH as (L2 & E2 & P2); auto. exists (L1 ++ L2)%list. cbn [flat_map List.concat]. split; [now apply reads_app|now apply Permutation_app].
Qed.
End Rd.

(* ---- the JSON written ---- *)
Lemma root_key (r : node) : root_ok r -> node_namespace r = x_local (n_name r).
Proof. intros (_ & Hs & Hc). unfold node_namespace. rewrite Hs. cbn [emptyb]. now apply plain_prefix. Qed.
Definition live (roots : list node) : list node := filter (fun r => negb (is_zero r)) roots.
Lemma models_map roots : forall m, NoDup (map fst m ++ map node_namespace roots) ->
  fold_left (fun m n => if is_zero n then m else map_set m (node_namespace n) (node_to_json reg n)) roots m
  = (m ++ map (fun r => (node_namespace r, node_to_json reg r)) (live roots))%list.
Proof.
  unfold live. induction roots as [|r roots IH]; intros m Nd; cbn [fold_left filter map]; [now rewrite List.app_nil_r|]. cbn [map] in Nd. assert (Nd' := NoDup_remove_1 _ _ _ Nd). assert (Nr := NoDup_remove_2 _ _ _ Nd).
  destruct (is_zero r); cbn [negb]; [auto|]. cbn [map]. rewrite map_set_new.
  - rewrite IH, <- List.app_assoc; [reflexivity|]. rewrite map_app. cbn [map fst]. rewrite <- List.app_assoc. cbn [List.app]. exact Nd.
  - intros K. apply Nr. apply in_or_app. now left.
Qed.
Lemma set_in {V} (m : gomap V) k v k' v' : In (k', v') (map_set m k v) -> (k' = k /\ v' = v) \/ In (k', v') m.
Proof.
  induction m as [|[a b] m IH]; cbn [map_set]; [intros [[= <- <-]|[]]; auto|]. destruct (a =? k).
  - intros [[= <- <-]|K]; [auto|right; now right].
  - intros [K|K]; [right; now left|]. destruct (IH K); [auto|right; now right].
Qed.
Lemma set_has {V} (m : gomap V) k v k' : In k' (map fst m) \/ k' = k -> In k' (map fst (map_set m k v)).
Proof.
  induction m as [|[a b] m IH]; cbn [map_set map fst]; [intros [[]|E]; subst; now left|]. destruct (String.eqb_spec a k) as [->|Na]; cbn [map fst In].
  - intros [[<-|K]|E]; [now left|now right|left; congruence].
  - intros [[<-|K]|E]; [now left|right; auto|right; auto].
Qed.
Definition ns_map (l : list namespace) (m : gomap string) : gomap string := fold_left (fun m ns => map_set m (ns_name ns) (ns_uri ns)) l m.
Lemma ns_map_from l : forall m k u, In (k, u) (ns_map l m) -> In (k, u) m \/ exists ns, In ns l /\ ns_name ns = k /\ ns_uri ns = u.
Proof.
  induction l as [|ns l IH]; intros m k u; cbn [ns_map fold_left]; [auto|]. intros K. destruct (IH _ _ _ K) as [K'|(ns' & A & B)].
  - apply set_in in K'. destruct K' as [[-> ->]|K']; [right; exists ns; split; [now left|auto]|auto].
  - right. exists ns'. split; [now right|exact B].
Qed.
Lemma ns_map_has l : forall m k, In k (map fst m) \/ In k (map ns_name l) -> In k (map fst (ns_map l m)).
Proof.
  induction l as [|ns l IH]; intros m k; cbn [ns_map fold_left map In]; [intros [K|[]]; exact K|]. intros [K|[K|K]]; apply IH; [left|left|right; exact K]; apply set_has; [now left|right; congruence].
Qed.
Lemma good_basic ns : goodns ns -> is_basic ns = false.
Proof.
  intros G. unfold is_basic. rewrite (goodns_core h ns G). cbn [orb]. destruct (String.eqb_spec (ns_name ns) "x") as [E|]; [|reflexivity].
  elim (proj1 (proj2 (proj2 G))). rewrite E. cbn. tauto.
Qed.
Lemma good_filter l : Forall goodns l -> filter (fun ns => negb (is_basic ns)) l = l.
Proof. induction 1 as [|ns l G F IH]; [reflexivity|]. cbn [filter]. now rewrite (good_basic ns G), IH. Qed.
Lemma ns_map_uri l ns : Forall goodns l -> In ns l -> In (ns_name ns, ns_uri ns) (ns_map l []).
Proof.
  intros F K. assert (H := ns_map_has l [] (ns_name ns) (or_intror (in_map ns_name _ _ K))). apply in_map_iff in H. destruct H as ([k u] & E & H). cbn in E. subst k.
  destruct (ns_map_from l [] _ _ H) as [[]|(ns' & A & B & C)]. rewrite Forall_forall in F. assert (ns' = ns) as ->; [|now rewrite C].
  apply (goodns_name h); auto.
Qed.

(* ---- the JSON read ---- *)
Lemma nodes_tidy (m : list (string * json)) : forall roots : list node, model_nodes m = Ok roots -> Forall tidy roots.
Proof.
  induction m as [|[k j] m IH]; intros roots; cbn [model_nodes]; [intros E; apply ok_inj in E; subst; constructor|].
  destruct j as [| | | | |mm]; try discriminate; cbn [bind].
  - destruct (model_nodes m) as [l| |]; cbn [bind]; try discriminate. intros E; apply ok_inj in E; subst. constructor; [apply tidy_new|auto].
  - match goal with |- bind (?f mm _) _ = _ -> _ => set (go := f) end.
    assert (A : forall mm (n n' : node), tidy n -> go mm n = Ok n' -> tidy n').
    { clear. induction mm as [|[k v] mm IH]; intros n n' Hn; cbn; [intros [= <-]; exact Hn|]. fold go. destruct (json_to_node k v n) as [a| |] eqn:E; cbn [bind]; try discriminate.
      apply IH. eapply json_tidy; eauto. }
    destruct (go mm (new_node (new_name k))) as [n| |] eqn:En; cbn [bind]; try discriminate. destruct (model_nodes m) as [l| |]; cbn [bind]; try discriminate.
    intros E; apply ok_inj in E; subst. constructor; [eapply A; [|exact En]; apply tidy_new|auto].
Qed.
Lemma nodes_cons k j m : model_nodes (X:=X) ((k, j) :: m) = bind (model_nodes [(k, j)]) (fun a => bind (model_nodes m) (fun b => Ok (a ++ b)%list)).
Proof.
  cbn [model_nodes]. match goal with |- bind ?a _ = _ => destruct a end; reflexivity.
Qed.
Definition jroot (r : node) (L : list (string * pval)) : Prop := carries reg r (PRecord L) /\ json_ok (PRecord L).
Lemma models_read (roots : list node) Ls m2 : Forall2 jroot roots Ls ->
  reorder (JObj (map (fun r => (node_namespace r, node_to_json reg r)) roots)) (JObj m2) ->
  exists (roots' : list node) Ls', model_nodes m2 = Ok roots' /\ Forall2 (fun r L => carries reg r (PRecord L) /\ tidy r) roots' Ls' /\ Permutation Ls Ls'.
Proof.
  intros F R. inversion R as [| | | | |m m1 m2' P R2]; subst.
  assert (F1 : Forall2 (fun (a : string * json) L => exists r, snd a = node_to_json reg r /\ jroot r L) (map (fun r => (node_namespace r, node_to_json reg r)) roots) Ls).
  { clear -F. induction F as [|r L ? ? J F IH]; cbn [map]; constructor; [exists r; split; [reflexivity|exact J]|exact IH]. }
  destruct (perm_forall2 _ _ _ P _ F1) as (Ls' & P' & F2).
  assert (E : exists roots' : list node, model_nodes m2 = Ok roots' /\ Forall2 (fun r L => carries reg r (PRecord L)) roots' Ls').
  { clear -F2 R2 Hrdf. revert Ls' F2. induction R2 as [|a [k j] m1 m2 [Rk Rj] R2 IH]; intros Ls' F2; inversion F2 as [|? L ? Ls2 (r & Er & C & J) F3]; subst; [exists []; split; [reflexivity|constructor]|].
    destruct (IH _ F3) as (roots' & E1 & E2). cbn [snd] in *. rewrite Er in Rj.
    destruct (model_back reg r L j k Hrdf C J Rj) as (n' & N1 & _ & N2). exists (n' :: roots'). rewrite nodes_cons, N1. cbn [bind]. rewrite E1. split; [reflexivity|]. constructor; auto. }
  destruct E as (roots' & E1 & E2). exists roots', Ls'. split; [exact E1|]. split; [|exact P']. apply nodes_tidy in E1. clear -E1 E2. induction E2; constructor; inversion E1; subst; auto.
Qed.

Hypothesis Hcore : forall p ns, p = "rdf" \/ p = "xml" -> find_ns_by_prefix reg d p = Some ns -> is_core ns = true.
Hypothesis Hreg : forall o, In o h -> ns_name (fst o) <> "".
Variable ver : version.
Variable kinds : nat -> string -> option (mkind X).
Variable ms : list (mkind X * list (gval X)).
Hypothesis Hnew : forall m ns, In m ms -> goodns ns -> k_can (fst m) (ns_name ns) = true -> new_tmodel kinds ns = Some (TModel (fst m) (k_init (fst m))).
Hypothesis Hfit : Forall (fit ver) ms.
Hypothesis Hnd : NoDup ms.
Hypothesis Hown : forall m m' p, In m ms -> In m' ms -> k_can (fst m) p = true -> k_can (fst m') p = true -> m = m'.
Hypothesis Hnames : Forall (fun f => gname (fst f) /\ all_names gname (snd f)) (flat_map (mem ver) ms).
Hypothesis Hnodes : Forall2 (node_of h d goodp) ms (d_nodes d).
Hypothesis Harr : Forall (arrays_ok ver T) ms.
Hypothesis Hjson : Forall (fun f => json_ok (snd f) /\ loud (snd f) = true) (flat_map (mem ver) ms).

Lemma json_ok_record L : NoDup (map fst L) -> good_members L -> Forall (fun f => json_ok (snd f)) L -> json_ok (PRecord L).
Proof.
  intros Nd G J. cbn [json_ok]. split; [exact Nd|]. split; [|split].
  - apply Forall_map. eapply Forall_impl; [|exact G]. intros f [Hf _]. now apply gname_member.
  - intros [K _]. apply in_map_iff in K. destruct K as (f & E & K). rewrite Forall_forall in G. destruct (G f K) as [Gf _]. apply gname_colon in Gf. rewrite E in Gf. discriminate.
  - clear -J. induction J; cbn; auto.
Qed.

Theorem json_trip (sync_from : doc -> doc * result unit) x : exists j, to_json ver reg d = Ok j /\ j_about j = d_about d /\
  (emptyb (d_toolkit d) = false -> j_toolkit j = d_toolkit d) /\
  forall j', j_about j' = j_about j -> j_toolkit j' = j_toolkit j -> Permutation (j_namespaces j) (j_namespaces j') -> reorder (JObj (j_models j)) (JObj (j_models j')) ->
  exists d' sel, from_json ver reg kinds sync_from x j' = sync_from d' /\
    d_nodes d' = map (final ver) sel /\ Permutation sel (filter (shown ver) ms) /\ d_about d' = d_about d /\ d_toolkit d' = j_toolkit j.
Proof.
  assert (HT : incl T ["Seq"; "Bag"; "Alt"]) by (intros y [<-|[<-|[]]]; cbn; auto).
  destruct (roots_written h d T ver ms Hfit Hnd Hown Hnames Hnodes Harr) as (roots & Ls & E & F & P & Nr & G).
  unfold to_json. rewrite E. cbn [bind]. eexists. split; [reflexivity|]. cbn [j_about j_toolkit j_namespaces j_models]. split; [reflexivity|].
  split; [intros ->; reflexivity|].
  assert (Ok' : Forall root_ok roots) by (clear -F; induction F as [|r Lr l Ls [[R _] _] F IH]; constructor; auto).
  assert (Ek : map node_namespace roots = map (fun r => x_local (n_name r)) roots).
  { apply map_ext_in. intros r Hr. apply root_key. rewrite Forall_forall in Ok'. auto. }
  rewrite models_map by (cbn [map List.app]; now rewrite Ek). cbn [List.app].
  set (NS := flat_map (node_namespaces reg d) roots).
  assert (Gn : Forall goodns NS).
  { unfold NS. clear -F G HT Hcore. induction F as [|r L roots Ls R F IH]; [constructor|]. inversion G; subst. cbn [flat_map]. apply Forall_app. split; [|auto].
    apply (root_ns h d T Hcore r L R). assumption. }
  rewrite (good_filter NS Gn). fold (ns_map NS []).
  intros [ja jt jn jm] Ha Ht Pn Ro. cbn [j_about j_toolkit j_namespaces j_models] in *. subst ja jt.
  assert (Ag : all_good h jn).
  { intros p u Hp. rewrite <- Pn in Hp. destruct (ns_map_from NS [] _ _ Hp) as [[]|(ns & A & B & C)]. exists ns. rewrite Forall_forall in Gn. auto. }
  assert (Un : forall ns, In ns NS -> In (ns_uri ns) (map snd jn)).
  { intros ns Hns. apply in_map_iff. exists (ns_name ns, ns_uri ns). split; [reflexivity|]. rewrite <- Pn. now apply ns_map_uri. }
  (* the roots that are written *)
  assert (NdL : NoDup (map fst (List.concat Ls))).
  { apply (Permutation_NoDup (l := map fst (flat_map (mem ver) ms))); [now apply Permutation_map|]. eapply all_names_apart; eauto. }
  assert (Hj : Forall (fun f => json_ok (snd f) /\ loud (snd f) = true) (List.concat Ls)) by exact (Permutation_Forall P Hjson).
  assert (Lv : exists Ls1, Forall2 jroot (live roots) Ls1 /\ List.concat Ls1 = List.concat Ls /\ Forall good_members Ls1 /\
               Forall (Forall (fun f => decl_in h d NS (fst f))) Ls1).
  { unfold NS. clear -F G HT Hcore Hj NdL Hrdf. induction F as [|r L roots Ls R F IH]; [exists []; repeat split; constructor|]. inversion G as [|? ? G1 G2]; subst. cbn [List.concat] in *.
    rewrite map_app in NdL. apply Forall_app in Hj. destruct Hj as [J1 J2]. destruct IH as (Ls1 & I1 & I2 & I3 & I4); auto.
    { revert NdL. clear. induction (map fst L); cbn; [auto|]. intros H. inversion H; auto. }
    assert (I4' : Forall (Forall (fun f => decl_in h d (flat_map (node_namespaces reg d) (r :: roots)) (fst f))) Ls1).
    { eapply Forall_impl; [|exact I4]. intros a Ha. eapply Forall_impl; [|exact Ha]. intros f Hf ns Hns. cbn [flat_map]. apply in_or_app. right. auto. }
    unfold live. cbn [filter]. destruct (is_zero r) eqn:Ez; cbn [negb].
    - assert (L = []) as ->; [|exists Ls1; auto]. apply (root_quiet r L R); [|exact Ez]. eapply Forall_impl; [|exact J1]. intros f [_ Hf]. exact Hf.
    - exists (L :: Ls1). cbn [List.concat]. rewrite I2. split; [|split; [reflexivity|split; constructor; auto]].
      + constructor; [|exact I1]. split; [now apply root_carries|]. apply json_ok_record; [|exact G1|].
        * revert NdL. clear. generalize (map fst (List.concat Ls)). intros q. induction (map fst L) as [|y l IH]; cbn; [constructor|]. intros H. inversion H as [|? ? H1 H2]; subst. constructor; [|auto].
          intros K. apply H1. apply in_or_app. now left.
        * eapply Forall_impl; [|exact J1]. intros f [Hf _]. exact Hf.
      + destruct (root_ns h d T Hcore r L R G1) as [_ D]. eapply Forall_impl; [|exact D]. intros f [Hf _] ns Hns. cbn [flat_map]. apply in_or_app. left. auto. }
  destruct Lv as (Ls1 & L1 & L2 & L3 & L4).
  destruct (models_read _ _ _ L1 Ro) as (roots' & Ls2 & M1 & M2 & M3).
  unfold from_json. cbn [j_namespaces j_models j_toolkit j_about]. fold (collect_pairs reg jn). destruct (collect_pairs reg jn) as [i e] eqn:Ec.
  rewrite M1. cbn [bind]. rewrite decode_models_props.
  assert (Sn : Forall (Forall (fun f => seen i (fst f))) Ls2).
  { apply (Permutation_Forall M3). apply Forall_forall. intros L HL. apply Forall_forall. intros f Hf. rewrite Forall_forall in L3, L4.
    assert (A := L3 L HL). assert (B := L4 L HL). rewrite Forall_forall in A, B. destruct (A f Hf) as [A1 _]. specialize (B f Hf).
    destruct (gname_prefix h d _ A1) as (ns & E1 & E2). exists ns. split; [exact E2|]. split; [|exact (prefix_ns h d _ _ E1)].
    apply (collect_sees h Hreg jn i e Ag Ec ns E2). apply Un. now apply B. }
  destruct (all_roots_read i e kinds ms Hnew roots' Ls2 M2) as (L' & Rd & P'); [apply (Permutation_Forall M3); exact L3|exact Sn|].
  destruct (models_back ver reg kinds i e ms Hfit Hnd Hown _ L' Rd) as (sel & Ed & Ps).
  { rewrite <- P'. rewrite P, <- L2. clear -M3. induction M3; cbn [List.concat]; auto.
    - now apply Permutation_app_head.
    - rewrite !List.app_assoc. apply Permutation_app_tail, Permutation_app_comm.
    - eapply perm_trans; eauto. }
  rewrite Ed. eexists _, sel. split; [reflexivity|]. cbn [d_nodes d_about d_toolkit]. auto.
Qed.
End N.
