(* A document of typed models, encoded to XML and decoded. *)
From Coq Require Import List Arith ZArith Bool Ascii String Permutation Lia.
From Verif Require Import GoStr GoStrFacts GoMap Spec SpecFacts Names Semver RegistryM SpecRegistry RegistryFacts BasicFacts PathFacts
  NodeM DocM DocFacts ArrayM TypeM DecodeM JsonM SpecJson SpecType SpecTree SpecDecode TypeFacts TreeFacts FormFacts DecodeFacts DecodeKeepFacts EncodeKeepFacts
  DecodeDocFacts TripFacts EncTripFacts.
Import ListNotations.
Local Open Scope string_scope.

Section N.
Context {X : Type}.
Notation node := (node (tmodel X)).
Notation doc := (doc (tmodel X)).
Variable h : list reg_op.
Notation reg := (registry_of h).
Variable d : doc.
Variable T : list string.
Hypothesis HT : incl T ["Seq"; "Bag"; "Alt"].

(* a registered namespace, its prefix free for use *)
Definition goodns (ns : namespace) : Prop :=
  get_namespace reg (ns_name ns) = Ok ns /\ reg_get_prefix reg (ns_uri ns) = ns_name ns
  /\ ~ In (ns_name ns) [""; "rdf"; "xml"; "xmlns"; "parseType"; "x"] /\ has_char ":" (ns_name ns) = false
  /\ ns_uri ns <> "" /\ ns_uri ns <> "xmlns".
Definition goodp (p : string) : Prop := exists ns, find_ns_by_prefix reg d p = Some ns /\ goodns ns.
Definition gname (s : string) : Prop := exists p l, s = p ++ ":" ++ l /\ l <> "" /\ goodp p.
Hypothesis Hcore : forall p ns, p = "rdf" \/ p = "xml" -> find_ns_by_prefix reg d p = Some ns -> is_core ns = true.

Lemma goodp_plain p : goodp p -> has_char ":" p = false.
Proof. intros (ns & H & G). apply prefix_ns in H. subst p. apply G. Qed.
Lemma gname_prefix s : gname s -> goodp (get_prefix s).
Proof. intros (p & l & -> & _ & G). rewrite get_prefix_qualified; [exact G|]. now apply goodp_plain. Qed.
Lemma goodns_core ns : goodns ns -> is_core ns = false.
Proof. intros (_ & _ & N & _). apply not_core; intros E; apply N; rewrite E; cbn; auto. Qed.
Lemma gname_plain s : gname s -> get_prefix s <> "xmlns" /\ skip_field (new_name s) = false.
Proof.
  intros H. assert (G := gname_prefix s H). destruct G as (ns & F & G). apply prefix_ns in F.
  assert (N : ~ In (get_prefix s) [""; "rdf"; "xml"; "xmlns"; "parseType"; "x"]) by (rewrite <- F; apply G). split.
  - intros E. apply N. rewrite E. cbn. auto.
  - unfold skip_field. cbn [new_name x_space x_local]. change ("" =? "xmlns") with false. cbn [orb].
    destruct (String.eqb_spec s "rdf:parseType") as [->|_]; [elim N; vm_compute; auto|].
    destruct (String.eqb_spec s "rdf:type") as [->|_]; [elim N; vm_compute; auto|].
    destruct (String.eqb_spec s "xml:lang") as [->|_]; [elim N; vm_compute; auto|]. reflexivity.
Qed.
Lemma goodns_same ns ns' : goodns ns -> goodns ns' -> ns_uri ns = ns_uri ns' -> ns = ns'.
Proof. intros (A1 & A2 & _) (B1 & B2 & _) E. rewrite E in A2. rewrite A2 in B2. rewrite B2 in A1. congruence. Qed.
Lemma goodns_name ns ns' : goodns ns -> goodns ns' -> ns_name ns = ns_name ns' -> ns = ns'.
Proof. intros (A1 & _) (B1 & _) E. rewrite E in A1. congruence. Qed.

Lemma dups_good ns l : Forall goodns l -> (In ns (remove_dups l) <-> In ns l).
Proof.
  intros F. rewrite Forall_forall in F. destruct (remove_dups_spec l) as (_ & _ & S). rewrite S. split.
  - intros (a & b & -> & _). apply in_or_app. right. now left.
  - intros H. apply first_by_find. destruct (find _ l) as [ns'|] eqn:E.
    + apply find_some in E. destruct E as [E1 E2]. apply String.eqb_eq in E2. f_equal. apply goodns_same; auto.
    + apply (List.find_none _ _ E) in H. now rewrite String.eqb_refl in H.
Qed.

Lemma dups_out ns l : In ns (remove_dups l) -> Forall goodns l -> In ns l.
Proof. intros H F. now apply dups_good. Qed.
Lemma dups_into ns l : Forall goodns l -> In ns l -> In ns (remove_dups l).
Proof. intros F H. now apply dups_good. Qed.

Definition ns_of (p : string) : list namespace :=
  match find_ns_by_prefix reg d p with Some ns => if is_core ns then [] else [ns] | None => [] end.
Lemma ns_of_good p ns : goodp p -> (In ns (ns_of p) <-> find_ns_by_prefix reg d p = Some ns).
Proof. intros (ns' & E & G). unfold ns_of. rewrite E, (goodns_core _ G). cbn. split; [intros [->|[]]; reflexivity|intros [= ->]; auto]. Qed.
Lemma ns_of_goodns p : goodp p \/ p = "rdf" \/ p = "xml" -> Forall goodns (ns_of p).
Proof.
  intros [(ns & E & G)|H]; unfold ns_of.
  - rewrite E, (goodns_core _ G). constructor; [exact G|constructor].
  - destruct (find_ns_by_prefix reg d p) as [ns|] eqn:E; [|constructor]. rewrite (Hcore p ns H E). constructor.
Qed.
Lemma node_ns_eq x a v (l : list node) : node_namespaces reg d (Node (new_name x) a None v l) =
  remove_dups (flat_map (node_namespaces reg d) l ++ flat_map ns_of ((if emptyb (get_prefix x) then [] else [get_prefix x]) ++ map (fun b => get_prefix (x_local (a_name b))) a))%list.
Proof. reflexivity. Qed.

Definition own_ok (x : string) : Prop := goodp (get_prefix x) \/ get_prefix x = "rdf".
Lemma own_good x : own_ok x -> Forall goodns (flat_map ns_of (if emptyb (get_prefix x) then [] else [get_prefix x])).
Proof.
  intros H. destruct (emptyb (get_prefix x)); [constructor|]. cbn [flat_map]. rewrite List.app_nil_r. apply ns_of_goodns. destruct H; auto.
Qed.
Lemma flat_good {A} (f : A -> list namespace) l : Forall (fun x => Forall goodns (f x)) l -> Forall goodns (flat_map f l).
Proof. induction 1; cbn; [constructor|]. apply Forall_app. auto. Qed.

(* the declared namespaces are good, and those of all names are declared *)
Definition decl_in (l : list namespace) (s : string) : Prop := forall ns, find_ns_by_prefix reg d (get_prefix s) = Some ns -> In ns l.
Lemma all_names_impl (P Q : string -> Prop) t : (forall s, P s -> Q s) -> all_names P t -> all_names Q t.
Proof.
  intros H. revert t. fix IH 1. intros [s|fs|l|l]; cbn [all_names]; auto.
  - induction fs as [|f fs IHf]; auto. intros [[A B] C]. split; [split; [auto|apply IH; exact B]|apply IHf; exact C].
  - induction l as [|f l IHf]; auto. intros [A B]. split; [apply IH; exact A|apply IHf; exact B].
Qed.

Lemma tree_ns n t : @forms (tmodel X) T n t -> forall x, n_name n = new_name x -> own_ok x -> all_names gname t ->
  Forall goodns (node_namespaces reg d n) /\ all_names (decl_in (node_namespaces reg d n)) t /\ (goodp (get_prefix x) -> decl_in (node_namespaces reg d n) x).
Proof.
  intros F0. refine (forms_ind2 T (fun n t => forall x, n_name n = new_name x -> own_ok x -> all_names gname t ->
    Forall goodns (node_namespaces reg d n) /\ all_names (decl_in (node_namespaces reg d n)) t /\ (goodp (get_prefix x) -> decl_in (node_namespaces reg d n) x)) _ _ _ _ n t F0); clear n t F0.
  - intros x s y [= <-] O _. rewrite node_ns_eq. cbn [flat_map map List.app]. rewrite List.app_nil_r. assert (G := own_good x O). split; [|split; [exact I|]].
    + apply Forall_forall. intros ns Hns. apply dups_out in Hns; auto. rewrite Forall_forall in G. auto.
    + intros Gp ns Hns. apply dups_into; auto. destruct (emptyb (get_prefix x)) eqn:E.
      { destruct (get_prefix x); [|discriminate]. destruct Gp as (ns' & E' & Gn). apply prefix_ns in E'. elim (proj1 (proj2 (proj2 Gn))). rewrite E'. now left. }
      cbn [flat_map]. apply in_or_app. left. apply ns_of_good; auto.
  - intros x am mk kl kfs fs Hm F P y [= <-] O A. rewrite node_ns_eq.
    set (own := if emptyb (get_prefix x) then [] else [get_prefix x]).
    apply all_names_fields in A. apply (Permutation_Forall P) in A. apply Forall_app in A. destruct A as [A1 A2].
    assert (K : Forall goodns (flat_map (node_namespaces reg d) kl) /\ Forall (fun f => decl_in (flat_map (node_namespaces reg d) kl) (fst f) /\ all_names (decl_in (flat_map (node_namespaces reg d) kl)) (snd f)) kfs).
    { clear -F A2. induction F as [|c f kl kfs (B & C & D) F IH]; [split; constructor|]. inversion A2 as [|? ? [U1 U2] A2']; subst.
      destruct (IH A2') as [I1 I2]. destruct (D (fst f) B (or_introl (gname_prefix _ U1)) U2) as (D1 & D2 & D3). cbn [flat_map]. split; [apply Forall_app; auto|].
      constructor.
      - split; [intros ns Hns; apply in_or_app; left; apply D3; auto; now apply gname_prefix|]. eapply all_names_impl; [|exact D2].
        intros s Hs ns Hns. apply in_or_app. left. auto.
      - eapply Forall_impl; [|exact I2]. intros g [G1 G2]. split; [intros ns Hns; apply in_or_app; right; auto|]. eapply all_names_impl; [|exact G2].
        intros s Hs ns Hns. apply in_or_app. right. auto. }
    destruct K as [K1 K2].
    assert (Ga : Forall goodns (flat_map (node_namespaces reg d) kl ++ flat_map ns_of (own ++ map (fun b => get_prefix (x_local (a_name b))) (map attr_of am ++ mk)))).
    { apply Forall_app. split; [exact K1|]. rewrite flat_map_app. apply Forall_app. split; [now apply own_good|]. rewrite map_app, flat_map_app, map_map. apply Forall_app. split.
      - apply flat_good. apply Forall_forall. intros p Hp. apply in_map_iff in Hp. destruct Hp as (g & <- & Hg). rewrite Forall_forall in A1.
        destruct (A1 (leaf_of g) (in_map _ _ _ Hg)) as [U _]. apply ns_of_goodns. left. apply (gname_prefix _ U).
      - destruct Hm as [->| ->]; [constructor|]. cbn [map flat_map]. rewrite List.app_nil_r. apply ns_of_goodns. right. left. reflexivity. }
    split; [|split].
    + apply Forall_forall. intros ns Hns. apply dups_out in Hns; auto. rewrite Forall_forall in Ga. auto.
    + apply all_names_fields. apply (Permutation_Forall (Permutation_sym P)). apply Forall_app. split.
      * apply Forall_forall. intros g Hg. apply in_map_iff in Hg. destruct Hg as (f & <- & Hf). split; [|exact I]. intros ns Hns. apply dups_into; auto.
        apply in_or_app. right. rewrite flat_map_app. apply in_or_app. right. rewrite map_app, flat_map_app, map_map. apply in_or_app. left.
        apply in_flat_map. exists (get_prefix (fst f)). split; [apply in_map_iff; exists f; auto|]. rewrite Forall_forall in A1.
        destruct (A1 (leaf_of f) (in_map _ _ _ Hf)) as [U _]. apply ns_of_good; [|exact Hns]. apply (gname_prefix _ U).
      * eapply Forall_impl; [|exact K2]. intros g [G1 G2]. split; [intros ns Hns; apply dups_into; auto; apply in_or_app; left; auto|].
        eapply all_names_impl; [|exact G2]. intros s Hs ns Hns. apply dups_into; auto. apply in_or_app. left. auto.
    + intros Gp ns Hns. apply dups_into; auto. apply in_or_app. right. rewrite flat_map_app. apply in_or_app. left. unfold own. destruct (emptyb (get_prefix x)) eqn:E.
      { destruct (get_prefix x); [|discriminate]. destruct Gp as (ns' & E' & Gn). apply prefix_ns in E'. elim (proj1 (proj2 (proj2 Gn))). rewrite E'. now left. }
      cbn [flat_map]. apply in_or_app. left. apply ns_of_good; auto.
  - intros x typ items l Ht F y [= <-] O A. rewrite node_ns_eq. cbn [flat_map map List.app]. rewrite !List.app_nil_r. rewrite node_ns_eq. cbn [map]. rewrite List.app_nil_r.
    set (own := if emptyb (get_prefix x) then [] else [get_prefix x]).
    apply all_names_items in A.
    assert (K : Forall goodns (flat_map (node_namespaces reg d) items) /\ Forall (all_names (decl_in (flat_map (node_namespaces reg d) items))) l).
    { clear -F A. induction F as [|c f kl kfs (B & C & D) F IH]; [split; constructor|]. inversion A as [|? ? U2 A2']; subst.
      destruct (IH A2') as [I1 I2]. destruct (D "rdf:li" B (or_intror eq_refl) U2) as (D1 & D2 & _). cbn [flat_map]. split; [apply Forall_app; auto|].
      constructor.
      - eapply all_names_impl; [|exact D2]. intros s Hs ns Hns. apply in_or_app. left. auto.
      - eapply Forall_impl; [|exact I2]. intros g G2. eapply all_names_impl; [|exact G2]. intros s Hs ns Hns. apply in_or_app. right. auto. }
    destruct K as [K1 K2]. change (get_prefix ("rdf:" ++ typ)) with "rdf". cbn [emptyb flat_map]. rewrite List.app_nil_r.
    assert (G1 : Forall goodns (flat_map (node_namespaces reg d) items ++ ns_of "rdf")).
    { apply Forall_app. split; [exact K1|]. apply ns_of_goodns. auto. }
    assert (Ga : Forall goodns (remove_dups (flat_map (node_namespaces reg d) items ++ ns_of "rdf") ++ flat_map ns_of own)).
    { apply Forall_app. split; [|now apply own_good]. apply Forall_forall. intros ns Hns. apply dups_out in Hns; auto. rewrite Forall_forall in G1. auto. }
    split; [|split].
    + apply Forall_forall. intros ns Hns. apply dups_out in Hns; auto. rewrite Forall_forall in Ga. auto.
    + apply all_names_items. eapply Forall_impl; [|exact K2]. intros g G2. eapply all_names_impl; [|exact G2]. intros s Hs ns Hns. apply dups_into; auto.
      apply in_or_app. left. apply dups_into; auto. apply in_or_app. left. auto.
    + intros Gp ns Hns. apply dups_into; auto. apply in_or_app. right. unfold own. destruct (emptyb (get_prefix x)) eqn:E.
      { destruct (get_prefix x); [|discriminate]. destruct Gp as (ns' & E' & Gn). apply prefix_ns in E'. elim (proj1 (proj2 (proj2 Gn))). rewrite E'. now left. }
      cbn [flat_map]. apply in_or_app. left. apply ns_of_good; auto.
  - intros x l y [= <-] O A. rewrite node_ns_eq. cbn [flat_map map List.app]. rewrite !List.app_nil_r. rewrite node_ns_eq. cbn [map]. rewrite List.app_nil_r.
    set (own := if emptyb (get_prefix x) then [] else [get_prefix x]).
    assert (G0 : forall p, Forall goodns (node_namespaces reg d (li_of (M := tmodel X) (fst p) (snd p)))).
    { intros p. apply Forall_forall. intros ns Hns. change (li_of (fst p) (snd p)) with (@Node (tmodel X) (new_name "rdf:li") [Attr (new_name "xml:lang") (fst p)] None (snd p) []) in Hns.
      assert (Q : Forall goodns (ns_of "rdf" ++ ns_of "xml")) by (apply Forall_app; split; apply ns_of_goodns; auto).
      rewrite node_ns_eq in Hns. cbn [flat_map List.app map a_name x_local] in Hns. change (get_prefix "rdf:li") with "rdf" in Hns. change (get_prefix "xml:lang") with "xml" in Hns.
      cbn [emptyb flat_map List.app] in Hns. rewrite List.app_nil_r in Hns. apply dups_out in Hns; auto. rewrite Forall_forall in Q. auto. }
    assert (G1 : Forall goodns (flat_map (node_namespaces reg d) (map (fun i => li_of (fst i) (snd i)) l) ++ ns_of "rdf")).
    { apply Forall_app. split; [|apply ns_of_goodns; auto]. apply flat_good. apply Forall_forall. intros c Hc. apply in_map_iff in Hc. destruct Hc as (p & <- & _). apply G0. }
    change (get_prefix "rdf:Alt") with "rdf". cbn [emptyb flat_map]. rewrite List.app_nil_r.
    assert (Ga : Forall goodns (remove_dups (flat_map (node_namespaces reg d) (map (fun i => li_of (fst i) (snd i)) l) ++ ns_of "rdf") ++ flat_map ns_of own)).
    { apply Forall_app. split; [|now apply own_good]. apply Forall_forall. intros ns Hns. apply dups_out in Hns; auto. rewrite Forall_forall in G1. auto. }
    split; [|split; [exact I|]].
    + apply Forall_forall. intros ns Hns. apply dups_out in Hns; auto. rewrite Forall_forall in Ga. auto.
    + intros Gp ns Hns. apply dups_into; auto. apply in_or_app. right. unfold own. destruct (emptyb (get_prefix x)) eqn:E.
      { destruct (get_prefix x); [|discriminate]. destruct Gp as (ns' & E' & Gn). apply prefix_ns in E'. elim (proj1 (proj2 (proj2 Gn))). rewrite E'. now left. }
      cbn [flat_map]. apply in_or_app. left. apply ns_of_good; auto.
Qed.

Lemma root_ns r L : root_shows goodp T r L -> Forall (fun f => gname (fst f) /\ all_names gname (snd f)) L ->
  Forall goodns (node_namespaces reg d r) /\
  Forall (fun f => decl_in (node_namespaces reg d r) (fst f) /\ all_names (decl_in (node_namespaces reg d r)) (snd f)) L.
Proof.
  intros (((Hm & Hs & Hc) & _ & Hg) & A & K & H1 & H2 & H3) F. destruct r as [[sp x] al mo v kl]. cbn [n_name n_model n_attrs n_nodes x_space x_local] in *. subst sp mo al.
  change (node_namespaces reg d (Node (XName "" x) (map attr_of A) None v kl)) with (node_namespaces reg d (Node (new_name x) (map attr_of A) None "" kl)).
  destruct (tree_ns (Node (new_name x) (map attr_of A ++ []) None "" kl) (PRecord (map leaf_of A ++ K))) with (x := x) as (T1 & T2 & _); [| | | |rewrite List.app_nil_r in *].
  - apply (fo_record T x A [] kl K); auto.
  - reflexivity.
  - left. rewrite plain_prefix; auto.
  - apply all_names_fields. eapply Permutation_Forall; eauto.
  - split; [exact T1|]. apply all_names_fields in T2. eapply Permutation_Forall; [symmetry; exact H3|exact T2].
Qed.

(* the names the parser reports *)
Definition undeclaring (a : attr) : Prop := get_prefix (x_local (a_name a)) <> "xmlns".
Lemma decl_prefix s : get_prefix ("xmlns:" ++ s) = "xmlns" /\ strip_prefix ("xmlns:" ++ s) = s.
Proof. change ("xmlns:" ++ s) with ("xmlns" ++ ":" ++ s). now rewrite get_prefix_qualified, strip_prefix_qualified. Qed.
Lemma declare_get NS rest : Forall goodns NS -> Forall undeclaring rest -> forall env p,
  map_get (declare env (map ns_attr NS ++ rest)) p =
  match find (fun ns => ns_name ns =? p) NS with Some ns => Some (ns_uri ns) | None => map_get env p end.
Proof.
  intros F U. induction F as [|ns NS G F IH]; intros env p.
  - cbn [map List.app find]. now rewrite declare_none.
  - assert (E : declare env (map ns_attr (ns :: NS) ++ rest) = declare (map_set env (ns_name ns) (ns_uri ns)) (map ns_attr NS ++ rest)).
    { destruct (decl_prefix (ns_name ns)) as [D1 D2]. cbn [map List.app]. unfold declare at 1. cbn [fold_left].
      change (x_local (a_name (ns_attr ns))) with ("xmlns:" ++ ns_name ns). rewrite D1, D2. reflexivity. }
    rewrite E. clear E. rewrite IH. cbn [find].
    destruct (String.eqb_spec (ns_name ns) p) as [E|E].
    + destruct (find _ NS) as [ns'|] eqn:Ef; [|rewrite <- E; apply map_get_set_eq]. apply find_some in Ef. destruct Ef as [E1 E2]. apply String.eqb_eq in E2.
      f_equal. f_equal. apply goodns_name; auto; [rewrite Forall_forall in F; auto|]. congruence.
    + destruct (find _ NS); [reflexivity|]. now apply map_get_set_neq.
Qed.

Section Rd.
Variable ver : version.
Variable kinds : nat -> string -> option (mkind X).
Variables i e : gomap namespace.
Variable ms : list (mkind X * list (gval X)).
Hypothesis Hnew : forall m ns, In m ms -> goodns ns -> k_can (fst m) (ns_name ns) = true -> new_tmodel kinds ns = Some (TModel (fst m) (k_init (fst m))).
Hypothesis Hrdf : reg_get_prefix reg ns_rdf_uri = "rdf".
Hypothesis Hmark : skip_field (translate reg i e (XName ns_rdf_uri "parseType")) = true.

(* the decoder knows the namespace by its URI and by its prefix *)
Definition sees (ns : namespace) : Prop :=
  map_get i (ns_uri ns) = Some ns /\ find (fun v => ns_name v =? ns_name ns) (map snd i) = Some ns.

Lemma name_read env NS s : gname s -> decl_in NS s -> Forall goodns NS -> Forall sees NS ->
  (forall ns, In ns NS -> map_get env (ns_name ns) = Some (ns_uri ns)) ->
  exists ns l, goodns ns /\ sees ns /\ ns_name ns = get_prefix s /\ read_name env (new_name s) = XName (ns_uri ns) l /\ translate reg i e (XName (ns_uri ns) l) = new_name s.
Proof.
  intros (p & l & -> & Hl & (ns & Ef & G)) Hd Fg Fs He.
  assert (Hp : has_char ":" p = false) by (apply prefix_ns in Ef; subst p; apply G).
  assert (Gp := get_prefix_qualified p l Hp). unfold decl_in in Hd. rewrite Gp in Hd. specialize (Hd ns Ef).
  rewrite Forall_forall in Fs. specialize (Fs ns Hd). assert (En := prefix_ns h d p ns Ef). exists ns, l. split; [exact G|]. split; [exact Fs|]. split; [now rewrite Gp|].
  destruct G as (G1 & G2 & G3 & G4 & G5 & G6). split.
  - unfold read_name. cbn [new_name x_local]. rewrite index_char_prefix by exact Hp. cbv zeta. rewrite stake_app.
    change (":" ++ l) with (String ":" l). rewrite sdrop_S_app. rewrite <- En.
    destruct (String.eqb_spec (ns_name ns) "xmlns") as [E|_]; [elim G3; rewrite E; cbn; auto|].
    destruct (String.eqb_spec (ns_name ns) "xml") as [E|_]; [elim G3; rewrite E; cbn; auto|]. now rewrite (He ns Hd).
  - unfold translate. cbn [x_space x_local]. rewrite (proj2 (emptyb_false _) G5), (proj2 (String.eqb_neq _ _) G6). cbn [orb].
    unfold dec_find_ns, dec_ns_by_uri. cbn [x_space]. rewrite (proj2 (emptyb_false _) G5), (proj1 Fs). unfold new_name. f_equal.
    unfold expand. rewrite (proj2 (emptyb_false _) Hl). cbn [join]. now rewrite En.
Qed.
Lemma see_attr s ns : goodns ns -> sees ns -> ns_name ns = get_prefix s -> nsok kinds i e ms (new_name s) s.
Proof.
  intros G [_ S] E. exists ns. split; [|split; [exact E|]].
  - unfold dec_find_ns, dec_ns_by_prefix. cbn [new_name x_space x_local emptyb]. rewrite <- E, S. reflexivity.
  - intros m Hm Hc. apply Hnew; auto. now rewrite E.
Qed.
Lemma see_elem s ns l : goodns ns -> sees ns -> ns_name ns = get_prefix s -> nsok kinds i e ms (XName (ns_uri ns) l) s.
Proof.
  intros G [S _] E. exists ns. split; [|split; [exact E|]].
  - unfold dec_find_ns, dec_ns_by_uri. cbn [x_space]. rewrite (proj2 (emptyb_false _) (proj1 (proj2 (proj2 (proj2 (proj2 G)))))), S. reflexivity.
  - intros m Hm Hc. apply Hnew; auto. now rewrite E.
Qed.
Lemma good_uri ns : goodns ns -> ns_uri ns <> ns_rdf_uri.
Proof. intros (_ & G2 & G3 & _) E. rewrite E, Hrdf in G2. apply G3. rewrite <- G2. cbn. auto. Qed.

Variable env : gomap string.
Hypothesis Henv : map_get env "rdf" = Some ns_rdf_uri.

Lemma description_eq (r : node) : n_attrs (description reg d r) = (map ns_attr (node_namespaces reg d r) ++ Attr about_name (d_about d) :: n_attrs r)%list /\
  n_nodes (description reg d r) = n_nodes r.
Proof. destruct r. split; reflexivity. Qed.

Definition inner (r : node) : gomap string := declare env (n_attrs (description reg d r)).
Definition read_attr (env : gomap string) (b : attr) : attr := Attr (read_name env (a_name b)) (a_value b).
Lemma description_read (r : node) : n_attrs (xml_read env (description reg d r)) = map (read_attr (inner r)) (n_attrs (description reg d r)) /\
  n_nodes (xml_read env (description reg d r)) = map (xml_read (inner r)) (n_nodes r) /\
  n_name (xml_read env (description reg d r)) = read_name (inner r) rdf_description.
Proof. destruct r. repeat split; reflexivity. Qed.

Lemma root_attrs_plain (r : node) L : root_shows goodp T r L -> Forall (fun f => gname (fst f) /\ all_names gname (snd f)) L -> Forall undeclaring (n_attrs r).
Proof.
  intros (_ & A & K & H1 & H2 & H3) F. rewrite H1. apply (Permutation_Forall H3) in F. apply Forall_app in F. destruct F as [F _].
  clear -F. induction A as [|f A IH]; cbn [map] in *; constructor; inversion F; subst; auto. unfold undeclaring. cbn. apply (gname_plain (fst f)). apply H1.
Qed.
Lemma inner_get r L p : root_shows goodp T r L -> Forall (fun f => gname (fst f) /\ all_names gname (snd f)) L ->
  map_get (inner r) p = match find (fun ns => ns_name ns =? p) (node_namespaces reg d r) with Some ns => Some (ns_uri ns) | None => map_get env p end.
Proof.
  intros R F. unfold inner. rewrite (proj1 (description_eq r)). apply declare_get.
  - apply (root_ns r L R F).
  - constructor; [vm_compute; discriminate|]. eapply root_attrs_plain; eauto.
Qed.
Lemma inner_rdf r L : root_shows goodp T r L -> Forall (fun f => gname (fst f) /\ all_names gname (snd f)) L -> map_get (inner r) "rdf" = Some ns_rdf_uri.
Proof.
  intros R F. rewrite (inner_get r L) by auto. destruct (find _ _) as [ns|] eqn:E; [|exact Henv]. exfalso.
  apply find_some in E. destruct E as [E1 E2]. apply String.eqb_eq in E2. destruct (root_ns r L R F) as [G _]. rewrite Forall_forall in G.
  apply (proj1 (proj2 (proj2 (G ns E1)))). rewrite E2. cbn. auto.
Qed.
Lemma inner_ns r L : root_shows goodp T r L -> Forall (fun f => gname (fst f) /\ all_names gname (snd f)) L ->
  forall ns, In ns (node_namespaces reg d r) -> map_get (inner r) (ns_name ns) = Some (ns_uri ns).
Proof.
  intros R F ns Hn. rewrite (inner_get r L) by auto. destruct (root_ns r L R F) as [G _]. rewrite Forall_forall in G. destruct (find _ _) as [ns'|] eqn:E.
  - apply find_some in E. destruct E as [E1 E2]. apply String.eqb_eq in E2. f_equal. f_equal. apply goodns_name; auto.
  - apply (List.find_none _ _ E) in Hn. now rewrite String.eqb_refl in Hn.
Qed.

Lemma read_decl env' ns : read_attr env' (ns_attr ns) = Attr (XName "xmlns" (ns_name ns)) (ns_uri ns).
Proof.
  reflexivity.
Qed.

Lemma description_reads r L : root_shows goodp T r L -> Forall (fun f => gname (fst f) /\ all_names gname (snd f)) L ->
  Forall sees (node_namespaces reg d r) ->
  exists L', reads reg kinds i e ms (properties_of (xml_read env (description reg d r))) L' /\ Permutation L L'.
Proof.
  intros R F S. assert (R' := R). assert (Fu := F). destruct R' as (_ & A & K & H1 & H2 & H3).
  destruct (description_read r) as (D1 & D2 & _). unfold properties_of. rewrite D1, D2, (proj1 (description_eq r)).
  destruct (root_ns r L R F) as [Gn Gd]. assert (I1 := inner_rdf r L R F). assert (I2 := inner_ns r L R F).
  apply (Permutation_Forall H3) in F. apply Forall_app in F. destruct F as [FA FK].
  apply (Permutation_Forall H3) in Gd. apply Forall_app in Gd. destruct Gd as [GA GK].
  exists (map leaf_of A ++ K)%list. split; [|exact H3].
  set (ev := inner r) in *. clearbody ev. set (NS := node_namespaces reg d r) in *. clearbody NS.
  rewrite map_app, filter_app, map_app. cbn [map]. rewrite <- List.app_assoc. change (map leaf_of A ++ K)%list with ([] ++ (map leaf_of A ++ K))%list. apply reads_app.
  - clear. induction NS as [|ns NS IH]; [constructor|]. cbn [map filter]. rewrite read_decl. cbn [a_name x_space].
    change (negb ("xmlns" =? ns_rdf_uri)) with true. cbv iota. cbn [map]. apply rd_skip; [reflexivity|exact IH].
  - cbn [filter]. change (read_attr ev (Attr about_name (d_about d))) with (Attr (read_name ev (new_name ("rdf:" ++ "about"))) (d_about d)).
    rewrite (read_rdf ev I1). cbn [a_name x_space]. rewrite String.eqb_refl. cbn [negb]. rewrite H1. apply reads_app.
    + clear -FA GA Gn S I2 Hnew Hrdf. induction A as [|f A IH]; [constructor|]. cbn [map] in *. inversion FA as [|? ? [U1 _] FA']; subst. inversion GA as [|? ? [V1 _] GA']; subst.
      destruct (name_read ev NS (fst f) U1 V1 Gn S I2) as (ns & l & N1 & N2 & N3 & N4 & N5). cbn [filter]. unfold read_attr at 1. cbn [a_name attr_of]. rewrite N4. cbn [x_space].
      rewrite (proj2 (String.eqb_neq _ _) (good_uri ns N1)). cbn [negb map]. apply (rd_attr reg kinds i e ms (read_attr ev (attr_of f)) (fst f)).
      * unfold read_attr. cbn [a_name attr_of]. now rewrite N4.
      * eapply see_attr; eauto.
      * auto.
    + clear -FK GK H2 Gn S I1 I2 Hnew Hrdf Hmark HT. revert FK GK. induction H2 as [|c f kl K [C1 C2] H2 IH]; intros FK GK; [constructor|].
      inversion FK as [|? ? [U1 U2] FK']; subst. inversion GK as [|? ? [V1 V2] GK']; subst.
      destruct (name_read ev NS (fst f) U1 V1 Gn S I2) as (ns & l & N1 & N2 & N3 & N4 & N5). destruct f as [s t]. cbn [fst snd map] in *.
      assert (Ua : all_names (usable reg i e ev) t).
      { assert (G : all_names (fun s => gname s /\ decl_in NS s) t).
        { clear -U2 V2. revert t U2 V2. fix IH 1. intros [s|fs|l|l]; cbn [all_names]; auto.
          - induction fs as [|f fs IHf]; auto. intros [[A B] C] [[A' B'] C']. split; [split; [auto|apply IH; assumption]|apply IHf; assumption].
          - induction l as [|f l IHf]; auto. intros [A B] [A' B']. split; [apply IH; assumption|apply IHf; assumption]. }
        eapply all_names_impl; [|exact G]. intros s' [W1 W2]. destruct (name_read ev NS s' W1 W2 Gn S I2) as (ns' & l' & M1 & M2 & M3 & M4 & M5).
        split; [now rewrite M4|]. apply gname_plain, W1. }
      apply rd_elem.
      * rewrite xml_read_name by (eapply forms_attrs; eauto). rewrite C1, N4. exact N5.
      * rewrite xml_read_name by (eapply forms_attrs; eauto). rewrite C1, N4. eapply see_elem; eauto.
      * eapply forms_xml; eauto.
      * auto.
Qed.

Lemma bare_empty r L : root_shows goodp T r L -> Forall (fun f => gname (fst f) /\ all_names gname (snd f)) L ->
  is_bare (description reg d r) = true -> L = [].
Proof.
  intros R F B. assert (R' := R). destruct R' as (_ & A & K & H1 & H2 & H3).
  assert (HA : A = []).
  { destruct A as [|f A]; [reflexivity|]. exfalso. apply (Permutation_Forall H3) in F. inversion F as [|? ? [U _] _]; subst. cbn [leaf_of fst] in U.
    destruct (gname_prefix _ U) as (ns & E & G). rewrite (attr_not_bare h d r (attr_of f) ns) in B; [discriminate| | |].
    - rewrite H1. now left.
    - exact E.
    - now apply goodns_core. }
  assert (HK : n_nodes r = []).
  { unfold is_bare in B. apply andb_true_iff in B. destruct B as [_ B]. rewrite (proj2 (description_eq r)) in B. destruct (n_nodes r); [reflexivity|discriminate]. }
  rewrite HK in H2. inversion H2; subst. cbn in H3. symmetry in H3. now apply Permutation_nil in H3.
Qed.

Definition kept (l : list node) : list node := filter (fun r => negb (is_bare (description reg d r))) l.
Lemma roots_read l Ls : Forall2 (root_shows goodp T) l Ls -> Forall (Forall (fun f => gname (fst f) /\ all_names gname (snd f))) Ls ->
  Forall (fun r => Forall sees (node_namespaces reg d r)) (kept l) ->
  exists L', reads reg kinds i e ms (flat_map properties_of (map (xml_read env) (map (description reg d) (kept l)))) L' /\ Permutation (List.concat Ls) L'.
Proof.
  induction 1 as [|r L l Ls R F IH]; intros G S; [exists []; split; constructor|]. inversion G as [|? ? G1 G2]; subst.
  unfold kept in *. cbn [filter] in *. destruct (is_bare (description reg d r)) eqn:B; cbn [negb] in *.
  - rewrite (bare_empty r L R G1 B). cbn [List.concat List.app]. apply IH; auto.
  - inversion S as [|? ? S1 S2]; subst. destruct (IH G2 S2) as (L2 & E2 & P2). destruct (description_reads r L R G1 S1) as (L1 & E1 & P1).
    exists (L1 ++ L2)%list. cbn [map flat_map List.concat]. split; [now apply reads_app|now apply Permutation_app].
Qed.
End Rd.

(* ---- the namespaces the decoder collects ---------------------------------------------------------- *)
Lemma collect_good ds i e : collect_pairs reg ds = (i, e) ->
  (forall v, In v (map snd i) -> exists u, In u (map snd ds) /\ get_namespace reg (reg_get_prefix reg u) = Ok v) /\
  (forall v, In v (map snd e) -> exists p u, In (p, u) ds /\ v = Namespace p u None /\ reg_get_prefix reg u = "").
Proof.
  revert i e. induction ds as [|[p u] ds IH] using rev_ind; intros i e E.
  - injection E as <- <-. split; intros v [].
  - unfold collect_pairs in E. rewrite fold_left_app in E. cbn [fold_left fst snd] in E. fold (collect_pairs reg ds) in E.
    destruct (collect_pairs reg ds) as [i0 e0]. destruct (IH i0 e0 eq_refl) as [I1 I2]. unfold add_namespace in E.
    assert (W1 : forall v, In v (map snd i0) -> exists u', In u' (map snd (ds ++ [(p, u)])) /\ get_namespace reg (reg_get_prefix reg u') = Ok v).
    { intros v Hv. destruct (I1 v Hv) as (u' & U1 & U2). exists u'. split; [|exact U2]. rewrite map_app. apply in_or_app. now left. }
    assert (W2 : forall v, In v (map snd e0) -> exists p' u', In (p', u') (ds ++ [(p, u)])%list /\ v = Namespace p' u' None /\ reg_get_prefix reg u' = "").
    { intros v Hv. destruct (I2 v Hv) as (p' & u' & U1 & U2). exists p', u'. split; [|exact U2]. apply in_or_app. now left. }
    destruct (reg_get_prefix reg u) as [|c s] eqn:Eu; cbn [emptyb negb] in E.
    + destruct (map_get e0 u) as [w|]; injection E as <- <-; split; auto. intros v Hv. apply map_set_values in Hv. destruct Hv as [->|Hv]; [|auto].
      exists p, u. split; [apply in_or_app; right; now left|auto].
    + destruct (get_namespace reg (String c s)) as [ns|z|] eqn:En; injection E as <- <-; split; auto. intros v Hv. apply map_set_values in Hv. destruct Hv as [->|Hv]; [|auto].
      exists u. split; [rewrite map_app; apply in_or_app; right; now left|]. now rewrite Eu.
Qed.

Hypothesis Hreg : forall o, In o h -> ns_name (fst o) <> "".
Hypothesis Hrdf : reg_get_prefix reg ns_rdf_uri = "rdf".
Hypothesis Hx : reg_get_prefix reg ns_x_uri = "x".
Hypothesis Hrdfns : exists ns, get_namespace reg "rdf" = Ok ns.

Definition all_good (ds : list (string * string)) : Prop := forall p u, In (p, u) ds -> exists ns, goodns ns /\ ns_name ns = p /\ ns_uri ns = u.
Lemma collect_sees ds i e : all_good ds -> collect_pairs reg ds = (i, e) ->
  forall ns, goodns ns -> In (ns_uri ns) (map snd ds) -> sees i ns.
Proof.
  intros G E ns Gn Hu. destruct (collect_spec h ds i e Hreg E (ns_uri ns)) as [C1 _].
  assert (Pn : reg_get_prefix reg (ns_uri ns) = ns_name ns) by apply Gn.
  assert (Nn : ns_name ns <> "") by (intros Z; apply (proj1 (proj2 (proj2 Gn))); rewrite Z; cbn; auto).
  rewrite Pn in C1. destruct (C1 Nn) as (_ & C2 & _). destruct (C2 Hu) as (ns' & E1 & E2).
  assert (ns' = ns) by (destruct Gn as [Gn _]; congruence). subst ns'. split; [exact E2|].
  destruct (find (fun v => ns_name v =? ns_name ns) (map snd i)) as [v|] eqn:Ef.
  - apply find_some in Ef. destruct Ef as [F1 F2]. apply String.eqb_eq in F2. destruct (proj1 (collect_good ds i e E) v F1) as (u & U1 & U2).
    assert (Nv := proj1 (proj1 (get_namespace_ok _ _ _) U2)). rewrite <- Nv, F2 in U2. f_equal. congruence.
  - assert (K : In ns (map snd i)).
    { clear -E2. induction i as [|[k v] i IH]; [discriminate|]. cbn in *. destruct (k =? ns_uri ns); [injection E2 as ->; now left|right; auto]. }
    apply (List.find_none _ _ Ef) in K. now rewrite String.eqb_refl in K.
Qed.
Lemma collect_mark ds i e : all_good ds -> collect_pairs reg ds = (i, e) -> skip_field (translate reg i e (XName ns_rdf_uri "parseType")) = true.
Proof.
  intros G E. unfold translate. cbn [x_space x_local]. change (emptyb ns_rdf_uri || (ns_rdf_uri =? "xmlns")) with false. cbv iota.
  assert (N : dec_find_ns i e (XName ns_rdf_uri "parseType") = None).
  { unfold dec_find_ns. cbn [x_space x_local]. change (emptyb ns_rdf_uri) with false. cbv iota. unfold dec_ns_by_uri.
    destruct (collect_spec h ds i e Hreg E ns_rdf_uri) as [C1 _]. rewrite Hrdf in C1. destruct C1 as (C1 & _ & C3); [discriminate|].
    assert (Nd : ~ In ns_rdf_uri (map snd ds)).
    { intros K. apply in_map_iff in K. destruct K as ([p u] & K1 & K2). cbn in K1. subst u. destruct (G _ _ K2) as (ns & Gn & _ & Eu).
      exact (good_uri Hrdf ns Gn Eu). }
    rewrite (C3 Nd), C1. change (get_prefix "parseType") with "parseType". unfold dec_ns_by_prefix. destruct (collect_good ds i e E) as [V1 V2].
    destruct (find (fun v => ns_name v =? "parseType") (map snd i)) as [v|] eqn:F1.
    { exfalso. apply find_some in F1. destruct F1 as [F1 F2]. apply String.eqb_eq in F2. destruct (V1 v F1) as (u & U1 & U2).
      apply in_map_iff in U1. destruct U1 as ([p u'] & K1 & K2). cbn in K1. subst u'. destruct (G _ _ K2) as (ns & Gn & _ & <-).
      assert (Nv := proj1 (proj1 (get_namespace_ok _ _ _) U2)). rewrite (proj1 (proj2 Gn)) in Nv. apply (proj1 (proj2 (proj2 Gn))). rewrite <- Nv, F2. cbn. tauto. }
    destruct (find _ (map snd e)) as [v|] eqn:F2; [|reflexivity]. exfalso. apply find_some in F2. destruct F2 as [F2 F3].
    destruct (V2 v F2) as (p & u & K & _ & Z). destruct (G _ _ K) as (ns & Gn & _ & <-). rewrite (proj1 (proj2 Gn)) in Z. apply (proj1 (proj2 (proj2 Gn))). rewrite Z. now left. }
  rewrite N, Hrdf. destruct Hrdfns as (ns & En). rewrite En. assert (Nn := proj1 (proj1 (get_namespace_ok _ _ _) En)).
  unfold expand. cbn [emptyb join]. rewrite Nn. reflexivity.
Qed.

(* the declarations of the descriptions written *)
Section Env.
Variable env : gomap string.
Hypothesis Henv : map_get env "rdf" = Some ns_rdf_uri.
Notation good_members := (Forall (fun f => gname (fst f) /\ all_names gname (snd f))).

Lemma decls_of r L : root_shows goodp T r L -> good_members L ->
  decls [xml_read env (description reg d r)] = map (fun ns => (ns_name ns, ns_uri ns)) (node_namespaces reg d r) /\
  map a_value (filter about_attr (n_attrs (xml_read env (description reg d r)))) = [d_about d].
Proof.
  intros R F. assert (I1 := inner_rdf env Henv r L R F). assert (I2 := inner_ns env r L R F). assert (R' := R). destruct R' as (_ & A & K & H1 & H2 & H3).
  destruct (root_ns r L R F) as [Gn Gd]. destruct (description_read env r) as (D1 & _ & _).
  unfold decls. cbn [flat_map]. rewrite List.app_nil_r, D1, (proj1 (description_eq r)), H1.
  apply (Permutation_Forall H3) in F. apply Forall_app in F. destruct F as [FA _]. apply (Permutation_Forall H3) in Gd. apply Forall_app in Gd. destruct Gd as [GA _].
  set (ev := inner env r) in *. clearbody ev. set (NS := node_namespaces reg d r) in *. clearbody NS.
  assert (Z : Forall (fun a => is_decl (read_attr ev a) = false /\ about_attr (read_attr ev a) = false) (map attr_of A)).
  { clear -FA GA Gn I2 Hrdf. induction A as [|f A IH]; [constructor|]. cbn [map] in *. inversion FA as [|? ? [U1 _] FA']; subst. inversion GA as [|? ? [V1 _] GA']; subst. constructor; auto.
    destruct U1 as (p & l & E & Hl & (ns & Ef & G)). cbn [leaf_of fst] in E. unfold decl_in in V1. cbn [leaf_of fst] in V1.
    assert (Hp : has_char ":" p = false) by (apply prefix_ns in Ef; subst p; apply G). rewrite E, (get_prefix_qualified p l Hp) in V1.
    assert (Er : read_name ev (new_name (fst f)) = XName (ns_uri ns) l).
    { rewrite E. assert (En := prefix_ns h d p ns Ef). unfold read_name. cbn [new_name x_local]. rewrite index_char_prefix by exact Hp. cbv zeta. rewrite stake_app.
      change (":" ++ l) with (String ":" l). rewrite sdrop_S_app. rewrite <- En. assert (G3 := proj1 (proj2 (proj2 G))).
      destruct (String.eqb_spec (ns_name ns) "xmlns") as [Z|_]; [elim G3; rewrite Z; cbn; auto|].
      destruct (String.eqb_spec (ns_name ns) "xml") as [Z|_]; [elim G3; rewrite Z; cbn; auto|]. now rewrite (I2 ns (V1 ns Ef)). }
    unfold is_decl, about_attr, read_attr. cbn [a_name attr_of]. rewrite Er. cbn [x_space x_local].
    rewrite (proj2 (String.eqb_neq _ _) (proj2 (proj2 (proj2 (proj2 (proj2 G)))))), (proj2 (String.eqb_neq _ _) (good_uri Hrdf ns G)). split; reflexivity. }
  assert (Ab : read_attr ev (Attr about_name (d_about d)) = Attr (XName ns_rdf_uri "about") (d_about d)).
  { change (read_attr ev (Attr about_name (d_about d))) with (Attr (read_name ev (new_name ("rdf:" ++ "about"))) (d_about d)). now rewrite (read_rdf ev I1). }
  rewrite map_app. cbn [map]. rewrite Ab, !filter_app. cbn [filter].
  assert (Z1 : filter is_decl (map (read_attr ev) (map attr_of A)) = [] /\ filter about_attr (map (read_attr ev) (map attr_of A)) = []).
  { clear -Z. induction Z as [|a l [Z1 Z2] Z IH]; [split; reflexivity|]. cbn [map filter]. now rewrite Z1, Z2. }
  destruct Z1 as [Z1 Z2]. rewrite Z1, Z2. change (is_decl (Attr (XName ns_rdf_uri "about") (d_about d))) with false.
  change (about_attr (Attr (XName ns_rdf_uri "about") (d_about d))) with true. cbv iota. rewrite List.app_nil_r, map_app. cbn [map a_value].
  split.
  - clear. induction NS as [|ns NS IH]; [reflexivity|]. cbn [map filter]. rewrite read_decl. change (is_decl _) with true at 1. cbv iota. cbn [map a_name x_local a_value]. now rewrite IH.
  - assert (Q : map a_value (filter about_attr (map (read_attr ev) (map ns_attr NS))) = []).
    { clear. induction NS as [|ns NS IH]; [reflexivity|]. cbn [map filter]. rewrite read_decl. change (about_attr _) with false at 1. exact IH. }
    now rewrite Q.
Qed.
Lemma decls_app (a b : list node) : decls (a ++ b) = (decls a ++ decls b)%list.
Proof. unfold decls. now rewrite flat_map_app, filter_app, map_app. Qed.

Lemma decls_kept l Ls : Forall2 (root_shows goodp T) l Ls -> Forall good_members Ls ->
  decls (map (xml_read env) (map (description reg d) (kept l))) = flat_map (fun r => map (fun ns => (ns_name ns, ns_uri ns)) (node_namespaces reg d r)) (kept l) /\
  map a_value (filter about_attr (flat_map n_attrs (map (xml_read env) (map (description reg d) (kept l))))) = map (fun _ => d_about d) (kept l) /\
  Forall (fun r => Forall goodns (node_namespaces reg d r)) (kept l) /\
  Forall (fun n => is_elem reg n "rdf:Description") (map (xml_read env) (map (description reg d) (kept l))).
Proof.
  induction 1 as [|r L l Ls R F IH]; intros G; [repeat split; constructor|]. inversion G as [|? ? G1 G2]; subst. destruct (IH G2) as (I1 & I2 & I3 & I4).
  unfold kept in *. cbn [filter]. destruct (is_bare (description reg d r)); cbn [negb]; [auto|]. cbn [map flat_map].
  destruct (decls_of r L R G1) as [D1 D2]. repeat split.
  - change (xml_read env (description reg d r) :: ?q) with ([xml_read env (description reg d r)] ++ q)%list. now rewrite decls_app, D1, I1.
  - rewrite filter_app, map_app, D2, I2. reflexivity.
  - constructor; [|exact I3]. apply (root_ns r L R G1).
  - constructor; [|exact I4]. unfold is_elem, full_name. destruct (description_read env r) as (_ & _ & ->).
    change (read_name (inner env r) rdf_description) with (read_name (inner env r) (new_name ("rdf:" ++ "Description"))).
    rewrite (read_rdf _ (inner_rdf env Henv r L R G1)). cbn [x_space x_local]. unfold short. rewrite Hrdf. reflexivity.
Qed.
End Env.

(* ---- encode, write, read, decode -------------------------------------------------------------------- *)
Variable ver : version.
Variable kinds : nat -> string -> option (mkind X).
Variable ms : list (mkind X * list (gval X)).
Hypothesis Hnew : forall m ns, In m ms -> goodns ns -> k_can (fst m) (ns_name ns) = true -> new_tmodel kinds ns = Some (TModel (fst m) (k_init (fst m))).
Hypothesis Hfit : Forall (fit ver) ms.
Hypothesis Hnd : NoDup ms.
Hypothesis Hown : forall m m' p, In m ms -> In m' ms -> k_can (fst m) p = true -> k_can (fst m') p = true -> m = m'.
Hypothesis Hnames : Forall (fun f => gname (fst f) /\ all_names gname (snd f)) (flat_map (mem ver) ms).
Hypothesis Hnodes : Forall2 (node_of h d goodp) ms (d_nodes d).
Hypothesis Harr : Forall (arrays_ok ver T) ms.

Definition env2 : gomap string := [("x", ns_x_uri); ("rdf", ns_rdf_uri)].

Lemma goodp_found p : goodp p -> found h d goodp (p ++ ":x") .
Proof.
  intros (ns & E & G). assert (En := prefix_ns h d p ns E). assert (Hp : has_char ":" p = false) by (rewrite <- En; apply G).
  exists ns. split; [|split; [rewrite En; exact Hp|rewrite En; exists ns; auto]].
  unfold enc_find_ns, find_ns. cbn [new_name x_space x_local emptyb negb]. change (p ++ ":x") with (p ++ ":" ++ "x"). now rewrite get_prefix_qualified by exact Hp.
Qed.
Lemma gname_found s : gname s -> found h d goodp s.
Proof.
  intros (p & l & -> & _ & (ns & E & G)). assert (En := prefix_ns h d p ns E). assert (Hp : has_char ":" p = false) by (rewrite <- En; apply G).
  exists ns. split; [|split; [rewrite En; exact Hp|rewrite En; exists ns; auto]].
  unfold enc_find_ns, find_ns. cbn [new_name x_space x_local emptyb negb]. now rewrite get_prefix_qualified by exact Hp.
Qed.

Lemma roots_written : exists roots Ls, encode_doc_nodes ver reg d [] (d_nodes d) = Ok roots /\ Forall2 (root_shows goodp T) roots Ls /\
  Permutation (flat_map (mem ver) ms) (List.concat Ls) /\ NoDup (map (fun r => x_local (n_name r)) roots) /\ Forall (Forall (fun f => gname (fst f) /\ all_names gname (snd f))) Ls.
Proof.
  destruct (encode_nodes_shows ver h d goodp T ms (d_nodes d) Hnodes Hfit Harr [] []) as (roots & E & ((Ls & F & P) & Nr)).
  - intros s Hs. apply gname_found. rewrite Forall_forall in Hnames. apply in_map_iff in Hs. destruct Hs as (f & <- & Hf). apply (Hnames f Hf).
  - cbn [map]. rewrite List.app_nil_r. eapply all_names_apart; eauto.
  - split; [exists []; split; constructor|constructor].
  - exists roots, Ls. rewrite List.app_nil_r in P. repeat split; auto. clear -P Hnames. apply (Permutation_Forall P) in Hnames. clear P.
    induction Ls as [|L Ls IH]; [constructor|]. cbn [List.concat] in Hnames. apply Forall_app in Hnames. destruct Hnames. constructor; auto.
Qed.

Theorem xml_trip (sync_from : doc -> doc * result unit) x : exists p, encode ver reg d = Ok p /\
  exists d' sel, decode ver reg kinds sync_from x (xml_read [] p) = sync_from d' /\
    d_nodes d' = map (final ver) sel /\ Permutation sel (filter (shown ver) ms) /\
    (filter (shown ver) ms <> [] -> d_about d' = d_about d).
Proof.
  destruct roots_written as (roots & Ls & E & F & P & _ & G). unfold encode. rewrite E. cbn [bind]. eexists. split; [reflexivity|].
  set (descs := map (xml_read env2) (map (description reg d) (kept roots))).
  assert (Ek : filter (fun n => negb (is_bare n)) (map (description reg d) roots) = map (description reg d) (kept roots)).
  { unfold kept. clear. induction roots as [|r l IH]; [reflexivity|]. cbn [map filter]. destruct (negb (is_bare (description reg d r))); cbn [map]; now rewrite IH. }
  set (rdf := Node (XName ns_rdf_uri "RDF") [Attr (XName "xmlns" "rdf") ns_rdf_uri] (@None (tmodel X)) "" descs).
  assert (Er : exists a, xml_read [] (packet reg d roots) = Node (XName ns_x_uri "xmpmeta") a None "" [rdf]).
  { eexists. unfold packet. rewrite Ek. reflexivity. }
  destruct Er as (a & Er). rewrite Er.
  destruct (decls_kept env2 eq_refl roots Ls F G) as (D1 & D2 & D3 & D4). fold descs in D1, D2, D4.
  assert (Ch : chain_ok reg (Node (XName ns_x_uri "xmpmeta") a None "" [rdf]) rdf).
  { split; [split|exact D4].
    - unfold is_elem, full_name. cbn [rdf n_name x_space x_local]. unfold short. rewrite Hrdf. reflexivity.
    - right. split; [|reflexivity]. unfold is_elem, full_name. cbn [n_name x_space x_local]. unfold short. rewrite Hx. reflexivity. }
  rewrite (decode_ok_chain ver kinds sync_from reg x _ rdf Ch). rewrite collect_pairs_eq.
  change (n_nodes rdf) with descs. destruct (collect_pairs reg (decls descs)) as [i e] eqn:Ec.
  assert (Ag : all_good (decls descs)).
  { intros q u Hq. rewrite D1 in Hq. apply in_flat_map in Hq. destruct Hq as (r & R1 & R2). apply in_map_iff in R2. destruct R2 as (ns & [= <- <-] & R2).
    exists ns. rewrite Forall_forall in D3. specialize (D3 r R1). rewrite Forall_forall in D3. auto. }
  assert (Sn : Forall (fun r => Forall (sees i) (node_namespaces reg d r)) (kept roots)).
  { apply Forall_forall. intros r Hr. apply Forall_forall. intros ns Hns. apply (collect_sees (decls descs) i e Ag Ec).
    - rewrite Forall_forall in D3. specialize (D3 r Hr). rewrite Forall_forall in D3. auto.
    - rewrite D1. apply in_map_iff. exists (ns_name ns, ns_uri ns). split; [reflexivity|]. apply in_flat_map. exists r. split; [exact Hr|].
      apply in_map_iff. exists ns. auto. }
  destruct (roots_read kinds i e ms Hnew Hrdf (collect_mark _ _ _ Ag Ec) env2 eq_refl roots Ls F G Sn) as (L' & Rd & P').
  destruct (models_back ver reg kinds i e ms Hfit Hnd Hown _ L' Rd) as (sel & Ed & Ps).
  { rewrite <- P'. exact P. }
  change (properties rdf) with (flat_map properties_of descs). unfold descs at 1. rewrite Ed. eexists _, sel. split; [reflexivity|]. cbn [d_nodes d_about].
  split; [reflexivity|]. split; [exact Ps|]. intros Hsh.
  unfold about_of. change (n_nodes rdf) with descs. change (fun a : attr => (x_space (a_name a) =? ns_rdf_uri) && (x_local (a_name a) =? "about")) with about_attr.
  rewrite D2. assert (Kn : kept roots <> []).
  { intros Z. rewrite Z in Rd. cbn in Rd. inversion Rd; subst. apply Permutation_sym, Permutation_nil in P'. rewrite P' in P. apply Permutation_sym, Permutation_nil in P.
    apply Hsh. clear -P. induction ms as [|m l IH]; [reflexivity|]. cbn [flat_map] in P. apply app_eq_nil in P. destruct P as [P1 P2]. cbn [filter]. unfold shown at 1. rewrite P1. auto. }
  clear -Kn. destruct (kept roots) as [|r l]; [now elim Kn|]. clear Kn. revert r. induction l as [|r' l IH]; intros r; [reflexivity|]. exact (IH r').
Qed.
End N.
