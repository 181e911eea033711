(* C142: membership in namespace groups *)
From Coq Require Import List Arith ZArith Bool Ascii String.
From Verif Require Import GoStr GoStrFacts GoMap Names RegistryM Spec SpecRegistry RegistryFacts PropRegistry GroupM.
Import ListNotations.
Local Open Scope string_scope.

(* the namespace was registered in the group at some time *)
Definition registered_in (h : list reg_op) (g : string) (ns : namespace) : Prop := exists gs, In (ns, gs) h /\ In g gs.

Lemma members_in h g n : In n (group_members g h) <-> registered_in h g n.
Proof.
  unfold group_members, registered_in. rewrite in_flat_map. split.
  - intros ((m, gs) & Hm & Hi). apply in_map_iff in Hi. destruct Hi as (x & E & Hx). apply filter_In in Hx. destruct Hx as [Hx Eq].
    apply String.eqb_eq in Eq. cbn in *. subst. exists gs. auto.
  - intros (gs & H1 & H2). exists (n, gs). split; auto. apply in_map_iff. exists g. split; auto. apply filter_In. split; auto. apply String.eqb_refl.
Qed.

(* A group that has a name lists the namespaces registered in it, in order; the nameless group NoMetadata is always empty. *)
Theorem C142_namespaces : forall h g,
  group_namespaces (registry_of h) g = (if g =? "" then [] else group_members g h) /\
  (g <> "" -> forall n, In n (group_namespaces (registry_of h) g) <-> registered_in h g n).
Proof.
  intros h g. assert (E : group_namespaces (registry_of h) g = if g =? "" then [] else group_members g h).
  { unfold group_namespaces. rewrite C10_group_lists_registrations_in_order. destruct g as [|c g]; cbn [emptyb String.eqb].
    - destruct (group_members "" h); reflexivity.
    - destruct (group_members (String c g) h); reflexivity. }
  split; [exact E|]. intros Hg n. rewrite E. destruct (String.eqb_spec g ""); [congruence|]. apply members_in.
Qed.
Print Assumptions C142_namespaces.

(* Contains, of a group and of a list of groups: a namespace of this prefix was registered there. Missing for the full property: the URI
   is not compared; it makes no difference if no prefix was registered for two URIs. *)
Theorem C142_contains : forall h l ns,
  groups_contain (registry_of h) l ns = true <->
  exists g m, In g l /\ g <> "" /\ registered_in h g m /\ ns_name m = ns_name ns.
Proof.
  intros h l ns. unfold groups_contain. rewrite existsb_exists. split.
  - intros (g & Hg & H). unfold group_contains in H. apply existsb_exists in H. destruct H as (m & Hm & E). apply String.eqb_eq in E.
    destruct (C142_namespaces h g) as [E1 E2]. destruct (string_dec g "") as [->|Hn].
    + rewrite E1 in Hm. destruct Hm.
    + exists g, m. repeat split; auto. now apply E2.
  - intros (g & m & Hg & Hn & Hr & E). exists g. split; auto. apply existsb_exists. exists m. split; [now apply C142_namespaces|now apply String.eqb_eq].
Qed.
Print Assumptions C142_contains.
Theorem C142_contains_registered_partial : forall h g ns gs, injective_history ((ns, gs) :: h)%list ->
  group_contains (registry_of h) g ns = true <-> g <> "" /\ exists m, registered_in h g m /\ ns_name m = ns_name ns /\ ns_uri m = ns_uri ns.
Proof.
  intros h g ns gs I. assert (E : group_contains (registry_of h) g ns = groups_contain (registry_of h) [g] ns) by (cbn; now rewrite orb_false_r).
  rewrite E, C142_contains. split.
  - intros (g' & m & [<-|[]] & Hn & (gs' & Hr & Hi) & Em). split; auto. exists m. split; [exists gs'; auto|]. split; auto.
    apply (I (m, gs') (ns, gs)); cbn; auto.
  - intros (Hn & m & Hr & Em & _). exists g, m. cbn. auto.
Qed.
Print Assumptions C142_contains_registered_partial.

(* a namespace that was never registered counts as a member if its prefix is that of a member *)
Theorem C142_other_uri_refuted : exists h g ns, group_contains (registry_of h) g ns = true /\ ~ (exists m gs, In (m, gs) h /\ ns_uri m = ns_uri ns).
Proof.
  exists [(Namespace "dc" "http://purl.org/dc/elements/1.1/" None, ["xmp"])], "xmp", (Namespace "dc" "urn:other" None).
  split; [reflexivity|]. intros (m & gs & [E|[]] & U). injection E as <- <-. discriminate.
Qed.
Print Assumptions C142_other_uri_refuted.

Example C142_hyps : let h := [(Namespace "a" "u1" None, ["xmp"; "image"]); (Namespace "b" "u2" None, [""; "music"])] in
  injective_history ((Namespace "b" "u2" None, []) :: h)%list /\ groups_contain (registry_of h) ["image"; "music"] (Namespace "b" "u2" None) = true /\
  group_contains (registry_of h) "xmp" (Namespace "b" "u2" None) = false /\ group_contains (registry_of h) "" (Namespace "b" "u2" None) = false.
Proof.
  cbv zeta. split; [|repeat split]. intros x y Hx Hy. cbn in Hx, Hy.
  destruct Hx as [<-|[<-|[<-|[]]]]; destruct Hy as [<-|[<-|[<-|[]]]]; cbn; split; intros; try reflexivity; discriminate.
Qed.
