(* Lemmas about GoMap and RegistryM *)
From Coq Require Import List Arith ZArith Bool Ascii String Lia Permutation.
From Verif Require Import GoStr GoStrFacts GoMap Names PathFacts RegistryM Spec SpecFacts SpecRegistry.
Local Open Scope string_scope.

(* --- GoMap --- *)
Lemma map_get_set {V} (m : gomap V) k v k' :
  map_get (map_set m k v) k' = if k =? k' then Some v else map_get m k'.
Proof.
  induction m as [|[a b] m IH]; cbn [map_set map_get].
  - reflexivity.
  - destruct (a =? k) eqn:E; cbn [map_get].
    + apply eqb_eq in E. subst a. destruct (k =? k'); reflexivity.
    + rewrite IH. destruct (a =? k') eqn:E2; auto. apply eqb_eq in E2. subst a.
      destruct (k =? k') eqn:E3; auto. apply eqb_eq in E3. subst. rewrite eqb_refl in E. discriminate.
Qed.

Lemma map_get_set_eq {V} (m : gomap V) k v : map_get (map_set m k v) k = Some v.
Proof. now rewrite map_get_set, eqb_refl. Qed.

Lemma map_get_set_neq {V} (m : gomap V) k v k' : k <> k' -> map_get (map_set m k v) k' = map_get m k'.
Proof. intros H. rewrite map_get_set. now rewrite (proj2 (eqb_neq _ _) H). Qed.

Lemma map_get_del {V} (m : gomap V) k k' :
  map_get (map_del m k) k' = if k =? k' then None else map_get m k'.
Proof.
  unfold map_del. induction m as [|[a b] m IH]; cbn [filter map_get fst].
  - now destruct (k =? k').
  - destruct (a =? k) eqn:E; cbn [negb].
    + apply eqb_eq in E. subst a. rewrite IH. destruct (k =? k'); auto.
    + cbn [map_get]. rewrite IH. destruct (a =? k') eqn:E2; auto. apply eqb_eq in E2. subst a.
      destruct (k =? k') eqn:E3; auto. apply eqb_eq in E3. subst. rewrite eqb_refl in E. discriminate.
Qed.

Lemma map_get_in {V} (m : gomap V) k v : map_get m k = Some v -> In (k, v) m.
Proof.
  induction m as [|[a b] m IH]; cbn; [discriminate|]. destruct (a =? k) eqn:E.
  - apply eqb_eq in E. intros [= ->]. subst. auto.
  - auto.
Qed.

Lemma map_set_keys {V} (m : gomap V) k v : NoDup (map fst m) -> NoDup (map fst (map_set m k v)).
Proof.
  intros H.
  assert (Hin : forall x, In x (map fst (map_set m k v)) -> x = k \/ In x (map fst m)).
  { clear H. induction m as [|[a b] m IH]; cbn; intros x Hx; [intuition|].
    destruct (a =? k) eqn:E; cbn in *.
    - apply eqb_eq in E. subst. intuition.
    - destruct Hx as [Hx|Hx]; auto. apply IH in Hx. intuition. }
  induction m as [|[a b] m IH]; cbn; [repeat constructor; auto|].
  inversion H as [|? ? H1 H2]; subst. destruct (a =? k) eqn:E; cbn.
  - apply eqb_eq in E. subst. constructor; auto.
  - constructor.
    + intros Hx. cbn [map_set map fst] in Hin. rewrite E in Hin.
      destruct (Hin a) as [->|Hx']; cbn; auto.
      * rewrite eqb_refl in E. discriminate.
      * cbn in Hx'. clear Hin.
        assert (Hk : a = k \/ In a (map fst m)).
        { clear - Hx. induction m as [|[c d] m IH]; cbn in *; [intuition|].
          destruct (c =? k) eqn:E; cbn in *; [apply eqb_eq in E; subst; intuition|]. intuition. }
        destruct Hk as [->|]; auto. rewrite eqb_refl in E. discriminate.
    + apply IH; auto. intros x Hx. clear - Hx. induction m as [|[c d] m IH]; cbn in *; [intuition|].
      destruct (c =? k) eqn:E; cbn in *; [apply eqb_eq in E; subst; intuition|]. intuition.
Qed.

Lemma map_get_none_notin {V} (m : gomap V) k : map_get m k = None <-> ~ In k (map fst m).
Proof.
  induction m as [|[a b] m IH]; cbn; [tauto|]. destruct (a =? k) eqn:E.
  - apply eqb_eq in E. split; [discriminate|tauto].
  - apply eqb_neq in E. rewrite IH. tauto.
Qed.

Lemma map_in_get {V} (m : gomap V) k v : NoDup (map fst m) -> In (k, v) m -> map_get m k = Some v.
Proof.
  induction m as [|[a b] m IH]; cbn; [tauto|]. intros Hn [H|H]; inversion Hn; subst.
  - injection H as -> ->. now rewrite eqb_refl.
  - destruct (a =? k) eqn:E; auto. apply eqb_eq in E. subst. exfalso. apply H2.
    now apply (in_map fst) in H.
Qed.

(* --- sequential registry --- *)

Lemma registry_of_snoc h o : registry_of (h ++ [o]) = register (registry_of h) (fst o) (snd o).
Proof. unfold registry_of. now rewrite fold_left_app. Qed.

Lemma last_by_snoc {A K} (key : A -> K) v l a :
  last_by key v (l ++ [a])%list <-> (v = a \/ (key a <> key v /\ last_by key v l)).
Proof.
  split.
  - intros (p & q & E & H). destruct (exists_last (l := v :: q) ltac:(discriminate)) as (q' & b & Eq).
    rewrite Eq in E. rewrite List.app_assoc in E. apply app_inj_tail in E as [E1 E2]. subst b.
    destruct q as [|c q].
    + destruct q' as [|? ?]; [injection Eq as ->; now left|].
      destruct q'; discriminate.
    + right. destruct q' as [|d q']; [discriminate|]. injection Eq as <- Eq.
      rewrite Eq in H. apply Forall_app in H as [H1 H2]. inversion H2; subst. split; auto.
      exists p, q'. split; auto.
  - intros [->|[H1 (p & q & -> & H)]].
    + exists l, []. split; auto.
    + exists p, (q ++ [a])%list. split; [now rewrite <- List.app_assoc|]. apply Forall_app. auto.
Qed.

Lemma get_names_spec h p n :
  map_get (r_names (registry_of h)) p = Some n <->
  ns_name n = p /\ exists gs, last_by (fun o => ns_name (fst o)) (n, gs) h.
Proof.
  revert n. induction h as [|[m g] h IH] using rev_ind; intros n.
  - cbn. split; [discriminate|]. intros (_ & gs & a & b & E & _). now destruct a.
  - rewrite registry_of_snoc. cbn [register r_names fst snd]. rewrite map_get_set.
    setoid_rewrite last_by_snoc. cbn [fst].
    destruct (ns_name m =? p) eqn:E.
    + apply eqb_eq in E. split.
      * intros [= ->]. split; auto. exists g. now left.
      * intros (Hp & gs & [[= -> ->]|[Hk _]]); auto. congruence.
    + apply eqb_neq in E. rewrite IH. split.
      * intros (Hp & gs & H). split; auto. exists gs. right. split; auto. congruence.
      * intros (Hp & gs & [[= -> ->]|[Hk H]]); [congruence|]. split; eauto.
Qed.

Lemma get_uris_spec h u n :
  map_get (r_uris (registry_of h)) u = Some n <->
  ns_uri n = u /\ exists gs, last_by (fun o => ns_uri (fst o)) (n, gs) h.
Proof.
  revert n. induction h as [|[m g] h IH] using rev_ind; intros n.
  - cbn. split; [discriminate|]. intros (_ & gs & a & b & E & _). now destruct a.
  - rewrite registry_of_snoc. cbn [register r_uris fst snd]. rewrite map_get_set.
    setoid_rewrite last_by_snoc. cbn [fst].
    destruct (ns_uri m =? u) eqn:E.
    + apply eqb_eq in E. split.
      * intros [= ->]. split; auto. exists g. now left.
      * intros (Hp & gs & [[= -> ->]|[Hk _]]); auto. congruence.
    + apply eqb_neq in E. rewrite IH. split.
      * intros (Hp & gs & H). split; auto. exists gs. right. split; auto. congruence.
      * intros (Hp & gs & [[= -> ->]|[Hk H]]); [congruence|]. split; eauto.
Qed.

Lemma last_by_exists (key : reg_op -> string) h k :
  (exists o, In o h /\ key o = k) <-> exists o, last_by key o h /\ key o = k.
Proof.
  split.
  - induction h as [|a h IH] using rev_ind; [intros (o & [] & _)|].
    intros (o & Ho & Hk).
    destruct (string_dec (key a) k) as [E|E].
    + exists a. split; auto. apply last_by_snoc. now left.
    + apply in_app_iff in Ho as [Ho|[->|[]]]; [|congruence].
      destruct IH as (o' & Ho' & Hk'); [eauto|]. exists o'. split; auto.
      apply last_by_snoc. right. split; auto. congruence.
  - intros (o & Ho & Hk). exists o. split; auto. now apply last_by_in in Ho.
Qed.

Lemma get_namespace_ok h p n :
  get_namespace (registry_of h) p = Ok n <->
  ns_name n = p /\ exists gs, last_by (fun o => ns_name (fst o)) (n, gs) h.
Proof.
  rewrite <- get_names_spec. unfold get_namespace. destruct (map_get _ p); split; congruence.
Qed.

Lemma get_namespace_err h p :
  (exists e, get_namespace (registry_of h) p = Err e) <-> ~ exists o, In o h /\ ns_name (fst o) = p.
Proof.
  rewrite (last_by_exists (fun o => ns_name (fst o))).
  unfold get_namespace. destruct (map_get (r_names (registry_of h)) p) as [n|] eqn:E.
  - split; [intros (e & H); discriminate|]. intros H. exfalso. apply H.
    apply get_names_spec in E as (Hp & gs & Hl). exists (n, gs). split; auto.
  - split; [|eauto]. intros _ ((n & gs) & Hl & Hp). cbn in Hp.
    assert (map_get (r_names (registry_of h)) p = Some n) by (apply get_names_spec; eauto). congruence.
Qed.

Lemma reg_get_prefix_spec h u :
  (forall n gs, last_by (fun o => ns_uri (fst o)) (n, gs) h -> ns_uri n = u ->
     reg_get_prefix (registry_of h) u = ns_name n)
  /\ ((~ exists o, In o h /\ ns_uri (fst o) = u) -> reg_get_prefix (registry_of h) u = "").
Proof.
  unfold reg_get_prefix. split.
  - intros n gs Hl Hu.
    assert (E : map_get (r_uris (registry_of h)) u = Some n) by (apply get_uris_spec; eauto).
    now rewrite E.
  - intros H. destruct (map_get (r_uris (registry_of h)) u) as [n|] eqn:E; auto. exfalso. apply H.
    apply get_uris_spec in E as (Hp & gs & Hl). exists (n, gs). split; auto. now apply last_by_in in Hl.
Qed.

Lemma group_fold ns gs : forall m g,
  map_get (fold_left (reg_group ns) gs m) g =
  match map (fun _ => ns) (filter (fun x => x =? g) (filter (fun x => negb (emptyb x)) gs)), map_get m g with
  | [], o => o
  | l, None => Some l
  | l, Some l' => Some (l' ++ l)%list
  end.
Proof.
  induction gs as [|a gs IH]; intros m g; cbn [fold_left filter map]; [reflexivity|].
  rewrite IH. unfold reg_group.
  destruct (emptyb a) eqn:Ea; cbn [negb]; [reflexivity|].
  cbn [filter].
  destruct (a =? g) eqn:E; cbn [map].
  - apply eqb_eq in E. subst a.
    destruct (map_get m g) as [l'|] eqn:Em; rewrite map_get_set_eq.
    + destruct (map _ _); [reflexivity|]. now rewrite <- List.app_assoc.
    + destruct (map _ _); reflexivity.
  - apply eqb_neq in E. destruct (map_get m a) as [l'|] eqn:Em; rewrite map_get_set_neq by auto; reflexivity.
Qed.

Lemma group_occ_eq g gs : g <> "" -> filter (fun x => x =? g) (filter (fun x => negb (emptyb x)) gs)
  = filter (fun x => x =? g) gs.
Proof.
  intros Hg. induction gs as [|a gs IH]; cbn; auto. destruct (emptyb a) eqn:E; cbn.
  - apply emptyb_true in E. subst. destruct g; [congruence|]. cbn. auto.
  - now rewrite IH.
Qed.

Lemma group_members_snoc g h o :
  group_members g (h ++ [o]) = (group_members g h ++ map (fun _ => fst o) (filter (fun x => x =? g) (snd o)))%list.
Proof. unfold group_members. rewrite flat_map_app. cbn [flat_map]. now rewrite List.app_nil_r. Qed.

Lemma get_group_spec h g : g <> "" ->
  map_get (r_groups (registry_of h)) g =
  match group_members g h with [] => None | l => Some l end.
Proof.
  intros Hg. induction h as [|[m gs] h IH] using rev_ind; [reflexivity|].
  rewrite registry_of_snoc. cbn [register r_groups fst snd]. rewrite group_fold, IH.
  rewrite group_members_snoc. cbn [fst snd].
  rewrite group_occ_eq by auto.
  destruct (map (fun _ : string => m) _) as [|a l]; [now rewrite List.app_nil_r|].
  destruct (group_members g h); reflexivity.
Qed.

Lemma get_group_empty h : map_get (r_groups (registry_of h)) "" = None.
Proof.
  induction h as [|[m gs] h IH] using rev_ind; [reflexivity|].
  rewrite registry_of_snoc. cbn [register r_groups fst snd]. rewrite group_fold, IH.
  replace (filter (fun x => x =? "") (filter (fun x => negb (emptyb x)) gs)) with (@nil string); [reflexivity|].
  symmetry. induction gs as [|a gs IH2]; cbn; auto. destruct (emptyb a) eqn:E; cbn; auto.
  destruct a; [discriminate|]. exact IH2.
Qed.

Lemma get_group_namespaces_spec h g :
  get_group_namespaces (registry_of h) g =
  match group_members g h with
  | [] => Err "xmp: unregistered namespace group"
  | l => if emptyb g then Err "xmp: unregistered namespace group" else Ok l
  end.
Proof.
  unfold get_group_namespaces. destruct (emptyb g) eqn:E.
  - apply emptyb_true in E. subst. rewrite get_group_empty. now destruct (group_members "" h).
  - apply emptyb_false in E. rewrite get_group_spec by auto. now destruct (group_members g h).
Qed.

Lemma registry_keys h : NoDup (map fst (r_names (registry_of h))) /\ NoDup (map fst (r_uris (registry_of h))).
Proof.
  induction h as [|o h IH] using rev_ind; [split; constructor|].
  rewrite registry_of_snoc. destruct IH. split; now apply map_set_keys.
Qed.

Lemma reg_prefixes_spec h : NoDup (reg_prefixes (registry_of h)) /\
  forall p, In p (reg_prefixes (registry_of h)) <-> exists o, In o h /\ ns_name (fst o) = p.
Proof.
  split; [apply registry_keys|]. intros p. unfold reg_prefixes.
  destruct (map_get (r_names (registry_of h)) p) as [n|] eqn:E.
  - split.
    + intros _. apply get_names_spec in E as (Hp & gs & Hl). exists (n, gs). split; auto. now apply last_by_in in Hl.
    + intros _. apply map_get_in in E. now apply (in_map fst) in E.
  - pose proof (proj1 (map_get_none_notin _ _) E). split; [tauto|]. intros Ho. exfalso.
    apply (last_by_exists (fun o => ns_name (fst o))) in Ho as ((n & gs) & Hl & Hp). cbn in Hp.
    assert (map_get (r_names (registry_of h)) p = Some n) by (apply get_names_spec; eauto). congruence.
Qed.

Lemma reg_namespaces_spec h n :
  In n (reg_namespaces (registry_of h)) <-> exists gs, last_by (fun o => ns_uri (fst o)) (n, gs) h.
Proof.
  unfold reg_namespaces. split.
  - intros H. apply in_map_iff in H as ((k & m) & Hm & Hi). cbn in Hm. subst m.
    apply map_in_get in Hi; [|apply registry_keys]. apply get_uris_spec in Hi as (_ & H). exact H.
  - intros (gs & H). assert (E : map_get (r_uris (registry_of h)) (ns_uri n) = Some n) by (apply get_uris_spec; eauto).
    apply map_get_in in E. now apply (in_map snd) in E.
Qed.

Lemma prefix_uri_agree h : injective_history h ->
  forall u, reg_get_prefix (registry_of h) u <> "" ->
  exists n, get_namespace (registry_of h) (reg_get_prefix (registry_of h) u) = Ok n /\ ns_uri n = u.
Proof.
  intros Hi u Hu. unfold reg_get_prefix in *.
  destruct (map_get (r_uris (registry_of h)) u) as [n|] eqn:E; [|congruence].
  apply get_uris_spec in E as (Hn & gs & Hl).
  assert (Hx : exists o, In o h /\ ns_name (fst o) = ns_name n).
  { exists (n, gs). split; auto. now apply last_by_in in Hl. }
  apply (last_by_exists (fun o => ns_name (fst o))) in Hx as ((m & gs') & Hm & Hk). cbn in Hk.
  exists m. split.
  - apply get_namespace_ok. split; eauto.
  - apply last_by_in in Hm, Hl. specialize (Hi _ _ Hm Hl). cbn in Hi. rewrite (proj1 Hi Hk). exact Hn.
Qed.

Lemma uri_prefix_agree h : injective_history h ->
  forall p n, get_namespace (registry_of h) p = Ok n -> reg_get_prefix (registry_of h) (ns_uri n) = p.
Proof.
  intros Hi p n H. apply get_namespace_ok in H as (Hp & gs & Hl).
  assert (Hx : exists o, In o h /\ ns_uri (fst o) = ns_uri n).
  { exists (n, gs). split; auto. now apply last_by_in in Hl. }
  apply (last_by_exists (fun o => ns_uri (fst o))) in Hx as ((m & gs') & Hm & Hk). cbn in Hk.
  rewrite (proj1 (reg_get_prefix_spec h (ns_uri n)) m gs' Hm Hk).
  apply last_by_in in Hm, Hl. specialize (Hi _ _ Hm Hl). cbn in Hi. rewrite (proj2 Hi Hk). exact Hp.
Qed.

Lemma short_resolves h : injective_history h -> (forall o, In o h -> has_char ":" (ns_name (fst o)) = false) ->
  forall u name, reg_get_prefix (registry_of h) u <> "" ->
  exists n, get_namespace (registry_of h) (get_prefix (short (registry_of h) u name)) = Ok n /\ ns_uri n = u
    /\ strip_prefix (short (registry_of h) u name) = name.
Proof.
  intros Hi Hc u name Hu. destruct (prefix_uri_agree h Hi u Hu) as (n & Hn & Hnu).
  exists n. unfold short. rewrite (proj2 (emptyb_false _) Hu). cbn [negb].
  change (join ":" [reg_get_prefix (registry_of h) u; name])
    with (reg_get_prefix (registry_of h) u ++ ":" ++ name)%string.
  assert (Hp : has_char ":" (reg_get_prefix (registry_of h) u) = false).
  { pose proof Hn as Hn'. apply get_namespace_ok in Hn' as (Hx & gs & Hl). rewrite <- Hx.
    apply last_by_in in Hl. exact (Hc _ Hl). }
  rewrite get_prefix_qualified, strip_prefix_qualified by exact Hp. auto.
Qed.

(* --- concurrency --- *)

Lemma lin_ops_app a b : lin_ops (a ++ b) = (lin_ops a ++ lin_ops b)%list.
Proof. unfold lin_ops. apply flat_map_app. Qed.

Lemma run_ops_app l1 : forall r l2, run_ops r (l1 ++ l2) = run_ops (run_ops r l1) l2.
Proof. induction l1 as [|[o x] l1 IH]; intros r l2; cbn; auto. Qed.

Lemma legal_app l1 : forall r l2, legal r (l1 ++ l2) <-> legal r l1 /\ legal (run_ops r l1) l2.
Proof.
  induction l1 as [|[o x] l1 IH]; intros r l2; cbn [legal run_ops app]; [tauto|].
  rewrite IH. cbn [fst]. tauto.
Qed.

Definition in_writer (p : pc) : bool := match p with PWait _ _ | PName _ _ | PUri _ _ | PGrp _ _ _ => true | _ => false end.
Definition in_active (p : pc) : bool := match p with PName _ _ | PUri _ _ | PGrp _ _ _ => true | _ => false end.
Definition in_reader (p : pc) : bool := match p with PRead _ | PGot _ _ => true | _ => false end.
Definition pc_ok (p : pc) : bool := match p with PRead o | PGot o _ => negb (is_reg o) | _ => true end.
Definition partial (p : pc) (r R : registry) : Prop :=
  match p with
  | PUri ns gs => r = Registry (map_set (r_names R) (ns_name ns) ns) (r_uris R) (r_groups R)
  | PGrp ns gs todo => exists d, gs = (d ++ todo)%list /\
      r = Registry (map_set (r_names R) (ns_name ns) ns) (map_set (r_uris R) (ns_uri ns) ns)
            (fold_left (reg_group ns) d (r_groups R))
  | _ => r = R
  end.
Definition cur_events (t : nat) (p : pc) : list event :=
  match p with
  | PIdle => []
  | PWant o | PRead o => [EInv t o]
  | PWait ns gs | PName ns gs | PUri ns gs | PGrp ns gs _ => [EInv t (OReg ns gs)]
  | PGot o r | PRet o r => [EInv t o; ELin t o r]
  end.
Definition cur_op (p : pc) : list op :=
  match p with
  | PIdle => []
  | PWant o | PRead o => [o]
  | PWait ns gs | PName ns gs | PUri ns gs | PGrp ns gs _ => [OReg ns gs]
  | PGot o r | PRet o r => [o]
  end.

Record Inv (progs : nat -> list op) (m : machine) : Prop := {
  inv_legal : legal empty_registry (lin_ops (m_trace m));
  inv_writer : forall t, in_writer (t_pc (m_threads m t)) = true <-> m_writer m = Some t;
  inv_reader : forall t, in_reader (t_pc (m_threads m t)) = true <-> In t (m_readers m);
  inv_excl : forall t, in_active (t_pc (m_threads m t)) = true -> m_readers m = [];
  inv_pc : forall t, pc_ok (t_pc (m_threads m t)) = true;
  inv_reg : match m_writer m with
            | None => m_reg m = run_ops empty_registry (lin_ops (m_trace m))
            | Some t => partial (t_pc (m_threads m t)) (m_reg m) (run_ops empty_registry (lin_ops (m_trace m)))
            end;
  inv_thread : forall t, exists cs,
     proj t (m_trace m) = (completed t cs ++ cur_events t (t_pc (m_threads m t)))%list
     /\ progs t = (map fst cs ++ cur_op (t_pc (m_threads m t)) ++ t_todo (m_threads m t))%list
}.

Lemma inv_init progs : Inv progs (minit progs).
Proof.
  constructor; cbn.
  - exact I.
  - intros t; split; discriminate.
  - intros t; split; [discriminate|tauto].
  - discriminate.
  - reflexivity.
  - reflexivity.
  - intros t. exists []. auto.
Qed.

Lemma upd_same f t x : upd f t x t = x.
Proof. unfold upd. now rewrite Nat.eqb_refl. Qed.
Lemma upd_other f t x i : i <> t -> upd f t x i = f i.
Proof. intros H. unfold upd. now rewrite (proj2 (Nat.eqb_neq _ _) H). Qed.

Lemma proj_app t a b : proj t (a ++ b) = (proj t a ++ proj t b)%list.
Proof. unfold proj. apply filter_app. Qed.

Lemma writer_unique progs m t u : Inv progs m -> in_writer (t_pc (m_threads m t)) = true ->
  in_writer (t_pc (m_threads m u)) = true -> t = u.
Proof. intros HI H1 H2. apply (inv_writer _ _ HI) in H1, H2. congruence. Qed.

Ltac cases_thread i t :=
  destruct (Nat.eq_dec i t) as [->|]; [rewrite ?upd_same|rewrite ?upd_other by assumption].

Lemma in_remove_iff t u l : In u (remove Nat.eq_dec t l) <-> In u l /\ u <> t.
Proof. split; [apply in_remove|intros [? ?]; now apply in_in_remove]. Qed.

Lemma completed_snoc t cs o r : completed t (cs ++ [(o, r)]) = (completed t cs ++ [EInv t o; ELin t o r; ERet t o r])%list.
Proof. unfold completed. rewrite flat_map_app. reflexivity. Qed.

Lemma inv_step progs m t m' : Inv progs m -> mstep m t = Some m' -> Inv progs m'.
Proof.
  intros HI Hs. destruct HI as [Hlegal Hw Hr Hx Hpc Hreg Hth].
  pose proof (Hw t) as Hwt. pose proof (Hr t) as Hrt. pose proof (Hpc t) as Hpct. pose proof (Hx t) as Hxt.
  unfold mstep in Hs.
  destruct (t_pc (m_threads m t)) as [|o|ns gs|ns gs|ns gs|ns gs todo|o|o r|o r] eqn:Ept.
  - (* PIdle *)
    destruct (t_todo (m_threads m t)) as [|o rest] eqn:Et; [discriminate|]. injection Hs as <-.
    constructor; cbn [m_trace m_threads m_writer m_readers m_reg].
    + rewrite lin_ops_app. cbn. now rewrite List.app_nil_r.
    + intros i. cases_thread i t; auto.
    + intros i. cases_thread i t; auto.
    + intros i. cases_thread i t; [cbn; discriminate|eauto].
    + intros i. cases_thread i t; auto.
    + rewrite lin_ops_app. cbn. rewrite List.app_nil_r. destruct (m_writer m) as [w|]; auto.
      cases_thread w t; auto. exfalso. pose proof (proj2 (Hw t) eq_refl) as E. rewrite Ept in E. discriminate.
    + intros i. rewrite proj_app. destruct (Hth i) as (cs & H1 & H2). exists cs. cases_thread i t; cbn [t_pc t_todo].
      * rewrite Ept in H1, H2. rewrite Et in H2. cbn in *. rewrite Nat.eqb_refl. rewrite H1, List.app_nil_r. auto.
      * cbn. rewrite (proj2 (Nat.eqb_neq t i)) by auto. rewrite List.app_nil_r. auto.
  - (* PWant *)
    destruct (is_reg o) eqn:Eo.
    + destruct o as [ns gs| | | |]; try discriminate.
      destruct (m_writer m) as [w|] eqn:Em; [discriminate|]. injection Hs as <-.
      constructor; cbn [m_trace m_threads m_writer m_readers m_reg]; auto.
      * intros i. cases_thread i t; cbn [t_pc in_writer]; [tauto|]. rewrite Hw. split; [discriminate|congruence].
      * intros i. cases_thread i t; auto.
      * intros i. cases_thread i t; [cbn; discriminate|eauto].
      * intros i. cases_thread i t; auto.
      * rewrite upd_same. exact Hreg.
      * intros i. destruct (Hth i) as (cs & H1 & H2). exists cs. cases_thread i t; auto.
        rewrite Ept in H1, H2. auto.
    + assert (Hs' : match m_writer m with
        | None => Some (Machine (upd (m_threads m) t (Thread (PRead o) (t_todo (m_threads m t)))) (t :: m_readers m) None (m_reg m) (m_trace m))
        | Some _ => None end = Some m') by (destruct o; try discriminate; exact Hs). clear Hs.
      destruct (m_writer m) as [w|] eqn:Em; [discriminate|]. injection Hs' as <-.
      constructor; cbn [m_trace m_threads m_writer m_readers m_reg]; auto.
      * intros i. cases_thread i t; auto.
      * intros i. cases_thread i t; cbn [t_pc in_reader In]; [tauto|]. rewrite Hr. intuition congruence.
      * intros i. cases_thread i t; [discriminate|]. intros Ha. exfalso.
        assert (E : in_writer (t_pc (m_threads m i)) = true) by (destruct (t_pc (m_threads m i)); auto).
        apply Hw in E. discriminate.
      * intros i. cases_thread i t; auto. cbn. now rewrite Eo.
      * intros i. destruct (Hth i) as (cs & H1 & H2). exists cs. cases_thread i t; auto.
        rewrite Ept in H1, H2. auto.
  - (* PWait *)
    destruct (m_readers m) as [|u rs] eqn:Er; [|discriminate]. injection Hs as <-.
    constructor; cbn [m_trace m_threads m_writer m_readers m_reg]; auto.
    + intros i. cases_thread i t; auto.
    + intros i. cases_thread i t; auto.
    + intros i. cases_thread i t; auto.
    + rewrite (proj1 Hwt eq_refl) in *. rewrite upd_same. rewrite Ept in Hreg. exact Hreg.
    + intros i. destruct (Hth i) as (cs & H1 & H2). exists cs. cases_thread i t; auto.
      rewrite Ept in H1, H2. auto.
  - (* PName *)
    injection Hs as <-. pose proof (proj1 Hwt eq_refl) as Hw'.
    constructor; cbn [m_trace m_threads m_writer m_readers m_reg]; auto.
    + intros i. cases_thread i t; auto.
    + intros i. cases_thread i t; auto.
    + intros i. cases_thread i t; auto.
    + rewrite Hw' in *. rewrite upd_same. rewrite Ept in Hreg. cbn in *. now rewrite Hreg.
    + intros i. destruct (Hth i) as (cs & H1 & H2). exists cs. cases_thread i t; auto.
      rewrite Ept in H1, H2. auto.
  - (* PUri *)
    injection Hs as <-. pose proof (proj1 Hwt eq_refl) as Hw'.
    constructor; cbn [m_trace m_threads m_writer m_readers m_reg]; auto.
    + intros i. cases_thread i t; auto.
    + intros i. cases_thread i t; auto.
    + intros i. cases_thread i t; auto.
    + rewrite Hw' in *. rewrite upd_same. rewrite Ept in Hreg. cbn in *. rewrite Hreg. exists []. split; auto.
    + intros i. destruct (Hth i) as (cs & H1 & H2). exists cs. cases_thread i t; auto.
      rewrite Ept in H1, H2. auto.
  - (* PGrp *)
    pose proof (proj1 Hwt eq_refl) as Hw'. rewrite Hw' in Hreg. rewrite Ept in Hreg.
    destruct Hreg as (d & Hd & Hreg).
    destruct todo as [|g todo]; injection Hs as <-.
    + constructor; cbn [m_trace m_threads m_writer m_readers m_reg]; auto.
      * rewrite lin_ops_app. apply legal_app. split; auto. cbn. auto.
      * intros i. cases_thread i t; cbn [t_pc in_writer]; [split; discriminate|]. rewrite Hw, Hw'. split; congruence.
      * intros i. cases_thread i t; auto.
      * intros i. cases_thread i t; auto.
      * rewrite lin_ops_app, run_ops_app. cbn. unfold register. rewrite Hd, List.app_nil_r. exact Hreg.
      * intros i. rewrite proj_app. destruct (Hth i) as (cs & H1 & H2). exists cs. cases_thread i t; cbn [t_pc t_todo].
        -- rewrite Ept in H1, H2. cbn in *. rewrite Nat.eqb_refl. rewrite H1, <- List.app_assoc. auto.
        -- cbn. rewrite (proj2 (Nat.eqb_neq t i)) by auto. rewrite List.app_nil_r. auto.
    + constructor; cbn [m_trace m_threads m_writer m_readers m_reg]; auto.
      * intros i. cases_thread i t; auto.
      * intros i. cases_thread i t; auto.
      * intros i. cases_thread i t; auto.
      * rewrite Hw'. rewrite upd_same. cbn [t_pc partial]. exists (d ++ [g])%list. split.
        -- now rewrite <- List.app_assoc.
        -- rewrite Hreg. cbn. now rewrite fold_left_app.
      * intros i. destruct (Hth i) as (cs & H1 & H2). exists cs. cases_thread i t; auto.
        rewrite Ept in H1, H2. auto.
  - (* PRead *)
    injection Hs as <-. cbn in Hpct. assert (Hno : is_reg o = false) by now destruct (is_reg o).
    assert (Hreg' : m_reg m = run_ops empty_registry (lin_ops (m_trace m))).
    { destruct (m_writer m) as [w|] eqn:Em; auto.
      pose proof (proj2 (Hw w) eq_refl) as Hww.
      destruct (t_pc (m_threads m w)) eqn:Epw; try discriminate; auto;
      pose proof (Hx w) as Hxw; rewrite Epw in Hxw; specialize (Hxw eq_refl);
      pose proof (proj1 Hrt eq_refl) as Hin; rewrite Hxw in Hin; destruct Hin. }
    assert (Hseq : forall R, fst (seq_op R o) = R) by (destruct o; auto; discriminate).
    constructor; cbn [m_trace m_threads m_writer m_readers m_reg]; auto.
    + rewrite lin_ops_app. apply legal_app. split; auto. cbn. rewrite Hreg'. auto.
    + intros i. cases_thread i t; auto.
    + intros i. cases_thread i t; auto.
    + intros i. cases_thread i t; [cbn; discriminate|eauto].
    + intros i. cases_thread i t; auto.
    + rewrite lin_ops_app, run_ops_app. cbn. rewrite Hseq. destruct (m_writer m) as [w|]; auto.
      cases_thread w t; auto; rewrite Ept in Hreg; exact Hreg.
    + intros i. rewrite proj_app. destruct (Hth i) as (cs & H1 & H2). exists cs. cases_thread i t; cbn [t_pc t_todo].
      * rewrite Ept in H1, H2. cbn in *. rewrite Nat.eqb_refl. rewrite H1, <- List.app_assoc. auto.
      * cbn. rewrite (proj2 (Nat.eqb_neq t i)) by auto. rewrite List.app_nil_r. auto.
  - (* PGot *)
    injection Hs as <-.
    constructor; cbn [m_trace m_threads m_writer m_readers m_reg]; auto.
    + intros i. cases_thread i t; auto.
    + intros i. rewrite in_remove_iff. cases_thread i t; cbn [t_pc in_reader]; [intuition discriminate|].
      rewrite Hr. tauto.
    + intros i. cases_thread i t; [discriminate|]. intros Ha. rewrite (Hx i Ha). reflexivity.
    + intros i. cases_thread i t; auto.
    + destruct (m_writer m) as [w|]; auto. destruct (Nat.eq_dec w t) as [->|]; [rewrite upd_same, Ept in *; exact Hreg|now rewrite upd_other].
    + intros i. destruct (Hth i) as (cs & H1 & H2). exists cs. cases_thread i t; auto.
      rewrite Ept in H1, H2. auto.
  - (* PRet *)
    injection Hs as <-.
    constructor; cbn [m_trace m_threads m_writer m_readers m_reg]; auto.
    + rewrite lin_ops_app. cbn. now rewrite List.app_nil_r.
    + intros i. cases_thread i t; auto.
    + intros i. cases_thread i t; auto.
    + intros i. cases_thread i t; [cbn; discriminate|eauto].
    + intros i. cases_thread i t; auto.
    + rewrite lin_ops_app. cbn. rewrite List.app_nil_r. destruct (m_writer m) as [w|]; auto.
      destruct (Nat.eq_dec w t) as [->|]; [rewrite upd_same, Ept in *; exact Hreg|now rewrite upd_other].
    + intros i. rewrite proj_app. destruct (Hth i) as (cs & H1 & H2). cases_thread i t; cbn [t_pc t_todo].
      * rewrite Ept in H1, H2. cbn in *. rewrite Nat.eqb_refl. exists (cs ++ [(o, r)])%list. split.
        -- rewrite completed_snoc, H1, <- List.app_assoc, List.app_nil_r. reflexivity.
        -- rewrite H2, map_app, <- List.app_assoc. reflexivity.
      * exists cs. cbn. rewrite (proj2 (Nat.eqb_neq t i)) by auto. rewrite List.app_nil_r. auto.
Qed.

Lemma inv_run progs sched : forall m, Inv progs m -> Inv progs (mrun m sched).
Proof.
  induction sched as [|t s IH]; intros m HI; cbn [mrun]; auto.
  apply IH. destruct (mstep m t) eqn:E; auto. eapply inv_step; eauto.
Qed.

Lemma inv_reachable progs sched : Inv progs (mrun (minit progs) sched).
Proof. apply inv_run, inv_init. Qed.

Lemma linearizable progs sched :
  let tr := m_trace (mrun (minit progs) sched) in
  legal empty_registry (lin_ops tr) /\
  forall t, exists cs pending rest,
    proj t tr = (completed t cs ++ pending)%list /\
    (pending = [] \/ (exists o, pending = [EInv t o] /\ progs t = (map fst cs ++ o :: rest)%list) \/
     (exists o r, pending = [EInv t o; ELin t o r] /\ progs t = (map fst cs ++ o :: rest)%list)) /\
    (pending = [] -> progs t = (map fst cs ++ rest)%list).
Proof.
  cbv zeta. pose proof (inv_reachable progs sched) as HI. split; [apply HI|].
  intros t. destruct (inv_thread _ _ HI t) as (cs & H1 & H2).
  exists cs, (cur_events t (t_pc (m_threads (mrun (minit progs) sched) t))),
    (t_todo (m_threads (mrun (minit progs) sched) t)).
  split; auto.
  destruct (t_pc (m_threads (mrun (minit progs) sched) t)); cbn in *; split; eauto 10; try discriminate.
Qed.

Lemma run_ops_registers l : forall h, run_ops (registry_of h) l = registry_of (h ++ registers l).
Proof.
  induction l as [|[o x] l IH]; intros h; cbn [run_ops registers flat_map]; [now rewrite List.app_nil_r|].
  destruct o; cbn [seq_op fst app]; try apply IH.
  change (register (registry_of h) ns groups) with (register (registry_of h) (fst (ns, groups)) (snd (ns, groups))). rewrite <- registry_of_snoc, IH. now rewrite <- List.app_assoc.
Qed.

Lemma legal_lookup l pre o x post : legal empty_registry l -> l = (pre ++ (o, x) :: post)%list ->
  x = snd (seq_op (registry_of (registers pre)) o).
Proof.
  intros H ->. apply legal_app in H as [_ H]. cbn in H. destruct H as [H _].
  rewrite <- H. change empty_registry with (registry_of []). now rewrite run_ops_registers.
Qed.

Lemma in_proj t e tr : In e (proj t tr) <-> In e tr /\ ev_thread e = t.
Proof. unfold proj. rewrite filter_In, Nat.eqb_eq. tauto. Qed.

Lemma ret_position t cs : forall pending l1 o r l2,
  (pending = [] \/ (exists o, pending = [EInv t o]) \/ (exists o r, pending = [EInv t o; ELin t o r])) ->
  (completed t cs ++ pending)%list = (l1 ++ ERet t o r :: l2)%list ->
  In (ELin t o r) l1.
Proof.
  induction cs as [|[o1 r1] cs IH]; intros pending l1 o r l2 Hp E; cbn in E.
  - exfalso. assert (Hin : In (ERet t o r) pending) by (rewrite E; apply in_elt).
    destruct Hp as [->|[(o' & ->)|(o' & r' & ->)]]; cbn in Hin; intuition discriminate.
  - destruct l1 as [|a [|b [|c l1]]]; injection E; try discriminate.
    + intros E3 Eo Er Hb Ha. subst. cbn. auto.
    + intros E3 Hc Hb Ha. subst. do 3 right. eapply IH; eauto.
Qed.

Lemma lin_position t cs : forall pending l1 o r l2,
  (pending = [] \/ (exists o, pending = [EInv t o]) \/ (exists o r, pending = [EInv t o; ELin t o r])) ->
  (completed t cs ++ pending)%list = (l1 ++ ELin t o r :: l2)%list ->
  In (EInv t o) l1.
Proof.
  induction cs as [|[o1 r1] cs IH]; intros pending l1 o r l2 Hp E; cbn in E.
  - destruct Hp as [->|[(o' & ->)|(o' & r' & ->)]].
    + now destruct l1.
    + destruct l1 as [|a [|? ?]]; discriminate.
    + destruct l1 as [|a [|b l1]]; injection E; try discriminate.
      * intros; subst; cbn; auto.
      * intros E3; now destruct l1.
  - destruct l1 as [|a [|b [|c l1]]]; injection E; try discriminate.
    + intros; subst; cbn; auto.
    + intros E3 Hc Hb Ha. subst. do 3 right. eapply IH; eauto.
Qed.

Lemma effect_before_return progs sched t o r pre post :
  m_trace (mrun (minit progs) sched) = (pre ++ ERet t o r :: post)%list -> In (ELin t o r) pre.
Proof.
  intros E. destruct (linearizable progs sched) as [_ H]. destruct (H t) as (cs & pending & rest & Hp & Hc & _).
  rewrite E, proj_app in Hp. cbn in Hp. rewrite Nat.eqb_refl in Hp. symmetry in Hp.
  eapply ret_position in Hp.
  - now apply in_proj in Hp.
  - destruct Hc as [Hc|[(o' & Hc & _)|(o' & r' & Hc & _)]]; eauto.
Qed.

Lemma call_before_effect progs sched t o r pre post :
  m_trace (mrun (minit progs) sched) = (pre ++ ELin t o r :: post)%list -> In (EInv t o) pre.
Proof.
  intros E. destruct (linearizable progs sched) as [_ H]. destruct (H t) as (cs & pending & rest & Hp & Hc & _).
  rewrite E, proj_app in Hp. cbn in Hp. rewrite Nat.eqb_refl in Hp. symmetry in Hp.
  eapply lin_position in Hp.
  - now apply in_proj in Hp.
  - destruct Hc as [Hc|[(o' & Hc & _)|(o' & r' & Hc & _)]]; eauto.
Qed.

Lemma registers_app a b : registers (a ++ b) = (registers a ++ registers b)%list.
Proof. unfold registers. apply flat_map_app. Qed.

Lemma lookup_result progs sched t o r pre post :
  m_trace (mrun (minit progs) sched) = (pre ++ ERet t o r :: post)%list ->
  exists before after,
    lin_ops pre = (before ++ (o, r) :: after)%list /\
    r = snd (seq_op (registry_of (registers before)) o).
Proof.
  intros E. pose proof (effect_before_return _ _ _ _ _ _ _ E) as Hin.
  apply in_split in Hin as (a & b & ->).
  exists (lin_ops a), (lin_ops b). split.
  - rewrite lin_ops_app. reflexivity.
  - destruct (linearizable progs sched) as [Hl _]. rewrite E in Hl. rewrite !lin_ops_app in Hl. cbn [lin_ops flat_map app] in Hl.
    eapply legal_lookup; [exact Hl|]. rewrite <- List.app_assoc. reflexivity.
Qed.

(* registrations that returned before a call are visible to it *)
Lemma returned_are_registered progs sched t ns gs pre post :
  m_trace (mrun (minit progs) sched) = (pre ++ ERet t (OReg ns gs) RUnit :: post)%list ->
  In (ns, gs) (registers (lin_ops pre)).
Proof.
  intros E. apply effect_before_return in E. apply in_split in E as (a & b & ->).
  rewrite lin_ops_app, registers_app. apply in_app_iff. right. cbn. now left.
Qed.

Lemma progress progs sched t :
  let m := mrun (minit progs) sched in
  (t_pc (m_threads m t) <> PIdle \/ t_todo (m_threads m t) <> []) ->
  exists u m', mstep m u = Some m'.
Proof.
  cbv zeta. pose proof (inv_reachable progs sched) as HI. set (m := mrun (minit progs) sched) in *. clearbody m.
  intros Hbusy.
  assert (Hreader : forall u, in_reader (t_pc (m_threads m u)) = true -> exists m', mstep m u = Some m').
  { intros u Hu. unfold mstep. destruct (t_pc (m_threads m u)); try discriminate; eauto. }
  assert (Hwriter : forall u, in_writer (t_pc (m_threads m u)) = true -> exists v m', mstep m v = Some m').
  { intros u Hu. destruct (t_pc (m_threads m u)) as [|o|ns gs|ns gs|ns gs|ns gs todo|o|o r|o r] eqn:E; try discriminate.
    - destruct (m_readers m) as [|v rs] eqn:Er.
      + exists u. unfold mstep. rewrite E, Er. eauto.
      + exists v. apply Hreader. apply (inv_reader _ _ HI). rewrite Er. now left.
    - exists u. unfold mstep. rewrite E. eauto.
    - exists u. unfold mstep. rewrite E. eauto.
    - exists u. unfold mstep. rewrite E. destruct todo; eauto. }
  destruct (m_writer m) as [w|] eqn:Ew; [apply (Hwriter w); now apply (inv_writer _ _ HI)|].
  exists t. unfold mstep. rewrite Ew.
  destruct (t_pc (m_threads m t)) as [|o|ns gs|ns gs|ns gs|ns gs todo|o|o r|o r] eqn:E; eauto.
  - destruct (t_todo (m_threads m t)); eauto. destruct Hbusy; congruence.
  - destruct o; eauto.
  - exfalso. assert (m_writer m = Some t) by (apply (inv_writer _ _ HI); rewrite E; reflexivity). congruence.
  - destruct todo; eauto.
Qed.

(* while no writer is announced, readers are never blocked *)
Lemma readers_do_not_block m t o : m_writer m = None -> t_pc (m_threads m t) = PWant o -> is_reg o = false ->
  exists m', mstep m t = Some m' /\ t_pc (m_threads m' t) = PRead o.
Proof.
  intros Hw Hp Ho. unfold mstep. rewrite Hp, Hw. destruct o; try discriminate;
  eexists; split; try reflexivity; cbn; now rewrite upd_same.
Qed.
