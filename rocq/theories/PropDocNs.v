(* C144: the namespaces of a document *)
From Coq Require Import List Arith ZArith Bool Ascii String Lia.
From Verif Require Import GoStr GoStrFacts GoMap Names RegistryM RegistryFacts NodeM DocM SpecBasic SpecDoc NodeFacts DocFacts DocPathFacts DocNsM.
Import ListNotations.
Local Open Scope string_scope.

Section DocNs.
Context {M : Type}.
Variable ops : model_ops M.

(* ---- specification ---- *)
(* a model of the document has the namespace *)
Definition has_ns (d : doc M) (ns : namespace) : Prop :=
  exists n m, In n (d_nodes d) /\ n_model n = Some m /\ In ns (mo_namespaces ops m).
Definition no_removal (o : ns_op (M := M)) : Prop := match o with ORemove _ => False | _ => True end.

(* ---- facts ---- *)
Definition filed (m : gomap namespace) : Prop := NoDup (map fst m) /\ forall k v, In (k, v) m -> k = ns_uri v.
Lemma map_set_in {V} (m : gomap V) k v e : In e (map_set m k v) -> e = (k, v) \/ In e m.
Proof.
  induction m as [|[k' v'] m IH]; cbn; [intros [<-|[]]; auto|]. destruct (k' =? k); cbn.
  - intros [<-|H]; auto.
  - intros [<-|H]; auto. destruct (IH H); auto.
Qed.
Lemma filed_add l : forall m, filed m -> filed (add_int m l).
Proof.
  induction l as [|v l IH]; intros m F; [exact F|]. apply (IH (map_set m (ns_uri v) v)). destruct F as [F1 F2]. split.
  - now apply map_set_keys.
  - intros k w H. apply map_set_in in H. destruct H as [E|H]; [now inversion E|eauto].
Qed.
Lemma filed_del m k : filed m -> filed (map_del m k).
Proof.
  intros [F1 F2]. split.
  - unfold map_del. clear F2. induction m as [|[k' v] m IH]; [constructor|]. cbn in *. inversion F1; subst.
    destruct (k' =? k); cbn; auto. constructor; auto. intros H. apply H1. apply in_map_iff in H. destruct H as (e & E & H).
    apply in_map_iff. exists e. split; auto. apply filter_In in H. tauto.
  - intros k' v H. unfold map_del in H. apply filter_In in H. destruct H. eauto.
Qed.
Lemma filed_get m v : filed m -> In v (map snd m) <-> map_get m (ns_uri v) = Some v.
Proof.
  intros [F1 F2]. split.
  - intros H. apply in_map_iff in H. destruct H as ([k w] & E & H). cbn in E. subst w. pose proof (F2 _ _ H) as ->.
    clear F2. induction m as [|[k' v'] m IH]; [easy|]. cbn in *. inversion F1; subst. destruct H as [H|H].
    + injection H as -> ->. now rewrite String.eqb_refl.
    + destruct (k' =? ns_uri v) eqn:E; [|auto]. apply String.eqb_eq in E. subst k'. exfalso. apply H2. apply in_map_iff. exists (ns_uri v, v). auto.
  - clear. induction m as [|[k' v'] m IH]; cbn; [discriminate|]. destruct (k' =? ns_uri v); [intros H; injection H as ->; auto|auto].
Qed.
Lemma filed_uris m : filed m -> map fst m = map ns_uri (map snd m).
Proof.
  intros [_ F]. rewrite map_map. induction m as [|[k v] m IH]; cbn; auto. rewrite (F k v) at 1 by now left. f_equal. apply IH.
  intros k' v' H. apply F. now right.
Qed.

Lemma step_maps d o : d_ext d = [] -> filed (d_int d) ->
  d_ext (ns_step ops d o) = [] /\ filed (d_int (ns_step ops d o)).
Proof.
  intros E F. destruct o as [ns|m|ns]; cbn [ns_step].
  - unfold make_model. destruct (doc_find_model ops d ns); [auto|]. destruct (new_model ops ns); [|auto].
    cbn. split; auto. now apply filed_add.
  - unfold add_model. destruct (mo_namespaces ops m) as [|ns0 rest]; [auto|]. set (d1 := with_maps _ _ _).
    destruct (doc_find_node ops d1 ns0) as [i|]; [destruct (nth_error (d_nodes d1) i)|]; cbn; split; auto; now apply (filed_add (ns0 :: rest)).
  - unfold remove_namespace, remove_namespace_i. destruct (find_index _ _); cbn; [|auto]. rewrite E. split; auto. now apply filed_del.
Qed.
Lemma run_maps h : forall d, d_ext d = [] -> filed (d_int d) -> d_ext (ns_run ops d h) = [] /\ filed (d_int (ns_run ops d h)).
Proof. induction h as [|o h IH]; intros d E F; [auto|]. cbn. destruct (step_maps d o E F). now apply IH. Qed.
Lemma filed_nil : filed []. Proof. split; [constructor|now intros k v []]. Qed.

(* every model of the document is on record *)
Definition recorded (d : doc M) : Prop :=
  forall n m ns, In n (d_nodes d) -> n_model n = Some m -> In ns (mo_namespaces ops m) -> map_get (d_int d) (ns_uri ns) <> None.
Lemma find_some_in {A} (t : A -> bool) l x : In x l -> t x = true -> find t l <> None.
Proof. intros H T E. pose proof (find_none _ _ E _ H). congruence. Qed.
Lemma added_get (l : list namespace) (g : option namespace) u : (exists ns, In ns l /\ ns_uri ns = u) \/ g <> None ->
  match find (fun v => ns_uri v =? u) (rev l) with Some v => Some v | None => g end <> None.
Proof.
  intros H. destruct (find _ (rev l)) eqn:E; [discriminate|]. destruct H as [(ns & H & <-)|H]; auto.
  exfalso. refine (find_some_in _ _ ns _ _ E); [now apply in_rev in H|apply String.eqb_refl].
Qed.
Lemma step_recorded d o : no_removal o -> recorded d -> recorded (ns_step ops d o).
Proof.
  intros N R. destruct o as [ns|m|ns]; cbn [ns_step] in *; [| |destruct N].
  - destruct (make_model ops d ns) as [d' r] eqn:E. cbn.
    destruct (make_model_spec _ _ _ _ _ E) as [(i & n & _ & -> & _)|[_ [(m & Em & _ & Hn & _ & _ & _ & _ & G)|(_ & -> & _)]]]; auto.
    intros n' m' ns' H1 H2 H3. rewrite G. apply added_get. rewrite Hn in H1. apply in_app_iff in H1. destruct H1 as [H1|[<-|[]]].
    + right. eapply R; eauto.
    + left. cbn in H2. injection H2 as <-. eauto.
  - destruct (add_model ops d m) as [d' r] eqn:E. cbn.
    destruct (add_model_spec _ _ _ _ _ E) as [(_ & -> & _)|(ns0 & rest & i & Em & _ & _ & _ & _ & _ & G & H)]; auto.
    intros n' m' ns' H1 H2 H3. rewrite G. apply added_get.
    assert (C : In n' (d_nodes d) \/ m' = m).
    { destruct H as [(n & _ & pre & post & _ & E1 & E2)|(_ & _ & E2)]; rewrite E2 in H1; apply in_app_iff in H1.
      - rewrite E1. destruct H1 as [H1|[<-|H1]]; [left; apply in_app_iff; auto|right; cbn in H2; congruence|left; apply in_app_iff; cbn; auto].
      - destruct H1 as [H1|[<-|[]]]; [auto|right; cbn in H2; congruence]. }
    destruct C as [C| ->]; [right; eapply R; eauto|left; eauto].
Qed.

(* ---- one namespace per model ---- *)
Definition serves_only (m : M) (ns : namespace) : Prop :=
  mo_namespaces ops m = [ns] /\ forall s, mo_can ops m s = (s =? ns_name ns).
(* the namespaces in use have names without colon, and neither name nor URI in common *)
Definition coherent (L : namespace -> Prop) : Prop :=
  (forall a, L a -> no_char ":" (ns_name a)) /\
  forall a b, L a -> L b -> ns_name a = ns_name b \/ ns_uri a = ns_uri b -> a = b.
(* the models have one namespace each, of those in use *)
Definition simple (L : namespace -> Prop) (o : ns_op (M := M)) : Prop :=
  match o with
  | OMake ns => L ns /\ forall m, new_model ops ns = Some m -> serves_only m ns
  | OAdd m => exists ns, L ns /\ serves_only m ns
  | ORemove ns => L ns
  end.

Definition node_of (n : node M) (ns : namespace) : Prop :=
  node_local n = ns_name ns /\ exists m, n_model n = Some m /\ serves_only m ns.
Definition tidy (L : namespace -> Prop) (d : doc M) (nss : list namespace) : Prop :=
  Forall2 node_of (d_nodes d) nss /\ NoDup nss /\ Forall L nss /\
  forall u v, map_get (d_int d) u = Some v <-> In v nss /\ ns_uri v = u.

Lemma node_of_home n ns pre : node_of n ns -> home ops pre n -> pre = ns_name ns.
Proof.
  intros (A & m & B & _ & C) [H|(m' & H & H')]; [congruence|]. assert (m' = m) by congruence. subst m'.
  rewrite C in H'. now apply String.eqb_eq.
Qed.
Lemma Forall2_In_r {A B} (R : A -> B -> Prop) l l' b : Forall2 R l l' -> In b l' -> exists a, In a l /\ R a b.
Proof. induction 1; [easy|]. intros [<-|H1]; [eauto using in_eq|]. destruct (IHForall2 H1) as (a & ? & ?). eauto using in_cons. Qed.
Lemma Forall2_In_l {A B} (R : A -> B -> Prop) l l' a : Forall2 R l l' -> In a l -> exists b, In b l' /\ R a b.
Proof. induction 1; [easy|]. intros [<-|H1]; [eauto using in_eq|]. destruct (IHForall2 H1) as (b & ? & ?). eauto using in_cons. Qed.
Lemma new_node_of ns m : no_char ":" (ns_name ns) -> serves_only m ns -> node_of (Node (XName "" (ns_name ns)) [] (Some m) "" []) ns.
Proof. intros C S. split; [now apply strip_prefix_none|]. cbn. eauto. Qed.
Lemma NoDup_snoc {A} (l : list A) x : NoDup l -> ~ In x l -> NoDup (l ++ [x])%list.
Proof. intros H1 H2. apply NoDup_rev in H1. rewrite <- (rev_involutive (l ++ [x])%list). apply NoDup_rev. rewrite rev_app_distr. constructor; auto. now rewrite <- in_rev. Qed.

(* a namespace is put on record *)
Lemma record_new L nss ns (g g' : string -> option namespace) : coherent L -> Forall L nss -> L ns ->
  (forall u v, g u = Some v <-> In v nss /\ ns_uri v = u) ->
  (forall u, g' u = match find (fun v => ns_uri v =? u) (rev [ns]) with Some v => Some v | None => g u end) ->
  forall u v, g' u = Some v <-> (v = ns \/ In v nss) /\ ns_uri v = u.
Proof.
  intros [_ C] F Hl G G' u v. rewrite G'. cbn. destruct (ns_uri ns =? u) eqn:E.
  - apply String.eqb_eq in E. split; [intros H; injection H as <-; auto|]. intros ([->|H] & H'); auto.
    f_equal. apply C; auto; [|right; congruence]. rewrite Forall_forall in F. auto.
  - apply String.eqb_neq in E. rewrite G. split; [tauto|]. intros ([->|H] & H'); [congruence|auto].
Qed.

Lemma step_tidy L d o nss : coherent L -> simple L o -> tidy L d nss -> exists nss', tidy L (ns_step ops d o) nss'.
Proof.
  intros C S (T1 & T2 & T3 & T4). pose proof T3 as T3'. rewrite Forall_forall in T3'. destruct o as [ns|m|ns]; cbn [ns_step simple] in *.
  - destruct S as [Hl S]. destruct (make_model ops d ns) as [d' r] eqn:E. cbn.
    destruct (make_model_spec _ _ _ _ _ E) as [(i & n & _ & -> & _)|[Hno [(m & Em & _ & Hn & _ & _ & _ & _ & G)|(_ & -> & _)]]];
      [exists nss; exact (conj T1 (conj T2 (conj T3 T4)))| |exists nss; exact (conj T1 (conj T2 (conj T3 T4)))].
    specialize (S m Em). exists (nss ++ [ns])%list. split; [|split; [|split]].
    + rewrite Hn. apply Forall2_app; auto. constructor; auto. apply new_node_of; auto. now apply (proj1 C).
    + apply NoDup_snoc; auto. intros I. destruct (Forall2_In_r _ _ _ _ T1 I) as (n & I' & _ & m' & B & _ & D).
      apply (Hno n I'). exists m'. split; auto. rewrite D. apply String.eqb_refl.
    + apply Forall_app. auto.
    + intros u v. rewrite (proj1 S) in G. rewrite (record_new L nss ns _ _ C T3 Hl T4 G u v). rewrite in_app_iff. cbn. intuition auto.
  - destruct S as (ns & Hl & S). destruct (add_model ops d m) as [d' r] eqn:E. cbn.
    destruct (add_model_spec _ _ _ _ _ E) as [(_ & -> & _)|(ns0 & rest & i & Em & _ & _ & _ & _ & _ & G & H)];
      [exists nss; exact (conj T1 (conj T2 (conj T3 T4)))|].
    rewrite (proj1 S) in Em. injection Em as <- <-. rewrite (proj1 S) in G.
    destruct H as [(n & (_ & Hh & _) & pre & post & _ & E1 & E2)|(Hno & _ & E2)].
    + rewrite E1 in T1. apply Forall2_app_inv_l in T1. destruct T1 as (n1 & n2' & A1 & A2 & ->).
      inversion A2 as [|x y l l' A3 A4]; subst. rename y into ns'. rename l' into n2.
      assert (ns' = ns). { apply (proj2 C); auto; [apply T3', in_app_iff; cbn; auto|]. left. symmetry. now apply (node_of_home n). }
      subst ns'. exists (n1 ++ ns :: n2)%list. split; [|split; [|split]]; auto.
      * rewrite E2. apply Forall2_app; auto. constructor; auto. split; [|exists m; auto]. exact (proj1 A3).
      * intros u v. rewrite (record_new L _ ns _ _ C T3 Hl T4 G u v). split; [|intuition auto]. intros ([->|H] & H'); split; auto.
        apply in_app_iff. cbn. auto.
    + exists (nss ++ [ns])%list. split; [|split; [|split]].
      * rewrite E2. apply Forall2_app; auto. constructor; auto. apply new_node_of; auto. now apply (proj1 C).
      * apply NoDup_snoc; auto. intros I. destruct (Forall2_In_r _ _ _ _ T1 I) as (n & I' & B & _). apply (Hno n I'). now left.
      * apply Forall_app. auto.
      * intros u v. rewrite (record_new L nss ns _ _ C T3 Hl T4 G u v). rewrite in_app_iff. cbn. intuition auto.
  - destruct (remove_namespace_spec d ns) as [(i & n & pre & post & d' & (_ & Hn & _) & E1 & _ & _ & -> & E2 & _ & _ & _ & G & _)|(_ & -> & _)];
      [|exists nss; exact (conj T1 (conj T2 (conj T3 T4)))].
    cbn [fst]. rewrite E1 in T1. apply Forall2_app_inv_l in T1. destruct T1 as (n1 & n2' & A1 & A2 & ->).
    inversion A2 as [|x y l l' A3 A4]; subst. rename y into ns'. rename l' into n2.
    assert (ns' = ns). { apply (proj2 C); auto; [apply T3', in_app_iff; cbn; auto|]. left. destruct A3 as [A3 _]. congruence. }
    subst ns'. exists (n1 ++ n2)%list. split; [rewrite E2; now apply Forall2_app|]. split; [now apply NoDup_remove_1 in T2|].
    split; [rewrite Forall_app in *; destruct T3 as [X Y]; inversion Y; auto|].
    intros u v. rewrite G. apply NoDup_remove_2 in T2. destruct (u =? ns_uri ns) eqn:U.
    + apply String.eqb_eq in U. split; [discriminate|]. intros [I Hu]. exfalso. apply T2.
      assert (v = ns) as <-; auto. apply (proj2 C); auto; [|right; congruence]. apply T3'. apply in_app_iff in I. apply in_app_iff. cbn. tauto.
    + apply String.eqb_neq in U. rewrite T4. rewrite !in_app_iff. cbn. split; [|tauto]. intros ([I|[->|I]] & H); try tauto. congruence.
Qed.
Lemma run_tidy L h : coherent L -> Forall (simple L) h -> forall d nss, tidy L d nss -> exists nss', tidy L (ns_run ops d h) nss'.
Proof.
  intros C. induction 1 as [|o h S _ IH]; intros d nss T; [eauto|]. destruct (step_tidy L d o nss C S T) as (nss' & T'). now apply (IH _ nss').
Qed.
End DocNs.

(* ---- C144 ---- *)
(* no namespace is listed twice *)
Theorem C144_once : forall M (ops : model_ops M) toolkit h, NoDup (map ns_uri (doc_namespaces (ns_run ops (new_document toolkit) h))).
Proof.
  intros M ops t h. destruct (run_maps ops h (new_document t) eq_refl filed_nil) as [E F].
  unfold doc_namespaces. rewrite E. cbn [map]. rewrite List.app_nil_r, <- filed_uris by auto. apply F.
Qed.
Print Assumptions C144_once.

(* as long as nothing is removed, the namespaces of all models are listed (by their URI) *)
Theorem C144_listed_partial : forall M (ops : model_ops M) toolkit h ns, Forall no_removal h ->
  has_ns ops (ns_run ops (new_document toolkit) h) ns ->
  In (ns_uri ns) (map ns_uri (doc_namespaces (ns_run ops (new_document toolkit) h))).
Proof.
  intros M ops t h ns N (n & m & H1 & H2 & H3).
  destruct (run_maps ops h (new_document t) eq_refl filed_nil) as [E F].
  assert (R : recorded ops (ns_run ops (new_document t) h)).
  { clear - N. assert (R : recorded ops (new_document t)) by now intros n m ns [].
    revert R. generalize (new_document (M := M) t). induction N as [|o h N _ IH]; intros d R; auto. cbn. apply IH. now apply step_recorded. }
  specialize (R n m ns H1 H2 H3). destruct (map_get _ (ns_uri ns)) as [v|] eqn:G; [|congruence].
  unfold doc_namespaces. rewrite map_app, <- filed_uris by auto. apply in_app_iff. left.
  clear - G. revert G. generalize (d_int (ns_run ops (new_document t) h)). intros g. induction g as [|[k w] g IH]; cbn; [discriminate|].
  destruct (k =? ns_uri ns) eqn:K; auto. apply String.eqb_eq in K. auto.
Qed.
Print Assumptions C144_listed_partial.

(* with one namespace per model, exactly the namespaces of the models are listed, after removals too *)
Theorem C144_exact_partial : forall M (ops : model_ops M) toolkit (L : namespace -> Prop) h, coherent L -> Forall (simple ops L) h ->
  forall ns, In ns (doc_namespaces (ns_run ops (new_document toolkit) h)) <-> has_ns ops (ns_run ops (new_document toolkit) h) ns.
Proof.
  intros M ops t L h C S ns. destruct (run_maps ops h (new_document t) eq_refl filed_nil) as [E F].
  destruct (run_tidy ops L h C S (new_document t) []) as (nss & T1 & T2 & T3 & T4).
  { split; [constructor|split; [constructor|split; [constructor|]]]. intros u v. split; [discriminate|now intros [[] _]]. }
  unfold doc_namespaces. rewrite E, List.app_nil_r, filed_get, T4 by auto. split.
  - intros [I _]. destruct (Forall2_In_r _ _ _ _ T1 I) as (n & In' & _ & m & B & D & _). exists n, m. rewrite D. cbn. auto.
  - intros (n & m & I & B & D). split; auto. destruct (Forall2_In_l _ _ _ _ T1 I) as (ns' & I' & _ & m' & B' & D' & _).
    assert (m' = m) by congruence. subst m'. rewrite D' in D. destruct D as [<-|[]]. auto.
Qed.
Print Assumptions C144_exact_partial.

(* Models that are lists of namespaces *)
Definition multi_ops : model_ops (list namespace) := {|
  mo_can := fun m s => existsb (fun ns => ns_name ns =? s) m;
  mo_namespaces := fun m => m;
  mo_new := fun k s => Some [Namespace s ("uri:" ++ s) (Some k)];
  mo_get := fun _ _ => Err errNotFound;
  mo_set := fun m _ _ _ => (m, Err errNotFound);
  mo_list := fun _ => Ok [];
  mo_sync_to := fun _ _ d => (d, Ok tt)
|}.
Definition an_ns (s : string) : namespace := Namespace s ("uri:" ++ s) (Some 0).
(* a model with two namespaces is removed: one of them stays in the list, in a document without nodes *)
Theorem C144_left_over_refuted : exists a b : namespace,
  let d := ns_run multi_ops (new_document "") [OAdd [a; b]; ORemove a] in
  d_nodes d = [] /\ doc_namespaces d = [b].
Proof. exists (an_ns "exif"), (an_ns "exifEX"). split; vm_compute; reflexivity. Qed.
Print Assumptions C144_left_over_refuted.
(* two models have a namespace in common: it is missing when one of them was removed *)
Theorem C144_lost_refuted : exists a b : namespace,
  let d := ns_run multi_ops (new_document "") [OAdd [b]; OAdd [a; b]; ORemove b] in
  has_ns multi_ops d b /\ ~ In b (doc_namespaces d).
Proof.
  exists (an_ns "exif"), (an_ns "exifEX"). split.
  - eexists. exists [an_ns "exif"; an_ns "exifEX"]. split; [vm_compute; left; reflexivity|]. split; [vm_compute; reflexivity|vm_compute; auto].
  - vm_compute. intros [H|[]]. discriminate.
Qed.
Print Assumptions C144_lost_refuted.

Example C144_hyps :
  let h := [OMake (an_ns "dc"); OAdd [an_ns "pdf"]; OMake (an_ns "tiff"); OMake (an_ns "dc"); ORemove (an_ns "dc"); OAdd [an_ns "pdf"]] in
  let L := fun ns => In ns [an_ns "dc"; an_ns "pdf"; an_ns "tiff"] in
  coherent L /\
  doc_namespaces (ns_run multi_ops (new_document "") h) = [an_ns "pdf"; an_ns "tiff"] /\
  Forall (simple multi_ops L) h.
Proof.
  assert (S : forall s t, existsb (fun ns => ns_name ns =? s) [an_ns t] = (s =? t)).
  { intros s t. cbn. rewrite orb_false_r. apply String.eqb_sym. }
  split; [|split].
  - split.
    + intros a [<-|[<-|[<-|[]]]]; vm_compute; intuition discriminate.
    + intros a b [<-|[<-|[<-|[]]]] [<-|[<-|[<-|[]]]] [H|H]; try reflexivity; vm_compute in H; discriminate H.
  - vm_compute. reflexivity.
  - assert (Mk : forall s, In (an_ns s) [an_ns "dc"; an_ns "pdf"; an_ns "tiff"] ->
      simple multi_ops (fun ns => In ns [an_ns "dc"; an_ns "pdf"; an_ns "tiff"]) (OMake (an_ns s))).
    { intros s H. split; [exact H|]. intros m E. injection E as <-. split; [reflexivity|intros t; apply (S t)]. }
    assert (Ad : simple multi_ops (fun ns => In ns [an_ns "dc"; an_ns "pdf"; an_ns "tiff"]) (OAdd [an_ns "pdf"])).
    { exists (an_ns "pdf"). split; [cbn; tauto|]. split; [reflexivity|intros t; apply (S t)]. }
    apply Forall_forall. intros o [<-|[<-|[<-|[<-|[<-|[<-|[]]]]]]]; [apply Mk|exact Ad|apply Mk|apply Mk| |exact Ad]; cbn; tauto.
Qed.
