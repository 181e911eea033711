From Coq Require Import List Arith ZArith Bool Ascii String Lia.
From Verif Require Import GoStr GoStrFacts GoMap Names PathM SyncFlags PVList RegistryM RegistryFacts NodeM FilterM DocM Spec SpecBasic SpecNode NodeFacts SpecDoc DocFacts.
Import ListNotations.
Local Open Scope string_scope.

Section F.
Context {M : Type}.
Variable ops : model_ops M.
Implicit Types (d : doc M) (n : node M).

Lemma find_model_first d ns i n : first_at (serves ops (ns_name ns)) (d_nodes d) i n -> doc_find_model ops d ns = Some i.
Proof. apply find_index_first. intros; apply model_can_iff. Qed.
Lemma find_node_first d ns i n : first_at (home ops (ns_name ns)) (d_nodes d) i n -> doc_find_node ops d ns = Some i.
Proof. apply find_index_first. intros; apply matches_iff. Qed.
Lemma find_model_inv d ns i : doc_find_model ops d ns = Some i -> exists n, first_at (serves ops (ns_name ns)) (d_nodes d) i n.
Proof.
  intros H. destruct (find_index_some _ _ _ H) as [n (H1 & H2 & H3)]. exists n. split; auto.
  split; [now apply model_can_iff|]. intros j y Hj Hy Hs. apply (H3 j y Hj Hy). now apply model_can_iff.
Qed.
Lemma find_node_inv d ns i : doc_find_node ops d ns = Some i -> exists n, first_at (home ops (ns_name ns)) (d_nodes d) i n.
Proof.
  intros H. destruct (find_index_some _ _ _ H) as [n (H1 & H2 & H3)]. exists n. split; auto.
  split; [now apply matches_iff|]. intros j y Hj Hy Hs. apply (H3 j y Hj Hy). now apply matches_iff.
Qed.
Lemma find_model_none d ns : doc_find_model ops d ns = None <-> forall n, In n (d_nodes d) -> ~ serves ops (ns_name ns) n.
Proof.
  unfold doc_find_model. rewrite find_index_none. split; intros H n Hn.
  - rewrite <- model_can_iff. rewrite H by auto. discriminate.
  - apply not_true_is_false. rewrite model_can_iff. auto.
Qed.
Lemma find_node_none d ns : doc_find_node ops d ns = None <-> forall n, In n (d_nodes d) -> ~ home ops (ns_name ns) n.
Proof.
  unfold doc_find_node. rewrite find_index_none. split; intros H n Hn.
  - rewrite <- matches_iff. rewrite H by auto. discriminate.
  - apply not_true_is_false. rewrite matches_iff. auto.
Qed.

(* ---- C25 ---- *)
Lemma find_app_ {A} (t : A -> bool) a b : find t (a ++ b) = match find t a with Some x => Some x | None => find t b end.
Proof. induction a as [|x a IH]; cbn; auto. destruct (t x); auto. Qed.

Lemma add_int_get l : forall m u,
  map_get (add_int m l) u = match find (fun v => ns_uri v =? u) (rev l) with Some v => Some v | None => map_get m u end.
Proof.
  induction l as [|v l IH]; intros m u; cbn; auto. unfold add_int in IH. rewrite IH. rewrite find_app_.
  destruct (find _ (rev l)) eqn:E; auto. cbn. rewrite map_get_set. destruct (ns_uri v =? u); auto.
Qed.

Lemma make_model_spec d ns d' r : make_model ops d ns = (d', r) ->
  (exists i n, r = Ok i /\ d' = d /\ first_at (serves ops (ns_name ns)) (d_nodes d) i n) \/
  ((forall n, In n (d_nodes d) -> ~ serves ops (ns_name ns) n) /\
   ((exists m, new_model ops ns = Some m /\ r = Ok (List.length (d_nodes d)) /\
      d_nodes d' = (d_nodes d ++ [Node (XName "" (ns_name ns)) [] (Some m) "" []])%list /\ d_dirty d' = true /\
      d_toolkit d' = d_toolkit d /\ d_about d' = d_about d /\ d_ext d' = d_ext d /\
      (forall u, map_get (d_int d') u =
         match find (fun v => ns_uri v =? u) (rev (mo_namespaces ops m)) with Some v => Some v | None => map_get (d_int d) u end)) \/
    (new_model ops ns = None /\ d' = d /\ exists e, r = Err e))).
Proof.
  unfold make_model. destruct (doc_find_model ops d ns) as [i|] eqn:E.
  - intros H; inversion H; subst. left. destruct (find_model_inv _ _ _ E) as [n Hn]. eauto.
  - intros H. right. split; [now apply find_model_none|]. destruct (new_model ops ns) as [m|] eqn:Em.
    + left. exists m. inversion H; subst; clear H. cbn [d_nodes d_dirty d_toolkit d_about d_ext d_int set_dirty with_dirty with_maps with_nodes].
      split; auto. split; [rewrite app_length; cbn; do 2 f_equal; lia|]. repeat (split; [reflexivity|]). intros u. apply add_int_get.
    + right. inversion H; subst. eauto.
Qed.

Lemma nth_error_snoc {A} (l : list A) x : nth_error (l ++ [x]) (List.length l) = Some x.
Proof. rewrite nth_error_app2 by lia. now rewrite Nat.sub_diag. Qed.
Lemma nth_error_snoc_lt {A} (l : list A) x j y : j < List.length l -> nth_error (l ++ [x]) j = Some y -> In y l.
Proof. intros H. rewrite nth_error_app1 by auto. apply nth_error_In. Qed.

Lemma make_model_finds d ns d' i : make_model ops d ns = (d', Ok i) ->
  (forall m, new_model ops ns = Some m -> mo_can ops m (ns_name ns) = true) ->
  doc_find_model ops d' ns = Some i /\ make_model ops d' ns = (d', Ok i).
Proof.
  intros H Hc. assert (E : doc_find_model ops d' ns = Some i).
  { destruct (make_model_spec _ _ _ _ H) as [(j & n & E1 & -> & E2)|[Hno [(m & Em & E1 & E2 & _)|(_ & _ & e & E)]]]; [| |discriminate].
    - inversion E1; subst. eapply find_model_first; eauto.
    - inversion E1; subst. eapply (find_model_first _ _ _ (Node (XName "" (ns_name ns)) [] (Some m) "" [])).
      rewrite E2. split; [apply nth_error_snoc|]. split.
      + exists m. split; auto.
      + intros j y Hj Hy. apply Hno. eapply nth_error_snoc_lt; eauto. }
  split; auto. unfold make_model. now rewrite E.
Qed.

Lemma add_model_spec d m d' r : add_model ops d m = (d', r) ->
  (mo_namespaces ops m = [] /\ d' = d /\ exists e, r = Err e) \/
  (exists ns0 rest i, mo_namespaces ops m = ns0 :: rest /\ r = Ok i /\ d_dirty d' = true /\
    d_toolkit d' = d_toolkit d /\ d_about d' = d_about d /\ d_ext d' = d_ext d /\
    (forall u, map_get (d_int d') u =
       match find (fun v => ns_uri v =? u) (rev (mo_namespaces ops m)) with Some v => Some v | None => map_get (d_int d) u end) /\
    ((exists n, first_at (home ops (ns_name ns0)) (d_nodes d) i n /\
        changed_at (d_nodes d) i n (Node (n_name n) (n_attrs n) (Some m) (n_value n) (n_nodes n)) (d_nodes d')) \/
     ((forall n, In n (d_nodes d) -> ~ home ops (ns_name ns0) n) /\ i = List.length (d_nodes d) /\
        d_nodes d' = (d_nodes d ++ [Node (XName "" (ns_name ns0)) [] (Some m) "" []])%list))).
Proof.
  unfold add_model. destruct (mo_namespaces ops m) as [|ns0 rest] eqn:En.
  - intros H; inversion H; subst. left. eauto.
  - intros H. right. exists ns0, rest.
    set (d1 := with_maps d (add_int (d_int d) (ns0 :: rest)) (d_ext d)) in *.
    change (d_nodes d1) with (d_nodes d) in H. change (doc_find_node ops d1 ns0) with (doc_find_node ops d ns0) in H.
    destruct (doc_find_node ops d ns0) as [i|] eqn:Ef.
    + destruct (find_node_inv _ _ _ Ef) as [n Hn]. destruct (nth_error (d_nodes d) i) as [n'|] eqn:Ei; [|now destruct Hn; congruence].
      assert (n' = n) by (destruct Hn; congruence). subst n'. inversion H; subst; clear H.
      exists i. split; auto. split; auto. repeat (split; [reflexivity|]). split; [intros; apply add_int_get|].
      left. exists n. split; auto. cbn [d_nodes set_dirty with_dirty with_nodes].
      apply changed_at_replace_iff. split; auto. f_equal. destruct n; reflexivity.
    + inversion H; subst; clear H. exists (List.length (d_nodes d)). split; auto. split; auto. repeat (split; [reflexivity|]).
      split; [intros; apply add_int_get|]. right. split; [now apply find_node_none|]. split; auto.
Qed.

(* ---- C27 ---- *)
Lemma sync_loop_spec (Hk : sync_keeps_models ops) k : forall i d d' e, i + k <= List.length (d_nodes d) ->
  sync_to_loop ops k i d = (d', e) ->
  let idx := List.filter (fun i => match model_at d i with Some _ => true | None => false end) (seq i k) in
  (e = Ok tt /\ sync_run ops d idx d') \/
  (e <> Ok tt /\ exists done j rest d1 n m, idx = (done ++ j :: rest)%list /\ sync_run ops d done d1 /\
     nth_error (d_nodes d1) j = Some n /\ n_model n = Some m /\ mo_sync_to ops m j d1 = (d', e)).
Proof.
  induction k as [|k IH]; intros i d d' e Hl; cbn [sync_to_loop seq List.filter].
  - intros H; inversion H; subst. left. split; auto. constructor.
  - destruct (model_at d i) as [m|] eqn:Em.
    + destruct (mo_sync_to ops m i d) as [d1 e1] eqn:Es.
      assert (Hn : exists n, nth_error (d_nodes d) i = Some n /\ n_model n = Some m).
      { unfold model_at in Em. destruct (nth_error (d_nodes d) i) as [n|]; [eauto|discriminate]. }
      destruct Hn as (n & Hn1 & Hn2).
      assert (Hext : List.filter (fun i => match model_at d1 i with Some _ => true | None => false end) (seq (S i) k) =
                     List.filter (fun i => match model_at d i with Some _ => true | None => false end) (seq (S i) k)).
      { apply filter_ext_in. intros j Hj. apply in_seq in Hj. destruct (Hk _ _ _ _ _ j Es ltac:(lia)) as [[K1 K2] _].
        destruct (model_at d1 j), (model_at d j); auto; [now specialize (K2 eq_refl)|now specialize (K1 eq_refl)]. }
      assert (Hlen : List.length (d_nodes d) <= List.length (d_nodes d1)).
      { destruct (Hk _ _ _ _ _ i Es ltac:(lia)) as [_ H]. exact H. }
      destruct e1 as [u|s|].
      * destruct u. intros H. destruct (IH (S i) d1 d' e ltac:(lia) H) as [[-> Hr]|(He & dn & j & rest & d2 & n2 & m2 & E1 & Hr & Hx)];
          cbv zeta in *; rewrite Hext in *.
        -- left. split; auto. econstructor; eauto.
        -- right. split; auto. exists (i :: dn), j, rest, d2, n2, m2. split; [cbn; now rewrite E1|]. split; [econstructor; eauto|auto].
      * intros H; inversion H; subst. right. split; [discriminate|].
        exists [], i, (List.filter (fun i => match model_at d i with Some _ => true | None => false end) (seq (S i) k)), d, n, m.
        split; auto. split; [constructor|]. repeat split; auto.
      * intros H; inversion H; subst. right. split; [discriminate|].
        exists [], i, (List.filter (fun i => match model_at d i with Some _ => true | None => false end) (seq (S i) k)), d, n, m.
        split; auto. split; [constructor|]. repeat split; auto.
    + intros H. apply IH in H; [|lia]. exact H.
Qed.

Lemma sync_run_dirty : sync_keeps_dirty ops -> forall d l d', sync_run ops d l d' -> d_dirty d = true -> d_dirty d' = true.
Proof. intros Hd d l d' H. induction H; intros; eauto. Qed.

Lemma sync_to_xmp_spec (Hk : sync_keeps_models ops) (Hd : sync_keeps_dirty ops) d d' e : sync_to_xmp ops d = (d', e) ->
  (d_dirty d = false /\ d' = d /\ e = Ok tt) \/
  (d_dirty d = true /\
   ((e = Ok tt /\ exists d1, sync_run ops d (model_indices d) d1 /\ d' = with_dirty d1 false) \/
    (e <> Ok tt /\ d_dirty d' = true /\
     exists done j rest d1 n m, model_indices d = (done ++ j :: rest)%list /\ sync_run ops d done d1 /\
       nth_error (d_nodes d1) j = Some n /\ n_model n = Some m /\ mo_sync_to ops m j d1 = (d', e)))).
Proof.
  unfold sync_to_xmp. destruct (d_dirty d) eqn:Ed; cbn [negb].
  - right. split; auto. destruct (sync_to_loop ops (List.length (d_nodes d)) 0 d) as [d1 e1] eqn:E.
    destruct (sync_loop_spec Hk (List.length (d_nodes d)) 0 d d1 e1 (le_n _) E) as [[-> Hr]|(He & dn & j & rest & d2 & n2 & m2 & E1 & Hr & Hx & Hx2 & Hx3)].
    + inversion H; subst. left. eauto.
    + destruct e1 as [u| |]; [destruct u; congruence| |]; inversion H; subst; right; (split; [discriminate|]);
        (split; [eapply Hd; eauto; eapply sync_run_dirty; eauto|]); exists dn, j, rest, d2, n2, m2; auto.
  - intros H; inversion H; subst. left. auto.
Qed.

(* ---- SetPath on a settled namespace ---- *)
Definition mref_of n i : mref := match n_model n with Some _ => MAt i | None => @MNil M end.

Lemma settled_find d ns i n : settled ops d ns i n ->
  doc_find_node ops d ns = Some i /\
  doc_find_model ops d ns = match n_model n with Some _ => Some i | None => None end.
Proof.
  intros [Hf H]. split; [eapply find_node_first; eauto|]. destruct H as [H|(H1 & H2 & _)].
  - destruct (H) as (m & -> & Hc). eapply (find_model_first _ _ _ n). destruct Hf as (F1 & F2 & F3). split; auto.
    split; auto. intros j y Hj Hy Hs. apply (F3 j y Hj Hy). now right.
  - rewrite H1. now apply find_model_none.
Qed.

Lemma settled_set d ns i n reg p v fl : settled ops d ns i n ->
  set_path_ns ops reg d ns p v fl = set_path_with ops reg d ns p v fl (mref_of n i) (NAt i).
Proof.
  intros H. destruct (settled_find _ _ _ _ H) as [E1 E2]. unfold set_path_ns, mref_of. rewrite E1, E2.
  destruct (n_model n) as [m|] eqn:Em; auto. destruct H as [_ [(m & Hm & _)|(_ & _ & H3)]]; [congruence|].
  cbn [andb]. now rewrite H3.
Qed.

(* what SetPath and GetPath read *)
Definition current n p : result string :=
  match n_model n with
  | Some m => if is_not_found (mo_get ops m p) then node_get_path (mo_can ops) n p else mo_get ops m p
  | None => node_get_path (mo_can ops) n p
  end.

Lemma settled_get reg d ns i n p v : settled ops d ns i n -> is_xmp_path p = true -> path_namespace reg d p = Some ns ->
  doc_get_path ops reg d p = Ok v <-> current n p = Ok v.
Proof.
  intros H Hx Hp. destruct (settled_find _ _ _ _ H) as [E1 E2]. unfold doc_get_path. rewrite Hx, Hp. cbn [negb].
  unfold find_node. rewrite find_find_index. unfold doc_find_node in E1. rewrite E1.
  destruct H as [(Hi & _) _]. rewrite Hi. unfold current. destruct (n_model n) as [m|].
  - destruct (mo_get ops m p) as [s|e|]; cbn [is_not_found]; try tauto. destruct (e =? errNotFound).
    + destruct (node_get_path _ n p); split; intros K; auto; discriminate.
    + split; discriminate.
  - destruct (node_get_path _ n p); split; intros K; auto; discriminate.
Qed.

Definition blocked (dest : string) (fl : Z) : bool :=
  (emptyb dest && negb (on fl (Z.lor (Z.lor CREATE APPEND) UNIQUE))) ||
  (negb (emptyb dest) && negb (on fl (Z.lor (Z.lor (Z.lor REPLACE DELETE) APPEND) UNIQUE))).

Lemma rest_settled reg d i n p v fl : nth_error (d_nodes d) i = Some n ->
  set_path_rest ops reg d p v fl (mref_of n i) (NAt i) =
  match current n p with
  | Panic => (d, Panic)
  | Err e => (d, Err e)
  | Ok dest =>
      if dest =? v then (d, Ok tt)
      else if blocked dest fl then (d, if on fl NOFAIL then Ok tt else
              Err (if emptyb dest then "create flag required" else "update flag required"))
      else
        let '(d', e) :=
          match n_model n with
          | Some mv =>
              let '(mv', e) := mo_set ops mv p v fl in
              let d' := with_nodes d (replace_nth i (set_model n (Some mv')) (d_nodes d)) in
              if is_not_found e then ref_set_path ops reg d' (NAt i) p v fl else (d', e)
          | None => ref_set_path ops reg d (NAt i) p v fl
          end in
        match e with
        | Ok _ => (set_dirty d', Ok tt)
        | Err s => (d', if on fl NOFAIL then Ok tt else Err s)
        | Panic => (d', Panic)
        end
  end.
Proof.
  intros Hi. unfold set_path_rest, current.
  assert (E : mref_get d (mref_of n i) = n_model n).
  { unfold mref_of. destruct (n_model n) eqn:Em; cbn; auto. unfold model_at. now rewrite Hi. }
  rewrite E. unfold ref_get_path. cbn [nref_get]. rewrite Hi.
  assert (G : forall A (a : A), match n_model n with
     | Some mv => if is_not_found (mo_get ops mv p) then node_get_path (mo_can ops) n p else mo_get ops mv p
     | None => node_get_path (mo_can ops) n p end = current n p) by reflexivity.
  destruct (match n_model n with
     | Some mv => if is_not_found (mo_get ops mv p) then node_get_path (mo_can ops) n p else mo_get ops mv p
     | None => node_get_path (mo_can ops) n p end) as [dest|e|]; auto. clear G.
  destruct (dest =? v); auto. unfold blocked, stop.
  destruct (emptyb dest) eqn:Ee; cbn [andb orb negb].
  - destruct (on fl (Z.lor (Z.lor CREATE APPEND) UNIQUE)); cbn [negb orb]; auto.
    destruct (n_model n) as [mv|] eqn:Em; auto. unfold mref_of. rewrite Em. cbn [mref_put]. rewrite Hi.
    destruct (mo_set ops mv p v fl) as [mv' e]. reflexivity.
  - destruct (on fl (Z.lor (Z.lor (Z.lor REPLACE DELETE) APPEND) UNIQUE)); cbn [negb orb]; auto.
    destruct (n_model n) as [mv|] eqn:Em; auto. unfold mref_of. rewrite Em. cbn [mref_put]. rewrite Hi.
    destruct (mo_set ops mv p v fl) as [mv' e]. reflexivity.
Qed.

Lemma on_lor fl a b : (0 <= a)%Z -> (0 <= b)%Z -> on fl (Z.lor a b) = on fl a || on fl b.
Proof.
  intros Ha Hb. unfold on. rewrite Z.land_lor_distr_r.
  assert (Pa : (0 <= Z.land fl a)%Z) by (apply Z.land_nonneg; auto).
  assert (Pb : (0 <= Z.land fl b)%Z) by (apply Z.land_nonneg; auto).
  apply eq_true_iff_eq. rewrite orb_true_iff, !Z.ltb_lt.
  assert (X : (Z.lor (Z.land fl a) (Z.land fl b) = 0 <-> Z.land fl a = 0 /\ Z.land fl b = 0)%Z) by apply Z.lor_eq_0_iff.
  assert (Y : (0 <= Z.lor (Z.land fl a) (Z.land fl b))%Z) by (apply Z.lor_nonneg; auto).
  lia.
Qed.

End F.
