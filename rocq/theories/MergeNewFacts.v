From Coq Require Import List Arith ZArith Bool Ascii String Lia.
From Verif Require Import GoStr GoStrFacts GoMap Names PathM SyncFlags PVList RegistryM NodeM FilterM DocM Spec SpecBasic SpecNode NodeFacts SpecDoc DocFacts DocPathFacts DocSetFacts DocSyncFacts
  SpecMerge MergeFacts SpecCreate PropCreate SpecMergeNew.
Import ListNotations.
Local Open Scope string_scope.

Lemma map_get_pair {V} (m : gomap V) k v : map_get m k = Some v -> In (k, v) m.
Proof. induction m as [|[k' v'] r IH]; cbn [map_get In]; [discriminate|]. destruct (eqb_spec k' k) as [->|_]; [intros [= ->]; auto|auto]. Qed.
Lemma map_set_pair {V} (m : gomap V) k v x : In x (map_set m k v) -> In x m \/ x = (k, v).
Proof. induction m as [|[k' v'] r IH]; cbn [map_set In]; [intuition auto|]. destruct (k' =? k) eqn:E; cbn [In]; [apply eqb_eq in E; subst k'; intuition auto|]. intros [->|H]; [auto|]. destruct (IH H); auto. Qed.
Lemma add_int_pair l : forall m x, In x (add_int m l) -> In x m \/ exists v, In v l /\ x = (ns_uri v, v).
Proof.
  unfold add_int. induction l as [|v l IH]; intros m x; cbn [fold_left In]; [tauto|]. intros H. apply IH in H as [H|(w & H & ->)]; [|right; exists w; auto].
  apply map_set_pair in H as [H| ->]; [auto|right; exists v; auto].
Qed.
(* what a map says about a name, when its entries are never replaced by others *)
Lemma find_add_int (P : namespace -> bool) l : forall m, (forall v w, In v l -> In (ns_uri v, w) m -> w = v) ->
  (forall v w, In v l -> In w l -> ns_uri v = ns_uri w -> v = w) ->
  find P (map snd (add_int m l)) = match find P (map snd m) with Some w => Some w | None => find P l end.
Proof.
  unfold add_int. induction l as [|v l IH]; intros m H1 H2; cbn [fold_left find]; [destruct (find P (map snd m)); reflexivity|].
  assert (S : find P (map snd (map_set m (ns_uri v) v)) = match find P (map snd m) with Some w => Some w | None => if P v then Some v else None end).
  { assert (Q : forall w, In (ns_uri v, w) m -> w = v) by (intros w; apply H1; now left). clear H1 H2 IH. induction m as [|[k' v'] r IH]; cbn [map_set map snd find]; [destruct (P v); reflexivity|].
    destruct (eqb_spec k' (ns_uri v)) as [->|N]; cbn [map snd find].
    - assert (v' = v) by (apply Q; now left). subst v'. destruct (P v) eqn:PV; [reflexivity|]. destruct (find P (map snd r)); reflexivity.
    - destruct (P v'); [reflexivity|]. apply IH. intros w I. apply Q. now right. }
  rewrite IH.
  - rewrite S. destruct (find P (map snd m)); [reflexivity|]. destruct (P v); reflexivity.
  - intros a w Ia Iw. apply map_set_pair in Iw as [Iw|E]; [apply H1; auto; now right|]. inversion E. subst w. apply H2; [now left|now right|congruence].
  - intros a w Ia Iw. apply H2; now right.
Qed.

Section F.
Context {M K : Type}.
Variables (ops : model_ops M) (reg : registry) (W : namespace -> Prop).
Variables (good : K -> M -> Prop) (watched : K -> path -> Prop) (fits : K -> path -> string -> Prop).
Hypothesis Hcan : keeps_can ops.
Hypothesis Hst : forall k, holds_values ops (good k) (watched k) (fits k).
Hypothesis Hone : one_meaning W.
Hypothesis Hex : forall k k' m, good k m -> good k' m -> k = k'.
Implicit Types (d : doc M).
Notation held := (held ops reg good watched).
Notation absent := (absent ops reg W good watched).
Notation known := (known reg W).

(* kinds by index: all nodes of kind k, but that at j of kind k' *)
Definition kinds (i : nat) (k k' : K) (x : nat) : K := if Nat.eqb x i then k else k'.
Lemma kinds_same i k k' : kinds i k k' i = k. Proof. unfold kinds. now rewrite Nat.eqb_refl. Qed.
Lemma kinds_other i k k' j : j <> i -> kinds i k k' j = k'. Proof. unfold kinds. intros H. apply Nat.eqb_neq in H. now rewrite H. Qed.
Definition seat (a : nat -> K) := seated ops reg (fun i => good (a i)) (fun i => watched (a i)).

Lemma held_seat d p k : held d p k -> exists i, forall a, a i = k -> seat a d p i.
Proof. intros (Wp & i & ns & n & m & H). exists i. intros a E. split; [rewrite E; exact Wp|]. exists ns, n, m. rewrite E. exact H. Qed.
Lemma seat_held a d p i : seat a d p i -> held d p (a i).
Proof. intros (Wp & ns & n & m & H). split; [exact Wp|]. exists i, ns, n, m. exact H. Qed.
Lemma two_seats d p k q k' : held d p k -> held d q k' -> exists i j a, a i = k /\ a j = k' /\ seat a d p i /\ seat a d q j.
Proof.
  intros H H'. pose proof H as (Wp & i & ns & n & m & Hp & Hs & Hm & Hg). pose proof H' as (Wq & j & ns' & n' & m' & Hp' & Hs' & Hm' & Hg').
  exists i, j, (kinds i k k'). assert (E : kinds i k k' j = k').
  { destruct (Nat.eq_dec j i) as [->|N]; [|now apply kinds_other]. rewrite kinds_same. destruct Hs as [(A & _) _], Hs' as [(B & _) _]. assert (m' = m) by congruence. subst m'. eapply Hex; eauto. }
  split; [apply kinds_same|]. split; [exact E|]. split.
  - split; [rewrite kinds_same; exact Wp|]. exists ns, n, m. rewrite kinds_same. auto.
  - split; [rewrite E; exact Wq|]. exists ns', n', m'. rewrite E. auto.
Qed.

Lemma held_reads d p k : held d p k -> exists s, doc_get_path ops reg d p = Ok s.
Proof.
  intros H. destruct (held_seat d p k H) as (i & S). apply (seated_reads ops reg (fun _ => good k) (fun _ => watched k) (fun _ => fits k) (fun _ => Hst k) d p i). exact (S (fun _ => k) eq_refl).
Qed.
Lemma held_present d p k x v s : held d p k -> fits k p v -> doc_get_path ops reg d p = Ok s -> s <> "" -> doc_set_path ops reg d (PathValue p x v MERGE) = (reg, d, Ok tt).
Proof.
  intros H F G N. destruct (held_seat d p k H) as (i & S).
  apply (set_present ops reg (fun _ => good k) (fun _ => watched k) (fun _ => fits k) (fun _ => Hst k) d p i x v s); auto. exact (S (fun _ => k) eq_refl).
Qed.
Lemma held_missing d p k x v : held d p k -> fits k p v -> doc_get_path ops reg d p = Ok "" -> v <> "" ->
  exists d', doc_set_path ops reg d (PathValue p x v MERGE) = (reg, d', Ok tt)
    /\ d_int d' = d_int d /\ d_ext d' = d_ext d
    /\ (forall q k', held d q k' -> held d' q k')
    /\ doc_get_path ops reg d' p = Ok v
    /\ (forall q k', held d q k' -> q <> p -> doc_get_path ops reg d' q = doc_get_path ops reg d q)
    /\ forall s, unused ops d s -> unused ops d' s.
Proof.
  intros H F G N. destruct (held_seat d p k H) as (i & S).
  destruct (set_missing ops reg (fun _ => good k) (fun _ => watched k) (fun _ => fits k) Hcan (fun _ => Hst k) d p i x v (S (fun _ => k) eq_refl) F G N) as (d' & E & I & X & _ & G' & _ & U).
  assert (Q : forall q k', held d q k' -> held d' q k' /\ (q <> p -> doc_get_path ops reg d' q = doc_get_path ops reg d q)).
  { intros q k' Hq. destruct (two_seats d p k q k' H Hq) as (i2 & j & a & A1 & A2 & S1 & S2).
    destruct (set_missing ops reg (fun i => good (a i)) (fun i => watched (a i)) (fun i => fits (a i)) Hcan (fun i => Hst (a i)) d p i2 x v S1) as (d2 & E2 & _ & _ & K2 & _ & F2 & _); auto.
    { rewrite A1. exact F. }
    assert (d2 = d') by congruence. subst d2. split; [|intros Hne; exact (F2 q j S2 Hne)]. rewrite <- A2. apply seat_held. exact (K2 q j S2). }
  exists d'. split; [exact E|]. split; [exact I|]. split; [exact X|]. split; [intros q k' Hq; exact (proj1 (Q q k' Hq))|]. split; [exact G'|]. split; [intros q k' Hq; exact (proj2 (Q q k' Hq))|exact U].
Qed.

(* ---- a new model ---- *)
Lemma known_reg d : known d -> reg_ok reg.
Proof. intros (_ & _ & H) p v E. now apply H. Qed.
Lemma answer_known d p ns : known d -> path_namespace reg d p = Some ns -> W ns.
Proof.
  intros (H1 & H2 & H3). unfold path_namespace. destruct (is_xmp_path p); [|discriminate]. unfold find_ns_by_prefix.
  destruct (find _ (map snd (d_int d))) eqn:E1; [intros [= <-]; apply find_some in E1 as [E1 _]; apply in_map_iff in E1 as ([u w] & <- & I); exact (proj2 (H1 _ _ I))|].
  destruct (find _ (map snd (d_ext d))) eqn:E2; [intros [= <-]; apply find_some in E2 as [E2 _]; apply in_map_iff in E2 as ([u w] & <- & I); exact (H2 _ _ I)|].
  destruct (get_namespace reg (namespace_prefix p)) eqn:E3; try discriminate. intros [= <-]. exact (proj2 (H3 _ _ E3)).
Qed.
Lemma absent_new d p ns m k : known d -> absent d p ns m k -> new_model_for ops d ns m.
Proof.
  intros (K1 & _) (Hp & Hm & Hc & Hin & Hnd & Hw & Hu & _). destruct Hone as [_ Ho]. rewrite Forall_forall in Hw.
  split; [exact Hm|]. split; [exact Hc|]. split; [exact Hin|]. split; [exact Hnd|]. split; [intros v Hv E; apply Ho; auto|]. split.
  - intros v Hv E. apply in_map_iff in Hv as ([u w] & <- & I). apply Ho; auto. exact (proj2 (K1 _ _ I)).
  - destruct (mo_namespaces ops m) as [|ns0 rest] eqn:E; [contradiction|]. exists ns0, rest. split; [reflexivity|]. apply Hu. now left.
Qed.
Definition grown d m := model_doc ops d m (set_model (new_node (match mo_namespaces ops m with [] => XName "" "" | v :: _ => ns_xml_name v "" end)) (Some m)).
Lemma grown_namespace d m q ns : known d -> Forall W (mo_namespaces ops m) -> NoDup (map ns_uri (mo_namespaces ops m)) -> path_namespace reg d q = Some ns -> path_namespace reg (grown d m) q = Some ns.
Proof.
  intros Kd Hw Hnd P. pose proof (prefix_of reg d q ns (known_reg d Kd) P) as E. pose proof (answer_known d q ns Kd P) as Wn. rewrite Forall_forall in Hw. destruct Hone as [_ Ho].
  unfold path_namespace in *. destruct (is_xmp_path q); [|discriminate]. unfold find_ns_by_prefix in *. change (d_int (grown d m)) with (add_int (d_int d) (mo_namespaces ops m)). change (d_ext (grown d m)) with (d_ext d).
  rewrite find_add_int.
  - destruct (find _ (map snd (d_int d))) eqn:E1; [exact P|]. destruct (find _ (mo_namespaces ops m)) as [w|] eqn:E2; [|exact P].
    apply find_some in E2 as [I2 N2]. apply eqb_eq in N2. f_equal. apply Ho; auto. left. congruence.
  - intros v w Iv Iw. destruct Kd as (K1 & _). destruct (K1 _ _ Iw) as [U Ww]. apply Ho; auto.
  - intros v w Iv Iw U. apply Ho; auto.
Qed.
Lemma grown_known d m : known d -> Forall W (mo_namespaces ops m) -> known (grown d m).
Proof.
  intros (K1 & K2 & K3) Hw. rewrite Forall_forall in Hw. split; [|split; [exact K2|exact K3]]. intros u v I. change (d_int (grown d m)) with (add_int (d_int d) (mo_namespaces ops m)) in I.
  apply add_int_pair in I as [I|(w & Iw & E)]; [exact (K1 _ _ I)|]. inversion E. subst u v. split; auto.
Qed.
Lemma grown_kept d m u v : known d -> Forall W (mo_namespaces ops m) -> NoDup (map ns_uri (mo_namespaces ops m)) -> map_get (d_int d) u = Some v -> map_get (d_int (grown d m)) u = Some v.
Proof.
  intros (K1 & _) Hw Hnd G. rewrite Forall_forall in Hw. destruct Hone as [_ Ho]. change (d_int (grown d m)) with (add_int (d_int d) (mo_namespaces ops m)). rewrite add_int_get by exact Hnd.
  destruct (find _ (mo_namespaces ops m)) as [w|] eqn:F; [|exact G]. apply find_some in F as [I E]. apply eqb_eq in E. apply map_get_pair in G. destruct (K1 _ _ G) as [U Wv]. f_equal. apply Ho; auto. right. congruence.
Qed.
Lemma grown_settled d m ns i n : settled ops d ns i n -> (exists x, n_model n = Some x) -> settled ops (grown d m) ns i n.
Proof.
  intros [(Hi & Hh & Hf) Hs] (x & Hx). assert (L : i < List.length (d_nodes d)) by (apply nth_error_Some; congruence). split.
  - split; [change (d_nodes (grown d m)) with (d_nodes d ++ [set_model (new_node (match mo_namespaces ops m with [] => XName "" "" | v :: _ => ns_xml_name v "" end)) (Some m)])%list; rewrite nth_error_app1; auto|]. split; [exact Hh|].
    intros j y Hj Hy. change (d_nodes (grown d m)) with (d_nodes d ++ [set_model (new_node (match mo_namespaces ops m with [] => XName "" "" | v :: _ => ns_xml_name v "" end)) (Some m)])%list in Hy. rewrite nth_error_app1 in Hy by lia. eauto.
  - destruct Hs as [S|(N & _)]; [now left|congruence].
Qed.
Lemma held_get d p k : held d p k -> exists ns i n m s, path_namespace reg d p = Some ns /\ settled ops d ns i n /\ n_model n = Some m /\ good k m /\ watched k p /\ mo_get ops m p = Ok s /\ doc_get_path ops reg d p = Ok s.
Proof.
  intros (Wp & i & ns & n & m & Hp & Hs & Hm & Hg). destruct (hv_reads _ _ _ _ (Hst k) m p Hg Wp) as (s & E). exists ns, i, n, m, s. do 6 (split; [assumption|]). exact (get_in ops reg d p i ns n m s Hp Hs Hm E).
Qed.
Lemma grown_held d m q k : known d -> Forall W (mo_namespaces ops m) -> NoDup (map ns_uri (mo_namespaces ops m)) -> held d q k -> held (grown d m) q k /\ doc_get_path ops reg (grown d m) q = doc_get_path ops reg d q.
Proof.
  intros Kd Hw Hnd H. destruct (held_get d q k H) as (ns & i & n & x & s & Hp & Hs & Hm & Hg & Wp & E & G).
  pose proof (grown_namespace d m q ns Kd Hw Hnd Hp) as P1. assert (S1 : settled ops (grown d m) ns i n) by (apply grown_settled; eauto). split.
  - split; [exact Wp|]. exists i, ns, n, x. auto.
  - rewrite G. exact (get_in ops reg (grown d m) q i ns n x s P1 S1 Hm E).
Qed.
Lemma grown_own d p q ns m k k' : known d -> absent d p ns m k -> absent d q ns m k' -> k' = k /\ held (grown d m) q k /\ doc_get_path ops reg (grown d m) q = Ok "".
Proof.
  intros Kd A B. pose proof (absent_new d q ns m k' Kd B) as N. destruct A as (_ & _ & _ & _ & _ & _ & _ & _ & Hg & _). destruct B as (Hp & _ & _ & Hin & Hnd & Hw & Hu & Wq & Hg' & E).
  assert (k' = k) by (eapply Hex; eauto). subst k'. split; [reflexivity|].
  destruct (new_model_node ops d ns m (Hu ns Hin) N) as (nm & Am & S & X). pose proof (grown_namespace d m q ns Kd Hw Hnd Hp) as P1.
  assert (S1 : settled ops (grown d m) ns (List.length (d_nodes d)) (set_model (new_node (match mo_namespaces ops m with [] => XName "" "" | v :: _ => ns_xml_name v "" end)) (Some m))).
  { destruct N as (_ & Hc & _). assert (Sv : serves ops (ns_name ns) (set_model (new_node (match mo_namespaces ops m with [] => XName "" "" | v :: _ => ns_xml_name v "" end)) (Some m))) by (exists m; split; [reflexivity|exact Hc]).
    split; [|left; exact Sv]. apply last_first; [exact (Hu ns Hin)|right; exact Sv]. }
  split.
  - split; [exact Wq|]. exists (List.length (d_nodes d)), ns, (set_model (new_node (match mo_namespaces ops m with [] => XName "" "" | v :: _ => ns_xml_name v "" end)) (Some m)), m. auto.
  - exact (get_in ops reg (grown d m) q _ ns _ m "" P1 S1 eq_refl E).
Qed.
Lemma grown_absent d p ns m k q ns' m' k' : known d -> absent d p ns m k -> absent d q ns' m' k' -> apart ops m m' -> absent (grown d m) q ns' m' k'.
Proof.
  intros Kd A (Hp & Hm & Hc & Hin & Hnd & Hw & Hu & R) Ap. destruct A as (_ & _ & _ & Hin0 & Hnd0 & Hw0 & _).
  split; [exact (grown_namespace d m q ns' Kd Hw0 Hnd0 Hp)|]. do 5 (split; [assumption|]). split; [|exact R].
  intros v Hv y Hy. change (d_nodes (grown d m)) with (d_nodes d ++ [set_model (new_node (match mo_namespaces ops m with [] => XName "" "" | v :: _ => ns_xml_name v "" end)) (Some m)])%list in Hy.
  apply in_app_or in Hy as [Hy|[<-|[]]]; [exact (Hu v Hv y Hy)|]. destruct (Ap v Hv) as [Ni Nc]. rewrite Forall_forall in Hw, Hw0. destruct Hone as [Hcol Ho]. intros [H|(x & [= <-] & H)]; [|congruence].
  destruct (mo_namespaces ops m) as [|ns0 rest] eqn:E; [contradiction|]. apply Ni. assert (ns0 = v); [|subst; now left]. apply Ho; [apply Hw0; now left|auto|]. left.
  unfold node_local in H. cbn in H. rewrite strip_prefix_none in H; [exact H|]. apply Hcol. apply Hw0. now left.
Qed.
Lemma grown_set d p x v ns m k : known d -> absent d p ns m k -> doc_set_path ops reg d (PathValue p x v MERGE) = doc_set_path ops reg (grown d m) (PathValue p x v MERGE).
Proof.
  intros Kd A. pose proof (absent_new d p ns m k Kd A) as N. destruct A as (Hp & _ & _ & Hin & _ & _ & Hu & _).
  pose proof N as (Hm & _ & _ & _ & _ & _ & ns0 & rest & E0 & U0).
  assert (P1 : path_namespace reg (grown d m) p = Some ns) by (apply new_model_namespace; auto; exact (known_reg d Kd)).
  assert (Am : add_model ops d m = (grown d m, Ok (List.length (d_nodes d)))).
  { unfold add_model, grown, model_doc. rewrite E0. assert (F : doc_find_node ops (with_maps d (add_int (d_int d) (ns0 :: rest)) (d_ext d)) ns0 = None) by (apply find_node_none; exact U0). rewrite F. reflexivity. }
  assert (S1 : settled ops (grown d m) ns (List.length (d_nodes d)) (set_model (new_node (match mo_namespaces ops m with [] => XName "" "" | v :: _ => ns_xml_name v "" end)) (Some m))).
  { destruct N as (_ & Hc & _). assert (Sv : serves ops (ns_name ns) (set_model (new_node (match mo_namespaces ops m with [] => XName "" "" | v :: _ => ns_xml_name v "" end)) (Some m))) by (exists m; split; [reflexivity|exact Hc]).
    split; [|left; exact Sv]. apply last_first; [exact (Hu ns Hin)|right; exact Sv]. }
  rewrite (doc_set_settled ops reg _ p x v MERGE ns _ _ P1 S1).
  unfold doc_set_path. cbn [pv_path pv_ns pv_value pv_flags]. rewrite (ns_xmp _ _ _ _ Hp), Hp. cbn [negb]. fold (effective MERGE). unfold set_path_ns.
  assert (F : doc_find_model ops d ns = None) by (apply find_model_none; intros y Hy Hs; apply (Hu ns Hin y Hy); now right).
  assert (G : doc_find_node ops d ns = None) by (apply find_node_none; exact (Hu ns Hin)). rewrite F, G. change (on (effective MERGE) CREATE) with true. cbn [negb andb]. rewrite Hm, Am. reflexivity.
Qed.

(* ---- the loop ---- *)
Definition planned d (x : path_value) : Prop :=
  pv_value x <> "" /\ exists k, fits k (pv_path x) (pv_value x) /\ (held d (pv_path x) k \/ exists ns m, absent d (pv_path x) ns m k).
Notation silent := (silent ops reg W good watched).

Lemma held_not_absent d p k ns m k' : held d p k -> absent d p ns m k' -> False.
Proof.
  intros (_ & i & ns1 & n & x & Hp & [(Hi & Hh & _) _] & _) (Hp' & _ & _ & Hin & _ & _ & Hu & _). assert (ns1 = ns) by congruence. subst ns1. exact (Hu ns Hin n (nth_error_In _ _ Hi) Hh).
Qed.
Lemma absent_same d d' p ns m k : d_int d' = d_int d -> d_ext d' = d_ext d -> (forall s, unused ops d s -> unused ops d' s) -> absent d p ns m k -> absent d' p ns m k.
Proof.
  intros I X U (Hp & Hm & Hc & Hin & Hnd & Hw & Hu & R). split; [|do 5 (split; [assumption|]); split; [auto|exact R]].
  unfold path_namespace, find_ns_by_prefix in *. now rewrite I, X.
Qed.

Lemma absent_prefix d p ns m k : known d -> absent d p ns m k -> W ns /\ ns_name ns = namespace_prefix p /\ new_model ops ns = Some m.
Proof. intros Kd (Hp & Hm & _). split; [exact (answer_known d p ns Kd Hp)|]. split; [exact (prefix_of reg d p ns (known_reg d Kd) Hp)|exact Hm]. Qed.

Lemma loop_new l : forall d, known d -> (forall x, In x l -> planned d x) -> models_apart ops W l -> NoDup (map pv_path l) ->
  exists d', merge_loop ops reg d l MERGE = (reg, d', Ok tt)
    /\ known d' /\ d_ext d' = d_ext d /\ (forall u v, map_get (d_int d) u = Some v -> map_get (d_int d') u = Some v)
    /\ (forall q k, held d q k -> held d' q k)
    /\ (forall q k s, held d q k -> doc_get_path ops reg d q = Ok s -> s <> "" -> doc_get_path ops reg d' q = Ok s)
    /\ (forall x, In x l -> silent d (pv_path x) -> doc_get_path ops reg d' (pv_path x) = Ok (pv_value x))
    /\ (forall q k, held d q k -> ~ In q (map pv_path l) -> doc_get_path ops reg d' q = doc_get_path ops reg d q)
    /\ (forall x, In x l -> exists k, held d' (pv_path x) k /\ fits k (pv_path x) (pv_value x)).
Proof.
  induction l as [|x l IH]; intros d Kd Hr Ha Hn.
  { exists d. split; [reflexivity|]. do 5 (split; [auto|]). split; [intros x []|]. split; [auto|intros x []]. }
  cbn in Hn. inversion Hn as [|? ? Hx Hl]; subst. assert (Ha' : models_apart ops W l) by (intros a b v v' m m' Ia Ib; apply Ha; now right).
  (* writing into a document in which the path is held and says nothing *)
  assert (Step : forall d0 k, known d0 -> held d0 (pv_path x) k -> fits k (pv_path x) (pv_value x) -> doc_get_path ops reg d0 (pv_path x) = Ok "" ->
    (forall y, In y l -> planned d0 y) -> exists d', merge_loop ops reg d0 (x :: l) MERGE = (reg, d', Ok tt)
    /\ known d' /\ d_ext d' = d_ext d0 /\ (forall u v, map_get (d_int d0) u = Some v -> map_get (d_int d') u = Some v)
    /\ (forall q k, held d0 q k -> held d' q k)
    /\ (forall q k s, held d0 q k -> doc_get_path ops reg d0 q = Ok s -> s <> "" -> doc_get_path ops reg d' q = Ok s)
    /\ (forall y, y = x \/ In y l /\ silent d0 (pv_path y) -> doc_get_path ops reg d' (pv_path y) = Ok (pv_value y))
    /\ (forall q k, held d0 q k -> ~ In q (map pv_path (x :: l)) -> doc_get_path ops reg d' q = doc_get_path ops reg d0 q)
    /\ (forall y, In y (x :: l) -> exists k, held d' (pv_path y) k /\ fits k (pv_path y) (pv_value y))).
  { intros d0 k K0 H0 F0 G0 P0. destruct (Hr x (or_introl eq_refl)) as (Vx & _).
    destruct (held_missing d0 (pv_path x) k (pv_ns x) (pv_value x) H0 F0 G0 Vx) as (d1 & E1 & I1 & X1 & Kh1 & G1 & F1 & U1).
    assert (K1 : known d1) by (unfold SpecMergeNew.known in *; rewrite I1, X1; exact K0).
    destruct (IH d1) as (d2 & E2 & K2 & X2 & M2 & Kh2 & P2 & A2 & F2 & H2); auto.
    { intros y Hy. destruct (P0 y Hy) as (Vy & ky & Fy & [Hy'|(ns & m & Hy')]); (split; [exact Vy|]); exists ky; (split; [exact Fy|]); [left; now apply Kh1|].
      right. exists ns, m. apply (absent_same d0); auto. }
    exists d2. split; [cbn [merge_loop]; rewrite E1; exact E2|]. split; [exact K2|]. split; [congruence|]. split; [intros u v Hu; apply M2; now rewrite I1|]. split; [auto|]. split; [|split; [|split]].
    - intros q kq s Hq Eq Hne. destruct (string_dec q (pv_path x)) as [->|Hqx]; [congruence|]. apply (P2 q kq); auto. rewrite (F1 q kq); auto.
    - intros y [->|[Hy Sy]]; [rewrite (F2 (pv_path x) k); auto|]. apply A2; auto. assert (Ne : pv_path y <> pv_path x) by (intros E; apply Hx; rewrite <- E; now apply in_map).
      destruct Sy as [[(ky & Hy') Ey]|(ns & m & ky & Hy')].
      + left. split; [exists ky; now apply Kh1|]. now rewrite (F1 _ ky Hy' Ne).
      + right. exists ns, m, ky. apply (absent_same d0); auto.
    - intros q kq Hq Hni. cbn in Hni. rewrite (F2 q kq); auto. apply (F1 q kq); auto.
    - intros y [<-|Hy]; [|exact (H2 y Hy)]. exists k. split; [apply Kh2; now apply Kh1|exact F0]. }
  destruct (Hr x (or_introl eq_refl)) as (Vx & k & Fx & [Hk|(ns & m & Ab)]).
  - destruct (held_reads d (pv_path x) k Hk) as (s & Es). destruct (string_dec s "") as [->|Hs].
    + destruct (Step d k Kd Hk Fx Es (fun y Hy => Hr y (or_intror Hy))) as (d' & E & K' & X' & M' & Kh' & P' & A' & F' & H').
      exists d'. do 6 (split; [assumption|]). split; [|split; assumption]. intros y [<-|Hy] Sy; apply A'; auto.
    + cbn [merge_loop]. rewrite (held_present d (pv_path x) k (pv_ns x) (pv_value x) s Hk Fx Es Hs).
      destruct (IH d) as (d2 & E2 & K2 & X2 & M2 & Kh2 & P2 & A2 & F2 & H2); auto.
      { intros y Hy. apply Hr. now right. }
      exists d2. do 6 (split; [assumption|]). split; [|split].
      * intros y [<-|Hy] Sy; [|auto]. exfalso. destruct Sy as [[_ Ey]|(ns & m & ky & Hy')]; [congruence|]. exact (held_not_absent _ _ _ _ _ _ Hk Hy').
      * intros q kq Hq Hni. cbn in Hni. apply (F2 q kq); auto.
      * intros y [<-|Hy]; [exists k; auto|exact (H2 y Hy)].
  - pose proof Ab as (_ & _ & _ & _ & Hnd & Hw & _).
    assert (Other : forall y ns' m' k', In y l -> absent d (pv_path y) ns' m' k' -> (k' = k /\ held (grown d m) (pv_path y) k /\ doc_get_path ops reg (grown d m) (pv_path y) = Ok "") \/ absent (grown d m) (pv_path y) ns' m' k').
    { intros y ns' m' k' Hy Ay. destruct (absent_prefix _ _ _ _ _ Kd Ab) as (W1 & N1 & M1). destruct (absent_prefix _ _ _ _ _ Kd Ay) as (W2 & N2 & M2).
      destruct (Ha x y ns ns' m m' (or_introl eq_refl) (or_intror Hy) W1 W2 N1 N2 M1 M2) as [<-|Ap].
      - left. assert (m' = m) by congruence. subst m'. exact (grown_own d (pv_path x) (pv_path y) ns m k k' Kd Ab Ay).
      - right. exact (grown_absent d (pv_path x) ns m k (pv_path y) ns' m' k' Kd Ab Ay Ap). }
    destruct (grown_own d (pv_path x) (pv_path x) ns m k k Kd Ab Ab) as (_ & Hg & Gg).
    destruct (Step (grown d m) k (grown_known d m Kd Hw) Hg Fx Gg) as (d' & E & K' & X' & M' & Kh' & P' & A' & F' & H').
    { intros y Hy. destruct (Hr y (or_intror Hy)) as (Vy & ky & Fy & [Hy'|(ns' & m' & Hy')]); (split; [exact Vy|]).
      - exists ky. split; [exact Fy|]. left. exact (proj1 (grown_held d m _ ky Kd Hw Hnd Hy')).
      - destruct (Other y ns' m' ky Hy Hy') as [(-> & Hh & _)|Hh]; [exists k; auto|]. exists ky. split; [exact Fy|]. right. eauto. }
    exists d'. split; [cbn [merge_loop] in *; rewrite (grown_set d (pv_path x) (pv_ns x) (pv_value x) ns m k Kd Ab); exact E|]. split; [exact K'|]. split; [exact X'|].
    split; [intros u v Hu; apply M'; now apply grown_kept|]. split; [intros q kq Hq; apply Kh'; exact (proj1 (grown_held d m q kq Kd Hw Hnd Hq))|]. split; [|split; [|split]].
    + intros q kq s Hq Eq Hne. destruct (grown_held d m q kq Kd Hw Hnd Hq) as [Hq1 Eq1]. apply (P' q kq); auto. congruence.
    + intros y [<-|Hy] Sy; apply A'; [now left|]. right. split; [exact Hy|]. destruct Sy as [[(ky & Hy') Ey]|(ns' & m' & ky & Hy')].
      * left. destruct (grown_held d m _ ky Kd Hw Hnd Hy') as [Hq1 Eq1]. split; [eauto|congruence].
      * destruct (Other y ns' m' ky Hy Hy') as [(-> & Hh & Gh)|Hh]; [left; eauto|right; eauto].
    + intros q kq Hq Hni. destruct (grown_held d m q kq Kd Hw Hnd Hq) as [Hq1 Eq1]. rewrite (F' q kq); auto.
    + exact H'.
Qed.

Lemma loop_there l d : (forall x, In x l -> exists k s, held d (pv_path x) k /\ fits k (pv_path x) (pv_value x) /\ s <> "" /\ doc_get_path ops reg d (pv_path x) = Ok s) ->
  merge_loop ops reg d l MERGE = (reg, d, Ok tt).
Proof.
  intros H. apply merge_loop_noop. intros x Hx. destruct (H x Hx) as (k & s & A & B & C & D). eapply held_present; eauto.
Qed.
End F.
