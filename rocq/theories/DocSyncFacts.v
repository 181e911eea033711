From Coq Require Import List Arith ZArith Bool Ascii String Lia.
From Verif Require Import GoStr GoStrFacts GoMap Names PathM SyncFlags PVList RegistryM RegistryFacts NodeM FilterM DocM Spec SpecBasic SpecNode NodeFacts NodePathFacts SpecDoc DocFacts DocPathFacts DocSetFacts.
Import ListNotations.
Local Open Scope string_scope.

Section F.
Context {M : Type}.
Variable ops : model_ops M.
Implicit Types (d : doc M) (n : node M).

Definition conv_of (conv : option (string -> string)) (s : string) : string :=
  match conv with Some f => f s | None => s end.

(* ---- Sync ---- *)
Lemma sync_no_source reg d sp dp fl v conv sns : path_namespace reg d sp = Some sns ->
  (forall n, In n (d_nodes d) -> ~ serves ops (ns_name sns) n) ->
  doc_sync ops reg d sp dp fl v conv = (d, Ok tt).
Proof.
  intros Hp Hn. unfold doc_sync. rewrite Hp, (proj2 (find_model_none _ _ _) Hn).
  destruct (negb (is_xmp_path sp) || negb (is_xmp_path dp)); auto. destruct (path_namespace reg d dp); auto.
Qed.
Lemma sync_unknown reg d sp dp fl v conv : path_namespace reg d sp = None \/ path_namespace reg d dp = None ->
  doc_sync ops reg d sp dp fl v conv = (d, Ok tt).
Proof.
  intros Hp. unfold doc_sync.
  destruct (negb (is_xmp_path sp) || negb (is_xmp_path dp)); auto. destruct Hp as [-> | ->]; auto. destruct (path_namespace reg d sp); auto.
Qed.
Lemma sync_no_dest reg d sp dp fl conv dns : path_namespace reg d dp = Some dns ->
  (forall n, In n (d_nodes d) -> ~ serves ops (ns_name dns) n) -> on (effective fl) CREATE = false ->
  doc_sync ops reg d sp dp fl None conv = (d, Ok tt).
Proof.
  intros Hp Hn Hc. unfold doc_sync. rewrite Hp.
  destruct (negb (is_xmp_path sp) || negb (is_xmp_path dp)); auto. destruct (path_namespace reg d sp); auto.
  destruct (doc_find_model ops d n); auto. fold (effective fl). cbn [sync_dest]. now rewrite (proj2 (find_model_none _ _ _) Hn), Hc.
Qed.

Lemma sync_may_cond sv dv fl :
  (sv =? dv) || (emptyb sv && negb (on fl DELETE)) || (emptyb dv && negb (on fl CREATE)) ||
  (negb (emptyb dv) && negb (on fl (Z.lor (Z.lor (Z.lor REPLACE DELETE) APPEND) UNIQUE))) = false <-> sync_may sv dv fl.
Proof.
  rewrite !orb_false_iff, on_update. unfold sync_may.
  assert (U : any_of fl [REPLACE; DELETE; APPEND; UNIQUE] <-> on fl REPLACE || on fl DELETE || on fl APPEND || on fl UNIQUE = true).
  { rewrite !orb_true_iff. split.
    - intros (f & [<-|[<-|[<-|[<-|[]]]]] & Hf); tauto.
    - intros [[[H|H]|H]|H]; [exists REPLACE|exists DELETE|exists APPEND|exists UNIQUE]; (split; [cbn [In]; tauto|assumption]). }
  rewrite U. rewrite String.eqb_neq. rewrite !andb_false_iff, !negb_false_iff.
  destruct sv, dv; cbn [emptyb]; intuition (auto; discriminate).
Qed.

Lemma sync_copy_no d sp dp fl sm dr conv sv dv : get_model_path ops sm sp = Ok sv -> get_model_path ops (mref_get d dr) dp = Ok dv ->
  ~ sync_may sv dv fl -> sync_copy ops d sp dp fl sm dr conv = (d, Ok tt).
Proof.
  intros H1 H2 H3. unfold sync_copy. rewrite H1, H2. rewrite <- sync_may_cond, not_false_iff_true, !orb_true_iff in H3.
  destruct (sv =? dv); auto. destruct (emptyb sv && negb (on fl DELETE)); auto. destruct (emptyb dv && negb (on fl CREATE)); auto.
  destruct H3 as [[[H3|H3]|H3]|H3]; try discriminate. now rewrite H3.
Qed.
Lemma sync_copy_yes d sp dp fl sm i n m conv sv dv m' e : get_model_path ops sm sp = Ok sv ->
  nth_error (d_nodes d) i = Some n -> n_model n = Some m -> mo_get ops m dp = Ok dv ->
  sync_may sv dv fl -> mo_set ops m dp (conv_of conv sv) fl = (m', e) ->
  sync_copy ops d sp dp fl sm (MAt i) conv =
  let d2 := with_nodes d (replace_nth i (set_model n (Some m')) (d_nodes d)) in
  match e with Ok _ => (set_dirty d2, Ok tt) | _ => (d2, nofail fl e) end.
Proof.
  intros H1 Hi Hm H2 H3 H4. unfold sync_copy. rewrite H1. cbn [mref_get]. unfold model_at. rewrite Hi, Hm. cbn [get_model_path set_model_path]. rewrite H2.
  rewrite <- sync_may_cond, !orb_false_iff in H3. destruct H3 as [[[A B] C] D]. rewrite A, B, C, D. fold (conv_of conv sv). rewrite H4.
  cbn [mref_put]. rewrite Hi. destruct e; reflexivity.
Qed.

(* both models are there *)
Definition endpoints reg d sp dp si sn sm di dn dm : Prop :=
  (exists sns, path_namespace reg d sp = Some sns /\ first_at (serves ops (ns_name sns)) (d_nodes d) si sn) /\ n_model sn = Some sm /\
  (exists dns, path_namespace reg d dp = Some dns /\ first_at (serves ops (ns_name dns)) (d_nodes d) di dn) /\ n_model dn = Some dm.

Lemma sync_endpoints reg d sp dp fl conv si sn sm di dn dm : endpoints reg d sp dp si sn sm di dn dm ->
  doc_sync ops reg d sp dp fl None conv = sync_copy ops d sp dp (effective fl) (Some sm) (MAt di) conv.
Proof.
  intros [(sns & Hs & Fs) [Ms [(dns & Hd & Fd) Md]]]. unfold doc_sync. rewrite (ns_xmp _ _ _ _ Hs), (ns_xmp _ _ _ _ Hd), Hs, Hd. cbn [negb orb].
  rewrite (find_model_first _ _ _ _ _ Fs). fold (effective fl). cbn [sync_dest]. rewrite (find_model_first _ _ _ _ _ Fd).
  unfold model_at. destruct Fs as [-> _]. now rewrite Ms.
Qed.
(* the destination model given by the caller *)
Lemma sync_endpoints_given reg d sp dp fl conv si sn sm di dn dm dns0 rest : endpoints reg d sp dp si sn sm di dn dm ->
  mo_namespaces ops dm = dns0 :: rest ->
  doc_sync ops reg d sp dp fl (Some di) conv =
  if namespace_prefix dp =? ns_name dns0 then sync_copy ops d sp dp (effective fl) (Some sm) (MAt di) conv else (d, Ok tt).
Proof.
  intros [(sns & Hs & Fs) [Ms [(dns & Hd & Fd) Md]]] Hn. unfold doc_sync. rewrite (ns_xmp _ _ _ _ Hs), (ns_xmp _ _ _ _ Hd), Hs, Hd. cbn [negb orb].
  rewrite (find_model_first _ _ _ _ _ Fs). fold (effective fl). cbn [sync_dest]. unfold model_at. destruct Fs as [-> _]. destruct Fd as [-> _].
  rewrite Ms, Md. cbn [option_map]. rewrite Hn. destruct (namespace_prefix dp =? ns_name dns0); auto.
Qed.

Lemma sync_not_allowed reg d sp dp fl conv si sn sm di dn dm sv dv : endpoints reg d sp dp si sn sm di dn dm ->
  mo_get ops sm sp = Ok sv -> mo_get ops dm dp = Ok dv -> ~ sync_may sv dv (effective fl) ->
  doc_sync ops reg d sp dp fl None conv = (d, Ok tt).
Proof.
  intros He H1 H2 H3. rewrite (sync_endpoints _ _ _ _ _ _ _ _ _ _ _ _ He). eapply sync_copy_no; eauto.
  cbn [mref_get]. destruct He as (_ & _ & (dns & _ & (Hd & _)) & Hm). unfold model_at. rewrite Hd, Hm. exact H2.
Qed.
Lemma sync_allowed reg d sp dp fl conv si sn sm di dn dm sv dv dm' e : endpoints reg d sp dp si sn sm di dn dm ->
  mo_get ops sm sp = Ok sv -> mo_get ops dm dp = Ok dv -> sync_may sv dv (effective fl) ->
  mo_set ops dm dp (conv_of conv sv) (effective fl) = (dm', e) ->
  exists d', doc_sync ops reg d sp dp fl None conv = (d', nofail (effective fl) e) /\
    changed_at (d_nodes d) di dn (set_model dn (Some dm')) (d_nodes d') /\
    d_int d' = d_int d /\ d_ext d' = d_ext d /\ d_about d' = d_about d /\ d_toolkit d' = d_toolkit d /\
    (e = Ok tt -> d_dirty d' = true) /\ (e <> Ok tt -> d_dirty d' = d_dirty d).
Proof.
  intros He H1 H2 H3 H4. rewrite (sync_endpoints _ _ _ _ _ _ _ _ _ _ _ _ He).
  destruct He as (_ & _ & (dns & _ & (Hd & _)) & Hm). rewrite (sync_copy_yes d sp dp _ (Some sm) _ _ _ _ _ _ _ _ H1 Hd Hm H2 H3 H4). cbv zeta.
  destruct e as [u|s|]; [destruct u| |]; (eexists; split; [reflexivity|]); (split; [now apply changed_at_replace|]); do 4 (split; [reflexivity|]); split; intros; try reflexivity; congruence.
Qed.

(* reading errors *)
Lemma sync_read_error reg d sp dp fl conv si sn sm di dn dm e : endpoints reg d sp dp si sn sm di dn dm ->
  mo_get ops sm sp = Err e \/ (exists sv, mo_get ops sm sp = Ok sv /\ mo_get ops dm dp = Err e) ->
  doc_sync ops reg d sp dp fl None conv = (d, nofail (effective fl) (Err e)).
Proof.
  intros He H. rewrite (sync_endpoints _ _ _ _ _ _ _ _ _ _ _ _ He). unfold sync_copy. cbn [get_model_path].
  destruct He as (_ & _ & (dns & _ & (Hd & _)) & Hm). cbn [mref_get]. unfold model_at. rewrite Hd, Hm. cbn [get_model_path].
  destruct H as [->|(sv & -> & ->)]; reflexivity.
Qed.

(* a source without a copy of its own in the destination: the source value is what it was *)
Lemma sync_source_kept reg d sp dp fl conv si sn sm di dn dm : endpoints reg d sp dp si sn sm di dn dm -> si <> di ->
  nth_error (d_nodes (fst (doc_sync ops reg d sp dp fl None conv))) si = Some sn.
Proof.
  intros He Hne. rewrite (sync_endpoints _ _ _ _ _ _ _ _ _ _ _ _ He).
  destruct He as ((sns & _ & (Hs & _)) & Ms & (dns & _ & (Hd & _)) & Hm).
  assert (R : forall x b, nth_error (d_nodes (with_dirty (with_nodes d (replace_nth di x (d_nodes d))) b)) si = Some sn).
  { intros. cbn [d_nodes with_dirty with_nodes]. rewrite nth_replace_neq; auto. }
  unfold sync_copy. cbn [mref_get]. unfold model_at. rewrite Hd, Hm. cbn [get_model_path].
  destruct (mo_get ops sm sp) as [sv| |]; auto. destruct (mo_get ops dm dp) as [dv| |]; auto.
  destruct (sv =? dv); auto. destruct (emptyb sv && negb (on (effective fl) DELETE)); auto. destruct (emptyb dv && negb (on (effective fl) CREATE)); auto.
  match goal with |- context [if ?b then _ else _] => destruct b end; auto.
  cbn [set_model_path]. match goal with |- context [mo_set ops dm dp ?s ?f] => destruct (mo_set ops dm dp s f) as [m' e] end.
  cbn [mref_put]. rewrite Hd. destruct e; cbn [fst]; try apply (R _ true); cbn [d_nodes with_nodes]; rewrite nth_replace_neq; auto.
Qed.

(* ---- Merge ---- *)
Lemma merge_source reg d b fl sortf reg' d' b' r : doc_merge ops sortf reg d b fl = (reg', d', b', r) ->
  b' = fst (sync_to_xmp ops b) /\ (d_dirty b = false -> b' = b).
Proof.
  unfold doc_merge, doc_list_paths. intros H.
  assert (E : b' = fst (sync_to_xmp ops b)).
  { destruct (sync_to_xmp ops b) as [b1 [u|s|]].
    - destruct (list_nodes ops sortf reg (d_nodes b1)) as [l|s|]; [|inversion H; auto|inversion H; auto].
      match goal with H : context [merge_loop ?a ?b ?c ?d ?e] |- _ => destruct (merge_loop a b c d e) as [[r1 d1] [u1|s1|]] end; inversion H; auto.
    - inversion H; auto.
    - inversion H; auto. }
  split; auto. intros Hd. rewrite E. unfold sync_to_xmp. now rewrite Hd.
Qed.

Lemma merge_loop_noop reg d l fl : (forall v, In v l -> doc_set_path ops reg d (PathValue (pv_path v) (pv_ns v) (pv_value v) fl) = (reg, d, Ok tt)) ->
  merge_loop ops reg d l fl = (reg, d, Ok tt).
Proof.
  induction l as [|v l IH]; intros H; cbn [merge_loop]; auto.
  rewrite (H v (or_introl eq_refl)). apply IH. intros; apply H; now right.
Qed.

Lemma effective_nz fl : fl <> 0%Z -> effective fl = fl.
Proof. intros H. unfold effective. apply Z.eqb_neq in H. now rewrite H. Qed.

Lemma merge_loop_same reg d l fl place : fl <> 0%Z -> placed ops reg d fl place l ->
  (forall v, In v l -> pv_value v <> "" /\ doc_get_path ops reg d (pv_path v) = Ok (pv_value v)) ->
  merge_loop ops reg d l fl = (reg, d, Ok tt).
Proof.
  intros Hf Hp Hv. apply merge_loop_noop. intros v Hin. destruct (Hp v Hin) as (Hk & ns & n & Hns & Hs). destruct (Hv v Hin) as [Hne Hg].
  eapply set_equal_noop; eauto; try congruence; now rewrite effective_nz.
Qed.

(* a settled assignment leaves all namespaces settled *)
Lemma settled_after ns d d' i n j x x' : settled ops d ns i n -> changed_at (d_nodes d) j x x' (d_nodes d') ->
  n_name x' = n_name x -> (forall s, serves ops s x' <-> serves ops s x) -> (n_model x' = None <-> n_model x = None) ->
  exists n', settled ops d' ns i n' /\ (j <> i -> n' = n).
Proof.
  intros [(Hi & Hh & Hf) Hs] Hc Hn Hse Hm. apply changed_at_replace_iff in Hc as [Hx Hc].
  assert (Lj : j < List.length (d_nodes d)) by (apply nth_error_Some; congruence).
  assert (HH : forall s, home ops s x' <-> home ops s x).
  { intros s. unfold home, node_local. rewrite Hn, Hse. reflexivity. }
  assert (NTH : forall k y, nth_error (d_nodes d') k = Some y -> exists y0, nth_error (d_nodes d) k = Some y0 /\ (forall s, home ops s y <-> home ops s y0) /\ (forall s, serves ops s y <-> serves ops s y0)).
  { intros k y. rewrite Hc. destruct (Nat.eq_dec j k) as [<-|Hne].
    - rewrite nth_replace_eq by auto. intros H; inversion H; subst. eauto.
    - rewrite nth_replace_neq by auto. intros H. exists y. repeat split; auto. }
  destruct (Nat.eq_dec j i) as [->|Hne].
  - assert (x = n) by congruence. subst x. exists x'. split; [|congruence]. split; [split; [|split]|].
    + rewrite Hc. now apply nth_replace_eq.
    + now apply HH.
    + intros k y Lk Hy Hyh. destruct (NTH k y Hy) as (y0 & Hy0 & Hiff & _). apply (Hf k y0 Lk Hy0). now apply Hiff.
    + destruct Hs as [Hs|(A & B & C)]; [left; now apply Hse|right]. split; [now apply Hm|]. split; auto.
      intros y Hy. apply In_nth_error in Hy as [k Hy]. destruct (NTH k y Hy) as (y0 & Hy0 & _ & Hiff). intros K. apply Hiff in K. apply (B y0); auto. eapply nth_error_In; eauto.
  - exists n. split; auto. split; [split; [|split]|].
    + rewrite Hc. rewrite nth_replace_neq; auto.
    + auto.
    + intros k y Lk Hy Hyh. destruct (NTH k y Hy) as (y0 & Hy0 & Hiff & _). apply (Hf k y0 Lk Hy0). now apply Hiff.
    + destruct Hs as [Hs|(A & B & C)]; [now left|right]. split; auto. split; auto.
      intros y Hy. apply In_nth_error in Hy as [k Hy]. destruct (NTH k y Hy) as (y0 & Hy0 & _ & Hiff). intros K. apply Hiff in K. apply (B y0); auto. eapply nth_error_In; eauto.
Qed.

(* what one assignment does, in detail *)
Lemma set_settled_detail (Hcan : keeps_can ops) reg d p x v fl ns i n reg' d' r : path_namespace reg d p = Some ns -> settled ops d ns i n ->
  keeps_node p (effective fl) -> doc_set_path ops reg d (PathValue p x v fl) = (reg', d', r) ->
  reg' = reg /\ d_int d' = d_int d /\ d_ext d' = d_ext d /\
  exists n', changed_at (d_nodes d) i n n' (d_nodes d') /\ n_name n' = n_name n /\
    (forall s, serves ops s n' <-> serves ops s n) /\ (n_model n' = None <-> n_model n = None).
Proof.
  intros Hp Hs Hk. assert (Hi : nth_error (d_nodes d) i = Some n) by (destruct Hs as [(Hi & _) _]; auto).
  assert (Li : i < List.length (d_nodes d)) by (apply nth_error_Some; congruence).
  rewrite (doc_set_settled _ _ _ _ _ _ _ _ _ _ Hp Hs).
  destruct (set_path_with ops reg d ns p v (effective fl) (mref_of n i) (NAt i)) as [d0 r0] eqn:E. intros H; inversion H; subst reg' d0 r0; clear H.
  destruct (set_cases _ _ _ _ _ _ _ _ _ _ _ Hi Hk E) as [->|F].
  - do 3 (split; [reflexivity|]). exists n. repeat split; auto. apply changed_at_replace_iff. split; auto. symmetry. now apply replace_nth_same.
  - unfold finish in F. destruct (write ops reg d i n p v (effective fl)) as [d1 e] eqn:W.
    assert (WW : exists n', d1 = with_nodes d (replace_nth i n' (d_nodes d)) /\ n_name n' = n_name n /\
       (forall s, serves ops s n' <-> serves ops s n) /\ (n_model n' = None <-> n_model n = None)).
    { unfold write in W. destruct (n_model n) as [m|] eqn:Em.
      - destruct (mo_set ops m p v (effective fl)) as [m' e0] eqn:Es. pose proof (Hcan _ _ _ _ _ _ Es) as Hc.
        assert (SV : forall y s, n_model y = Some m' -> serves ops s y <-> serves ops s n).
        { intros y s Hy. unfold serves. rewrite Hy, Em. split; intros (q & Eq & Hq); inversion Eq; subst q; eexists; (split; [reflexivity|]); [now rewrite <- Hc|now rewrite Hc]. }
        destruct (is_not_found e0).
        + unfold ref_set_path in W. cbn [nref_get with_nodes d_nodes] in W. rewrite nth_replace_eq in W by auto.
          destruct (node_set_path (mo_can ops) reg (set_model n (Some m')) p v (effective fl)) as [n' e'] eqn:Er.
          cbn [nref_put with_nodes d_nodes] in W. rewrite replace_nth_twice in W. inversion W; subst. exists n'. split; auto.
          assert (Hm' : n_model n' = Some m') by (rewrite (node_set_path_keeps_model _ _ _ _ _ _ _ _ Er); destruct n; reflexivity).
          split; [rewrite (node_set_path_keeps_name _ _ _ _ _ _ _ _ Er); destruct n; reflexivity|]. split; [intros s; now apply SV|].
          rewrite Hm'. split; discriminate.
        + inversion W; subst. eexists. split; [reflexivity|]. split; [destruct n; reflexivity|]. split; [intros s; apply SV; destruct n; reflexivity|].
          destruct n; cbn; split; discriminate.
      - unfold ref_set_path in W. cbn [nref_get] in W. rewrite Hi in W.
        destruct (node_set_path (mo_can ops) reg n p v (effective fl)) as [n' e'] eqn:Er. inversion W; subst. exists n'. split; auto.
        assert (Hm' : n_model n' = None) by (rewrite (node_set_path_keeps_model _ _ _ _ _ _ _ _ Er); auto).
        split; [apply (node_set_path_keeps_name _ _ _ _ _ _ _ _ Er)|]. split; [|rewrite Hm'; tauto].
        intros s. unfold serves. rewrite Hm', Em. tauto. }
    destruct WW as (n' & -> & W1 & W2 & W3).
    destruct e; inversion F; subst; do 3 (split; [reflexivity|]); exists n'; (split; [apply changed_at_replace; auto|auto]).
Qed.

Lemma placed_after (Hcan : keeps_can ops) reg d fl place l p x v ns i n reg' d' r : fl <> 0%Z -> placed ops reg d fl place l ->
  path_namespace reg d p = Some ns -> settled ops d ns i n -> keeps_node p fl ->
  doc_set_path ops reg d (PathValue p x v fl) = (reg', d', r) ->
  reg' = reg /\ placed ops reg d' fl place l /\ (forall j, j <> i -> nth_error (d_nodes d') j = nth_error (d_nodes d) j).
Proof.
  intros Hf Hpl Hp Hs Hk H. rewrite <- (effective_nz fl Hf) in Hk.
  destruct (set_settled_detail Hcan _ _ _ _ _ _ _ _ _ _ _ _ Hp Hs Hk H) as (-> & E1 & E2 & n' & Hc & Hn & Hse & Hm).
  split; auto. split.
  - intros w Hw. destruct (Hpl w Hw) as (Kw & nsw & nw & Pw & Sw). split; auto.
    destruct (settled_after _ _ d' _ _ _ _ _ Sw Hc Hn Hse Hm) as (nw' & Sw' & _). exists nsw, nw'. split; auto.
    unfold path_namespace, find_ns_by_prefix in *. rewrite E1, E2. exact Pw.
  - intros j Hj. apply changed_at_replace_iff in Hc as [_ Hc]. rewrite Hc. apply nth_replace_neq. congruence.
Qed.

(* merging leaves the nodes alone that none of the listed paths belongs to *)
Lemma merge_loop_others (Hcan : keeps_can ops) reg fl place : fl <> 0%Z -> forall l d reg' d' r, placed ops reg d fl place l ->
  merge_loop ops reg d l fl = (reg', d', r) ->
  forall j, (forall v, In v l -> place v <> j) -> nth_error (d_nodes d') j = nth_error (d_nodes d) j.
Proof.
  intros Hf. induction l as [|v l IH]; intros d reg' d' r Hpl; cbn [merge_loop].
  { intros H; inversion H; auto. }
  destruct (doc_set_path ops reg d (PathValue (pv_path v) (pv_ns v) (pv_value v) fl)) as [[r1 d1] e1] eqn:E.
  destruct (Hpl v (or_introl eq_refl)) as (Hk & ns & n & Pn & Sn).
  destruct (placed_after Hcan reg d fl place l _ _ _ _ _ _ _ _ _ Hf (fun w Hw => Hpl w (or_intror Hw)) Pn Sn Hk E) as (-> & Hpl' & Hoth).
  intros H j Hj. assert (Hj1 : nth_error (d_nodes d1) j = nth_error (d_nodes d) j).
  { apply Hoth. intros ->. now apply (Hj v (or_introl eq_refl)). }
  destruct e1; [|inversion H; subst; auto|inversion H; subst; auto].
  rewrite (IH _ _ _ _ Hpl' H j); auto. intros w Hw. apply Hj. now right.
Qed.

End F.
