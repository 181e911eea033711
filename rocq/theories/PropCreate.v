(* C29, C32: paths of namespaces that the document does not have yet *)
From Coq Require Import List Arith ZArith Bool Ascii String Lia.
From Verif Require Import GoStr GoStrFacts GoMap Names PathM SyncFlags PVList RegistryM NodeM FilterM DocM Spec SpecBasic SpecNode
  NodeFacts NodeMoreFacts NodePathFacts NodeListFacts SpecDoc DocFacts DocPathFacts DocSetFacts DocSyncFacts SpecCreate PropDoc.
Import ListNotations.
Local Open Scope string_scope.

(* ---- maps ---- *)
Lemma map_get_set {V} (m : gomap V) k v u : map_get (map_set m k v) u = if k =? u then Some v else map_get m u.
Proof.
  induction m as [|[k' v'] r IH]; cbn [map_set map_get]; [reflexivity|]. destruct (eqb_spec k' k) as [->|N]; cbn [map_get].
  - destruct (k =? u); reflexivity.
  - rewrite IH. destruct (eqb_spec k' u) as [->|_]; [|reflexivity]. destruct (eqb_spec k u); [congruence|reflexivity].
Qed.
Lemma map_get_in {V} (m : gomap V) k v : map_get m k = Some v -> In v (map snd m).
Proof. induction m as [|[k' v'] r IH]; cbn [map_get map snd In]; [discriminate|]. destruct (k' =? k); [intros [= ->]; auto|auto]. Qed.
Lemma map_set_in {V} (m : gomap V) k v w : In w (map snd (map_set m k v)) -> In w (map snd m) \/ w = v.
Proof. induction m as [|[k' v'] r IH]; cbn [map_set map snd In]; [intuition auto|]. destruct (k' =? k); cbn [map snd In]; [intuition auto|]. intros [->|H]; [auto|]. destruct (IH H); auto. Qed.
Lemma add_int_in m l w : In w (map snd (add_int m l)) -> In w (map snd m) \/ In w l.
Proof.
  unfold add_int. revert m. induction l as [|v l IH]; intros m; cbn [fold_left In]; [tauto|]. intros H. apply IH in H as [H|H]; [|tauto]. apply map_set_in in H as [H| ->]; tauto.
Qed.
Lemma find_uri_none (l : list namespace) u : ~ In u (map ns_uri l) -> find (fun v => ns_uri v =? u) l = None.
Proof. induction l as [|v l IH]; cbn [map In find]; [reflexivity|]. intros H. destruct (eqb_spec (ns_uri v) u) as [E|_]; [exfalso; auto|]. apply IH. auto. Qed.
Lemma add_int_get l : forall m u, NoDup (map ns_uri l) -> map_get (add_int m l) u = match find (fun v => ns_uri v =? u) l with Some v => Some v | None => map_get m u end.
Proof.
  unfold add_int. induction l as [|v l IH]; intros m u N; cbn [fold_left find]; [reflexivity|]. cbn [map] in N. inversion N as [|a b Na Nb]; subst. rewrite (IH _ _ Nb), map_get_set.
  destruct (eqb_spec (ns_uri v) u) as [<-|_]; [|reflexivity]. now rewrite (find_uri_none l _ Na).
Qed.

Lemma replace_last {A} (l : list A) x y : replace_nth (List.length l) x (l ++ [y]) = (l ++ [x])%list.
Proof. induction l as [|a l IH]; cbn [List.length app replace_nth]; [reflexivity|]. now rewrite IH. Qed.

Section C.
Context {M : Type}.
Variable ops : model_ops M.
Implicit Types (d : doc M) (n : node M).

Lemma prefix_of reg d p ns : reg_ok reg -> path_namespace reg d p = Some ns -> ns_name ns = namespace_prefix p.
Proof.
  intros R. unfold path_namespace. destruct (is_xmp_path p); [|discriminate]. unfold find_ns_by_prefix.
  destruct (find _ (map snd (d_int d))) eqn:E1; [intros [= <-]; apply find_some in E1 as [_ E1]; now apply eqb_eq in E1|].
  destruct (find _ (map snd (d_ext d))) eqn:E2; [intros [= <-]; apply find_some in E2 as [_ E2]; now apply eqb_eq in E2|].
  destruct (get_namespace reg (namespace_prefix p)) eqn:E3; try discriminate. intros [= <-]. now apply R.
Qed.

(* ---- the document with the new node ---- *)
Definition model_doc d (m : M) (n : node M) : doc M := set_dirty (with_nodes (with_maps d (add_int (d_int d) (mo_namespaces ops m)) (d_ext d)) (d_nodes d ++ [n])%list).
Lemma last_first (P : node M -> Prop) d n : (forall x, In x (d_nodes d) -> ~ P x) -> P n -> first_at P (d_nodes d ++ [n]) (List.length (d_nodes d)) n.
Proof.
  intros U H. split; [rewrite nth_error_app2, Nat.sub_diag by lia; reflexivity|]. split; [exact H|]. intros j y J E. rewrite nth_error_app1 in E by exact J. apply nth_error_In in E. auto.
Qed.
Lemma new_model_node d ns m : unused ops d (ns_name ns) -> new_model_for ops d ns m -> exists nm,
  let n := set_model (new_node nm) (Some m) in
  add_model ops d m = (model_doc d m n, Ok (List.length (d_nodes d))) /\ settled ops (model_doc d m n) ns (List.length (d_nodes d)) n
  /\ extended d n (mo_namespaces ops m) (model_doc d m n).
Proof.
  intros U (Hm & Hc & Hin & Hnd & _ & _ & ns0 & rest & E & U0). exists (ns_xml_name ns0 ""). cbv zeta. split; [|split].
  - unfold add_model. rewrite E. assert (F : doc_find_node ops (with_maps d (add_int (d_int d) (ns0 :: rest)) (d_ext d)) ns0 = None) by (apply find_node_none; exact U0).
    rewrite F. unfold model_doc. rewrite E. reflexivity.
  - assert (S : serves ops (ns_name ns) (set_model (new_node (ns_xml_name ns0 "")) (Some m))) by (exists m; split; [reflexivity|exact Hc]).
    split; [|left; exact S]. apply last_first; [exact U|right; exact S].
  - split; [reflexivity|]. split; [reflexivity|]. split; [reflexivity|]. split; [reflexivity|]. intros u. apply add_int_get. exact Hnd.
Qed.
Lemma new_model_namespace reg d p ns m n : reg_ok reg -> path_namespace reg d p = Some ns -> new_model_for ops d ns m -> path_namespace reg (model_doc d m n) p = Some ns.
Proof.
  intros R P (_ & _ & Hin & Hnd & Hu & Hi & _). pose proof (prefix_of reg d p ns R P) as E. unfold path_namespace in *. destruct (is_xmp_path p); [|discriminate].
  unfold find_ns_by_prefix. change (d_int (model_doc d m n)) with (add_int (d_int d) (mo_namespaces ops m)). rewrite <- E.
  assert (G : map_get (add_int (d_int d) (mo_namespaces ops m)) (ns_uri ns) = Some ns).
  { rewrite add_int_get by exact Hnd. destruct (find (fun v => ns_uri v =? ns_uri ns) (mo_namespaces ops m)) as [w|] eqn:F.
    - apply find_some in F as [F1 F2]. apply eqb_eq in F2. f_equal. apply in_split in F1 as (a & b & S). apply in_split in Hin as (a' & b' & S').
      assert (Q : forall (l : list namespace) x y, NoDup (map ns_uri l) -> In x l -> In y l -> ns_uri x = ns_uri y -> x = y).
      { clear. induction l as [|h l IH]; cbn [map In]; [tauto|]. intros x y N. inversion N as [|? ? Na Nb]; subst. intros [->|X] [->|Y] Q; auto; exfalso; apply Na; [rewrite Q|rewrite <- Q]; now apply in_map. }
      apply (Q (mo_namespaces ops m)); auto; [rewrite S|rewrite S']; apply in_or_app; right; now left.
    - exfalso. pose proof (find_none _ _ F ns Hin) as X. cbv beta in X. rewrite eqb_refl in X. discriminate. }
  destruct (find (fun v => ns_name v =? ns_name ns) (map snd (add_int (d_int d) (mo_namespaces ops m)))) as [w|] eqn:F.
  - apply find_some in F as [F1 F2]. apply eqb_eq in F2. f_equal. apply add_int_in in F1 as [F1|F1]; auto.
  - exfalso. pose proof (find_none _ _ F ns (map_get_in _ _ _ G)) as X. cbv beta in X. rewrite eqb_refl in X. discriminate.
Qed.

Lemma set_new_model reg d p x v fl ns m : reg_ok reg -> path_namespace reg d p = Some ns -> unused ops d (ns_name ns) -> new_model_for ops d ns m ->
  on (effective fl) CREATE = true -> exists nm, let n := set_model (new_node nm) (Some m) in let d1 := model_doc d m n in
  extended d n (mo_namespaces ops m) d1 /\ settled ops d1 ns (List.length (d_nodes d)) n /\ path_namespace reg d1 p = Some ns
  /\ doc_set_path ops reg d (PathValue p x v fl) = doc_set_path ops reg d1 (PathValue p x v fl).
Proof.
  intros R P U N C. destruct (new_model_node d ns m U N) as (nm & A & S & E). exists nm. cbv zeta. pose proof (new_model_namespace reg d p ns m (set_model (new_node nm) (Some m)) R P N) as P1.
  split; [exact E|]. split; [exact S|]. split; [exact P1|]. rewrite (doc_set_settled ops reg _ p x v fl ns _ _ P1 S).
  unfold doc_set_path. cbn [pv_path pv_ns pv_value pv_flags]. rewrite (ns_xmp _ _ _ _ P), P. cbn [negb]. fold (effective fl). unfold set_path_ns.
  assert (F : doc_find_model ops d ns = None) by (apply find_model_none; intros y Hy Hs; apply (U y Hy); now right).
  assert (G : doc_find_node ops d ns = None) by (apply find_node_none; exact U). rewrite F, G, C. cbn [negb andb]. destruct N as (Hm & _). rewrite Hm, A. reflexivity.
Qed.

(* the same for a namespace without a model type: the node is raw *)
Lemma nl_add_new (l : list (node M)) n : (forall x, In x l -> x_local (n_name x) <> x_local (n_name n)) -> nl_add l n = (l ++ [n])%list.
Proof. induction l as [|v l IH]; intros H; cbn [nl_add app]; [reflexivity|]. destruct (eqb_spec (x_local (n_name v)) (x_local (n_name n))) as [E|_]; [exfalso; apply (H v); [now left|exact E]|]. f_equal. apply IH. intros x Hx. apply H. now right. Qed.
Lemma set_new_raw reg d p x v fl ns : path_namespace reg d p = Some ns -> no_char ":" (ns_name ns) -> unused ops d (ns_name ns) -> new_model ops ns = None ->
  on (effective fl) CREATE = true -> let n := new_node (ns_root_name ns) in let d1 := with_nodes d (d_nodes d ++ [n])%list in
  extended d n [] d1 /\ settled ops d1 ns (List.length (d_nodes d)) n /\ path_namespace reg d1 p = Some ns
  /\ doc_set_path ops reg d (PathValue p x v fl) = doc_set_path ops reg d1 (PathValue p x v fl).
Proof.
  intros P NC U N C. cbv zeta. set (n := new_node (ns_root_name ns)). set (d1 := with_nodes d (d_nodes d ++ [n])%list).
  assert (L : node_local n = ns_name ns) by (unfold n, node_local; cbn [new_node n_name x_local ns_root_name]; now apply strip_prefix_none).
  assert (S : settled ops d1 ns (List.length (d_nodes d)) n).
  { split; [apply last_first; [exact U|now left]|]. right. split; [reflexivity|]. split; [|exact N]. intros y Hy Hs. cbn in Hy. apply in_app_or in Hy as [Hy|[<-|[]]]; [apply (U y Hy); now right|]. destruct Hs as (m & Hm & _). discriminate Hm. }
  split; [repeat split|]. split; [exact S|]. split; [exact P|]. rewrite (doc_set_settled ops reg d1 p x v fl ns _ _ P S).
  unfold doc_set_path. cbn [pv_path pv_ns pv_value pv_flags]. rewrite (ns_xmp _ _ _ _ P), P. cbn [negb]. fold (effective fl). unfold set_path_ns.
  assert (F : doc_find_model ops d ns = None) by (apply find_model_none; intros y Hy Hs; apply (U y Hy); now right).
  assert (G : doc_find_node ops d ns = None) by (apply find_node_none; exact U). rewrite F, G, C, N. cbn [negb andb].
  assert (X : forall y, In y (d_nodes d) -> x_local (n_name y) <> ns_name ns).
  { intros y Hy E. apply (U y Hy). left. unfold node_local. rewrite E. now apply strip_prefix_none. }
  fold n. rewrite (nl_add_new (d_nodes d) n X). fold d1.
  assert (I : find_index (fun y => x_local (n_name y) =? ns_name ns) (d_nodes d1) = Some (List.length (d_nodes d))).
  { apply (find_index_first _ (fun y => x_local (n_name y) = ns_name ns) _ _ n); [intros y; apply eqb_eq|]. apply last_first; [exact X|reflexivity]. }
  rewrite I. reflexivity.
Qed.

(* every path can be made below a node without children *)
Lemma fresh_addressable reg fl segs : (forall s l, In s segs -> ps_sel s = SLang l -> on fl APPEND = true \/ on fl UNIQUE = true) ->
  forall (x : node M), fresh x -> addressable reg fl x segs.
Proof.
  induction segs as [|s rest IH]; intros H x F; [constructor|]. apply addr_new.
  - intros _ a Ha. destruct F as (F & _). rewrite F in Ha. contradiction.
  - intros c Hc. destruct F as (_ & _ & _ & F). rewrite F in Hc. contradiction.
  - intros l Hl. apply (H s l); [now left|exact Hl].
  - apply IH. intros s' l I. apply (H s' l). now right.
Qed.
End C.

(* ---- C29: setting the first property of a namespace ---------------------------------------------------------- *)

(* A path of a namespace without a node: SetPath adds a new model and goes on as on a document that has it. *)
Theorem C29_adds_model {M} (ops : model_ops M) reg d p x v fl ns m : reg_ok reg -> path_namespace reg d p = Some ns ->
  unused ops d (ns_name ns) -> new_model_for ops d ns m -> on (effective fl) CREATE = true ->
  exists d1 n, extended d n (mo_namespaces ops m) d1 /\ n_model n = Some m /\ n_nodes n = [] /\ settled ops d1 ns (List.length (d_nodes d)) n
    /\ path_namespace reg d1 p = Some ns /\ doc_set_path ops reg d (PathValue p x v fl) = doc_set_path ops reg d1 (PathValue p x v fl).
Proof.
  intros R P U N C. destruct (set_new_model ops reg d p x v fl ns m R P U N C) as (nm & E & S & P1 & Q). eexists. eexists. split; [exact E|]. split; [reflexivity|]. split; [reflexivity|]. split; [exact S|]. split; [exact P1|exact Q].
Qed.
Print Assumptions C29_adds_model.
(* The same for a namespace without a model type: a raw node is added. *)
Theorem C29_adds_node {M} (ops : model_ops M) reg d p x v fl ns : path_namespace reg d p = Some ns -> no_char ":" (ns_name ns) ->
  unused ops d (ns_name ns) -> new_model ops ns = None -> on (effective fl) CREATE = true ->
  exists d1 n, extended d n [] d1 /\ n_model n = None /\ n_nodes n = [] /\ n_name n = XName "" (ns_name ns) /\ settled ops d1 ns (List.length (d_nodes d)) n
    /\ path_namespace reg d1 p = Some ns /\ doc_set_path ops reg d (PathValue p x v fl) = doc_set_path ops reg d1 (PathValue p x v fl).
Proof.
  intros P NC U N C. destruct (set_new_raw ops reg d p x v fl ns P NC U N C) as (E & S & P1 & Q). eexists. eexists. split; [exact E|]. do 3 (split; [reflexivity|]). split; [exact S|]. split; [exact P1|exact Q].
Qed.
Print Assumptions C29_adds_node.

(* What was set is read back. *)
Theorem C29_new_model_partial {M} (ops : model_ops M) reg d p x v fl ns m reg' d' segs : reg_ok reg -> path_namespace reg d p = Some ns ->
  unused ops d (ns_name ns) -> new_model_for ops d ns m -> on (effective fl) CREATE = true -> on (effective fl) NOFAIL = false ->
  p = render (ns_name ns) segs -> Forall pseg_ok segs -> no_char ":" (ns_name ns) -> segs <> [] -> v <> "" ->
  (forall s l, In s segs -> ps_sel s = SLang l -> any_of (effective fl) [APPEND; UNIQUE]) -> answers ops m p v (effective fl) ->
  doc_set_path ops reg d (PathValue p x v fl) = (reg', d', Ok tt) -> reg' = reg /\ doc_get_path ops reg d' p = Ok v.
Proof.
  intros R P U N C NF E OK NC NE V L A. destruct (set_new_model ops reg d p x v fl ns m R P U N C) as (nm & _ & S & P1 & ->). cbv zeta in S, P1. intros H.
  refine (C29_set_then_get_partial ops reg _ p x v fl ns _ _ reg' d' segs P1 S E OK NC NE V _ NF _ _ _ H).
  - rewrite on_lor by discriminate. rewrite C. apply orb_true_r.
  - intros m0 [= <-]. exact A.
  - intros y Y. inversion Y as [|? ? ? I]; subst; [reflexivity|]. cbn in I. contradiction.
  - apply fresh_addressable; [|repeat split]. intros s l I Q. destruct (L s l I Q) as (f & [<-|[<-|[]]] & F); auto.
Qed.
Print Assumptions C29_new_model_partial.
Theorem C29_new_node_partial {M} (ops : model_ops M) reg d p x v fl ns reg' d' segs : path_namespace reg d p = Some ns ->
  unused ops d (ns_name ns) -> new_model ops ns = None -> on (effective fl) CREATE = true -> on (effective fl) NOFAIL = false ->
  p = render (ns_name ns) segs -> Forall pseg_ok segs -> no_char ":" (ns_name ns) -> segs <> [] -> v <> "" ->
  (forall s l, In s segs -> ps_sel s = SLang l -> any_of (effective fl) [APPEND; UNIQUE]) ->
  doc_set_path ops reg d (PathValue p x v fl) = (reg', d', Ok tt) -> reg' = reg /\ doc_get_path ops reg d' p = Ok v.
Proof.
  intros P U N C NF E OK NC NE V L. destruct (set_new_raw ops reg d p x v fl ns P NC U N C) as (_ & S & P1 & ->). cbv zeta in S, P1. intros H.
  refine (C29_set_then_get_partial ops reg _ p x v fl ns _ _ reg' d' segs P1 S E OK NC NE V _ NF _ _ _ H).
  - rewrite on_lor by discriminate. rewrite C. apply orb_true_r.
  - intros m0 X. discriminate X.
  - intros y Y. inversion Y as [|? ? ? I]; subst; [reflexivity|]. cbn in I. contradiction.
  - apply fresh_addressable; [|repeat split]. intros s l I Q. destruct (L s l I Q) as (f & [<-|[<-|[]]] & F); auto.
Qed.
Print Assumptions C29_new_node_partial.

Definition bare_doc : doc toy := with_nodes empty_doc [top "pdf" (Some ("pdf", ("t", ""))) "" []].
Definition zz : namespace := Namespace "zz" "uri:zz" None.
Definition bare_reg : registry := registry_of [(dc, []); (pdf, []); (zz, [])].
Example C29_new_hyps : path_namespace bare_reg bare_doc "dc:title" = Some dc /\ unused toy_ops bare_doc "dc" /\ new_model_for toy_ops bare_doc dc ("dc", ("", ""))
  /\ path_namespace bare_reg bare_doc "zz:a/zz:b" = Some zz /\ unused toy_ops bare_doc "zz" /\ new_model toy_ops zz = None
  /\ snd (doc_set_path toy_ops bare_reg bare_doc (PathValue "dc:title" "" "new" CREATE)) = Ok tt
  /\ snd (doc_set_path toy_ops bare_reg bare_doc (PathValue "zz:a/b" "" "new" 0)) = Ok tt
  /\ doc_get_path toy_ops bare_reg (snd (fst (doc_set_path toy_ops bare_reg bare_doc (PathValue "zz:a/b" "" "new" 0)))) "zz:a/b" = Ok "new".
Proof.
  assert (U : forall pre, pre <> "pdf" -> unused toy_ops bare_doc pre).
  { intros pre N y [<-|[]] [H|(m & [= <-] & H)]; [apply N; symmetry; exact H|]. cbn in H. apply eqb_eq in H. congruence. }
  split; [vm_compute; reflexivity|]. split; [apply U; discriminate|]. split.
  - split; [reflexivity|]. split; [reflexivity|]. split; [now left|]. split; [repeat constructor; tauto|]. split; [intros v [<-|[]] _; reflexivity|]. split; [intros v []|].
    exists dc, []. split; [reflexivity|]. apply U. discriminate.
  - split; [vm_compute; reflexivity|]. split; [apply U; discriminate|]. split; [reflexivity|]. split; [vm_compute; reflexivity|]. split; vm_compute; reflexivity.
Qed.

(* ---- C32: Sync to a namespace that the document does not have ------------------------------------------------- *)

Theorem C32_sync_new_model {M} (ops : model_ops M) reg d sp dp fl conv sns si sn sm dns m sv dv m' e :
  path_namespace reg d sp = Some sns -> first_at (serves ops (ns_name sns)) (d_nodes d) si sn -> n_model sn = Some sm ->
  path_namespace reg d dp = Some dns -> unused ops d (ns_name dns) -> new_model_for ops d dns m -> on (effective fl) CREATE = true ->
  mo_get ops sm sp = Ok sv -> mo_get ops m dp = Ok dv -> sync_may sv dv (effective fl) ->
  mo_set ops m dp (match conv with Some f => f sv | None => sv end) (effective fl) = (m', e) ->
  exists d' n, doc_sync ops reg d sp dp fl None conv = (d', nofail (effective fl) e) /\ n_model n = Some m' /\ n_nodes n = []
    /\ extended d n (mo_namespaces ops m) d' /\ d_dirty d' = true.
Proof.
  intros Ps Fs Ms Pd U N C Gs Gd May Set_. destruct (new_model_node ops d dns m U N) as (nm & A & S & E). cbv zeta in A, S, E. set (n := set_model (new_node nm) (Some m)) in *.
  unfold doc_sync. rewrite (ns_xmp _ _ _ _ Ps), (ns_xmp _ _ _ _ Pd), Ps, Pd. cbn [negb orb]. fold (effective fl). rewrite (find_model_first _ _ _ _ _ Fs).
  unfold sync_dest. assert (F : doc_find_model ops d dns = None) by (apply find_model_none; intros y Hy Hs; apply (U y Hy); now right). rewrite F, C. cbn [negb].
  destruct N as (Hm & _). rewrite Hm, A. unfold model_at. destruct Fs as [-> _]. rewrite Ms.
  destruct S as [(Hi & _) _].
  rewrite (sync_copy_yes ops (model_doc ops d m n) sp dp _ (Some sm) _ n m conv sv dv m' e Gs Hi eq_refl Gd May Set_). cbv zeta.
  set (d2 := with_nodes _ _). assert (X : extended d (set_model n (Some m')) (mo_namespaces ops m) d2).
  { destruct E as (E1 & E2 & E3 & E4 & E5). split; [|split; [exact E2|split; [exact E3|split; [exact E4|exact E5]]]]. unfold d2. cbn [with_nodes d_nodes].
    change (d_nodes (model_doc ops d m n)) with (d_nodes d ++ [n])%list. now rewrite replace_last. }
  destruct e as [[]|s|]; eexists; exists (set_model n (Some m')); (split; [reflexivity|]); (split; [reflexivity|]); (split; [reflexivity|]); (split; [exact X|reflexivity]).
Qed.
Print Assumptions C32_sync_new_model.

(* Even if there is nothing to copy, an empty model is added. *)
Theorem C32_empty_model_refuted {M} (ops : model_ops M) reg d sp dp fl conv sns si sn sm dns m :
  path_namespace reg d sp = Some sns -> first_at (serves ops (ns_name sns)) (d_nodes d) si sn -> n_model sn = Some sm ->
  path_namespace reg d dp = Some dns -> unused ops d (ns_name dns) -> new_model_for ops d dns m -> on (effective fl) CREATE = true ->
  mo_get ops sm sp = Ok "" -> mo_get ops m dp = Ok "" ->
  exists d' n, doc_sync ops reg d sp dp fl None conv = (d', Ok tt) /\ n_model n = Some m /\ extended d n (mo_namespaces ops m) d'.
Proof.
  intros Ps Fs Ms Pd U N C Gs Gd. destruct (new_model_node ops d dns m U N) as (nm & A & S & E). cbv zeta in A, S, E. set (n := set_model (new_node nm) (Some m)) in *.
  unfold doc_sync. rewrite (ns_xmp _ _ _ _ Ps), (ns_xmp _ _ _ _ Pd), Ps, Pd. cbn [negb orb]. fold (effective fl). rewrite (find_model_first _ _ _ _ _ Fs).
  unfold sync_dest. assert (F : doc_find_model ops d dns = None) by (apply find_model_none; intros y Hy Hs; apply (U y Hy); now right). rewrite F, C. cbn [negb].
  destruct N as (Hm & _). rewrite Hm, A. unfold model_at. destruct Fs as [-> _]. rewrite Ms. destruct S as [(Hi & _) _].
  rewrite (sync_copy_no ops (model_doc ops d m n) sp dp _ (Some sm) (MAt (List.length (d_nodes d))) conv "" "" Gs).
  - exists (model_doc ops d m n), n. split; [reflexivity|]. split; [reflexivity|exact E].
  - cbn [mref_get]. unfold model_at. rewrite Hi. exact Gd.
  - intros (X & _). now apply X.
Qed.
Print Assumptions C32_empty_model_refuted.
Example C32_new_hyps : path_namespace bare_reg bare_doc "pdf:title" = Some pdf /\ toy_get ("pdf", ("t", "")) "pdf:title" = Ok "t" /\ toy_get ("dc", ("", "")) "dc:title" = Ok ""
  /\ sync_may "t" "" CREATE /\ toy_get ("pdf", ("t", "")) "pdf:format" = Ok "".
Proof. do 3 (split; [vm_compute; reflexivity|]). split; [|vm_compute; reflexivity]. split; [discriminate|]. split; [discriminate|]. split; [reflexivity|]. intros H. now contradiction H. Qed.
