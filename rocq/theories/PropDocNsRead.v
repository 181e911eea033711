(* C144 for documents read from a packet *)
From Coq Require Import List Arith ZArith Bool Ascii String Lia.
From Verif Require Import GoStr GoMap Names Semver RegistryM SpecRegistry RegistryFacts PropRegistry NodeM DocM TypeM DecodeM
  SpecDecode DecodeFacts PropDecode DocNsM PropDocNs.
Import ListNotations.
Local Open Scope string_scope.

Lemma map_set_key {V} (m : gomap V) k v u : In u (map fst (map_set m k v)) <-> u = k \/ In u (map fst m).
Proof.
  induction m as [|[a b] m IH]; cbn; [intuition|]. destruct (a =? k) eqn:E; cbn; [|rewrite IH; intuition].
  apply String.eqb_eq in E. subst a. intuition.
Qed.
Lemma map_get_key {V} (m : gomap V) k : map_get m k <> None <-> In k (map fst m).
Proof.
  induction m as [|[a b] m IH]; cbn; [intuition|]. destruct (a =? k) eqn:E.
  - apply String.eqb_eq in E. intuition discriminate.
  - apply String.eqb_neq in E. rewrite IH. intuition.
Qed.
Lemma filed_set m k v : filed m -> k = ns_uri v -> filed (map_set m k v).
Proof.
  intros [F1 F2] ->. split; [now apply RegistryFacts.map_set_keys|]. intros k w H. apply map_set_in in H. destruct H as [E|H]; [now inversion E|eauto].
Qed.

Section Read.
Variable h : list reg_op.
Hypothesis Hh : injective_history h.
Notation reg := (registry_of h).

Definition good (m : nsmaps) (us : list string) : Prop :=
  filed (fst m) /\ filed (snd m) /\
  (forall u, In u (map fst (fst m)) -> reg_get_prefix reg u <> "") /\
  (forall u, In u (map fst (snd m)) -> reg_get_prefix reg u = "") /\
  (forall u, In u (map fst (fst m)) \/ In u (map fst (snd m)) <-> In u us).

Lemma add_good m us p u : good m us -> good (add_namespace reg m p u) (us ++ [u])%list.
Proof.
  destruct m as [i e]. intros (F1 & F2 & R1 & R2 & K). cbn [fst snd] in *. unfold add_namespace.
  assert (K' : forall w, In w (us ++ [u])%list <-> w = u \/ In w us).
  { intros w. rewrite in_app_iff. cbn. intuition. }
  destruct (reg_get_prefix reg u) as [|c s] eqn:E.
  - cbn [emptyb negb]. destruct (map_get e u) as [v|] eqn:G.
    + split; [exact F1|]. split; [exact F2|]. split; [exact R1|]. split; [exact R2|]. intros w. cbn [fst snd]. rewrite K', K.
      split; [tauto|]. intros [->|H]; auto. apply K. right. apply map_get_key. congruence.
    + split; [exact F1|]. split; [now apply filed_set|]. split; [exact R1|]. cbn [fst snd]. split.
      * intros w H. apply map_set_key in H. destruct H as [->|H]; auto.
      * intros w. rewrite map_set_key, K', <- K. tauto.
  - cbn [emptyb negb]. destruct (C11_prefix_of_uri_resolves_partial h Hh u) as (ns & G & Hu); [congruence|]. rewrite E in G. rewrite G.
    split; [now apply filed_set|]. split; [exact F2|]. cbn [fst snd]. split; [|split; [exact R2|]].
    + intros w H. apply map_set_key in H. destruct H as [->|H]; auto. congruence.
    + intros w. rewrite map_set_key, K', <- K. tauto.
Qed.
Lemma collect_good ds : good (collect_pairs reg ds) (map snd ds).
Proof.
  unfold collect_pairs. assert (G : forall ds m us, good m us ->
    good (fold_left (fun m d => add_namespace reg m (fst d) (snd d)) ds m) (us ++ map snd ds)%list).
  { clear ds. induction ds as [|[p u] ds IH]; intros m us H; cbn [fold_left map fst snd]; [now rewrite List.app_nil_r|].
    replace (us ++ u :: map snd ds)%list with ((us ++ [u]) ++ map snd ds)%list by now rewrite <- List.app_assoc.
    apply IH. now apply add_good. }
  apply (G ds ([], []) []). split; [apply filed_nil|]. split; [apply filed_nil|]. cbn. intuition.
Qed.
Lemma NoDup_two {A} (a b : list A) : NoDup a -> NoDup b -> (forall x, In x a -> In x b -> False) -> NoDup (a ++ b).
Proof.
  induction a as [|x a IH]; intros Ha Hb H; [exact Hb|]. inversion Ha; subst. cbn [app]. constructor.
  - rewrite in_app_iff. intros [I|I]; [auto|]. apply (H x); cbn; auto.
  - apply IH; auto. intros y I J. apply (H y); cbn; auto.
Qed.
End Read.

(* The document that was read (before the models are synchronised) lists exactly the namespaces declared on its
   descriptions, known and unknown, each once. *)
Theorem C144_decoded : forall X ver h (kinds : nat -> string -> option (mkind X)) sync_from x root rdf r,
  injective_history h -> chain_ok (registry_of h) root rdf ->
  decode ver (registry_of h) kinds sync_from x root = (r, Ok tt) ->
  exists d, sync_from d = (r, Ok tt) /\ NoDup (map ns_uri (doc_namespaces d)) /\
    forall u, In u (map ns_uri (doc_namespaces d)) <-> In u (map snd (decls (n_nodes rdf))).
Proof.
  intros X ver h kinds sync_from x root rdf r Hh Hc E. rewrite (decode_ok_chain _ _ _ _ _ _ _ Hc) in E.
  rewrite collect_pairs_eq in E. pose proof (collect_good h Hh (decls (n_nodes rdf))) as G.
  destruct (collect_pairs (registry_of h) (decls (n_nodes rdf))) as [i e]. destruct G as (F1 & F2 & R1 & R2 & K). cbn [fst snd] in *.
  destruct (decode_properties _ _ _ _ _ _ _) as [nodes|z|]; try discriminate. eexists. split; [exact E|].
  unfold doc_namespaces. cbn [d_int d_ext]. rewrite map_app, <- !filed_uris by auto. split.
  - apply NoDup_two; [apply F1|apply F2|]. intros u H1 H2. now apply (R1 u H1), R2.
  - intros u. rewrite in_app_iff. apply K.
Qed.
Print Assumptions C144_decoded.

Example C144_decoded_hyps : injective_history h0 /\ chain_ok (registry_of h0) root0 rdf0 /\
  snd (decode v0 (registry_of h0) kinds0 no_sync empty_doc root0) = Ok tt /\
  map ns_uri (doc_namespaces (fst (decode v0 (registry_of h0) kinds0 no_sync empty_doc root0))) = [u_dc; u_foo].
Proof.
  split; [|split; [exact chain0|split; vm_compute; reflexivity]].
  unfold injective_history, h0. cbn. intuition (subst; auto); try discriminate.
Qed.
