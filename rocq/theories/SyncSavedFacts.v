(* What a document says after saving *)
From Coq Require Import List Arith ZArith Bool Ascii String Lia.
From Verif Require Import GoStr GoMap Names Semver RegistryM PathM PVList NodeM FilterM ArrayM CodecM DocM DocFacts TypeM TagM DecodeM TPathM ModelTypes SpecTrip SpecSync SyncModelsM SyncFacts SyncSpecFacts.
Import ListNotations.
Local Open Scope string_scope.

Section F.
Context {X : Type}.
Variable cdc : string -> codec X.
Variable den_zero : gval X -> bool.
Variable kinds : nat -> string -> option (mkind X).
Variable growth : nat -> nat.
Variable sortf : list path_value -> list path_value.
Variable conv : string -> list (gval X) -> result (gval X).
Hypothesis Hk : forall f p k, library_kinds cdc den_zero f p = Some k -> kinds f p = Some k.
(* the zero date and the zero truth value are empty *)
Hypothesis Hz : c_empty (cdc "xmp.Date") (c_zero (cdc "xmp.Date")) = true /\ c_empty (cdc "xmp.Bool") (c_zero (cdc "xmp.Bool")) = true.
Notation model := (tmodel X).
Notation gval := (gval X).
Notation doc := (doc (tmodel X)).
Notation bops := (base_ops kinds growth sortf).
Notation lops := (lib_ops kinds growth sortf conv).
Notation lib := (library_models cdc den_zero).
Notation okd := (okd cdc den_zero).
Notation V := (V kinds growth sortf).
Notation shareds := (copied cdc ++ overwritten cdc conv)%list.
Notation row_of := (row_of conv).

(* ---- what a document says after saving ---- *)
Lemma row_ns x s ns : row_of x s -> In ns targets -> ns_name ns = sh_prefix s ->
  puts (cell_ops ns (sh_name s) (steps_to conv x)) = demands s x
  /\ filter (set_in (sh_type s)) (fills (cell_ops ns (sh_name s) (steps_to conv x))) = filter (set_in (sh_type s)) (proposes s x).
Proof. intros (ns' & Ht & En & P) Ht' En'. assert (ns' = ns) as <- by (apply targets_named; congruence). exact P. Qed.
Lemma plan_rows (d : doc) s ns : library_values cdc den_zero d -> In s shareds -> In ns targets -> ns_name ns = sh_prefix s ->
  let L := cell_ops ns (sh_name s) (flat_map (steps_to conv) (models_of d)) in
  puts L = flat_map (demands s) (models_of d)
  /\ filter (set_in (sh_type s)) (fills L) = filter (set_in (sh_type s)) (flat_map (proposes s) (models_of d)).
Proof.
  intros Hl Hs Ht En. cbn zeta. unfold library_values in Hl. induction (models_of d) as [|x l IH]; [now split|].
  inversion Hl as [|? ? [H1 H2] H3]; subst. destruct (IH H3) as [I1 I2]. cbn [flat_map]. rewrite ops_app, puts_app, fills_app, !filter_app, I1, I2.
  destruct (row_ns x s ns (row_all cdc den_zero conv Hz x s H1 H2 Hs) Ht En) as [P1 P2]. now rewrite P1, P2.
Qed.
Lemma rows_mixed s : In s shareds ->
  (forall y, proposes s y = []) \/
  forall x, In (tm_kind x) lib -> List.length (tm_vals x) = List.length (k_fields (tm_kind x)) -> Forall (fun v => set_in (sh_type s) v = true) (demands s x).
Proof.
  intros Hs. apply in_app_or in Hs. destruct Hs as [Hs|Hs].
  - right. intros x _ _. cbn in Hs. repeat (destruct Hs as [<-|Hs]; [constructor|]). contradiction.
  - cbn in Hs. destruct Hs as [<-|Hs]; [right|left].
    + intros x L N. cbn [demands sh_type]. unfold only, if_a. rewrite home_can with (1 := L). destruct (String.eqb_spec (home x) "id3") as [E|_]; [|constructor].
      rewrite if_set_unset. destruct (unset x "id3:recordingTime") eqn:U; constructor; [|constructor].
      rewrite (unset_set_in x _ _ _ (kind_id3 _ _ _ L E)); [now rewrite U|vm_compute; reflexivity..|exact N].
    + repeat (destruct Hs as [<-|Hs]; [reflexivity|]). contradiction.
Qed.
Theorem said_after (d d' : doc) s : library_values cdc den_zero d -> d_dirty d = true -> sync_to_xmp lops d = (d', Ok tt) -> In s shareds ->
  said d' (sh_prefix s) (sh_name s) = chosen s d.
Proof.
  intros Hl Hd H Hs. unfold sync_to_xmp in H. rewrite Hd in H. cbn [negb] in H.
  destruct (sync_to_loop lops (List.length (d_nodes d)) 0 d) as [d1 [[]|e|]] eqn:E; inversion H; subst; clear H.
  pose proof (proj2 (okd_values cdc den_zero d) Hl) as O. pose proof (loop_evo cdc den_zero kinds growth sortf conv Hk _ _ _ _ _ O E) as Ev.
  pose proof (evo_okd _ _ _ _ _ _ _ _ O Ev) as O1.
  pose proof (rows_typed cdc den_zero kinds growth sortf conv Hk Hz) as R. rewrite Forall_forall in R. pose proof (R s Hs) as Rs.
  destruct (said_V _ _ _ _ _ s d Rs O) as (ns & Ht & En & S0 & v0 & V0).
  destruct (said_V _ _ _ _ _ s d1 Rs O1) as (ns1 & Ht1 & En1 & S1 & _). assert (ns1 = ns) as -> by (apply targets_named; congruence).
  change (said d1 (sh_prefix s) (sh_name s) = chosen s d). rewrite S1. unfold chosen. rewrite S0, V0. cbn [seen_at].
  pose proof (loop_V cdc den_zero kinds growth sortf conv Hk _ ns (sh_name s) Ht 0 d d1 O E) as LV. rewrite plan_models in LV.
  destruct (plan_rows d s ns Hl Hs Ht En) as [P1 P2]. set (L := cell_ops ns (sh_name s) (flat_map (steps_to conv) (models_of d))) in *.
  rewrite V0 in LV. destruct (fold_ops cdc Hz (sh_type s) L v0) as (w & F & Ew).
  { rewrite P1, P2. unfold library_values in Hl. destruct (rows_mixed s Hs) as [D|D]; [left|right].
    - clear - D. induction (models_of d) as [|a l IH]; [reflexivity|]. cbn. now rewrite D.
    - clear - D Hl. induction (models_of d) as [|a l IH]; [constructor|]. inversion Hl as [|? ? [H1 H2] H3]; subst. cbn. apply Forall_app. auto. }
  rewrite F in LV. rewrite LV. cbn [seen_at]. rewrite Ew, P1.
  assert (Q : find (set_in (sh_type s)) (fills L) = find (fun v => negb (is_empty (sh_type s) v)) (flat_map (proposes s) (models_of d))).
  { change (fun v => negb (is_empty (sh_type s) v)) with (set_in (sh_type s)). rewrite !find_filter. now rewrite P2. }
  rewrite Q. reflexivity.
Qed.
End F.
