(* The models of the library meet the conditions of the round trips (SpecTrip.v), whatever the text forms. *)
From Coq Require Import List Arith ZArith Bool Ascii String Permutation Lia.
From Verif Require Import GoStr GoStrFacts GoMap Spec SpecFacts Names Semver RegistryM SpecRegistry RegistryFacts NodeM DocM ArrayM TypeM TagM DecodeM JsonM
  SpecJson SpecType SpecTree SpecTrip PathFacts DocFacts TripSpecFacts JsonSpecFacts TypeFacts TreeFacts ModelTypes SpecLib.
Import ListNotations.
Local Open Scope string_scope.

Section B.
Context {X : Type}.
Notation ty := (ty X).
Notation gval := (gval X).

(* ---- types ---------------------------------------------------------------------------------------- *)

Fixpoint nodupb (l : list string) : bool :=
  match l with [] => true | s :: r => negb (existsb (String.eqb s) r) && nodupb r end.
Definition inb (s : string) (l : list string) : bool := existsb (String.eqb s) l.
Lemma inb_in s l : inb s l = true <-> In s l.
Proof.
  unfold inb. rewrite existsb_exists. split; [intros (x & H & E); apply String.eqb_eq in E; congruence|].
  intros H. exists s. split; [exact H|apply String.eqb_refl].
Qed.
Lemma nodupb_nodup l : nodupb l = true -> NoDup l.
Proof.
  induction l as [|s l IH]; intros H; [constructor|]. cbn in H. apply andb_true_iff in H. destruct H as [H1 H2]. constructor; [|auto].
  intros K. apply inb_in in K. unfold inb in K. rewrite K in H1. discriminate.
Qed.
Fixpoint wf_tyb (t : ty) : bool :=
  match t with
  | TArr i t' => (negb (ar_xmp i) || inb (ar_type i) ["Seq"; "Bag"; "Alt"]) && wf_tyb t'
  | TPtr t' => negb (is_ptr t') && wf_tyb t'
  | TStruct _ fs =>
      nodupb (map (fun f => f_name (fst f)) fs) && forallb (fun f => negb (inb (f_name (fst f)) reserved)) fs
      && (fix all (l : list (finfo * ty)) : bool := match l with [] => true | f :: r => wf_tyb (snd f) && all r end) fs
  | _ => true
  end.
Lemma nodup_filter {A} (g : A -> string) (p : A -> bool) l : NoDup (map g l) -> NoDup (map g (filter p l)).
Proof.
  induction l as [|x l IH]; intros H; [constructor|]. inversion H as [|? ? H1 H2]; subst. cbn [filter]. destruct (p x); [|auto].
  cbn [map]. constructor; [|auto]. intros K. apply H1. apply in_map_iff in K. destruct K as (y & E & K). rewrite <- E. apply in_map.
  apply filter_In in K. apply K.
Qed.
Lemma wf_tyb_ok ver t : wf_tyb t = true -> wf_ty ver t.
Proof.
  induction t as [| | | bi | bu | c | m | i t IH | t IH | i fs IH] using ty_nested_ind; intros H; try exact I.
  - cbn [wf_tyb] in H. apply andb_true_iff in H. destruct H as [H1 H2]. split; [|auto]. intros E. rewrite E in H1. now apply inb_in.
  - cbn [wf_tyb] in H. apply andb_true_iff in H. destruct H as [H1 H2]. split; [now apply negb_true_iff|auto].
  - cbn [wf_tyb] in H. apply andb_true_iff in H. destruct H as [H H3]. apply andb_true_iff in H. destruct H as [H1 H2]. cbn [wf_ty].
    split; [|split].
    + apply nodup_filter. apply nodupb_nodup. now rewrite map_map.
    + intros f Hf. apply in_map_iff in Hf. destruct Hf as ([f' t'] & <- & Hf). rewrite forallb_forall in H2. specialize (H2 _ Hf).
      cbn [fst] in *. intros K. apply inb_in in K. rewrite K in H2. discriminate.
    + clear H1 H2. induction IH as [|f fs Hf IH IH2]; [exact I|]. apply andb_true_iff in H3. destruct H3 as [H3 H4]. split; [exact (Hf H3)|exact (IH2 H4)].
Qed.

(* ---- names ---------------------------------------------------------------------------------------- *)

Fixpoint ty_names (t : ty) : list string :=
  match t with
  | TArr _ t' | TPtr t' => ty_names t'
  | TStruct _ fs =>
      (fix go (fs : list (finfo * ty)) : list string :=
         match fs with [] => [] | f :: r => (f_name (fst f) :: ty_names (snd f) ++ go r)%list end) fs
  | _ => []
  end.
Lemma tree_names ver t : forall v, incl (names_in (tree_of ver t v)) (ty_names t).
Proof.
  induction t as [| | | bi | bu | c | m | i t IH | t IH | i fs IH] using ty_nested_ind; intros v s Hs;
    try (destruct v; contradiction).
  - destruct v; try contradiction. cbn [tree_of] in Hs. destruct (ar_xmp i); [|contradiction]. cbn [ty_names]. cbn [names_in] in Hs.
    induction l as [|x l IHl]; [contradiction|]. cbn [map] in Hs. apply in_app_or in Hs. destruct Hs as [Hs|Hs]; [exact (IH _ _ Hs)|auto].
  - destruct v; try contradiction. exact (IH _ _ Hs).
  - destruct v; try contradiction. rewrite tree_struct in Hs. destruct (s_guard i && _); [contradiction|]. cbn [ty_names]. cbn [names_in] in Hs.
    revert vs Hs. induction IH as [|[f t] fs Hf IH IH2]; intros [|v vs] Hs; try contradiction. cbn [members] in Hs. cbn [fst snd] in *.
    destruct (left_out ver f t v); [right; apply in_or_app; right; eauto|]. destruct Hs as [Hs|Hs]; [now left|]. right. apply in_or_app.
    apply in_app_or in Hs. destruct Hs as [Hs|Hs]; [left|right; eauto]. unfold member in Hs. destruct (f_attr f); [contradiction|]. exact (Hf _ _ Hs).
Qed.
(* prefix:local with a prefix out of a list *)
Definition proper_nameb (ps : list string) (s : string) : bool :=
  let p := get_prefix s in let l := strip_prefix s in inb p ps && (s =? p ++ ":" ++ l) && negb (emptyb l).
Lemma proper_nameb_ok ps s : proper_nameb ps s = true -> exists p l, In p ps /\ s = p ++ ":" ++ l /\ l <> "".
Proof.
  unfold proper_nameb. rewrite !andb_true_iff. intros [[H1 H2] H3]. exists (get_prefix s), (strip_prefix s).
  split; [now apply inb_in|]. split; [now apply String.eqb_eq|]. intros E. rewrite E in H3. discriminate.
Qed.

(* ---- JSON ----------------------------------------------------------------------------------------- *)

Fixpoint flat_ty (t : ty) : bool :=
  match t with TAlt _ => false | TArr i _ => negb (ar_xmp i) | TPtr t' => flat_ty t' | _ => true end.
Definition json_nameb (s : string) : bool :=
  has_char ":" s && negb (inb s ["rdf:value"; "rdf:parseType"; "rdf:Bag"; "rdf:Seq"; "rdf:Alt"]).
Fixpoint json_tyb (t : ty) : bool :=
  match t with
  | TArr i t' => flat_ty t' && json_tyb t'
  | TPtr t' => json_tyb t'
  | TStruct _ fs =>
      nodupb (map (fun f => f_name (fst f)) fs) && forallb (fun f => json_nameb (f_name (fst f))) fs
      && (fix all (l : list (finfo * ty)) : bool := match l with [] => true | f :: r => json_tyb (snd f) && all r end) fs
  | _ => true
  end.
Lemma flat_tree ver t : forall v, flat_ty t = true -> flat_value (tree_of ver t v).
Proof.
  induction t as [| | | bi | bu | c | m | i t IH | t IH | i fs IH] using ty_nested_ind; intros v H; try discriminate;
    try (destruct v; exact I).
  - destruct v; try exact I. cbn [flat_ty] in H. cbn [tree_of]. apply negb_true_iff in H. rewrite H. exact I.
  - destruct v; try exact I. exact (IH _ H).
Qed.
Lemma alts_fine_all fs : (fix all (fs : list (string * pval)) : Prop := match fs with [] => True | f :: r => alts_fine (snd f) /\ all r end) fs <->
  Forall (fun f => alts_fine (snd f)) fs.
Proof. induction fs as [|f fs IH]; [split; constructor|]. rewrite Forall_cons_iff, <- IH. reflexivity. Qed.
Lemma alts_fine_items l : (fix all (l : list pval) : Prop := match l with [] => True | t :: r => alts_fine t /\ all r end) l <-> Forall alts_fine l.
Proof. induction l as [|f fs IH]; [split; constructor|]. rewrite Forall_cons_iff, <- IH. reflexivity. Qed.
Lemma members_names ver fs : forall vs s, In s (map fst (members ver fs vs)) -> In s (map (fun f : finfo * ty => f_name (fst f)) fs).
Proof.
  induction fs as [|[f t] fs IH]; intros [|v vs] s H; try contradiction. cbn [members] in H. destruct (left_out ver f t v); [right; eauto|].
  destruct H as [H|H]; [now left|right; eauto].
Qed.
Lemma members_nodup ver fs : forall vs, NoDup (map (fun f : finfo * ty => f_name (fst f)) fs) -> NoDup (map fst (members ver fs vs)).
Proof.
  induction fs as [|[f t] fs IH]; intros [|v vs] H; try constructor. cbn [members]. cbn [map fst] in H. inversion H as [|? ? N1 N2]; subst.
  destruct (left_out ver f t v); [auto|]. cbn [map fst]. constructor; [|auto]. intros K. apply N1. eapply members_names, K.
Qed.
Lemma json_tree ver t : forall v, json_tyb t = true -> alts_fine (tree_of ver t v) -> json_ok (tree_of ver t v).
Proof.
  induction t as [| | | bi | bu | c | m | i t IH | t IH | i fs IH] using ty_nested_ind; intros v H A; try (destruct v; exact A).
  - destruct v; try exact I. cbn [json_tyb] in H. apply andb_true_iff in H. destruct H as [H1 H2]. cbn [tree_of] in *. destruct (ar_xmp i); [|exact I].
    cbn [json_ok]. cbn [alts_fine] in A. rewrite alts_fine_items in A. induction l as [|x l IHl]; [exact I|]. cbn [map] in *.
    apply Forall_cons_iff in A. destruct A as [A1 A2]. split; [split; [now apply flat_tree|now apply IH]|exact (IHl A2)].
  - destruct v; try exact I. exact (IH _ H A).
  - destruct v; try exact I. cbn [json_tyb] in H. rewrite tree_struct in *. apply andb_true_iff in H. destruct H as [H H3]. apply andb_true_iff in H. destruct H as [H1 H2].
    destruct (s_guard i && _). { repeat split; try constructor. cbn. tauto. }
    cbn [alts_fine] in A. rewrite alts_fine_all in A. cbn [json_ok].
    assert (N : forall s, In s (map fst (members ver fs vs)) -> json_nameb s = true).
    { intros s K. apply members_names in K. rewrite forallb_forall in H2. apply in_map_iff in K. destruct K as (f & <- & K). auto. }
    split; [apply members_nodup, nodupb_nodup, H1|]. split; [|split].
    + apply Forall_forall. intros s K. specialize (N s K). unfold json_nameb in N. apply andb_true_iff in N. destruct N as [N1 N2]. split.
      * intros ->. discriminate.
      * intros K2. apply inb_in in K2. rewrite K2 in N2. discriminate.
    + intros (K & _). apply N in K. discriminate.
    + clear H1 H2 N. revert vs A. induction IH as [|[f t] fs Hf IH IH2]; intros vs A; [destruct vs; exact I|]. apply andb_true_iff in H3. destruct H3 as [H3 H4].
      destruct vs as [|v vs]; [exact I|]. cbn [members] in *. destruct (left_out ver f t v); [exact (IH2 H4 vs A)|]. apply Forall_cons_iff in A. destruct A as [A1 A2].
      split; [|exact (IH2 H4 vs A2)]. cbn [snd] in *. unfold member in *. destruct (f_attr f); [exact I|auto].
Qed.
End B.

(* ---- the library ---------------------------------------------------------------------------------- *)

Section L.
Context {X : Type}.
Variable cdc : string -> codec X.
Variable den_zero : gval X -> bool.
Notation models := (library_models cdc den_zero).
Notation lkinds := (library_kinds cdc den_zero).

Definition lib_prefixes : list string := map (fun o => ns_name (fst o)) library.
Definition freshb (k : mkind X) : Prop := Forall2 (fun f i => i = zero (snd f) \/ snd f = TStr) (k_fields k) (k_init k).
Lemma fresh_zero ns can (fs : list (finfo * ty X)) : freshb (MKind ns can fs (map (fun f => zero (snd f)) fs)).
Proof. unfold freshb. cbn. induction fs; constructor; auto. Qed.

Definition static (k : mkind X) : Prop :=
  exists home, k_namespaces k = [home] /\ k_can k = (fun p => p =? ns_name home)
    /\ (exists f, ns_factory home = Some f /\ lkinds f (ns_name home) = Some k)
    /\ has_char ":" (ns_name home) = false
    /\ In home (map fst (library ++ library_rest))
    /\ freshb k /\ wf_tyb (record_ty k) = true
    /\ forallb (proper_nameb (ns_name home :: lib_prefixes)) (ty_names (record_ty k)) = true
    /\ (~ In (ns_name home) mixed -> forallb (fun f => get_prefix (f_name (fst f)) =? ns_name home) (k_fields k) = true).

Ltac static_tac := eexists; split; [reflexivity|]; split; [reflexivity|]; split; [eexists; split; reflexivity|]; split; [reflexivity|];
    split; [cbn; tauto|]; split; [ |split; [vm_compute; reflexivity|]; split; [vm_compute; reflexivity|]].
Lemma fresh_text ns can (fs : list (finfo * ty X)) s : map snd (firstn 1 fs) = [TStr] ->
  freshb (MKind ns can fs (VStr s :: tl (map (fun f => zero (snd f)) fs))).
Proof.
  destruct fs as [|[f t] fs]; intros E; [discriminate|]. injection E as ->. unfold freshb. cbn [k_fields k_init map tl].
  constructor; [now right|]. induction fs; constructor; auto.
Qed.
Lemma ixml_static : static (k_ixml_IXML cdc).
Proof.
  static_tac.
  - apply fresh_text. vm_compute. reflexivity.
  - intros _. vm_compute. reflexivity.
Qed.
Lemma library_static : Forall static models.
Proof.
  unfold library_models. repeat apply Forall_cons; try apply Forall_nil.
  all: lazymatch goal with |- static (k_ixml_IXML _) => exact ixml_static | _ => idtac end.
  all: static_tac; [apply fresh_zero|].
  all: first [intros _; vm_compute; reflexivity|intros N; elim N; cbn; tauto].
Qed.

Variable ver : version.
Variable h : list reg_op.
Variable kinds : nat -> string -> option (mkind X).
Hypothesis Hp : library_program cdc den_zero h kinds.
Notation reg := (registry_of h).

Lemma registered_in p ns : get_namespace reg p = Ok ns -> In ns (map fst h) /\ ns_name ns = p.
Proof.
  intros E. apply get_namespace_ok in E. destruct E as (E & gs & L). apply last_by_in in L. split; [|exact E]. now apply (in_map fst) in L.
Qed.
Lemma in_registered ns : In ns (map fst h) -> get_namespace reg (ns_name ns) = Ok ns.
Proof.
  intros K. apply in_map_iff in K. destruct K as ([ns' gs] & E & K). cbn [fst] in E. subst ns'.
  destruct (proj1 (last_by_exists (fun o : reg_op => ns_name (fst o)) h (ns_name ns))) as ([ns' gs'] & L & E).
  { exists (ns, gs). split; [exact K|reflexivity]. }
  apply get_namespace_ok. split; [reflexivity|]. exists gs'. cbn [fst] in E. destruct Hp as (_ & U & _).
  replace ns with ns'; [exact L|]. apply U; [apply last_by_in in L; now apply (in_map fst) in L|now apply (in_map fst) in K|now left].
Qed.
Lemma core_in ns : In ns (map fst (core ++ library)) -> In ns (map fst h).
Proof. destruct Hp as (H & _). apply H. Qed.
Lemma library_sane : sane_registry h.
Proof.
  assert (Hp' := Hp). destruct Hp' as (H1 & H2 & H3 & H4). split; [|split; [|split; [|split]]].
  - intros a b Ha Hb. apply (in_map fst) in Ha. apply (in_map fst) in Hb. split; intros E; rewrite (H2 (fst a) (fst b)); auto.
  - apply (in_registered ns_x). apply core_in. cbn. tauto.
  - apply (in_registered ns_xml). apply core_in. cbn. tauto.
  - apply (in_registered ns_rdf). apply core_in. cbn. tauto.
  - intros o Ho. apply H3. now apply in_map.
Qed.
Lemma lib_free p : In p lib_prefixes -> free_prefix h p.
Proof.
  intros K. split.
  - revert p K. apply Forall_forall. unfold lib_prefixes. cbn [map fst library]. repeat apply Forall_cons; try apply Forall_nil; cbn; intuition discriminate.
  - apply in_map_iff in K. destruct K as (o & <- & K). exists (fst o). apply in_registered, core_in. rewrite map_app. apply in_or_app. right. now apply in_map.
Qed.
Lemma rest_free ns : In ns (map fst (library ++ library_rest)) -> In ns (map fst h) -> free_prefix h (ns_name ns).
Proof.
  rewrite map_app, in_app_iff. intros [K|K] Kh.
  - apply lib_free. unfold lib_prefixes. apply in_map_iff in K. destruct K as (o & <- & K). now apply (in_map (fun o => ns_name (fst o))) in K.
  - split; [|exists ns; now apply in_registered]. destruct K as [<-|[]]. cbn. intuition discriminate.
Qed.
Lemma model_static m : library_model cdc den_zero ver h m -> static (tm_kind m).
Proof. intros (K & _). assert (F := library_static). rewrite Forall_forall in F. auto. Qed.

Lemma plain_prefix p l : has_char ":" p = false -> get_prefix (p ++ ":" ++ l) = p.
Proof. apply get_prefix_qualified. Qed.

Lemma members_fields fs : forall vs s t, In (s, t) (members ver fs vs) -> exists f : finfo * ty X, In f fs /\ s = f_name (fst f).
Proof.
  induction fs as [|[f t0] fs IH]; intros [|v vs] s t K; try contradiction. cbn [members] in K.
  destruct (left_out ver f t0 v). { destruct (IH _ _ _ K) as (g & G1 & G2). exists g. split; [now right|exact G2]. }
  destruct K as [K|K]; [injection K as <- _; exists (f, t0); split; [now left|reflexivity]|].
  destruct (IH _ _ _ K) as (g & G1 & G2). exists g. split; [now right|exact G2].
Qed.

Lemma lib_storable m : library_model cdc den_zero ver h m -> storable_model ver h kinds m.
Proof.
  intros Hm. destruct (model_static m Hm) as (home & S1 & S2 & (f & S3 & S4) & S5 & S6 & S7 & S8 & S9 & S10).
  destruct Hm as (M1 & M2 & M3 & M4 & M5). rewrite S1 in M2, M5. inversion M2 as [|? ? Mh _]; subst.
  assert (Hfree : free_prefix h (ns_name home)) by now apply rest_free.
  split; [exact S7|]. split; [now apply wf_tyb_ok|]. split; [exact M3|]. split; [exact M4|]. split; [|split; [|split]].
  - apply Forall_forall. intros s Hs.
    assert (K : In s (ty_names (record_ty (tm_kind m)))).
    { apply (tree_names ver _ (record_of m)). unfold says in Hs. unfold record_ty, record_of in *. rewrite tree_struct in *. exact Hs. }
    rewrite forallb_forall in S9. specialize (S9 s K). apply proper_nameb_ok in S9. destruct S9 as (p & l & [<-|P1] & P2 & P3).
    + exists (ns_name home), l. split; [exact P2|]. split; [exact P3|exact Hfree].
    + exists p, l. split; [exact P2|]. split; [exact P3|now apply lib_free].
  - intros p l t Hs Hc. rewrite S2. apply String.eqb_eq.
    destruct (in_dec string_dec (ns_name home) mixed) as [Mx|Mx].
    + assert (O : own_only ver m) by (apply M5; now left). destruct (O _ _ Hs) as (home' & l' & E1 & E2). rewrite S1 in E1. injection E1 as <-.
      rewrite <- (plain_prefix p l Hc), E2. now apply plain_prefix.
    + specialize (S10 Mx). rewrite says_members in Hs. destruct (members_fields _ _ _ _ Hs) as (g & G1 & G2).
      rewrite forallb_forall in S10. specialize (S10 g G1). rewrite <- G2 in S10. apply String.eqb_eq in S10. now rewrite plain_prefix in S10.
  - exists home. rewrite S1. split; [reflexivity|]. split; [|exact S5]. rewrite S2. apply String.eqb_refl.
  - intros p ns E C. rewrite S2 in C. apply String.eqb_eq in C. subst p. rewrite (in_registered home Mh) in E. injection E as <-.
    exists f. split; [exact S3|]. destruct Hp as (_ & _ & _ & Hk). now apply Hk.
Qed.

Lemma lib_json_types : forallb (fun k => json_tyb (record_ty k)) models = true.
Proof. vm_compute. reflexivity. Qed.
Lemma lib_json m : library_model cdc den_zero ver h m -> json_library ver m -> json_model ver m.
Proof.
  intros (M1 & _) (J1 & J2 & J3). split; [exact J1|].
  assert (E : tree_of ver (record_ty (tm_kind m)) (record_of m) = PRecord (says ver m)) by reflexivity.
  split; [|now rewrite E]. apply json_tree; [|now rewrite E]. assert (F := lib_json_types). rewrite forallb_forall in F. now apply F.
Qed.

Lemma lib_doc d : library_doc cdc den_zero ver h d -> storable_doc ver h kinds d.
Proof.
  intros (D1 & D2 & D3 & D4). split; [exact D1|]. split; [eapply Forall_impl; [|exact D2]; apply lib_storable|]. split.
  - clear D1 D4. induction (models_of d) as [|m l IH]; [constructor|]. cbn [map] in D3. inversion D2 as [|? ? Dm Dl]; subst. inversion D3 as [|? ? N1 N2]; subst.
    constructor; [|auto]. apply Forall_forall. intros m' Hm' p C C'. apply N1.
    rewrite Forall_forall in Dl. destruct (model_static m Dm) as (a & A1 & A2 & _ & _ & A3 & _). destruct (model_static m' (Dl m' Hm')) as (b & B1 & B2 & _ & _ & B3 & _).
    rewrite A2 in C. rewrite B2 in C'. apply String.eqb_eq in C. apply String.eqb_eq in C'. rewrite A1.
    assert (a = b) as ->.
    { destruct Hp as (_ & U & _). apply U; [| |left; congruence].
      - destruct Dm as (_ & F & _). rewrite A1 in F. now inversion F.
      - destruct (Dl m' Hm') as (_ & F & _). rewrite B1 in F. now inversion F. }
    rewrite <- B1. now apply (in_map (fun m => k_namespaces (tm_kind m))).
  - intros u ns K. apply in_registered. now apply (D4 u).
Qed.
End L.

(* ---- records with an IsZero method ------------------------------------------------------------------- *)

Section Z.
Context {X : Type}.
Definition covered (r : @raw X) (names : list string) : bool :=
  forallb (fun f => inb (go_name f) names && match parse_tag (go_name f) (go_tag f) with Ok i => true | _ => false end) (kept r).
Lemma covered_zero (r : @raw X) names vs : covered r names = true -> all_zero r names vs = true ->
  forall f (t : ty X) v, In (f, t, v) (combine (fields r) vs) -> blank_value t v = true.
Proof.
  unfold covered, all_zero, fields. revert vs. induction (kept r) as [|f l IH]; intros vs C Z; [intros ? ? ? []|].
  cbn [forallb] in C. apply andb_true_iff in C. destruct C as [C C2]. apply andb_true_iff in C. destruct C as [C1 C3].
  cbn [flat_map]. destruct (parse_tag (go_name f) (go_tag f)) as [i|e|] eqn:E; try discriminate. cbn [List.app].
  destruct vs as [|v vs]; [intros ? ? ? []|]. cbn [all_zero_in] in Z. apply andb_true_iff in Z. destruct Z as [Z1 Z2].
  unfold inb in C1. rewrite C1 in Z1. cbn [negb orb] in Z1. intros f' t' v' [K|K]; [|exact (IH vs C2 Z2 _ _ _ K)].
  injection K as <- <- <-. now rewrite blank_eq.
Qed.
Lemma own_zero_sound (cdc : string -> codec X) den_zero i fs vs : In (TStruct i fs) (own_zero_records cdc den_zero) -> blank_value (TStruct i fs) (VStruct vs) = true ->
  forall f (t : ty X) v, In (f, t, v) (combine fs vs) -> blank_value t v = true.
Proof.
  intros K. unfold own_zero_records in K.
  repeat (destruct K as [K|K]; [injection K as <- <-; intros Z; cbn [blank_value s_zero] in Z; revert Z; apply covered_zero; vm_compute; reflexivity|]). destruct K.
Qed.
End Z.
