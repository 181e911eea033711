(* Reading in the terms of SpecSync.v *)
From Coq Require Import List Arith ZArith Bool Ascii String Lia.
From Verif Require Import GoStr GoMap Names Semver RegistryM PathM PVList NodeM FilterM ArrayM CodecM DocM DocFacts TypeM TagM DecodeM TPathM ModelTypes SpecTrip SpecSync SyncModelsM SyncFacts.
Import ListNotations.
Local Open Scope string_scope.

Section F.
Context {X : Type}.
Variable cdc : string -> codec X.
Variable den_zero : gval X -> bool.
Variable kinds : nat -> string -> option (mkind X).
Variable growth : nat -> nat.
Variable sortf : list path_value -> list path_value.
Variable conv : string -> list (gval X) -> result (gval X).
Variable genre_v1 : string -> option string.
Notation model := (tmodel X).
Notation gval := (gval X).
Notation doc := (doc (tmodel X)).
Notation bops := (base_ops kinds growth sortf).
Notation lib := (library_models cdc den_zero).
Notation okd := (okd cdc den_zero).
Notation found := (found kinds growth sortf).
Notation assigns_from := (assigns_from kinds growth sortf conv genre_v1).

Definition received (p : string) : list string :=
  (map mi_field (filter (fun r => mi_to r =? p) mirrors) ++ map snd (filter (fun c => fst c =? p) computed))%list.
Definition receivers : list string := ["pdf"; "tiff"; "riffinfo"; "id3"; "exif"].
Lemma received_fields : forallb (fun k => match k_namespaces k with [ns] => forallb (index_of k) (received (ns_name ns)) | _ => false end) lib = true.
Proof. vm_compute. reflexivity. Qed.
Lemma received_field (x : model) f : In (tm_kind x) lib -> List.length (tm_vals x) = List.length (k_fields (tm_kind x)) ->
  In f (received (home x)) -> exists t v, get_field x f = Some (t, v).
Proof.
  intros Hx Hl Hf. pose proof received_fields as T. rewrite forallb_forall in T. specialize (T _ Hx). unfold home in Hf.
  destruct (lib_kind _ _ _ Hx) as (ns & E & _). rewrite E in *. rewrite forallb_forall in T. specialize (T _ Hf). unfold index_of in T.
  unfold get_field. destruct (field_index (k_fields (tm_kind x)) f) as [i|] eqn:Ei; [|discriminate].
  destruct (field_index_some _ _ _ Ei) as (fi & t & E1 & _). rewrite E1.
  assert (Hi : i < List.length (tm_vals x)) by (rewrite Hl; apply nth_error_Some; congruence).
  apply nth_error_Some in Hi. destruct (nth_error (tm_vals x) i); [eauto|congruence].
Qed.
Definition mem (s : string) (l : list string) : bool := existsb (String.eqb s) l.
Lemma mem_in s l : mem s l = true <-> In s l.
Proof.
  unfold mem. rewrite existsb_exists. split.
  - intros (x & Hx & E). apply String.eqb_eq in E. subst. exact Hx.
  - intros H. exists s. split; [exact H|apply String.eqb_refl].
Qed.
Lemma filter_no {A} (f : A -> bool) l : (forall a, In a l -> f a = false) -> filter f l = [].
Proof. induction l as [|a l IH]; cbn; [reflexivity|]. intros H. rewrite (H a) by auto. apply IH. intros; apply H; auto. Qed.
Lemma mirrors_to : forallb (fun r => mem (mi_to r) receivers) mirrors && forallb (fun c => mem (fst c) receivers) computed = true.
Proof. vm_compute. reflexivity. Qed.
Lemma not_received p : ~ In p receivers -> received p = [].
Proof.
  intros N. pose proof mirrors_to as M. apply andb_true_iff in M. destruct M as [M1 M2]. rewrite forallb_forall in M1, M2. unfold received.
  rewrite (filter_no (fun r => mi_to r =? p)), (filter_no (fun c => fst c =? p)); [reflexivity| |].
  - intros c Hc. apply String.eqb_neq. intros E. specialize (M2 _ Hc). apply mem_in in M2. rewrite E in M2. contradiction.
  - intros c Hc. apply String.eqb_neq. intros E. specialize (M1 _ Hc). apply mem_in in M1. rewrite E in M1. contradiction.
Qed.
(* ---- what is assigned ---- *)
Notation assigns := (@assigns X).
Definition into (x : model) (a : string * result gval) : Prop := In (fst a) (received (home x)).
Lemma all_only (P : string * result gval -> Prop) b l : Forall P l -> Forall P (only_if b l). Proof. destruct b; cbn; auto. Qed.
Lemma all_found (P : string * result gval -> Prop) o (l : model -> assigns) : (forall m, Forall P (l m)) -> Forall P (if_found o l). Proof. destruct o; cbn; auto. Qed.
Ltac in_list := apply mem_in; vm_compute; reflexivity.
Ltac all_in E := repeat (first [apply Forall_nil|apply all_only|apply all_found; intros|apply Forall_app; split|apply Forall_cons]);
  try (unfold into; cbn [fst]; rewrite E; in_list).
Lemma assigns_into d x : Forall (into x) (assigns_from d x).
Proof.
  unfold assigns_from.
  destruct (String.eqb_spec (home x) "pdf") as [E|_]; [unfold pdf_from; all_in E|].
  destruct (String.eqb_spec (home x) "tiff") as [E|_]; [unfold tiff_from; all_in E|].
  destruct (String.eqb_spec (home x) "riffinfo") as [E|_]; [unfold riff_from, copy; all_in E|].
  destruct (String.eqb_spec (home x) "id3") as [E|_]; [unfold id3_from, copy; all_in E|].
  destruct (String.eqb_spec (home x) "exif") as [E|_]; [|constructor].
  unfold exif_from, tiff_fields. cbn [map]. all_in E.
  destruct (value x "exif:ISOSpeedRatings") as [| | | | |[|]| | |]; all_in E.
Qed.

(* ---- what may become of a document ---- *)
Definition chg (P : Prop) (m m' : model) : Prop :=
  tm_kind m' = tm_kind m /\ List.length (tm_vals m') = List.length (tm_vals m)
  /\ (forall f, ~ In f (received (home m)) -> get_field m' f = get_field m f)
  /\ (~ P \/ ~ In (home m) receivers -> m' = m).
Record rd (I : nat -> Prop) (d d' : doc) : Prop := {
  r_about : d_about d' = d_about d; r_kit : d_toolkit d' = d_toolkit d; r_ext : d_ext d' = d_ext d;
  r_len : List.length (d_nodes d') = List.length (d_nodes d);
  r_shell : forall j n n', nth_error (d_nodes d) j = Some n -> nth_error (d_nodes d') j = Some n' -> shell n' = shell n;
  r_at : forall j, match model_at d j with
                   | None => model_at d' j = None
                   | Some m => exists m', model_at d' j = Some m' /\ chg (I j) m m'
                   end
}.
Lemma chg_refl P m : chg P m m. Proof. repeat split; auto. Qed.
Lemma chg_home P m m' : chg P m m' -> home m' = home m.
Proof. intros (E & _). unfold home. now rewrite E. Qed.
Lemma chg_trans (P Q R : Prop) m1 m2 m3 : (P -> R) -> (Q -> R) -> chg P m1 m2 -> chg Q m2 m3 -> chg R m1 m3.
Proof.
  intros HP HQ H1 H2. pose proof (chg_home _ _ _ H1) as Eh. destruct H1 as (A1 & A2 & A3 & A4), H2 as (B1 & B2 & B3 & B4). rewrite Eh in *.
  repeat split; try congruence.
  - intros f Hf. rewrite B3, A3; auto.
  - intros H. rewrite B4, A4; auto; tauto.
Qed.
Lemma rd_refl I d : rd I d d.
Proof. split; auto; [congruence|]. intros j. destruct (model_at d j) as [m|]; [|reflexivity]. exists m. split; [reflexivity|apply chg_refl]. Qed.
Lemma rd_trans (I J K : nat -> Prop) d1 d2 d3 : (forall j, I j -> K j) -> (forall j, J j -> K j) -> rd I d1 d2 -> rd J d2 d3 -> rd K d1 d3.
Proof.
  intros HI HJ [A1 A2 A3 A4 A5 A6] [B1 B2 B3 B4 B5 B6]. split; try congruence.
  - intros j n n' Hn Hn'. destruct (nth_error (d_nodes d2) j) as [n2|] eqn:N2.
    + rewrite (B5 j n2 n' N2 Hn'). exact (A5 j n n2 Hn N2).
    + apply nth_error_None in N2. assert (j < List.length (d_nodes d1)) by (apply nth_error_Some; congruence). lia.
  - intros j. specialize (A6 j). specialize (B6 j). destruct (model_at d1 j) as [m|]; [|now rewrite A6 in B6].
    destruct A6 as (m2 & E2 & C2). rewrite E2 in B6. destruct B6 as (m3 & E3 & C3). exists m3. split; [exact E3|]. eapply chg_trans; [| |exact C2|exact C3]; auto.
Qed.
Lemma rd_okd I d d' : okd d -> rd I d d' -> okd d'.
Proof.
  intros O E j m' Hm'. pose proof (r_at _ _ _ E j) as A. destruct (model_at d j) as [m|] eqn:Em; [|congruence].
  destruct A as (m1 & E1 & (K & L & _)). rewrite E1 in Hm'. inversion Hm'; subst. rewrite K, L. exact (O j m Em).
Qed.
Lemma put_rd (I : nat -> Prop) d i m m' : model_at d i = Some m -> chg (I i) m m' -> rd I d (put_model d i m').
Proof.
  intros Hm Ev. pose proof (model_at_lt _ _ _ Hm) as L.
  split.
  1-3: unfold put_model; destruct (nth_error (d_nodes d) i); reflexivity.
  - unfold put_model. destruct (nth_error (d_nodes d) i); [|reflexivity]. cbn. apply replace_nth_length.
  - intros j n n' Hn Hn'. unfold put_model in Hn'. destruct (nth_error (d_nodes d) i) as [ni|] eqn:E; [|congruence]. cbn [with_nodes d_nodes] in Hn'.
    destruct (Nat.eq_dec i j) as [<-|N].
    + rewrite nth_replace_eq in Hn' by assumption. inversion Hn'; subst. rewrite E in Hn. inversion Hn; subst. now destruct n.
    + rewrite nth_replace_neq in Hn' by assumption. congruence.
  - intros j. rewrite put_model_at by assumption. destruct (Nat.eqb_spec i j) as [<-|N].
    + rewrite Hm. exists m'. auto.
    + destruct (model_at d j) as [mj|]; [|reflexivity]. exists mj. split; [reflexivity|apply chg_refl].
Qed.
Lemma rd_found I d d' ns : rd I d d' -> doc_find_model bops d' ns = doc_find_model bops d ns.
Proof.
  intros E. assert (K : forall k m', model_at d' k = Some m' -> exists m, model_at d k = Some m /\ tm_kind m' = tm_kind m).
  { intros k m' Hm'. pose proof (r_at _ _ _ E k) as A. destruct (model_at d k) as [m|]; [|congruence]. destruct A as (m1 & E1 & (K & _)).
    rewrite E1 in Hm'. inversion Hm'; subst. eauto. }
  destruct (doc_find_model bops d ns) as [j|] eqn:Ej.
  - destruct (fm_model _ _ _ _ _ _ Ej) as (m & Hm & Ha). pose proof (r_at _ _ _ E j) as A. rewrite Hm in A. destruct A as (m' & E' & (Km & _)).
    apply (fm_intro _ _ _ _ _ _ _ E').
    + unfold is_a in *. now rewrite Km.
    + intros k mk Lk Hk. destruct (K _ _ Hk) as (m0 & H0 & K0). unfold is_a. rewrite K0. exact (fm_first _ _ _ _ _ _ Ej k m0 Lk H0).
  - rewrite fm_none in *. intros k mk Hk. destruct (K _ _ Hk) as (m0 & H0 & K0). unfold is_a. rewrite K0. exact (Ej _ _ H0).
Qed.
Lemma found_of (d : doc) ns : match doc_find_model bops d ns with Some j => exists m, model_at d j = Some m /\ found d ns = Some m /\ is_a m (ns_name ns) = true | None => found d ns = None end.
Proof.
  unfold found. destruct (doc_find_model bops d ns) as [j|] eqn:E; [|reflexivity]. destruct (fm_model _ _ _ _ _ _ E) as (m & Hm & Ha). exists m. auto.
Qed.
(* a model that is no receiver stays; one that is keeps the fields that are not received *)
Lemma rd_stays I d d' ns : okd d -> rd I d d' -> ~ In (ns_name ns) receivers -> found d' ns = found d ns.
Proof.
  intros O E N. pose proof (found_of d ns) as F. pose proof (found_of d' ns) as F'. rewrite (rd_found _ _ _ _ E) in F'.
  destruct (doc_find_model bops d ns) as [j|] eqn:Ej; [|congruence]. destruct F as (m & Hm & -> & Ha), F' as (m' & Hm' & -> & _).
  pose proof (r_at _ _ _ E j) as A. rewrite Hm in A. destruct A as (m1 & E1 & (_ & _ & _ & S)). rewrite Hm' in E1. inversion E1; subst. f_equal. apply S. right.
  rewrite (home_can cdc den_zero) in Ha by apply (O j m Hm). apply String.eqb_eq in Ha. now rewrite Ha.
Qed.
Lemma rd_keeps I d d' ns : okd d -> rd I d d' ->
  match found d ns, found d' ns with
  | Some m, Some m' => forall f, ~ In f (received (ns_name ns)) -> get_field m' f = get_field m f
  | None, None => True
  | _, _ => False
  end.
Proof.
  intros O E. pose proof (found_of d ns) as F. pose proof (found_of d' ns) as F'. rewrite (rd_found _ _ _ _ E) in F'.
  destruct (doc_find_model bops d ns) as [j|] eqn:Ej; [|now rewrite F, F']. destruct F as (m & Hm & -> & Ha), F' as (m' & Hm' & -> & _).
  pose proof (r_at _ _ _ E j) as A. rewrite Hm in A. destruct A as (m1 & E1 & (_ & _ & S & _)). rewrite Hm' in E1. inversion E1; subst.
  rewrite (home_can cdc den_zero) in Ha by apply (O j m Hm). apply String.eqb_eq in Ha. rewrite Ha in S. exact S.
Qed.
Lemma tiff_kept : forallb (fun f => negb (mem f (received "tiff"))) tiff_fields = true.
Proof. vm_compute. reflexivity. Qed.
Lemma assigns_same I d d' x : okd d -> rd I d d' -> assigns_from d' x = assigns_from d x.
Proof.
  intros O E.
  assert (Hdc : found d' ns_dc_NsDc = found d ns_dc_NsDc) by (apply (rd_stays I); [assumption..|]; vm_compute; intuition discriminate).
  assert (Hxmp : found d' ns_xmpbase_NsXmp = found d ns_xmpbase_NsXmp) by (apply (rd_stays I); [assumption..|]; vm_compute; intuition discriminate).
  assert (Hdm : found d' ns_xmpdm_NsXmpDM = found d ns_xmpdm_NsXmpDM) by (apply (rd_stays I); [assumption..|]; vm_compute; intuition discriminate).
  assert (Hr : found d' ns_xmprights_NsXmpRights = found d ns_xmprights_NsXmpRights) by (apply (rd_stays I); [assumption..|]; vm_compute; intuition discriminate).
  assert (Hps : found d' ns_ps_NsPhotoshop = found d ns_ps_NsPhotoshop) by (apply (rd_stays I); [assumption..|]; vm_compute; intuition discriminate).
  assert (Htf : if_found (found d' ns_tiff_NsTiff) (fun m => map (fun f => (f, Ok (value m f))) tiff_fields)
                = if_found (found d ns_tiff_NsTiff) (fun m => map (fun f => (f, Ok (value m f))) tiff_fields)).
  { pose proof (rd_keeps I d d' ns_tiff_NsTiff O E) as K. change (ns_name ns_tiff_NsTiff) with "tiff" in K.
    destruct (found d ns_tiff_NsTiff) as [m|], (found d' ns_tiff_NsTiff) as [m'|]; try contradiction; [|reflexivity].
    cbn [if_found]. apply map_ext_in. intros f Hf. unfold value. rewrite K; [reflexivity|]. intros Hr'. apply mem_in in Hr'.
    pose proof tiff_kept as T. rewrite forallb_forall in T. specialize (T _ Hf). rewrite Hr' in T. discriminate. }
  unfold assigns_from, pdf_from, tiff_from, riff_from, id3_from, exif_from. rewrite Hdc, Hxmp, Hdm, Hr, Hps, Htf. reflexivity.
Qed.

(* ---- one model ---- *)
Lemma set_rd (I : nat -> Prop) d i m f v d' r : model_at d i = Some m -> In f (received (home m)) -> I i ->
  set_at d i false f v = (d', r) -> rd I d d'.
Proof.
  intros Hm Hf Hi. unfold set_at. rewrite Hm. destruct (get_field m f) as [[t w]|] eqn:G; [|intros H; inversion H; subst; apply rd_refl].
  cbn [andb]. destruct v as [v| |]; intros H; inversion H; subst; [|apply rd_refl..].
  eapply put_rd; [exact Hm|]. split; [apply put_kind|]. split; [apply put_len|]. split.
  - intros g Hg. apply put_get_other. intros ->. contradiction.
  - intros [N|N]; [contradiction|]. apply not_received in N. rewrite N in Hf. contradiction.
Qed.
Definition one (i j : nat) : Prop := j = i.
Lemma run_rd i l : forall d m d' r, model_at d i = Some m -> Forall (into m) l -> run_assigns i l d = (d', r) -> rd (one i) d d'.
Proof.
  induction l as [|[f v] l IH]; intros d m d' r Hm Hf H; cbn [run_assigns] in H.
  - inversion H; subst. apply rd_refl.
  - inversion Hf as [|? ? Hf1 Hf2]; subst. destruct (set_at d i false f v) as [d1 r1] eqn:E.
    pose proof (set_rd (one i) d i m f v d1 r1 Hm Hf1 eq_refl E) as R1. destruct r1 as [u| |]; [|inversion H; subst; exact R1..].
    pose proof (r_at _ _ _ R1 i) as A. rewrite Hm in A. destruct A as (m1 & E1 & C1).
    eapply (rd_trans (one i) (one i)); [auto|auto|exact R1|]. apply (IH d1 m1 d' r E1); [|exact H].
    revert Hf2. apply Forall_impl. intros a. unfold into. now rewrite (chg_home _ _ _ C1).
Qed.
(* the values of a field after assignments *)
Fixpoint upd (f : string) (l : assigns) (v : gval) : gval :=
  match l with [] => v | (g, w) :: r => upd f r (if g =? f then match w with Ok x => x | _ => v end else v) end.
Lemma run_upd i l : forall d m d', okd d -> model_at d i = Some m -> Forall (into m) l -> run_assigns i l d = (d', Ok tt) ->
  exists m', model_at d' i = Some m' /\ forall f, get_field m' f = match get_field m f with Some (t, v) => Some (t, upd f l v) | None => None end.
Proof.
  induction l as [|[f v] l IH]; intros d m d' O Hm Hf H; cbn [run_assigns] in H.
  - inversion H; subst. exists m. split; [exact Hm|]. intros f. now destruct (get_field m f) as [[]|].
  - inversion Hf as [|? ? Hf1 Hf2]; subst. destruct (set_at d i false f v) as [d1 r1] eqn:E.
    pose proof (set_rd (one i) d i m f v d1 r1 Hm Hf1 eq_refl E) as R1. destruct r1 as [[]| |]; [|discriminate..].
    destruct (set_at_get _ _ _ _ _ _ _ Hm E) as (m1 & E1 & G1 & G2 & _).
    pose proof (r_at _ _ _ R1 i) as A. rewrite Hm in A. destruct A as (m1' & E1' & C1). rewrite E1 in E1'. inversion E1'; subst m1'.
    destruct (IH d1 m1 d' (rd_okd _ _ _ O R1) E1) as (m' & Hm' & G'); [|exact H|].
    { revert Hf2. apply Forall_impl. intros a. unfold into. now rewrite (chg_home _ _ _ C1). }
    exists m'. split; [exact Hm'|]. intros g. rewrite G'. cbn [upd]. destruct (String.eqb_spec f g) as [<-|N].
    + rewrite G1. unfold apply_op. cbn [fst snd andb]. destruct (get_field m f) as [[t w]|]; [|reflexivity]. destruct v; reflexivity.
    + rewrite G2 by congruence. reflexivity.
Qed.

(* ---- all models ---- *)
Notation sync_from_loop := (sync_from_loop kinds growth sortf conv genre_v1).
Notation sync_from_xmp := (sync_from_xmp kinds growth sortf conv genre_v1).
Lemma from_rd k : forall i d d' r, okd d -> sync_from_loop k i d = (d', r) -> rd (fun j => i <= j) d d'.
Proof.
  induction k as [|k IH]; intros i d d' r O H; cbn [SyncModelsM.sync_from_loop] in H.
  - inversion H; subst. apply rd_refl.
  - destruct (model_at d i) as [m|] eqn:Em.
    + destruct (run_assigns i (assigns_from d m) d) as [d1 r1] eqn:E. pose proof (run_rd i _ d m d1 r1 Em (assigns_into d m) E) as R1.
      assert (R1' : rd (fun j => i <= j) d d1).
      { eapply (rd_trans (one i) (one i)); [| |exact R1|apply rd_refl]; unfold one; cbn; intros; lia. }
      destruct r1 as [u| |]; [|inversion H; subst; exact R1'..].
      eapply (rd_trans _ (fun j => S i <= j)); [| |exact R1'|exact (IH _ _ _ _ (rd_okd _ _ _ O R1) H)]; cbn; intros; lia.
    + eapply (rd_trans (one i) (fun j => S i <= j)); [| |apply rd_refl|exact (IH _ _ _ _ O H)]; unfold one; cbn; intros; lia.
Qed.
Lemma from_upd k : forall i d d', okd d -> sync_from_loop k i d = (d', Ok tt) -> forall j m, i <= j < i + k -> model_at d j = Some m ->
  exists m', model_at d' j = Some m' /\ tm_kind m' = tm_kind m /\
    forall f, get_field m' f = match get_field m f with Some (t, v) => Some (t, upd f (assigns_from d m) v) | None => None end.
Proof.
  induction k as [|k IH]; intros i d d' O H j m Hj Hm; cbn [SyncModelsM.sync_from_loop] in H; [lia|].
  destruct (model_at d i) as [mi|] eqn:Em.
  - destruct (run_assigns i (assigns_from d mi) d) as [d1 r1] eqn:E. pose proof (run_rd i _ d mi d1 r1 Em (assigns_into d mi) E) as R1.
    pose proof (rd_okd _ _ _ O R1) as O1. destruct r1 as [[]| |]; [|discriminate..]. pose proof (from_rd _ _ _ _ _ O1 H) as R2.
    destruct (Nat.eq_dec i j) as [<-|N].
    + rewrite Em in Hm. inversion Hm; subst. destruct (run_upd i _ d m d1 O Em (assigns_into d m) E) as (m1 & E1 & G1).
      pose proof (r_at _ _ _ R2 i) as A. rewrite E1 in A. destruct A as (m2 & E2 & (_ & _ & _ & C2)). rewrite C2 in E2 by (left; lia).
      pose proof (r_at _ _ _ R1 i) as B. rewrite Em, E1 in B. destruct B as (m1' & E1' & (K1 & _)). inversion E1'; subst. exists m1'. auto.
    + pose proof (r_at _ _ _ R1 j) as A. rewrite Hm in A. destruct A as (m1 & E1 & (_ & _ & _ & C1)). rewrite C1 in E1 by (left; unfold one; congruence).
      destruct (IH _ _ _ O1 H j m) as (m' & Hm' & K & G); [lia|exact E1|]. exists m'. split; [exact Hm'|]. split; [exact K|].
      intros f. rewrite G, (assigns_same _ _ _ m O R1). reflexivity.
  - destruct (Nat.eq_dec i j) as [<-|N]; [congruence|]. apply (IH _ _ _ O H j m); [lia|exact Hm].
Qed.
End F.
