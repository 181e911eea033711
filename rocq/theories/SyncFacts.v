(* Facts about SyncModelsM.v *)
From Coq Require Import List Arith ZArith Bool Ascii String Lia.
From Verif Require Import GoStr GoMap Names Semver RegistryM PathM PVList NodeM FilterM ArrayM CodecM DocM DocFacts TypeM TagM DecodeM TPathM ModelTypes SpecTrip SpecSync SyncModelsM.
Import ListNotations.
Local Open Scope string_scope.

Lemma set_nth_same {X} i (v : gval X) l : i < List.length l -> nth_error (set_nth i v l) i = Some v.
Proof. revert i. induction l as [|x l IH]; intros [|i] H; cbn in *; try lia; auto. apply IH. lia. Qed.
Lemma set_nth_other {X} i j (v : gval X) l : i <> j -> nth_error (set_nth i v l) j = nth_error l j.
Proof. revert i j. induction l as [|x l IH]; intros [|i] [|j] H; cbn; auto; try congruence. Qed.
Lemma set_nth_len {X} i (v : gval X) l : List.length (set_nth i v l) = List.length l.
Proof. revert i. induction l as [|x l IH]; intros [|i]; cbn; auto. Qed.

Section F.
Context {X : Type}.
Variable cdc : string -> codec X.
Variable den_zero : gval X -> bool.
Variable kinds : nat -> string -> option (mkind X).
Variable growth : nat -> nat.
Variable sortf : list path_value -> list path_value.
Variable conv : string -> list (gval X) -> result (gval X).
Hypothesis Hk : forall f p k, library_kinds cdc den_zero f p = Some k -> kinds f p = Some k.
Notation model := (tmodel X).
Notation gval := (gval X).
Notation doc := (doc (tmodel X)).
Notation bops := (base_ops kinds growth sortf).
Notation lib := (library_models cdc den_zero).

(* ---- fields ---- *)
Lemma field_index_some fs f i : field_index (X := X) fs f = Some i -> exists fi t, nth_error fs i = Some (fi, t) /\ f_name fi = f.
Proof.
  revert i. induction fs as [|[a t] fs IH]; intros i H; cbn in H; [discriminate|].
  destruct (String.eqb_spec (f_name a) f) as [E|E].
  - inversion H; subst. exists a, t. auto.
  - destruct (field_index fs f) as [j|]; [|discriminate]. inversion H; subst. exact (IH _ eq_refl).
Qed.
Lemma get_field_field (x : model) f : get_field x f = field x f.
Proof.
  unfold get_field, field. generalize (tm_vals x). induction (k_fields (tm_kind x)) as [|[a t] fs IH]; intros vs; [reflexivity|].
  cbn [field_index]. destruct vs as [|v vs].
  - cbn [combine find]. destruct (f_name a =? f); [reflexivity|]. destruct (field_index fs f); [|reflexivity]. cbn [option_map nth_error]. now destruct (nth_error fs n) as [[]|].
  - cbn [combine find fst]. destruct (f_name a =? f); [reflexivity|]. rewrite <- IH. destruct (field_index fs f); reflexivity.
Qed.
Lemma put_kind (x : model) f v : tm_kind (put_field x f v) = tm_kind x.
Proof. unfold put_field. now destruct (field_index _ f). Qed.
Lemma put_len (x : model) f v : List.length (tm_vals (put_field x f v)) = List.length (tm_vals x).
Proof. unfold put_field. destruct (field_index _ f); cbn; [apply set_nth_len|reflexivity]. Qed.
Lemma put_get_same (x : model) f v t w : get_field x f = Some (t, w) -> get_field (put_field x f v) f = Some (t, v).
Proof.
  unfold get_field, put_field. destruct (field_index _ f) as [i|] eqn:E; [|discriminate]. cbn [tm_kind tm_vals]. rewrite E.
  destruct (nth_error (k_fields (tm_kind x)) i) as [[fi t']|]; [|discriminate]. destruct (nth_error (tm_vals x) i) eqn:En; [|discriminate].
  intros H. inversion H; subst. rewrite set_nth_same; [reflexivity|]. apply nth_error_Some. congruence.
Qed.
Lemma put_get_other (x : model) f g v : f <> g -> get_field (put_field x f v) g = get_field x g.
Proof.
  intros N. unfold get_field. rewrite put_kind. destruct (field_index (k_fields (tm_kind x)) g) as [j|] eqn:Ej; [|reflexivity].
  unfold put_field. destruct (field_index (k_fields (tm_kind x)) f) as [i|] eqn:Ei; [|reflexivity]. cbn [tm_vals].
  rewrite set_nth_other; [reflexivity|]. intros ->. apply field_index_some in Ei. apply field_index_some in Ej.
  destruct Ei as (? & ? & E1 & E2), Ej as (? & ? & E3 & E4). congruence.
Qed.

(* ---- kinds of models ---- *)
Ltac each_kind H := unfold library_models in H; cbn [In] in H;
  repeat (destruct H as [<-|H]); [..|contradiction].
Lemma lib_kind k : In k lib -> exists ns, k_namespaces k = [ns] /\ forall p, k_can k p = (p =? ns_name ns).
Proof. intros H. each_kind H; eexists; split; reflexivity. Qed.
Lemma lib_named k ns : In k lib -> k_namespaces k = [ns] -> forall p, k_can k p = (p =? ns_name ns).
Proof. intros H E. destruct (lib_kind k H) as (ns' & E' & C). congruence. Qed.
Lemma home_can (x : model) p : In (tm_kind x) lib -> is_a x p = (home x =? p).
Proof.
  intros H. unfold is_a, home. destruct (lib_kind _ H) as (ns & E & C). rewrite E, C. apply String.eqb_sym.
Qed.

Definition targets : list namespace := [ns_dc_NsDc; ns_xmpbase_NsXmp; ns_xmpdm_NsXmpDM; ns_xmprights_NsXmpRights].
Definition touched (p : string) : list string :=
  if p =? "exif" then of_exif
  else if p =? "riffinfo" then of_riff
  else if p =? "xmpDM" then
    ["xmpDM:startTimecode"; "xmpDM:audioSampleRate"; "xmpDM:album"; "xmpDM:composer"; "xmpDM:artist"; "xmpDM:engineer"; "xmpDM:genre"; "xmpDM:lyrics";
     "xmpDM:partOfCompilation"; "xmpDM:discNumber"; "xmpDM:logComment"; "xmpDM:trackNumber"; "xmpDM:tapeName"; "xmpDM:scene"; "xmpDM:projectName"; "xmpDM:good"]
  else if p =? "dc" then ["dc:title"; "dc:creator"; "dc:description"; "dc:rights"]
  else if p =? "xmp" then ["xmp:ModifyDate"; "xmp:CreatorTool"; "xmp:CreateDate"]
  else if p =? "xmpRights" then ["xmpRights:WebStatement"]
  else [].
Definition index_of (k : mkind X) (f : string) : bool := match field_index (k_fields k) f with Some _ => true | None => false end.
Lemma touched_fields : forallb (fun k => match k_namespaces k with [ns] => forallb (index_of k) (touched (ns_name ns)) | _ => false end) lib = true.
Proof. vm_compute. reflexivity. Qed.
Lemma touched_field (x : model) f : In (tm_kind x) lib -> List.length (tm_vals x) = List.length (k_fields (tm_kind x)) ->
  In f (touched (home x)) -> exists t v, get_field x f = Some (t, v).
Proof.
  intros Hx Hl Hf. pose proof touched_fields as T. rewrite forallb_forall in T. specialize (T _ Hx). unfold home in Hf.
  destruct (lib_kind _ Hx) as (ns & E & _). rewrite E in *. rewrite forallb_forall in T. specialize (T _ Hf). unfold index_of in T.
  unfold get_field. destruct (field_index (k_fields (tm_kind x)) f) as [i|] eqn:Ei; [|discriminate].
  destruct (field_index_some _ _ _ Ei) as (fi & t & E1 & _). rewrite E1.
  assert (Hi : i < List.length (tm_vals x)) by (rewrite Hl; apply nth_error_Some; congruence).
  apply nth_error_Some in Hi. destruct (nth_error (tm_vals x) i); [eauto|congruence].
Qed.

(* ---- documents ---- *)
Definition okd (d : doc) : Prop :=
  forall i m, model_at d i = Some m -> In (tm_kind m) lib /\ List.length (tm_vals m) = List.length (k_fields (tm_kind m)).
Lemma in_models_of (d : doc) m : In m (models_of d) <-> exists i, model_at d i = Some m.
Proof.
  unfold models_of, model_at. rewrite in_flat_map. split.
  - intros (n & Hn & Hm). apply In_nth_error in Hn. destruct Hn as [i Hi]. exists i. rewrite Hi. destruct (n_model n); [|contradiction].
    destruct Hm as [->|[]]. reflexivity.
  - intros [i H]. destruct (nth_error (d_nodes d) i) as [n|] eqn:E; [|discriminate]. exists n. split; [eapply nth_error_In; eauto|].
    rewrite H. now left.
Qed.
Lemma okd_values d : okd d <-> library_values cdc den_zero d.
Proof.
  unfold okd, library_values. rewrite Forall_forall. split.
  - intros H m Hm. apply in_models_of in Hm. destruct Hm as [i Hi]. exact (H i m Hi).
  - intros H i m Hm. apply H. apply in_models_of. eauto.
Qed.

(* everything of a node but its model *)
Definition shell (n : node (tmodel X)) := (n_name n, n_attrs n, n_value n, n_nodes n).
Definition target_names : list string := map ns_name targets.
(* what may become of a model; self: the receiver of the method *)
Definition evolved (self : Prop) (m m' : model) : Prop :=
  tm_kind m' = tm_kind m /\ List.length (tm_vals m') = List.length (tm_vals m)
  /\ (forall f, ~ In f (touched (home m)) -> get_field m' f = get_field m f)
  /\ (~ self -> ~ In (home m) target_names -> m' = m).
Definition new_of (ns : namespace) : option model := new_model bops ns.
Record evo (I : nat -> Prop) (d d' : doc) : Prop := {
  e_about : d_about d' = d_about d; e_kit : d_toolkit d' = d_toolkit d; e_ext : d_ext d' = d_ext d;
  e_len : List.length (d_nodes d) <= List.length (d_nodes d');
  e_shell : forall j n n', nth_error (d_nodes d) j = Some n -> nth_error (d_nodes d') j = Some n' -> shell n' = shell n;
  e_none : forall j, j < List.length (d_nodes d) -> model_at d j = None -> model_at d' j = None;
  e_old : forall j m, model_at d j = Some m -> exists m', model_at d' j = Some m' /\ evolved (I j) m m';
  e_new : forall j, List.length (d_nodes d) <= j -> j < List.length (d_nodes d') -> exists m ns m0,
            model_at d' j = Some m /\ In ns targets /\ new_of ns = Some m0 /\ home m0 = ns_name ns
            /\ In (tm_kind m0) lib /\ List.length (tm_vals m0) = List.length (k_fields (tm_kind m0))
            /\ evolved False m0 m /\ doc_find_model bops d ns = None
}.
Lemma evolved_refl P m : evolved P m m.
Proof. repeat split; auto. Qed.
Lemma evolved_home P m m' : evolved P m m' -> home m' = home m.
Proof. intros (E & _). unfold home. now rewrite E. Qed.
Lemma evolved_trans (P Q R : Prop) m1 m2 m3 : (P -> R) -> (Q -> R) -> evolved P m1 m2 -> evolved Q m2 m3 -> evolved R m1 m3.
Proof.
  intros HP HQ H1 H2. pose proof (evolved_home _ _ _ H1) as Eh. destruct H1 as (A1 & A2 & A3 & A4), H2 as (B1 & B2 & B3 & B4). rewrite Eh in *.
  repeat split; try congruence.
  - intros f Hf. rewrite B3, A3; auto.
  - intros NR Nt. rewrite B4, A4; auto.
Qed.
Lemma evo_refl I d : evo I d d.
Proof.
  split; auto.
  - congruence.
  - intros j m H. exists m. split; [assumption|apply evolved_refl].
  - lia.
Qed.
Lemma model_at_lt (d : doc) j m : model_at d j = Some m -> j < List.length (d_nodes d).
Proof. unfold model_at. intros H. apply nth_error_Some. destruct (nth_error (d_nodes d) j); congruence. Qed.
Lemma fm_model (d : doc) ns j : doc_find_model bops d ns = Some j -> exists m, model_at d j = Some m /\ is_a m (ns_name ns) = true.
Proof.
  unfold doc_find_model. intros H. apply find_index_some in H. destruct H as (n & E & T & _). unfold model_at. rewrite E.
  unfold model_can in T. destruct (n_model n) as [m|]; [|discriminate]. exists m. auto.
Qed.
Lemma fm_none (d : doc) ns : doc_find_model bops d ns = None <-> forall j m, model_at d j = Some m -> is_a m (ns_name ns) = false.
Proof.
  unfold doc_find_model. rewrite find_index_none. split.
  - intros H j m Hm. unfold model_at in Hm. destruct (nth_error (d_nodes d) j) as [n|] eqn:E; [|discriminate].
    apply nth_error_In in E. apply H in E. unfold model_can in E. rewrite Hm in E. exact E.
  - intros H n Hn. apply In_nth_error in Hn. destruct Hn as [j Hj]. unfold model_can. destruct (n_model n) as [m|] eqn:E; [|reflexivity].
    apply (H j m). unfold model_at. now rewrite Hj.
Qed.
Lemma fm_first (d : doc) ns j : doc_find_model bops d ns = Some j ->
  forall k m, k < j -> model_at d k = Some m -> is_a m (ns_name ns) = false.
Proof.
  unfold doc_find_model. intros H k m Hk' Hm. apply find_index_some in H. destruct H as (n & E & T & F). unfold model_at in Hm.
  destruct (nth_error (d_nodes d) k) as [n'|] eqn:E'; [|discriminate]. specialize (F k n' Hk' E'). unfold model_can in F. rewrite Hm in F. now apply not_true_iff_false in F.
Qed.
Lemma fm_intro (d : doc) ns j m : model_at d j = Some m -> is_a m (ns_name ns) = true ->
  (forall k m, k < j -> model_at d k = Some m -> is_a m (ns_name ns) = false) -> doc_find_model bops d ns = Some j.
Proof.
  intros Hm Ha Hf. destruct (doc_find_model bops d ns) as [k|] eqn:E.
  - destruct (fm_model _ _ _ E) as (m' & Hm' & Ha'). pose proof (fm_first _ _ _ E) as F. destruct (Nat.lt_trichotomy j k) as [L|[->|L]]; auto.
    + specialize (F j m L Hm). congruence.
    + specialize (Hf k m' L Hm'). congruence.
  - rewrite fm_none in E. specialize (E _ _ Hm). congruence.
Qed.
Lemma evo_found I d d' ns j : evo I d d' -> doc_find_model bops d ns = Some j -> doc_find_model bops d' ns = Some j.
Proof.
  intros E H. destruct (fm_model _ _ _ H) as (m & Hm & Ha). destruct (e_old _ _ _ E j m Hm) as (m' & Hm' & Ev).
  apply (fm_intro d' ns j m'); auto.
  - unfold is_a in *. destruct Ev as (-> & _). exact Ha.
  - intros k mk Hlt Hmk. destruct (model_at d k) as [m0|] eqn:E0.
    + destruct (e_old _ _ _ E k m0 E0) as (m1 & Hm1 & Ev1). rewrite Hm1 in Hmk. inversion Hmk; subst. unfold is_a. destruct Ev1 as (-> & _).
      exact (fm_first _ _ _ H k m0 Hlt E0).
    + rewrite (e_none _ _ _ E k) in Hmk; [discriminate| |assumption]. pose proof (model_at_lt _ _ _ Hm). lia.
Qed.
Lemma evo_okd I d d' : okd d -> evo I d d' -> okd d'.
Proof.
  intros O E j m' Hm'. destruct (Nat.lt_ge_cases j (List.length (d_nodes d))) as [L|L].
  - destruct (model_at d j) as [m|] eqn:Em.
    + destruct (e_old _ _ _ E j m Em) as (m1 & H1 & (A & B & _)). rewrite H1 in Hm'. inversion Hm'; subst. rewrite A, B. exact (O j m Em).
    + rewrite (e_none _ _ _ E j L Em) in Hm'. discriminate.
  - destruct (e_new _ _ _ E j L (model_at_lt _ _ _ Hm')) as (m & ns & m0 & H1 & _ & _ & _ & H2 & H3 & (A & B & _) & _).
    rewrite H1 in Hm'. inversion Hm'; subst. rewrite A, B. auto.
Qed.
Lemma targets_named ns ns' : In ns targets -> In ns' targets -> ns_name ns = ns_name ns' -> ns = ns'.
Proof. unfold targets. cbn [In]. intros [<-|[<-|[<-|[<-|[]]]]] [<-|[<-|[<-|[<-|[]]]]] H; try reflexivity; discriminate. Qed.
Lemma evo_trans I J d1 d2 d3 : evo I d1 d2 -> evo J d2 d3 -> evo (fun j => I j \/ J j) d1 d3.
Proof.
  intros E1 E2. split.
  - rewrite (e_about _ _ _ E2). apply E1.
  - rewrite (e_kit _ _ _ E2). apply E1.
  - rewrite (e_ext _ _ _ E2). apply E1.
  - pose proof (e_len _ _ _ E1). pose proof (e_len _ _ _ E2). lia.
  - intros j n n' Hn Hn'. destruct (nth_error (d_nodes d2) j) as [n2|] eqn:N2.
    + rewrite (e_shell _ _ _ E2 j n2 n' N2 Hn'). exact (e_shell _ _ _ E1 j n n2 Hn N2).
    + apply nth_error_None in N2. pose proof (e_len _ _ _ E1). assert (j < List.length (d_nodes d1)) by (apply nth_error_Some; congruence). lia.
  - intros j L H. apply (e_none _ _ _ E2); [pose proof (e_len _ _ _ E1); lia|]. now apply (e_none _ _ _ E1).
  - intros j m H. destruct (e_old _ _ _ E1 j m H) as (m2 & H2 & V2). destruct (e_old _ _ _ E2 j m2 H2) as (m3 & H3 & V3).
    exists m3. split; [assumption|]. eapply evolved_trans; [| |exact V2|exact V3]; auto.
  - intros j L L3. destruct (Nat.lt_ge_cases j (List.length (d_nodes d2))) as [L2|L2].
    + destruct (e_new _ _ _ E1 j L L2) as (m & ns & m0 & H1 & Hns & H0 & Hh & Hl & Hlen & Ev & F).
      destruct (e_old _ _ _ E2 j m H1) as (m3 & H3 & V3). exists m3, ns, m0. repeat (split; [assumption|]). split; [|assumption].
      assert (Ht : In (home m0) target_names) by (rewrite Hh; now apply in_map).
      pose proof (evolved_home _ _ _ Ev) as Eh. destruct Ev as (A1 & A2 & A3 & A4), V3 as (B1 & B2 & B3 & B4). rewrite Eh in *. repeat split; try congruence.
      * intros f Hf. rewrite B3, A3; auto.
    + destruct (e_new _ _ _ E2 j L2 L3) as (m & ns & m0 & H1 & Hns & H0 & Hh & Hl & Hlen & Ev & F).
      exists m, ns, m0. repeat (split; [assumption|]). destruct (doc_find_model bops d1 ns) as [k|] eqn:Ek; [|reflexivity].
      rewrite (evo_found _ _ _ _ _ E1 Ek) in F. discriminate.
Qed.

(* ---- one step ---- *)
Definition allowed (x : model) (s : @step X) : Prop :=
  match s with
  | Make ns => In ns targets
  | Set_ _ (Model ns) f _ => In ns targets /\ In f (touched (ns_name ns))
  | Set_ _ Self f _ => In f (touched (home x)) /\ ~ In (home x) target_names
  | Stop _ => True
  end.
Lemma forall_when b l (P : step -> Prop) : Forall P l -> Forall P (when (X := X) b l).
Proof. destruct b; cbn; auto. Qed.
Ltac in_list := solve [cbn; repeat (first [left; reflexivity | right])].
Ltac no_list := solve [cbn; intuition discriminate].
Lemma forall_map (P : step -> Prop) (g : gval -> @step X) l : (forall v, P (g v)) -> Forall P (map g l).
Proof. intros H. induction l; constructor; auto. Qed.
Ltac split_forall := repeat (first [apply Forall_nil|apply forall_when|apply forall_map; intro|apply Forall_app; split|apply Forall_cons]).
Ltac allow E := cbn [allowed]; rewrite ?E; first [exact I|in_list|split; [in_list|first [in_list|no_list]]].
Lemma steps_allowed x : Forall (allowed x) (steps_to conv x).
Proof.
  unfold steps_to.
  destruct (String.eqb_spec (home x) "pdf") as [E|_]; [unfold pdf_to, fill, put; split_forall; allow E|].
  destruct (String.eqb_spec (home x) "tiff") as [E|_]; [unfold tiff_to, fill, put; split_forall; allow E|].
  destruct (String.eqb_spec (home x) "riffinfo") as [E|_]; [unfold riff_to, fill, put; split_forall; allow E|].
  destruct (String.eqb_spec (home x) "id3") as [E|_]; [unfold id3_to, fill, put; cbv zeta; split_forall; allow E|].
  destruct (String.eqb_spec (home x) "iXML") as [E|_].
  { unfold ixml_to, fill, put. apply Forall_app. split; [split_forall; allow E|]. destruct (value x "iXML:speed"); split_forall; allow E. }
  destruct (String.eqb_spec (home x) "exif") as [E|_]; [|constructor].
  unfold exif_to, fill, put. cbv zeta. destruct (value x "exif:ISOSpeedRatings") as [ | | | | |[] | | | ]; split_forall; allow E.
Qed.

Lemma put_model_at (d : doc) i m j : i < List.length (d_nodes d) ->
  model_at (put_model d i m) j = if Nat.eqb i j then Some m else model_at d j.
Proof.
  intros L. unfold put_model, model_at. destruct (nth_error (d_nodes d) i) as [n|] eqn:E; [|apply nth_error_None in E; lia]. cbn [with_nodes d_nodes].
  destruct (Nat.eqb_spec i j) as [<-|N]; [rewrite nth_replace_eq by assumption; now destruct n|]. now rewrite nth_replace_neq.
Qed.
Lemma put_model_evo (I : nat -> Prop) d i m m' : model_at d i = Some m -> evolved (I i) m m' -> evo I d (put_model d i m').
Proof.
  intros Hm Ev. pose proof (model_at_lt _ _ _ Hm) as L. pose proof (put_model_at d i m' ) as P.
  assert (Len : List.length (d_nodes (put_model d i m')) = List.length (d_nodes d)).
  { unfold put_model. destruct (nth_error (d_nodes d) i); [|reflexivity]. cbn. apply replace_nth_length. }
  split.
  1-3: unfold put_model; destruct (nth_error (d_nodes d) i); reflexivity.
  - lia.
  - intros j n n' Hn Hn'. unfold put_model in Hn'. destruct (nth_error (d_nodes d) i) as [ni|] eqn:E; [|congruence]. cbn [with_nodes d_nodes] in Hn'.
    destruct (Nat.eq_dec i j) as [<-|N].
    + rewrite nth_replace_eq in Hn' by assumption. inversion Hn'; subst. rewrite E in Hn. inversion Hn; subst. now destruct n.
    + rewrite nth_replace_neq in Hn' by assumption. congruence.
  - intros j Lj Hj. rewrite P by assumption. destruct (Nat.eqb_spec i j) as [<-|N]; [congruence|assumption].
  - intros j mj Hj. rewrite P by assumption. destruct (Nat.eqb_spec i j) as [<-|N].
    + exists m'. split; [reflexivity|]. congruence.
    + exists mj. split; [assumption|apply evolved_refl].
  - intros j. lia.
Qed.
Lemma put_evolved (P : Prop) m f v : In f (touched (home m)) -> (In (home m) target_names \/ P) -> evolved P m (put_field m f v).
Proof.
  intros Hf Ht. split; [apply put_kind|]. split; [apply put_len|]. split.
  - intros g Hg. apply put_get_other. intros ->. contradiction.
  - tauto.
Qed.
Lemma set_at_evo (I : nat -> Prop) d i m b f v d' r : model_at d i = Some m -> In f (touched (home m)) -> (In (home m) target_names \/ I i) ->
  set_at d i b f v = (d', r) -> evo I d d'.
Proof.
  intros Hm Hf Ht. unfold set_at. rewrite Hm. destruct (get_field m f) as [[t w]|] eqn:G.
  2:{ intros H. inversion H; subst. apply evo_refl. }
  destruct (b && negb (is_empty t w)). { intros H. inversion H; subst. apply evo_refl. }
  destruct v as [v| |]; intros H; inversion H; subst; [|apply evo_refl..].
  eapply put_model_evo; [exact Hm|]. now apply put_evolved.
Qed.
Ltac find_k k l := lazymatch l with k :: _ => left; reflexivity | _ :: ?r => right; find_k k r end.
Definition new_facts (ns : namespace) (m0 : model) : Prop :=
  k_namespaces (tm_kind m0) = [ns] /\ In (tm_kind m0) lib
  /\ List.length (tm_vals m0) = List.length (k_fields (tm_kind m0)) /\ tm_vals m0 = k_init (tm_kind m0)
  /\ (forall f, In f (touched (ns_name ns)) -> exists t, get_field m0 f = Some (t, zero t)).
Lemma fresh_facts ns can fs : In (MKind [ns] can fs (map (fun f => zero (snd f)) fs)) lib ->
  forallb (index_of (MKind [ns] can fs (map (fun f => zero (snd f)) fs))) (touched (ns_name ns)) = true ->
  new_facts ns (TModel (MKind [ns] can fs (map (fun f => zero (snd f)) fs)) (map (fun f => zero (snd f)) fs)).
Proof.
  intros Hin Hi. split; [reflexivity|]. split; [exact Hin|]. split; [cbn; apply map_length|]. split; [reflexivity|].
  intros f Hf. rewrite forallb_forall in Hi. specialize (Hi f Hf). unfold get_field, index_of in *. cbn [tm_kind tm_vals k_fields] in *.
  destruct (field_index fs f) as [i|] eqn:Ei; [|discriminate].
  destruct (field_index_some _ _ _ Ei) as (fi & t & E1 & _). rewrite E1. rewrite nth_error_map, E1. cbn. eauto.
Qed.
Lemma new_made n p k : library_kinds cdc den_zero n p = Some k -> new_of (Namespace p "" (Some n)) = Some (TModel k (k_init k)).
Proof. intros H. unfold new_of, new_model. cbn [ns_factory ns_name base_ops mo_new]. now rewrite (Hk _ _ _ H). Qed.
Lemma target_new ns : In ns targets -> exists m0, new_of ns = Some m0 /\ new_facts ns m0.
Proof.
  unfold targets. cbn [In]. intros [<-|[<-|[<-|[<-|[]]]]]; eexists.
  1: split; [exact (new_made 3 "dc" (k_dc_DublinCore cdc) eq_refl)|].
  2: split; [exact (new_made 16 "xmp" (k_xmpbase_XmpBase cdc) eq_refl)|].
  3: split; [exact (new_made 18 "xmpDM" (k_xmpdm_XmpDM cdc den_zero) eq_refl)|].
  4: split; [exact (new_made 20 "xmpRights" (k_xmprights_XmpRights cdc) eq_refl)|].
  all: apply fresh_facts; [unfold library_models|vm_compute; reflexivity].
  1: lazymatch goal with |- In _ ?l => find_k (k_dc_DublinCore cdc) l end.
  1: lazymatch goal with |- In _ ?l => find_k (k_xmpbase_XmpBase cdc) l end.
  1: lazymatch goal with |- In _ ?l => find_k (k_xmpdm_XmpDM cdc den_zero) l end.
  1: lazymatch goal with |- In _ ?l => find_k (k_xmprights_XmpRights cdc) l end.
Qed.

Lemma model_at_app (d : doc) n j : model_at (with_nodes d (d_nodes d ++ [n])%list) j =
  if Nat.ltb j (List.length (d_nodes d)) then model_at d j else if Nat.eqb j (List.length (d_nodes d)) then n_model n else None.
Proof.
  unfold model_at. cbn [with_nodes d_nodes]. destruct (Nat.ltb_spec j (List.length (d_nodes d))) as [L|L].
  - now rewrite nth_error_app1.
  - rewrite nth_error_app2 by assumption. destruct (Nat.eqb_spec j (List.length (d_nodes d))) as [->|N].
    + now rewrite Nat.sub_diag.
    + destruct (j - List.length (d_nodes d)) as [|k] eqn:E; [lia|]. cbn. now destruct k.
Qed.
(* MakeModel of a target: either it is there, or a fresh model is appended *)
Lemma make_out d ns d' r : In ns targets -> make_model bops d ns = (d', r) ->
  (exists j, doc_find_model bops d ns = Some j /\ d' = d /\ r = Ok j)
  \/ (doc_find_model bops d ns = None /\ exists m0, new_of ns = Some m0 /\ new_facts ns m0 /\ r = Ok (List.length (d_nodes d))
      /\ d_about d' = d_about d /\ d_toolkit d' = d_toolkit d /\ d_ext d' = d_ext d
      /\ exists n, d_nodes d' = (d_nodes d ++ [n])%list /\ n_model n = Some m0).
Proof.
  intros Ht. unfold make_model. destruct (doc_find_model bops d ns) as [j|] eqn:E.
  - intros H. inversion H; subst. left. eauto.
  - destruct (target_new ns Ht) as (m0 & Hm & F). unfold new_of in Hm. rewrite Hm. intros H. inversion H; subst. right. split; [reflexivity|].
    exists m0. split; [exact Hm|]. split; [exact F|]. cbn [d_nodes with_maps with_nodes set_dirty with_dirty]. split.
    + rewrite app_length. cbn. f_equal. lia.
    + repeat (split; [reflexivity|]). eexists. split; [reflexivity|]. reflexivity.
Qed.
Lemma model_at_snoc (d d' : doc) n j : d_nodes d' = (d_nodes d ++ [n])%list -> model_at d' j =
  if Nat.ltb j (List.length (d_nodes d)) then model_at d j else if Nat.eqb j (List.length (d_nodes d)) then n_model n else None.
Proof. intros E. rewrite <- model_at_app. unfold model_at. rewrite E. reflexivity. Qed.
Lemma new_home ns m0 : new_facts ns m0 -> home m0 = ns_name ns.
Proof. intros (E & _). unfold home. now rewrite E. Qed.
Lemma make_evo (I : nat -> Prop) d ns d' r : In ns targets -> make_model bops d ns = (d', r) -> evo I d d'.
Proof.
  intros Ht H. destruct (make_out _ _ _ _ Ht H) as [(j & _ & -> & _)|(Nf & m0 & Hn & F & _ & A & B & C & n & En & Em)]; [apply evo_refl|].
  pose proof (model_at_snoc d d' n) as P. split; auto.
  - rewrite En, app_length. lia.
  - intros j a b Ha Hb. rewrite En, nth_error_app1 in Hb by (apply nth_error_Some; congruence). congruence.
  - intros j L Hj. rewrite (P j En). apply Nat.ltb_lt in L. now rewrite L.
  - intros j m Hj. exists m. split; [|apply evolved_refl]. rewrite (P j En). pose proof (model_at_lt _ _ _ Hj) as L. apply Nat.ltb_lt in L. now rewrite L.
  - intros j L L'. rewrite En, app_length in L'. cbn in L'. assert (j = List.length (d_nodes d)) as -> by lia.
    exists m0, ns, m0. rewrite (P _ En), Nat.ltb_irrefl, Nat.eqb_refl. split; [assumption|]. split; [assumption|]. split; [assumption|].
    split; [now apply new_home|]. destruct F as (F1 & F2 & F3 & F4 & F5). split; [assumption|]. split; [assumption|]. split; [apply evolved_refl|assumption].
Qed.
Lemma run_step_evo d i x s d' r : okd d -> model_at d i = Some x -> allowed x s -> run_step kinds growth sortf i d s = (d', r) ->
  evo (fun j => j = i) d d'.
Proof.
  intros O Hx Ha. destruct s as [ns|b [ns|] f v|q]; cbn [run_step allowed] in *.
  - intros H. destruct (make_model bops d ns) as [d1 r1] eqn:E. apply (make_evo (fun j => j = i) _ _ _ _ Ha) in E. destruct r1; inversion H; subst; exact E.
  - intros H. destruct (doc_find_model bops d ns) as [j|] eqn:E; [|inversion H; subst; apply evo_refl].
    destruct (fm_model _ _ _ E) as (m & Hm & Hc). destruct Ha as [Ht Hf]. rewrite home_can in Hc by exact (proj1 (O _ _ Hm)).
    apply String.eqb_eq in Hc. eapply set_at_evo; [exact Hm| | |exact H]; rewrite Hc; [assumption|left; now apply in_map].
  - intros H. destruct Ha as [Hf _]. eapply set_at_evo; [exact Hx|exact Hf|now right|exact H].
  - intros H. inversion H; subst. apply evo_refl.
Qed.
Lemma evo_weak (I J : nat -> Prop) d d' : evo I d d' -> (forall j, I j -> J j) -> evo J d d'.
Proof.
  intros E H. split; try apply E. intros j m Hm. destruct (e_old _ _ _ E j m Hm) as (m' & H1 & H2).
  exists m'. split; [assumption|]. eapply evolved_trans; [apply H|apply (fun F => F)|exact H2|apply evolved_refl].
Qed.
(* the receiver of the later steps is the one of the first step, except for its fields *)
Lemma allowed_home x x' s : home x' = home x -> allowed x s -> allowed x' s.
Proof. intros E. destruct s as [|? []|]; cbn; rewrite ?E; auto. Qed.
Lemma run_steps_evo i l : forall d x d' r, okd d -> model_at d i = Some x -> Forall (allowed x) l -> run_steps kinds growth sortf i l d = (d', r) ->
  evo (fun j => j = i) d d'.
Proof.
  induction l as [|s l IH]; intros d x d' r O Hx Ha H; cbn [run_steps] in H.
  - inversion H; subst. apply evo_refl.
  - inversion Ha as [|? ? A1 A2]; subst. destruct (run_step kinds growth sortf i d s) as [d1 r1] eqn:E. pose proof (run_step_evo _ _ _ _ _ _ O Hx A1 E) as E1.
    destruct r1 as [[]|e|].
    + destruct (e_old _ _ _ E1 i x Hx) as (x1 & Hx1 & Ev). pose proof (evolved_home _ _ _ Ev) as Eh.
      pose proof (IH d1 x1 d' r (evo_okd _ _ _ O E1) Hx1 (Forall_impl _ (fun s => allowed_home x x1 s Eh) A2) H) as E2.
      apply (evo_weak _ (fun j => j = i) _ _ (evo_trans _ _ _ _ _ E1 E2)). tauto.
    + inversion H; subst. exact E1.
    + inversion H; subst. exact E1.
Qed.

(* ---- the value of a property of a target; a model that is not there has its initial values ---- *)
Definition V (d : doc) (ns : namespace) (f : string) : option (ty X * gval) :=
  match doc_find_model bops d ns with
  | Some j => match model_at d j with Some m => get_field m f | None => None end
  | None => match new_of ns with Some m => get_field m f | None => None end
  end.
Definition op := (bool * result gval)%type.
Definition apply_op (o : option (ty X * gval)) (p : op) : option (ty X * gval) :=
  match o with
  | Some (t, w) => if fst p && negb (is_empty t w) then o else match snd p with Ok v => Some (t, v) | _ => o end
  | None => None
  end.
Definition cell_op (ns : namespace) (f : string) (s : @step X) : list op :=
  match s with
  | Set_ b (Model ns') f' v => if (ns_name ns' =? ns_name ns) && (f' =? f) then [(b, v)] else []
  | _ => []
  end.
Definition cell_ops ns f (l : list step) : list op := flat_map (cell_op ns f) l.

Lemma V_make d ns ns' f d' r : okd d -> In ns targets -> In ns' targets -> make_model bops d ns' = (d', r) -> V d' ns f = V d ns f.
Proof.
  intros O Ht Ht' H. destruct (make_out _ _ _ _ Ht' H) as [(j & _ & -> & _)|(Nf & m0 & Hn & F & _ & A & B & C & n & En & Em)]; [reflexivity|].
  pose proof (model_at_snoc d d' n) as P. assert (Ev : evo (fun _ => False) d d') by exact (make_evo _ _ _ _ _ Ht' H).
  unfold V. destruct (doc_find_model bops d ns) as [j|] eqn:E.
  - rewrite (evo_found _ _ _ _ _ Ev E). destruct (fm_model _ _ _ E) as (m & Hm & _). rewrite Hm, (P j En).
    pose proof (model_at_lt _ _ _ Hm) as L. apply Nat.ltb_lt in L. now rewrite L, Hm.
  - destruct (String.eqb_spec (ns_name ns) (ns_name ns')) as [En'|Nn].
    + apply targets_named in En'; [|assumption..]. subst ns'.
      assert (E' : doc_find_model bops d' ns = Some (List.length (d_nodes d))).
      { apply (fm_intro d' ns _ m0).
        - rewrite (P _ En), Nat.ltb_irrefl, Nat.eqb_refl. exact Em.
        - rewrite home_can by apply F. rewrite (new_home _ _ F). apply String.eqb_refl.
        - intros k m L Hm. rewrite (P _ En) in Hm. apply Nat.ltb_lt in L. rewrite L in Hm. rewrite fm_none in E. exact (E _ _ Hm). }
      rewrite E', (P _ En), Nat.ltb_irrefl, Nat.eqb_refl, Em, Hn. reflexivity.
    + assert (E' : doc_find_model bops d' ns = None).
      { apply fm_none. intros k m Hm. rewrite (P _ En) in Hm. rewrite fm_none in E. destruct (Nat.ltb k _); [exact (E _ _ Hm)|].
        destruct (Nat.eqb k _); [|discriminate]. rewrite Em in Hm. inversion Hm; subst. rewrite home_can by apply F.
        rewrite (new_home _ _ F). apply String.eqb_neq. congruence. }
      now rewrite E'.
Qed.
(* an assignment to field f of the model in node j *)
Lemma set_at_get d j m b f v d' : model_at d j = Some m -> set_at d j b f v = (d', Ok tt) ->
  exists m', model_at d' j = Some m' /\ get_field m' f = apply_op (get_field m f) (b, v)
    /\ (forall g, g <> f -> get_field m' g = get_field m g) /\ (forall k, k <> j -> model_at d' k = model_at d k).
Proof.
  intros Hm. unfold set_at. rewrite Hm. unfold apply_op. destruct (get_field m f) as [[t w]|] eqn:G; [|discriminate]. cbn [fst snd].
  destruct (b && negb (is_empty t w)).
  { intros H. inversion H; subst. exists m. auto. }
  destruct v as [v| |]; intros H; inversion H; subst. exists (put_field m f v).
  pose proof (model_at_lt _ _ _ Hm) as L. split; [rewrite put_model_at by assumption; now rewrite Nat.eqb_refl|].
  split; [exact (put_get_same m f v t w G)|]. split.
  - intros g Ng. apply put_get_other. congruence.
  - intros k Nk. rewrite put_model_at by assumption. apply Nat.neq_sym, Nat.eqb_neq in Nk. now rewrite Nk.
Qed.
Lemma run_step_V d i x s d' ns f : okd d -> model_at d i = Some x -> allowed x s -> In ns targets ->
  run_step kinds growth sortf i d s = (d', Ok tt) -> V d' ns f = fold_left apply_op (cell_op ns f s) (V d ns f).
Proof.
  intros O Hx Ha Ht H. pose proof (run_step_evo _ _ _ _ _ _ O Hx Ha H) as Ev. destruct s as [ns'|b [ns'|] f' v|q]; cbn [run_step allowed cell_op] in *.
  - destruct (make_model bops d ns') as [d1 r1] eqn:E. cbn [fold_left]. destruct r1; inversion H; subst. exact (V_make _ _ _ _ _ _ O Ht Ha E).
  - destruct (doc_find_model bops d ns') as [j|] eqn:E; [|discriminate]. destruct (fm_model _ _ _ E) as (m & Hm & Hc).
    destruct (set_at_get _ _ _ _ _ _ _ Hm H) as (m' & Hm' & G1 & G2 & G3). unfold V.
    destruct (String.eqb_spec (ns_name ns') (ns_name ns)) as [En|Nn].
    + apply targets_named in En; [|apply Ha|assumption]. subst ns'. rewrite E, (evo_found _ _ _ _ _ Ev E), Hm, Hm'. cbn [andb].
      destruct (String.eqb_spec f' f) as [->|Nf]; cbn [fold_left]; [exact G1|]. apply G2. congruence.
    + cbn [andb fold_left]. destruct (doc_find_model bops d ns) as [k|] eqn:Ek.
      * rewrite (evo_found _ _ _ _ _ Ev Ek). destruct (Nat.eq_dec k j) as [->|Nk]; [|now rewrite G3].
        destruct (fm_model _ _ _ Ek) as (m2 & Hm2 & Hc2). rewrite home_can in Hc by exact (proj1 (O _ _ Hm)). rewrite home_can in Hc2 by exact (proj1 (O _ _ Hm2)).
        apply String.eqb_eq in Hc, Hc2. congruence.
      * assert (E' : doc_find_model bops d' ns = None); [|now rewrite E'].
        apply fm_none. intros k mk Hk'. rewrite fm_none in Ek. destruct (Nat.eq_dec k j) as [->|Nk]; [|rewrite G3 in Hk' by assumption; exact (Ek _ _ Hk')].
        destruct (e_old _ _ _ Ev j m Hm) as (m3 & H3 & (K & _)). rewrite H3 in Hk'. inversion Hk'; subst. unfold is_a. rewrite K. exact (Ek _ _ Hm).
  - destruct (set_at_get _ _ _ _ _ _ _ Hx H) as (m' & Hm' & G1 & G2 & G3). cbn [fold_left]. unfold V.
    assert (Nx : forall k mk, model_at d k = Some mk -> is_a mk (ns_name ns) = true -> k <> i).
    { intros k mk Hk' Hc ->. rewrite Hx in Hk'. inversion Hk'; subst. rewrite home_can in Hc by exact (proj1 (O _ _ Hx)). apply String.eqb_eq in Hc.
      apply (proj2 Ha). rewrite Hc. now apply in_map. }
    destruct (doc_find_model bops d ns) as [k|] eqn:Ek.
    + rewrite (evo_found _ _ _ _ _ Ev Ek). destruct (fm_model _ _ _ Ek) as (m2 & Hm2 & Hc2). rewrite G3 by exact (Nx _ _ Hm2 Hc2). reflexivity.
    + assert (E' : doc_find_model bops d' ns = None); [|now rewrite E'].
      apply fm_none. intros k mk Hk'. rewrite fm_none in Ek. destruct (Nat.eq_dec k i) as [->|Nk]; [|rewrite G3 in Hk' by assumption; exact (Ek _ _ Hk')].
      destruct (e_old _ _ _ Ev i x Hx) as (m3 & H3 & (K & _)). rewrite H3 in Hk'. inversion Hk'; subst. unfold is_a. rewrite K. exact (Ek _ _ Hx).
  - inversion H; subst. reflexivity.
Qed.
Lemma run_steps_V i l : forall d x d' ns f, okd d -> model_at d i = Some x -> Forall (allowed x) l -> In ns targets ->
  run_steps kinds growth sortf i l d = (d', Ok tt) -> V d' ns f = fold_left apply_op (cell_ops ns f l) (V d ns f).
Proof.
  induction l as [|s l IH]; intros d x d' ns f O Hx Ha Ht H; cbn [run_steps] in H.
  - inversion H; subst. reflexivity.
  - inversion Ha as [|? ? A1 A2]; subst. destruct (run_step kinds growth sortf i d s) as [d1 [[]|e|]] eqn:E; try discriminate.
    pose proof (run_step_evo _ _ _ _ _ _ O Hx A1 E) as E1. destruct (e_old _ _ _ E1 i x Hx) as (x1 & Hx1 & Ev). pose proof (evolved_home _ _ _ Ev) as Eh.
    rewrite (IH d1 x1 d' ns f (evo_okd _ _ _ O E1) Hx1 (Forall_impl _ (fun s => allowed_home x x1 s Eh) A2) Ht H).
    rewrite (run_step_V _ _ _ _ _ _ _ O Hx A1 Ht E). unfold cell_ops. cbn [flat_map]. now rewrite fold_left_app.
Qed.

(* ---- the loop ---- *)
Notation lops := (lib_ops kinds growth sortf conv).
Lemma steps_nil x : In (home x) target_names -> steps_to conv x = [].
Proof. unfold steps_to. cbn. intros [<-|[<-|[<-|[<-|[]]]]]; reflexivity. Qed.
Lemma steps_same m m' : evolved False m m' -> steps_to conv m' = steps_to conv m.
Proof.
  intros Ev. destruct (in_dec String.string_dec (home m) target_names) as [H|N].
  - rewrite !steps_nil; auto. now rewrite (evolved_home _ _ _ Ev).
  - destruct Ev as (_ & _ & _ & E). now rewrite E by tauto.
Qed.
Lemma loop_evo k : forall i d d' r, okd d -> sync_to_loop lops k i d = (d', r) -> evo (fun j => i <= j < i + k) d d'.
Proof.
  induction k as [|k IH]; intros i d d' r O H; cbn [sync_to_loop] in H.
  - inversion H; subst. apply evo_refl.
  - destruct (model_at d i) as [x|] eqn:Hx.
    2:{ eapply evo_weak; [exact (IH _ _ _ _ O H)|]. cbn beta. intros j. lia. }
    cbn [lib_ops mo_sync_to] in H. destruct (run_steps kinds growth sortf i (steps_to conv x) d) as [d1 r1] eqn:E.
    pose proof (run_steps_evo _ _ _ _ _ _ O Hx (steps_allowed x) E) as E1. destruct r1 as [[]|e|].
    + eapply evo_weak; [exact (evo_trans _ _ _ _ _ E1 (IH _ _ _ _ (evo_okd _ _ _ O E1) H))|]. cbn beta. intros j. lia.
    + inversion H; subst. eapply evo_weak; [exact E1|]. cbn beta. intros j. lia.
    + inversion H; subst. eapply evo_weak; [exact E1|]. cbn beta. intros j. lia.
Qed.
Definition steps_at (d : doc) (j : nat) : list step := match model_at d j with Some m => steps_to conv m | None => [] end.
Lemma steps_at_evo I d d' j : evo I d d' -> ~ I j -> steps_at d' j = steps_at d j.
Proof.
  intros E N. unfold steps_at. destruct (model_at d j) as [m|] eqn:Hm.
  - destruct (e_old _ _ _ E j m Hm) as (m' & -> & Ev). apply steps_same. exact (evolved_trans (I j) False False _ _ _ N (fun F => F) Ev (evolved_refl _ _)).
  - destruct (Nat.lt_ge_cases j (List.length (d_nodes d))) as [L|L]; [now rewrite (e_none _ _ _ E j L Hm)|].
    destruct (model_at d' j) as [m'|] eqn:Hm'; [|reflexivity].
    destruct (e_new _ _ _ E j L (model_at_lt _ _ _ Hm')) as (m & ns & m0 & H1 & Ht & _ & Hh & _ & _ & Ev & _).
    rewrite H1 in Hm'. inversion Hm'; subst. apply steps_nil. rewrite (evolved_home _ _ _ Ev), Hh. now apply in_map.
Qed.
Lemma loop_V k ns f : In ns targets -> forall i d d', okd d -> sync_to_loop lops k i d = (d', Ok tt) ->
  V d' ns f = fold_left apply_op (cell_ops ns f (flat_map (steps_at d) (seq i k))) (V d ns f).
Proof.
  intros Ht. induction k as [|k IH]; intros i d d' O H; cbn [sync_to_loop] in H.
  - inversion H; subst. reflexivity.
  - cbn [seq flat_map]. unfold steps_at at 1. destruct (model_at d i) as [x|] eqn:Hx; [|now apply IH].
    cbn [lib_ops mo_sync_to] in H. destruct (run_steps kinds growth sortf i (steps_to conv x) d) as [d1 [[]|e|]] eqn:E; try discriminate.
    pose proof (run_steps_evo _ _ _ _ _ _ O Hx (steps_allowed x) E) as E1.
    rewrite (IH _ _ _ (evo_okd _ _ _ O E1) H). unfold cell_ops at 2. rewrite flat_map_app, fold_left_app.
    rewrite (run_steps_V _ _ _ _ _ _ _ O Hx (steps_allowed x) Ht E). unfold cell_ops. f_equal. f_equal.
    assert (G : forall l, ~ In i l -> flat_map (steps_at d1) l = flat_map (steps_at d) l).
    { intros l. induction l as [|j l IHl]; intros N; [reflexivity|]. cbn [flat_map]. rewrite IHl by (intros F; apply N; now right).
      f_equal. apply (steps_at_evo _ _ _ _ E1). intros ->. apply N. now left. }
    apply G. rewrite in_seq. lia.
Qed.
End F.
