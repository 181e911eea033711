(* The theorems about reading *)
From Coq Require Import List Arith ZArith Bool Ascii String Lia.
From Verif Require Import GoStr GoMap Names Semver RegistryM PathM PVList NodeM FilterM ArrayM CodecM DocM DocFacts TypeM TagM DecodeM TPathM ModelTypes SpecTrip SpecSync SyncModelsM SyncFacts SyncSpecFacts SyncAgainFacts SyncThmFacts SyncLoadFacts SyncReadFacts.
Import ListNotations.
Local Open Scope string_scope.

Section F.
Context {X : Type}.
Variable cdc : string -> codec X.
Variable den_zero : gval X -> bool.
Variable kinds : nat -> string -> option (mkind X).
Variable growth : nat -> nat.
Variable sortf : list path_value -> list path_value.
Variable conv : string -> list (gval X) -> result (gval X).
Variable genre_v1 : string -> option string.
Notation model := (tmodel X).
Notation gval := (gval X).
Notation doc := (doc (tmodel X)).
Notation bops := (base_ops kinds growth sortf).
Notation lib := (library_models cdc den_zero).
Notation okd := (okd cdc den_zero).
Notation found := (found kinds growth sortf).
Notation assigns_from := (assigns_from kinds growth sortf conv genre_v1).

Notation assigns := (@assigns X).
Notation sync_from_loop := (sync_from_loop kinds growth sortf conv genre_v1).
Notation sync_from_xmp := (sync_from_xmp kinds growth sortf conv genre_v1).


Lemma row_assigned (d : doc) (m : model) r : In (tm_kind m) lib -> In r mirrors -> is_a m (mi_to r) = true ->
  upd (mi_field r) (assigns_from d m) (own m (mi_field r)) = mirrored r d m.
Proof.
  intros L H Hr. rewrite (home_can cdc den_zero) in Hr by assumption. apply String.eqb_eq in Hr.
  assert (Hi : In r (rows_of (home m))) by (unfold rows_of; apply filter_In; split; [exact H|]; rewrite Hr; apply String.eqb_refl).
  assert (Hh : In (home m) receivers).
  { pose proof mirrors_to as M. apply andb_true_iff in M. destruct M as [M _]. rewrite forallb_forall in M. specialize (M _ H). apply mem_in in M. now rewrite Hr. }
  unfold SyncModelsM.assigns_from. clear H Hr. revert Hi. destruct Hh as [E|[E|[E|[E|[E|[]]]]]]; rewrite <- E; cbn [String.eqb Ascii.eqb Bool.eqb].
  - apply upd_pdf.
  - apply upd_tiff.
  - apply upd_riffinfo.
  - apply upd_id3.
  - apply upd_exif.
Qed.
Lemma mirror_field (r : mirror) p : In r mirrors -> mi_to r = p -> In (mi_field r) (received p).
Proof. intros H E. unfold received. apply in_or_app. left. apply in_map_iff. exists r. split; [reflexivity|]. apply filter_In. split; [exact H|]. now apply String.eqb_eq. Qed.
Theorem read_mirrors (d d' : doc) i n m : library_values cdc den_zero d -> sync_from_xmp d = (d', Ok tt) ->
  nth_error (d_nodes d) i = Some n -> n_model n = Some m ->
  exists n' m', nth_error (d_nodes d') i = Some n' /\ n_model n' = Some m'
    /\ forall r, In r mirrors -> is_a m (mi_to r) = true -> own m' (mi_field r) = mirrored r d m.
Proof.
  intros Hl H Hn Hm. pose proof (proj2 (okd_values cdc den_zero d) Hl) as O. assert (Em : model_at d i = Some m) by (unfold model_at; now rewrite Hn).
  assert (Li : 0 <= i < 0 + List.length (d_nodes d)) by (split; [lia|]; apply nth_error_Some; congruence).
  destruct (from_upd cdc den_zero kinds growth sortf conv genre_v1 _ _ _ _ O H i m Li Em) as (m' & Em' & K & G).
  unfold model_at in Em'. destruct (nth_error (d_nodes d') i) as [n'|]; [|discriminate]. exists n', m'. split; [reflexivity|]. split; [exact Em'|].
  intros r Hr Ha. destruct (O i m Em) as [L Len]. rewrite <- (row_assigned d m r L Hr Ha). unfold own. rewrite <- !get_field_field, G.
  rewrite (home_can cdc den_zero) in Ha by assumption. apply String.eqb_eq in Ha.
  destruct (received_field cdc den_zero m (mi_field r) L Len) as (t & v & ->); [|reflexivity]. apply mirror_field; auto.
Qed.

(* ---- when reading succeeds ---- *)
Definition goodv (a : string * result gval) : Prop := exists w, snd a = Ok w.
Lemma run_ok i l : forall (d : doc) m d' r, okd d -> model_at d i = Some m -> Forall (into m) l -> run_assigns i l d = (d', r) -> (r = Ok tt <-> Forall goodv l).
Proof.
  induction l as [|[f v] l IH]; intros d m d' r O Hm Hf H; cbn [run_assigns] in H.
  - inversion H; subst. split; auto.
  - inversion Hf as [|? ? Hf1 Hf2]; subst. destruct (set_at d i false f v) as [d1 r1] eqn:E. destruct (O i m Hm) as [L Len].
    pose proof (set_rd (SyncLoadFacts.one i) d i m f v d1 r1 Hm Hf1 eq_refl E) as R1.
    destruct (received_field cdc den_zero m f L Len Hf1) as (t & w & G). unfold set_at in E. rewrite Hm, G in E. cbn [andb] in E.
    destruct v as [v|e|]; inversion E; subst.
    + pose proof (r_at _ _ _ R1 i) as A. rewrite Hm in A. destruct A as (m1 & E1 & C1).
      rewrite (IH _ m1 d' r (rd_okd _ _ _ _ _ O R1) E1); [|revert Hf2; apply Forall_impl; intros a; unfold into; now rewrite (chg_home _ _ _ C1)|exact H].
      split; [intros F; constructor; [exists v; reflexivity|exact F]|intros F; now inversion F].
    + inversion H; subst. split; [discriminate|]. intros F. inversion F as [|? ? [w' Hw] _]; subst. discriminate.
    + inversion H; subst. split; [discriminate|]. intros F. inversion F as [|? ? [w' Hw] _]; subst. discriminate.
Qed.
Lemma from_ok k : forall i (d d' : doc) r, okd d -> sync_from_loop k i d = (d', r) ->
  (r = Ok tt <-> forall j m, i <= j < i + k -> model_at d j = Some m -> Forall goodv (assigns_from d m)).
Proof.
  induction k as [|k IH]; intros i d d' r O H; cbn [SyncModelsM.sync_from_loop] in H.
  - inversion H; subst. split; [intros _ j m L; lia|reflexivity].
  - destruct (model_at d i) as [m|] eqn:Em.
    + destruct (run_assigns i (assigns_from d m) d) as [d1 r1] eqn:E. pose proof (run_rd i _ d m d1 r1 Em (assigns_into _ _ _ _ _ d m) E) as R1.
      pose proof (run_ok i _ d m d1 r1 O Em (assigns_into _ _ _ _ _ d m) E) as K1.
      destruct r1 as [[]|e|].
      * rewrite (IH _ _ _ _ (rd_okd _ _ _ _ _ O R1) H). split; intros F j mj Lj Hj.
        -- destruct (Nat.eq_dec i j) as [<-|N]; [rewrite Em in Hj; inversion Hj; subst; now apply K1|].
           pose proof (r_at _ _ _ R1 j) as A. rewrite Hj in A. destruct A as (m1 & E1 & (_ & _ & _ & C1)). rewrite C1 in E1 by (left; unfold SyncLoadFacts.one; congruence).
           rewrite <- (assigns_same _ _ _ _ _ _ _ _ _ _ mj O R1). apply (F j mj); [lia|exact E1].
        -- pose proof (r_at _ _ _ R1 j) as A. destruct (model_at d j) as [m0|] eqn:E0; [|congruence]. destruct A as (m1 & E1 & (_ & _ & _ & C1)).
           rewrite C1 in E1 by (left; unfold SyncLoadFacts.one; lia). rewrite Hj in E1. inversion E1; subst.
           rewrite (assigns_same _ _ _ _ _ _ _ _ _ _ m0 O R1). apply (F j m0); [lia|exact E0].
      * inversion H; subst. split; [discriminate|]. intros F. apply K1. apply (F i m); [lia|exact Em].
      * inversion H; subst. split; [discriminate|]. intros F. apply K1. apply (F i m); [lia|exact Em].
    + rewrite (IH _ _ _ _ O H). split; intros F j m Lj Hj; apply (F j m); auto; [|lia]. destruct (Nat.eq_dec i j) as [<-|N]; [congruence|lia].
Qed.
Ltac goods Hc := repeat lazymatch goal with
  | |- Forall _ (_ ++ _)%list => apply Forall_app; split
  | |- Forall _ (only_if _ _) => apply all_only
  | |- Forall _ (if_found _ _) => apply all_found; intros ?; cbv beta
  | |- Forall _ [] => constructor
  | |- Forall _ (_ :: _) => apply Forall_cons; [unfold goodv; cbn [snd]; first [eexists; reflexivity|apply Hc]|]
  end.
Theorem reads (d d' : doc) r : (forall s v l, exists w, conv s (v :: l) = Ok w) -> library_values cdc den_zero d -> sync_from_xmp d = (d', r) -> r = Ok tt.
Proof.
  intros Hc Hl H. pose proof (proj2 (okd_values cdc den_zero d) Hl) as O. apply (from_ok _ _ _ _ _ O H). intros j m _ _. unfold SyncModelsM.assigns_from.
  destruct (home m =? "pdf"); [unfold pdf_from; goods Hc|].
  destruct (home m =? "tiff"); [unfold tiff_from; goods Hc|].
  destruct (home m =? "riffinfo"); [unfold riff_from, copy; goods Hc|].
  destruct (home m =? "id3"); [unfold id3_from, copy; goods Hc|].
  destruct (home m =? "exif"); [|constructor]. unfold exif_from. cbn [map tiff_fields]. goods Hc.
  destruct (value m "exif:ISOSpeedRatings") as [| | | | |[|]| | |]; goods Hc.
Qed.

(* ---- reading again ---- *)
Lemma upd_const f (l : assigns) : (forall v, upd f l v = v) \/ exists w, forall v, upd f l v = w.
Proof.
  induction l as [|[g w] l IH]; [left; reflexivity|]. cbn. destruct IH as [IH|[u IH]].
  - destruct (g =? f); [|left; exact IH]. destruct w as [w| |]; [right; exists w; intros; apply IH|left; exact IH..].
  - right. exists u. intros. apply IH.
Qed.
Lemma upd_twice f (l : assigns) v : upd f l (upd f l v) = upd f l v.
Proof. destruct (upd_const f l) as [H|[w H]]; now rewrite !H. Qed.
Definition genre : string := "id3:contentType".
Definition alike (l l' : assigns) : Prop := (forall f v, f <> genre -> upd f l v = upd f l' v) /\ (Forall goodv l <-> Forall goodv l').
Lemma alike_refl l : alike l l. Proof. split; [reflexivity|tauto]. Qed.
Lemma alike_app a a' b b' : alike a a' -> alike b b' -> alike (a ++ b)%list (a' ++ b')%list.
Proof. intros [A1 A2] [B1 B2]. split; [intros; rewrite !upd_app, B1, A1; auto|rewrite !Forall_app; tauto]. Qed.
Lemma alike_only b l l' : alike l l' -> alike (only_if b l) (only_if b l').
Proof. destruct b; [auto|]. intros. apply alike_refl. Qed.
Lemma alike_found o (l l' : model -> assigns) : (forall m, alike (l m) (l' m)) -> alike (if_found o l) (if_found o l').
Proof. destruct o; intros H; [exact (H t)|apply alike_refl]. Qed.
Lemma alike_genre w w' : alike [(genre, Ok w)] [(genre, Ok w')].
Proof.
  split.
  - intros f v N. cbn [upd]. apply not_eq_sym, String.eqb_neq in N. now rewrite N.
  - split; intros _; (constructor; [eexists; reflexivity|constructor]).
Qed.
Lemma alike_assigns (d : doc) m m' : (forall f, ~ In f (received (home m)) -> get_field m' f = get_field m f) -> home m' = home m ->
  alike (assigns_from d m') (assigns_from d m).
Proof.
  intros G Eh. unfold SyncModelsM.assigns_from. rewrite Eh.
  destruct (home m =? "pdf"); [apply alike_refl|]. destruct (home m =? "tiff"); [apply alike_refl|]. destruct (home m =? "riffinfo"); [apply alike_refl|].
  destruct (String.eqb_spec (home m) "id3") as [E|_].
  { unfold id3_from. repeat (apply alike_app; [first [apply alike_refl|apply alike_found; intros ?; cbv beta]|]); [|apply alike_refl].
    repeat (apply alike_app; [first [apply alike_refl|apply alike_only; apply alike_genre]|]). apply alike_refl. }
  destruct (String.eqb_spec (home m) "exif") as [E|_]; [|apply alike_refl]. rewrite E in G.
  assert (V : forall f, mem f (received "exif") = false -> get_field m' f = get_field m f).
  { intros f Hf. apply G. intros Hi. apply mem_in in Hi. congruence. }
  assert (E1 : get_field m' "exif:DateTimeDigitized" = get_field m "exif:DateTimeDigitized") by (apply V; vm_compute; reflexivity).
  assert (E2 : get_field m' "exif:ISOSpeedRatings" = get_field m "exif:ISOSpeedRatings") by (apply V; vm_compute; reflexivity).
  assert (E3 : value m' "exif:ISOSpeedRatings" = value m "exif:ISOSpeedRatings") by (unfold value; now rewrite E2).
  assert (E4 : value m' "exif:DateTimeDigitized" = value m "exif:DateTimeDigitized") by (unfold value; now rewrite E1).
  assert (E5 : unset m' "exif:DateTimeDigitized" = unset m "exif:DateTimeDigitized") by (unfold unset; now rewrite E1).
  unfold exif_from. rewrite E3, E4, E5. apply alike_refl.
Qed.
Theorem read_again (d d' d'' : doc) r : library_values cdc den_zero d -> sync_from_xmp d = (d', Ok tt) -> sync_from_xmp d' = (d'', r) ->
  r = Ok tt /\ same_but cdc den_zero (fun m f => is_a m "id3" = true /\ f = "id3:contentType") [] d' d''.
Proof.
  intros Hl H1 H2. pose proof (proj2 (okd_values cdc den_zero d) Hl) as O.
  pose proof (from_rd cdc den_zero kinds growth sortf conv genre_v1 _ _ _ _ _ O H1) as R1. pose proof (rd_okd _ _ _ _ _ O R1) as O1. pose proof (from_rd cdc den_zero kinds growth sortf conv genre_v1 _ _ _ _ _ O1 H2) as R2.
  assert (K : forall j m1, model_at d' j = Some m1 -> exists m, model_at d j = Some m /\ alike (assigns_from d' m1) (assigns_from d m) /\ home m1 = home m
      /\ forall f, get_field m1 f = match get_field m f with Some (t, v) => Some (t, upd f (assigns_from d m) v) | None => None end).
  { intros j m1 Hj. pose proof (r_at _ _ _ R1 j) as A. destruct (model_at d j) as [m|] eqn:E; [|congruence]. destruct A as (m1' & E1 & C). rewrite E1 in Hj. inversion Hj; subst.
    exists m. split; [reflexivity|]. rewrite (assigns_same _ _ _ _ _ _ _ _ _ _ m1 O R1). pose proof (chg_home _ _ _ C) as Eh. destruct C as (_ & _ & C & _).
    split; [now apply alike_assigns|]. split; [exact Eh|].
    destruct (from_upd cdc den_zero kinds growth sortf conv genre_v1 _ _ _ _ O H1 j m) as (m2 & E2 & _ & G); [pose proof (model_at_lt _ _ _ E); lia|exact E|]. rewrite E1 in E2. inversion E2; subst. exact G. }
  assert (Hr : r = Ok tt).
  { apply (from_ok _ _ _ _ _ O1 H2). intros j m1 Lj Hj. destruct (K j m1 Hj) as (m & Hm & [_ A] & _). apply A.
    apply (proj1 (from_ok _ _ _ _ _ O H1) eq_refl j m); [pose proof (model_at_lt _ _ _ Hm); lia|exact Hm]. }
  split; [exact Hr|]. subst r. apply (rd_same _ _ _ _ _ _ O1 R2). intros i m1 m2 Hm1 Hm2 f Hf.
  destruct (K i m1 Hm1) as (m & Hm & [A _] & Eh & G).
  destruct (from_upd cdc den_zero kinds growth sortf conv genre_v1 _ _ _ _ O1 H2 i m1) as (m2' & E2 & _ & G2); [pose proof (model_at_lt _ _ _ Hm1); lia|exact Hm1|]. rewrite Hm2 in E2. inversion E2; subst m2'.
  rewrite G2, G. destruct (get_field m f) as [[t v]|] eqn:Gf; [|reflexivity]. f_equal. f_equal.
  destruct (String.eqb_spec f genre) as [->|N]; [|rewrite A by exact N; apply upd_twice].
  assert (Nh : home m1 <> "id3").
  { intros E. apply Hf. split; [|reflexivity]. rewrite (home_can cdc den_zero), E by apply (O1 i m1 Hm1). reflexivity. }
  (* genre is assigned to models of ID3 only *)
  assert (Ng : forall y, home y = home m1 -> Forall (fun a => (fst a =? genre) = false) (assigns_from d' y)).
  { intros y Ey. eapply Forall_impl; [|apply assigns_into]. intros a Ha. unfold into in Ha. rewrite Ey in Ha. apply String.eqb_neq. intros Ea. rewrite Ea in Ha.
    assert (Hh : forall p, In genre (received p) -> p = "id3").
    { intros p Hp. destruct (in_dec string_dec p receivers) as [Hi|Hi]; [|rewrite (not_received p Hi) in Hp; contradiction].
      apply mem_in in Hp. destruct Hi as [<-|[<-|[<-|[<-|[<-|[]]]]]]; try reflexivity; vm_compute in Hp; discriminate. }
    exact (Nh (Hh _ Ha)). }
  assert (Nu : forall (l : assigns) v, Forall (fun a => (fst a =? genre) = false) l -> upd genre l v = v).
  { induction l as [|[g w] l IHl]; intros v0 F; [reflexivity|]. inversion F as [|? ? Fg Fl]; subst. cbn [upd]. cbn [fst] in Fg. rewrite Fg. now apply IHl. }
  rewrite (Nu _ _ (Ng m1 eq_refl)). reflexivity.
Qed.

(* ---- the genre of ID3 ---- *)
Lemma split_some sep s : split_str sep s <> [].
Proof. unfold split_str. destruct (String.length s); cbn [split_fuel]; [discriminate|]. destruct (index sep s); discriminate. Qed.
Lemma texts_own (x : model) f : texts (value x f) = own_texts x f.
Proof. unfold own_texts. rewrite value_own. destruct (own x f); reflexivity. Qed.
Theorem read_genre (d d' : doc) i n m : library_values cdc den_zero d -> sync_from_xmp d = (d', Ok tt) ->
  nth_error (d_nodes d) i = Some n -> n_model n = Some m -> is_a m "id3" = true -> said d "xmpDM" "xmpDM:genre" <> None ->
  exists n' m', nth_error (d_nodes d') i = Some n' /\ n_model n' = Some m'
    /\ List.length (own_texts m "id3:contentType") < List.length (own_texts m' "id3:contentType").
Proof.
  intros Hl H Hn Hm Ha Hs. pose proof (proj2 (okd_values cdc den_zero d) Hl) as O. assert (Em : model_at d i = Some m) by (unfold model_at; now rewrite Hn).
  assert (Li : 0 <= i < 0 + List.length (d_nodes d)) by (split; [lia|]; apply nth_error_Some; congruence).
  destruct (from_upd cdc den_zero kinds growth sortf conv genre_v1 _ _ _ _ O H i m Li Em) as (m' & Em' & K & G).
  unfold model_at in Em'. destruct (nth_error (d_nodes d') i) as [n'|]; [|discriminate]. exists n', m'. split; [reflexivity|]. split; [exact Em'|].
  destruct (O i m Em) as [L Len]. rewrite (home_can cdc den_zero) in Ha by assumption. apply String.eqb_eq in Ha.
  unfold said in Hs. rewrite (found_find kinds growth sortf d ns_xmpdm_NsXmpDM : find (fun s => is_a s "xmpDM") (models_of d) = _) in Hs.
  destruct (found d ns_xmpdm_NsXmpDM) as [s|] eqn:F; [|congruence].
  assert (U : unset s "xmpDM:genre" = false).
  { unfold unset. rewrite get_field_field. destruct (field s "xmpDM:genre") as [[t v]|]; [|congruence]. unfold seen in Hs. now destruct (is_empty t v). }
  destruct (received_field cdc den_zero m genre L Len) as (t & v & Gv); [rewrite Ha; apply mem_in; vm_compute; reflexivity|].
  assert (E : value m' genre = list_of (genre_unmarshal genre_v1 (texts (value m "id3:contentType")) (text (value s "xmpDM:genre")))).
  { unfold value at 1. rewrite G, Gv. unfold SyncModelsM.assigns_from. rewrite Ha. cbn [String.eqb Ascii.eqb Bool.eqb]. etransitivity; [exact (genre_assigned kinds growth sortf conv genre_v1 d m s v F)|]. rewrite U. reflexivity. }
  rewrite <- !texts_own. change "id3:contentType" with genre at 2. rewrite E. unfold list_of, texts at 2. rewrite !map_length. unfold genre_unmarshal.
  rewrite app_length, map_length. pose proof (split_some "," (text (value s "xmpDM:genre"))) as N. destruct (split_str _ _); [congruence|]. cbn [List.length]. lia.
Qed.
End F.
