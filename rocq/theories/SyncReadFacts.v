(* What reading changes, in the terms of SpecSync.v *)
From Coq Require Import List Arith ZArith Bool Ascii String Lia.
From Verif Require Import GoStr GoMap Names Semver RegistryM PathM PVList NodeM FilterM ArrayM CodecM DocM DocFacts TypeM TagM DecodeM TPathM ModelTypes SpecTrip SpecSync SyncModelsM SyncFacts SyncSpecFacts SyncAgainFacts SyncThmFacts SyncLoadFacts.
Import ListNotations.
Local Open Scope string_scope.

Section F.
Context {X : Type}.
Variable cdc : string -> codec X.
Variable den_zero : gval X -> bool.
Variable kinds : nat -> string -> option (mkind X).
Variable growth : nat -> nat.
Variable sortf : list path_value -> list path_value.
Variable conv : string -> list (gval X) -> result (gval X).
Variable genre_v1 : string -> option string.
Notation model := (tmodel X).
Notation gval := (gval X).
Notation doc := (doc (tmodel X)).
Notation bops := (base_ops kinds growth sortf).
Notation lib := (library_models cdc den_zero).
Notation okd := (okd cdc den_zero).
Notation found := (found kinds growth sortf).
Notation assigns_from := (assigns_from kinds growth sortf conv genre_v1).

Notation assigns := (@assigns X).
Notation sync_from_loop := (sync_from_loop kinds growth sortf conv genre_v1).
Notation sync_from_xmp := (sync_from_xmp kinds growth sortf conv genre_v1).

Lemma received_changes (m : model) f : In (tm_kind m) lib -> In f (received (home m)) -> reading_changes m f.
Proof.
  intros L H. unfold received in H. apply in_app_or in H. destruct H as [H|H]; apply in_map_iff in H; destruct H as (r & E & Hr);
    apply filter_In in Hr; destruct Hr as [Hr Et]; [left|right]; apply Exists_exists; exists r; (split; [exact Hr|]); rewrite (home_can cdc den_zero) by assumption;
    apply String.eqb_eq in Et; rewrite Et, String.eqb_refl; auto.
Qed.
Lemma rd_same I (changes : model -> string -> Prop) (d d' : doc) : okd d -> rd I d d' -> 
  (forall i m m', model_at d i = Some m -> model_at d' i = Some m' -> forall f, ~ changes m f -> get_field m' f = get_field m f) ->
  same_but cdc den_zero changes [] d d'.
Proof.
  intros O [E1 E2 E3 E4 E5 E6] Hc. repeat (split; [assumption|]). split.
  - intros i n Hn. assert (Li : i < List.length (d_nodes d)) by (apply nth_error_Some; congruence).
    destruct (nth_error (d_nodes d') i) as [n'|] eqn:Hn'; [|apply nth_error_None in Hn'; lia]. exists n'. split; [reflexivity|].
    pose proof (E5 i n n' Hn Hn') as S. unfold shell in S. inversion S as [[S1 S2 S3 S4]]. repeat (split; [reflexivity|]).
    specialize (E6 i). specialize (Hc i). unfold model_at in E6, Hc. rewrite Hn, Hn' in *. destruct (n_model n) as [m|] eqn:Em; [|auto].
    destruct E6 as (m' & Em' & (K & _)). exists m'. repeat (split; [auto|]). intros f Hf. rewrite <- !get_field_field. exact (Hc _ _ eq_refl Em' f Hf).
  - intros i n' Hn' L. assert (i < List.length (d_nodes d')) by (apply nth_error_Some; congruence). lia.
Qed.
Theorem read_same (d d' : doc) r : library_values cdc den_zero d -> sync_from_xmp d = (d', r) ->
  same_but cdc den_zero (@reading_changes X) [] d d'.
Proof.
  intros Hl H. pose proof (proj2 (okd_values cdc den_zero d) Hl) as O.
  pose proof (from_rd cdc den_zero kinds growth sortf conv genre_v1 _ _ _ _ _ O H) as R. apply (rd_same _ _ _ _ O R).
  intros i m m' Hm Hm' f Hf. pose proof (r_at _ _ _ R i) as A. rewrite Hm in A. destruct A as (m1 & E1 & (_ & _ & G & _)).
  rewrite E1 in Hm'. inversion Hm'; subst. apply G. intros Hi. apply Hf, received_changes; [|exact Hi]. apply (O i m Hm).
Qed.

(* ---- the values ---- *)
Definition no (f : string) (l : assigns) : Prop := forall v, upd f l v = v.
Lemma upd_app f (a b : assigns) v : upd f (a ++ b)%list v = upd f b (upd f a v).
Proof. revert v. induction a as [|[g w] a IH]; intros v; cbn; [reflexivity|apply IH]. Qed.
Lemma no_app f a b : no f a -> no f b -> no f (a ++ b)%list. Proof. intros H1 H2 v. now rewrite upd_app, H1, H2. Qed.
Lemma no_only f b (l : assigns) : no f l -> no f (only_if b l). Proof. destruct b; [auto|easy]. Qed.
Lemma no_found f o (l : model -> assigns) : (forall m, no f (l m)) -> no f (if_found o l). Proof. destruct o; [intros H; apply H|easy]. Qed.
Lemma no_nil f : no f []. Proof. easy. Qed.
Lemma no_cons f g (w : result gval) l : (g =? f) = false -> no f l -> no f ((g, w) :: l). Proof. intros E H v. cbn. rewrite E. apply H. Qed.
Lemma no_head f g (x : gval) : (g =? f) = false -> no f match x with VArr (y :: _) _ => [(g, Ok y)] | _ => [] end.
Proof. intros E. destruct x as [| | | | |[|]| | |]; try apply no_nil. apply no_cons; [exact E|apply no_nil]. Qed.
Lemma at_last f a b v w : no f a -> upd f b v = w -> upd f (a ++ b)%list v = w. Proof. intros H E. now rewrite upd_app, H. Qed.
Lemma at_first f a b v w : no f b -> upd f a v = w -> upd f (a ++ b)%list v = w. Proof. intros H E. now rewrite upd_app, H. Qed.
Lemma at_next f g (x : result gval) l v w : (g =? f) = false -> upd f l v = w -> upd f ((g, x) :: l) v = w. Proof. intros H E. cbn. now rewrite H. Qed.
Lemma at_here f (x : gval) l v : no f l -> upd f ((f, Ok x) :: l) v = x. Proof. intros H. cbn. rewrite String.eqb_refl. apply H. Qed.
Lemma at_only f b (l : assigns) v w : upd f l v = w -> upd f (only_if b l) v = if b then w else v. Proof. intros <-. now destruct b. Qed.
Ltac none := repeat lazymatch goal with
  | |- no _ (_ ++ _)%list => apply no_app
  | |- no _ (only_if _ _) => apply no_only
  | |- no _ (if_found _ _) => apply no_found; intros ?; cbv beta
  | |- no _ [] => apply no_nil
  | |- no _ (match _ with _ => _ end) => apply no_head; reflexivity
  | |- no _ (_ :: _) => apply no_cons; [reflexivity|]
  end.
Ltac assigned := lazymatch goal with
  | |- upd _ (_ ++ _)%list _ = _ => first [apply at_last; [solve [none]|assigned]|apply at_first; [solve [none]|assigned]]
  | |- upd _ (only_if _ _) _ = _ => apply at_only; assigned
  | |- upd ?f ((?f, Ok _) :: _) _ = _ => apply at_here; solve [none]
  | |- upd _ (_ :: _) _ = _ => apply at_next; [reflexivity|assigned]
  end.
Lemma found_find (d : doc) ns : find (fun m => is_a m (ns_name ns)) (models_of d) = found d ns.
Proof. symmetry. apply find_models. Qed.
Ltac src d ns p := rewrite (found_find d ns : find (fun s => is_a s p) (models_of d) = found d ns); destruct (found d ns) as [?s|].
Ltac from d p := lazymatch p with
  | "dc" => src d ns_dc_NsDc p | "xmp" => src d ns_xmpbase_NsXmp p | "xmpDM" => src d ns_xmpdm_NsXmpDM p
  | "xmpRights" => src d ns_xmprights_NsXmpRights p | "tiff" => src d ns_tiff_NsTiff p | "photoshop" => src d ns_ps_NsPhotoshop p end.
Lemma value_own (x : model) f : value x f = own x f.
Proof. unfold value, own. now rewrite get_field_field. Qed.
Ltac one_row d := unfold mirrored; cbn [mi_to mi_field mi_from mi_source mi_always];
  match goal with |- context [find (fun s => is_a s ?p) (models_of d)] => from d p end;
  [rewrite ?set_unset, <- ?value_own; cbn [orb if_found]; unfold copy; assigned
  |assert (N : forall f l v, no f l -> upd f l v = v) by (intros ? ? ? N; apply N); apply N; cbn [if_found]; unfold copy; solve [none]].
Ltac each_row H := cbn [In] in H; repeat (destruct H as [<-|H]); [..|contradiction].
Definition rows_of (p : string) : list mirror := filter (fun r => mi_to r =? p) mirrors.
Lemma upd_pdf d m : forall r, In r (rows_of "pdf") -> upd (mi_field r) (pdf_from kinds growth sortf d m) (own m (mi_field r)) = mirrored r d m.
Proof.
  intros r H. let l := eval vm_compute in (rows_of "pdf") in change (rows_of "pdf") with l in H. unfold pdf_from. each_row H; one_row d.
Qed.
Lemma upd_tiff d m : forall r, In r (rows_of "tiff") -> upd (mi_field r) (tiff_from kinds growth sortf d m) (own m (mi_field r)) = mirrored r d m.
Proof.
  intros r H. let l := eval vm_compute in (rows_of "tiff") in change (rows_of "tiff") with l in H. unfold tiff_from. each_row H; one_row d.
Qed.
Lemma upd_riffinfo d m : forall r, In r (rows_of "riffinfo") -> upd (mi_field r) (riff_from kinds growth sortf d m) (own m (mi_field r)) = mirrored r d m.
Proof.
  intros r H. let l := eval vm_compute in (rows_of "riffinfo") in change (rows_of "riffinfo") with l in H. unfold riff_from. each_row H; one_row d.
Qed.
Lemma upd_id3 d m : forall r, In r (rows_of "id3") -> upd (mi_field r) (id3_from kinds growth sortf conv genre_v1 d m) (own m (mi_field r)) = mirrored r d m.
Proof.
  intros r H. let l := eval vm_compute in (rows_of "id3") in change (rows_of "id3") with l in H. unfold id3_from. each_row H; one_row d.
Qed.
Lemma upd_exif d m : forall r, In r (rows_of "exif") -> upd (mi_field r) (exif_from kinds growth sortf conv d m) (own m (mi_field r)) = mirrored r d m.
Proof.
  intros r H. let l := eval vm_compute in (rows_of "exif") in change (rows_of "exif") with l in H. unfold exif_from. cbn [map tiff_fields]. each_row H; one_row d.
Qed.
Lemma genre_assigned (d : doc) m s v : found d ns_xmpdm_NsXmpDM = Some s ->
  upd "id3:contentType" (id3_from kinds growth sortf conv genre_v1 d m) v
  = if negb (unset s "xmpDM:genre")
    then list_of (genre_unmarshal genre_v1 (texts (value m "id3:contentType")) (text (value s "xmpDM:genre"))) else v.
Proof. intros F. unfold id3_from, copy. rewrite F. cbn [if_found]. assigned. Qed.
End F.
