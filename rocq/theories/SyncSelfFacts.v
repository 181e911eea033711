(* What saving computes inside a model, in the terms of SpecSync.v *)
From Coq Require Import List Arith ZArith Bool Ascii String Lia.
From Verif Require Import GoStr GoMap Names Semver RegistryM PathM PVList NodeM FilterM ArrayM CodecM DocM DocFacts TypeM TagM DecodeM TPathM ModelTypes SpecTrip SpecSync SyncModelsM SyncFacts SyncSpecFacts SyncSavedFacts SyncAgainFacts SyncThmFacts.
Import ListNotations.
Local Open Scope string_scope.

Section F.
Context {X : Type}.
Variable cdc : string -> codec X.
Variable den_zero : gval X -> bool.
Variable kinds : nat -> string -> option (mkind X).
Variable growth : nat -> nat.
Variable sortf : list path_value -> list path_value.
Variable conv : string -> list (gval X) -> result (gval X).
Hypothesis Hk : forall f p k, library_kinds cdc den_zero f p = Some k -> kinds f p = Some k.
Notation model := (tmodel X).
Notation gval := (gval X).
Notation doc := (doc (tmodel X)).
Notation bops := (base_ops kinds growth sortf).
Notation lops := (lib_ops kinds growth sortf conv).
Notation lib := (library_models cdc den_zero).
Notation okd := (okd cdc den_zero).
Notation evo := (evo cdc den_zero kinds growth sortf).

Definition self_op (f : string) (s : @step X) : list (@op X) :=
  match s with Set_ b Self f' v => if f' =? f then [(b, v)] else [] | _ => [] end.
Definition self_ops f l := flat_map (self_op f) l.
Lemma so_app f a b : self_ops f (a ++ b)%list = (self_ops f a ++ self_ops f b)%list.
Proof. apply flat_map_app. Qed.
Lemma so_when f b l : self_ops f (when b l) = if b then self_ops f l else [].
Proof. now destruct b. Qed.
Lemma so_map f b g (h : gval -> result gval) (l : list gval) : self_ops f (map (fun v => Set_ b Self g (h v)) l) = if g =? f then map (fun v => (b, h v)) l else [].
Proof.
  destruct (g =? f) eqn:E; induction l as [|v l IH]; [reflexivity| |reflexivity|]; cbn [map self_ops flat_map self_op]; rewrite E; fold (self_ops f (map (fun v => Set_ b Self g (h v)) l)); now rewrite IH.
Qed.
Lemma so_cons f s l : self_ops f (s :: l) = (self_op f s ++ self_ops f l)%list.
Proof. reflexivity. Qed.

Lemma own_only (D d : doc) i m m' f : okd D -> model_at D i = Some m' -> ~ In (home m') target_names -> okd d -> model_at d i = Some m -> i < List.length (d_nodes d) ->
  loop_ops kinds growth sortf conv D d 0 (List.length (d_nodes d)) i f = self_ops f (steps_to conv m).
Proof.
  intros OD Hm' N O Hm Li. unfold loop_ops.
  assert (A : forall a l b, Forall (allowed b) l -> ops_at kinds growth sortf D a i f l = if Nat.eqb a i then self_ops f l else []).
  { intros a l b Ha. induction Ha as [|s l As Al IH]; [now destruct (Nat.eqb a i)|]. unfold ops_at in *. cbn [flat_map]. rewrite IH. rewrite so_cons.
    assert (E : op_at kinds growth sortf D a i f s = if Nat.eqb a i then self_op f s else []).
    { destruct s as [ns|k [ns|] g v|q]; cbn [op_at self_op]; try now destruct (Nat.eqb a i).
      cbn [allowed] in As. destruct (doc_find_model bops D ns) as [j|] eqn:F; [|now destruct (Nat.eqb a i)].
      destruct (Nat.eqb_spec j i) as [->|_]; [|now destruct (Nat.eqb a i)]. exfalso. apply N. destruct (fm_model _ _ _ _ _ _ F) as (m2 & H2 & C). assert (m2 = m') as -> by congruence.
      rewrite (home_can cdc den_zero _ _ (proj1 (OD _ _ Hm'))) in C. apply String.eqb_eq in C. rewrite C. apply in_map, As. }
    rewrite E. now destruct (Nat.eqb a i). }
  assert (B : forall a, ops_at kinds growth sortf D a i f (steps_at conv d a) = if Nat.eqb a i then self_ops f (steps_to conv m) else []).
  { intros a. unfold steps_at. destruct (Nat.eqb_spec a i) as [->|Na].
    - rewrite Hm. rewrite (A i _ _ (steps_allowed conv m)), Nat.eqb_refl. reflexivity.
    - destruct (model_at d a) as [x|]; [|reflexivity]. rewrite (A a _ _ (steps_allowed conv x)). now rewrite (proj2 (Nat.eqb_neq a i) Na). }
  rewrite (flat_map_ext _ _ B). assert (G : forall k s, flat_map (fun a => if Nat.eqb a i then self_ops f (steps_to conv m) else []) (seq s k) = if Nat.leb s i && Nat.ltb i (s + k) then self_ops f (steps_to conv m) else []).
  { induction k as [|k IH]; intros s; cbn [seq flat_map]; [destruct (Nat.leb_spec s i), (Nat.ltb_spec i (s + 0)); try reflexivity; lia|]. rewrite IH.
    destruct (Nat.eqb_spec s i) as [->|Ns].
    - rewrite Nat.leb_refl. assert (E1 : Nat.leb (S i) i = false) by (apply Nat.leb_gt; lia). assert (E2 : Nat.ltb i (i + S k) = true) by (apply Nat.ltb_lt; lia). rewrite E1, E2. apply List.app_nil_r.
    - destruct (Nat.leb_spec (S s) i), (Nat.leb_spec s i), (Nat.ltb_spec i (S s + k)), (Nat.ltb_spec i (s + S k)); cbn [andb List.app]; try reflexivity; lia. }
  rewrite G. assert (E : Nat.ltb i (0 + List.length (d_nodes d)) = true) by (apply Nat.ltb_lt; lia). now rewrite E.
Qed.

(* the assignments to its own fields of a model are those of the specification *)
Definition row (x : model) (c : @derived X) : Prop :=
  is_a x (co_of c) = true -> forall o, fold_left apply_op (self_ops (co_name c) (steps_to conv x)) o
    = match co_new c x with v :: _ => apply_op o (negb (co_replaces c), Ok v) | [] => o end.
Lemma op_fail b o (r : result gval) : good r = [] -> apply_op o (b, r) = o.
Proof. intros G. unfold apply_op. destruct o as [[t w]|]; [|reflexivity]. cbn [fst snd]. destruct (b && _); [reflexivity|]. destruct r; [discriminate|reflexivity..]. Qed.
Lemma op_good b o (r : result gval) : apply_op o (b, r) = match good r with v :: _ => apply_op o (b, Ok v) | [] => o end.
Proof. destruct r; cbn [good]; [reflexivity|now apply op_fail..]. Qed.
Lemma native_good f : native conv f = native_value conv f.
Proof. unfold native, native_value, good. now destruct (conv f []). Qed.
Lemma native_one f : native_value conv f = [] \/ exists v, native_value conv f = [v].
Proof. unfold native_value, good. destruct (conv f []); eauto. Qed.

Lemma coord_good c r : gps_coord conv c r = coordinate conv c r.
Proof.
  unfold gps_coord, coordinate. rewrite (native_good c), (native_good r). destruct (native_one c) as [->|[v ->]]; [reflexivity|]. destruct (native_one r) as [->|[w ->]]; [reflexivity|].
  cbn [flat_map]. rewrite !List.app_nil_r. unfold good. destruct (conv _ _) as [y|e|]; cbn [List.app filter]; [|reflexivity..]. destruct y; cbn [text]; try reflexivity. now destruct (emptyb s).
Qed.
Lemma coord_one c r : coordinate conv c r = [] \/ exists v, coordinate conv c r = [v].
Proof.
  unfold coordinate. destruct (native_one c) as [->|[v ->]]; [now left|]. destruct (native_one r) as [->|[w ->]]; [now left|].
  cbn [flat_map]. rewrite !List.app_nil_r. unfold good. destruct (conv _ _) as [y|e|]; cbn [List.app filter]; [|now left..]. destruct (match y with VStr s => _ | _ => _ end); [right; now eexists|now left].
Qed.
Lemma fold_one (l : list gval) b o : l = [] \/ (exists v, l = [v]) -> fold_left apply_op (map (fun v => (b, Ok v)) l) o = match l with v :: _ => apply_op o (b, Ok v) | [] => o end.
Proof. intros [->|[v ->]]; reflexivity. Qed.
Lemma alt_one s : bind (new_alt_string [ArgString s]) (fun l => Ok (VAlt (X := X) l)) = Ok (one_alt "" s).
Proof. unfold new_alt_string, new_alt_items, one_alt. cbn [flat_map]. now destruct (emptyb s). Qed.
Ltac so := unfold put, SyncModelsM.fill; repeat rewrite so_app; repeat rewrite so_when; repeat rewrite so_map; repeat rewrite so_cons;
  cbn [self_op self_ops flat_map String.eqb Ascii.eqb Bool.eqb List.app].
Lemma rows_riff x : home x = "riffinfo" -> Forall (row x) (filter (fun c => co_of c =? "riffinfo") (derived_properties conv)).
Proof.
  intros E. cbn [derived_properties filter co_of String.eqb Ascii.eqb Bool.eqb].
  repeat apply Forall_cons; try apply Forall_nil; intros _ o; cbn [co_name co_new co_replaces negb]; rewrite steps_riff by exact E; unfold riff_to; so;
    rewrite ?List.app_nil_r, native_good; apply fold_one, native_one.
Qed.

Lemma fold_if (b : bool) (l : list (@op X)) o : fold_left apply_op (if b then l else []) o = if b then fold_left apply_op l o else o.
Proof. now destruct b. Qed.
Lemma negb_if {A} b (x y : A) : (if negb b then x else y) = if b then y else x. Proof. now destruct b. Qed.
Lemma so_iso f (v : gval) : self_ops f (match v with VArr (s :: _) _ => [Set_ false Self "exif:PhotographicSensitivity" (Ok s)] | _ => [] end)
  = if "exif:PhotographicSensitivity" =? f then map (fun s => (false, Ok s)) (match v with VArr (s :: _) _ => [s] | _ => [] end) else [].
Proof. destruct v as [| | | | |[|s l] l'| | |]; unfold self_ops; cbn [flat_map self_op map]; destruct (_ =? f); reflexivity. Qed.
Ltac row := intros _ o; cbn [co_name co_new co_replaces negb]; rewrite steps_exif by assumption; unfold exif_to; so; rewrite so_iso;
  cbn [String.eqb Ascii.eqb Bool.eqb]; rewrite ?if_nil, ?negb_if; cbn [List.app]; rewrite ?List.app_nil_r, ?if_set_unset, ?own_value, ?fold_if.
Ltac row_if := row; match goal with |- context [unset ?x ?f] => destruct (unset x f) end; [reflexivity|]; cbn [fold_left]; rewrite ?alt_one; try reflexivity; apply op_good.
Lemma rows_exif x : home x = "exif" -> Forall (row x) (filter (fun c => co_of c =? "exif") (derived_properties conv)).
Proof.
  intros E. cbn [derived_properties filter co_of String.eqb Ascii.eqb Bool.eqb].
  apply Forall_cons; [row_if|]. apply Forall_cons.
  { row. rewrite native_good. destruct (native_one "ExifInfo.DateTimeDigitized") as [->|[v ->]]; [reflexivity|]. cbn [map fold_left flat_map]. rewrite List.app_nil_r. apply op_good. }
  apply Forall_cons; [row_if|]. apply Forall_cons; [row_if|]. apply Forall_cons; [row_if|]. apply Forall_cons; [row_if|]. apply Forall_cons; [row_if|].
  apply Forall_cons.
  { row. apply fold_one. destruct (own x "exif:ISOSpeedRatings") as [| | | | |[|s l] l'| | |]; eauto. }
  apply Forall_cons; [row; rewrite coord_good; apply fold_one, coord_one|]. apply Forall_cons; [row; rewrite coord_good; apply fold_one, coord_one|].
  apply Forall_cons; [row; rewrite coord_good; apply fold_one, coord_one|]. apply Forall_cons; [row; rewrite coord_good; apply fold_one, coord_one|].
  apply Forall_cons; [|apply Forall_nil].
  row. rewrite (native_good "ExifInfo.GPSDateStamp"), (native_good "ExifInfo.GPSTimeStamp"). destruct (native_one "ExifInfo.GPSDateStamp") as [->|[v ->]]; [reflexivity|]. cbn [map fold_left flat_map]. rewrite List.app_nil_r. apply op_good.
Qed.
Lemma rows_all x c : In (tm_kind x) lib -> In c (derived_properties conv) -> row x c /\ (is_a x (co_of c) = true -> ~ In (home x) target_names /\ In (co_name c) (touched (home x))).
Proof.
  intros Hx Hc.
  assert (P : co_of c = "exif" \/ co_of c = "riffinfo").
  { assert (F : forallb (fun c => (co_of c =? "exif") || (co_of c =? "riffinfo")) (derived_properties conv) = true) by reflexivity.
    rewrite forallb_forall in F. specialize (F c Hc). apply orb_true_iff in F. destruct F as [F|F]; apply String.eqb_eq in F; auto. }
  assert (A : is_a x (co_of c) = true -> home x = co_of c) by (intros H; rewrite (home_can cdc den_zero _ _ Hx) in H; now apply String.eqb_eq in H).
  split.
  - intros H. specialize (A H). destruct P as [P|P]; rewrite P in A.
    + pose proof (rows_exif x A) as R. rewrite Forall_forall in R. apply R; [|exact H]. apply filter_In. rewrite P. auto.
    + pose proof (rows_riff x A) as R. rewrite Forall_forall in R. apply R; [|exact H]. apply filter_In. rewrite P. auto.
  - intros H. rewrite (A H). split; [|assert (F : forallb (fun c => existsb (String.eqb (co_name c)) (touched (co_of c))) (derived_properties conv) = true) by reflexivity;
      rewrite forallb_forall in F; specialize (F c Hc); apply existsb_exists in F; destruct F as (g & G1 & G2); apply String.eqb_eq in G2; now rewrite G2].
    intros T. destruct P as [P|P]; rewrite P in T; revert T; change target_names with ["dc"; "xmp"; "xmpDM"; "xmpRights"]; intros [T|[T|[T|[T|[]]]]]; discriminate.
Qed.

Theorem derived_saved (d d' : doc) c i m : library_values cdc den_zero d -> d_dirty d = true -> sync_to_xmp lops d = (d', Ok tt) ->
  In c (derived_properties conv) -> model_at d i = Some m -> is_a m (co_of c) = true ->
  exists m', model_at d' i = Some m' /\ own m' (co_name c) = after_saving c m.
Proof.
  intros Hl Hd H Hc Hm Ha. pose proof (proj2 (okd_values cdc den_zero d) Hl) as O. unfold sync_to_xmp in H. rewrite Hd in H. cbn [negb] in H.
  destruct (sync_to_loop lops (List.length (d_nodes d)) 0 d) as [d1 [[]|e|]] eqn:E; inversion H; subst d'; clear H.
  pose proof (loop_evo cdc den_zero kinds growth sortf conv Hk _ _ _ _ _ O E) as Ev. pose proof (evo_okd _ _ _ _ _ _ _ _ O Ev) as O1.
  destruct (O _ _ Hm) as [Hin Hlen]. destruct (rows_all m c Hin Hc) as [R T].
  destruct (e_old _ _ _ _ _ _ _ _ Ev _ _ Hm) as (m' & Hm' & K & _).
  exists m'. split; [exact Hm'|].
  pose proof (loop_cell cdc den_zero kinds growth sortf conv Hk d1 _ (fun _ => True) _ _ _ i (co_name c) O E (evo_refl _ _ _ _ _ _ _)) as C.
  rewrite (own_only d1 d i m m') in C; [|exact O1|exact Hm'|unfold home; rewrite K; exact (proj1 (T Ha))|exact O|exact Hm|exact (model_at_lt _ _ _ Hm)].
  rewrite (R Ha) in C. unfold cell in C. rewrite Hm', Hm in C.
  unfold own, after_saving. rewrite <- get_field_field, C.
  unfold set_, own. rewrite <- get_field_field. destruct (co_new c m) as [|v l]; [reflexivity|]. unfold apply_op.
  destruct (touched_field cdc den_zero m (co_name c) Hin Hlen (proj2 (T Ha))) as (t & w & G). rewrite G. cbn [fst snd]. destruct (co_replaces c), (is_empty t w); reflexivity.
Qed.
End F.
