(* Proofs about the native tags of the models *)
From Coq Require Import List Arith Bool Ascii String Lia.
From Verif Require Import GoStr GoStrFacts Names Semver RegistryM NodeM ArrayM TypeM TagM DecodeM ModelTypes NativeTags TPathM NativeM NativeTagM.
From Verif Require Import SpecBasic SpecTag SpecType SpecTPath SpecNative SpecNativeTag NativeFacts.
Import ListNotations.
Local Open Scope string_scope.

Lemma tag_get_says key kv v : says key kv v -> tag_get key kv = v.
Proof.
  intros (a & b & -> & N). induction a as [|[k w] a IH]; cbn [app tag_get].
  - now rewrite String.eqb_refl.
  - cbn [map fst In] in N. destruct (String.eqb_spec k key) as [->|_]; [tauto|]. apply IH. tauto.
Qed.
Lemma tag_get_silent key kv : silent key kv -> tag_get key kv = "".
Proof.
  unfold silent. induction kv as [|[k w] kv IH]; cbn [tag_get map fst In]; intros N; [reflexivity|].
  destruct (String.eqb_spec k key) as [->|_]; [tauto|]. apply IH. tauto.
Qed.
Lemma tag_get_some key kv v : v <> "" -> tag_get key kv = v -> says key kv v.
Proof.
  intros V. induction kv as [|[k w] kv IH]; cbn [tag_get]; intros H; [congruence|].
  destruct (String.eqb_spec k key) as [->|D].
  - subst w. now exists [], kv.
  - destruct (IH H) as (a & b & -> & N). exists ((k, w) :: a), b. split; [reflexivity|]. cbn. tauto.
Qed.

(* the name of a row, computed *)
Definition row_name (key : string) (row : string * list (string * string)) : string :=
  match split_char "," (tag_get key (snd row)) with [] => "" | n :: _ => if emptyb n then fst row else n end.
Definition row_used (key : string) (row : string * list (string * string)) : bool := negb (tag_get key (snd row) =? "-").
Lemma row_name_ok key row n : native_name key row n -> row_name key row = n /\ row_used key row = true.
Proof.
  unfold row_name, row_used. intros [(S & ->)|(v & p & S & V & (C & B) & N)].
  - rewrite (tag_get_silent _ _ S). split; reflexivity.
  - rewrite (tag_get_says _ _ _ S). destruct (String.eqb_spec v "-") as [|_]; [congruence|]. split; [|reflexivity].
    assert (E : exists l, split_char "," v = p :: l).
    { destruct B as [->|(r & ->)]; [exists []; now apply split_char_none|]. eexists. now apply split_char_app. }
    destruct E as (l & ->). destruct N as [(N & ->)|(-> & ->)]; [|reflexivity]. destruct p; [congruence|reflexivity].
Qed.
Lemma left_out_used key row : left_out key row <-> row_used key row = false.
Proof.
  unfold left_out, row_used. split; intros H.
  - now rewrite (tag_get_says _ _ _ H).
  - apply negb_false_iff, String.eqb_eq in H. now apply tag_get_some.
Qed.

Section M.
Context {X : Type}.
Notation gval := (gval X).
Notation lmodel := (lmodel X).

(* every field that takes part is found at its place *)
Fixpoint rows_ok (key : string) (fs : list (finfo * ty X)) (i : nat) (raw : list (@gofield X)) (tags : struct_tags) : bool :=
  match raw, tags with
  | [], [] => true
  | g :: raw, row :: tags =>
      (go_name g =? fst row)
      && if row_used key row then
           match parse_tag (go_name g) (tag_get key (snd row)) with Ok _ => true | _ => false end
           && match lookup fs (row_name key row) with Some j => Nat.eqb j i | None => false end
           && rows_ok key fs (S i) raw tags
         else rows_ok key fs i raw tags
  | _, _ => false
  end.
Definition own_fields_ok (m : lmodel) : bool :=
  match type_info (lm_struct m) with Ok _ => true | _ => false end
  && let fs := lm_fields m in rows_ok (lm_key m) fs 0 (lm_raw m) (lm_tags m).

Lemma rows_find key fs a row b : forall i raw j n,
  rows_ok key fs i raw (a ++ row :: b)%list = true -> taking_part key a j -> native_name key row n ->
  lookup fs n = Some (i + j)
  /\ exists g f, In g raw /\ go_name g = fst row /\ nth_error (fields (retag key raw (a ++ row :: b)%list)) j = Some (f, go_type g).
Proof.
  induction a as [|r a IH]; intros i [|g raw] j n H T N; cbn [app rows_ok] in H; try discriminate.
  - inversion T; subst. destruct (row_name_ok _ _ _ N) as (E & U). rewrite U, E in H.
    apply andb_true_iff in H as [G H]. apply andb_true_iff in H as [H _]. apply andb_true_iff in H as [P L].
    rewrite Nat.add_0_r. destruct (lookup fs n) as [j|]; [|discriminate]. apply Nat.eqb_eq in L. subst j. split; [reflexivity|].
    destruct (parse_tag (go_name g) (tag_get key (snd row))) as [t| |] eqn:PT; try discriminate.
    exists g, (finfo_of t). split; [now left|]. split; [now apply String.eqb_eq|].
    cbn [app retag]. unfold fields, kept. cbn [filter go_tag]. unfold row_used in U. rewrite U. cbn [flat_map go_name go_tag go_type].
    rewrite PT. reflexivity.
  - apply andb_true_iff in H as [G H]. inversion T; subst.
    + assert (U : row_used key r = true). { destruct (row_used key r) eqn:U; [reflexivity|]. apply left_out_used in U. contradiction. }
      rewrite U in H. apply andb_true_iff in H as [H1 H]. apply andb_true_iff in H1 as [P _].
      destruct (IH _ _ _ _ H H4 N) as (L & g' & f & I & GN & F). rewrite L. split; [f_equal; lia|]. exists g', f. split; [now right|]. split; [exact GN|].
      destruct (parse_tag (go_name g) (tag_get key (snd r))) as [t| |] eqn:PT; try discriminate.
      cbn [app retag]. unfold fields, kept. cbn [filter go_tag]. unfold row_used in U. rewrite U. cbn [flat_map go_name go_tag go_type].
      rewrite PT. exact F.
    + apply left_out_used in H2 as U. rewrite U in H.
      destruct (IH _ _ _ _ H H4 N) as (L & g' & f & I & GN & F). rewrite L. split; [reflexivity|]. exists g', f. split; [now right|]. split; [exact GN|].
      cbn [app retag]. unfold fields, kept. cbn [filter go_tag]. unfold row_used in U. rewrite U. exact F.
Qed.

Lemma own_field (m : lmodel) a row b j n : own_fields_ok m = true -> lm_tags m = (a ++ row :: b)%list -> taking_part (lm_key m) a j ->
  native_name (lm_key m) row n ->
  selects (lm_fields m) n j
  /\ (exists g f, In g (lm_raw m) /\ go_name g = fst row /\ nth_error (lm_fields m) j = Some (f, go_type g))
  /\ exists l, type_info (lm_struct m) = Ok l.
Proof.
  intros H E T N. unfold own_fields_ok in H. apply andb_true_iff in H as [TI H]. cbv zeta in H. rewrite E in H.
  destruct (rows_find _ _ _ _ _ _ _ _ _ H T N) as (L & g & f & I & G & F). split; [now apply lookup_selects|]. split.
  - exists g, f. split; [exact I|]. split; [exact G|]. unfold lm_fields. rewrite E. exact F.
  - destruct (type_info (lm_struct m)); try discriminate. eauto.
Qed.

Variable cdc : string -> codec X.
Variable dz : gval -> bool.

Lemma all_own_fields : forallb (fun m => (lm_go m =? "riff.RiffInfo") || own_fields_ok m) (tagged_models cdc dz) = true.
Proof. vm_compute. reflexivity. Qed.

Lemma riff_info : exists e, type_info (lm_struct (lm_riff cdc)) = Err e.
Proof. eexists. vm_compute. reflexivity. Qed.
End M.

Section Stands.
Context {X : Type}.
Notation gval := (gval X).
Notation lmodel := (lmodel X).

Lemma native_stands (m : lmodel) n j f t l : type_info (lm_struct m) = Ok l -> selects (lm_fields m) n j ->
  nth_error (lm_fields m) j = Some (f, t) -> stands_for f t j (fun vs => lm_get m vs n) (fun vs value => lm_set m vs n value).
Proof.
  intros TI S F vs v V. unfold lm_get, lm_set. rewrite TI. cbn [bind].
  assert (TF : the_field (lm_fields m) vs n j f t v) by (split; [exact S|split; [exact F|exact V]]).
  assert (N : [lm_ns m] <> []) by discriminate.
  split; [|split].
  - intros U. eapply get_unset; eassumption.
  - intros t' v' s U W P H. eapply get_set; eassumption.
  - intros value t' v' w W R. exact (set_stores _ _ _ _ N value j f t v t' v' w TF W R).
Qed.
Lemma own_stands (m : lmodel) a row b j n : own_fields_ok m = true -> lm_tags m = (a ++ row :: b)%list -> taking_part (lm_key m) a j ->
  native_name (lm_key m) row n ->
  exists g f, In g (lm_raw m) /\ go_name g = fst row /\ nth_error (lm_fields m) j = Some (f, go_type g)
    /\ stands_for f (go_type g) j (fun vs => lm_get m vs n) (fun vs value => lm_set m vs n value).
Proof.
  intros O E T N. destruct (own_field m a row b j n O E T N) as (S & (g & f & I & G & F) & l & TI).
  exists g, f. split; [exact I|]. split; [exact G|]. split; [exact F|]. now apply native_stands with l.
Qed.

Lemma lm_set_others (m : lmodel) l vs tag value vs' r j : type_info (lm_struct m) = Ok l -> lm_set m vs tag value = (vs', r) ->
  (forall k, selects (lm_fields m) tag k -> k <> j) -> nth_error vs' j = nth_error vs j.
Proof.
  intros TI H O. unfold lm_set in H. rewrite TI in H. assert (N : [lm_ns m] <> []) by discriminate.
  exact (proj1 (set_other_fields [lm_ns m] _ vs _ N value vs' r j H O)).
Qed.
Lemma lm_unknown (m : lmodel) l tag : type_info (lm_struct m) = Ok l -> (forall k, ~ selects (lm_fields m) tag k) -> forall vs value,
  (exists e, lm_get m vs tag = Err e) /\ (exists e, lm_set m vs tag value = (vs, Err e)) /\ lm_can m vs tag = Ok false.
Proof.
  intros TI H vs value. unfold lm_can, lm_get, lm_set. rewrite TI. cbn [bind]. assert (N : [lm_ns m] <> []) by discriminate.
  destruct (get_missing [lm_ns m] (lm_fields m) vs tag N H) as (e & E). rewrite E. split; [eauto|]. split; [|reflexivity].
  exact (set_missing [lm_ns m] (lm_fields m) vs tag N value H).
Qed.
Lemma lm_broken (m : lmodel) e : type_info (lm_struct m) = Err e -> forall vs tag value,
  lm_get m vs tag = Err e /\ lm_set m vs tag value = (vs, Err e) /\ lm_can m vs tag = Ok false /\ lm_list m vs = Err e.
Proof. intros TI vs tag value. unfold lm_can, lm_get, lm_set, lm_list. rewrite TI. repeat split; reflexivity. Qed.

Variable cdc : string -> codec X.
Variable dz : gval -> bool.

Lemma model_ok m : In m (tagged_models cdc dz) -> lm_go m <> "riff.RiffInfo" -> own_fields_ok m = true.
Proof.
  intros I N. pose proof (all_own_fields cdc dz) as A. rewrite forallb_forall in A. specialize (A m I).
  apply orb_true_iff in A as [A|A]; [apply String.eqb_eq in A; contradiction|exact A].
Qed.

(* ---- ExifEXInfo ---- *)
Lemma exifex_unknown : forallb (fun row => let v := tag_get "exif" (snd row) in
    emptyb v || match lookup (lm_fields (lm_exifex cdc)) v with None => true | Some _ => false end) st_exif_ExifEXInfo = true.
Proof. vm_compute. reflexivity. Qed.
Lemma exifex_info : exists l, type_info (lm_struct (lm_exifex cdc)) = Ok l.
Proof. eexists. vm_compute. reflexivity. Qed.

(* ---- ExifInfo ---- *)
Lemma lower_char_idem c : lower_char (lower_char c) = lower_char c.
Proof. destruct c as [[] [] [] [] [] [] [] []]; reflexivity. Qed.
Lemma lower_idem s : to_lower (to_lower s) = to_lower s.
Proof. induction s as [|c s IH]; [reflexivity|]. cbn [to_lower]. now rewrite lower_char_idem, IH. Qed.

Definition reach_lower (f : finfo) : bool :=
  f_any f || (to_lower (f_name f) =? f_name f) || (to_lower (strip_prefix (f_name f)) =? strip_prefix (f_name f)).
Lemma find_lower l tag : forall i any j f, find_native_from i any l (to_lower tag) = Some j -> nth_error l (j - i) = Some f -> i <= j ->
  any <> Some j -> ti_any f = true \/ to_lower (ti_name f) = ti_name f \/ to_lower (strip_prefix (ti_name f)) = strip_prefix (ti_name f).
Proof.
  induction l as [|x l IH]; intros i any j f H N L A; cbn [find_native_from] in H; [congruence|].
  destruct (name_matches (to_lower tag) (ti_name x)) eqn:M.
  - injection H as <-. rewrite Nat.sub_diag in N. injection N as <-. right. unfold name_matches in M.
    destruct (has_prefix (to_lower tag)); apply String.eqb_eq in M; [left|right]; rewrite M; apply lower_idem.
  - destruct (Nat.eq_dec i j) as [->|D].
    + rewrite Nat.sub_diag in N. injection N as <-. destruct (ti_any x) eqn:E; [now left|].
      exfalso. clear IH M. assert (P : forall l k any, find_native_from k any l (to_lower tag) = Some j -> j < k -> any = Some j).
      { clear. induction l as [|y l IH]; intros k any H L; cbn [find_native_from] in H; [exact H|].
        destruct (name_matches (to_lower tag) (ti_name y)); [injection H as ->; lia|].
        destruct (ti_any y); apply IH in H; try lia; [injection H as ->; lia|exact H]. }
      apply P in H; [congruence|lia].
    + apply (IH (S i) (if ti_any x then Some i else any) j f H); [|lia|].
      * replace (j - i) with (S (j - S i)) in N by lia. exact N.
      * destruct (ti_any x); [congruence|exact A].
Qed.
Lemma lookup_lower (fs : list (finfo * ty X)) tag j f t : lookup fs (to_lower tag) = Some j -> nth_error fs j = Some (f, t) ->
  reach_lower f = true.
Proof.
  unfold lookup, find_native. intros H N. unfold reach_lower.
  assert (M : nth_error (map tag_of fs) (j - 0) = Some (tag_of (f, t))).
  { rewrite Nat.sub_0_r. now apply map_nth_error. }
  destruct (find_lower _ _ _ _ _ _ H M) as [E|[E|E]]; [lia|discriminate|..]; cbn in E; rewrite E; cbn; rewrite ?String.eqb_refl, ?orb_true_r; reflexivity.
Qed.
Section Lower.
Variable m : lmodel.
Variable key : string.
Fixpoint silent_unreached (i : nat) (tags : struct_tags) : bool :=
  match tags with
  | [] => true
  | row :: r =>
      if row_used key row then
        (negb (emptyb (tag_get key (snd row)))
         || match nth_error (lm_fields m) i with Some (f, _) => negb (reach_lower f) | None => false end)
        && silent_unreached (S i) r
      else silent_unreached i r
  end.
Lemma silent_unreached_at a row b : forall j i, silent_unreached i (a ++ row :: b)%list = true -> taking_part key a j -> silent key (snd row) ->
  exists f t, nth_error (lm_fields m) (i + j) = Some (f, t) /\ reach_lower f = false.
Proof.
  induction a as [|r a IH]; intros j i H T S; cbn [app silent_unreached] in H.
  - inversion T; subst. rewrite Nat.add_0_r. assert (U : row_used key row = true) by (unfold row_used; now rewrite (tag_get_silent _ _ S)).
    rewrite U, (tag_get_silent _ _ S) in H. cbn [emptyb negb orb] in H. apply andb_true_iff in H as [H _].
    destruct (nth_error _ i) as [[f t]|]; [|discriminate]. exists f, t. split; [reflexivity|]. now apply negb_true_iff.
  - inversion T; subst.
    + assert (U : row_used key r = true). { destruct (row_used key r) eqn:U; [reflexivity|]. apply left_out_used in U. contradiction. }
      rewrite U in H. apply andb_true_iff in H as [_ H]. destruct (IH _ _ H H4 S) as (f & t & F & R). exists f, t. split; [|exact R].
      rewrite <- F. f_equal. lia.
    + apply left_out_used in H2. rewrite H2 in H. exact (IH _ _ H H4 S).
Qed.
Lemma no_lower_tag l a row b j vs tag value vs' r : type_info (lm_struct m) = Ok l -> silent_unreached 0 (a ++ row :: b)%list = true ->
  taking_part key a j -> silent key (snd row) -> lm_set m vs (to_lower tag) value = (vs', r) -> nth_error vs' j = nth_error vs j.
Proof.
  intros TI U T S H. destruct (silent_unreached_at _ _ _ _ _ U T S) as (f & t & F & R). change (0 + j) with j in F.
  refine (lm_set_others m l vs (to_lower tag) value vs' r j TI H _).
  intros k K ->. apply lookup_selects in K. rewrite (lookup_lower _ _ _ _ _ K F) in R. discriminate R.
Qed.
End Lower.
Lemma exif_unreached : silent_unreached (lm_exif cdc) "exif" 0 st_exif_ExifInfo = true.
Proof. vm_compute. reflexivity. Qed.
Lemma exif_info : exists l, type_info (lm_struct (lm_exif cdc)) = Ok l.
Proof. eexists. vm_compute. reflexivity. Qed.
(* the kernel would compute with the models instead of unfolding the method *)
Lemma exif_set_eq : @exif_set X cdc = fun vs tag value => lm_set (lm_exif cdc) vs (to_lower tag) value.
Proof. reflexivity. Qed.
Lemma exif_get_eq : @exif_get X cdc = fun vs tag => lm_get (lm_exif cdc) vs (to_lower tag).
Proof. reflexivity. Qed.
Lemma exif_can_eq : @exif_can X cdc = fun vs tag => lm_can (lm_exif cdc) vs tag.
Proof. reflexivity. Qed.
Lemma exif_no_tag a row b j vs tag value vs' r : st_exif_ExifInfo = (a ++ row :: b)%list -> taking_part "exif" a j -> silent "exif" (snd row) ->
  exif_set cdc vs tag value = (vs', r) -> nth_error vs' j = nth_error vs j.
Proof.
  intros E T S H. destruct exif_info as (l & TI). rewrite exif_set_eq in H. cbv beta in H.
  exact (no_lower_tag (lm_exif cdc) "exif" l a row b j vs tag value vs' r TI
    (eq_ind _ (fun x => silent_unreached (lm_exif cdc) "exif" 0 x = true) exif_unreached _ E) T S H).
Qed.
End Stands.
