(* Proofs about the tags of ID3 *)
From Coq Require Import List Arith Bool Ascii String Lia.
From Verif Require Import GoStr GoStrFacts Names Semver RegistryM NodeM ArrayM TypeM TagM DecodeM ModelTypes NativeTags TPathM NativeM NativeTagM.
From Verif Require Import SpecBasic SpecTag SpecType SpecTPath SpecNative SpecNativeTag NativeFacts NativeTagFacts.
Import ListNotations.
Local Open Scope string_scope.

Section I.
Context {X : Type}.
Notation gval := (gval X).
Notation lmodel := (lmodel X).
Variable cdc : string -> codec X.

(* see exif_set_eq *)
Lemma id3_get_eq : @id3_get X cdc = fun vs tag => bind (map_tag tag) (lm_get (lm_id3 cdc) vs).
Proof. reflexivity. Qed.
Lemma id3_set_eq : @id3_set X cdc = fun vs tag value =>
  match map_tag tag with Ok t => lm_set (lm_id3 cdc) vs t value | Err e => (vs, Err e) | Panic => (vs, Panic) end.
Proof. reflexivity. Qed.
Lemma id3_can_eq : @id3_can X cdc = fun vs tag => match map_tag tag with Ok t => lm_can (lm_id3 cdc) vs t | Err _ => Ok false | Panic => Panic end.
Proof. reflexivity. Qed.
Lemma id3_get_locale_eq te : @id3_get_locale X te cdc = fun vs lang tag => bind (map_tag tag) (lm_get_locale te (lm_id3 cdc) vs lang).
Proof. reflexivity. Qed.
Lemma id3_set_locale_eq : @id3_set_locale X cdc = fun vs lang tag value => lm_set_locale (lm_id3 cdc) vs lang tag value.
Proof. reflexivity. Qed.

Lemma id3_info : exists l, type_info (lm_struct (lm_id3 cdc)) = Ok l.
Proof. eexists. vm_compute. reflexivity. Qed.

Lemma map_four tag : String.length tag = 4 -> map_tag tag = Ok tag.
Proof. intros H. unfold map_tag. rewrite H. reflexivity. Qed.

Lemma assoc_in l k v : assoc_str l k = Some v -> In (k, v) l.
Proof.
  induction l as [|[a b] l IH]; cbn [assoc_str]; intros H; [discriminate|].
  destruct (String.eqb_spec a k) as [->|_]; [injection H as ->; now left|right; auto].
Qed.
Lemma assoc_none l k : assoc_str l k = None <-> ~ In k (map fst l).
Proof.
  induction l as [|[a b] l IH]; cbn [assoc_str map fst In]; [tauto|].
  destruct (String.eqb_spec a k) as [->|N]; [split; [discriminate|tauto]|]. rewrite IH. tauto.
Qed.

Definition same_keys (l l' : list (string * string)) : bool :=
  forallb (fun p => existsb (String.eqb (fst p)) (map fst l')) l && forallb (fun p => existsb (String.eqb (fst p)) (map fst l)) l'.
Lemma same_keys_in l l' k : same_keys l l' = true -> In k (map fst l) <-> In k (map fst l').
Proof.
  unfold same_keys. intros H. apply andb_true_iff in H as [A B]. rewrite forallb_forall in A, B.
  split; intros I; apply in_map_iff in I as (p & <- & I).
  - specialize (A p I). apply existsb_exists in A as (x & Ix & E). apply String.eqb_eq in E. now subst x.
  - specialize (B p I). apply existsb_exists in B as (x & Ix & E). apply String.eqb_eq in E. now subst x.
Qed.
Lemma v22_keys : same_keys v22_tags v22_successors = true. Proof. vm_compute. reflexivity. Qed.
Lemma v11_keys : same_keys v11_tags v1_successors = true. Proof. vm_compute. reflexivity. Qed.
Lemma v22_short : forallb (fun p => Nat.ltb (String.length (fst p)) 4) v22_tags = true. Proof. vm_compute. reflexivity. Qed.
Lemma v11_long : forallb (fun p => Nat.ltb 4 (String.length (fst p))) v11_tags = true. Proof. vm_compute. reflexivity. Qed.

Lemma key_length l k P : forallb (fun p : string * string => P (fst p)) l = true -> In k (map fst l) -> P k = true.
Proof. intros H I. rewrite forallb_forall in H. apply in_map_iff in I as (p & <- & I). exact (H p I). Qed.

Lemma map_unknown tag : String.length tag <> 4 -> ~ In tag (map fst (v22_successors ++ v1_successors)%list) -> exists e, map_tag tag = Err e.
Proof.
  intros L N. rewrite map_app, in_app_iff in N. rewrite <- (same_keys_in _ _ _ v22_keys), <- (same_keys_in _ _ _ v11_keys) in N.
  unfold map_tag. destruct (Nat.ltb_spec 4 (String.length tag)) as [H|H].
  - destruct (assoc_str v11_tags tag) as [t|] eqn:E; [|eauto]. exfalso. apply N. right. apply assoc_in in E. change tag with (fst (tag, t)). now apply in_map.
  - destruct (Nat.ltb_spec (String.length tag) 4) as [H2|H2]; [|lia].
    destruct (assoc_str v22_tags tag) as [t|] eqn:E; [|eauto]. exfalso. apply N. left. apply assoc_in in E. change tag with (fst (tag, t)). now apply in_map.
Qed.
Lemma map_known tag : In tag (map fst (v22_successors ++ v1_successors)%list) -> exists t, map_tag tag = Ok t /\ In t (map snd (v22_tags ++ v11_tags)%list).
Proof.
  intros N. rewrite map_app, in_app_iff in N. rewrite <- (same_keys_in _ _ _ v22_keys), <- (same_keys_in _ _ _ v11_keys) in N. unfold map_tag.
  rewrite map_app. destruct N as [N|N].
  - pose proof (key_length _ _ (fun s => Nat.ltb (String.length s) 4) v22_short N) as L. cbv beta in L. rewrite L. apply Nat.ltb_lt in L.
    destruct (Nat.ltb_spec 4 (String.length tag)); [lia|].
    destruct (assoc_str v22_tags tag) as [t|] eqn:E; [|apply assoc_none in E; contradiction]. exists t. split; [reflexivity|].
    apply in_or_app. left. apply assoc_in in E. change t with (snd (tag, t)). now apply in_map.
  - pose proof (key_length _ _ (fun s => Nat.ltb 4 (String.length s)) v11_long N) as L. cbv beta in L. rewrite L.
    destruct (assoc_str v11_tags tag) as [t|] eqn:E; [|apply assoc_none in E; contradiction]. exists t. split; [reflexivity|].
    apply in_or_app. right. apply assoc_in in E. change t with (snd (tag, t)). now apply in_map.
Qed.

(* every target has a field of its own *)
Definition dedicated (m : lmodel) (t : string) : bool :=
  let fs := lm_fields m in
  match lookup fs t with Some j => match nth_error fs j with Some (f, _) => negb (f_any f) | None => false end | None => false end.
Lemma targets_dedicated : forallb (dedicated (lm_id3 cdc)) (map snd (v22_tags ++ v11_tags)%list) = true.
Proof. vm_compute. reflexivity. Qed.
Lemma dedicated_field (m : lmodel) t : dedicated m t = true -> exists j f ty, selects (lm_fields m) t j /\ nth_error (lm_fields m) j = Some (f, ty) /\ f_any f = false.
Proof.
  unfold dedicated. cbv zeta. intros H. destruct (lookup (lm_fields m) t) as [j|] eqn:L; [|discriminate].
  destruct (nth_error (lm_fields m) j) as [[f ty]|] eqn:N; [|discriminate]. exists j, f, ty.
  split; [now apply lookup_selects|]. split; [exact N|now apply negb_true_iff].
Qed.

(* successors *)
Definition agrees (p : string * string) : bool :=
  (fst p =? "TCO") || match map_tag (fst p), map_tag (snd p) with Ok a, Ok b => a =? b | _, _ => false end.
Lemma successors_agree : forallb agrees (v22_successors ++ v1_successors)%list = true.
Proof. vm_compute. reflexivity. Qed.
Lemma successor a b : In (a, b) (v22_successors ++ v1_successors)%list -> a <> "TCO" -> exists t, map_tag a = Ok t /\ map_tag b = Ok t.
Proof.
  intros I N. pose proof successors_agree as A. rewrite forallb_forall in A. specialize (A _ I). unfold agrees in A. cbn [fst snd] in A.
  destruct (String.eqb_spec a "TCO") as [|_]; [contradiction|]. cbn [orb] in A.
  destruct (map_tag a) as [x| |]; try discriminate. destruct (map_tag b) as [y| |]; try discriminate. apply String.eqb_eq in A. subst. eauto.
Qed.

(* tags that no field declares go to the catch-all field *)
Lemma strip_no_colon n : has_char ":" n = false -> strip_prefix n = n.
Proof. intros H. unfold strip_prefix. apply index_char_none in H. rewrite H. reflexivity. Qed.
Fixpoint last_any (i : nat) (any : option nat) (fs : list (finfo * ty X)) : option nat :=
  match fs with [] => any | f :: r => last_any (S i) (if f_any (fst f) then Some i else any) r end.
Lemma find_any name (fs : list (finfo * ty X)) : Forall (fun f => f_name (fst f) <> name /\ has_char ":" (f_name (fst f)) = false) fs ->
  forall i any, find_native_from i any (map tag_of fs) name = last_any i any fs.
Proof.
  induction 1 as [|[f t] fs (N & C) _ IH]; intros i any; [reflexivity|].
  cbn [map tag_of fst find_native_from last_any ti_any ti_name]. unfold name_matches. cbn [fst] in N, C. rewrite (strip_no_colon _ C).
  destruct (String.eqb_spec (f_name f) name) as [|_]; [contradiction|]. destruct (has_prefix name); apply IH.
Qed.

Lemma row_declares key g t kv : t <> "-" -> native_name key (g, (key, t) :: kv) (row_name key (g, (key, t) :: kv)).
Proof.
  intros Q. right. unfold row_name. cbn [snd fst tag_get]. rewrite String.eqb_refl.
  pose proof (split_char_parts "," t) as SP. pose proof (join_split "," t) as JS.
  destruct (split_char "," t) as [|p q] eqn:SC; [destruct (split_char_nonempty "," t SC)|].
  exists t, p. split; [now exists [], kv|]. split; [exact Q|]. split.
  - split; [inversion SP; assumption|]. rewrite <- JS. destruct q as [|q0 q]; [now left|right]. rewrite join_cons. eexists. reflexivity.
  - destruct p; [right|left]; split; try reflexivity; discriminate.
Qed.

(* which fields could be language alternatives *)
Definition no_alt (t : ty X) : bool := match t with TAlt _ | TPtr (TAlt _) => false | _ => true end.
Lemma set_locale_never (m : lmodel) l vs lang tag value : type_info (lm_struct m) = Ok l -> forallb (fun f => no_alt (snd f)) (lm_fields m) = true ->
  List.length vs = List.length (lm_fields m) -> exists e, snd (lm_set_locale m vs lang tag value) = Err e.
Proof.
  intros TI A L. unfold lm_set_locale. rewrite TI. unfold set_locale. cbn [has_namespace].
  destruct (lookup (lm_fields m) tag) as [j|] eqn:E; [|cbn [snd]; eauto].
  apply lookup_selects in E. assert (J : exists f t, nth_error (lm_fields m) j = Some (f, t)).
  { destruct E as [((x & Hx & _) & _)|(_ & (x & Hx & _) & _)]; destruct x; eauto. }
  destruct J as (f & t & J). rewrite J.
  destruct (nth_error vs j) as [v|] eqn:V.
  - rewrite forallb_forall in A. specialize (A _ (nth_error_In _ _ J)). cbn [snd] in A.
    destruct t; try discriminate; cbn [deref]; try (destruct v; cbn [snd]; eauto; fail).
    destruct t; try discriminate; destruct v; cbn [snd]; eauto.
  - apply nth_error_None in V. assert (j < List.length (lm_fields m)) by (apply nth_error_Some; congruence). lia.
Qed.
Lemma get_locale_never te (m : lmodel) vs lang tag s : forallb (fun f => no_alt (snd f)) (lm_fields m) = true ->
  lm_get_locale te m vs lang tag <> Ok s.
Proof.
  intros A. unfold lm_get_locale. destruct (type_info (lm_struct m)); cbn [bind]; try discriminate. unfold get_locale. cbn [has_namespace].
  destruct (lookup (lm_fields m) tag) as [j|]; [|discriminate].
  destruct (nth_error (lm_fields m) j) as [[f t]|] eqn:J; [|discriminate]. destruct (nth_error vs j) as [v|]; [|discriminate].
  rewrite forallb_forall in A. specialize (A _ (nth_error_In _ _ J)). cbn [snd] in A.
  destruct t as [| | | | |c| | | |]; try discriminate; try (destruct v; discriminate).
  destruct (te c); discriminate.
Qed.
Lemma id3_no_alt : forallb (fun f => no_alt (snd f)) (lm_fields (lm_id3 cdc)) = true.
Proof. vm_compute. reflexivity. Qed.
End I.
