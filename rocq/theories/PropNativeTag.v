(* C112 to C114: native tags of the models *)
From Coq Require Import List Arith Bool Ascii String Lia.
From Verif Require Import GoStr GoStrFacts Names Semver RegistryM NodeM ArrayM TypeM TagM DecodeM ModelTypes NativeTags TPathM NativeM NativeTagM.
From Verif Require Import SpecBasic SpecTag SpecType SpecTPath SpecNative SpecNativeTag NativeFacts NativeTagFacts NativeTagFacts2.
Import ListNotations.
Local Open Scope string_scope.

(* ---- C112: the native tag a field declares stands for that field ---------------------------------------- *)

(* the row is the struct tag of the field, a the fields before it, n the native name it declares *)
Theorem C112_own_field_partial X (cdc : string -> codec X) dz m a row b j n :
  In m (tagged_models cdc dz) -> lm_go m <> "riff.RiffInfo" -> lm_tags m = (a ++ row :: b)%list ->
  native_name (ns_name (lm_ns m)) row n -> taking_part (ns_name (lm_ns m)) a j ->
  exists g f, In g (lm_raw m) /\ go_name g = fst row /\ nth_error (lm_fields m) j = Some (f, go_type g)
    /\ stands_for f (go_type g) j (fun vs => lm_get m vs n) (fun vs value => lm_set m vs n value).
Proof. intros I R E N T. exact (own_stands m a row b j n (model_ok cdc dz m I R) E T N). Qed.
Print Assumptions C112_own_field_partial.

(* the keys of the struct tags are xmp, xml and the one of the model, so all native tags are meant *)
Definition key_known (m : string * (string * struct_tags)) : bool :=
  forallb (fun row => forallb (fun p => existsb (String.eqb (fst p)) ["xmp"; "xml"; fst (snd m)]) (snd row)) (snd (snd m)).
Theorem C112_no_other_keys_partial X (cdc : string -> codec X) dz m row k v :
  In m (tagged_models cdc dz) -> lm_go m <> "exif.ExifEXInfo" -> lm_go m <> "dji.DJI" -> In row (lm_tags m) -> In (k, v) (snd row) ->
  k = "xmp" \/ k = "xml" \/ k = ns_name (lm_ns m).
Proof.
  intros I E D R K.
  assert (A : forallb (fun m => (lm_go m =? "exif.ExifEXInfo") || (lm_go m =? "dji.DJI") || key_known (lm_go m, (ns_name (lm_ns m), lm_tags m)))
                      (tagged_models cdc dz) = true) by (vm_compute; reflexivity).
  rewrite forallb_forall in A. specialize (A m I). apply String.eqb_neq in E, D. rewrite E, D in A. cbn [orb] in A.
  unfold key_known in A. cbn [fst snd] in A. rewrite forallb_forall in A. specialize (A row R). rewrite forallb_forall in A. specialize (A _ K).
  cbn [fst existsb] in A. repeat (apply orb_true_iff in A as [A|A]; [apply String.eqb_eq in A; tauto|]). discriminate.
Qed.
Print Assumptions C112_no_other_keys_partial.

Example C112_hyps : exists a b, st_id3_ID3 = (a ++ ("TitleDescription", [("id3", "TIT2"); ("xmp", "id3:titleDescription")]) :: b)%list
  /\ taking_part "id3" a 46 /\ native_name "id3" ("TitleDescription", [("id3", "TIT2"); ("xmp", "id3:titleDescription")]) "TIT2".
Proof.
  exists (firstn 46 st_id3_ID3), (skipn 47 st_id3_ID3). split; [reflexivity|]. split.
  - cbn [firstn st_id3_ID3]. repeat (apply tp_in; [intros L; apply left_out_used in L; vm_compute in L; discriminate|]). apply tp_nil.
  - right. exists "TIT2", "TIT2". split; [now exists [], [("xmp", "id3:titleDescription")]|]. split; [discriminate|]. split; [split; [reflexivity|now left]|].
    left. split; [discriminate|reflexivity].
Qed.
(* a declared name with options, and an undeclared one *)
Example C112_names : native_name "id3" ("Year_v23", [("id3", "TYER,v2.3-"); ("xmp", "id3:year_v23,v2.3-")]) "TYER"
  /\ native_name "dc" ("Title", [("xmp", "dc:title")]) "Title".
Proof.
  split.
  - right. exists "TYER,v2.3-", "TYER". split; [now exists [], [("xmp", "id3:year_v23,v2.3-")]|]. split; [discriminate|].
    split; [split; [reflexivity|right; now exists "v2.3-"]|]. left. split; [discriminate|reflexivity].
  - left. split; [intros [H|[]]; discriminate|reflexivity].
Qed.

(* No tag of RiffInfo can be read, written or listed: IARL and ICMS are declared twice, and the type is refused. *)
Theorem C112_riff_refuted X (cdc : string -> codec X) :
  exists e, forall vs tag value, lm_get (lm_riff cdc) vs tag = Err e /\ lm_set (lm_riff cdc) vs tag value = (vs, Err e)
    /\ lm_can (lm_riff cdc) vs tag = Ok false /\ lm_list (lm_riff cdc) vs = Err e.
Proof. destruct (riff_info cdc) as (e & E). exists e. exact (lm_broken (lm_riff cdc) e E). Qed.
Print Assumptions C112_riff_refuted.

(* ExifEXInfo declares its tags under the key of ExifInfo: it knows none of them. *)
Theorem C112_exifex_refuted X (cdc : string -> codec X) row v vs value :
  In row st_exif_ExifEXInfo -> says "exif" (snd row) v -> v <> "" ->
  (exists e, lm_get (lm_exifex cdc) vs v = Err e) /\ (exists e, lm_set (lm_exifex cdc) vs v value = (vs, Err e))
  /\ lm_can (lm_exifex cdc) vs v = Ok false.
Proof.
  intros I S V. destruct (exifex_info cdc) as (l & TI). apply (lm_unknown (lm_exifex cdc) l v TI). intros k K. apply lookup_selects in K.
  pose proof (exifex_unknown cdc) as U. rewrite forallb_forall in U. specialize (U row I). cbv zeta in U. rewrite (tag_get_says _ _ _ S), K in U.
  destruct v; [congruence|discriminate U].
Qed.
Print Assumptions C112_exifex_refuted.
Example C112_exifex_hyps : In ("LensModel", [("exif", "0xa434"); ("xmp", "exifEX:LensModel")]) st_exif_ExifEXInfo.
Proof. unfold st_exif_ExifEXInfo. repeat (try (left; reflexivity); right). Qed.

(* ---- C113: Exif tags in any case ----------------------------------------------------------------------- *)

Theorem C113_any_case_partial X (cdc : string -> codec X) a row b j n tag :
  st_exif_ExifInfo = (a ++ row :: b)%list -> native_name "exif" row n -> taking_part "exif" a j -> to_lower tag = n ->
  exists g f, In g (fs_exif_ExifInfo cdc) /\ go_name g = fst row /\ nth_error (lm_fields (lm_exif cdc)) j = Some (f, go_type g)
    /\ stands_for f (go_type g) j (fun vs => exif_get cdc vs tag) (fun vs value => exif_set cdc vs tag value).
Proof.
  intros E N T L.
  assert (O : own_fields_ok (lm_exif cdc) = true).
  { apply (model_ok cdc (fun _ => true)); [|discriminate]. unfold tagged_models. do 5 right. now left. }
  destruct (own_stands (lm_exif cdc) a row b j n O E T N) as (g & f & I & G & F & S). exists g, f.
  split; [exact I|]. split; [exact G|]. split; [exact F|]. rewrite exif_get_eq, exif_set_eq, L. exact S.
Qed.
Print Assumptions C113_any_case_partial.

(* Fields without an Exif tag can be reached by no tag at all *)
Theorem C113_no_tag_refuted X (cdc : string -> codec X) a row b j vs tag value vs' r :
  st_exif_ExifInfo = (a ++ row :: b)%list -> taking_part "exif" a j -> silent "exif" (snd row) ->
  exif_set cdc vs tag value = (vs', r) -> nth_error vs' j = nth_error vs j.
Proof. intros E T S H. exact (exif_no_tag cdc a row b j vs tag value vs' r E T S H). Qed.
Print Assumptions C113_no_tag_refuted.

(* CanTag looks at the case: it refuses the tag 0x829A, which GetTag and SetTag take, and accepts AuxLens, which they refuse. *)
Theorem C113_can_tag_refuted X (cdc : string -> codec X) vs value :
  exif_can cdc vs "0x829A" = Ok false
  /\ (exists j f t, stands_for f t j (fun vs => exif_get cdc vs "0x829A") (fun vs value => exif_set cdc vs "0x829A" value))
  /\ (exists e, exif_get cdc vs "AuxLens" = Err e) /\ (exists e, exif_set cdc vs "AuxLens" value = (vs, Err e))
  /\ (forall v, nth_error vs 134 = Some v -> v = VStr "" -> exif_can cdc vs "AuxLens" = Ok true).
Proof.
  destruct (exif_info cdc) as (l & TI). rewrite exif_can_eq, exif_get_eq, exif_set_eq.
  assert (U : forall tag, match lookup (lm_fields (lm_exif cdc)) tag with None => true | Some _ => false end = true ->
              forall k, ~ selects (lm_fields (lm_exif cdc)) tag k).
  { intros tag H k K. apply lookup_selects in K. rewrite K in H. discriminate H. }
  split; [|split; [|split; [|split]]].
  - refine (proj2 (proj2 (lm_unknown (lm_exif cdc) l "0x829A" TI (U _ _) vs ""))). vm_compute. reflexivity.
  - assert (H : dedicated (lm_exif cdc) (to_lower "0x829A") = true) by (vm_compute; reflexivity).
    destruct (dedicated_field _ _ H) as (j & f & t & S & F & _). exists j, f, t. exact (native_stands (lm_exif cdc) _ j f t l TI S F).
  - refine (proj1 (lm_unknown (lm_exif cdc) l (to_lower "AuxLens") TI (U _ _) vs "")). vm_compute. reflexivity.
  - refine (proj1 (proj2 (lm_unknown (lm_exif cdc) l (to_lower "AuxLens") TI (U _ _) vs value))). vm_compute. reflexivity.
  - intros v V ->.
    assert (H : match lookup (lm_fields (lm_exif cdc)) "AuxLens" with
                | Some j => match nth_error (lm_fields (lm_exif cdc)) j with Some (f, TStr) => Nat.eqb j 134 && negb (f_empty f) | _ => false end
                | None => false end = true) by (vm_compute; reflexivity).
    destruct (lookup (lm_fields (lm_exif cdc)) "AuxLens") as [j|] eqn:L; [|discriminate H]. apply lookup_selects in L.
    destruct (nth_error (lm_fields (lm_exif cdc)) j) as [[f t]|] eqn:F; [|discriminate H]. destruct t; try discriminate H.
    apply andb_true_iff in H as [J H]. apply Nat.eqb_eq in J. subst j.
    destruct (native_stands (lm_exif cdc) _ _ f _ l TI L F vs _ V) as (G & _). unfold lm_can. rewrite G; [reflexivity|].
    right. split; [now apply negb_true_iff|reflexivity].
Qed.
Print Assumptions C113_can_tag_refuted.

(* ---- C114: the tags of older ID3 versions -------------------------------------------------------------- *)

Theorem C114_same_frame_partial X (cdc : string -> codec X) old new vs value :
  In (old, new) (v22_successors ++ v1_successors)%list -> old <> "TCO" ->
  id3_get cdc vs old = id3_get cdc vs new /\ id3_set cdc vs old value = id3_set cdc vs new value /\ id3_can cdc vs old = id3_can cdc vs new.
Proof.
  intros I N. destruct (successor old new I N) as (t & A & B). rewrite id3_get_eq, id3_set_eq, id3_can_eq. cbv beta. rewrite A, B. auto.
Qed.
Print Assumptions C114_same_frame_partial.

(* four letters: the name a field declares *)
Theorem C114_declared X (cdc : string -> codec X) a row b j n :
  st_id3_ID3 = (a ++ row :: b)%list -> native_name "id3" row n -> taking_part "id3" a j -> String.length n = 4 ->
  exists g f, In g (fs_id3_ID3 cdc) /\ go_name g = fst row /\ nth_error (lm_fields (lm_id3 cdc)) j = Some (f, go_type g)
    /\ stands_for f (go_type g) j (fun vs => id3_get cdc vs n) (fun vs value => id3_set cdc vs n value).
Proof.
  intros E N T L.
  assert (O : own_fields_ok (lm_id3 cdc) = true).
  { apply (model_ok cdc (fun _ => true)); [|discriminate]. unfold tagged_models. do 8 right. now left. }
  destruct (own_stands (lm_id3 cdc) a row b j n O E T N) as (g & f & I & G & F & S). exists g, f.
  split; [exact I|]. split; [exact G|]. split; [exact F|]. rewrite id3_get_eq, id3_set_eq, (map_four n L). exact S.
Qed.
Print Assumptions C114_declared.

(* other lengths: a field of its own for the known tags, an error and no change for the rest *)
Theorem C114_other_lengths X (cdc : string -> codec X) tag :
  (In tag (map fst (v22_successors ++ v1_successors)%list) ->
   exists j f t, nth_error (lm_fields (lm_id3 cdc)) j = Some (f, t) /\ f_any f = false
     /\ stands_for f t j (fun vs => id3_get cdc vs tag) (fun vs value => id3_set cdc vs tag value))
  /\ (String.length tag <> 4 -> ~ In tag (map fst (v22_successors ++ v1_successors)%list) -> forall vs value,
      (exists e, id3_get cdc vs tag = Err e) /\ (exists e, id3_set cdc vs tag value = (vs, Err e)) /\ id3_can cdc vs tag = Ok false).
Proof.
  rewrite id3_get_eq, id3_set_eq, id3_can_eq. split.
  - intros I. destruct (map_known cdc tag I) as (t & M & It). pose proof (targets_dedicated cdc) as D. rewrite forallb_forall in D.
    destruct (dedicated_field _ _ (D t It)) as (j & f & ty & S & F & A). destruct (id3_info cdc) as (l & TI).
    exists j, f, ty. split; [exact F|]. split; [exact A|]. cbv beta. rewrite M. cbn [bind]. exact (native_stands (lm_id3 cdc) t j f ty l TI S F).
  - intros L N vs value. destruct (map_unknown tag L N) as (e & E). cbv beta. rewrite E. cbn [bind]. repeat split; eauto.
Qed.
Print Assumptions C114_other_lengths.

Example C114_hyps : In ("TT2", "TIT2") (v22_successors ++ v1_successors)%list /\ ~ In "TZZ" (map fst (v22_successors ++ v1_successors)%list).
Proof.
  split; [right; now left|]. intros H.
  assert (E : existsb (String.eqb "TZZ") (map fst (v22_successors ++ v1_successors)%list) = true) by (apply existsb_exists; exists "TZZ"; now split).
  vm_compute in E. discriminate.
Qed.

(* TCO, the content type, is taken for the medium: reading it reads TMED, writing it leaves TCON as it was. *)
Theorem C114_genre_refuted X (cdc : string -> codec X) vs value :
  In ("TCO", "TCON") v22_successors
  /\ id3_get cdc vs "TCO" = id3_get cdc vs "TMED" /\ id3_set cdc vs "TCO" value = id3_set cdc vs "TMED" value
  /\ forall vs' r, id3_set cdc vs "TCO" value = (vs', r) -> nth_error vs' 31 = nth_error vs 31.
Proof.
  split. { unfold v22_successors. repeat (try (left; reflexivity); right). }
  rewrite id3_get_eq, id3_set_eq. cbv beta. assert (M : map_tag "TCO" = Ok "TMED") by reflexivity. assert (M' : map_tag "TMED" = Ok "TMED") by reflexivity.
  rewrite M, M'. split; [reflexivity|]. split; [reflexivity|]. intros vs' r H. destruct (id3_info cdc) as (l & TI).
  refine (lm_set_others (lm_id3 cdc) l vs "TMED" value vs' r 31 TI H _). intros k K. apply lookup_selects in K.
  assert (L : match lookup (lm_fields (lm_id3 cdc)) "TMED" with Some j => negb (Nat.eqb j 31) | None => false end = true) by (vm_compute; reflexivity).
  rewrite K in L. apply negb_true_iff, Nat.eqb_neq in L. exact L.
Qed.
Print Assumptions C114_genre_refuted.
Example C114_genre_place X (cdc : string -> codec X) : lookup (lm_fields (lm_id3 cdc)) "TCON" = Some 31.
Proof. vm_compute. reflexivity. Qed.

(* A tag of four letters that no field declares is accepted, stored nowhere and not reported. *)
Theorem C114_lost_tag_refuted X (cdc : string -> codec X) tag vs v value :
  String.length tag = 4 -> (forall row n, In row st_id3_ID3 -> native_name "id3" row n -> n <> tag) -> nth_error vs 105 = Some v ->
  id3_set cdc vs tag value = (vs, Ok tt) /\ (v = VArr [] [] -> id3_can cdc vs tag = Ok true).
Proof.
  intros L N V. rewrite id3_set_eq, id3_can_eq. cbv beta. rewrite (map_four tag L). destruct (id3_info cdc) as (l & TI).
  assert (LK : lookup (lm_fields (lm_id3 cdc)) tag = Some 105).
  { unfold lookup, find_native. rewrite find_any; [vm_compute; reflexivity|].
    assert (C : forallb (fun f => negb (has_char ":" (f_name (fst f)))) (lm_fields (lm_id3 cdc)) = true) by (vm_compute; reflexivity).
    assert (D : map (fun f => f_name (fst f)) (lm_fields (lm_id3 cdc)) = map (row_name "id3") st_id3_ID3) by (vm_compute; reflexivity).
    rewrite forallb_forall in C. apply Forall_forall. intros f I. split; [|apply negb_true_iff, C, I].
    assert (I' : In (f_name (fst f)) (map (row_name "id3") st_id3_ID3)).
    { rewrite <- D. exact (in_map (fun f => f_name (fst f)) _ _ I). }
    apply in_map_iff in I' as (row & <- & Ir).
    assert (Q : forallb (fun row => match snd row with (k, t) :: _ => (k =? "id3") && negb (t =? "-") | [] => false end) st_id3_ID3 = true) by (vm_compute; reflexivity).
    rewrite forallb_forall in Q. specialize (Q row Ir).
    apply (N row _ Ir). destruct row as [g kv]. cbn [snd] in Q. destruct kv as [|[k t] kv]; [discriminate Q|].
    apply andb_true_iff in Q as [Q1 Q2]. apply String.eqb_eq in Q1. subst k. apply negb_true_iff, String.eqb_neq in Q2.
    exact (row_declares "id3" g t kv Q2). }
  assert (H : match nth_error (lm_fields (lm_id3 cdc)) 105 with Some (f, TArr i _) => negb (f_empty f) && match ar_text i with None => negb (ar_zero i) | _ => false end | _ => false end = true)
    by (vm_compute; reflexivity).
  destruct (nth_error (lm_fields (lm_id3 cdc)) 105) as [[f t]|] eqn:F; [|discriminate H]. destruct t; try discriminate H.
  apply andb_true_iff in H as [E H]. destruct (ar_text i) eqn:A; [discriminate H|].
  unfold lm_can, lm_get, lm_set. rewrite TI. cbn [bind]. unfold set_native, get_native. cbn [has_namespace]. rewrite LK, F, V.
  cbn [deref native_dec]. rewrite A. cbn [set_simple_value reref]. rewrite (changed_id _ _ _ V). split; [reflexivity|].
  intros ->. unfold skipped. cbn [is_nil orb]. rewrite E. cbn [andb]. cbn [is_empty]. reflexivity.
Qed.
Print Assumptions C114_lost_tag_refuted.

(* No ID3 field has languages: the language methods succeed with no tag, and GetLocaleTag panics for a title. *)
Theorem C114_languages_refuted X (cdc : string -> codec X) te vs lang tag value s :
  List.length vs = 106 ->
  (exists e, snd (id3_set_locale cdc vs lang tag value) = Err e) /\ id3_get_locale te cdc vs lang tag <> Ok s
  /\ id3_get_locale te cdc vs lang "TT2" = Panic.
Proof.
  intros L. rewrite id3_set_locale_eq, id3_get_locale_eq. cbv beta. destruct (id3_info cdc) as (l & TI). split; [|split].
  - assert (N : List.length (lm_fields (lm_id3 cdc)) = 106) by (vm_compute; reflexivity).
    apply (set_locale_never (lm_id3 cdc) l vs lang tag value TI (id3_no_alt cdc)). now rewrite N.
  - destruct (map_tag tag) as [t0| |]; cbn [bind]; [|discriminate|discriminate]. exact (get_locale_never te (lm_id3 cdc) vs lang t0 s (id3_no_alt cdc)).
  - assert (M : map_tag "TT2" = Ok "TIT2") by reflexivity. rewrite M. cbn [bind]. unfold lm_get_locale. rewrite TI. cbn [bind]. unfold get_locale. cbn [has_namespace].
    assert (H : match lookup (lm_fields (lm_id3 cdc)) "TIT2" with
                | Some j => Nat.ltb j 106 && match nth_error (lm_fields (lm_id3 cdc)) j with Some (_, TStr) => true | _ => false end
                | None => false end = true) by (vm_compute; reflexivity).
    destruct (lookup (lm_fields (lm_id3 cdc)) "TIT2") as [j|]; [|discriminate H]. apply andb_true_iff in H as [J H]. apply Nat.ltb_lt in J.
    destruct (nth_error (lm_fields (lm_id3 cdc)) j) as [[f t]|]; [|discriminate H]. destruct t; try discriminate H.
    destruct (nth_error vs j) as [v|] eqn:V; [reflexivity|]. apply nth_error_None in V. rewrite L in V. clear - V J. lia.
Qed.
Print Assumptions C114_languages_refuted.
