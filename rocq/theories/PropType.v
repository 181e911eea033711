(* C34, C42, C44: typed values, language alternatives and arrays survive marshalling and unmarshalling *)
From Coq Require Import List Arith ZArith Bool Ascii String Lia.
From Verif Require Import GoStr GoStrFacts GoMap Names Semver RegistryM NodeM ArrayM TypeM SpecType TypeFacts CodecM.
Import ListNotations.
Local Open Scope string_scope.

Definition v0 : version := Version 0 0 0.

(* ---- C34 ---- *)
(* A value of a sensible type that can be stored (SpecType.v) is written without an error to a fresh element,
   and reading that element into the zero value gives the value up to surrounding blanks and fields left out.
   For all types, values, element names, namespaces and whether the value is a field or an array item. *)
Theorem C34_typed_values_survive_partial : forall X M ver reg imap emap (t : ty X) v x,
  wf_ty ver t -> storable ver t v ->
  exists n : node M, marshal ver t v (new_node x) = Ok n /\
    forall field, unmarshal ver reg imap emap n t field (zero t) = Ok (norm ver t v).
Proof. intros X M ver reg imap emap t v x W H. exact (types_survive ver reg imap emap t v x W H). Qed.
Print Assumptions C34_typed_values_survive_partial.

(* ... so a second value written to the same kind of element that reads back the same is the same up to norm *)
Theorem C34_nodes_tell_values_apart : forall X M ver (t : ty X) v w x (n : node M),
  wf_ty ver t -> storable ver t v -> storable ver t w ->
  marshal ver t v (new_node x) = Ok n -> marshal ver t w (new_node x) = Ok n -> norm ver t v = norm ver t w.
Proof.
  intros X M ver t v w x n W Hv Hw Ev Ew.
  destruct (types_survive (M:=M) ver empty_registry [] [] t v x W Hv) as (a & Ea & Ra).
  destruct (types_survive (M:=M) ver empty_registry [] [] t w x W Hw) as (b & Eb & Rb).
  rewrite Ev in Ea. rewrite Ew in Eb. injection Ea as <-. injection Eb as <-.
  specialize (Ra true). specialize (Rb true). rewrite Ra in Rb. now injection Rb.
Qed.
Print Assumptions C34_nodes_tell_values_apart.

(* a type in use: models/xmp_bj (a job list), with a rational, a title in several languages, a pointer to a
   struct, an array of strings, numbers and flags added *)
Definition rat_codec : codec rational := Codec _
  (fun v => match v with VText r => Ok (Some (rat_marshal r)) | _ => Panic end)
  (fun v s => match v with VText r => bind (rat_unmarshal (fun _ => None) r s) (fun r => Ok (VText r)) | _ => Panic end)
  (VText (Rat 0 0)) (fun _ => false) false.
Definition fattr (s : string) : finfo := Finfo s true false false false v0 v0.
Definition felem (s : string) : finfo := Finfo s false false false false v0 v0.
Definition fomit (s : string) : finfo := Finfo s false false true false v0 v0.
Definition is_vempty (v : gval rational) : bool := match v with VStr "" => true | _ => false end.
Definition t_job : ty rational := TStruct (StructInfo _ (Some (forallb is_vempty)) true)
  [(fattr "stJob:id", TStr); (fattr "stJob:name", TStr); (fattr "stJob:url", TStr)].
Definition bag : arr_info rational := ArrInfo _ "Bag" true None false.
Definition t_doc : ty rational := TStruct (StructInfo _ None false)
  [(felem "xmpBJ:JobRef", TArr bag (TPtr t_job)); (felem "dc:title", TAlt true); (felem "dc:subject", TArr bag TStr);
   (fattr "xmp:Rating", TInt 64); (felem "xmpRights:Marked", TBool); (fattr "exif:FNumber", TText rat_codec);
   (fomit "x:secret", TStr); (felem "xmpMM:last", TPtr t_job)].
Definition v_job (a b c : string) : gval rational := VStruct [VStr a; VStr b; VStr c].
Definition v_doc : gval rational := VStruct
  [VArr [VPtr (v_job "1" " cut " ""); VPtr (v_job "2" "grade" "http://x")] [];
   VAlt [AltItem "Titel" "de" false; AltItem "Title" "en" true; AltItem "Titre" "fr" false];
   VArr [VStr "a"; VStr ""; VStr "b c"] []; VInt (-5); VBool true; VText (Rat 28 10); VStr "hidden"; VPtr (v_job "" "" "")].
Example C34_hyps : wf_ty v0 t_doc /\ storable v0 t_doc v_doc /\
  norm v0 t_doc v_doc = VStruct
  [VArr [VPtr (v_job "1" "cut" ""); VPtr (v_job "2" "grade" "http://x")] [];
   VAlt [AltItem "Titel" "de" false; AltItem "Title" "en" true; AltItem "Titre" "fr" false];
   VArr [VStr "a"; VStr ""; VStr "b c"] []; VInt (-5); VBool true; VText (Rat 28 10); VStr ""; VNil].
Proof.
  split; [|split].
  - cbn -[In reserved]. unfold in_version. cbn -[In reserved].
    repeat split; try discriminate; try (cbn; tauto);
      try (repeat constructor; cbn; intuition discriminate);
      try (intros f Hf; cbn in Hf; intuition subst; cbn in *; intuition discriminate).
  - cbn. unfold int_ok. repeat split; try discriminate; try (intros; repeat split; try discriminate; try lia; try exact I; reflexivity).
    right. exists [AltItem "Titel" "de" false], (AltItem "Title" "en" true), [AltItem "Titre" "fr" false].
    repeat split; try discriminate; try (repeat constructor; discriminate).
    right. repeat split; try discriminate. intros x [<-|[]]. discriminate.
  - vm_compute. reflexivity.
Qed.

(* What does not survive. A slice type without MarshalXMP/UnmarshalXMP is written as a list and ignored when it
   is read; with an error inside an array item that has no text form the reader panics; a field flagged empty
   that holds an empty array cannot be read back; a nil array item comes back as a zero item. *)
Definition plain : arr_info rational := ArrInfo _ "Seq" false None false.
Definition fempty (s : string) : finfo := Finfo s false true false false v0 v0.
Definition t_plain : ty rational := TStruct (StructInfo _ None false) [(felem "x:list", TArr plain TStr)].
Definition t_empty : ty rational := TStruct (StructInfo _ None false) [(fempty "x:list", TArr bag TStr)].
Definition rt (t : ty rational) (v : gval rational) : result (gval rational) :=
  bind (marshal v0 t v (new_node (new_name "x:m"))) (fun n : node unit => unmarshal v0 empty_registry [] [] n t true (zero t)).
Theorem C34_refuted :
  rt t_plain (VStruct [VArr [VStr "a"; VStr "b"] []]) = Ok (VStruct [VArr [] []]) /\
  rt t_empty (VStruct [VArr [] []]) = Err "xmp: invalid array: contains wrong number of nodes" /\
  rt (TArr bag (TPtr TStr)) (VArr [VNil; VPtr (VStr "a")] []) = Ok (VArr [VPtr (VStr ""); VPtr (VStr "a")] []) /\
  bind (marshal v0 (TArr bag TStr) (VArr [VStr "x"] []) (new_node (new_name "x:m"))) (fun n : node unit =>
    unmarshal v0 empty_registry [] [] n (TArr bag (TInt 64)) true (VArr [] [])) = Panic.
Proof. vm_compute. repeat split. Qed.
Print Assumptions C34_refuted.

(* ---- C67 ---- *)
(* With a version set, values of fields of another version are neither written nor read, those of fields whose
   range includes the version survive. *)
Theorem C67_fields_of_the_version_partial : forall X M ver reg imap emap i f (t : ty X) v x,
  wf_ty ver (TStruct i [(f, t)]) -> storable ver (TStruct i [(f, t)]) (VStruct [v]) -> s_guard i = false ->
  f_omit f = false -> blank_value t v = false -> v <> VNil ->
  exists n : node M, marshal ver (TStruct i [(f, t)]) (VStruct [v]) (new_node x) = Ok n /\
    unmarshal ver reg imap emap n (TStruct i [(f, t)]) true (zero (TStruct i [(f, t)])) =
      Ok (VStruct [if version_between ver (f_min f) (f_max f) then norm ver t v else zero t]).
Proof.
  intros X M ver reg imap emap i f t v x W H Hg Ho Hb Hn.
  destruct (types_survive (M:=M) ver reg imap emap (TStruct i [(f, t)]) (VStruct [v]) x W H) as (n & E & R).
  exists n. split; [exact E|]. rewrite R. cbn [norm]. rewrite Hg. cbn [andb]. unfold left_out, in_version. rewrite Ho, Hb, andb_false_r, orb_false_r.
  destruct v; try (now elim Hn); cbn [orb]; rewrite orb_false_r; destruct (version_between ver (f_min f) (f_max f)); reflexivity.
Qed.
Print Assumptions C67_fields_of_the_version_partial.

(* a decoder or encoder with a version set skips every field without a version in its tag, whatever the value *)
Theorem C67_version_skips_untagged_fields_refuted : forall X M a b c (t : ty X) (f : finfo) v (n : node M) i,
  (0 <= a)%Z -> (0 <= b)%Z -> (0 <= c)%Z -> (0 < a + b + c < 2 ^ 63)%Z -> f_min f = v0 -> f_max f = v0 -> s_guard i = false ->
  marshal (Version a b c) (TStruct i [(f, t)]) (VStruct [v]) n = Ok n /\
  forall name, find_field (Version a b c) [(f, t)] name = None.
Proof.
  intros X M a b c t f v n i Ha Hb Hc Hs Hm Hx Hg.
  assert (A : active (Version a b c) f = false).
  { unfold active, version_between. rewrite Hm, Hx. unfold version_is_zero, Semver.wrap64. cbn [v_major v_minor v_patch v0].
    rewrite (Z.mod_small (a + b + 2 ^ 63)) by lia. replace (a + b + 2 ^ 63 - 2 ^ 63)%Z with (a + b)%Z by lia.
    rewrite Z.mod_small by lia. replace (a + b + c + 2 ^ 63 - 2 ^ 63 =? 0)%Z with false by (symmetry; apply Z.eqb_neq; lia).
    change ((((0 + 0 + 2 ^ 63) mod 2 ^ 64 - 2 ^ 63 + 0 + 2 ^ 63) mod 2 ^ 64 - 2 ^ 63 =? 0)%Z) with true. cbv iota.
    unfold version_before, version_equal. cbn [v_major v_minor v_patch v0].
    replace (a <? 0)%Z with false by (symmetry; apply Z.ltb_ge; lia).
    replace (b <? 0)%Z with false by (symmetry; apply Z.ltb_ge; lia).
    replace (c <? 0)%Z with false by (symmetry; apply Z.ltb_ge; lia). rewrite !andb_false_r. cbn [orb].
    destruct (Z.eqb_spec a 0), (Z.eqb_spec b 0), (Z.eqb_spec c 0); cbn [andb]; try reflexivity. lia. }
  split.
  - rewrite marshal_struct, Hg. cbn [andb]. unfold marshal_attrs, marshal_elems, present. rewrite A.
    rewrite !andb_false_r. cbn. now rewrite ?andb_false_r.
  - intros name. unfold find_field, find_field_from. now rewrite A.
Qed.
Print Assumptions C67_version_skips_untagged_fields_refuted.

(* a field of versions 2.0 to 3.0 *)
Definition f_v23 : finfo := Finfo "x:new" false false false false (Version 2 0 0) (Version 3 0 0).
Definition t_v23 : ty rational := TStruct (StructInfo _ None false) [(f_v23, TStr)].
Example C67_hyps : wf_ty (Version 2 1 0) t_v23 /\ storable (Version 2 1 0) t_v23 (VStruct [VStr "a"]) /\
  version_between (Version 2 1 0) (f_min f_v23) (f_max f_v23) = true /\ version_between (Version 4 1 0) (f_min f_v23) (f_max f_v23) = false.
Proof.
  split; [|split; [|split; reflexivity]].
  - cbn. repeat split; [repeat constructor; intros []|]. intros f [<-|[]]. cbn. intuition discriminate.
  - cbn. repeat split.
Qed.

(* ---- C42 ---- *)
(* an AltString in which every item but the default has a language, and no other item has the value of the
   default (before it, if the default has a language), comes back item by item *)
Theorem C42_alternatives_survive_partial : forall X M ver reg imap emap l x, alt_ok true l ->
  exists n : node M, marshal ver (@TAlt X true) (VAlt l) (new_node x) = Ok n /\
    forall field, unmarshal ver reg imap emap n (@TAlt X true) field (VAlt []) = Ok (VAlt (map trim_item l)).
Proof.
  intros X M ver reg imap emap l x H.
  destruct (types_survive (X:=X) (M:=M) ver reg imap emap (TAlt true) (VAlt l) x I H) as (n & E & R). exists n. split; assumption.
Qed.
Print Assumptions C42_alternatives_survive_partial.

Example C42_hyps : alt_ok true [AltItem "Titel" "de" false; AltItem "Title" "en" true; AltItem "Title" "en-GB" false]
  /\ alt_ok true [AltItem "Title" "" true; AltItem "Titel" "de" false].
Proof.
  split; (split; [discriminate|right]).
  - exists [AltItem "Titel" "de" false], (AltItem "Title" "en" true), [AltItem "Title" "en-GB" false].
    repeat split; try discriminate; try (repeat constructor; discriminate).
    right. repeat split; try discriminate. intros x [<-|[]]. discriminate.
  - exists [], (AltItem "Title" "" true), [AltItem "Titel" "de" false].
    repeat split; try discriminate; try (repeat constructor; discriminate).
    left. split; [reflexivity|]. intros _ x [<-|[]]. discriminate.
Qed.

(* what is written is exactly one list item per item, two for a default with a language, in order *)
Theorem C42_written_items : forall M l (n : node M) x, marshal_alt l (new_node x) = Ok n -> l <> [] ->
  exists arr, n_nodes n = [arr] /\ n_name arr = new_name "rdf:Alt" /\
    map n_value (n_nodes arr) =
      flat_map (fun i => if ai_default i && negb (ai_lang i =? "") then [ai_value i; ai_value i] else [ai_value i]) l.
Proof. exact alt_written. Qed.
Print Assumptions C42_written_items.

Definition alt_rt_of (m : bool) (l : list alt_item) : result (gval unit) :=
  bind (marshal v0 (@TAlt unit m) (VAlt l) (new_node (new_name "dc:title"))) (fun n : node unit =>
    unmarshal v0 empty_registry [] [] n (TAlt m) true (VAlt [])).
(* A default that is not the first of its value takes the language of the other item, which is lost; a default
   without language too; a single item without language comes back as a default; the AltString type of
   models/riff (UnmarshalXMP without joining) doubles a default with a language. *)
Theorem C42_refuted :
  alt_rt_of true [AltItem "Logo" "de" false; AltItem "Logo" "en" true] = Ok (VAlt [AltItem "Logo" "de" true; AltItem "Logo" "en" false]) /\
  alt_rt_of true [AltItem "Logo" "" true; AltItem "Logo" "de" false] = Ok (VAlt [AltItem "Logo" "de" true]) /\
  alt_rt_of true [AltItem "Logo" "" false] = Ok (VAlt [AltItem "Logo" "" true]) /\
  alt_rt_of false [AltItem "Logo" "en" true] = Ok (VAlt [AltItem "Logo" "" true; AltItem "Logo" "en" false]).
Proof. vm_compute. repeat split. Qed.
Print Assumptions C42_refuted.

(* ---- C44 ---- *)
(* what MarshalArray writes: nothing for an empty array, else one list under the array type with one rdf:li per
   element, in order, each holding that element *)
Theorem C44_array_written : forall X M ver i (t : ty X) l spare x (n : node M), ar_xmp i = true ->
  marshal ver (TArr i t) (VArr l spare) (new_node x) = Ok n ->
  (l = [] -> n = new_node x) /\
  (l <> [] -> exists arr, n = set_nodes (new_node x) [arr] /\ n_name arr = new_name ("rdf:" ++ ar_type i) /\ n_attrs arr = [] /\
     Forall2 (fun e li => n_name li = new_name "rdf:li" /\ marshal ver t e (new_node (new_name "rdf:li")) = Ok li) l (n_nodes arr)).
Proof. intros X M. exact arr_written. Qed.
Print Assumptions C44_array_written.

(* what UnmarshalArray reads: one Seq, Bag or Alt list of rdf:li gives the elements in order, after those that
   are there already *)
Theorem C44_array_read : forall X M ver reg imap emap i (t : ty X) old spare field x a md v (arr : node M) es, ar_xmp i = true ->
  In (node_local arr) ["Seq"; "Bag"; "Alt"] ->
  Forall2 (fun e li => full_name reg li = "rdf:li" /\ unmarshal ver reg imap emap li t false (zero t) = Ok e) es (n_nodes arr) ->
  exists spare', unmarshal ver reg imap emap (Node x a md v [arr]) (TArr i t) field (VArr old spare) = Ok (VArr (old ++ es)%list spare').
Proof. intros X M. exact arr_read. Qed.
Print Assumptions C44_array_read.

(* ... and everything else is an error *)
Theorem C44_not_an_array : forall X M ver reg imap emap i (t : ty X) field v (n : node M), ar_xmp i = true ->
  (forall arr, n_nodes n = [arr] -> ~ In (node_local arr) ["Seq"; "Bag"; "Alt"]) ->
  exists e, unmarshal ver reg imap emap n (TArr i t) field v = Err e.
Proof. intros X M. exact arr_not. Qed.
Print Assumptions C44_not_an_array.

(* both together *)
Theorem C44_arrays_survive : forall X M ver reg imap emap i (t : ty X) l spare x, ar_xmp i = true ->
  In (ar_type i) ["Seq"; "Bag"; "Alt"] -> wf_ty ver t -> l <> [] -> Forall (storable ver t) l ->
  exists n : node M, marshal ver (TArr i t) (VArr l spare) (new_node x) = Ok n /\
    forall field, unmarshal ver reg imap emap n (TArr i t) field (VArr [] []) = Ok (VArr (map (norm ver t) l) []).
Proof.
  intros X M ver reg imap emap i t l spare x Hx Hi W Hn H.
  apply (types_survive ver reg imap emap (TArr i t) (VArr l spare) x).
  - cbn [wf_ty]. split; [intros _|]; assumption.
  - rewrite storable_items, Hx. split; assumption.
Qed.
Print Assumptions C44_arrays_survive.

(* a plain value in an attribute of array type is added as one element *)
Theorem C44_plain_attribute_is_one_element : forall X i (t : ty X) field old spare s w, ar_text i = None ->
  unmarshal_attr t false (zero t) s = Ok w ->
  unmarshal_attr (TArr i t) field (VArr old spare) s = Ok (VArr (old ++ [w])%list (tl spare)).
Proof. intros X i t field old spare s w Ht H. cbn [unmarshal_attr]. rewrite Ht, H. reflexivity. Qed.
Print Assumptions C44_plain_attribute_is_one_element.

Example C44_hyps : exists n : node unit,
  marshal v0 (TArr bag (TPtr t_job)) (VArr [VPtr (v_job "1" "cut" ""); VPtr (v_job "2" "grade" "u")] []) (new_node (new_name "xmpBJ:JobRef")) = Ok n
  /\ map (fun li => map a_value (n_attrs li)) (flat_map n_nodes (n_nodes n)) = [["1"; "cut"]; ["2"; "grade"; "u"]]
  /\ unmarshal v0 empty_registry [] [] n (TArr bag (TPtr t_job)) true (VArr [] []) = Ok (VArr [VPtr (v_job "1" "cut" ""); VPtr (v_job "2" "grade" "u")] [])
  /\ unmarshal_attr (TArr bag TStr) true (VArr [VStr "a"] []) "b" = Ok (VArr [VStr "a"; VStr "b"] []).
Proof. eexists. split; [vm_compute; reflexivity|]. vm_compute. repeat split. Qed.
