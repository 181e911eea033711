(* Property theorems C01-C09, C13, C14: paths, path lists, versions, flags, names *)
From Coq Require Import List Arith ZArith Bool Ascii String Sorted.
From Verif Require Import GoStr GoStrFacts Names PathM PathFacts Semver SyncFlags PVList Spec SpecBasic BasicFacts.
Local Open Scope string_scope.

(* ---- C01 ---- *)
Theorem C01_fields_of_new_path p segs :
  no_char ":" p -> Forall seg_ok segs ->
  fields (new_path p segs) = segs /\ namespace_prefix (new_path p segs) = p.
Proof. intros H1 H2. exact (conj (fields_new p segs H1 H2) (namespace_prefix_new p segs H1)). Qed.
Print Assumptions C01_fields_of_new_path.

Theorem C01_push_appends p segs s :
  no_char ":" p -> Forall seg_ok segs ->
  push (new_path p segs) [s] = new_path p (segs ++ [s]).
Proof. exact (push_new p segs [s]). Qed.
Print Assumptions C01_push_appends.

Theorem C01_pop_removes_last p segs s :
  no_char ":" p -> Forall seg_ok (segs ++ [s]) ->
  pop (new_path p (segs ++ [s])) = (s, new_path p segs).
Proof. exact (pop_new p segs s). Qed.
Print Assumptions C01_pop_removes_last.

Theorem C01_pop_push p segs s :
  no_char ":" p -> Forall seg_ok segs -> seg_ok s ->
  pop (push (new_path p segs) [s]) = (s, new_path p segs).
Proof. exact (pop_push p segs s). Qed.
Print Assumptions C01_pop_push.

Theorem C01_len_is_number_of_fields x : path_len x = List.length (fields x).
Proof. exact (path_len_fields x). Qed.
Print Assumptions C01_len_is_number_of_fields.

Example C01_hyps : no_char ":" "xmpDM" /\ Forall seg_ok ["Tracks[1]"; "markers[2]"; "stDim:w"]
  /\ new_path "xmpDM" ["Tracks[1]"; "markers[2]"; "stDim:w"] = "xmpDM:Tracks[1]/markers[2]/stDim:w".
Proof. repeat split; repeat constructor; discriminate. Qed.

(* ---- C02 ---- *)
Theorem C02_walk_visits_every_segment p (l : list seg_spec) n :
  no_char ":" p -> Forall seg_spec_ok l -> List.length l < n ->
  walk n (new_path p (map seg_text l)) = Some (walk_spec p l).
Proof. exact (walk_visits l p n). Qed.
Print Assumptions C02_walk_visits_every_segment.

Theorem C02_len_decreases x : 0 < path_len x -> path_len (snd (pop_front x)) < path_len x.
Proof. exact (pop_front_decreases x). Qed.
Print Assumptions C02_len_decreases.

Theorem C02_end_is_empty_name x : path_len x = 0 -> pop_front x = ("", x).
Proof. exact (pop_front_empty x). Qed.
Print Assumptions C02_end_is_empty_name.

(* every loop over PopFront stops after at most Len rounds, for every string *)
Theorem C02_every_walk_terminates x :
  exists l, List.length l <= path_len x /\ forall n, path_len x < n -> walk n x = Some l.
Proof.
  destruct (walk_terminates x (S (path_len x)) (Nat.lt_succ_diag_r _)) as (l & Hl & Hb).
  exists l. split; [exact Hb|]. intros n Hn. exact (walk_mono _ n x l Hl Hn).
Qed.
Print Assumptions C02_every_walk_terminates.

Theorem C02_peek_agrees_with_pop_front x :
  0 < path_len x -> peek_namespace_prefix x = namespace_prefix (snd (pop_front x)).
Proof. exact (peek_prefix_spec x). Qed.
Print Assumptions C02_peek_agrees_with_pop_front.

Example C02_hyps :
  Forall seg_spec_ok [(None, "History[1]"); (Some "stEvt", "action")]
  /\ walk 3 "xmpMM:History[1]/stEvt:action" = Some [("History[1]", "xmpMM:stEvt:action"); ("action", "stEvt:")].
Proof. split; [repeat constructor; discriminate|reflexivity]. Qed.

(* ---- C03 ---- *)
Theorem C03_index_round_trip name i :
  name <> "" -> no_char "[" name -> has_suffix_str "]" name = false -> int64 i ->
  parse_segment (append_index name i) = (name, i, "").
Proof. exact (parse_append_index name i). Qed.
Print Assumptions C03_index_round_trip.

Theorem C03_lang_round_trip name lang :
  name <> "" -> no_char "[" name -> has_suffix_str "]" name = false -> lang <> "" -> atoi lang = None ->
  parse_segment (append_index_string name lang) = (name, (-1)%Z, lang).
Proof. exact (parse_append_lang name lang). Qed.
Print Assumptions C03_lang_round_trip.

Theorem C03_empty_brackets_are_index_0 name :
  name <> "" -> no_char "[" name -> parse_segment (name ++ "[]") = (name, 0%Z, "").
Proof. exact (parse_segment_empty_brackets name). Qed.
Print Assumptions C03_empty_brackets_are_index_0.

Theorem C03_plain_name_has_no_index name :
  no_char "[" name -> parse_segment name = (name, (-1)%Z, "").
Proof. exact (parse_segment_plain name). Qed.
Print Assumptions C03_plain_name_has_no_index.

Example C03_hyps : parse_segment (append_index "History" 12) = ("History", 12%Z, "")
  /\ parse_segment (append_index_string "title" "x-default") = ("title", (-1)%Z, "x-default")
  /\ atoi "x-default" = None.
Proof. repeat split. Qed.

(* ---- C04 ---- *)
(* any sequence of AddFlags calls (Add is AddFlags with flags 0) on any list *)
Theorem C04_add_drops_only_empty_values ops x :
  fold_left (fun l op => pvl_add_flags l (fst (fst op)) (snd (fst op)) (snd op)) ops x =
  (x ++ map (fun op => PathValue (fst (fst op)) "" (snd (fst op)) (snd op))
        (filter (fun op => negb (emptyb (snd (fst op)))) ops))%list.
Proof. exact (pvl_adds_spec ops x). Qed.
Print Assumptions C04_add_drops_only_empty_values.

Theorem C04_add_is_add_flags_0 x p v : pvl_add x p v = pvl_add_flags x p v 0.
Proof. reflexivity. Qed.
Print Assumptions C04_add_is_add_flags_0.

Theorem C04_unique_keeps_first_of_every_path x :
  StronglySorted path_le x ->
  subseq (pvl_unique x) x
  /\ NoDup (map pv_path (pvl_unique x))
  /\ (forall v, In v (pvl_unique x) <-> pv_path v <> "" /\ first_by pv_path v x).
Proof. exact (unique_spec x). Qed.
Print Assumptions C04_unique_keeps_first_of_every_path.

Example C04_hyps :
  StronglySorted path_le [PathValue "a:b" "" "1" 0; PathValue "a:b" "" "2" 0; PathValue "a:c" "" "3" 0]
  /\ pvl_unique [PathValue "a:b" "" "1" 0; PathValue "a:b" "" "2" 0; PathValue "a:c" "" "3" 0]
     = [PathValue "a:b" "" "1" 0; PathValue "a:c" "" "3" 0].
Proof. split; [repeat constructor|reflexivity]. Qed.

(* ---- C05 ---- *)
Theorem C05_diff_mentions_exactly_changed_paths x y :
  wf_list x -> wf_list y -> forall p, mentions (pvl_diff x y) p <-> ~ unchanged x y p.
Proof. exact (diff_mentions x y). Qed.
Print Assumptions C05_diff_mentions_exactly_changed_paths.

(* full description of the entries when both lists are non-empty; the value carried by a REPLACE
   entry is the OLD value, so the entries cannot be applied to x to obtain y (refuted below) *)
Theorem C05_diff_flags_partial x y :
  x <> [] -> y <> [] -> wf_list x -> wf_list y -> forall p v f,
  (has_pvf (pvl_diff x y) p v f <->
     (f = CREATE /\ has_pv y p v /\ ~ mentions x p)
  \/ (f = DELETE /\ has_pv x p v /\ ~ mentions y p)
  \/ (f = REPLACE /\ has_pv x p v /\ exists w, has_pv y p w /\ w <> v)).
Proof. exact (diff_spec x y). Qed.
Print Assumptions C05_diff_flags_partial.

(* the REPLACE entry does not carry the new value *)
Theorem C05_replace_carries_new_value_refuted :
  exists x y, wf_list x /\ wf_list y /\ x <> [] /\ y <> [] /\
  exists p v w, has_pvf (pvl_diff x y) p v REPLACE /\ has_pv y p w /\ v <> w.
Proof.
  exists [PathValue "a:b" "" "old" 0], [PathValue "a:b" "" "new" 0].
  unfold wf_list. cbn. repeat split; try discriminate; try (repeat constructor; cbn; try discriminate; tauto).
  exists "a:b", "old", "new". repeat split; try discriminate.
  - eexists; cbn; repeat split; [left; reflexivity|reflexivity..].
  - eexists; cbn; repeat split; [left; reflexivity|reflexivity..].
Qed.
Print Assumptions C05_replace_carries_new_value_refuted.

(* removing every path is reported without the DELETE flag *)
Theorem C05_empty_target_flag_refuted :
  exists x p v, wf_list x /\ has_pv x p v /\ ~ has_pvf (pvl_diff x []) p v DELETE.
Proof.
  exists [PathValue "a:b" "" "v" 0], "a:b", "v". repeat split; cbn.
  - repeat constructor; cbn; tauto.
  - repeat constructor; discriminate.
  - eexists; cbn; repeat split; [left; reflexivity|reflexivity..].
  - intros (e & [<-|[]] & _ & _ & H). discriminate.
Qed.
Print Assumptions C05_empty_target_flag_refuted.

(* adding paths to an empty list is reported without the CREATE flag *)
Theorem C05_empty_source_flag_refuted :
  exists y p v, wf_list y /\ has_pv y p v /\ ~ has_pvf (pvl_diff [] y) p v CREATE.
Proof.
  exists [PathValue "a:b" "" "v" 0], "a:b", "v". repeat split; cbn.
  - repeat constructor; cbn; tauto.
  - repeat constructor; discriminate.
  - eexists; cbn; repeat split; [left; reflexivity|reflexivity..].
  - intros (e & [<-|[]] & _ & _ & H). discriminate.
Qed.
Print Assumptions C05_empty_source_flag_refuted.

Example C05_hyps : wf_list [PathValue "a:b" "" "1" 0; PathValue "a:c" "" "2" 0]
  /\ wf_list [PathValue "a:c" "" "3" 0; PathValue "a:d" "" "4" 0]
  /\ pvl_diff [PathValue "a:b" "" "1" 0; PathValue "a:c" "" "2" 0]
       [PathValue "a:c" "" "3" 0; PathValue "a:d" "" "4" 0]
     = [PathValue "a:b" "" "1" 4; PathValue "a:c" "" "2" 2; PathValue "a:d" "" "4" 1].
Proof.
  repeat split; try (repeat constructor; cbn; try discriminate).
  all: intuition discriminate.
Qed.

(* ---- C06 ---- *)
Theorem C06_version_round_trip v : v_range v -> parse_version (version_string v) = Ok v.
Proof. exact (parse_version_string v). Qed.
Print Assumptions C06_version_round_trip.

Theorem C06_parse_accepts_exactly s v : parse_version s = Ok v <-> parse_version_spec s v.
Proof. exact (parse_version_iff s v). Qed.
Print Assumptions C06_parse_accepts_exactly.

Theorem C06_parse_never_panics s : (exists v, parse_version s = Ok v) \/ exists e, parse_version s = Err e.
Proof. exact (parse_version_total s). Qed.
Print Assumptions C06_parse_never_panics.

Example C06_hyps : v_range (Version 1 20 (-3)) /\ parse_version "1.2" = Ok (Version 1 2 0)
  /\ version_string (Version 1 20 (-3)) = "1.20.-3".
Proof. repeat split; discriminate. Qed.

(* ---- C07 ---- *)
Theorem C07_exactly_one_comparison a b :
     (version_before a b = true /\ version_equal a b = false /\ version_after a b = false)
  \/ (version_before a b = false /\ version_equal a b = true /\ version_after a b = false)
  \/ (version_before a b = false /\ version_equal a b = false /\ version_after a b = true).
Proof. exact (version_trichotomy a b). Qed.
Print Assumptions C07_exactly_one_comparison.

Theorem C07_before_is_strict_order :
  (forall a, version_before a a = false) /\
  (forall a b c, version_before a b = true -> version_before b c = true -> version_before a c = true).
Proof. exact version_before_order. Qed.
Print Assumptions C07_before_is_strict_order.

Theorem C07_after_is_converse a b : version_after a b = version_before b a.
Proof. exact (version_after_converse a b). Qed.
Print Assumptions C07_after_is_converse.

Theorem C07_equal_is_equality a b : version_equal a b = true <-> a = b.
Proof. exact (version_equal_iff a b). Qed.
Print Assumptions C07_equal_is_equality.

(* Before compares major, then minor, then patch *)
Theorem C07_before_is_lexicographic a b : version_before a b = true <-> v_lt a b.
Proof. exact (version_before_iff a b). Qed.
Print Assumptions C07_before_is_lexicographic.

(* ---- C08 ---- *)
(* missing for the full property: an open lower bound; there the upper bound is exclusive (refuted below) *)
Theorem C08_between_partial v a b :
  version_is_zero a = false ->
  (version_is_zero b = false -> v_le a b) ->
  (version_between v a b = true <->
     version_is_zero v = true \/ (v_le a v /\ (version_is_zero b = true \/ v_le v b))).
Proof. exact (between_lower_bounded v a b). Qed.
Print Assumptions C08_between_partial.

(* what the code does with an open lower bound *)
Theorem C08_between_open_below v a b :
  version_is_zero v = false -> version_is_zero a = true ->
  (version_between v a b = true <-> v_lt v b \/ v = a).
Proof. exact (between_open_below v a b). Qed.
Print Assumptions C08_between_open_below.

(* "v1.2-" (before and including 1.2) does not hold for version 1.2 *)
Theorem C08_inclusive_upper_bound_refuted :
  exists v a b, version_is_zero a = true /\ v_le v b /\ version_between v a b = false.
Proof. exists (Version 1 2 0), (Version 0 0 0), (Version 1 2 0). repeat split. now right. Qed.
Print Assumptions C08_inclusive_upper_bound_refuted.

(* no bounds at all (a field without a version tag) holds for no non-zero version *)
Theorem C08_unbounded_refuted :
  forall v, v_lt (Version 0 0 0) v -> version_is_zero v = false ->
  version_between v (Version 0 0 0) (Version 0 0 0) = false.
Proof. exact between_unbounded. Qed.
Print Assumptions C08_unbounded_refuted.

Example C08_hyps : version_is_zero (Version 1 1 0) = false /\ version_between (Version 1 1 5) (Version 1 1 0) (Version 1 2 0) = true
  /\ v_le (Version 1 1 0) (Version 1 2 0).
Proof. repeat split. left. right. cbn. split; [reflexivity|]. left. reflexivity. Qed.

(* ---- C09 ---- *)
Theorem C09_parse_union names bits :
  names <> [] -> Forall2 names_flag names bits ->
  exists r, parse_sync_flags (join "," names) = Ok r /\ is_union r bits.
Proof. exact (parse_sync_flags_names names bits). Qed.
Print Assumptions C09_parse_union.

(* the union is a number, and depends only on the set of flags *)
Theorem C09_union_unique z1 z2 l1 l2 :
  is_union z1 l1 -> is_union z2 l2 -> (forall b, In b l1 <-> In b l2) -> z1 = z2.
Proof. exact (is_union_fun z1 z2 l1 l2). Qed.
Print Assumptions C09_union_unique.

Theorem C09_accepts_exactly_known_names s r :
  parse_sync_flags s = Ok r <->
  exists bits, Forall2 names_flag (split_char "," s) bits /\ is_union r bits.
Proof. exact (parse_sync_flags_iff s r). Qed.
Print Assumptions C09_accepts_exactly_known_names.

Theorem C09_unknown_name_is_error s :
  (exists v, In v (split_char "," s) /\ forall b, ~ names_flag v b) -> exists e, parse_sync_flags s = Err e.
Proof. exact (parse_sync_flags_err s). Qed.
Print Assumptions C09_unknown_name_is_error.

Example C09_hyps : Forall2 names_flag ["Create"; "UNIQUE"; "extend"] [1; 16; 51]%Z
  /\ parse_sync_flags "Create,UNIQUE,extend" = Ok 51%Z.
Proof. split; [repeat constructor; cbn; tauto|reflexivity]. Qed.

(* ---- C13 ---- *)
Theorem C13_remove_dups l :
  subseq (remove_dups l) l
  /\ NoDup (map ns_uri (remove_dups l))
  /\ (forall v, In v (remove_dups l) <-> first_by ns_uri v l).
Proof. exact (remove_dups_spec l). Qed.
Print Assumptions C13_remove_dups.

Theorem C13_contains l ns :
  nsl_contains l ns = true <-> exists n, ns = Some n /\ exists v, In v l /\ ns_name v = ns_name n.
Proof. exact (nsl_contains_spec l ns). Qed.
Print Assumptions C13_contains.

Theorem C13_contains_name l n :
  nsl_contains_name l n = true <-> n <> "" /\ exists v, In v l /\ ns_name v = n.
Proof. exact (nsl_contains_name_spec l n). Qed.
Print Assumptions C13_contains_name.

Theorem C13_match_xml_name n x :
  match_xml_name n x = true <->
  (x_space x <> "" /\ x_space x = ns_uri n) \/ (x_space x = "" /\ get_prefix (x_local x) = ns_name n).
Proof. exact (match_xml_name_spec n x). Qed.
Print Assumptions C13_match_xml_name.

Example C13_hyps :
  remove_dups [Namespace "a" "u1" None; Namespace "b" "u1" None; Namespace "c" "u2" None]
  = [Namespace "a" "u1" None; Namespace "c" "u2" None].
Proof. reflexivity. Qed.

(* ---- C14 ---- *)
Theorem C14_expand_splits n local :
  no_char ":" (ns_name n) -> local <> "" ->
  get_prefix (expand n local) = ns_name n /\ strip_prefix (expand n local) = local.
Proof. exact (expand_split n local). Qed.
Print Assumptions C14_expand_splits.

Theorem C14_expand_has_prefix n local :
  no_char ":" (ns_name n) -> get_prefix (expand n local) = ns_name n.
Proof. exact (expand_prefix n local). Qed.
Print Assumptions C14_expand_has_prefix.

Theorem C14_split_rejoins n : has_char ":" n = true -> get_prefix n ++ ":" ++ strip_prefix n = n.
Proof. exact (split_rejoin n). Qed.
Print Assumptions C14_split_rejoins.

Theorem C14_has_prefix_iff n :
  has_prefix n = true <-> exists c p l, n = String c p ++ ":" ++ l /\ no_char ":" (String c p).
Proof. exact (has_prefix_spec n). Qed.
Print Assumptions C14_has_prefix_iff.

Example C14_hyps : expand (Namespace "xmpDM" "http://ns.adobe.com/xmp/1.0/DynamicMedia/" None) "duration" = "xmpDM:duration".
Proof. reflexivity. Qed.
