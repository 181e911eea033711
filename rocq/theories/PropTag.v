(* C36, C39, C70: field lookup, struct tags, the cache of type descriptions *)
From Coq Require Import List Arith ZArith Bool Ascii String Lia.
From Verif Require Import GoStr GoStrFacts Names Semver TagM TypeM TinfoM SpecBasic SpecTag TagFacts TinfoFacts.
Import ListNotations.
Local Open Scope string_scope.

(* ---- C36 ---- *)
(* access by path (GetModelPath, SetModelPath, native access): the first field with the name asked for, else
   the last any-field *)
Theorem C36_lookup_finds_the_named_field fs name j :
  find_native fs name = Some j <->
    first_such (fun f => asked name (ti_name f)) fs j
    \/ (Forall (fun f => ~ asked name (ti_name f)) fs /\ last_such (fun f => ti_any f = true) fs j).
Proof. exact (native_found fs name j). Qed.
Print Assumptions C36_lookup_finds_the_named_field.

Theorem C36_not_found_only_without_field fs name :
  find_native fs name = None <-> Forall (fun f => ~ asked name (ti_name f) /\ ti_any f = false) fs.
Proof. exact (native_none fs name). Qed.
Print Assumptions C36_not_found_only_without_field.

(* decoding: the same among the fields of the decoder's version, by the full name *)
Theorem C36_decoder_finds_the_named_field X ver (fs : list (finfo * ty X)) name j :
  find_field ver fs name = Some j ->
    first_such (fun p => active ver (fst p) = true /\ f_name (fst p) = name) fs j
    \/ (Forall (fun p => ~ (active ver (fst p) = true /\ f_name (fst p) = name)) fs
        /\ last_such (fun p => active ver (fst p) = true /\ f_any (fst p) = true) fs j).
Proof. exact (decoder_found ver fs name j). Qed.
Print Assumptions C36_decoder_finds_the_named_field.

Theorem C36_decoder_not_found X ver (fs : list (finfo * ty X)) name :
  find_field ver fs name = None <->
    Forall (fun p => active ver (fst p) = true -> f_name (fst p) <> name /\ f_any (fst p) = false) fs.
Proof. exact (decoder_none ver fs name). Qed.
Print Assumptions C36_decoder_not_found.

Definition c36_fs : list tag_info :=
  let i n a := TagInfo n false false false a false no_version no_version in
  [i "dc:title" false; i "xmp:title" false; i "xmp:rest" true].
Example C36_hyps : find_native c36_fs "xmp:title" = Some 1 /\ find_native c36_fs "title" = Some 0
  /\ find_native c36_fs "dc:nothing" = Some 2 /\ find_native (firstn 2 c36_fs) "nothing" = None
  /\ asked "xmp:title" "xmp:title" /\ asked "title" "dc:title" /\ ~ asked "title" "dc:titles".
Proof.
  repeat split.
  - left. split; [exists "xmp", "title"; repeat split; discriminate|reflexivity].
  - right. split; [|right; exists "dc"; split; reflexivity].
    intros H. apply prefixed_iff in H. vm_compute in H. discriminate.
  - rewrite <- matches_iff. vm_compute. discriminate.
Qed.

(* ---- C39 ---- *)
(* a tag written from documented options means exactly these *)
Theorem C39_tag_gives_the_named_flags_and_bounds field name l :
  no_char "," name -> Forall opt_ok l ->
  exists i, parse_tag field (tag_text name l) = Ok i
    /\ ti_name i = (if emptyb name then field else name)
    /\ (ti_attr i = true <-> In OAttr l) /\ (ti_empty i = true <-> In OEmpty l) /\ (ti_omit i = true <-> In OOmit l)
    /\ (ti_any i = true <-> In OAny l) /\ (ti_flat i = true <-> In OFlat l)
    /\ bound says_min l (ti_min i) /\ bound says_max l (ti_max i).
Proof. exact (tag_meaning field name l). Qed.
Print Assumptions C39_tag_gives_the_named_flags_and_bounds.

(* any tag text that is accepted sets exactly the flags it contains *)
Theorem C39_any_tag_gives_exactly_its_flags field tag i : parse_tag field tag = Ok i ->
  exists n fl, tag = join "," (n :: fl) /\ Forall (no_char ",") (n :: fl)
  /\ ti_name i = (if emptyb n then field else n)
  /\ (ti_attr i = true <-> In "attr" fl) /\ (ti_empty i = true <-> In "empty" fl)
  /\ (ti_omit i = true <-> In "omit" fl) /\ (ti_any i = true <-> In "any" fl) /\ (ti_flat i = true <-> In "flat" fl)
  /\ ((forall f r, In f fl -> f <> "v" ++ r) -> ti_min i = Version 0 0 0 /\ ti_max i = Version 0 0 0).
Proof. exact (tag_exact field tag i). Qed.
Print Assumptions C39_any_tag_gives_exactly_its_flags.

(* a version sign without versions crashes instead of being reported *)
Theorem C39_incomplete_version_refuted :
  parse_tag "F" "n,v+" = Panic /\ parse_tag "F" "n,v1.0<" = Panic /\ parse_tag "F" "n,v-" = Panic.
Proof. repeat split; vm_compute; reflexivity. Qed.
Print Assumptions C39_incomplete_version_refuted.

Example C39_tag_hyps : exists i, Forall opt_ok [OAttr; OBetween "1.0" "1.2"; OOther "foo"]
  /\ tag_text "xmp:n" [OAttr; OBetween "1.0" "1.2"; OOther "foo"] = "xmp:n,attr,v1.0<1.2,foo"
  /\ parse_tag "F" "xmp:n,attr,v1.0<1.2,foo" = Ok i /\ i = TagInfo "xmp:n" true false false false false (Version 1 0 0) (Version 1 2 0).
Proof.
  eexists. split.
  - repeat constructor.
    + exists (Version 1 0 0). repeat split.
    + exists (Version 1 2 0). repeat split.
    + intros r H. discriminate.
    + intros H. cbn in H. intuition discriminate.
  - repeat split.
Qed.

(* missing for the full property: fields with version ranges, see the next theorems *)
(* without version tags a type is accepted iff the names of its fields are distinct *)
Theorem C39_equal_names_rejected_partial l infos :
  Forall (fun f => match f with SEmbed _ _ => False | _ => True end) l ->
  Forall2 (fun p i => parse_tag (fst p) (snd p) = Ok i) (plain_fields l) infos ->
  Forall (fun i => ti_min i = Version 0 0 0 /\ ti_max i = Version 0 0 0) infos ->
  (NoDup (map ti_name infos) -> type_info l = Ok infos)
  /\ (~ NoDup (map ti_name infos) -> exists e, type_info l = Err e).
Proof.
  intros H1 H2 H3. unfold type_info. rewrite (type_info_add l [] infos H1 H2).
  pose proof (add_fields_ok infos [] infos H3 (NoDup_nil _)) as A. cbn [List.app] in A. split.
  - intros N. apply A. auto.
  - intros N. destruct (add_fields_err infos []) as [[r Hr]|He]; [|exact He].
    exfalso. apply N. pose proof (add_fields_ok infos [] r H3 (NoDup_nil _)) as B. cbn [List.app] in B. now apply B in Hr.
Qed.
Print Assumptions C39_equal_names_rejected_partial.

(* a rejected pair of fields does have a common version *)
Theorem C39_rejected_fields_clash new old :
  proper new -> proper old -> conflicts new old = true -> clash new old.
Proof. exact (conflict_is_clash new old). Qed.
Print Assumptions C39_rejected_fields_clash.

(* a later field whose version range lies inside the one of an earlier field is rejected *)
Theorem C39_contained_range_rejected fs new old : In old fs ->
  proper new -> proper old -> ti_name new = ti_name old ->
  ti_min old <> Version 0 0 0 -> ti_min new <> Version 0 0 0 ->
  v_le (ti_min old) (ti_min new) ->
  (ti_max old = Version 0 0 0 \/ (ti_max new <> Version 0 0 0 /\ v_le (ti_max new) (ti_max old))) ->
  exists e, add_field fs new = Err e.
Proof.
  intros Hi P1 P2 Hn Z1 Z2 L1 L2. unfold add_field.
  replace (existsb (conflicts new) fs) with true; [eauto|].
  symmetry. apply existsb_exists. exists old. split; [exact Hi|]. now apply contained_conflicts.
Qed.
Print Assumptions C39_contained_range_rejected.

(* overlapping ranges are accepted when the later one is not inside the earlier one, and a versioned field is
   accepted after an unversioned one of the same name (but not before it) *)
Theorem C39_overlap_accepted_refuted :
  let t s := match parse_tag "F" s with Ok i => i | _ => TagInfo "" false false false false false no_version no_version end in
  (clash (t "n,v1.0<1.2") (t "n,v1.1<1.3") /\ type_info [SField true "A" "n,v1.0<1.2"; SField true "B" "n,v1.1<1.3"] = Ok [t "n,v1.0<1.2"; t "n,v1.1<1.3"])
  /\ (clash (t "n") (t "n,v1.0") /\ type_info [SField true "A" "n"; SField true "B" "n,v1.0"] = Ok [t "n"; t "n,v1.0"])
  /\ type_info [SField true "B" "n,v1.0"; SField true "A" "n"] = Err "tag conflicts with field".
Proof.
  cbv zeta. split; [split; [|vm_compute; reflexivity]|split; [split; [|vm_compute; reflexivity]|vm_compute; reflexivity]].
  - split; [reflexivity|]. exists (Version 1 1 0). split.
    + split; [right; left; vm_compute; right; split; [reflexivity|left; reflexivity]|].
      right. left. vm_compute. right. split; [reflexivity|left; reflexivity].
    + split; [right; now right|]. right. left. vm_compute. right. split; [reflexivity|left; reflexivity].
  - split; [reflexivity|]. exists (Version 1 0 0). split; [split; left; reflexivity|]. split; right; right; reflexivity.
Qed.
Print Assumptions C39_overlap_accepted_refuted.

Example C39_type_hyps :
  type_info [SField true "A" "xmp:a,attr"; SField false "b" "xmp:a"; SField true "C" "-"; SEmbed "" [SField true "D" "xmp:d"]; SField true "E" ""]
    = Ok [TagInfo "xmp:a" true false false false false no_version no_version; TagInfo "xmp:d" false false false false false no_version no_version;
          TagInfo "E" false false false false false no_version no_version]
  /\ type_info [SField true "A" "xmp:a,attr"; SEmbed "" [SField true "D" "xmp:a"]] = Err "tag conflicts with field".
Proof. split; vm_compute; reflexivity. Qed.

(* ---- C70 ---- *)
(* whatever the interleaving, every call gets the description of the type it asked for *)
Theorem C70_every_caller_gets_the_description T (info : string -> string -> result T) progs sched k ns t r :
  In (k, (ns, t), r) (tm_trace (trun info (tinit progs) sched)) -> r = info ns t.
Proof. exact (cache_sound info progs sched k ns t r). Qed.
Print Assumptions C70_every_caller_gets_the_description.

(* no goroutine writes a map of the cache while another reads or writes one *)
Theorem C70_no_data_race T (info : string -> string -> result T) progs sched i j :
  let s := trun info (tinit progs) sched in
  i <> j -> writing (q_pc (tm_threads s i)) = true ->
  reading (q_pc (tm_threads s j)) = false /\ writing (q_pc (tm_threads s j)) = false.
Proof. exact (race_free info progs sched i j). Qed.
Print Assumptions C70_no_data_race.

Theorem C70_maps_change_only_in_writing_steps T (info : string -> string -> result T) s k s' :
  tstep info s k = Some s' -> writing (q_pc (tm_threads s k)) = false ->
  tm_ns s' = tm_ns s /\ forall m, snd m < tm_next s -> tm_heap s' m = tm_heap s m.
Proof. exact (only_writers_write info s k s'). Qed.
Print Assumptions C70_maps_change_only_in_writing_steps.

(* as long as a goroutine has work left, some goroutine can go on *)
Theorem C70_no_deadlock T (info : string -> string -> result T) progs sched k :
  let s := trun info (tinit progs) sched in
  (q_pc (tm_threads s k) <> QIdle \/ q_todo (tm_threads s k) <> []) ->
  exists j s', tstep info s j = Some s'.
Proof. exact (no_deadlock info progs sched k). Qed.
Print Assumptions C70_no_deadlock.

(* two goroutines that both make a map for the same tag name space; both get their answers *)
Example C70_hyps :
  let info ns t := if t =? "int" then Err "not a struct" else Ok (ns ++ "/" ++ t) in
  let progs k := match k with 0 => [("", "A"); ("", "B")] | 1 => [("xmp", "A"); ("", "int")] | _ => [] end in
  let s := trun info (tinit progs) (List.concat (repeat [0; 1] 60)) in
  tm_next s = 2 /\ map snd (tm_trace s) = [Ok "xmp/A"; Ok "xmp/A"; Err "not a struct"; Ok "xmp/B"].
Proof. vm_compute. repeat split. Qed.
