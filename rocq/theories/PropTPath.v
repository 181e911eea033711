(* C37, C38: typed access by path *)
From Coq Require Import List Arith ZArith Bool Ascii String Permutation Lia.
From Verif Require Import GoStr GoStrFacts Names Semver PathM PVList SyncFlags ArrayM TypeM TagM TPathM.
From Verif Require Import SpecBasic SpecTag SpecType SpecTPath TPathFacts TPathListFacts.
Import ListNotations.
Local Open Scope string_scope.

(* ---- C37 ------------------------------------------------------------------------------------------- *)

(* What a path names is what is read: the text of the value of the named field, element or language. *)
Theorem C37_get_reads_the_field X (fs : list (finfo * ty X)) vs p segs t v tr s :
  no_char ":" p -> Forall tseg_ok segs -> finds false fs vs segs t v tr -> Forall shown tr ->
  reads t v (last_sub segs) s -> get_model_path fs vs (tpath p segs) = Ok s.
Proof.
  intros Hp Ho F Sh R. unfold get_model_path. rewrite steps_tpath by assumption. eapply get_found; eauto.
Qed.
Print Assumptions C37_get_reads_the_field.

(* Setting writes the meaning of the text to the named place and nowhere else (puts), and reading the same
   path gives the text of what was written. Partial: readers skip fields whose type calls the value zero. *)
Theorem C37_set_then_get_partial X growth g (fs : list (finfo * ty X)) vs p segs t v tr value flags w :
  no_char ":" p -> Forall tseg_ok segs -> finds g fs vs segs t v tr ->
  (g = true -> (has (effective flags) CREATE \/ has (effective flags) APPEND) /\ value <> "") ->
  sets t v (last_sub segs) value (effective flags) w ->
  exists vs' tr', set_model_path growth fs vs (tpath p segs) value flags = (vs', Ok tt)
    /\ puts fs vs segs w vs' /\ finds false fs vs' segs t w tr'
    /\ (Forall shown tr' -> forall s, reads t w (last_sub segs) s -> get_model_path fs vs' (tpath p segs) = Ok s).
Proof.
  intros Hp Ho F Hg S.
  destruct (set_found growth g fs vs segs t v tr value (effective flags) F Ho) with (w := w) (e := Ok tt) as (vs' & tr' & S1 & S2 & S3).
  - intros G. destruct (Hg G) as [HC HV]. split.
    + rewrite on_lor by apply flag_pos. destruct HC as [H|H]; apply has_on in H; try apply flag_pos; rewrite H; [reflexivity|apply orb_true_r].
    + rewrite (proj2 (emptyb_false _) HV). apply andb_false_r.
  - apply sets_last. exact S.
  - exists vs', tr'. split; [|split; [exact S2|split; [exact S3|]]].
    + unfold set_model_path. rewrite tpath_is_path, steps_tpath by assumption. exact S1.
    + intros Sh s R. eapply C37_get_reads_the_field; eauto.
Qed.
Print Assumptions C37_set_then_get_partial.

(* Without REPLACE a value is not overwritten: an error, and the value stays. *)
Theorem C37_no_overwrite X growth g (fs : list (finfo * ty X)) vs p segs t v tr value flags :
  no_char ":" p -> Forall tseg_ok segs -> finds g fs vs segs t v tr ->
  (g = true -> (has (effective flags) CREATE \/ has (effective flags) APPEND) /\ value <> "") ->
  single t = true -> value <> "" -> blank_value t v = false -> ~ has (effective flags) REPLACE ->
  exists vs' m, set_model_path growth fs vs (tpath p segs) value flags = (vs', Err m) /\ puts fs vs segs v vs'.
Proof.
  intros Hp Ho F Hg S V B R.
  destruct (set_found growth g fs vs segs t v tr value (effective flags) F Ho) with (w := v) (e := @Err unit "REPLACE flag required") as (vs' & tr' & S1 & S2 & S3).
  - intros G. destruct (Hg G) as [HC HV]. split.
    + rewrite on_lor by apply flag_pos. destruct HC as [H|H]; apply has_on in H; try apply flag_pos; rewrite H; [reflexivity|apply orb_true_r].
    + rewrite (proj2 (emptyb_false _) HV). apply andb_false_r.
  - assert (L : set_leaf t v value (effective flags) = (v, Err "REPLACE flag required")).
    { unfold set_leaf. apply not_has_on in R; [|apply flag_pos]. rewrite R, (proj2 (emptyb_false _) V).
      rewrite TypeFacts.blank_eq in B. rewrite B. reflexivity. }
    unfold set_last. destruct t; cbn [single] in S; try discriminate; try exact L.
    destruct v; try exact L. destruct (ar_xmp i); [discriminate|exact L].
  - exists vs', "REPLACE flag required". split; [|exact S2].
    unfold set_model_path. rewrite tpath_is_path, steps_tpath by assumption. exact S1.
Qed.
Print Assumptions C37_no_overwrite.

(* Every listed path reads back the listed value. Partial: local field names and languages must differ, and
   every alternative must have a language. *)
Theorem C37_listed_reads_back_partial X (sortf : list path_value -> list path_value) si (fs : list (finfo * ty X)) vs ns l x :
  (forall l, Permutation (sortf l) l) ->
  no_char ":" ns -> names_ok (TStruct si fs) -> langs_ok (TStruct si fs) (VStruct vs) ->
  list_model_paths sortf si fs vs ns = Ok l -> In x l -> get_model_path fs vs (pv_path x) = Ok (pv_value x).
Proof. intros Hs. exact (listed_reads_back sortf Hs si fs vs ns l x). Qed.
Print Assumptions C37_listed_reads_back_partial.

(* ---- C38 ------------------------------------------------------------------------------------------- *)

(* The edits of SpecTPath.v: append, append if absent, replace or add at an index (filling with zero values),
   replace all, delete at an index, delete all. Partial: for slices without leftovers of deleted elements
   behind their end; deleting the last element leaves one behind. *)
Theorem C38_edits_partial X growth g (fs : list (finfo * ty X)) vs p segs i te l sp tr value flags l' :
  no_char ":" p -> Forall tseg_ok segs -> finds g fs vs segs (TArr i te) (VArr l sp) tr -> ar_xmp i = true ->
  (g = true -> (has (effective flags) CREATE \/ has (effective flags) APPEND) /\ value <> "") ->
  Forall (eq (zero te)) sp -> edits te l (last_sub segs) value (effective flags) l' ->
  exists vs' sp', set_model_path growth fs vs (tpath p segs) value flags = (vs', Ok tt)
    /\ puts fs vs segs (VArr l' sp') vs'
    /\ (Forall (eq (zero te)) sp' \/ value = "" /\ exists e, l = (l' ++ [e])%list).
Proof.
  intros Hp Ho F AX Hg Z ED.
  destruct (edits_slice growth te l sp _ value _ l' Z ED) as (sp' & E & Zs).
  destruct (set_found growth g fs vs segs _ _ tr value (effective flags) F Ho) with (w := VArr l' sp') (e := Ok tt) as (vs' & tr' & S1 & S2 & S3).
  - intros G. destruct (Hg G) as [HC HV]. split.
    + rewrite on_lor by apply flag_pos. destruct HC as [H|H]; apply has_on in H; try apply flag_pos; rewrite H; [reflexivity|apply orb_true_r].
    + rewrite (proj2 (emptyb_false _) HV). apply andb_false_r.
  - cbn [set_last]. rewrite AX. exact E.
  - exists vs', sp'. split; [|auto]. unfold set_model_path. rewrite tpath_is_path, steps_tpath by assumption. exact S1.
Qed.
Print Assumptions C38_edits_partial.

(* A value that is there already is refused, and the slice stays. *)
Theorem C38_unique_refuses X growth (fs : list (finfo * ty X)) vs p segs i te a e b sp tr value flags :
  no_char ":" p -> Forall tseg_ok segs -> finds false fs vs segs (TArr i te) (VArr (a ++ e :: b) sp) tr -> ar_xmp i = true ->
  last_sub segs = SNone -> has (effective flags) UNIQUE -> value <> "" ->
  Forall (fun e => exists s, shows_as te e s /\ s <> value) a -> shows_as te e value ->
  exists vs' m, set_model_path growth fs vs (tpath p segs) value flags = (vs', Err m) /\ puts fs vs segs (VArr (a ++ e :: b) sp) vs'.
Proof.
  intros Hp Ho F AX LS U V A E.
  destruct (set_found growth false fs vs segs _ _ tr value (effective flags) F Ho) with (w := VArr (a ++ e :: b)%list sp) (e := @Err unit "equal value exists") as (vs' & tr' & S1 & S2 & S3).
  - discriminate.
  - cbn [set_last]. rewrite AX, LS. unfold set_slice. apply has_on in U; [|apply flag_pos]. rewrite U, (proj2 (emptyb_false _) V).
    cbn [seg_idx andb negb Z.eqb Pos.eqb]. rewrite scan_equal by assumption. reflexivity.
  - exists vs', "equal value exists". split; [|exact S2]. unfold set_model_path. rewrite tpath_is_path, steps_tpath by assumption. exact S1.
Qed.
Print Assumptions C38_unique_refuses.

(* There is nothing to delete beyond the end: an error, and the slice stays. *)
Theorem C38_delete_beyond_the_end X growth (fs : list (finfo * ty X)) vs p segs i te l sp tr flags k :
  no_char ":" p -> Forall tseg_ok segs -> finds false fs vs segs (TArr i te) (VArr l sp) tr -> ar_xmp i = true ->
  last_sub segs = SIndex k -> has (effective flags) DELETE -> List.length l <= k ->
  exists vs' m, set_model_path growth fs vs (tpath p segs) "" flags = (vs', Err m) /\ puts fs vs segs (VArr l sp) vs'.
Proof.
  intros Hp Ho F AX LS D LE.
  destruct (set_found growth false fs vs segs _ _ tr "" (effective flags) F Ho) with (w := VArr l sp) (e := @Err unit "slice index out of bounds") as (vs' & tr' & S1 & S2 & S3).
  - discriminate.
  - cbn [set_last]. rewrite AX, LS. unfold set_slice. apply has_on in D; [|apply flag_pos].
    cbn [seg_idx emptyb negb]. rewrite !andb_false_r, D. cbn [andb].
    replace (Z.of_nat k >? -1)%Z with true by (symmetry; rewrite Z.gtb_ltb; apply Z.ltb_lt; lia).
    rewrite Nat2Z.id, (proj2 (Nat.leb_le _ _) LE). reflexivity.
  - exists vs', "slice index out of bounds". split; [|exact S2]. unfold set_model_path. rewrite tpath_is_path, steps_tpath by assumption. exact S1.
Qed.
Print Assumptions C38_delete_beyond_the_end.

(* ---- a concrete model: dc:title, dc:creator, a reference with IsZero, a list of events ---------------- *)
Definition fi (n : string) : finfo := Finfo n false false false false (Version 0 0 0) (Version 0 0 0).
Definition slist : ty unit := TArr (ArrInfo _ "Seq" true None false) TStr.
(* xmp_mm/types.go:44-61 leaves out the last field *)
Definition ref_ty : ty unit :=
  TStruct (StructInfo _ (Some (fun vs => match vs with VStr a :: _ => emptyb a | _ => true end)) false)
    [(fi "stRef:documentID", TStr); (fi "stRef:manageUI", TStr)].
Definition event_ty : ty unit := TStruct (StructInfo _ None false) [(fi "stEvt:action", TStr); (fi "stEvt:count", TInt 64)].
Definition demo : list (finfo * ty unit) :=
  [(fi "dc:title", TAlt true); (fi "dc:creator", slist); (fi "xmpMM:DerivedFrom", TPtr ref_ty);
   (fi "xmpMM:History", TArr (ArrInfo _ "Seq" true None false) event_ty)].
Definition demo_info : struct_info unit := StructInfo _ None false.
Definition demo_vals : list (gval unit) :=
  [VAlt [AltItem "Hallo" "de" true; AltItem "Hello" "en" false]; VArr [VStr "A"; VStr "B"] []; VNil;
   VArr [VStruct [VStr "saved"; VInt 3]] []].
Definition no_growth (n : nat) : nat := n.
Definition isort (l : list path_value) : list path_value := l.

Example C37_hyps_finds :
  finds true demo demo_vals [TSeg None "History" (SIndex 2); TSeg (Some "stEvt") "count" SNone] (TInt 64) (VInt 0)
    [(fi "xmpMM:History", TArr (ArrInfo _ "Seq" true None false) event_ty, VArr [VStruct [VStr "saved"; VInt 3]] []);
     (fi "stEvt:count", TInt 64, VInt 0)]
  /\ sets (TInt 64) (VInt 0) SNone "7" CREATE (VInt 7 : gval unit)
  /\ set_model_path no_growth demo demo_vals "xmpMM:History[2]/stEvt:count" "7" CREATE
     = ([VAlt [AltItem "Hallo" "de" true; AltItem "Hello" "en" false]; VArr [VStr "A"; VStr "B"] []; VNil;
         VArr [VStruct [VStr "saved"; VInt 3]; VStruct [VStr ""; VInt 0]; VStruct [VStr ""; VInt 7]] [VStruct [VStr ""; VInt 0]]], Ok tt).
Proof.
  assert (NL : forall f n, strip_prefix f <> n -> ~ local_name_of f n) by (intros f n H1 H2; apply H1, TagFacts.local_iff, H2).
  split; [|split; [|vm_compute; reflexivity]].
  - eapply finds_new with (a := [_; _; _]) (b := []) (sp := []).
    + reflexivity.
    + exists [(fi "dc:title", TAlt true); (fi "dc:creator", slist); (fi "xmpMM:DerivedFrom", TPtr ref_ty)], [].
      split; [reflexivity|]. split; [reflexivity|]. split; [reflexivity|]. split; [apply TagFacts.local_iff; reflexivity|].
      repeat constructor; apply NL; discriminate.
    + apply under_plain. reflexivity.
    + reflexivity.
    + cbn. repeat constructor.
    + constructor.
    + apply under_plain. reflexivity.
    + eapply finds_field with (a := [_]) (b := []).
      * exists [(fi "stEvt:action", TStr)], [].
        split; [reflexivity|]. split; [reflexivity|]. split; [reflexivity|]. split; [apply TagFacts.local_iff; reflexivity|].
        repeat constructor; apply NL; discriminate.
      * apply under_plain. reflexivity.
  - apply sets_single; [reflexivity|apply rd_int; vm_compute; reflexivity|right; right; reflexivity].
Qed.

Example C37_hyps_listing :
  names_ok (TStruct demo_info demo) /\ langs_ok (TStruct demo_info demo) (VStruct demo_vals)
  /\ list_model_paths isort demo_info demo demo_vals "dc" = Ok
       [PathValue "dc:title[de]" "" "Hallo" 0; PathValue "dc:title[en]" "" "Hello" 0;
        PathValue "dc:creator[0]" "" "A" 0; PathValue "dc:creator[1]" "" "B" 0;
        PathValue "xmpMM:History[0]/stEvt:action" "" "saved" 0; PathValue "xmpMM:History[0]/stEvt:count" "" "3" 0].
Proof.
  assert (FO : forall p n, p <> "" -> no_char ":" p -> no_char "/" p -> plain_name n -> no_char "]" n -> field_name_ok (p ++ ":" ++ n) n).
  { intros p n H1 H2 H3 H4 H5. split; [exact H4|split; [exact H5|]]. right. exists p. auto. }
  split; [|split; [|vm_compute; reflexivity]].
  - cbn [names_ok demo event_ty ref_ty slist snd]. repeat split.
    + exists ["title"; "creator"; "DerivedFrom"; "History"]. split.
      * constructor; [|constructor; [|constructor; [|constructor; [|constructor]]]].
        -- apply (FO "dc" "title"); repeat split; (discriminate || reflexivity).
        -- apply (FO "dc" "creator"); repeat split; (discriminate || reflexivity).
        -- apply (FO "xmpMM" "DerivedFrom"); repeat split; (discriminate || reflexivity).
        -- apply (FO "xmpMM" "History"); repeat split; (discriminate || reflexivity).
      * repeat constructor; cbn; intuition discriminate.
    + exists ["documentID"; "manageUI"]. split.
      * constructor; [|constructor; [|constructor]].
        -- apply (FO "stRef" "documentID"); repeat split; (discriminate || reflexivity).
        -- apply (FO "stRef" "manageUI"); repeat split; (discriminate || reflexivity).
      * repeat constructor; cbn; intuition discriminate.
    + exists ["action"; "count"]. split.
      * constructor; [|constructor; [|constructor]].
        -- apply (FO "stEvt" "action"); repeat split; (discriminate || reflexivity).
        -- apply (FO "stEvt" "count"); repeat split; (discriminate || reflexivity).
      * repeat constructor; cbn; intuition discriminate.
  - cbn [langs_ok demo demo_vals event_ty slist ref_ty snd]. repeat split; try reflexivity.
    + repeat constructor; try discriminate; reflexivity.
    + repeat constructor; cbn; intuition discriminate.
Qed.

(* ---- what fails ---------------------------------------------------------------------------------------- *)

(* A default without language is listed under a path that reads nothing. *)
Theorem C37_default_listed_refuted :
  let vs := [VAlt [AltItem "T" "" true]; VArr [] []; VNil; VArr [] []] in
  list_model_paths isort demo_info demo vs "dc" = Ok [PathValue "dc:title[x-default]" "" "T" 0]
  /\ get_model_path demo vs "dc:title[x-default]" = Ok "".
Proof. vm_compute. split; reflexivity. Qed.
Print Assumptions C37_default_listed_refuted.

(* With the default flags, setting an alternative that exists adds a second one for the language, or one
   without language for the default, and reading gives the old text. *)
Theorem C37_set_alternative_refuted :
  snd (set_model_path no_growth demo demo_vals "dc:title" "Ciao" DEFAULT) = Ok tt
  /\ get_model_path demo (fst (set_model_path no_growth demo demo_vals "dc:title" "Ciao" DEFAULT)) "dc:title" = Ok "Hallo"
  /\ snd (set_model_path no_growth demo demo_vals "dc:title[en]" "Ciao" DEFAULT) = Ok tt
  /\ get_model_path demo (fst (set_model_path no_growth demo demo_vals "dc:title[en]" "Ciao" DEFAULT)) "dc:title[en]" = Ok "Hello"
  /\ get_model_path demo (fst (set_model_path no_growth demo demo_vals "dc:title[en]" "Ciao" REPLACE)) "dc:title[en]" = Ok "Ciao".
Proof. vm_compute. repeat split; reflexivity. Qed.
Print Assumptions C37_set_alternative_refuted.

(* A field that IsZero of its struct leaves out is set and then not seen. *)
Theorem C37_left_out_of_is_zero_refuted :
  let p := "xmpMM:DerivedFrom/stRef:manageUI" in
  snd (set_model_path no_growth demo demo_vals p "u" DEFAULT) = Ok tt
  /\ get_model_path demo (fst (set_model_path no_growth demo demo_vals p "u" DEFAULT)) p = Ok ""
  /\ nth_error (fst (set_model_path no_growth demo demo_vals p "u" DEFAULT)) 2 = Some (VPtr (VStruct [VStr ""; VStr "u"])).
Proof. vm_compute. repeat split; reflexivity. Qed.
Print Assumptions C37_left_out_of_is_zero_refuted.

(* Adding a language panics when the only alternative is not the default. *)
Theorem C37_add_language_panics_refuted :
  snd (set_model_path no_growth demo [VAlt [AltItem "T" "en" false]; VArr [] []; VNil; VArr [] []] "dc:title[fr]" "A" DEFAULT) = Panic.
Proof. vm_compute. reflexivity. Qed.
Print Assumptions C37_add_language_panics_refuted.

(* Two fields with the same local name: the second is read and written as the first. *)
Theorem C37_same_local_name_refuted :
  let fs := [(fi "a:name", TStr); (fi "b:name", TStr)] in
  let vs := [VStr "one"; VStr "two"] : list (gval unit) in
  list_model_paths isort demo_info fs vs "a" = Ok [PathValue "a:name" "" "one" 0; PathValue "b:name" "" "two" 0]
  /\ get_model_path fs vs "b:name" = Ok "one"
  /\ set_model_path no_growth fs vs "b:name" "new" REPLACE = ([VStr "new"; VStr "two"], Ok tt).
Proof. vm_compute. repeat split; reflexivity. Qed.
Print Assumptions C37_same_local_name_refuted.

(* A failing set leaves what it allocated on the way. *)
Theorem C37_failing_set_grows_refuted :
  let r := set_model_path no_growth demo demo_vals "xmpMM:History[2]/stEvt:count" "many" CREATE in
  (exists m, snd r = Err m) /\ nth_error (fst r) 3 <> nth_error demo_vals 3.
Proof. vm_compute. split; [eexists; reflexivity|discriminate]. Qed.
Print Assumptions C37_failing_set_grows_refuted.

(* An element deleted at the end comes back when a later set goes beyond the end. *)
Fixpoint after {X} (fs : list (finfo * ty X)) (vs : list (gval X)) (ops : list (string * string)) : list (gval X) :=
  match ops with
  | [] => vs
  | (p, s) :: r => after fs (fst (set_model_path no_growth fs vs p s DEFAULT)) r
  end.
Theorem C38_deleted_element_returns_refuted :
  let vs := after demo demo_vals [("dc:creator[2]", "C"); ("dc:creator[2]", ""); ("dc:creator[3]", "D")] in
  get_model_path demo vs "dc:creator[2]" = Ok "C".
Proof. vm_compute. reflexivity. Qed.
Print Assumptions C38_deleted_element_returns_refuted.

(* Beside an element without text a new value is not added, and there is no error. *)
Definition silent : codec unit := Codec _ (fun v => match v with VStr "" => Ok None | VStr s => Ok (Some s) | _ => Ok None end)
  (fun _ s => Ok (VStr s)) (VStr "") (fun _ => false) false.
Theorem C38_silently_not_added_refuted :
  let fs := [(fi "a:list", TArr (ArrInfo _ "Bag" true None false) (TText silent))] in
  let vs := [VArr [VStr ""] []] in
  set_model_path no_growth fs vs "a:list" "new" DEFAULT = (vs, Ok tt).
Proof. vm_compute. reflexivity. Qed.
Print Assumptions C38_silently_not_added_refuted.

Example C38_hyps :
  edits (X:=unit) TStr [VStr "A"; VStr "B"] SNone "C" DEFAULT [VStr "A"; VStr "B"; VStr "C"]
  /\ edits (X:=unit) TStr [VStr "A"; VStr "B"] (SIndex 1) "C" DEFAULT [VStr "A"; VStr "C"]
  /\ edits (X:=unit) TStr [VStr "A"; VStr "B"] (SIndex 3) "C" DEFAULT [VStr "A"; VStr "B"; VStr ""; VStr "C"]
  /\ edits (X:=unit) TStr [VStr "A"; VStr "B"] (SIndex 0) "" DEFAULT [VStr "B"]
  /\ map (fun p => nth_error (fst (set_model_path no_growth demo demo_vals (fst p) (snd p) DEFAULT)) 1)
       [("dc:creator", "C"); ("dc:creator[1]", "C"); ("dc:creator[3]", "C"); ("dc:creator[0]", "")]
     = [Some (VArr [VStr "A"; VStr "B"; VStr "C"] [VStr ""; VStr ""]); Some (VArr [VStr "A"; VStr "C"] []);
        Some (VArr [VStr "A"; VStr "B"; VStr ""; VStr "C"] [VStr ""; VStr ""]); Some (VArr [VStr "B"] [])].
Proof.
  split; [|split; [|split; [|split]]].
  - apply (edit_unique TStr [VStr "A"; VStr "B"]); [discriminate|discriminate|apply rd_str|].
    repeat constructor; eexists; (split; [apply sh_str|discriminate]).
  - apply (edit_at TStr [VStr "A"] (VStr "B") []); [discriminate|left; discriminate|apply rd_str].
  - apply (edit_new TStr [VStr "A"; VStr "B"] 3); [discriminate|left; discriminate|apply rd_str|repeat constructor].
  - apply (edit_delete TStr []). discriminate.
  - vm_compute. reflexivity.
Qed.
