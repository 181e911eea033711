(* Property theorems C17, C20-C24: raw node trees *)
From Coq Require Import List Arith ZArith Bool Ascii String Lia.
From Verif Require Import GoStr GoStrFacts Names PathM SyncFlags PVList RegistryM NodeM XmlM Spec SpecFacts SpecBasic SpecNode NodeFacts NodePathFacts NodeListFacts NodeMoreFacts XmlFacts.
Local Open Scope string_scope.

Notation child_name := (fun c => x_local (n_name c)).
Notation attr_name := (fun a => x_local (a_name a)).

(* ---- C17 ---- *)
Theorem C17_children_stay_unique {M} (n : node M) xs :
  NoDup (map child_name (n_nodes n)) ->
  let n' := fold_left add_node xs n in
  NoDup (map child_name (n_nodes n')) /\
  (forall c, In c (n_nodes n') <->
     last_by child_name c xs \/ (In c (n_nodes n) /\ Forall (fun x => x_local (n_name x) <> x_local (n_name c)) xs)) /\
  n_name n' = n_name n /\ n_attrs n' = n_attrs n /\ n_model n' = n_model n /\ n_value n' = n_value n.
Proof. exact (add_nodes_spec n xs). Qed.
Print Assumptions C17_children_stay_unique.

(* one AddNode: in place of the child of that name, else at the end; nothing else moves *)
Theorem C17_add_node_in_place {M} (n x : node M) :
  (exists pre v post, n_nodes n = (pre ++ v :: post)%list /\ x_local (n_name v) = x_local (n_name x) /\
     Forall (fun w => x_local (n_name w) <> x_local (n_name x)) pre /\ n_nodes (add_node n x) = (pre ++ x :: post)%list) \/
  (Forall (fun w => x_local (n_name w) <> x_local (n_name x)) (n_nodes n) /\ n_nodes (add_node n x) = (n_nodes n ++ [x])%list).
Proof. exact (add_node_in_place n x). Qed.
Print Assumptions C17_add_node_in_place.

Theorem C17_attributes_stay_unique {M} (n : node M) xs :
  NoDup (map attr_name (n_attrs n)) ->
  let n' := fold_left add_attr xs n in
  NoDup (map attr_name (n_attrs n')) /\
  (forall k v, (exists s, In (Attr (XName s k) v) (n_attrs n')) <->
     (exists s, last_by attr_name (Attr (XName s k) v) xs) \/
     ((exists s, In (Attr (XName s k) v) (n_attrs n)) /\ Forall (fun x => x_local (a_name x) <> k) xs)) /\
  n_name n' = n_name n /\ n_nodes n' = n_nodes n /\ n_model n' = n_model n /\ n_value n' = n_value n.
Proof. exact (add_attrs_spec n xs). Qed.
Print Assumptions C17_attributes_stay_unique.

Theorem C17_add_attr_in_place {M} (n : node M) x :
  (exists pre v post, n_attrs n = (pre ++ v :: post)%list /\ x_local (a_name v) = x_local (a_name x) /\
     Forall (fun w => x_local (a_name w) <> x_local (a_name x)) pre /\
     n_attrs (add_attr n x) = (pre ++ Attr (a_name v) (a_value x) :: post)%list) \/
  (Forall (fun w => x_local (a_name w) <> x_local (a_name x)) (n_attrs n) /\ n_attrs (add_attr n x) = (n_attrs n ++ [x])%list).
Proof. exact (add_attr_in_place n x). Qed.
Print Assumptions C17_add_attr_in_place.

(* GetAttr compares names without prefix, so it is only asked to find one attribute when no other
   attribute has the same name under another prefix *)
Theorem C17_get_attr_returns_last_value {M} (n : node M) name value :
  NoDup (map attr_name (n_attrs n)) -> strip_prefix name <> "" ->
  (forall a, In a (n_attrs n) -> strip_prefix (x_local (a_name a)) = strip_prefix name -> x_local (a_name a) = name) ->
  map a_value (get_attr (add_string_attr n name value) "" (strip_prefix name)) = [value].
Proof. exact (get_attr_last n name value). Qed.
Print Assumptions C17_get_attr_returns_last_value.

Example C17_hyps :
  let a : node unit := Node (new_name "dc:a") [Attr (new_name "xml:lang") "en"] None "1" [] in
  let b : node unit := Node (new_name "dc:b") [] None "2" [] in
  let n : node unit := Node (new_name "rdf:Description") [Attr (new_name "xml:lang") "en"] None "" [a; b] in
  NoDup (map child_name (n_nodes n)) /\ NoDup (map attr_name (n_attrs n)) /\
  n_nodes (fold_left add_node [set_value a "3"; set_value b "4"; set_value a "5"] n) = [set_value a "5"; set_value b "4"] /\
  map a_value (get_attr (add_string_attr n "xml:lang" "de") "" "lang") = ["de"].
Proof.
  cbv zeta. split; [|split; [|split; vm_compute; reflexivity]];
    repeat constructor; cbn; intuition discriminate.
Qed.

(* ---- C20 ---- *)
(* [addressable] (SpecNode.v) excludes the cases of the _refuted theorems below *)
Theorem C20_set_then_get_partial {M} (can : M -> string -> bool) reg flags n ns l value n' :
  raw n -> Forall pseg_ok l -> no_char ":" ns -> addressable reg flags n l ->
  value <> "" -> on flags (Z.lor REPLACE CREATE) = true ->
  node_set_path can reg n (render ns l) value flags = (n', Ok tt) ->
  node_get_path can n' (render ns l) = Ok value.
Proof. exact (set_then_get can reg flags n ns l value n'). Qed.
Print Assumptions C20_set_then_get_partial.

(* with CREATE every well-formed path can be set *)
Theorem C20_create_succeeds {M} (can : M -> string -> bool) reg (n : node M) ns l value flags :
  no_char ":" ns -> Forall pseg_ok l -> value <> "" -> on flags CREATE = true ->
  snd (node_set_path can reg n (render ns l) value flags) = Ok tt.
Proof. exact (create_succeeds can reg n ns l value flags). Qed.
Print Assumptions C20_create_succeeds.

(* no tree and no path string makes GetPath or SetPath panic *)
Theorem C20_no_panic {M} (can : M -> string -> bool) reg (n : node M) p value flags :
  node_get_path can n p <> Panic /\ snd (node_set_path can reg n p value flags) <> Panic.
Proof. exact (node_paths_no_panic can reg n p value flags). Qed.
Print Assumptions C20_no_panic.

Definition no_models : unit -> string -> bool := fun _ _ => false.
Definition leaf (name value : string) : node unit := Node (new_name name) [] None value [].
Definition branch (name : string) (l : list (node unit)) : node unit := Node (new_name name) [] None "" l.
Definition li_lang (lang value : string) : node unit := Node (new_name "rdf:li") [Attr (new_name "xml:lang") lang] None value [].

(* the full property fails: a property stored as attribute is not changed (a copy is written to) *)
Theorem C20_attribute_refuted :
  exists (n n' : node unit) flags, raw n /\ on flags REPLACE = true /\
    node_set_path no_models empty_registry n (render "dc" [PSeg None "title" SAll]) "new" flags = (n', Ok tt) /\
    node_get_path no_models n' (render "dc" [PSeg None "title" SAll]) = Ok "old".
Proof.
  exists (Node (new_name "rdf:Description") [Attr (new_name "dc:title") "old"] None "" []).
  eexists; exists (Z.lor CREATE REPLACE). repeat split; try (vm_compute; reflexivity).
  apply rawb_ok; reflexivity.
Qed.
Print Assumptions C20_attribute_refuted.

(* ... an array property named without index gets one item, but GetPath reads the text of the property *)
Theorem C20_array_without_index_refuted :
  exists (n n' : node unit) flags, raw n /\ on flags CREATE = true /\
    node_set_path no_models empty_registry n (render "dc" [PSeg None "subject" SAll]) "new" flags = (n', Ok tt) /\
    node_get_path no_models n' (render "dc" [PSeg None "subject" SAll]) = Ok "".
Proof.
  exists (branch "rdf:Description" [branch "dc:subject" [branch "rdf:Bag" [leaf "rdf:li" "a"; leaf "rdf:li" "b"]]]).
  eexists; exists (Z.lor CREATE REPLACE). repeat split; try (vm_compute; reflexivity).
  apply rawb_ok; reflexivity.
Qed.
Print Assumptions C20_array_without_index_refuted.

(* ... a language that is missing from an existing alternative is dropped silently *)
Theorem C20_missing_language_refuted :
  exists (n n' : node unit) flags, raw n /\ on flags CREATE = true /\
    node_set_path no_models empty_registry n (render "dc" [PSeg None "title" (SLang "de")]) "neu" flags = (n', Ok tt) /\
    node_get_path no_models n' (render "dc" [PSeg None "title" (SLang "de")]) = Ok "".
Proof.
  exists (branch "rdf:Description" [branch "dc:title" [branch "rdf:Alt" [li_lang "en" "new"]]]).
  eexists; exists (Z.lor CREATE REPLACE). repeat split; try (vm_compute; reflexivity). apply rawb_ok; reflexivity.
Qed.
Print Assumptions C20_missing_language_refuted.

(* ... with UNIQUE a second item is added for an existing language, and GetPath finds the first *)
Theorem C20_unique_language_refuted :
  exists (n n' : node unit) flags, raw n /\ on flags CREATE = true /\ on flags UNIQUE = true /\
    node_set_path no_models empty_registry n (render "dc" [PSeg None "title" (SLang "en")]) "new" flags = (n', Ok tt) /\
    node_get_path no_models n' (render "dc" [PSeg None "title" (SLang "en")]) = Ok "old".
Proof.
  exists (branch "rdf:Description" [branch "dc:title" [branch "rdf:Alt" [li_lang "en" "old"]]]).
  eexists; exists (Z.lor CREATE UNIQUE). repeat split; try (vm_compute; reflexivity). apply rawb_ok; reflexivity.
Qed.
Print Assumptions C20_unique_language_refuted.

(* ... an index into a language alternative adds a second, unreachable array *)
Theorem C20_index_into_alternative_refuted :
  exists (n n' : node unit) flags, raw n /\ on flags CREATE = true /\
    node_set_path no_models empty_registry n (render "dc" [PSeg None "title" (SIdx 0)]) "new" flags = (n', Ok tt) /\
    node_get_path no_models n' (render "dc" [PSeg None "title" (SIdx 0)]) = Ok "old".
Proof.
  exists (branch "rdf:Description" [branch "dc:title" [branch "rdf:Alt" [li_lang "en" "old"]]]).
  eexists; exists (Z.lor CREATE REPLACE). repeat split; try (vm_compute; reflexivity). apply rawb_ok; reflexivity.
Qed.
Print Assumptions C20_index_into_alternative_refuted.

(* the hypotheses of the positive theorem: a nested path through an existing array item and a new one *)
Example C20_hyps :
  let n := branch "rdf:Description"
             [branch "xmpMM:History" [branch "rdf:Seq" [branch "rdf:li" [leaf "stEvt:action" "saved"]]];
              branch "dc:title" [branch "rdf:Alt" [li_lang "x-default" "T"]]] in
  let flags := Z.lor CREATE REPLACE in
  let p1 := [PSeg None "History" (SIdx 0); PSeg (Some "stEvt") "action" SAll] in
  let p2 := [PSeg None "History" (SIdx 2); PSeg (Some "stEvt") "params" SAll] in
  let p3 := [PSeg (Some "dc") "title" (SLang "x-default")] in
  raw n /\ Forall pseg_ok p1 /\ Forall pseg_ok p2 /\ Forall pseg_ok p3 /\
  addressable empty_registry flags n p1 /\ addressable empty_registry flags n p2 /\ addressable empty_registry flags n p3 /\
  (exists n', node_set_path no_models empty_registry n (render "xmpMM" p1) "created" flags = (n', Ok tt) /\
     node_get_path no_models n' (render "xmpMM" p1) = Ok "created") /\
  render "xmpMM" p1 = "xmpMM:History[0]/stEvt:action".
Proof.
  cbv zeta. assert (Hn : forall x : node unit, fresh x -> addressable empty_registry (Z.lor CREATE REPLACE) x [PSeg (Some "stEvt") "params" SAll]).
  { intros x (H1 & H2 & H3 & H4). apply addr_new.
    - intros _ a Ha. rewrite H1 in Ha. destruct Ha.
    - intros c Hc. rewrite H4 in Hc. destruct Hc.
    - intros l H. discriminate.
    - intros. apply addr_end. }
  split; [apply rawb_ok; reflexivity|].
  split; [repeat constructor; cbn; try discriminate; try lia|].
  split; [repeat constructor; cbn; try discriminate; try lia|].
  split; [repeat constructor; cbn; try discriminate; try lia|].
  split.
  { eapply addr_item.
    - intros _ a [].
    - split; [|exists []; eexists; split; [reflexivity|constructor]]; reflexivity.
    - reflexivity.
    - reflexivity.
    - left. reflexivity.
    - intros li H. cbn in H. inversion H; subst. eapply addr_prop.
      + intros _ a [].
      + split; [|exists []; eexists; split; [reflexivity|constructor]]; reflexivity.
      + reflexivity.
      + intros (x & Hx & _). discriminate.
      + apply addr_end.
    - discriminate. }
  split.
  { eapply addr_item.
    - intros _ a [].
    - split; [|exists []; eexists; split; [reflexivity|constructor]]; reflexivity.
    - reflexivity.
    - reflexivity.
    - left. reflexivity.
    - intros li H. discriminate.
    - intros _. exact Hn. }
  split.
  { eapply addr_lang with (li := li_lang "x-default" "T").
    - intros _ a [].
    - split; [|eexists [_]; eexists; split; [reflexivity|repeat constructor; discriminate]]; reflexivity.
    - reflexivity.
    - reflexivity.
    - reflexivity.
    - now left.
    - eexists. split; [exists [], []; split; [reflexivity|constructor]|]. split; reflexivity.
    - reflexivity.
    - reflexivity. }
  split; [eexists; split; vm_compute; reflexivity|reflexivity].
Qed.

(* ---- C21 ---- *)
Theorem C21_other_properties_unchanged {M} (can : M -> string -> bool) reg (n : node M) p q name1 name2 value flags :
  (forall c, In c (n_nodes n) -> n_model c = None) ->
  first_prop p name1 -> first_prop q name2 -> name1 <> name2 ->
  node_get_path can (fst (node_set_path can reg n p value flags)) q = node_get_path can n q.
Proof. exact (set_other_get can reg n p q name1 name2 value flags). Qed.
Print Assumptions C21_other_properties_unchanged.

Example C21_hyps :
  first_prop "dc:a[1]/x:b" "a" /\ first_prop "xmp:q:c" "c" /\
  (let n := branch "r" [branch "dc:a" [branch "rdf:Seq" [leaf "rdf:li" "1"]]; leaf "q:c" "2"] in
   let n' := fst (node_set_path no_models empty_registry n "dc:a[1]/x:b" "v" CREATE) in
   node_get_path no_models n "xmp:q:c" = Ok "2" /\ n' <> n).
Proof.
  split; [exists "dc", None, "[1]", ["x:b"]|split; [exists "xmp", (Some "q"), "", []|vm_compute; split; [reflexivity|discriminate]]].
  - repeat split; try discriminate. right. exists "1]". repeat split. discriminate.
  - repeat split; try discriminate. now left.
Qed.

(* ---- C22 ---- *)
(* struct_node (SpecNode.v): trees of structures, arrays of structures and language alternatives *)
Theorem C22_listed_is_read_back {M} (can : M -> string -> bool) reg sortf (n : node M) ns q v :
  sorts sortf -> raw n -> struct_node n -> no_char ":" ns ->
  has_pv (list_paths reg sortf n (render ns [])) q v -> node_get_path can n q = Ok v.
Proof. exact (listed_read can reg sortf n ns q v). Qed.
Print Assumptions C22_listed_is_read_back.

(* every listed path is the path of something stored *)
Theorem C22_listed_is_stored {M} reg sortf (n : node M) ns q v :
  sorts sortf -> struct_node n -> no_char ":" ns ->
  has_pv (list_paths reg sortf n (render ns [])) q v ->
  exists segs, q = render ns segs /\ stored ns n segs v.
Proof. exact (listed_is_stored reg sortf n ns q v). Qed.
Print Assumptions C22_listed_is_stored.

(* missing for the full property: values and attributes held directly by array items, see below *)
Theorem C22_stored_is_listed_partial {M} reg sortf (n : node M) ns segs v :
  sorts sortf -> struct_node n -> items_bare n -> no_char ":" ns ->
  stored ns n segs v -> has_pv (list_paths reg sortf n (render ns [])) (render ns segs) v.
Proof. exact (stored_is_listed reg sortf n ns segs v). Qed.
Print Assumptions C22_stored_is_listed_partial.

Theorem C22_output_is_sorted {M} reg sortf (n : node M) p : sorts sortf ->
  Sorted.StronglySorted path_le (list_paths reg sortf n p).
Proof. exact (list_paths_sorted reg sortf n p). Qed.
Print Assumptions C22_output_is_sorted.

(* simple items of a Seq or Bag are never listed *)
Theorem C22_simple_items_not_listed_refuted :
  exists (n : node unit) segs v, raw n /\ struct_node n /\ stored "dc" n segs v /\
    node_get_path no_models n (render "dc" segs) = Ok v /\
    forall sortf, sorts sortf -> list_paths empty_registry sortf n (render "dc" []) = [].
Proof.
  exists (branch "rdf:Description" [branch "dc:subject" [branch "rdf:Bag" [leaf "rdf:li" "a"]]]), [PSeg None "subject" (SIdx 0)], "a".
  split; [apply rawb_ok; reflexivity|]. split.
  - assert (Hd : forall s v, s = "rdf:li" -> struct_node (leaf s v)).
    { intros s v ->. apply Struct; try reflexivity; [cbn; intuition discriminate|repeat constructor|intros c []]. }
    assert (Hname : forall q nm, name_ok nm -> no_char "]" nm -> pfx_ok q -> stored_name (new_name (q ++ ":" ++ nm))).
    { intros q nm H1 H2 H3. split; [reflexivity|]. exists (Some q), nm. cbn [pfx_text x_local new_name]. now rewrite app_assoc. }
    assert (Hno : forall c : node unit, stored_name (n_name c) -> ~ In (x_local (n_name c)) syntax_names -> n_attrs c = [] -> True) by auto.
    apply Struct; try reflexivity; [cbn; intuition discriminate| |].
    + split; [constructor|]. split; [|repeat constructor; cbn; tauto].
      constructor; [|constructor]. split; [|cbn; intuition discriminate].
      apply (Hname "dc" "subject"); repeat split; discriminate.
    + intros c [<-|[]]. eapply Prop_array; try reflexivity.
      * cbn; intuition discriminate.
      * split; [constructor|]. split; [|repeat constructor; cbn; tauto].
        constructor; [|constructor]. split; [|cbn; intuition discriminate].
        apply (Hname "rdf" "Bag"); repeat split; discriminate.
      * cbn; tauto.
      * intros li [<-|[]]. now apply Hd.
  - split.
    + eapply (st_item "dc" _ (branch "dc:subject" [branch "rdf:Bag" [leaf "rdf:li" "a"]]) _ 0 (leaf "rdf:li" "a") []); try reflexivity.
      * now left.
      * cbn; intuition discriminate.
      * cbn; tauto.
      * apply (st_value "dc" (leaf "rdf:li" "a")). discriminate.
    + split; [vm_compute; reflexivity|]. intros sortf Hs.
      assert (Hnil : sortf [] = []). { destruct (Hs []) as [Hp _]. now apply Permutation.Permutation_sym, Permutation.Permutation_nil in Hp. }
      cbn. rewrite Hnil. cbn. rewrite Hnil. cbn. apply Hnil.
Qed.
Print Assumptions C22_simple_items_not_listed_refuted.

(* ---- C23 ---- *)
(* without indentation (the document encoder's default) every tree survives; [r] are the tokens that follow *)
Theorem C23_compact_round_trip {M} (n : node M) depth r :
  (forall x, in_tree x n -> n_model x = None /\ x_local (n_name x) <> "" /\ trim_space (n_value x) = n_value x) ->
  decode_node (encode_node (fun _ => "") depth n ++ r)%list = Some (n, r).
Proof. exact (round_trip_compact n depth r). Qed.
Print Assumptions C23_compact_round_trip.

(* with any indentation (sep d is white space) trees survive in which no node has both text and children *)
Theorem C23_indented_round_trip_partial {M} (sep : nat -> string) (n : node M) depth r :
  (forall d, trim_space (sep d) = "") ->
  (forall x, in_tree x n -> n_model x = None /\ x_local (n_name x) <> "" /\ trim_space (n_value x) = n_value x /\
     (n_value x = "" \/ n_nodes x = [])) ->
  decode_node (encode_node sep depth n ++ r)%list = Some (n, r).
Proof. exact (round_trip_indented sep n depth r). Qed.
Print Assumptions C23_indented_round_trip_partial.

(* the white space before the end tag replaces the text *)
Theorem C23_indented_text_lost_refuted :
  exists (sep : nat -> string) (n n' : node unit),
    (forall d, trim_space (sep d) = "") /\
    (forall x, in_tree x n -> n_model x = None /\ x_local (n_name x) <> "" /\ trim_space (n_value x) = n_value x) /\
    decode_node (encode_node sep 0 n) = Some (n', []) /\ n_value n = "text" /\ n_value n' = "".
Proof.
  exists (fun _ => String (ascii_of_nat 10) ""), (Node (new_name "a") [] None "text" [leaf "b" "c"]).
  eexists. split; [reflexivity|]. split.
  - intros x Hx. inversion Hx; subst; [repeat split; discriminate|]. cbn in H. destruct H as [<-|[]].
    inversion H0; subst; [repeat split; discriminate|]. destruct H.
  - repeat split; vm_compute; reflexivity.
Qed.
Print Assumptions C23_indented_text_lost_refuted.

Example C23_hyps :
  let n := Node (new_name "a") [Attr (new_name "k") "v"] None "" [leaf "b" "c d"; branch "e" [leaf "f" ""]] in
  (forall x : node unit, in_tree x n -> n_model x = None /\ x_local (n_name x) <> "" /\ trim_space (n_value x) = n_value x /\
     (n_value x = "" \/ n_nodes x = [])) /\
  decode_node (encode_node (fun d => "  ") 0 n) = Some (n, []).
Proof.
  cbv zeta. split; [|vm_compute; reflexivity]. intros x Hx.
  inversion Hx; subst; [repeat split; auto; discriminate|]. cbn in H. destruct H as [<-|[<-|[]]].
  - inversion H0; subst; [repeat split; auto; discriminate|]. destruct H.
  - inversion H0; subst; [repeat split; auto; discriminate|]. cbn in H. destruct H as [<-|[]].
    inversion H1; subst; [repeat split; auto; discriminate|]. destruct H.
Qed.

(* ---- C24 ---- *)
Theorem C24_is_zero {M} (n : node M) : is_zero n = true <->
  forall x, in_tree x n -> n_model x = None /\ n_value x = "" /\ forall a, In a (n_attrs x) -> a_value a = "".
Proof. exact (is_zero_iff n). Qed.
Print Assumptions C24_is_zero.

Example C24_hyps :
  is_zero (branch "a" [branch "b" [Node (new_name "c") [Attr (new_name "k") ""] None "" []]] : node unit) = true /\
  is_zero (branch "a" [branch "b" [Node (new_name "c") [Attr (new_name "k") ""; Attr (new_name "l") "x"] None "" []]] : node unit) = false.
Proof. split; reflexivity. Qed.
