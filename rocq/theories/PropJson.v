(* C56, C57, C71: the JSON form of trees, and reading without crashing *)
From Coq Require Import List Arith ZArith Bool Ascii String Lia Permutation.
From Verif Require Import GoStr GoStrFacts GoMap Names Semver SpecTag RegistryM RegistryFacts NodeM DocM ArrayM TypeM DecodeM
  JsonM SpecJson JsonFacts SpecPanic PanicFacts PropDecode.
Import ListNotations.
Local Open Scope string_scope.

Definition reg0 : registry := registry_of h0.

(* ---- C56 ---- *)
(* A tree that holds the value t is written as JSON; reading that, with the members of its objects in any order,
   as a property of any node p adds a child of the given name that holds t again. For all trees whose value
   satisfies json_ok (SpecJson.v). Whether a list is a Bag or a Seq, and whether a member is an attribute or an
   element, is not kept; the full statement, the same tree, fails (below). *)
Theorem C56_export_import_partial : forall M reg (n : node M) t j' name (p : node M),
  reg_get_prefix reg ns_rdf_uri = "rdf" -> carries reg n t -> json_ok t -> member_name name ->
  reorder (node_to_json reg n) j' ->
  exists n', json_to_node name j' p = Ok (append_node p n') /\ n_name n' = new_name name /\ carries reg n' t.
Proof.
  intros M reg n t j' name p Hr Hc Hj Hn Ho. destruct (written_good reg Hr n t Hc Hj j' Ho) as [H _]. exact (H name p Hn).
Qed.
Print Assumptions C56_export_import_partial.

(* The same for the tree of a model, which is read member by member (json.go:253-263). *)
Theorem C56_model_export_import_partial : forall X reg (n : node (tmodel X)) fs j' name,
  reg_get_prefix reg ns_rdf_uri = "rdf" -> carries reg n (PRecord fs) -> json_ok (PRecord fs) ->
  reorder (node_to_json reg n) j' ->
  exists n' : node (tmodel X), model_nodes [(name, j')] = Ok [n'] /\ n_name n' = new_name name /\ carries reg n' (PRecord fs).
Proof. intros X reg n fs j' name. exact (model_back reg n fs j' name). Qed.
Print Assumptions C56_model_export_import_partial.

Definition on (s : string) (v : string) : node unit := Node (new_name s) [] None v [].
Definition rec_node (s : string) (l : list (node unit)) : node unit := Node (new_name s) [] None "" l.
Definition arr_node (s typ : string) (l : list (node unit)) : node unit := Node (new_name s) [] None "" [Node (rdf_name typ) [] None "" l].
Definition li (l : list (node unit)) : node unit := Node (rdf_name "li") [] None "" l.
Definition lang_li (g s : string) : node unit := json_lang_li g s.

(* The full property fails. Trees that hold different values have the same JSON: a default text without a
   language, next to other languages, is gone, *)
Theorem C56_default_text_lost_refuted :
  let n s := arr_node "dc:title" "Alt" [lang_li "x-default" s; lang_li "de" "Titel"] in
  node_to_json reg0 (n "Title") = node_to_json reg0 (n "Other").
Proof. vm_compute. reflexivity. Qed.
Print Assumptions C56_default_text_lost_refuted.
(* a node with a text loses its attributes, *)
Theorem C56_qualifier_lost_refuted :
  let n s := Node (new_name "dc:source") [Attr (new_name "xml:lang") s] (None : option unit) "text" [] in
  node_to_json reg0 (n "de") = node_to_json reg0 (n "en").
Proof. vm_compute. reflexivity. Qed.
Print Assumptions C56_qualifier_lost_refuted.
(* and of children with the same name only the last is written. *)
Theorem C56_same_name_lost_refuted :
  let n s := rec_node "a:rec" [on "a:x" s; on "a:x" "2"] in
  node_to_json reg0 (n "1") = node_to_json reg0 (n "3").
Proof. vm_compute. reflexivity. Qed.
Print Assumptions C56_same_name_lost_refuted.

(* The JSON is complete, but is read as something else: an only item that is the default comes back twice, *)
Theorem C56_single_default_doubled_refuted :
  let n := arr_node "dc:title" "Alt" [lang_li "x-default" "Title"] in
  json_to_node "dc:title" (node_to_json reg0 n) (on "dc:dc" "")
    = Ok (append_node (on "dc:dc" "") (arr_node "dc:title" "Alt" [lang_li "x-default" "Title"; lang_li "x-default" "Title"])).
Proof. vm_compute. reflexivity. Qed.
Print Assumptions C56_single_default_doubled_refuted.
(* a list in a list is dropped, *)
Theorem C56_list_in_list_lost_refuted :
  let n := rec_node "a:rec" [arr_node "a:m" "Seq" [Node (rdf_name "li") [] None "" [Node (rdf_name "Seq") [] None "" [Node (rdf_name "li") [] None "1" []]]]] in
  json_to_node "a:rec" (node_to_json reg0 n) (on "a:a" "")
    = Ok (append_node (on "a:a" "") (rec_node "a:rec" [arr_node "a:m" "Seq" [li []]])).
Proof. vm_compute. reflexivity. Qed.
Print Assumptions C56_list_in_list_lost_refuted.
(* a member rdf:value replaces the members before it: the node has a text and would lose them when written
   again, *)
Theorem C56_rdf_value_refuted :
  let n := rec_node "a:rec" [on "a:x" "1"; on "rdf:value" "2"] in
  exists n', json_to_node "a:rec" (node_to_json reg0 n) (on "a:a" "") = Ok (append_node (on "a:a" "") n')
    /\ node_to_json reg0 n' = JStr "2".
Proof. cbv zeta. eexists. split; [vm_compute; reflexivity|]. vm_compute. reflexivity. Qed.
Print Assumptions C56_rdf_value_refuted.
(* a Bag becomes a Seq and an empty Alt a Seq, *)
Theorem C56_array_type_refuted :
  json_to_node "a:x" (node_to_json reg0 (arr_node "a:x" "Bag" [lang_li "de" "1"])) (on "a:a" "")
    = Ok (append_node (on "a:a" "") (arr_node "a:x" "Seq" [Node (rdf_name "li") [] None "1" []]))
  /\ json_to_node "a:x" (node_to_json reg0 (arr_node "a:x" "Alt" [])) (on "a:a" "")
    = Ok (append_node (on "a:a" "") (arr_node "a:x" "Seq" [])).
Proof. split; vm_compute; reflexivity. Qed.
Print Assumptions C56_array_type_refuted.
(* and a record with the members value, lang and isDefault is taken for an alternative. *)
Theorem C56_record_like_item_refuted :
  let n := rec_node "a:rec" [on "value" "1"; on "lang" "de"; on "isDefault" "x"] in
  exists n', json_to_node "a:rec" (node_to_json reg0 n) (on "a:a" "") = Ok (append_node (on "a:a" "") n')
    /\ node_to_json reg0 n' = JStr "1".
Proof. cbv zeta. eexists. split; [vm_compute; reflexivity|]. vm_compute. reflexivity. Qed.
Print Assumptions C56_record_like_item_refuted.

(* a record with a text, an attribute, a nested record, a list of records and texts by language *)
Definition tree0 : node unit :=
  Node (new_name "a:rec") [Attr (new_name "a:at") "v"; Attr (new_name "rdf:parseType") "Resource"] None ""
    [on "a:x" "1"; rec_node "a:in" [on "a:y" "2"];
     arr_node "a:list" "Bag" [li [on "a:z" "3"]; li [on "a:z" "4"]];
     arr_node "a:title" "Alt" [lang_li "de" "Titel"; lang_li "x-default" "Title"; lang_li "en" "Title"]].
Definition pval0 : pval :=
  PRecord [("a:at", PLeaf "v"); ("a:x", PLeaf "1"); ("a:in", PRecord [("a:y", PLeaf "2")]);
           ("a:list", PList [PRecord [("a:z", PLeaf "3")]; PRecord [("a:z", PLeaf "4")]]);
           ("a:title", PAlts [("de", "Titel"); ("x-default", "Title"); ("en", "Title")])].
Example C56_hyps : reg_get_prefix reg0 ns_rdf_uri = "rdf" /\ carries reg0 tree0 pval0 /\ json_ok pval0 /\
  member_name "a:rec" /\ reorder (node_to_json reg0 tree0) (node_to_json reg0 tree0).
Proof.
  assert (MN : forall s, s <> "" -> substring 0 2 s = "a:" -> member_name s).
  { intros s H1 H2. split; [exact H1|]. intros H. repeat (destruct H as [<-|H]; [discriminate|]). destruct H. }
  split; [reflexivity|]. split; [|split; [|split]].
  - unfold tree0, pval0. eapply (ca_record _ _ _ _ _ [("a:x", PLeaf "1"); ("a:in", PRecord [("a:y", PLeaf "2")]);
           ("a:list", PList [PRecord [("a:z", PLeaf "3")]; PRecord [("a:z", PLeaf "4")]]);
           ("a:title", PAlts [("de", "Titel"); ("x-default", "Title"); ("en", "Title")])]); [|apply Permutation_refl].
    assert (R1 : forall x s v, carries reg0 (Node x [] None "" [on s v]) (PRecord [(s, PLeaf v)])).
    { intros x s v. eapply ca_record; [|apply Permutation_refl]. constructor; [|constructor]. split; [reflexivity|]. constructor. constructor. }
    constructor; [split; [reflexivity|constructor; constructor]|].
    constructor; [split; [reflexivity|apply R1]|].
    constructor; [split; [reflexivity|]|].
    { eapply ca_list; [constructor|constructor|left; vm_compute; reflexivity|].
      constructor; [split; [vm_compute; reflexivity|apply R1]|]. constructor; [split; [vm_compute; reflexivity|apply R1]|]. constructor. }
    constructor; [split; [reflexivity|]|constructor].
    eapply ca_alts; [constructor|constructor|vm_compute; reflexivity|].
    assert (L : forall g s, named reg0 (lang_li g s) "rdf:li" /\ n_value (lang_li g s) = snd (g, s) /\ n_nodes (lang_li g s) = [] /\
       (exists b, n_attrs (lang_li g s) = [b] /\ local_name_of (x_local (a_name b)) "lang" /\ a_value b = fst (g, s))).
    { intros g s. apply lang_li_carries. reflexivity. }
    repeat (constructor; [apply L|]). constructor.
  - unfold pval0. cbn [json_ok map fst snd].
    split; [repeat constructor; cbn; intuition discriminate|]. split; [repeat constructor; try discriminate; cbn; intuition discriminate|].
    split; [cbn; intuition discriminate|]. split; [exact I|]. split; [exact I|].
    assert (R : forall s, json_ok (PRecord [("a:z", PLeaf s)])).
    { intros s. cbn. split; [repeat constructor; cbn; intuition|]. split; [repeat constructor; try discriminate; cbn; intuition discriminate|]. intuition discriminate. }
    split; [|split; [|split; [|exact I]]].
    + cbn. split; [repeat constructor; cbn; intuition|]. split; [repeat constructor; try discriminate; cbn; intuition discriminate|]. intuition discriminate.
    + split; [split; [exact I|exact (R "3")]|]. split; [split; [exact I|exact (R "4")]|exact I].
    + split; [discriminate|]. split; [repeat constructor; discriminate|]. right.
      exists [("de", "Titel")], "Title", "en", []. repeat split; try discriminate. repeat constructor; discriminate.
  - apply MN; [discriminate|reflexivity].
  - assert (RR : forall m, Forall2 (fun a b : string * json => fst a = fst b /\ reorder (snd a) (snd b)) m m -> reorder (JObj m) (JObj m)).
    { intros m H. eapply ro_obj; [apply Permutation_refl|exact H]. }
    vm_compute (node_to_json reg0 tree0). repeat (first [apply RR | constructor]).
Qed.

(* ---- C57 ---- *)
(* Converting a JSON value to nodes never reports an error, and crashes exactly for the values described by
   crashes (SpecPanic.v). *)
Theorem C57_conversion_crashes_iff : forall M j name (n : node M),
  (json_to_node name j n = Panic <-> crashes (negb (emptyb name)) j) /\ (forall s, json_to_node name j n <> Err s).
Proof.
  intros M j name n. assert (S := json_to_node_settled j name n). destruct (json_to_node name j n) as [n'|e|]; cbn in S.
  - split; [split; [discriminate|intros H; contradiction]|discriminate].
  - contradiction.
  - split; [tauto|discriminate].
Qed.
Print Assumptions C57_conversion_crashes_iff.

(* Reading any JSON document without such a value returns a document or an error, for all programs whose model
   types have no list of numbers, booleans or plain lists, whose text readers do not crash, and whose models do
   not crash when they synchronise (calm_kinds, SpecPanic.v). *)
Theorem C57_reading_never_crashes_partial : forall X ver reg (kinds : nat -> string -> option (mkind X)) sync_from x j,
  calm_kinds kinds -> (forall d, snd (sync_from d) <> Panic) -> json_safe (j_models j) ->
  snd (from_json ver reg kinds sync_from x j) <> Panic.
Proof. intros X. exact (@from_json_never_panics X). Qed.
Print Assumptions C57_reading_never_crashes_partial.

(* The full property fails: a list that starts with an alternative and goes on with a text crashes, *)
Definition jitem : json := JObj [("value", JStr "a"); ("lang", JStr "de"); ("isDefault", JBool false)].
Definition jd (v : json) : jdoc := JDoc "" "" [("dc", u_dc)] [("dc", JObj [("dc:title", v)])].
Theorem C57_mixed_list_refuted :
  snd (from_json v0 reg0 kinds0 no_sync empty_doc (jd (JArr [jitem; JStr "b"]))) = Panic.
Proof. vm_compute. reflexivity. Qed.
Print Assumptions C57_mixed_list_refuted.
(* and so does a member of a wrong type. *)
Theorem C57_wrong_member_refuted :
  snd (from_json v0 reg0 kinds0 no_sync empty_doc
         (jd (JArr [JObj [("value", JNum "1"); ("lang", JStr "de"); ("isDefault", JBool false)]]))) = Panic.
Proof. vm_compute. reflexivity. Qed.
Print Assumptions C57_wrong_member_refuted.
(* A list of numbers with a text crashes when it is stored in a field that is a list of numbers. *)
Definition k_num : mkind unit := MKind [ns_dc] (fun s => s =? "dc")
  [(Finfo "dc:nums" false false false false v0 v0, TArr (ArrInfo _ "Seq" true None false) (TInt 64))] [VArr [] []].
Theorem C57_number_list_refuted :
  snd (from_json v0 reg0 (fun _ _ => Some k_num) no_sync empty_doc
         (JDoc "" "" [("dc", u_dc)] [("dc", JObj [("dc:nums", JArr [JStr "x"])])])) = Panic.
Proof. vm_compute. reflexivity. Qed.
Print Assumptions C57_number_list_refuted.

(* a model with a text type, a number, a list of texts, a language alternative and a list of records *)
Definition upper_codec : codec unit :=
  Codec _ (fun v => match v with VStr s => Ok (Some s) | _ => Err "type" end)
          (fun _ s => if s =? "bad" then Err "bad" else Ok (VStr s)) (VStr "") (fun v => match v with VStr s => emptyb s | _ => false end) true.
Definition fi (s : string) : finfo := Finfo s false false false false v0 v0.
Definition seq_info : arr_info unit := ArrInfo _ "Seq" true None false.
Definition k_rich : mkind unit := MKind [ns_dc] (fun s => s =? "dc")
  [(fi "dc:type", TText upper_codec); (fi "dc:count", TInt 64); (fi "dc:tags", TArr seq_info TStr);
   (fi "dc:title", TAlt true); (fi "dc:parts", TArr seq_info (TPtr (TStruct (StructInfo _ None false) [(fi "dc:part", TInt 64); (fi "dc:on", TBool)])))]
  [VStr ""; VInt 0; VArr [] []; VAlt []; VArr [] []].
Definition kinds_rich (f : nat) (s : string) : option (mkind unit) := if s =? "dc" then Some k_rich else None.
Lemma calm_rich : calm_kinds kinds_rich.
Proof.
  intros f s k. unfold kinds_rich. destruct (s =? "dc"); [|discriminate]. intros [= <-]. split.
  - repeat apply Forall_cons; try apply Forall_nil; cbn; try tauto.
    intros v t. cbn. destruct (t =? "bad"); discriminate.
  - repeat apply Forall2_cons; try apply Forall2_nil; cbn; eauto.
Qed.
Definition jdoc0 : jdoc := JDoc "me" "tool" [("dc", u_dc)]
  [("dc", JObj [("dc:type", JStr "t"); ("dc:count", JNum "12"); ("dc:tags", JArr [JStr "a"; JNum "1"; JBool true]);
                ("dc:title", JArr [jitem]);
                ("dc:parts", JArr [JObj [("dc:part", JStr "1"); ("dc:on", JBool true)]; JNull; JArr [jitem; JNull]])])].
Example C57_hyps : calm_kinds kinds_rich /\ (forall d : doc (tmodel unit), snd (no_sync d) <> Panic) /\ json_safe (j_models jdoc0)
  /\ exists r, from_json v0 reg0 kinds_rich no_sync empty_doc jdoc0 = (r, Ok tt).
Proof.
  split; [exact calm_rich|]. split; [discriminate|]. split; [|eexists; vm_compute; reflexivity].
  intros name m k v H1 H2.
  assert (E : forall b, ~ (json_to_node (M:=unit) (if b : bool then "a" else "") v (on "" "") = Panic) -> ~ crashes b v).
  { intros b H C. apply H. apply (proj1 (C57_conversion_crashes_iff unit v _ _)). destruct b; exact C. }
  cbn in H1. destruct H1 as [[= <- <-]|[]]. split; intros _; apply E;
  repeat (destruct H2 as [[= <- <-]|H2]; [vm_compute; discriminate|]); destruct H2.
Qed.

(* ---- C71 ---- *)
(* Decoding any tree of elements, well formed or not, returns a document or an error, for the same programs. *)
Theorem C71_decoding_never_crashes_partial : forall X ver reg (kinds : nat -> string -> option (mkind X)) sync_from x root,
  calm_kinds kinds -> (forall d, snd (sync_from d) <> Panic) ->
  snd (decode ver reg kinds sync_from x root) <> Panic.
Proof. intros X ver reg kinds sync_from x root Hk Hs. exact (decode_never_panics ver reg kinds Hk sync_from Hs x root). Qed.
Print Assumptions C71_decoding_never_crashes_partial.

(* The full property fails: an item of a list of numbers that is none crashes. *)
Theorem C71_number_list_refuted :
  snd (decode v0 reg0 (fun _ _ => Some k_num) no_sync empty_doc
    (in_rdf [] [descr [decl "dc" u_dc]
       [nd (XName u_dc "nums") [] "" [nd (XName ns_rdf_uri "Seq") [] "" [nd (XName ns_rdf_uri "li") [] "x" []]]]])) = Panic.
Proof. vm_compute. reflexivity. Qed.
Print Assumptions C71_number_list_refuted.

Example C71_hyps : calm_kinds kinds_rich /\ (forall d : doc (tmodel unit), snd (no_sync d) <> Panic) /\
  (exists r, decode v0 reg0 kinds_rich no_sync empty_doc
    (in_rdf [] [descr [decl "dc" u_dc; Attr (XName u_dc "count") "7"]
       [nd (XName u_dc "tags") [] "" [nd (XName ns_rdf_uri "Seq") [] "" [nd (XName ns_rdf_uri "li") [] "x" []]]]]) = (r, Ok tt)) /\
  (exists s, snd (decode v0 reg0 kinds_rich no_sync empty_doc
    (in_rdf [] [descr [decl "dc" u_dc; Attr (XName u_dc "count") "seven"] []])) = Err s).
Proof. split; [exact calm_rich|]. split; [discriminate|]. split; eexists; vm_compute; reflexivity. Qed.
