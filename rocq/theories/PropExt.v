(* C103-C105: properties no model has a field for, in the types that are made to keep them *)
From Coq Require Import List Arith ZArith Bool Ascii String Lia.
From Verif Require Import GoStr GoStrFacts GoMap Names Semver RegistryM NodeM DocM DocFacts ArrayM TypeM DecodeM ModelTypes ExtM SpecExt ExtFacts.
Import ListNotations.
Local Open Scope string_scope.

Section P.
Context {X : Type}.
Notation node := (node (tmodel X)).
Variable ver : version.
Variable reg : registry.
Variable kinds : nat -> string -> option (mkind X).

(* ---- C103: named extensions written and read again ---- *)
Theorem C103_trip_partial : forall env i e (l : list node) nm,
  Forall named_ext l -> Forall (fun v => (forall x, In x (all_names (marked v)) -> comes_back reg env i e x) /\ simple_tree (marked v)) l ->
  NoDup (map (fun v => x_local (n_name v)) l) ->
  named_unmarshal reg i e [] (xml_read env (named_marshal l (new_node nm))) = map marked l.
Proof. intros. now apply named_trip. Qed.
(* what is read is added after what the list had, one extension for each child, in their order *)
Theorem C103_read : forall i e (x : list node) n, exists r, named_unmarshal reg i e x n = (x ++ r)%list
  /\ Forall2 (fun (c v : node) => n_name v = XName "" (x_local (translate reg i e (n_name c))) /\ n_value v = "" /\ n_model v = None
                /\ n_attrs v = n_attrs (translate_tree reg i e c) /\ n_nodes v = n_nodes (translate_tree reg i e c)) (n_nodes n) r.
Proof.
  intros i e x n. exists (map (named_of reg i e) (n_nodes n)). split; [reflexivity|]. induction (n_nodes n) as [|c l IH]; constructor; [|exact IH].
  destruct c; repeat split.
Qed.
(* The attributes of an extension differ after one trip, and the element written for it then has two attributes of one name,
   which no XML text may have. This is so for every extension. *)
Theorem C103_marked_twice_refuted : forall env i e (v : node), named_ext v ->
  (forall x, In x (all_names (marked v)) -> comes_back reg env i e x) -> simple_tree (marked v) ->
  let w := named_of reg i e (xml_read env (named_elem v)) in
  n_attrs w <> n_attrs v /\ ~ NoDup (map a_name (n_attrs (named_elem w))).
Proof.
  intros env i e v H B T w. unfold w. rewrite (named_of_back reg env i e v H (conj B T)). split.
  - cbn [marked n_attrs]. intros E. apply (f_equal (@List.length attr)) in E. cbn in E. lia.
  - cbn. intros D. inversion D as [|? ? N _]. apply N. left. reflexivity.
Qed.
(* the text of an extension is not written, and that of an element not read *)
Theorem C103_text_refuted : forall x a m t t' (k : list node) i e,
  named_elem (Node x a m t k) = named_elem (Node x a m t' k) /\ named_of reg i e (Node x a m t k) = named_of reg i e (Node x a m t' k).
Proof. intros. split; reflexivity. Qed.
(* of two extensions with the same name only the second is written *)
Theorem C103_same_name_refuted : forall (v w : node) nm, x_local (n_name v) = x_local (n_name w) ->
  n_nodes (named_marshal [v; w] (new_node nm)) = [named_elem w].
Proof.
  intros v w nm E. unfold named_marshal, add_node, new_node. cbn [fold_left n_nodes set_nodes nl_add]. unfold named_elem at 1 2. cbn [new_node add_attr set_attrs set_nodes n_name x_local new_name].
  rewrite E, String.eqb_refl. reflexivity.
Qed.

(* ---- C104: iXML keeps the properties of its namespace that it has no field for ---- *)
Variable cdc : string -> codec X.
Notation ixml_fields := (fields (fs_ixml_IXML cdc)).
Lemma find_any (fs : list (finfo * ty X)) name : forall f t k any, Forall (fun p => active ver (fst p) = true /\ f_name (fst p) <> name) (fs ++ [(f, t)]) -> f_any f = true ->
  find_field_from ver k any (fs ++ [(f, t)]) name = Some (k + List.length fs).
Proof.
  induction fs as [|[g u] fs IH]; intros f t k any F A; cbn [List.app find_field_from]; inversion F as [|? ? [H1 H2] F']; subst; cbn [fst] in *; rewrite H1; cbn [negb].
  - apply eqb_neq in H2. rewrite H2, A. cbn. f_equal. lia.
  - apply eqb_neq in H2. rewrite H2, IH by assumption. cbn. f_equal. lia.
Qed.
(* every such property is read into the field Extension *)
Theorem C104_goes_to_extension : forall name, version_is_zero ver = true -> ~ In name (map (fun p => f_name (fst p)) ixml_fields) ->
  exists j, find_field ver ixml_fields name = Some j /\ nth_error (map (fun p => f_name (fst p)) ixml_fields) j = Some "iXML:extension".
Proof.
  intros name V N. exists 17. split; [|vm_compute; reflexivity].
  assert (E : ixml_fields = (firstn 17 ixml_fields ++ skipn 17 ixml_fields)%list) by (symmetry; apply firstn_skipn).
  assert (S : skipn 17 ixml_fields = [nth 17 ixml_fields (Finfo "" false false false false (Version 0 0 0) (Version 0 0 0), TStr)]) by (vm_compute; reflexivity).
  unfold find_field. rewrite E, S. destruct (nth 17 ixml_fields _) as [f t] eqn:G. rewrite find_any.
  - vm_compute. reflexivity.
  - rewrite <- S, <- E. rewrite Forall_forall. intros p P. split; [unfold active, version_between; now rewrite V|].
    intros Q. apply N. rewrite <- Q. now apply in_map with (f := fun p => f_name (fst p)).
  - change f with (fst (f, t)). rewrite <- G. vm_compute. reflexivity.
Qed.
(* the name of the property is not kept: reading does not depend on it *)
Theorem C104_name_refuted : forall i e (x : list node) src nm, named_unmarshal reg i e x (set_name src nm) = named_unmarshal reg i e x src.
Proof. intros i e x [? ? ? ? ?] nm. reflexivity. Qed.
(* nor are its text and its attributes, so nothing is left of a simple property, for every name, value and list *)
Theorem C104_simple_refuted : forall i e (x : list node) nm a m t, named_unmarshal reg i e x (Node nm a m t []) = x.
Proof. intros. unfold named_unmarshal. cbn. apply List.app_nil_r. Qed.
(* its child nodes are, with their attributes and nodes *)
Theorem C104_children_partial : forall i e (x : list node) n c, In c (n_nodes n) -> exists v, In v (named_unmarshal reg i e x n)
  /\ x_local (n_name v) = x_local (translate reg i e (n_name c)) /\ n_attrs v = n_attrs (translate_tree reg i e c) /\ n_nodes v = n_nodes (translate_tree reg i e c).
Proof.
  intros i e x n c C. exists (named_of reg i e c). split; [apply in_or_app; right; now apply in_map|]. destruct c; repeat split.
Qed.

(* ---- C105: pantry items written and read again ---- *)
Definition item (bs : list (string * list node)) : node := Node empty_name [] None "" (item_nodes bs).
Theorem C105_trip_partial : forall env i e bss, Forall (raw_item reg env i e) bss ->
  map_get env "rdf" = Some ns_rdf_uri -> short reg ns_rdf_uri "Description" = "rdf:Description" ->
  exists lis, pantry_items ver (map item bss) = Ok lis
    /\ Forall2 (fun bs li => ext_unmarshal ver reg kinds i e [] (xml_read env li) = Ok (item_nodes bs)) bss lis.
Proof.
  intros env i e bss F M S. induction F as [|bs bss R F IH]; [exists []; split; [reflexivity|constructor]|]. destruct IH as (lis & E & G).
  assert (W : exists li, pantry_items ver [item bs] = Ok [li]).
  { unfold item. cbn [pantry_items n_name n_nodes]. unfold item_nodes. rewrite (ext_marshal_raw ver bs); [cbn [bind]; eauto|].
    destruct R as [_ R]. eapply Forall_impl; [|exact R]. cbn. intros b (_ & _ & _ & RP). eapply Forall_impl; [|exact RP]. intros c (A & _). destruct c. cbn in A |- *. tauto. }
  destruct W as (li & W). exists (li :: lis). split.
  - cbn [map pantry_items] in W |- *. destruct (ext_marshal ver (n_name (item bs)) (n_nodes (item bs)) (new_node rdf_description)) as [el|s|]; cbn [bind] in W |- *; try discriminate.
    rewrite E. cbn [bind]. injection W as <-. reflexivity.
  - constructor; [|exact G]. exact (pantry_item_trip ver reg kinds env i e bs li R M S W).
Qed.
(* The items are written into one bag: rdf:Bag with an rdf:li for each item, each with an rdf:Description; without items
   nothing is written *)
Theorem C105_bag : forall (x : list node) n n', pantry_marshal ver x n = Ok n' ->
  (x = [] /\ n' = n) \/ (x <> [] /\ exists lis, n' = set_nodes n (n_nodes n ++ [Node (XName "" "rdf:Bag") [] None "" lis])
    /\ Forall2 (fun (v li : node) => exists elem, li = Node (XName "" "rdf:li") [] None "" [elem]
         /\ ext_marshal ver (n_name v) (n_nodes v) (Node (XName "" "rdf:Description") [] None "" []) = Ok elem) x lis).
Proof.
  intros x n n' H. destruct x as [|v0 x0]; [left; cbn in H; injection H as <-; auto|]. right. split; [discriminate|]. unfold pantry_marshal in H.
  destruct (pantry_items ver (v0 :: x0)) as [lis|s|] eqn:E; cbn [bind] in H; try discriminate. injection H as <-. exists lis. split; [reflexivity|].
  revert lis E. generalize (v0 :: x0). clear. induction l as [|v l IH]; intros lis E; cbn [pantry_items] in E; [injection E as <-; constructor|].
  destruct (ext_marshal ver (n_name v) (n_nodes v) (new_node rdf_description)) as [el|s|] eqn:M; cbn [bind] in E; try discriminate.
  destruct (pantry_items ver l) as [ls|s|] eqn:P; cbn [bind] in E; try discriminate. injection E as <-. constructor; [|now apply IH].
  exists el. split; [reflexivity|exact M].
Qed.
(* properties of namespaces the packet does not declare are kept as they are *)
Theorem C105_undeclared_kept : forall i e l x m t kl, Forall (fun c => full_name reg c <> "rdf:Description" /\ dec_find_ns i e (n_name c) = None) kl ->
  ext_unmarshal ver reg kinds i e l (Node x [] m t kl) = Ok (l ++ kl)%list.
Proof.
  intros i e l x m t kl F. cbn [ext_unmarshal ext_attrs bind]. revert l. induction F as [|c kl [D N] F IH]; intros l; [now rewrite List.app_nil_r|].
  apply eqb_neq in D. rewrite D. unfold decode_node, lookup_node. rewrite N. cbn [bind]. rewrite IH. now rewrite <- List.app_assoc.
Qed.
Theorem C105_add_pantry : forall pantry (l : list node), exists w, add_pantry pantry l = (pantry ++ [w])%list /\ n_nodes w = l /\ n_name w = XName "" "rdf:Description".
Proof. intros. eexists. split; [reflexivity|]. split; reflexivity. Qed.
(* Properties that were read from attributes, and for which no model has a field, are not written: what is written does not
   depend on the attributes of the nodes of an item. *)
Theorem C105_attributes_refuted : forall (l l' : list node) n, Forall2 (fun v w => n_name v = n_name w /\ n_model v = n_model w /\ n_value v = n_value w /\ n_nodes v = n_nodes w) l l' ->
  ext_marshal ver empty_name l n = ext_marshal ver empty_name l' n.
Proof.
  intros l l' n F. rewrite (ext_marshal_attrs ver l), (ext_marshal_attrs ver l'). f_equal. induction F as [|[? ? ? ? ?] [? ? ? ? ?] ? ? H F IH]; [reflexivity|]. cbn in *. f_equal; [|exact IH].
  destruct H as (-> & -> & -> & ->). reflexivity.
Qed.
(* An item made by AddPantry is written with the nodes of the copied document as additional children: for a model of
   namespace p, next to the properties p:name there is a child element named p *)
Theorem C105_add_pantry_refuted : forall pantry (l : list node) v w, add_pantry pantry (l ++ [v]) = (pantry ++ [w])%list ->
  forall n n', ext_marshal ver (n_name w) (n_nodes w) n = Ok n' -> In v (n_nodes n').
Proof.
  intros pantry l v w E n n' H. unfold add_pantry in E. apply app_inj_tail in E as [_ <-]. cbn [new_node set_nodes n_name n_nodes] in H.
  refine (ext_marshal_last ver _ l v n n' _ H). cbn. discriminate.
Qed.
(* An item with rdf:about fails to decode, unless the description that holds the pantry declares the rdf namespace itself *)
Theorem C105_about_refuted : forall i e l x m t a r kl, translate reg i e (a_name a) = XName "" "rdf:about" -> dec_find_ns i e (XName "" "rdf:about") = None ->
  ext_unmarshal ver reg kinds i e l (Node x (a :: r) m t kl) = Err "xmp: undefined XML namespace".
Proof. intros. now apply ext_about. Qed.
End P.
Print Assumptions C103_trip_partial.
Print Assumptions C103_read.
Print Assumptions C103_marked_twice_refuted.
Print Assumptions C103_text_refuted.
Print Assumptions C103_same_name_refuted.
Print Assumptions C104_goes_to_extension.
Print Assumptions C104_name_refuted.
Print Assumptions C104_simple_refuted.
Print Assumptions C104_children_partial.
Print Assumptions C105_trip_partial.
Print Assumptions C105_bag.
Print Assumptions C105_undeclared_kept.
Print Assumptions C105_add_pantry.
Print Assumptions C105_attributes_refuted.
Print Assumptions C105_add_pantry_refuted.
Print Assumptions C105_about_refuted.

(* ---- cases that meet the hypotheses ---- *)
Definition leaf (name t : string) : node (tmodel unit) := Node (XName "" name) [] None t [].
Definition maker : node (tmodel unit) := Node (XName "" "MAKER") [Attr (XName "" "kind") "x"] None "" [leaf "SERIAL" "12"; leaf "f:NAME" "some name"].
Definition u_f : string := "http://foo.example/".
Definition reg1 : registry := registry_of [(ns_x, []); (ns_xml, []); (ns_rdf, [])].
Definition env1 : gomap string := map_set (map_set [] "rdf" ns_rdf_uri) "f" u_f.
Definition emap1 : gomap namespace := map_set [] u_f (Namespace "f" u_f None).
Ltac each := repeat match goal with
  | H : _ \/ _ |- _ => destruct H as [H|H]
  | H : False |- _ => destruct H
  end; subst; (split; [vm_compute; reflexivity|vm_compute; discriminate]).
Example C103_hyps : named_ext maker /\ (forall x, In x (all_names (marked maker)) -> comes_back reg1 env1 [] emap1 x) /\ simple_tree (marked maker)
  /\ named_unmarshal reg1 [] emap1 [] (xml_read env1 (named_marshal [maker] (new_node (new_name "iXML:extension"))))
      = [Node (XName "" "MAKER") [Attr (XName "" "rdf:parseType") "Resource"; Attr (XName "" "kind") "x"] None "" [leaf "SERIAL" "12"; leaf "f:NAME" "some name"]].
Proof.
  split; [repeat split|]. split; [intros x H; cbn in H; each|]. split; [cbn; repeat split|vm_compute; reflexivity].
Qed.
Example C104_hyps : ~ In "iXML:aswg" (map (fun p => f_name (fst p)) (fields (fs_ixml_IXML (X := unit) (fun _ => Codec _ (fun _ => Err "") (fun _ _ => Err "") VNil (fun v => is_nil v) true))))
  /\ List.length (named_unmarshal reg1 [] emap1 [maker] (Node (new_name "iXML:aswg") [] None "" [leaf "A" "1"; leaf "B" "2"])) = 3.
Proof. split; [vm_compute; intuition discriminate|reflexivity]. Qed.
Definition bs1 : list (string * list (node (tmodel unit))) := [("f", [leaf "f:one" "1"; Node (XName "" "f:two") [Attr (XName "" "f:q") "y"] None "" [leaf "f:in" "z"]])].
Example C105_hyps : raw_item reg1 env1 [] emap1 bs1 /\ map_get env1 "rdf" = Some ns_rdf_uri /\ short reg1 ns_rdf_uri "Description" = "rdf:Description"
  /\ translate reg1 [] emap1 (XName ns_rdf_uri "about") = XName "" "rdf:about" /\ dec_find_ns [] emap1 (XName "" "rdf:about") = None.
Proof.
  split; [|vm_compute; repeat split]. split; [repeat constructor; cbn; tauto|]. constructor; [|constructor]. split; [reflexivity|]. split; [discriminate|].
  split; [repeat constructor; cbn; intuition discriminate|].
  assert (R : forall c, In c (snd (hd ("", []) bs1)) -> raw_property reg1 env1 [] emap1 "f" c).
  { intros c C. assert (A : simple_tree c /\ is_zero c = false /\ x_space (n_name c) = "" /\ full_name reg1 (xml_read env1 c) <> "rdf:Description"
      /\ dec_find_ns [] emap1 (read_name env1 (n_name c)) = Some (Namespace "f" u_f None)).
    { cbn in C. destruct C as [<-|[<-|[]]]; (split; [cbn; repeat split|]; split; [reflexivity|]; split; [reflexivity|]; split; [vm_compute; discriminate|vm_compute; reflexivity]). }
    destruct A as (A1 & A2 & A3 & A4 & A5). split; [exact A1|]. split; [exact A2|]. split; [|split; [|split; assumption]].
    - intros x I. cbn in C. destruct C as [<-|[<-|[]]]; cbn in I; each.
    - exists (Namespace "f" u_f None). repeat split. exact A5. }
  apply Forall_forall. intros c C. apply R. exact C.
Qed.
(* a document with a model: its copy in the pantry is written with the node of the model *)
Definition k_f : mkind unit := MKind [Namespace "f" u_f (Some 0)] (fun s => s =? "f") [(Finfo "f:title" false false false false (Version 0 0 0) (Version 0 0 0), TStr)] [VStr "t"].
Example C105_add_pantry_hyps : let m := Node (XName "" "f") [] (Some (TModel k_f [VStr "t"])) "" [] in
  exists w, add_pantry [] [m] = [w] /\ exists n', ext_marshal (Version 0 0 0) (n_name w) (n_nodes w) (new_node rdf_description) = Ok n'
    /\ map (fun c => x_local (n_name c)) (n_nodes n') = ["f:title"; "f"].
Proof. eexists. split; [reflexivity|]. eexists. split; vm_compute; reflexivity. Qed.
