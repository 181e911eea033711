(* C35, C58, C59, C60: decoding a packet and writing the document again *)
From Coq Require Import List Arith ZArith Bool Ascii String Lia.
From Verif Require Import GoStr GoStrFacts GoMap Spec Names Semver RegistryM SpecRegistry RegistryFacts NodeM DocM ArrayM TypeM
  DecodeM SpecDecode DecodeFacts DecodeKeepFacts EncodeKeepFacts DecodeDocFacts.
Import ListNotations.
Local Open Scope string_scope.

(* ---- an example program: a registry and the type of a Dublin Core like model ------------------------ *)
Definition v0 : version := Version 0 0 0.
Definition u_dc : string := "http://purl.org/dc/elements/1.1/".
Definition u_foo : string := "http://foo.example/".
Definition ns_dc : namespace := Namespace "dc" u_dc (Some 0).
Definition h0 : list reg_op := [(ns_x, []); (ns_xml, []); (ns_rdf, []); (ns_dc, [])].
Definition k_dc : mkind unit := MKind [ns_dc] (fun s => s =? "dc")
  [(Finfo "dc:format" true false false false v0 v0, TStr); (Finfo "dc:source" false false false false v0 v0, TStr)]
  [VStr ""; VStr ""].
Definition kinds0 (f : nat) (s : string) : option (mkind unit) := if s =? "dc" then Some k_dc else None.
Definition nd (x : xname) (al : list attr) (v : string) (l : list (node (tmodel unit))) : node (tmodel unit) :=
  Node x al None v l.
Definition decl (p u : string) : attr := Attr (XName "xmlns" p) u.
Definition in_rdf (al : list attr) (l : list (node (tmodel unit))) : node (tmodel unit) :=
  nd (XName ns_x_uri "xmpmeta") [decl "x" ns_x_uri; Attr (XName ns_x_uri "xmptk") "tool"] "" [nd (XName ns_rdf_uri "RDF") al "" l].
Definition descr (al : list attr) (l : list (node (tmodel unit))) : node (tmodel unit) :=
  nd (XName ns_rdf_uri "Description") al "" l.
Definition empty_doc : doc (tmodel unit) := Doc "" [] false "" [] [].
Definition no_sync (d : doc (tmodel unit)) : doc (tmodel unit) * result unit := (d, Ok tt).

Definition rdf0 : node (tmodel unit) := nd (XName ns_rdf_uri "RDF") [decl "rdf" ns_rdf_uri] ""
  [descr [decl "d" u_dc; decl "f" u_foo; Attr (XName ns_rdf_uri "about") "me"; Attr (XName u_dc "format") "text";
          Attr (XName u_foo "flag") "on"; Attr (XName u_dc "odd") "1"]
         [nd (XName u_dc "source") [] "here" []; nd (XName u_dc "strange") [] "value" [];
          nd (XName u_foo "deep") [] "" [nd (XName u_dc "inner") [Attr (XName u_foo "a") "b"] "x" []]];
   descr [decl "g" u_foo] [nd (XName u_foo "more") [] "y" []]].
Definition root0 : node (tmodel unit) :=
  nd (XName ns_x_uri "xmpmeta") [decl "x" ns_x_uri; Attr (XName ns_x_uri "xmptk") "tool"] "" [rdf0].
Definition doc0 : doc (tmodel unit) := fst (decode v0 (registry_of h0) kinds0 no_sync empty_doc root0).

(* ---- C58 ---- *)
(* After decoding, every name in a declared namespace carries the standard prefix of its URI (SpecDecode.v):
   the registered one, else the one declared first in the document. *)
Theorem C58_standard_prefix : forall X h (rdf : node (tmodel X)) i e u l p,
  (forall o, In o h -> ns_name (fst o) <> "") ->
  collect (registry_of h) (n_nodes rdf) = (i, e) ->
  In u (map snd (decls (n_nodes rdf))) -> u <> "" -> u <> "xmlns" -> l <> "" ->
  standard_prefix h (decls (n_nodes rdf)) u p ->
  translate (registry_of h) i e (XName u l) = XName "" (p ++ ":" ++ l).
Proof.
  intros X h rdf i e u l p Hne E. rewrite collect_pairs_eq in E. exact (translate_declared h _ i e u l p Hne E).
Qed.
Print Assumptions C58_standard_prefix.

(* Every declared URI has a standard prefix. *)
Theorem C58_standard_prefix_exists : forall h ds u, In u (map snd ds) -> exists p, standard_prefix h ds u p.
Proof. exact standard_prefix_exists. Qed.
Print Assumptions C58_standard_prefix_exists.

(* Two names are equal after translation iff URI and local name are equal, provided different declared URIs
   have different standard prefixes. *)
Theorem C58_names_stay_apart_partial : forall X h (rdf : node (tmodel X)) i e u l u' l',
  (forall o, In o h -> ns_name (fst o) <> "" /\ has_char ":" (ns_name (fst o)) = false) ->
  (forall p w, In (p, w) (decls (n_nodes rdf)) -> has_char ":" p = false) ->
  (forall w w' p, standard_prefix h (decls (n_nodes rdf)) w p -> standard_prefix h (decls (n_nodes rdf)) w' p ->
     In w (map snd (decls (n_nodes rdf))) -> In w' (map snd (decls (n_nodes rdf))) -> w = w') ->
  collect (registry_of h) (n_nodes rdf) = (i, e) ->
  In u (map snd (decls (n_nodes rdf))) -> u <> "" -> u <> "xmlns" -> l <> "" ->
  In u' (map snd (decls (n_nodes rdf))) -> u' <> "" -> u' <> "xmlns" -> l' <> "" ->
  (translate (registry_of h) i e (XName u l) = translate (registry_of h) i e (XName u' l') <-> u = u' /\ l = l').
Proof.
  intros X h rdf i e u l u' l' Hh Hd Hinj E Hu Hu0 Hu1 Hl Hu' Hu0' Hu1' Hl'.
  destruct (standard_prefix_exists h _ u Hu) as [p Hp]. destruct (standard_prefix_exists h _ u' Hu') as [p' Hp'].
  assert (Hne : forall o, In o h -> ns_name (fst o) <> "") by (intros o Ho; now apply Hh).
  rewrite (C58_standard_prefix X h rdf i e u l p Hne E Hu Hu0 Hu1 Hl Hp).
  rewrite (C58_standard_prefix X h rdf i e u' l' p' Hne E Hu' Hu0' Hu1' Hl' Hp').
  assert (Hc : forall w q, standard_prefix h (decls (n_nodes rdf)) w q -> has_char ":" q = false).
  { intros w q [(n & gs & Hlast & _ & <-)|[_ Hf]].
    - destruct Hlast as (pre & post & -> & _). apply (Hh (n, gs)). apply in_or_app. right. now left.
    - destruct Hf as (pre & post & Ef & _). apply (Hd q w). rewrite Ef. apply in_or_app. right. now left. }
  split.
  - intros Eq. injection Eq as Eq. apply prefix_split in Eq as [-> ->]; eauto.
  - intros [-> ->]. assert (p = p') as ->; [|reflexivity].
    destruct Hp as [(n & gs & Hl1 & Hn & <-)|[Hno Hf]], Hp' as [(n' & gs' & Hl1' & Hn' & <-)|[Hno' Hf']].
    + destruct (reg_get_prefix_spec h u') as [P _]. rewrite <- (P n gs Hl1 Hn), <- (P n' gs' Hl1' Hn'). reflexivity.
    + exfalso. apply Hno'. destruct Hl1 as (pre & post & -> & _). exists (n, gs). split; auto. apply in_or_app. right. now left.
    + exfalso. apply Hno. destruct Hl1' as (pre & post & -> & _). exists (n', gs'). split; auto. apply in_or_app. right. now left.
    + apply first_decl_by in Hf, Hf'. congruence.
Qed.
Print Assumptions C58_names_stay_apart_partial.

(* The full property fails: two unregistered namespaces declared with the same prefix in two rdf:Description
   elements, and an unregistered namespace declared with the prefix of a registered one, fall together. *)
Theorem C58_names_fall_together_refuted :
  (exists (rdf : node (tmodel unit)) i e u u', u <> u' /\ collect (registry_of h0) (n_nodes rdf) = (i, e) /\
     In u (map snd (decls (n_nodes rdf))) /\ In u' (map snd (decls (n_nodes rdf))) /\
     translate (registry_of h0) i e (XName u "a") = translate (registry_of h0) i e (XName u' "a")) /\
  (exists (rdf : node (tmodel unit)) i e u', u_dc <> u' /\ collect (registry_of h0) (n_nodes rdf) = (i, e) /\
     In u_dc (map snd (decls (n_nodes rdf))) /\ In u' (map snd (decls (n_nodes rdf))) /\
     translate (registry_of h0) i e (XName u_dc "title") = translate (registry_of h0) i e (XName u' "title")).
Proof.
  split.
  - exists (nd (XName ns_rdf_uri "RDF") [] "" [descr [decl "n" "urn:1"] []; descr [decl "n" "urn:2"] []]).
    eexists _, _, "urn:1", "urn:2". split; [discriminate|]. split; [reflexivity|]. split; [vm_compute; auto|].
    split; [vm_compute; auto|]. reflexivity.
  - exists (nd (XName ns_rdf_uri "RDF") [] "" [descr [decl "dc" "urn:other"; decl "d" u_dc] []]).
    eexists _, _, "urn:other". split; [discriminate|]. split; [reflexivity|]. split; [vm_compute; auto|].
    split; [vm_compute; auto|]. reflexivity.
Qed.
Print Assumptions C58_names_fall_together_refuted.

(* ... and a name whose URI is declared nowhere is taken for one of the namespace its local name spells *)
Theorem C58_undeclared_taken_for_known_refuted : exists (rdf : node (tmodel unit)) i e,
  collect (registry_of h0) (n_nodes rdf) = (i, e) /\ ~ In "urn:unknown" (map snd (decls (n_nodes rdf))) /\
  translate (registry_of h0) i e (XName "urn:unknown" "dc") = XName "" "dc:dc".
Proof.
  exists (nd (XName ns_rdf_uri "RDF") [] "" [descr [decl "d" u_dc] []]). eexists _, _. split; [reflexivity|].
  split; [|reflexivity]. vm_compute. intros [H|[]]. discriminate.
Qed.
Print Assumptions C58_undeclared_taken_for_known_refuted.

Example C58_hyps : exists i e, collect (registry_of h0) (n_nodes rdf0) = (i, e) /\
  In u_dc (map snd (decls (n_nodes rdf0))) /\ In u_foo (map snd (decls (n_nodes rdf0))) /\
  translate (registry_of h0) i e (XName u_dc "format") = XName "" "dc:format" /\
  translate (registry_of h0) i e (XName u_foo "more") = XName "" "f:more".
Proof. eexists _, _. split; [reflexivity|]. vm_compute. auto. Qed.

(* ---- C60 ---- *)
(* With a broken chain of elements Decode fails, and the document keeps everything but its toolkit name. *)
Theorem C60_broken_chain_partial : forall X ver h kinds sync_from (x : doc (tmodel X)) root,
  (forall rdf, ~ chain_ok (registry_of h) root rdf) ->
  (forall r, snd (decode ver (registry_of h) kinds sync_from x root) <> Ok r) /\
  exists s, fst (decode ver (registry_of h) kinds sync_from x root) = with_toolkit x s.
Proof.
  intros X ver h kinds sync_from x root H. destruct (decode_broken_chain ver kinds sync_from (registry_of h) x root H) as [H1 H2].
  split; [exact H1|]. rewrite H2. apply toolkit_read_same.
Qed.
Print Assumptions C60_broken_chain_partial.

(* With a proper chain Decode fails exactly if some property does not decode after those before it, or if
   synchronising the models fails; it decodes the properties in document order and nothing else. *)
Theorem C60_fails_iff_a_property_fails : forall X ver h kinds sync_from (x : doc (tmodel X)) root rdf i e,
  chain_ok (registry_of h) root rdf -> collect (registry_of h) (n_nodes rdf) = (i, e) ->
  (forall r, snd (decode ver (registry_of h) kinds sync_from x root) <> Ok r) <->
  (exists pre p post nodes, properties rdf = (pre ++ p :: post)%list /\
     decode_properties ver (registry_of h) kinds i e [] pre = Ok nodes /\
     forall r, decode_property ver (registry_of h) kinds i e nodes p <> Ok r) \/
  (exists nodes, decode_properties ver (registry_of h) kinds i e [] (properties rdf) = Ok nodes /\
     forall r, snd (sync_from (Doc "" nodes (d_dirty x) (about_of rdf) i e)) <> Ok r).
Proof.
  intros X ver h kinds sync_from x root rdf i e Hc Ec.
  rewrite (decode_ok_chain _ _ _ _ _ _ _ Hc), Ec. rewrite <- decode_properties_fail.
  destruct (decode_properties ver (registry_of h) kinds i e [] (properties rdf)) as [nodes|s|]; cbn [snd].
  - split.
    + intros H. right. exists nodes. auto.
    + intros [H|(n & [= <-] & H)]; [exfalso; exact (H nodes eq_refl)|exact H].
  - split; [intros _; left; discriminate|]. intros _. discriminate.
  - split; [intros _; left; discriminate|]. intros _. discriminate.
Qed.
Print Assumptions C60_fails_iff_a_property_fails.

(* The full property fails: a packet without rdf:RDF is rejected, yet the document has a new toolkit name. *)
Theorem C60_toolkit_changes_refuted : exists root : node (tmodel unit),
  (forall rdf, ~ chain_ok (registry_of h0) root rdf) /\
  snd (decode v0 (registry_of h0) kinds0 no_sync empty_doc root) <> Ok tt /\
  d_toolkit empty_doc = "" /\ d_toolkit (fst (decode v0 (registry_of h0) kinds0 no_sync empty_doc root)) = "tool".
Proof.
  exists (nd (XName ns_x_uri "xmpmeta") [Attr (XName ns_x_uri "xmptk") "tool"] "" []). split; [|split; [|split]].
  - intros rdf [[H1 [<-|[_ H2]]] _].
    + vm_compute in H1. discriminate.
    + discriminate.
  - vm_compute. discriminate.
  - reflexivity.
  - reflexivity.
Qed.
Print Assumptions C60_toolkit_changes_refuted.

(* ... and the toolkit name of an accepted packet is lost *)
Theorem C60_toolkit_lost : forall X ver h kinds (x : doc (tmodel X)) root d,
  decode ver (registry_of h) kinds (fun d => (d, Ok tt)) x root = (d, Ok tt) -> d_toolkit d = "".
Proof.
  intros X ver h kinds x root d E. unfold decode in E.
  destruct (if full_name (registry_of h) root =? "x:xmpmeta" then _ else _) as [x1 [rdf|s|]]; try discriminate.
  destruct (negb _); [discriminate|]. destruct (collect _ _) as [i e].
  destruct (decode_descriptions _ _ _ _ _ _ _ _) as [[ab nodes]|s|]; try discriminate. now injection E as <-.
Qed.
Print Assumptions C60_toolkit_lost.

Lemma chain0 : chain_ok (registry_of h0) root0 rdf0.
Proof. split; [split; [reflexivity|right; split; reflexivity]|repeat constructor]. Qed.
Example C60_hyps : chain_ok (registry_of h0) root0 rdf0 /\
  snd (decode v0 (registry_of h0) kinds0 no_sync empty_doc root0) = Ok tt /\
  (forall rdf, ~ chain_ok (registry_of h0) (in_rdf [] [nd (XName u_dc "title") [] "" []]) rdf).
Proof.
  split; [exact chain0|]. split; [reflexivity|]. intros rdf [[H1 [<-|[_ H2]]] H3].
  - vm_compute in H1. discriminate.
  - injection H2 as <-. inversion H3 as [|a l Ha Hl]; subst. vm_compute in Ha. discriminate.
Qed.

(* ---- C59 ---- *)
(* Documents without models are accepted when every property is in a namespace declared on some
   rdf:Description, not necessarily its own. *)
Theorem C59_declared_on_descriptions_partial : forall X ver h kinds sync_from (x : doc (tmodel X)) root rdf,
  (forall f s, kinds f s = None) ->
  (forall o, In o h -> ns_name (fst o) <> "" /\ has_char ":" (ns_name (fst o)) = false) ->
  (forall p u, In (p, u) (decls (n_nodes rdf)) -> has_char ":" p = false) ->
  chain_ok (registry_of h) root rdf ->
  (forall p, In p (properties rdf) ->
     (exists a, p = PAttr a /\ is_decl a = true) \/
     (x_space (prop_name p) <> "" /\ In (x_space (prop_name p)) (map snd (decls (n_nodes rdf))))) ->
  exists d, decode ver (registry_of h) kinds sync_from x root = sync_from d /\ d_about d = about_of rdf.
Proof.
  intros X ver h kinds sync_from x root rdf Hk Hh Hd Hc Hp. rewrite (decode_ok_chain _ _ _ _ _ _ _ Hc).
  destruct (collect (registry_of h) (n_nodes rdf)) as [i e] eqn:Ec.
  destruct (properties_accept ver h kinds rdf i e (properties rdf)) with (l := @nil (node (tmodel X))) as [nodes ->]; auto.
  - intros o Ho. now apply Hh.
  - intros s Hin. destruct (Hp _ Hin) as [(a & E & _)|H]; [discriminate|exact H].
  - intros a Hin. destruct (Hp _ Hin) as [(b & [= <-] & H)|H]; auto.
  - intros o Ho. now apply Hh.
  - constructor.
  - eexists. split; [reflexivity|]. reflexivity.
Qed.
Print Assumptions C59_declared_on_descriptions_partial.

(* Declarations elsewhere do not count: an element in a namespace that no rdf:Description declares (and whose
   local name is no known prefix) makes Decode fail. *)
Theorem C59_other_declarations_ignored_partial : forall X ver h kinds sync_from (x : doc (tmodel X)) root rdf s,
  chain_ok (registry_of h) root rdf -> In (PElem s) (properties rdf) ->
  ~ In (x_space (n_name s)) (map snd (decls (n_nodes rdf))) ->
  (forall o, In o h -> ns_name (fst o) <> get_prefix (x_local (n_name s))) ->
  (forall u, ~ In (get_prefix (x_local (n_name s)), u) (decls (n_nodes rdf))) ->
  forall r, snd (decode ver (registry_of h) kinds sync_from x root) <> Ok r.
Proof.
  intros X ver h kinds sync_from x root rdf s Hc Hin H1 H2 H3.
  exact (proj1 (undeclared_fails ver h kinds sync_from x root rdf s Hc Hin H1 H2 H3)).
Qed.
Print Assumptions C59_other_declarations_ignored_partial.

(* So the full property fails: the same document, the declaration on rdf:Description or on rdf:RDF. *)
Theorem C59_declared_on_rdf_refuted :
  let kids := [nd (XName u_dc "source") [] "here" []] in
  snd (decode v0 (registry_of h0) kinds0 no_sync empty_doc (in_rdf [] [descr [decl "dc" u_dc] kids])) = Ok tt /\
  (forall r, snd (decode v0 (registry_of h0) kinds0 no_sync empty_doc (in_rdf [decl "dc" u_dc] [descr [] kids])) <> Ok r).
Proof. cbv zeta. split; [reflexivity|]. intros r. vm_compute. discriminate. Qed.
Print Assumptions C59_declared_on_rdf_refuted.

(* ... and a default namespace declared on rdf:Description makes Decode fail *)
Theorem C59_default_namespace_refuted : forall r,
  snd (decode v0 (registry_of h0) kinds0 no_sync empty_doc
         (in_rdf [] [descr [Attr (XName "" "xmlns") u_dc; decl "dc" u_dc] [nd (XName u_dc "source") [] "here" []]])) <> Ok r.
Proof. intros r. vm_compute. discriminate. Qed.
Print Assumptions C59_default_namespace_refuted.

Example C59_hyps : exists r, decode v0 (registry_of h0) (fun _ _ => None) no_sync empty_doc root0 = (r, Ok tt) /\
  (forall p, In p (properties rdf0) ->
     (exists a, p = PAttr a /\ is_decl a = true) \/
     (x_space (prop_name p) <> "" /\ In (x_space (prop_name p)) (map snd (decls (n_nodes rdf0))))).
Proof.
  eexists. split; [vm_compute; reflexivity|]. intros p Hp. cbn in Hp.
  repeat (destruct Hp as [<-|Hp]; [first [left; eexists; split; reflexivity | right; split; [discriminate|vm_compute; auto]]|]).
  destruct Hp.
Qed.

(* ---- C35 ---- *)
(* After decoding, the children and attributes of each node of the document are exactly the properties its
   model does not know (SpecDecode.v), in document order, with later ones of the same name replacing earlier
   ones; every property belongs to some node. For all documents, registries, model types and whatever the
   models do when they synchronise afterwards (sync_from). *)
Theorem C35_unknown_properties_kept : forall X ver h kinds sync_from (x : doc (tmodel X)) root rdf r i e,
  sane_kinds kinds -> plain_prefixes h kinds rdf -> chain_ok (registry_of h) root rdf ->
  collect (registry_of h) (n_nodes rdf) = (i, e) ->
  decode ver (registry_of h) kinds sync_from x root = (r, Ok tt) ->
  exists d, sync_from d = (r, Ok tt) /\
    (forall k n, nth_error (d_nodes d) k = Some n ->
       n_nodes n = fold_left nl_add (kept_elems ver (registry_of h) i e (d_nodes d) k (properties rdf)) [] /\
       n_attrs n = fold_left al_add (kept_attrs ver (registry_of h) i e (d_nodes d) k (properties rdf)) []) /\
    (forall s, In (PElem s) (properties rdf) ->
       exists k n, nth_error (d_nodes d) k = Some n /\ at_home (d_nodes d) (dec_find_ns i e (n_name s)) k = true) /\
    (forall a, In (PAttr a) (properties rdf) -> skip_field (translate (registry_of h) i e (a_name a)) = false ->
       exists k n, nth_error (d_nodes d) k = Some n /\
         at_home (d_nodes d) (dec_find_ns i e (translate (registry_of h) i e (a_name a))) k = true).
Proof.
  intros X ver h kinds sync_from x root rdf r i e Hs Hp Hc Ec E.
  destruct (unknown_kept ver h kinds sync_from x root rdf r i e Hs Hp Hc Ec E) as (d & H1 & _ & _ & _ & _ & H2 & H3 & H4).
  exists d. auto.
Qed.
Print Assumptions C35_unknown_properties_kept.

(* The encoder writes every child of every node, unless a model has a field of that name; attributes too if
   their prefix is known and neither rdf nor xml. *)
Theorem C35_encoder_writes_unknown_partial : forall X ver h (d : doc (tmodel X)) p,
  plain_nodes (d_nodes d) -> encode ver (registry_of h) d = Ok p -> forall n, In n (d_nodes d) ->
  (forall c, In c (n_nodes n) -> no_field (d_nodes d) (x_local (n_name c)) -> has_elem p c) /\
  (forall a ns, In a (n_attrs n) -> no_field (d_nodes d) (x_local (a_name a)) ->
     find_ns_by_prefix (registry_of h) d (get_prefix (x_local (a_name a))) = Some ns -> is_core ns = false -> has_attr p a).
Proof. intros X ver h d p. exact (encode_keeps ver h d p). Qed.
Print Assumptions C35_encoder_writes_unknown_partial.

(* The whole way: a non-empty element of the input for which no model has a field is in the output, with the
   same value, attributes and children, names carrying their standard prefixes (C58); provided the unknown
   elements of each node have different names. *)
Theorem C35_unknown_element_back_partial : forall X ver h kinds (x : doc (tmodel X)) root rdf d i e p s,
  sane_kinds kinds -> plain_prefixes h kinds rdf -> chain_ok (registry_of h) root rdf ->
  collect (registry_of h) (n_nodes rdf) = (i, e) ->
  decode ver (registry_of h) kinds (fun d => (d, Ok tt)) x root = (d, Ok tt) ->
  encode ver (registry_of h) d = Ok p -> In (PElem s) (properties rdf) ->
  let s' := translate_tree (registry_of h) i e s in
  x_space (n_name s) <> "xmlns" -> is_zero s' = false ->
  no_field (d_nodes d) (x_local (n_name s')) -> no_any (d_nodes d) ->
  (forall k, names_apart (kept_elems ver (registry_of h) i e (d_nodes d) k (properties rdf))) ->
  has_elem p s'.
Proof. intros X ver h kinds. exact (unknown_elem_back ver h kinds). Qed.
Print Assumptions C35_unknown_element_back_partial.

Theorem C35_unknown_attribute_back_partial : forall X ver h kinds (x : doc (tmodel X)) root rdf d i e p a,
  sane_kinds kinds -> plain_prefixes h kinds rdf -> chain_ok (registry_of h) root rdf ->
  collect (registry_of h) (n_nodes rdf) = (i, e) ->
  decode ver (registry_of h) kinds (fun d => (d, Ok tt)) x root = (d, Ok tt) ->
  encode ver (registry_of h) d = Ok p -> In (PAttr a) (properties rdf) ->
  let a' := Attr (translate (registry_of h) i e (a_name a)) (a_value a) in
  skip_field (a_name a') = false -> a_value a <> "" ->
  get_prefix (x_local (a_name a')) <> "rdf" -> get_prefix (x_local (a_name a')) <> "xml" ->
  no_field (d_nodes d) (x_local (a_name a')) -> no_any (d_nodes d) ->
  (forall k, attr_names_apart (kept_attrs ver (registry_of h) i e (d_nodes d) k (properties rdf))) ->
  has_attr p a'.
Proof. intros X ver h kinds. exact (unknown_attr_back ver h kinds). Qed.
Print Assumptions C35_unknown_attribute_back_partial.

(* The full property fails: of two unknown elements with the same name only the last is kept, and empty ones
   are dropped. *)
Theorem C35_unknown_lost_refuted :
  let strange v := nd (XName u_foo "strange") [] v [] in
  let input := in_rdf [] [descr [decl "foo" u_foo] [strange "one"; strange "two"; nd (XName u_foo "empty") [] "" []]] in
  exists p, encode v0 (registry_of h0) (fst (decode v0 (registry_of h0) kinds0 no_sync empty_doc input)) = Ok p /\
    flat_map n_nodes (descriptions p) = [nd (XName "" "foo:strange") [] "two" []].
Proof. cbv zeta. eexists. split; vm_compute; reflexivity. Qed.
Print Assumptions C35_unknown_lost_refuted.

Lemma sane0 : sane_kinds kinds0.
Proof.
  intros f s k. unfold kinds0. destruct (s =? "dc") eqn:E; [|discriminate]. intros [= <-]. apply eqb_eq in E as ->.
  split; [reflexivity|discriminate].
Qed.
Lemma plain0 : plain_prefixes h0 kinds0 rdf0.
Proof.
  split; [|split].
  - intros o Ho. repeat (destruct Ho as [<-|Ho]; [split; [discriminate|reflexivity]|]). destruct Ho.
  - intros f s k ns. unfold kinds0. destruct (s =? "dc"); [|discriminate]. intros [= <-] [<-|[]]. reflexivity.
  - intros p u Hin. vm_compute in Hin. repeat (destruct Hin as [Hin|Hin]; [injection Hin as <- <-; reflexivity|]). destruct Hin.
Qed.
Definition maps0 : nsmaps := collect (registry_of h0) (n_nodes rdf0).
Definition packet0 : node (tmodel unit) :=
  match encode v0 (registry_of h0) doc0 with Ok p => p | _ => new_node (XName "" "") end.
Lemma has_elem_dec p (c : node (tmodel unit)) n : nth_error (flat_map n_nodes (descriptions p)) n = Some c -> has_elem p c.
Proof. intros H. apply nth_error_In, in_flat_map in H as (r & H1 & H2). exists r. auto. Qed.

(* the example document meets the hypotheses, and the unknown element foo:deep with its child dc:inner comes
   back as an element of the output *)
Example C35_hyps :
  let '(i, e) := maps0 in
  let s := nd (XName u_foo "deep") [] "" [nd (XName u_dc "inner") [Attr (XName u_foo "a") "b"] "x" []] in
  let s' := translate_tree (registry_of h0) i e s in
  decode v0 (registry_of h0) kinds0 (fun d => (d, Ok tt)) empty_doc root0 = (doc0, Ok tt) /\
  encode v0 (registry_of h0) doc0 = Ok packet0 /\ In (PElem s) (properties rdf0) /\ is_zero s' = false /\
  no_field (d_nodes doc0) (x_local (n_name s')) /\ no_any (d_nodes doc0) /\
  (forall k, names_apart (kept_elems v0 (registry_of h0) i e (d_nodes doc0) k (properties rdf0))) /\
  has_elem packet0 (nd (XName "" "f:deep") [] "" [nd (XName "" "dc:inner") [Attr (XName "" "f:a") "b"] "x" []]).
Proof.
  unfold maps0. destruct (collect (registry_of h0) (n_nodes rdf0)) as [i e] eqn:Ec. vm_compute in Ec. injection Ec as <- <-.
  cbv zeta. split; [vm_compute; reflexivity|]. split; [vm_compute; reflexivity|]. split; [vm_compute; auto 20|].
  split; [vm_compute; reflexivity|]. split; [|split; [|split]].
  - intros n m f Hn Hm Hf. revert Hn. vm_compute (d_nodes doc0). intros Hn.
    repeat (destruct Hn as [<-|Hn]; [cbn in Hm; try discriminate; injection Hm as <-; cbn in Hf;
      repeat (destruct Hf as [<-|Hf]; [vm_compute; discriminate|]); destruct Hf|]). destruct Hn.
  - intros n m f Hn Hm Hf. revert Hn. vm_compute (d_nodes doc0). intros Hn.
    repeat (destruct Hn as [<-|Hn]; [cbn in Hm; try discriminate; injection Hm as <-; cbn in Hf;
      repeat (destruct Hf as [<-|Hf]; [reflexivity|]); destruct Hf|]). destruct Hn.
  - intros k. unfold names_apart. destruct k as [|[|k]].
    + vm_compute. repeat constructor; cbn; intuition discriminate.
    + vm_compute. repeat constructor; cbn; intuition discriminate.
    + replace (kept_elems _ _ _ _ _ _ _) with (@nil (node (tmodel unit))); [constructor|].
      unfold kept_elems. assert (En : nth_error (d_nodes doc0) (S (S k)) = None) by (vm_compute (d_nodes doc0); destruct k; reflexivity).
      symmetry. induction (properties rdf0) as [|q qs IH]; [reflexivity|]. cbn [flat_map]. rewrite IH, En. destruct q; reflexivity.
  - vm_compute packet0. eapply (has_elem_dec _ _ 2). vm_compute. reflexivity.
Qed.
