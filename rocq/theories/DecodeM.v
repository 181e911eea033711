(* Whole documents: Decoder.Decode (xmp/unmarshal.go:71-219, 348-398, 448-472) and Encoder.Encode
   (xmp/marshal.go:139-243, 370-495) with typed models. The XML text itself (encoding/xml) is not modelled;
   both sides work on the node tree that xmp/node.go:339-390 writes and reads (XmlM.v). [xml_read] below says
   what becomes of the names of a written tree when a namespace-aware XML parser reads it. *)
From Coq Require Import List Arith ZArith Bool Ascii String.
From Verif Require Import GoStr GoMap Names Semver PathM RegistryM NodeM DocM TypeM.
Import ListNotations.
Local Open Scope string_scope.

(* The Go type of a model: Namespaces() and Can(), its fields and the values its factory sets
   (&T{} except in models/ixml/model.go:49-55). *)
Record mkind (X : Type) := MKind {
  k_namespaces : list namespace;
  k_can : string -> bool;
  k_fields : list (finfo * ty X);
  k_init : list (gval X)
}.
Arguments MKind {X}. Arguments k_namespaces {X}. Arguments k_can {X}. Arguments k_fields {X}. Arguments k_init {X}.

(* a model: its type and the values of its fields *)
Record tmodel (X : Type) := TModel { tm_kind : mkind X; tm_vals : list (gval X) }.
Arguments TModel {X}. Arguments tm_kind {X}. Arguments tm_vals {X}.

(* xmp/sdk.go:33-44 *)
Definition ns_x_uri : string := "adobe:ns:meta/".
Definition ns_rdf_uri : string := "http://www.w3.org/1999/02/22-rdf-syntax-ns#".
Definition ns_xml_uri : string := "http://www.w3.org/XML/1998/namespace".
Definition ns_x : namespace := Namespace "x" ns_x_uri None.
Definition ns_xml : namespace := Namespace "xml" ns_xml_uri None.
Definition ns_rdf : namespace := Namespace "rdf" ns_rdf_uri None.
Definition toolkit_version : string := "Go XMP SDK 1.0".
Definition about_name : xname := new_name "rdf:about".

Section D.
Context {X : Type}.
Notation model := (tmodel X).
Notation node := (node (tmodel X)).
Notation doc := (doc (tmodel X)).
Variable ver : version.
Variable reg : registry.
Variable kinds : nat -> string -> option (mkind X).  (* Factory(name) of a factory id; may be nil *)

(* Model.Can and Namespace.NewModel (xmp/namespace.go:111-116) *)
Definition tm_can (m : model) (p : string) : bool := k_can (tm_kind m) p.
Definition new_tmodel (ns : namespace) : option model :=
  match ns_factory ns with
  | None => None
  | Some f => option_map (fun k => TModel k (k_init k)) (kinds f (ns_name ns))
  end.

(* ---- Decode ------------------------------------------------------------------------------------ *)

(* the namespaces a decoder knows: (intNsMap, extNsMap) *)
Definition nsmaps := (gomap namespace * gomap namespace)%type.

(* emptyFactory (xmp/unmarshal.go): a factory returning nil, here no factory.
   xmp/unmarshal.go:352-363; GetNamespace of a registered prefix does not fail *)
Definition add_namespace (m : nsmaps) (prefix uri : string) : nsmaps :=
  let '(i, e) := m in
  if negb (emptyb (reg_get_prefix reg uri)) then
    match get_namespace reg (reg_get_prefix reg uri) with
    | Ok ns => (map_set i uri ns, e)
    | _ => (i, e)
    end
  else match map_get e uri with
       | Some _ => (i, e)
       | None => (i, map_set e uri (Namespace prefix uri None))
       end.

(* xmp/unmarshal.go:105-109: the declarations on the children of rdf:RDF *)
Definition declared (l : list node) : list attr := flat_map (fun n => get_attr n "xmlns" "") l.
Definition collect (l : list node) : nsmaps :=
  fold_left (fun m a => add_namespace m (x_local (a_name a)) (a_value a)) (declared l) ([], []).

Section Maps.
Variables imap emap : gomap namespace.
Notation trans := (translate reg imap emap).

(* xmp/node.go:716-726 *)
Fixpoint translate_tree (n : node) : node :=
  let 'Node x a m v l := n in
  Node (trans x) (map (fun b => Attr (trans (a_name b)) (a_value b)) a) m v (map translate_tree l).

(* xmp/unmarshal.go:448-472: the node list, extended if need be, and the index of the node *)
Definition lookup_node (l : list node) (x : xname) : result (list node * nat) :=
  match dec_find_ns imap emap x with
  | None => Err "xmp: undefined XML namespace"
  | Some ns =>
      match find_index (matches tm_can (ns_name ns)) l with
      | Some i => Ok (l, i)
      | None =>
          match new_tmodel ns with
          | Some m =>
              match k_namespaces (tm_kind m) with
              | [] => Err "xmp: model must implement at least one namespace"
              | ns0 :: _ => Ok ((l ++ [set_model (new_node (ns_xml_name ns0 "")) (Some m)])%list, List.length l)
              end
          | None => Ok ((l ++ [new_node (ns_xml_name ns "")])%list, List.length l)
          end
      end
  end.

(* assignment to field j of the model of node i *)
Definition set_field (l : list node) (i : nat) (n : node) (m : model) (j : nat) (w : gval X) : list node :=
  replace_nth i (set_model n (Some (TModel (tm_kind m) (set_nth j w (tm_vals m))))) l.

(* xmp/unmarshal.go:148-180. findStructField returns a nil finfo with an invalid field, so storeNode
   is always true when no field is found. *)
Definition decode_node (l : list node) (src : node) : result (list node) :=
  bind (lookup_node l (n_name src)) (fun '(l, i) =>
    let src := set_name src (trans (n_name src)) in
    match nth_error l i with
    | None => Panic                                              (* not reachable *)
    | Some n =>
        let store :=
          let src := translate_tree src in
          Ok (if is_zero src then l else replace_nth i (add_node n src) l) in
        match n_model n with
        | None => store
        | Some m =>
            match find_field ver (k_fields (tm_kind m)) (full_name reg src) with
            | None => store
            | Some j =>
                match nth_error (k_fields (tm_kind m)) j, nth_error (tm_vals m) j with
                | Some (_, t), Some v =>
                    bind (unmarshal ver reg imap emap src t true v) (fun w => Ok (set_field l i n m j w))
                | _, _ => Panic
                end
            end
        end
    end).

(* xmp/unmarshal.go:182-219 *)
Definition decode_attribute (l : list node) (a : attr) : result (list node) :=
  let x := trans (a_name a) in
  if skip_field x then Ok l
  else
    bind (lookup_node l x) (fun '(l, i) =>
      match nth_error l i with
      | None => Panic                                            (* not reachable *)
      | Some n =>
          let store := Ok (if emptyb (a_value a) then l else replace_nth i (add_attr n (Attr x (a_value a))) l) in
          match n_model n with
          | None => store
          | Some m =>
              match find_field ver (k_fields (tm_kind m)) (x_local x) with
              | None => store
              | Some j =>
                  match nth_error (k_fields (tm_kind m)) j, nth_error (tm_vals m) j with
                  | Some (_, t), Some v =>
                      bind (unmarshal_attr t true v (a_value a)) (fun w => Ok (set_field l i n m j w))
                  | _, _ => Panic
                  end
              end
          end
      end).

(* the attributes of an rdf:Description, xmp/unmarshal.go:118-130: about and the node list *)
Fixpoint decode_attrs (about : string) (l : list node) (al : list attr) : result (string * list node) :=
  match al with
  | [] => Ok (about, l)
  | a :: r =>
      if x_space (a_name a) =? ns_rdf_uri then
        decode_attrs (if x_local (a_name a) =? "about" then a_value a else about) l r
      else bind (decode_attribute l a) (fun l => decode_attrs about l r)
  end.
(* its children, xmp/unmarshal.go:133-137 *)
Fixpoint decode_kids (l : list node) (kl : list node) : result (list node) :=
  match kl with
  | [] => Ok l
  | k :: r => bind (decode_node l k) (fun l => decode_kids l r)
  end.
(* xmp/unmarshal.go:112-138 *)
Fixpoint decode_descriptions (about : string) (l : list node) (dl : list node) : result (string * list node) :=
  match dl with
  | [] => Ok (about, l)
  | n :: r =>
      if negb (full_name reg n =? "rdf:Description") then
        Err "xmp: invalid XML format: expected rdf:Description node"
      else
        bind (decode_attrs about l (n_attrs n)) (fun '(about, l) =>
        bind (decode_kids l (n_nodes n)) (fun l => decode_descriptions about l r))
  end.
End Maps.

Variable sync_from : doc -> doc * result unit.        (* syncFromXMP, xmp/document.go:84-93 *)

Definition with_toolkit (d : doc) (s : string) : doc :=
  Doc s (d_nodes d) (d_dirty d) (d_about d) (d_int d) (d_ext d).

(* xmp/unmarshal.go:71-146 on the parsed tree. The decoder is fresh: its toolkit is "" (no code sets it) *)
Definition decode (x : doc) (root : node) : doc * result unit :=
  let '(x, inner) :=
    if full_name reg root =? "x:xmpmeta" then
      (match get_attr root ns_x_uri "xmptk" with
       | a :: _ => with_toolkit x (trim_space (a_value a))
       | [] => x
       end,
       match n_nodes root with
       | [] => Err "xmp: invalid XML format: missing rdf:RDF node"
       | [r] => Ok r
       | _ => Err "xmp: invalid XML format: too many child nodes in x:xmpmeta"
       end)
    else (x, Ok root) in
  match inner with
  | Ok rdf =>
      if negb (full_name reg rdf =? "rdf:RDF") then (x, Err "xmp: invalid XML format: missing rdf:RDF node")
      else
        let '(i, e) := collect (n_nodes rdf) in
        match decode_descriptions i e "" [] (n_nodes rdf) with
        | Ok (about, nodes) => sync_from (Doc "" nodes (d_dirty x) about i e)
        | Err s => (x, Err s)
        | Panic => (x, Panic)
        end
  | Err s => (x, Err s)
  | Panic => (x, Panic)
  end.

(* ---- Encode -------------------------------------------------------------------------------------- *)

(* find the root node of a namespace or make one, then change it with f (xmp/marshal.go:411-425, 464-477) *)
Definition with_root (l : list node) (ns : namespace) (f : node -> result node) : result (list node) :=
  match find_index (matches tm_can (ns_name ns)) l with
  | Some i => match nth_error l i with
              | Some n => bind (f n) (fun n => Ok (replace_nth i n l))
              | None => Panic                                    (* not reachable *)
              end
  | None => bind (f (new_node (ns_xml_name ns ""))) (fun n => Ok (nl_add l n))
  end.

(* e.findNs, xmp/marshal.go:626-659, is find_ns of the document: the encoder uses its maps *)
Definition enc_find_ns (d : doc) (x : xname) : option namespace := find_ns reg d (x_local x) (x_space x).

(* marshalValue of a model with wrapper nodes, xmp/marshal.go:382-430: attribute fields *)
Fixpoint model_attrs (d : doc) (fs : list (finfo * ty X)) (vs : list (gval X)) (l : list node)
  : result (list node) :=
  match fs, vs with
  | [], [] => Ok l
  | (f, t) :: fs', v :: vs' =>
      if f_attr f && present ver f t v then
        match enc_find_ns d (new_name (f_name f)) with
        | None => Err "xmp: missing namespace for attr field"
        | Some ns =>
            bind (with_root l ns (fun n =>
                    bind (attr_text t v) (fun o =>
                      Ok (match o with
                          | Some s => add_attr n (Attr (new_name (f_name f)) s)
                          | None => n
                          end))))
                 (fun l => model_attrs d fs' vs' l)
        end
      else model_attrs d fs' vs' l
  | _, _ => Panic
  end.
(* xmp/marshal.go:432-487: element fields. The rdf:parseType attribute of line 489-492 goes to the root
   node, whose attributes are replaced at line 238. *)
Fixpoint model_elems (d : doc) (fs : list (finfo * ty X)) (vs : list (gval X)) (l : list node)
  : result (list node) :=
  match fs, vs with
  | [], [] => Ok l
  | (f, t) :: fs', v :: vs' =>
      if negb (f_attr f) && present ver f t v then
        match enc_find_ns d (new_name (f_name f)) with
        | None => Err "xmp: marshalValue missing namespace"
        | Some ns =>
            bind (with_root l ns (fun n =>
                    bind (marshal ver t v (new_node (new_name (f_name f)))) (fun c => Ok (add_node n c))))
                 (fun l => model_elems d fs' vs' l)
        end
      else model_elems d fs' vs' l
  | _, _ => Panic
  end.

(* one node of the document, xmp/marshal.go:160-185 *)
Definition encode_doc_node (d : doc) (l : list node) (n : node) : result (list node) :=
  bind (match n_model n with
        | Some m => bind (model_attrs d (k_fields (tm_kind m)) (tm_vals m) l)
                         (fun l => model_elems d (k_fields (tm_kind m)) (tm_vals m) l)
        | None => Ok l
        end) (fun l =>
  match enc_find_ns d (n_name n) with
  | None => Err "xmp: missing namespace for model node"
  | Some ns =>
      let add (r : node) := set_attrs (set_nodes r (n_nodes r ++ n_nodes n)%list) (n_attrs r ++ n_attrs n)%list in
      match find_index (matches tm_can (ns_name ns)) l with
      | Some i => match nth_error l i with
                  | Some r => Ok (replace_nth i (add r) l)
                  | None => Panic                                (* not reachable *)
                  end
      | None => Ok (nl_add l (add (new_node (n_name n))))
      end
  end).
Fixpoint encode_doc_nodes (d : doc) (l : list node) (nl : list node) : result (list node) :=
  match nl with
  | [] => Ok l
  | n :: r => bind (encode_doc_node d l n) (fun l => encode_doc_nodes d l r)
  end.

(* ns != nil && ns != nsRDF && ns != nsXML, xmp/node.go:245: pointers, here compared by name and URI *)
Definition is_core (ns : namespace) : bool :=
  ((ns_name ns =? "rdf") && (ns_uri ns =? ns_rdf_uri)) || ((ns_name ns =? "xml") && (ns_uri ns =? ns_xml_uri)).
(* xmp/node.go:217-252; the prefixes are visited in the order of the map, here that of insertion.
   Repeated prefixes give the same namespace, which RemoveDups drops. *)
Fixpoint node_namespaces (d : doc) (n : node) : list namespace :=
  let 'Node x a m v l := n in
  let own := if emptyb (x_space x) then get_prefix (x_local x) else x_space x in
  let prefixes := ((if emptyb own then [] else [own])
                   ++ match m with Some m => map ns_name (k_namespaces (tm_kind m)) | None => [] end
                   ++ map (fun b => get_prefix (x_local (a_name b))) a)%list in
  remove_dups
    (flat_map (node_namespaces d) l
     ++ flat_map (fun p => match find_ns_by_prefix reg d p with
                           | Some ns => if is_core ns then [] else [ns]
                           | None => []
                           end) prefixes)%list.

(* xmp/namespace.go:148-150 *)
Definition ns_attr (ns : namespace) : attr := Attr (new_name ("xmlns:" ++ ns_name ns)) (ns_uri ns).

(* xmp/marshal.go:187-199 *)
Definition description (d : doc) (n : node) : node :=
  set_name (set_attrs n (map ns_attr (node_namespaces d n) ++ Attr about_name (d_about d) :: n_attrs n)%list)
    rdf_description.
(* xmp/marshal.go:202-210 *)
Definition is_bare (n : node) : bool :=
  Nat.leb (List.length (n_attrs n)) 2 && Nat.eqb (List.length (n_nodes n)) 0.
(* the tree written for the root nodes, xmp/marshal.go:187-243 *)
Definition packet (d : doc) (roots : list node) : node :=
  let kids := filter (fun n => negb (is_bare n)) (map (description d) roots) in
  let rdf := Node (new_name "rdf:RDF") [ns_attr ns_rdf] None "" kids in
  Node (new_name "x:xmpmeta")
    [ns_attr ns_x; Attr (new_name "x:xmptk") (if emptyb (d_toolkit d) then toolkit_version else d_toolkit d)]
    None "" [rdf].

(* xmp/marshal.go:139-243 after syncToXMP (DocM.sync_to_xmp) *)
Definition encode (d : doc) : result node :=
  bind (encode_doc_nodes d [] (d_nodes d)) (fun roots => Ok (packet d roots)).

(* ---- what reading the XML text of a written tree gives --------------------------------------------- *)

(* encoding/xml with namespaces: "p:l" becomes the URI declared for p and l (p itself when p is not declared),
   "xmlns:p" the name p in space xmlns, "xml:l" the name l in the XML namespace. Names without a colon stay as
   they are (the encoder declares no default namespace). *)
Definition read_name (env : gomap string) (x : xname) : xname :=
  match index_char ":" (x_local x) with
  | None => x
  | Some i =>
      let p := stake i (x_local x) in
      let l := sdrop (S i) (x_local x) in
      if p =? "xmlns" then XName "xmlns" l
      else if p =? "xml" then XName ns_xml_uri l
      else match map_get env p with Some u => XName u l | None => XName p l end
  end.
(* the declarations of an element *)
Definition declare (env : gomap string) (al : list attr) : gomap string :=
  fold_left (fun env a => if get_prefix (x_local (a_name a)) =? "xmlns"
                          then map_set env (strip_prefix (x_local (a_name a))) (a_value a) else env) al env.
(* Node.UnmarshalXML trims the character data of every node (xmp/node.go:377) *)
Fixpoint xml_read (env : gomap string) (n : node) : node :=
  let 'Node x a m v l := n in
  let env := declare env a in
  Node (read_name env x) (map (fun b => Attr (read_name env (a_name b)) (a_value b)) a) m (trim_space v)
    (map (xml_read env) l).
End D.
