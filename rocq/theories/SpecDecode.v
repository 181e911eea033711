(* What a user expects of decoding and encoding whole documents, stated without the decoder's own helpers. *)
From Coq Require Import List Arith ZArith Bool Ascii String.
From Verif Require Import GoStr GoMap Spec Names Semver RegistryM NodeM DocM ArrayM TypeM DecodeM.
Import ListNotations.
Local Open Scope string_scope.

(* a declaration xmlns:p="u" as a namespace-aware parser reports it *)
Definition is_decl (a : attr) : bool := x_space (a_name a) =? "xmlns".

Section S.
Context {X : Type}.
Notation node := (node (tmodel X)).

(* The declarations in the start tags of a list of elements, in document order: prefix and URI. *)
Definition decls (l : list node) : list (string * string) :=
  map (fun a => (x_local (a_name a), a_value a)) (filter is_decl (flat_map n_attrs l)).

(* The prefix p a URI has after decoding: the one it was last registered with (h: all Register calls of the
   program so far), else the one declared first for it in the document. *)
Definition standard_prefix (h : list reg_op) (ds : list (string * string)) (uri p : string) : Prop :=
  (exists n gs, last_by (fun o => ns_uri (fst o)) (n, gs) h /\ ns_uri n = uri /\ ns_name n = p)
  \/ ((~ exists o, In o h /\ ns_uri (fst o) = uri) /\ first_by snd (p, uri) ds).

(* the name of an element *)
Definition is_elem (reg : registry) (n : node) (full : string) : Prop := full_name reg n = full.

(* The required chain of elements: [x:xmpmeta /] rdf:RDF / rdf:Description*. *)
Definition rdf_root (reg : registry) (root rdf : node) : Prop :=
  is_elem reg rdf "rdf:RDF" /\
  (root = rdf \/ (is_elem reg root "x:xmpmeta" /\ n_nodes root = [rdf])).
Definition chain_ok (reg : registry) (root rdf : node) : Prop :=
  rdf_root reg root rdf /\ Forall (fun n => is_elem reg n "rdf:Description") (n_nodes rdf).

(* The properties of a document: the attributes of each rdf:Description except those of RDF, then its children. *)
Inductive property := PAttr (a : attr) | PElem (n : node).
Definition properties_of (n : node) : list property :=
  (map PAttr (filter (fun a => negb (x_space (a_name a) =? ns_rdf_uri)) (n_attrs n)) ++ map PElem (n_nodes n))%list.
Definition properties (rdf : node) : list property := flat_map properties_of (n_nodes rdf).

(* the value of the last rdf:about attribute *)
Definition about_of (rdf : node) : string :=
  last (map a_value (filter (fun a => (x_space (a_name a) =? ns_rdf_uri) && (x_local (a_name a) =? "about"))
                       (flat_map n_attrs (n_nodes rdf)))) "".

(* the nodes of the document once the given properties are decoded *)
Definition prop_name (p : property) : xname := match p with PAttr a => a_name a | PElem n => n_name n end.
Definition decode_property (ver : version) (reg : registry) (kinds : nat -> string -> option (mkind X))
    (i e : gomap namespace) (l : list node) (p : property) : result (list node) :=
  match p with
  | PAttr a => decode_attribute ver reg kinds i e l a
  | PElem n => decode_node ver reg kinds i e l n
  end.
Fixpoint decode_properties ver reg kinds i e (l : list node) (ps : list property) : result (list node) :=
  match ps with
  | [] => Ok l
  | p :: r => bind (decode_property ver reg kinds i e l p) (fun l => decode_properties ver reg kinds i e l r)
  end.


(* ---- properties no model has a field for -------------------------------------------------------- *)

(* no field of the model of node n, active in this version, has that name or takes any name *)
Definition unknown_to (ver : version) (n : node) (name : string) : bool :=
  match n_model n with
  | None => true
  | Some m => forallb (fun f => negb (version_between ver (f_min f) (f_max f))
                                || (negb (f_name f =? name) && negb (f_any f))) (map fst (k_fields (tm_kind m)))
  end.

(* the index of the node of a document that is responsible for a prefix: named so, or its model handles it *)
Definition home (nodes : list node) (prefix : string) : option nat := find_index (matches tm_can prefix) nodes.
Definition at_home (nodes : list node) (ns : option namespace) (k : nat) : bool :=
  match ns with
  | Some ns => match home nodes (ns_name ns) with Some j => Nat.eqb j k | None => false end
  | None => false
  end.

Section K.
Variable ver : version.
Variable reg : registry.
Variables i e : gomap namespace.

(* Of a list of properties, those that node k of the document must keep: the elements (translated) and the
   attributes that belong to it, that its model does not know and that are not empty. *)
Definition kept_elems (nodes : list node) (k : nat) (ps : list property) : list node :=
  flat_map (fun p => match p with
    | PElem s =>
        let s' := translate_tree reg i e s in
        match nth_error nodes k with
        | Some n => if at_home nodes (dec_find_ns i e (n_name s)) k && unknown_to ver n (full_name reg s')
                       && negb (is_zero s') then [s'] else []
        | None => []
        end
    | PAttr _ => []
    end) ps.
Definition kept_attrs (nodes : list node) (k : nat) (ps : list property) : list attr :=
  flat_map (fun p => match p with
    | PAttr a =>
        let x := translate reg i e (a_name a) in
        match nth_error nodes k with
        | Some n => if negb (skip_field x) && at_home nodes (dec_find_ns i e x) k && unknown_to ver n (x_local x)
                       && negb (emptyb (a_value a)) then [Attr x (a_value a)] else []
        | None => []
        end
    | PElem _ => []
    end) ps.
End K.

(* model types that handle the prefix they are made for and have a namespace *)
Definition sane_kinds (kinds : nat -> string -> option (mkind X)) : Prop :=
  forall f s k, kinds f s = Some k -> k_can k s = true /\ k_namespaces k <> [].

(* ---- what is written ------------------------------------------------------------------------------ *)

(* the rdf:Description elements of a packet <x:xmpmeta><rdf:RDF>..., and what they contain *)
Definition descriptions (packet : node) : list node := flat_map n_nodes (n_nodes packet).
Definition has_elem (packet : node) (c : node) : Prop := exists r, In r (descriptions packet) /\ In c (n_nodes r).
Definition has_attr (packet : node) (a : attr) : Prop := exists r, In r (descriptions packet) /\ In a (n_attrs r).

(* no model of the document has a field of that name *)
Definition no_field (nodes : list node) (name : string) : Prop :=
  forall n m f, In n nodes -> n_model n = Some m -> In f (map fst (k_fields (tm_kind m))) -> f_name f <> name.

(* ... and none has a field for all names *)
Definition no_any (nodes : list node) : Prop :=
  forall n m f, In n nodes -> n_model n = Some m -> In f (map fst (k_fields (tm_kind m))) -> f_any f = false.

(* the nodes of a document carry plain prefixes as names *)
Definition plain_name (x : xname) : Prop := x_space x = "" /\ has_char ":" (x_local x) = false.
Definition plain_nodes (nodes : list node) : Prop := Forall (fun n => plain_name (n_name n)) nodes.

(* registered names, declared prefixes and the prefixes of model types are prefixes: without a colon, and
   registered ones not empty *)
Definition plain_prefixes (h : list reg_op) (kinds : nat -> string -> option (mkind X)) (rdf : node) : Prop :=
  (forall o, In o h -> ns_name (fst o) <> "" /\ has_char ":" (ns_name (fst o)) = false) /\
  (forall f s k ns, kinds f s = Some k -> In ns (k_namespaces k) -> has_char ":" (ns_name ns) = false) /\
  (forall p u, In (p, u) (decls (n_nodes rdf)) -> has_char ":" p = false).

(* of all properties that node k keeps, no two have the same name *)
Definition names_apart (el : list node) : Prop := NoDup (map (fun c => x_local (n_name c)) el).
Definition attr_names_apart (al : list attr) : Prop := NoDup (map (fun a => x_local (a_name a)) al).
End S.
Arguments property : clear implicits.
Arguments PAttr {X}. Arguments PElem {X}.
