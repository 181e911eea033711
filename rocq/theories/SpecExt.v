(* What the properties of extensions speak about. *)
From Coq Require Import List Arith ZArith Bool Ascii String.
From Verif Require Import GoStr GoMap Names Semver RegistryM NodeM TypeM DecodeM.
Import ListNotations.
Local Open Scope string_scope.

Section S.
Context {X : Type}.
Notation node := (node (tmodel X)).

(* all names of a tree: its own, those of its attributes, those of its children *)
Fixpoint all_names (n : node) : list xname :=
  let 'Node x a _ _ l := n in x :: (map a_name a ++ flat_map all_names l)%list.
(* no text in it begins or ends with space, and no node of it has a model *)
Fixpoint simple_tree (n : node) : Prop :=
  let 'Node _ _ m v l := n in
  m = None /\ trim_space v = v
  /\ (fix all (l : list node) : Prop := match l with [] => True | c :: r => simple_tree c /\ all r end) l.
(* A name written into an XML text with the declarations env is read again as it was, and it is no declaration itself.
   Names without a colon, other than xmlns, are such names; so are prefix:local with a declared prefix the decoder knows. *)
Definition comes_back (reg : registry) (env : gomap string) (imap emap : gomap namespace) (x : xname) : Prop :=
  translate reg imap emap (read_name env x) = x /\ get_prefix (x_local x) <> "xmlns".

(* An extension as NamedExtensionArray reads it: a name, attributes and child nodes *)
Definition named_ext (n : node) : Prop := n_model n = None /\ n_value n = "" /\ x_space (n_name n) = "".
(* the same extension with the mark of a resource in front of its attributes *)
Definition marked (n : node) : node := Node (n_name n) (Attr (XName "" "rdf:parseType") "Resource" :: n_attrs n) None "" (n_nodes n).

(* A property of a namespace p no model is made for: it has some content, its names come back, and its prefix is p *)
Definition raw_property (reg : registry) (env : gomap string) (imap emap : gomap namespace) (p : string) (c : node) : Prop :=
  simple_tree c /\ is_zero c = false /\ (forall x, In x (all_names c) -> comes_back reg env imap emap x)
  /\ (exists ns, dec_find_ns imap emap (read_name env (n_name c)) = Some ns /\ ns_name ns = p /\ ns_factory ns = None)
  /\ x_space (n_name c) = "" /\ full_name reg (xml_read env c) <> "rdf:Description".
(* The nodes of an extension that holds just such properties, one node for each namespace, the properties of a namespace
   with different names *)
Definition raw_item (reg : registry) (env : gomap string) (imap emap : gomap namespace) (bs : list (string * list node)) : Prop :=
  NoDup (map fst bs)
  /\ Forall (fun b => has_char ":" (fst b) = false /\ snd b <> [] /\ NoDup (map (fun c => x_local (n_name c)) (snd b))
                      /\ Forall (raw_property reg env imap emap (fst b)) (snd b)) bs.
Definition item_nodes (bs : list (string * list node)) : list node :=
  map (fun b => Node (XName "" (fst b)) [] None "" (snd b)) bs.
End S.
