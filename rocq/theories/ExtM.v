(* Extensions: xmp/xmp_ext.go. An Extension is a node; copies of nodes are the nodes themselves here (NodeM.v).
   Elements of the arrays are not nil: the library builds none that are. *)
From Coq Require Import List Arith ZArith Bool Ascii String.
From Verif Require Import GoStr GoMap Names Semver PathM RegistryM NodeM DocM TypeM DecodeM.
Import ListNotations.
Local Open Scope string_scope.

Section E.
Context {X : Type}.
Notation model := (tmodel X).
Notation node := (node (tmodel X)).
Variable ver : version.
Variable reg : registry.
Variable kinds : nat -> string -> option (mkind X).

(* ---- NamedExtensionArray ---- *)
(* xmp/xmp_ext.go:181-190: the element written for an extension *)
Definition named_elem (v : node) : node :=
  let ext := add_attr (new_node (new_name (x_local (n_name v)))) rdf_resource_attr in
  let ext := set_nodes ext (n_nodes ext ++ n_nodes v)%list in
  set_attrs ext (n_attrs ext ++ n_attrs v)%list.
Definition named_marshal (l : list node) (n : node) : node := fold_left (fun n v => add_node n (named_elem v)) l n.

(* xmp/xmp_ext.go:192-201; there is no error *)
Definition named_of (imap emap : gomap namespace) (v : node) : node :=
  let v := translate_tree reg imap emap v in
  let ext := new_node (new_name (x_local (n_name v))) in
  let ext := set_nodes ext (n_nodes ext ++ n_nodes v)%list in
  set_attrs ext (n_attrs ext ++ n_attrs v)%list.
Definition named_unmarshal (imap emap : gomap namespace) (x : list node) (n : node) : list node :=
  (x ++ map (named_of imap emap) (n_nodes n))%list.

(* xmp/xmp_ext.go:168-179 *)
Definition named_find (x : list node) (name : string) : option node := find_node tm_can x name.

(* ---- Extension, as used by xmpMM:Pantry ---- *)
(* Encoder.EncodeElement (xmp/marshal.go:276-278) of a model: the fields of the struct into the node *)
Definition encode_element (m : model) (n : node) : result node :=
  marshal ver (TStruct (StructInfo _ None false) (k_fields (tm_kind m))) (VStruct (tm_vals m)) n.
Definition encode_model_of (x : node) (n : node) : result node :=
  match n_model x with Some m => encode_element m n | None => Ok n end.
(* xmp/xmp_ext.go:59-69: the children of a node of an extension without a name *)
Fixpoint unwrap (l : list node) (n : node) : result node :=
  match l with
  | [] => Ok n
  | child :: r => bind (match n_model child with
                        | Some m => encode_element m n
                        | None => Ok (set_nodes n (n_nodes n ++ [child])%list)
                        end) (unwrap r)
  end.
(* xmp/xmp_ext.go:50-75 Extension.MarshalXMP; [name] and [l] are the name and the nodes of the extension *)
Fixpoint ext_marshal (name : xname) (l : list node) (n : node) : result node :=
  match l with
  | [] => Ok n
  | ext :: r =>
      bind (encode_model_of ext n) (fun n =>
      bind (if emptyb (x_local name) then unwrap (n_nodes ext) n else Ok (set_nodes n (n_nodes n ++ [ext])%list))
           (ext_marshal name r))
  end.
(* xmp/xmp_ext.go:119-135 ExtensionArray.MarshalXMP *)
Fixpoint pantry_items (x : list node) : result (list node) :=
  match x with
  | [] => Ok []
  | v :: r => bind (ext_marshal (n_name v) (n_nodes v) (new_node rdf_description)) (fun elem =>
              bind (pantry_items r) (fun lis => Ok (set_nodes (new_node (new_name "rdf:li")) [elem] :: lis)))
  end.
Definition pantry_marshal (x : list node) (n : node) : result node :=
  match x with
  | [] => Ok n
  | _ => bind (pantry_items x) (fun lis => Ok (set_nodes n (n_nodes n ++ [set_nodes (new_node (new_name "rdf:Bag")) lis])%list))
  end.

(* xmp/xmp_ext.go:81-100 Extension.UnmarshalXMP on the nodes of the extension. An error of decodeNode leaves the child as it
   is in the list; what decodeNode had changed before it failed is not modelled. *)
Fixpoint ext_attrs (imap emap : gomap namespace) (l : list node) (al : list attr) : result (list node) :=
  match al with
  | [] => Ok l
  | a :: r => bind (decode_attribute ver reg kinds imap emap l a) (fun l => ext_attrs imap emap l r)
  end.
Fixpoint ext_unmarshal (imap emap : gomap namespace) (l : list node) (src : node) {struct src} : result (list node) :=
  let 'Node _ al _ _ kl := src in
  bind (ext_attrs imap emap l al) (fun l =>
    (fix kids (l : list node) (kl : list node) : result (list node) :=
       match kl with
       | [] => Ok l
       | child :: r =>
           bind (if full_name reg child =? "rdf:Description" then ext_unmarshal imap emap l child
                 else match decode_node ver reg kinds imap emap l child with
                      | Ok l => Ok l
                      | Err _ => Ok (l ++ [child])%list
                      | Panic => Panic
                      end)
                (fun l => kids l r)
       end) l kl).

(* models/xmp_mm/model.go:117-123 AddPantry after the copy of the document was made: [l] are the nodes of the copy *)
Definition add_pantry (pantry : list node) (l : list node) : list node :=
  (pantry ++ [set_nodes (new_node (new_name "rdf:Description")) l])%list.
End E.
