(* Documents of typed models that survive encoding and decoding. Used in PropTrip.v. *)
From Coq Require Import List Arith ZArith Bool Ascii String Permutation.
From Verif Require Import GoStr GoMap Names Semver RegistryM SpecRegistry NodeM DocM ArrayM TypeM DecodeM JsonM SpecJson SpecType SpecTree.
Import ListNotations.
Local Open Scope string_scope.

Section S.
Context {X : Type}.
Variable ver : version.
Variable h : list reg_op.
Notation reg := (registry_of h).
Variable kinds : nat -> string -> option (mkind X).
Notation model := (tmodel X).
Notation node := (node model).
Notation doc := (doc model).

(* ---- the registry -------------------------------------------------------------------------------- *)

(* One URI per prefix and one prefix per URI, the three namespaces of the packet itself are there, and no
   prefix or URI is one XML uses for itself. *)
Definition sane_registry : Prop :=
  injective_history h
  /\ get_namespace reg "x" = Ok ns_x /\ get_namespace reg "xml" = Ok ns_xml /\ get_namespace reg "rdf" = Ok ns_rdf
  /\ forall o, In o h -> ~ In (ns_name (fst o)) [""; "xmlns"; "parseType"] /\ has_char ":" (ns_name (fst o)) = false
                         /\ ~ In (ns_uri (fst o)) [""; "xmlns"].
(* the prefix belongs to a registered namespace, and to none of those three *)
Definition free_prefix (p : string) : Prop := ~ In p ["rdf"; "xml"; "x"] /\ exists ns, get_namespace reg p = Ok ns.
(* prefix:local *)
Definition proper_name (s : string) : Prop := exists p l, s = p ++ ":" ++ l /\ l <> "" /\ free_prefix p.

(* ---- the models ---------------------------------------------------------------------------------- *)

(* the names of the properties in a value, also those of records inside *)
Fixpoint names_in (t : pval) : list string :=
  match t with
  | PRecord fs =>
      (fix go (fs : list (string * pval)) : list string :=
         match fs with [] => [] | (s, t') :: r => (s :: names_in t' ++ go r)%list end) fs
  | PList l =>
      (fix go (l : list pval) : list string := match l with [] => [] | t' :: r => (names_in t' ++ go r)%list end) l
  | _ => []
  end.
(* a model is a record *)
Definition record_ty (k : mkind X) : ty X := TStruct (StructInfo _ None false) (k_fields k).
Definition record_of (m : model) : gval X := VStruct (tm_vals m).
(* the model as it comes back: fields that were left out have the value of a new model, the others are as in SpecType.v *)
Fixpoint as_stored (fresh : list (gval X)) (fs : list (finfo * ty X)) (vs : list (gval X)) : list (gval X) :=
  match fs, vs, fresh with
  | (f, t) :: fs', v :: vs', i :: fresh' => (if left_out ver f t v then i else norm ver t v) :: as_stored fresh' fs' vs'
  | _, _, _ => []
  end.
Definition stored (m : model) : model :=
  TModel (tm_kind m) (as_stored (k_init (tm_kind m)) (k_fields (tm_kind m)) (tm_vals m)).
(* what it says: its properties and their values (SpecTree.v) *)
Definition says (m : model) : list (string * pval) :=
  match tree_of ver (record_ty (tm_kind m)) (record_of m) with PRecord fs => fs | _ => [] end.
Definition speaks (m : model) : bool := match says m with [] => false | _ => true end.

(* A new model is empty, up to texts, its values can be stored, the properties it writes have proper names with prefixes it
   can handle, and for every registered namespace it can handle the program makes such a model. *)
Definition storable_model (m : model) : Prop :=
  let k := tm_kind m in
  Forall2 (fun f i => i = zero (snd f) \/ snd f = TStr) (k_fields k) (k_init k)
  /\ wf_ty ver (record_ty k) /\ storable ver (record_ty k) (record_of m) /\ snug ver (record_ty k) (record_of m)
  /\ Forall proper_name (names_in (PRecord (says m)))
  /\ (forall p l t, In (p ++ ":" ++ l, t) (says m) -> has_char ":" p = false -> k_can k p = true)
  /\ (exists home, hd_error (k_namespaces k) = Some home /\ k_can k (ns_name home) = true /\ has_char ":" (ns_name home) = false)
  /\ (forall p ns, get_namespace reg p = Ok ns -> k_can k p = true -> exists f, ns_factory ns = Some f /\ kinds f p = Some k).

(* ---- the document -------------------------------------------------------------------------------- *)

Definition models_of (d : doc) : list model :=
  flat_map (fun n => match n_model n with Some m => [m] | None => [] end) (d_nodes d).
(* a node that is just a model *)
Definition bare_model (n : node) : Prop :=
  n_model n <> None /\ n_attrs n = [] /\ n_nodes n = [] /\ x_space (n_name n) = "".
Definition storable_doc (d : doc) : Prop :=
  (* nothing but models, under registered prefixes *)
  Forall (fun n => bare_model n /\ free_prefix (x_local (n_name n))) (d_nodes d)
  /\ Forall storable_model (models_of d)
  (* no prefix is handled by two of them *)
  /\ ForallOrdPairs (fun m m' => forall p, k_can (tm_kind m) p = true -> k_can (tm_kind m') p = true -> False) (models_of d)
  (* the namespaces the document remembers are those registered *)
  /\ forall u ns, In (u, ns) (d_int d ++ d_ext d) -> get_namespace reg (ns_name ns) = Ok ns.

(* ---- what JSON can hold -------------------------------------------------------------------------- *)

(* Lists written are ordered or bags, the values are such that the JSON form is faithful (SpecJson.v), and every
   property written has some text in it. *)
Definition json_model (m : model) : Prop :=
  arrays_in ver ["Seq"; "Bag"] (record_ty (tm_kind m)) (record_of m)
  /\ json_ok (tree_of ver (record_ty (tm_kind m)) (record_of m))
  /\ match tree_of ver (record_ty (tm_kind m)) (record_of m) with
     | PRecord fs => Forall (fun f => loud (snd f) = true) fs
     | _ => True
     end.
(* the same JSON, with the members of its objects in any order *)
Definition same_jdoc (j j' : jdoc) : Prop :=
  j_about j' = j_about j /\ j_toolkit j' = j_toolkit j
  /\ Permutation (j_namespaces j) (j_namespaces j') /\ reorder (JObj (j_models j)) (JObj (j_models j')).
End S.
