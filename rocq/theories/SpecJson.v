(* What a user expects of the JSON form, stated without the converter; used in PropJson.v *)
From Coq Require Import List Arith ZArith Bool Ascii String Permutation.
From Verif Require Import GoStr GoMap Names RegistryM NodeM ArrayM JsonM SpecBasic SpecTag.
Import ListNotations.
Local Open Scope string_scope.

(* What a property holds: a text, a record of named values, a list, or texts by language. *)
Inductive pval :=
| PLeaf (s : string)
| PRecord (fs : list (string * pval))
| PList (l : list pval)
| PAlts (l : list (string * string)).              (* language, text; "x-default" marks the default *)

Section S.
Context {M : Type}.
Notation node := (node M).
Variable reg : registry.

(* the marker rdf:parseType says nothing about the value *)
Definition marker (b : attr) : Prop := x_local (a_name b) = "rdf:parseType".
(* attributes are members with a text *)
Definition attr_fields (a : list attr) : list (string * pval) :=
  map (fun b => (x_local (a_name b), PLeaf (a_value b))) (filter (fun b => negb (x_local (a_name b) =? "rdf:parseType")) a).
Definition named (n : node) (s : string) : Prop := full_name reg n = s.

(* node n holds this value: attributes or elements are the members of a record, in any order *)
Inductive carries : node -> pval -> Prop :=
| ca_leaf x a m s : Forall marker a -> carries (Node x a m s []) (PLeaf s)
| ca_record x a m l kfs fs :
    Forall2 (fun c f => named c (fst f) /\ carries c (snd f)) l kfs -> Permutation fs (attr_fields a ++ kfs) ->
    carries (Node x a m "" l) (PRecord fs)
| ca_list x a m ax aa am items l :
    Forall marker a -> Forall marker aa ->
    named (Node ax aa am "" items) "rdf:Bag" \/ named (Node ax aa am "" items) "rdf:Seq" ->
    Forall2 (fun c t => named c "rdf:li" /\ carries c t) items l ->
    carries (Node x a m "" [Node ax aa am "" items]) (PList l)
| ca_alts x a m ax aa am items l :
    Forall marker a -> Forall marker aa -> named (Node ax aa am "" items) "rdf:Alt" ->
    Forall2 (fun c i => named c "rdf:li" /\ n_value c = snd i /\ n_nodes c = []
                        /\ exists b, n_attrs c = [b] /\ local_name_of (x_local (a_name b)) "lang" /\ a_value b = fst i) items l ->
    carries (Node x a m "" [Node ax aa am "" items]) (PAlts l).
End S.

(* names that mean something else in JSON or RDF *)
Definition member_name (n : string) : Prop :=
  n <> "" /\ ~ In n ["rdf:value"; "rdf:parseType"; "rdf:Bag"; "rdf:Seq"; "rdf:Alt"].
(* The languages are given, and either there is no default, or it is followed by the same text with its
   language and no other text is equal to it. *)
Definition alts_ok (l : list (string * string)) : Prop :=
  l <> [] /\ Forall (fun i => fst i <> "") l
  /\ (Forall (fun i => fst i <> "x-default") l
      \/ exists a s g b, l = (a ++ ("x-default", s) :: (g, s) :: b)%list /\ s <> "" /\ g <> "x-default"
                         /\ Forall (fun i => fst i <> "x-default" /\ snd i <> s) (a ++ b)).
Definition flat_value (t : pval) : Prop := match t with PList _ | PAlts _ => False | _ => True end.
(* Members have different names that are not special, list items are no lists, no record looks like an
   alternative. *)
Fixpoint json_ok (t : pval) : Prop :=
  match t with
  | PLeaf _ => True
  | PRecord fs =>
      NoDup (map fst fs) /\ Forall member_name (map fst fs)
      /\ ~ (In "value" (map fst fs) /\ In "lang" (map fst fs) /\ In "isDefault" (map fst fs))
      /\ (fix all (fs : list (string * pval)) : Prop := match fs with [] => True | f :: r => json_ok (snd f) /\ all r end) fs
  | PList l => (fix all (l : list pval) : Prop := match l with [] => True | t :: r => (flat_value t /\ json_ok t) /\ all r end) l
  | PAlts l => alts_ok l
  end.

(* the same JSON value, with the members of all objects in another order *)
Inductive reorder : json -> json -> Prop :=
| ro_null : reorder JNull JNull
| ro_bool b : reorder (JBool b) (JBool b)
| ro_num s : reorder (JNum s) (JNum s)
| ro_str s : reorder (JStr s) (JStr s)
| ro_arr l l' : Forall2 reorder l l' -> reorder (JArr l) (JArr l')
| ro_obj m m1 m2 :
    Permutation m m1 -> Forall2 (fun a b => fst a = fst b /\ reorder (snd a) (snd b)) m1 m2 -> reorder (JObj m) (JObj m2).
