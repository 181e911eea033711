(* What a user expects of typed values, stated without the marshalling code. *)
From Coq Require Import List Arith ZArith Bool Ascii String.
From Verif Require Import GoStr GoMap Names Semver RegistryM NodeM ArrayM TypeM.
Import ListNotations.
Local Open Scope string_scope.

(* values of alternatives without surrounding blanks *)
Definition trim_item (x : alt_item) : alt_item := AltItem (trim_space (ai_value x)) (ai_lang x) (ai_default x).

(* an item with a language of its own *)
Definition lang_item (x : alt_item) : Prop :=
  ai_default x = false /\ ai_lang x <> "" /\ ai_lang x <> "x-default".

(* The AltStrings that can be stored: every item but the default has a language. A default with a language
   is stored twice and recognised by its value, so no item before it may have the same value; a default
   without a language must differ in value from all others (else it takes over the language of the other).
   Types whose reader does not join the two copies cannot store a default with a language. *)
Definition alt_ok (merge : bool) (l : list alt_item) : Prop :=
  l <> [] /\
  (Forall lang_item l
   \/ exists pre d post, l = (pre ++ d :: post)%list /\ ai_default d = true /\
        Forall lang_item pre /\ Forall lang_item post /\
        ((ai_lang d = "" /\
          (merge = true -> forall x, In x (pre ++ post)%list -> trim_space (ai_value x) <> trim_space (ai_value d)))
         \/ (ai_lang d <> "" /\ ai_lang d <> "x-default" /\ merge = true /\
             forall x, In x pre -> trim_space (ai_value x) <> trim_space (ai_value d)))).

(* words with a meaning of their own in RDF, which no field may be called *)
Definition reserved : list string := ["rdf:parseType"; "rdf:type"; "xml:lang"; "rdf:Description"].

Section S.
Context {X : Type}.
Variable ver : version.
Notation gval := (gval X).
Notation ty := (ty X).

(* induction over type descriptions that reaches the fields *)
Fixpoint ty_nested_ind (P : ty -> Prop)
    (hs : P TStr) (hy : P TBytes) (hb : P TBool) (hi : forall b, P (TInt b)) (hu : forall b, P (TUint b))
    (ht : forall c, P (TText c)) (ha : forall m, P (TAlt m)) (hr : forall i t, P t -> P (TArr i t))
    (hp : forall t, P t -> P (TPtr t))
    (hst : forall i fs, Forall (fun f => P (snd f)) fs -> P (TStruct i fs)) (t : ty) : P t :=
  match t with
  | TStr => hs | TBytes => hy | TBool => hb | TInt b => hi b | TUint b => hu b | TText c => ht c | TAlt m => ha m
  | TArr i t' => hr i t' (ty_nested_ind P hs hy hb hi hu ht ha hr hp hst t')
  | TPtr t' => hp t' (ty_nested_ind P hs hy hb hi hu ht ha hr hp hst t')
  | TStruct i fs =>
      hst i fs ((fix go (l : list (finfo * ty)) : Forall (fun f => P (snd f)) l :=
                   match l with
                   | [] => Forall_nil _
                   | f :: r => Forall_cons f (ty_nested_ind P hs hy hb hi hu ht ha hr hp hst (snd f)) (go r)
                   end) fs)
  end.

(* ---- the value that comes back ------------------------------------------------------------------ *)

(* the type says itself when a value is zero *)
Definition own_zero (t : ty) : bool :=
  match t with
  | TText c => c_has_zero c
  | TArr i _ => ar_zero i
  | TStruct i _ => match s_zero i with None => false | Some _ => true end
  | TAlt _ => true
  | TStr | TBytes | TBool | TInt _ | TUint _ | TPtr _ => false
  end.
(* "", false, 0, no elements, nil, or zero by the type's own account; a struct without such an account is
   never empty, a pointer only when nil or when what it points to is zero by its own account *)
Fixpoint blank_value (t : ty) (v : gval) : bool :=
  match v with
  | VStr "" => match t with TStr | TBytes => true | TText c => c_empty c v | _ => false end
  | VBool false => match t with TBool => true | TText c => c_empty c v | _ => false end
  | VInt 0 => match t with TInt _ | TUint _ => true | TText c => c_empty c v | _ => false end
  | VAlt [] => match t with TAlt _ => true | TText c => c_empty c v | _ => false end
  | VArr [] _ => match t with TArr _ _ => true | TText c => c_empty c v | _ => false end
  | VNil => match t with TPtr _ => true | TText c => c_empty c v | _ => false end
  | VPtr w => match t with TPtr t' => own_zero t' && blank_value t' w | TText c => c_empty c v | _ => false end
  | VStruct vs => match t with
                  | TStruct i _ => match s_zero i with Some isz => isz vs | None => false end
                  | TText c => c_empty c v
                  | _ => false
                  end
  | _ => match t with TText c => c_empty c v | _ => false end
  end.
(* the field exists in this version of the format (version ranges: the semver theorems of PropBasic.v) *)
Definition in_version (f : finfo) : bool := version_between ver (f_min f) (f_max f).
(* what the encoder leaves out: fields flagged omit, fields of other versions, nil pointers, and empty
   values of fields without the empty flag *)
Definition left_out (f : finfo) (t : ty) (v : gval) : bool :=
  f_omit f || negb (in_version f) || match v with VNil => true | _ => false end
  || (negb (f_empty f) && blank_value t v).

(* strings lose surrounding blanks, fields left out become zero *)
Fixpoint norm (t : ty) (v : gval) : gval :=
  match t, v with
  | TStr, VStr s => VStr (trim_space s)
  | TAlt _, VAlt l => VAlt (map trim_item l)
  | TArr _ t', VArr l _ => VArr (map (norm t') l) []
  | TPtr t', VPtr v' => VPtr (norm t' v')
  | TStruct i fs, VStruct vs =>
      if s_guard i && blank_value t v then zero t
      else VStruct ((fix go (fs : list (finfo * ty)) (vs : list gval) : list gval :=
                       match fs, vs with
                       | (f, t') :: fs', v' :: vs' =>
                           (if left_out f t' v' then zero t' else norm t' v') :: go fs' vs'
                       | _, _ => []
                       end) fs vs)
  | _, _ => v
  end.

(* ---- sensible type descriptions ---------------------------------------------------------------- *)

Definition is_ptr (t : ty) : bool := match t with TPtr _ => true | _ => false end.

(* Fields active in this version have different names, none of them reserved; array types are
   the three of RDF. *)
Fixpoint wf_ty (t : ty) : Prop :=
  match t with
  | TArr i t' =>
      (ar_xmp i = true -> In (ar_type i) ["Seq"; "Bag"; "Alt"]) /\ wf_ty t'
  | TPtr t' => is_ptr t' = false /\ wf_ty t'
  | TStruct _ fs =>
      NoDup (map f_name (filter in_version (map fst fs)))
      /\ (forall f, In f (map fst fs) -> ~ In (f_name f) reserved)
      /\ (fix all (l : list (finfo * ty)) : Prop :=
            match l with [] => True | f :: r => wf_ty (snd f) /\ all r end) fs
  | _ => True
  end.

(* ---- values that can be stored -------------------------------------------------------------------- *)

(* the text form, read into a zero value, gives w; none = the value when nothing is written *)
Definition text_back (c : codec X) (z v w : gval) (nil_text : option string) : Prop :=
  match c_enc c v with
  | Ok (Some s) => c_dec c z s = Ok w
  | Ok None => match nil_text with Some s => c_dec c z s = Ok w | None => False end
  | _ => False
  end.

(* v fits type t and can be written as an attribute *)
Fixpoint attr_ok (t : ty) (v : gval) : Prop :=
  match t, v with
  | (TStr | TBytes), VStr _ => True
  | TBool, VBool _ => True
  | TInt b, VInt z => int_ok b z /\ (0 < b)%Z
  | TUint b, VInt z => (0 <= z < 2 ^ b)%Z
  | TText c, _ => text_back c (c_zero c) v v None
  | TArr i t', VArr _ _ => match ar_text i with
                           | Some c => text_back c (VArr [] []) v (norm t v) None
                           | None => False
                           end
  | TPtr t', VPtr v' => attr_ok t' v'
  | _, _ => False
  end.

(* v fits type t and can be written as an element. Arrays and alternatives that are written must not be
   empty, array elements must not be nil. *)
Fixpoint storable (t : ty) (v : gval) : Prop :=
  match t, v with
  | (TStr | TBytes), VStr _ => True
  | TBool, VBool _ => True
  | TInt b, VInt z => int_ok b z /\ (0 < b)%Z
  | TUint b, VInt z => (0 <= z < 2 ^ b)%Z
  | TText c, _ => text_back c (c_zero c) v v (Some "")
  | TAlt m, VAlt l => alt_ok m l
  | TArr i t', VArr l _ =>
      if ar_xmp i then
        l <> [] /\ (fix all (l : list gval) : Prop := match l with [] => True | x :: r => storable t' x /\ all r end) l
      else match ar_text i with
           | Some c => text_back c (VArr [] []) v (norm t v) (Some "")
           | None => False
           end
  | TPtr t', VPtr v' => storable t' v'
  | TStruct i fs, VStruct vs =>
      (fix all (fs : list (finfo * ty)) (vs : list gval) : Prop :=
         match fs, vs with
         | [], [] => True
         | (f, t') :: fs', v' :: vs' =>
             (left_out f t' v' = false -> if f_attr f then attr_ok t' v' else storable t' v') /\ all fs' vs'
         | _, _ => False
         end) fs vs
  | _, _ => False
  end.
End S.
