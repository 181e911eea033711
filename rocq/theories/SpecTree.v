(* What a typed value looks like from outside: the value (SpecJson.v) its property holds. Used in PropTrip.v. *)
From Coq Require Import List Arith ZArith Bool Ascii String Permutation.
From Verif Require Import GoStr GoMap Names Semver RegistryM NodeM ArrayM TypeM JsonM SpecJson SpecType.
Import ListNotations.
Local Open Scope string_scope.

(* an item of an AltString: a default with a language counts twice *)
Definition alt_pairs (x : alt_item) : list (string * string) :=
  if ai_default x
  then ("x-default", ai_value x) :: (if ai_lang x =? "" then [] else [(ai_lang x, ai_value x)])
  else [(ai_lang x, ai_value x)].

Section S.
Context {X : Type}.
Variable ver : version.
Notation gval := (gval X).
Notation ty := (ty X).

(* the text of a value with a text form *)
Definition text_of (c : codec X) (v : gval) : string :=
  match c_enc c v with Ok (Some s) => s | _ => "" end.
(* the text of an attribute *)
Fixpoint attr_str (t : ty) (v : gval) : string :=
  match t, v with
  | (TStr | TBytes), VStr s => s
  | TBool, VBool b => if b then "true" else "false"
  | (TInt _ | TUint _), VInt z => itoa z
  | TText c, _ => text_of c v
  | TArr i _, _ => match ar_text i with Some c => text_of c v | None => "" end
  | TPtr t', VPtr v' => attr_str t' v'
  | _, _ => ""
  end.

Fixpoint tree_of (t : ty) (v : gval) : pval :=
  match t, v with
  | (TStr | TBytes), VStr s => PLeaf s
  | TBool, VBool b => PLeaf (if b then "true" else "false")
  | (TInt _ | TUint _), VInt z => PLeaf (itoa z)
  | TText c, _ => PLeaf (text_of c v)
  | TAlt _, VAlt l => PAlts (flat_map alt_pairs l)
  | TArr i t', VArr l _ =>
      if ar_xmp i then PList (map (tree_of t') l)
      else PLeaf (match ar_text i with Some c => text_of c v | None => "" end)
  | TPtr t', VPtr v' => tree_of t' v'
  | TStruct i fs, VStruct vs =>
      PRecord (if s_guard i && blank_value t v then [] else
        (fix go (fs : list (finfo * ty)) (vs : list gval) : list (string * pval) :=
           match fs, vs with
           | (f, t') :: fs', v' :: vs' =>
               if left_out ver f t' v' then go fs' vs'
               else (f_name f, if f_attr f then PLeaf (attr_str t' v') else tree_of t' v') :: go fs' vs'
           | _, _ => []
           end) fs vs)
  | _, _ => PLeaf ""
  end.

(* Texts with a form of their own mean the same without the blanks around them, byte slices have none. *)
Definition tight (c : codec X) (z v : gval) : Prop := c_dec c z (trim_space (text_of c v)) = c_dec c z (text_of c v).
Fixpoint snug_attr (t : ty) (v : gval) : Prop :=
  match t, v with
  | TBytes, VStr s => trim_space s = s
  | TText c, _ => tight c (c_zero c) v
  | TArr i _, _ => ar_xmp i = false /\ match ar_text i with Some c => tight c (VArr [] []) v | None => True end
  | TPtr t', VPtr v' => snug_attr t' v'
  | _, _ => True
  end.
Fixpoint snug (t : ty) (v : gval) : Prop :=
  match t, v with
  | TBytes, VStr s => trim_space s = s
  | TText c, _ => tight c (c_zero c) v
  | TArr i t', VArr l _ =>
      if ar_xmp i then (fix all (l : list gval) : Prop := match l with [] => True | x :: r => snug t' x /\ all r end) l
      else match ar_text i with Some c => tight c (VArr [] []) v | None => True end
  | TPtr t', VPtr v' => snug t' v'
  | TStruct _ fs, VStruct vs =>
      (fix all (fs : list (finfo * ty)) (vs : list gval) : Prop :=
         match fs, vs with
         | (f, t') :: fs', v' :: vs' =>
             (left_out ver f t' v' = false -> if f_attr f then snug_attr t' v' else snug t' v') /\ all fs' vs'
         | _, _ => True
         end) fs vs
  | _, _ => True
  end.
(* all arrays in the value that are written as lists are of one of these RDF types *)
Fixpoint arrays_in (T : list string) (t : ty) (v : gval) : Prop :=
  match t, v with
  | TArr i t', VArr l _ =>
      ar_xmp i = true ->
      In (ar_type i) T /\ (fix all (l : list gval) : Prop := match l with [] => True | x :: r => arrays_in T t' x /\ all r end) l
  | TPtr t', VPtr v' => arrays_in T t' v'
  | TStruct _ fs, VStruct vs =>
      (fix all (fs : list (finfo * ty)) (vs : list gval) : Prop :=
         match fs, vs with
         | (f, t') :: fs', v' :: vs' => (left_out ver f t' v' = false -> f_attr f = false -> arrays_in T t' v') /\ all fs' vs'
         | _, _ => True
         end) fs vs
  | _, _ => True
  end.
End S.

(* a value with some text in it *)
Fixpoint loud (t : pval) : bool :=
  match t with
  | PLeaf s => negb (s =? "")
  | PRecord fs => existsb (fun f => loud (snd f)) fs
  | PList l => existsb loud l
  | PAlts l => existsb (fun i => negb (fst i =? "") || negb (snd i =? "")) l
  end.
