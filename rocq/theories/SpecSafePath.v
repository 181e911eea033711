(* Well-formed models: values that belong to the types of their fields, at every depth; used in PropSafePath.v *)
From Coq Require Import List Arith ZArith Bool Ascii String.
From Verif Require Import GoStr Names PathM PVList SyncFlags ArrayM SpecArray TypeM TPathM.
Import ListNotations.
Local Open Scope string_scope.

Section S.
Context {X : Type}.
Notation ty := (ty X).
Notation gval := (gval X).

(* the values of a type with a text form; any set will do as long as its methods stay in it, see calm_text *)
Variable text_value : codec X -> gval -> Prop.

(* v is a value of type t. In an alternative that is not empty exactly the first item is the default. *)
Fixpoint well_typed (t : ty) (v : gval) : Prop :=
  match t with
  | TStr | TBytes => exists s, v = VStr s
  | TBool => exists b, v = VBool b
  | TInt _ | TUint _ => exists z, v = VInt z
  | TText c => text_value c v
  | TAlt _ => exists l, v = VAlt l /\ one_default l
  | TArr _ t' => exists l spare, v = VArr l spare /\ Forall (well_typed t') l /\ Forall (well_typed t') spare
  | TPtr t' => v = VNil \/ exists w, v = VPtr w /\ well_typed t' w
  | TStruct _ fs =>
      exists vs, v = VStruct vs /\
        (fix all (fs : list (finfo * ty)) (vs : list gval) : Prop :=
           match fs, vs with
           | [], [] => True
           | f :: fs', v :: vs' => well_typed (snd f) v /\ all fs' vs'
           | _, _ => False
           end) fs vs
  end.

(* the text methods do not crash on the values of a set and do not leave it *)
Definition calm_on (vals : gval -> Prop) (c : codec X) : Prop :=
  forall v, vals v -> c_enc c v <> Panic /\ forall s, c_dec c v s <> Panic /\ forall w, c_dec c v s = Ok w -> vals w.
Definition calm_text (c : codec X) : Prop := text_value c (c_zero c) /\ calm_on (text_value c) c.
(* all text methods in a type are like this *)
Fixpoint calm_type (t : ty) : Prop :=
  match t with
  | TText c => calm_text c
  | TArr i t' => match ar_text i with Some c => calm_on (well_typed t) c | None => True end /\ calm_type t'
  | TPtr t' => calm_type t'
  | TStruct _ fs => (fix all (fs : list (finfo * ty)) : Prop := match fs with [] => True | f :: r => calm_type (snd f) /\ all r end) fs
  | _ => True
  end.

(* a model: the types and values of its fields *)
Definition calm_model (fs : list (finfo * ty)) : Prop := Forall (fun f => calm_type (snd f)) fs.
Definition well_formed (fs : list (finfo * ty)) (vs : list gval) : Prop := Forall2 (fun f v => well_typed (snd f) v) fs vs.

(* an empty value for a path with a language such as dc:title[en], and flags that allow to delete *)
Definition deletes_language (x : path) (value : string) (flags : Z) : Prop :=
  value = "" /\ (flags = 0%Z \/ on flags DELETE = true) /\ exists n more, In (n, more) (steps x) /\ snd (parse_segment n) <> "".

(* what a program does with one model *)
Inductive call := CGet (x : path) | CSet (x : path) (value : string) (flags : Z) | CList (ns : string).
End S.
