(* Which types can be read without a crash; used in PropJson.v *)
From Coq Require Import List Arith ZArith Bool Ascii String.
From Verif Require Import GoStr GoMap Names Semver RegistryM NodeM DocM ArrayM TypeM DecodeM JsonM.
Import ListNotations.
Local Open Scope string_scope.

Section S.
Context {X : Type}.
Notation ty := (ty X).
Notation gval := (gval X).

(* v is a value of type t. Values with their own text form and slices are not looked into. *)
Fixpoint of_type (t : ty) (v : gval) : Prop :=
  match t with
  | TStr | TBytes => exists s, v = VStr s
  | TBool => exists b, v = VBool b
  | TInt _ | TUint _ => exists z, v = VInt z
  | TText _ | TArr _ _ => True
  | TAlt _ => exists l, v = VAlt l
  | TPtr t' => v = VNil \/ exists w, v = VPtr w /\ of_type t' w
  | TStruct _ fs =>
      exists vs, v = VStruct vs /\
        (fix all (fs : list (finfo * ty)) (vs : list gval) : Prop :=
           match fs, vs with
           | [], [] => True
           | f :: fs', v :: vs' => of_type (snd f) v /\ all fs' vs'
           | _, _ => False
           end) fs vs
  end.

(* No text reader of the type crashes, and the elements of its slices are neither booleans, numbers nor
   slices without a text form. item: the type of a slice element. *)
Definition text_calm (c : codec X) : Prop := forall v s, c_dec c v s <> Panic.
Fixpoint calm (item : bool) (t : ty) : Prop :=
  match t with
  | TStr | TBytes | TAlt _ => True
  | TBool | TInt _ | TUint _ => item = false
  | TText c => text_calm c
  | TArr i t' => match ar_text i with Some c => text_calm c | None => item = false end /\ calm true t'
  | TPtr t' => calm item t'
  | TStruct _ fs => (fix all (fs : list (finfo * ty)) : Prop := match fs with [] => True | f :: r => calm false (snd f) /\ all r end) fs
  end.

(* all model types can be read, and new models hold values of their field types *)
Definition calm_kinds (kinds : nat -> string -> option (mkind X)) : Prop :=
  forall f s k, kinds f s = Some k ->
    Forall (fun f => calm false (snd f)) (k_fields k)
    /\ Forall2 (fun f v => of_type (snd f) v) (k_fields k) (k_init k).
End S.

(* ---- JSON ---------------------------------------------------------------------------------------- *)

(* an alternative {value, lang, isDefault} with members of the right types *)
Definition typed_item (j : json) : Prop :=
  exists m s g b, j = JObj m /\ map_get m "value" = Some (JStr s) /\ map_get m "lang" = Some (JStr g)
                  /\ map_get m "isDefault" = Some (JBool b).
(* an object with these three members and no others *)
Definition item_like (j : json) : Prop :=
  exists m, j = JObj m /\ List.length m <= 3 /\ In "value" (map fst m) /\ In "lang" (map fst m) /\ In "isDefault" (map fst m).

(* Somewhere a list that starts with an alternative has an element that is none, or whose members have wrong
   types. Lists in lists (not named) are not read. *)
Inductive crashes : bool -> json -> Prop :=
| cr_alt x r y : item_like x -> In y (x :: r) -> ~ typed_item y -> crashes true (JArr (x :: r))
| cr_elem x r y : ~ item_like x -> In y (x :: r) -> crashes false y -> crashes true (JArr (x :: r))
| cr_member nm m k v : In (k, v) m -> k <> "" -> ~ (item_like (JObj m) /\ k = "value") -> crashes true v -> crashes nm (JObj m)
| cr_unnamed nm m k v : In (k, v) m -> k = "" \/ (item_like (JObj m) /\ k = "value") -> crashes false v -> crashes nm (JObj m).

(* no member of a model crashes *)
Definition json_safe (l : list (string * json)) : Prop :=
  forall name m k v, In (name, JObj m) l -> In (k, v) m -> (k <> "" -> ~ crashes true v) /\ (k = "" -> ~ crashes false v).
