(* Specifications for language alternatives and string lists; used in PropArray *)
From Coq Require Import List Bool Ascii String.
From Verif Require Import GoStr ArrayM Spec.
Import ListNotations.
Local Open Scope string_scope.

(* exactly the first item is a default *)
Definition one_default (l : alt_string) : Prop :=
  match l with
  | [] => True
  | x :: r => ai_default x = true /\ forall y, In y r -> ai_default y = false
  end.

Definition no_default (l : alt_string) : Prop := forall x, In x l -> ai_default x = false.
Definition lacks_lang (l : alt_string) (lang : string) : Prop := forall x, In x l -> ai_lang x <> lang.

(* at index i stands the first item with value v *)
Definition first_pos (l : list string) (v : string) (i : nat) : Prop :=
  nth_error l i = Some v /\ forall j, j < i -> nth_error l j <> Some v.

(* the value a history of calls leaves for a language: that of the last call that stored a (non-empty) value for it,
   "" when it was removed since, or was never stored *)
Definition effect (lang : string) (o : alt_op) (acc : string) : string :=
  match o with
  | OpSet g v | OpAddDefault g v | OpAdd g v | OpAddUnique g v => if (g =? lang) && negb (v =? "") then v else acc
  | OpRemoveLang g => if g =? lang then "" else acc
  | OpEnsureDefault => acc
  end.
Definition last_stored (h : list alt_op) (lang : string) : string := fold_left (fun acc o => effect lang o acc) h "".

(* does the call store a value for the language? *)
Definition stores (o : alt_op) (lang : string) : Prop :=
  match o with
  | OpSet g v | OpAddDefault g v | OpAdd g v | OpAddUnique g v => g = lang /\ v <> ""
  | _ => False
  end.
(* Add, AddUnique and AddDefault are only called for languages not stored before *)
Definition adds_new (before : list alt_op) (o : alt_op) : Prop :=
  match o with
  | OpAddDefault g _ | OpAdd g _ | OpAddUnique g _ => forall o', In o' before -> ~ stores o' g
  | _ => True
  end.
Definition adds_new_languages (h : list alt_op) : Prop :=
  forall before o after, h = (before ++ o :: after)%list -> adds_new before o.
Definition only_set_and_add_default (h : list alt_op) : Prop :=
  forall o, In o h -> (exists g v, o = OpSet g v) \/ (exists g v, o = OpAddDefault g v).
