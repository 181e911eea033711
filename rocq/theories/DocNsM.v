(* Document.Namespaces, and what a program does with the models of a document. *)
From Coq Require Import List Arith ZArith Bool Ascii String.
From Verif Require Import GoStr GoMap Names RegistryM NodeM DocM.
Import ListNotations.
Local Open Scope string_scope.

Section DocNs.
Context {M : Type}.
Variable ops : model_ops M.

(* xmp/document.go:111-120; the two range loops visit the maps in list order *)
Definition doc_namespaces (d : doc M) : list namespace := (map snd (d_int d) ++ map snd (d_ext d))%list.

(* Document.MakeModel, Document.AddModel with a fresh model, Document.RemoveNamespace *)
Inductive ns_op := OMake (ns : namespace) | OAdd (m : M) | ORemove (ns : namespace).
Definition ns_step (d : doc M) (o : ns_op) : doc M :=
  match o with
  | OMake ns => fst (make_model ops d ns)
  | OAdd m => fst (add_model ops d m)
  | ORemove ns => fst (remove_namespace d ns)
  end.
Definition ns_run (d : doc M) (h : list ns_op) : doc M := fold_left ns_step h d.
End DocNs.
Arguments OMake {M}. Arguments OAdd {M}. Arguments ORemove {M}.
