(* C133: documents of models that do not crash *)
From Coq Require Import List Arith ZArith Bool Ascii String.
From Verif Require Import GoStr GoMap Names RegistryM FilterM PathM PVList SyncFlags NodeM DocM TPathM SpecSafePath.
Import ListNotations.
Local Open Scope string_scope.

Section S.
Context {M : Type}.
Variable ops : model_ops M.
Variable sortf : list path_value -> list path_value.
(* the models in use, for instance those whose values fit their types *)
Variable good : M -> Prop.

(* the models of a document; nodes without a model may hold anything *)
Definition good_doc (d : doc M) : Prop := Forall (fun n => forall m, n_model n = Some m -> good m) (d_nodes d).

(* Good models have a namespace. Reading, writing and listing them by path, making them and synchronizing them does
   not crash, but for the deletion of a language, and leaves good models (a failed or crashed call as well). *)
Record safe_models : Prop := {
  safe_get : forall m p, good m -> mo_get ops m p <> Panic;
  safe_set : forall m p v fl, good m -> good (fst (mo_set ops m p v fl)) /\ (snd (mo_set ops m p v fl) = Panic -> deletes_language p v fl);
  safe_list : forall m, good m -> mo_list ops m <> Panic;
  safe_new : forall f p m, mo_new ops f p = Some m -> good m;
  safe_ns : forall m, good m -> mo_namespaces ops m <> [];
  safe_sync : forall m i d, good m -> good_doc d -> good_doc (fst (mo_sync_to ops m i d)) /\ snd (mo_sync_to ops m i d) <> Panic
}.

(* what a program does with one document and the registry of namespaces *)
Inductive doc_call :=
| DGet (p : path)
| DSet (desc : path_value)
| DList
| DSync (from to : path) (flags : Z) (into : option nat) (conv : option (string -> string))
| DMerge (other : doc M) (flags : Z)
| DMake (ns : namespace)
| DAdd (m : M)
| DFilter (f : filter_t).

Definition doc_outcome (reg : registry) (d : doc M) (c : doc_call) : registry * doc M * result unit :=
  match c with
  | DGet p => (reg, d, forget (doc_get_path ops reg d p))
  | DSet desc => doc_set_path ops reg d desc
  | DList => let '(d', r) := doc_list_paths ops sortf reg d in (reg, d', forget r)
  | DSync from to flags into conv => let '(d', r) := doc_sync ops reg d from to flags into conv in (reg, d', r)
  | DMerge other flags => let '(reg', d', _, r) := doc_merge ops sortf reg d other flags in (reg', d', r)
  | DMake ns => let '(d', r) := make_model ops d ns in (reg, d', forget r)
  | DAdd m => let '(d', r) := add_model ops d m in (reg, d', forget r)
  | DFilter f => (reg, fst (filter_apply reg f d), Ok tt)
  end.
Fixpoint doc_run (reg : registry) (d : doc M) (cs : list doc_call) : registry * doc M :=
  match cs with [] => (reg, d) | c :: r => let '(reg', d', _) := doc_outcome reg d c in doc_run reg' d' r end.

(* models added and documents merged into this one are good as well *)
Definition good_call (c : doc_call) : Prop := match c with DMerge other _ => good_doc other | DAdd m => good m | _ => True end.

(* why a call may crash *)
Definition crash_reason (reg : registry) (d : doc M) (c : doc_call) : Prop :=
  match c with
  | DGet _ | DList | DMake _ | DAdd _ | DFilter _ => False
  | DSet desc => deletes_language (pv_path desc) (pv_value desc) (pv_flags desc)
  | DSync from to flags into conv =>
      (exists value, deletes_language to value flags) \/
      (* the namespace of the destination has no model *)
      (exists ns, into = None /\ path_namespace reg d to = Some ns /\ doc_find_model ops d ns = None /\ new_model ops ns = None /\
                  (flags = 0%Z \/ on flags CREATE = true)) \/
      (* the model given as destination is not in the document *)
      (exists i, into = Some i /\ model_at d i = None)
  | DMerge other flags =>
      exists other' l v, doc_list_paths ops sortf reg other = (other', Ok l) /\ In v l /\ deletes_language (pv_path v) (pv_value v) flags
  end.
End S.
