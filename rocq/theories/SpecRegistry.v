(* Specifications for the registry and its concurrent use *)
From Coq Require Import List Arith ZArith Bool Ascii String.
From Verif Require Import GoStr Names RegistryM Spec.
Local Open Scope string_scope.

(* namespaces registered with group g, in registration order (once per mention) *)
Definition group_members (g : string) (h : list reg_op) : list namespace :=
  flat_map (fun o => map (fun _ => fst o) (filter (fun x => x =? g) (snd o))) h.

(* no prefix is ever used for two URIs and no URI for two prefixes *)
Definition injective_history (h : list reg_op) : Prop :=
  forall a b, In a h -> In b h -> (ns_name (fst a) = ns_name (fst b) <-> ns_uri (fst a) = ns_uri (fst b)).

(* sequential execution of a list of (operation, result) pairs *)
Fixpoint run_ops (r : registry) (l : list (op * res)) : registry :=
  match l with [] => r | (o, _) :: l' => run_ops (fst (seq_op r o)) l' end.

(* every result is the one a sequential registry gives at that point *)
Fixpoint legal (r : registry) (l : list (op * res)) : Prop :=
  match l with
  | [] => True
  | (o, x) :: l' => snd (seq_op r o) = x /\ legal (fst (seq_op r o)) l'
  end.

(* the operations in the order in which they took effect *)
Definition lin_ops (tr : list event) : list (op * res) :=
  flat_map (fun e => match e with ELin _ o r => [(o, r)] | _ => [] end) tr.

(* events of goroutine t *)
Definition ev_thread (e : event) : nat := match e with EInv t _ | ELin t _ _ | ERet t _ _ => t end.
Definition proj (t : nat) (tr : list event) : list event := filter (fun e => Nat.eqb (ev_thread e) t) tr.

(* completed calls: call, effect, return, one after the other *)
Definition completed (t : nat) (cs : list (op * res)) : list event :=
  flat_map (fun c => [EInv t (fst c); ELin t (fst c) (snd c); ERet t (fst c) (snd c)]) cs.

(* the registrations among the operations *)
Definition registers (l : list (op * res)) : list reg_op :=
  flat_map (fun c => match fst c with OReg ns gs => [(ns, gs)] | _ => [] end) l.
