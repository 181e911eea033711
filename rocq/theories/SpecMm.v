(* What the version history, reference lists and markers should do. *)
From Coq Require Import List Arith ZArith Bool Ascii String.
From Verif Require Import GoStr CodecM MmM.
Import ListNotations.
Local Open Scope string_scope.

(* a recorded change with the identifiers in force at the time *)
Record call := Call {
  c_version : string; c_instance : string; c_action : string; c_modifier : string; c_changed : string; c_date : string
}.
(* the changes recorded by a program that only sets the identifiers and records changes *)
Fixpoint calls (inst ver : string) (h : list mm_op) : list call :=
  match h with
  | [] => []
  | OVersion v :: r => calls inst v r
  | OInstance i :: r => calls i ver r
  | ORecord a m c d :: r => Call ver inst a m c d :: calls inst ver r
  | _ :: r => calls inst ver r
  end.
Definition only_records (h : list mm_op) : Prop :=
  Forall (fun o => match o with OVersion _ | OInstance _ | ORecord _ _ _ _ => True | _ => False end) h.

(* a path with a leading slash *)
Definition with_slash (s : string) : string := match s with String "/" _ => s | _ => "/" ++ s end.
Definition at_path (s : string) : part := Part s (FC 0 (FR 0 0)) (FC 0 (FR 0 0)).

(* the entry of a run of changes to one version: its head from the first change, then the other paths *)
Definition entry_of (agent : string) (run : call * list call) : st_version :=
  let '(c, rest) := run in
  StVersion ""
    (Event (c_action c) (at_path (with_slash (c_changed c)) :: map (fun x => at_path (c_changed x)) rest)
           (c_instance c) "" agent (c_date c))
    (c_modifier c) (c_date c) (c_version c).

(* consecutive changes to the same version form one run *)
Fixpoint adjacent_differ (l : list (call * list call)) : Prop :=
  match l with
  | (a, _) :: r => match r with
                   | (b, _) :: _ => c_version a <> c_version b /\ adjacent_differ r
                   | [] => True
                   end
  | [] => True
  end.
Definition runs_of (cs : list call) (runs : list (call * list call)) : Prop :=
  List.concat (map (fun r => fst r :: snd r) runs) = cs /\
  Forall (fun r => Forall (fun x => c_version x = c_version (fst r)) (snd r)) runs /\
  adjacent_differ runs.

(* pointers are not shared *)
Definition no_shared_pointers (h : list mm_op) : Prop :=
  Forall (fun o => match o with OAddPtr _ => False | _ => True end) h.

(* time in frames divided by frames per second *)
Definition earlier (x y : frame_count) : Prop :=
  (fc_count x * fr_base (fc_rate x) * fr_rate (fc_rate y) < fc_count y * fr_base (fc_rate y) * fr_rate (fc_rate x))%Z.
