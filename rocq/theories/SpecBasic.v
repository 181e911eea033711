(* Specifications for paths, path lists, versions and sync flags; used in PropBasic *)
From Coq Require Import List Arith ZArith Bool Ascii String.
From Verif Require Import GoStr PathM Semver PVList Spec.
Local Open Scope string_scope.

Definition no_char (c : ascii) (s : string) : Prop := has_char c s = false.

(* a well-formed path segment: non-empty and without '/' *)
Definition seg_ok (s : string) : Prop := s <> "" /\ no_char "/" s.

(* segments as users write them: an optional namespace prefix and a local name *)
Definition seg_spec := (option string * string)%type.

Definition seg_spec_ok (s : seg_spec) : Prop :=
  snd s <> "" /\ no_char "/" (snd s) /\
  match fst s with
  | Some p => p <> "" /\ no_char ":" p /\ no_char "/" p
  | None => no_char ":" (snd s)
  end.

Definition seg_text (s : seg_spec) : string :=
  match fst s with Some p => p ++ ":" ++ snd s | None => snd s end.

(* what a walk must report: local names, and the path of what is left in the last seen namespace *)
Fixpoint walk_spec (p : string) (l : list seg_spec) : list (string * path) :=
  match l with
  | [] => []
  | s :: r =>
      let p' := match fst s with Some q => q | None => p end in
      (snd s, new_path p' (map seg_text r)) :: walk_spec p' r
  end.

Local Open Scope Z_scope.
Definition v_range (v : version) : Prop := int64 (v_major v) /\ int64 (v_minor v) /\ int64 (v_patch v).

Definition v_lt (a b : version) : Prop :=
  v_major a < v_major b \/ (v_major a = v_major b /\ (v_minor a < v_minor b \/
    (v_minor a = v_minor b /\ v_patch a < v_patch b))).

Definition v_le (a b : version) : Prop := v_lt a b \/ a = b.

Definition parse_version_spec (s : string) (v : version) : Prop :=
  (exists a b c, s = (a ++ "." ++ b ++ "." ++ c)%string /\ atoi a = Some (v_major v)
      /\ atoi b = Some (v_minor v) /\ atoi c = Some (v_patch v))
  \/ (exists a b, s = (a ++ "." ++ b)%string /\ atoi a = Some (v_major v)
      /\ atoi b = Some (v_minor v) /\ v_patch v = 0)
  \/ (atoi s = Some (v_major v) /\ v_minor v = 0 /\ v_patch v = 0).

(* the documented bit of every flag name (xmp/sync.go:77-86) *)
Definition flag_table : list (string * Z) :=
  [("create", 1); ("replace", 2); ("delete", 4); ("append", 8); ("unique", 16); ("nofail", 32);
   ("default", 1 + 2 + 4 + 16); ("merge", 1 + 16 + 32); ("extend", 1 + 2 + 16 + 32); ("add", 1 + 16 + 32)]%string.

Definition names_flag (name : string) (bits : Z) : Prop := In (to_lower name, bits) flag_table.

(* z is the union of the bits of the elements of l *)
Definition is_union (z : Z) (l : list Z) : Prop :=
  forall i, 0 <= i -> (Z.testbit z i = true <-> exists b, In b l /\ Z.testbit b i = true).

Close Scope Z_scope.
Definition path_le (a b : path_value) : Prop := String.leb (pv_path a) (pv_path b) = true.

(* the entry (path, value) is in the list *)
Definition has_pv (x : list path_value) (p : path) (v : string) : Prop :=
  exists e, In e x /\ pv_path e = p /\ pv_value e = v.

Definition has_pvf (x : list path_value) (p : path) (v : string) (f : Z) : Prop :=
  exists e, In e x /\ pv_path e = p /\ pv_value e = v /\ pv_flags e = f.

Definition mentions (x : list path_value) (p : path) : Prop := exists e, In e x /\ pv_path e = p.

Definition wf_list (x : list path_value) : Prop :=
  NoDup (map pv_path x) /\ Forall (fun e => pv_value e <> "") x.

(* p is present with exactly the same value, or absent, in both lists *)
Definition unchanged (x y : list path_value) (p : path) : Prop := forall v, has_pv x p v <-> has_pv y p v.

