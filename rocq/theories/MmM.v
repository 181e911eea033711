(* Media management history (models/xmp_mm/model.go), reference lists (models/xmp_mm/types.go) and markers
   (models/xmp_dm/types.go). *)
From Coq Require Import List Arith ZArith Bool Ascii String.
From Verif Require Import GoStr GoMap CodecM.
Import ListNotations.
Local Open Scope string_scope.

(* models/xmp_mm/types.go:125-132 ResourceEvent; dates are their text *)
Record event := Event {
  ev_action : string; ev_changed : list part; ev_instance : string; ev_params : string; ev_agent : string; ev_when : string
}.
(* models/xmp_mm/types.go:103-109 StVersion *)
Record st_version := StVersion {
  sv_comments : string; sv_event : event; sv_modifier : string; sv_date : string; sv_version : string
}.

(* The fields of XmpMM (model.go:58-75) the history uses. Versions is a slice of pointers: None is nil, Some a
   an address in the memory mm_mem (address = position, allocation appends). PartList values are lists: two
   events never share a backing array because NewPartList allocates (xmp_dm/types.go:55-61). *)
Record mm := MM {
  mm_versions : list (option nat);
  mm_instance : string;
  mm_version_id : string;
  mm_mem : list st_version
}.

(* models/xmp_dm/types.go:42-47, 55-61, 138-140 *)
Definition prefix_if_not (s p : string) : string := if has_prefix_str p s then s else p ++ s.
Definition new_part_list (l : list string) : list part :=
  map (fun v => Part (prefix_if_not v "/") fc_zero_val fc_zero_val) l.
Definition part_list_add (l : list part) (v : string) : list part := (l ++ [Part v fc_zero_val fc_zero_val])%list.

(* model.go:140-152: the pointer *)
Definition last_version (m : mm) : option nat :=
  match rev (mm_versions m) with p :: _ => p | [] => None end.
Definition previous_version (m : mm) : option nat :=
  match rev (mm_versions m) with _ :: p :: _ => p | _ => None end.
Definition deref (m : mm) (p : option nat) : option st_version :=
  match p with Some a => nth_error (mm_mem m) a | None => None end.
(* model.go:154-166 *)
Definition previous_version_id (m : mm) : string :=
  match deref m (previous_version m) with Some v => sv_version v | None => "" end.
Definition last_version_id (m : mm) : string :=
  match deref m (last_version m) with Some v => sv_version v | None => "" end.

(* model.go:129-131 *)
Definition add_version (m : mm) (p : option nat) : mm :=
  MM (mm_versions m ++ [p])%list (mm_instance m) (mm_version_id m) (mm_mem m).
(* p := &StVersion{...} *)
Definition alloc (m : mm) (v : st_version) : mm * nat :=
  (MM (mm_versions m) (mm_instance m) (mm_version_id m) (mm_mem m ++ [v])%list, List.length (mm_mem m)).
(* *p = f( *p ) *)
Fixpoint update_nth {A} (f : A -> A) (i : nat) (l : list A) : list A :=
  match l, i with [], _ => [] | x :: r, 0 => f x :: r | x :: r, S i' => x :: update_nth f i' r end.
Definition store (m : mm) (a : nat) (f : st_version -> st_version) : mm :=
  MM (mm_versions m) (mm_instance m) (mm_version_id m) (update_nth f a (mm_mem m)).

(* model.go:168-172 SetPreviousVersionId; a nil last element panics *)
Definition set_previous_version_id (m : mm) (v : string) : result mm :=
  match rev (mm_versions m) with
  | [] => Ok m
  | None :: _ => Panic
  | Some a :: _ => Ok (store m a (fun x => StVersion (sv_comments x) (sv_event x) (sv_modifier x) (sv_date x) v))
  end.

Definition add_change (c : string) (x : st_version) : st_version :=
  let e := sv_event x in
  StVersion (sv_comments x)
    (Event (ev_action e) (part_list_add (ev_changed e) c) (ev_instance e) (ev_params e) (ev_agent e) (ev_when e))
    (sv_modifier x) (sv_date x) (sv_version x).

(* model.go:195-218 AppendVersionHistory; agent is the package variable xmp.Agent *)
Definition append_version_history (agent : string) (m : mm) (action modifier changed date : string) : mm :=
  let fresh :=
    StVersion "" (Event action (new_part_list [changed]) (mm_instance m) "" agent date) modifier date (mm_version_id m) in
  let add := let '(m', a) := alloc m fresh in add_version m' (Some a) in
  match last_version m with
  | None => add
  | Some a =>
      match nth_error (mm_mem m) a with
      | None => add                                        (* dangling addresses do not exist in Go *)
      | Some v => if sv_version v =? mm_version_id m then store m a (add_change changed) else add
      end
  end.

(* what a program does with an XmpMM: change the identifiers, record a change, add an entry of its own, add a
   pointer it already has, rename the last version *)
Inductive mm_op :=
| OVersion (id : string)
| OInstance (id : string)
| ORecord (action modifier changed date : string)
| OAdd (v : st_version)
| OAddNil
| OAddPtr (a : nat)
| ORename (v : string).

Definition mm_step (agent : string) (m : mm) (o : mm_op) : result mm :=
  match o with
  | OVersion id => Ok (MM (mm_versions m) (mm_instance m) id (mm_mem m))
  | OInstance id => Ok (MM (mm_versions m) id (mm_version_id m) (mm_mem m))
  | ORecord a b c d => Ok (append_version_history agent m a b c d)
  | OAdd v => let '(m', a) := alloc m v in Ok (add_version m' (Some a))
  | OAddNil => Ok (add_version m None)
  | OAddPtr a => if Nat.ltb a (List.length (mm_mem m)) then Ok (add_version m (Some a)) else Ok m
  | ORename v => set_previous_version_id m v
  end.
Fixpoint mm_run (agent : string) (m : mm) (h : list mm_op) : result mm :=
  match h with [] => Ok m | o :: r => bind (mm_step agent m o) (fun m' => mm_run agent m' r) end.
Definition mm_empty : mm := MM [] "" "" [].

(* the entries of the Versions array as seen through the pointers *)
Definition entries (m : mm) : list (option st_version) := map (deref m) (mm_versions m).

(* models/xmp_mm/types.go:80-85 ResourceRefArray.DeleteIndex: x[idx+1:] panics when idx+1 > len. The elements
   after idx move down in the backing array; slices sharing it are not modelled. *)
Definition delete_index {A} (l : list A) (idx : Z) : result (list A) :=
  if (idx <? 0)%Z || (Z.of_nat (List.length l) <? idx)%Z then Ok l
  else if (Z.of_nat (List.length l) <? idx + 1)%Z then Panic
  else Ok (firstn (Z.to_nat idx) l ++ skipn (Z.to_nat (idx + 1)) l)%list.

(* models/xmp_mm/types.go:71-78 ResourceRefArray.Index; an element is its document id, None a nil pointer *)
Fixpoint ref_index_from (i : Z) (l : list (option string)) (did : string) : result Z :=
  match l with
  | [] => Ok (-1)%Z
  | None :: _ => Panic
  | Some d :: r => if d =? did then Ok i else ref_index_from (i + 1) r did
  end.
Definition ref_index (l : list (option string)) (did : string) : result Z := ref_index_from 0 l did.

(* models/xmp_dm/types.go:430-444 Intersect (the map is a set), 446-453 Contains *)
Definition types_intersect (x y : list string) : list string :=
  let m := fold_left (fun m v => map_set m v true) x [] in
  filter (fun v => match map_get m v with Some _ => true | None => false end) y.
Definition types_contains (x : list string) (t : string) : bool := existsb (fun v => v =? t) x.
(* models/xmp_dm/types.go:373-384 Marker: start time and types, the other fields are A *)
Record marker (A : Type) := Marker { mk_start : frame_count; mk_types : list string; mk_rest : A }.
Arguments mk_start {A}. Arguments mk_types {A}. Arguments mk_rest {A}.
(* models/xmp_dm/types.go:418-426 MarkerList.Filter *)
Definition marker_filter {A} (l : list (marker A)) (types : list string) : list (marker A) :=
  filter (fun v => Nat.ltb 0 (List.length (types_intersect types (mk_types v)))) l.

(* models/xmp_dm/types.go:197-199 IsSmaller with 321-326 Value, in exact arithmetic instead of float64:
   count*rate/base, 0 when base = 0. Multiplied out; the denominators are the absolute values of the bases. *)
Definition fr_num (x : frame_rate) : Z := if (fr_base x =? 0)%Z then 0%Z else (fr_rate x * Z.sgn (fr_base x))%Z.
Definition fr_den (x : frame_rate) : Z := if (fr_base x =? 0)%Z then 1%Z else Z.abs (fr_base x).
Definition is_smaller (x y : frame_count) : bool :=
  (fc_count x * fr_num (fc_rate x) * fr_den (fc_rate y) <? fc_count y * fr_num (fc_rate y) * fr_den (fc_rate x))%Z.
