(* Typed access by path: GetModelPath (xmp/path.go:281-438), SetModelPath (543-975), ListModelPaths (1001-1253),
   growSlice (1273-1286), on the type descriptions of TypeM.v.
   Not described: maps, extension arrays, fixed size arrays, byte slices behind pointers. Array types
   (xmp.Array, with a Typ method) are the slice types with ar_xmp; all types of the library with Typ have
   MarshalXMP. A text type is never walked into (Go does so if it happens to be a struct; the names of
   its fields have no tags).
   For VArr l spare the spare part is here the whole rest of the backing array up to the capacity. *)
From Coq Require Import List Arith ZArith Bool Ascii String.
From Verif Require Import GoStr GoMap Names Semver PathM PVList SyncFlags NodeM ArrayM DocM TypeM TagM.
Import ListNotations.
Local Open Scope string_scope.

Section TPath.
Context {X : Type}.
Notation gval := (gval X).
Notation ty := (ty X).

(* the capacity reflect.Append adds to a full slice of length n: the Go runtime's choice, a parameter *)
Variable growth : nat -> nat.

(* the segments a loop "for n, walker := path.PopFront(); n != ..." visits, each with walker.Len() > 0 *)
Definition steps (x : path) : list (string * bool) :=
  match walk (S (path_len x)) x with
  | Some l => map (fun p => (fst p, Nat.ltb 0 (path_len (snd p)))) l
  | None => []
  end.

(* findField (xmp/native.go:352-400) on described fields, with the value of the field *)
Definition tag_of (f : finfo * ty) : tag_info :=
  let f := fst f in TagInfo (f_name f) (f_attr f) (f_empty f) (f_omit f) (f_any f) false (f_min f) (f_max f).
Definition lookup (fs : list (finfo * ty)) (name : string) : option nat := find_native (map tag_of fs) name.

(* for fv.Kind() == Ptr { fv = fv.Elem() } on a value that is not nil *)
Definition drill (t : ty) (v : gval) : ty * gval :=
  match t, v with TPtr t', VPtr v' => (t', v') | _, _ => (t, v) end.
(* derefValue (xmp/typeinfo.go:364-379): allocates. Reading a nil element allocates it in place; readers
   below do not report this change. *)
Definition deref (t : ty) (v : gval) : ty * gval :=
  match t, v with
  | TPtr t', VPtr v' => (t', v')
  | TPtr t', VNil => (t', zero t')
  | _, _ => (t, v)
  end.
Definition reref (t : ty) (v : gval) : gval := match t with TPtr _ => VPtr v | _ => v end.

(* path.go:393-437: MarshalText, or marshalSimple *)
Definition leaf_enc (t : ty) (v : gval) : result (option string) :=
  match t with
  | TText c => c_enc c v
  | TArr i _ => match ar_text i with Some c => c_enc c v | None => bind (simple_text t v) (fun s => Ok (Some s)) end
  | _ => bind (simple_text t v) (fun s => Ok (Some s))
  end.
(* if err != nil || b == nil { return "", err } *)
Definition leaf_text (t : ty) (v : gval) : result string :=
  bind (leaf_enc t v) (fun o => Ok (match o with Some s => s | None => "" end)).

(* ---- GetModelPath ----------------------------------------------------------------------------- *)

Fixpoint get_steps (l : list (string * bool)) (fs : list (finfo * ty)) (vs : list gval) : result string :=
  match l with
  | [] => Ok ""                                                                       (* 437 *)
  | (n, more) :: r =>
      let '(name, idx, lang) := parse_segment n in
      if (idx <? -1)%Z then Err "invalid index"
      else
        match lookup fs name with
        | None => Err errNotFound
        | Some j =>
            match nth_error fs j, nth_error vs j with
            | Some (f, t), Some v =>
                if is_nil v then Ok ""
                else if f_omit f || (negb (f_empty f) && is_empty t v) then Ok ""
                else
                  match drill t v with
                  | (TStruct si fs', VStruct vs') =>
                      if more then get_steps r fs' vs' else leaf_text (TStruct si fs') (VStruct vs')
                  | (TAlt _, VAlt a) => Ok (if emptyb lang then alt_default a else alt_get a lang)
                  | (TArr i te, VArr l sp) =>
                      if ar_xmp i then
                        match nth_error l (Z.to_nat idx) with                         (* a negative index is 0 *)
                        | None => Err errNotFound
                        | Some e =>
                            let '(te', e') := deref te e in
                            if more then
                              match te', e', r with
                              | TStruct _ fs', VStruct vs', _ => get_steps r fs' vs'
                              | _, _, [] => Ok ""
                              | _, _, _ => Err errNotFound
                              end
                            else leaf_text te' e'
                        end
                      else leaf_text (TArr i te) (VArr l sp)
                  | (t', v') => leaf_text t' v'
                  end
            | _, _ => Panic
            end
        end
  end.
Definition get_model_path (fs : list (finfo * ty)) (vs : list gval) (x : path) : result string :=
  get_steps (steps x) fs vs.

(* ---- SetModelPath ----------------------------------------------------------------------------- *)

(* v := reflect.New(elem); UnmarshalText or setValue *)
Definition new_elem (te : ty) (value : string) : result gval :=
  match te with
  | TText c => c_dec c (c_zero c) value
  | TArr i _ => match ar_text i with Some c => c_dec c (zero te) value | None => set_simple_value te (zero te) value end
  | _ => set_simple_value te (zero te) value
  end.

(* reflect.Append(fv, x) *)
Definition slice_append (te : ty) (l sp : list gval) (x : gval) : gval :=
  match sp with
  | _ :: sp' => VArr (l ++ [x])%list sp'
  | [] => VArr (l ++ [x])%list (repeat (zero te) (growth (List.length l)))
  end.

(* path.go:1273-1286: elements and rest of the backing array after growSlice(v, n) *)
Definition grow_slice (te : ty) (l sp : list gval) (n : nat) : list gval * list gval :=
  let k := List.length l in
  if Nat.leb k n then
    if Nat.leb (k + List.length sp) n then
      ((l ++ repeat (zero te) (S n - k))%list, repeat (zero te) (Nat.max (n * 2) 4 - S n))
    else ((l ++ firstn (S n - k) sp)%list, skipn (S n - k) sp)
  else (l, sp).

(* the comparison loop 839-871; None: an equal value exists, Some (Err _) and Some Ok: return early.
   Elements that are nil pointers are allocated in place by derefValue; [l] is what is left of the slice. *)
Inductive uniq := UEqual | UStop (r : result unit) | UNew.
Fixpoint unique_scan (te : ty) (l : list gval) (value : string) : list gval * uniq :=
  match l with
  | [] => ([], UNew)
  | e :: r =>
      let '(te', e') := deref te e in
      let e2 := reref te e' in
      match leaf_enc te' e' with
      | Ok (Some s) => if value =? s then (e2 :: r, UEqual)
                       else let '(r', u) := unique_scan te r value in (e2 :: r', u)
      | Ok None => (e2 :: r, UStop (Ok tt))
      | Err m => (e2 :: r, UStop (Err m))
      | Panic => (e2 :: r, UStop Panic)
      end
  end.

(* path.go:833-935, at the end of the path: the new slice and the error *)
Definition set_slice (te : ty) (l sp : list gval) (idx : Z) (value : string) (flags : Z) : gval * result unit :=
  let old := VArr l sp in
  let with_new (k : gval -> gval * result unit) :=
    match new_elem te value with Ok x => k x | Err m => (old, Err m) | Panic => (old, Panic) end in
  if on flags UNIQUE && negb (emptyb value) && (idx =? -1)%Z then
    match unique_scan te l value with
    | (l', UEqual) => (VArr l' sp, Err "equal value exists")
    | (l', UStop r) => (VArr l' sp, r)
    | (l', UNew) =>
        match new_elem te value with
        | Ok x => (slice_append te l' sp x, Ok tt)
        | Err m => (VArr l' sp, Err m)
        | Panic => (VArr l' sp, Panic)
        end
    end
  else if on flags APPEND && negb (emptyb value) && (idx =? -1)%Z then
    with_new (fun x => (slice_append te l sp x, Ok tt))
  else if on flags (Z.lor REPLACE CREATE) && negb (emptyb value) && (idx >? -1)%Z then
    with_new (fun x => let '(l', sp') := grow_slice te l sp (Z.to_nat idx) in
                       (VArr (set_nth (Z.to_nat idx) x l') sp', Ok tt))
  else if on flags (Z.lor REPLACE CREATE) && negb (emptyb value) && (idx =? -1)%Z then
    with_new (fun x => (slice_append te [] [] x, Ok tt))
  else if on flags DELETE && emptyb value && (idx >? -1)%Z then
    let i := Z.to_nat idx in
    let k := List.length l in
    if Nat.leb k i then (old, Err "slice index out of bounds")
    else if Nat.eqb i 0 then (VArr (tl l) sp, Ok tt)                                  (* fv.Slice(1, l) *)
    else if Nat.eqb i (k - 1) then (VArr (firstn i l) (skipn i l ++ sp)%list, Ok tt)    (* fv.Slice(0, idx) *)
    else (VArr (firstn i l ++ skipn (S i) l)%list [], Ok tt)        (* AppendSlice(Slice3(0, idx, l-1), ...) *)
  else if on flags DELETE && emptyb value && (idx =? -1)%Z then (VArr [] [], Ok tt)
  else (old, Err "unsupported flag combination").

(* path.go:733-762 *)
Definition set_alt (l : alt_string) (lang value : string) (flags : Z) : gval * result unit :=
  let put (r : result alt_string) := match r with
                                     | Ok l' => (VAlt l', Ok tt) | Err m => (VAlt l, Err m) | Panic => (VAlt l, Panic) end in
  if on flags UNIQUE && negb (emptyb value) then
    match alt_add_unique l lang value with
    | Ok (l', true) => (VAlt l', Ok tt)
    | Ok (l', false) => (VAlt l', Err "equal value exists")
    | Err m => (VAlt l, Err m)
    | Panic => (VAlt l, Panic)
    end
  else if on flags APPEND && negb (emptyb value) then put (alt_add l lang value)
  else if on flags (Z.lor REPLACE CREATE) && negb (emptyb value) then
    if emptyb lang then put (new_alt_string [ArgString value]) else put (alt_set l lang value)
  else if on flags DELETE && emptyb value then
    if emptyb lang then (VAlt [], Ok tt) else put (alt_remove_lang l lang)
  else (VAlt l, Ok tt).

(* path.go:939-972 *)
Definition set_leaf (t : ty) (v : gval) (value : string) (flags : Z) : gval * result unit :=
  if negb (on flags REPLACE) && negb (emptyb value) && negb (is_empty t v) then (v, Err "REPLACE flag required")
  else
    match (match t with
           | TText c => c_dec c v value
           | TArr i _ => match ar_text i with Some c => c_dec c v value | None => set_simple_value t v value end
           | _ => set_simple_value t v value
           end) with
    | Ok w => (w, Ok tt)
    | Err m => (v, Err m)                  (* what a failed UnmarshalText left behind is not described *)
    | Panic => (v, Panic)
    end.

(* the result is the new list of field values (changes stay after an error) and the error *)
Fixpoint set_steps (l : list (string * bool)) (fs : list (finfo * ty)) (vs : list gval) (value : string) (flags : Z)
  : list gval * result unit :=
  match l with
  | [] => (vs, Ok tt)
  | (n, more) :: r =>
      let '(name, idx, lang) := parse_segment n in
      if (idx <? -1)%Z then (vs, Err "invalid index")
      else
        match lookup fs name with
        | None => (vs, Err errNotFound)
        | Some j =>
            match nth_error fs j, nth_error vs j with
            | Some (f, t), Some v =>
                let '(t', v') := deref t v in
                let '(w, e) :=
                  match t', v' with
                  | TStruct si fs', VStruct vs' =>
                      if more then let '(ws, e) := set_steps r fs' vs' value flags in (VStruct ws, e)
                      else set_leaf (TStruct si fs') (VStruct vs') value flags
                  | TAlt _, VAlt a => set_alt a lang value flags
                  | TArr i te, VArr l sp =>
                      if ar_xmp i then
                        if more then
                          let k := Z.to_nat idx in
                          (* into the element at k *)
                          let enter (l' sp' : list gval) (fresh : bool) :=
                            match nth_error l' k with
                            | None => (VArr l' sp', Panic)
                            | Some e0 =>
                                let '(te', e') := deref te e0 in
                                match te', e', r with
                                | TStruct _ fs', VStruct vs', _ =>
                                    let '(ws, e) := set_steps r fs' vs' value flags in
                                    (VArr (set_nth k (reref te (VStruct ws)) l') sp', e)
                                | _, _, [] => (VArr (set_nth k (reref te e') l') sp', if fresh then Err errNotFound else Ok tt)
                                | _, _, _ => (VArr (set_nth k (reref te e') l') sp', Err errNotFound)
                                end
                            end in
                          if Nat.leb (List.length l) k then
                            if on flags DELETE && emptyb value then (VArr l sp, Ok tt)
                            else if negb (on flags (Z.lor CREATE APPEND)) then (VArr l sp, Err "CREATE flag required")
                            else let '(l', sp') := grow_slice te l sp k in
                                 enter (set_nth k (zero te) l') sp' true
                          else enter l sp false
                        else set_slice te l sp idx value flags
                      else set_leaf (TArr i te) (VArr l sp) value flags
                  | t', v' => set_leaf t' v' value flags
                  end in
                (set_nth j (reref t w) vs, e)
            | _, _ => (vs, Panic)
            end
        end
  end.
Definition set_model_path (fs : list (finfo * ty)) (vs : list gval) (x : path) (value : string) (flags : Z)
  : list gval * result unit :=
  let flags := if (flags =? 0)%Z then DEFAULT else flags in
  if negb (is_xmp_path x) then (vs, Err "invalid path")
  else set_steps (steps x) fs vs value flags.

(* ---- ListModelPaths --------------------------------------------------------------------------- *)

Variable sortf : list path_value -> list path_value.        (* sort.Sort(byPath(_)) *)

(* path.go:1045-1052: the path for a first-level field *)
Definition field_path (x : path) (name : string) : path :=
  if Nat.eqb (path_len x) 0 then
    if namespace_prefix x =? get_prefix name then x else new_path (get_prefix name) []
  else x.
(* path.go:1054-1057 *)
Definition field_segment (x : path) (name : string) : string :=
  if has_prefix name && negb (get_prefix name =? namespace_prefix x) then name else strip_prefix name.

Definition pv (p : path) (s : string) : list path_value := pvl_add [] p s.

(* what one field or element adds: Stop is "return nil, err" (also with err == nil) *)
Inductive listed := Add (l : list path_value) | Stop (r : result (list path_value)).
Definition of_result (r : result (list path_value)) : listed :=
  match r with Ok l => Add l | e => Stop e end.
Definition of_text (r : result (option string)) (p : path) : listed :=
  match r with Ok (Some s) => Add (pv p s) | Ok None => Stop (Ok []) | Err m => Stop (Err m) | Panic => Stop Panic end.

Fixpoint list_elems (elem : nat -> gval -> listed) (i : nat) (l : list gval) : listed :=
  match l with
  | [] => Add []
  | e :: r => match elem i e with
              | Stop s => Stop s
              | Add a => match list_elems elem (S i) r with Add b => Add (a ++ b)%list | s => s end
              end
  end.

(* listPaths on a value of type t (1005-1253) after isEmptyValue; None for types that are no structs *)
Fixpoint list_type_paths (t : ty) (v : gval) (x : path) {struct t} : result (list path_value) :=
  match t with
  | TStruct _ fs =>
      match v with
      | VStruct vs =>
          (fix fields (fs : list (finfo * ty)) (vs : list gval) (x : path) (acc : list path_value)
             : result (list path_value) :=
             match fs, vs with
             | [], [] => Ok (sortf acc)
             | (f, t) :: fs', v :: vs' =>
                 if is_nil v || f_omit f || (negb (f_empty f) && is_empty t v) then fields fs' vs' x acc
                 else
                   let x := field_path x (f_name f) in
                   let p := push x [field_segment x (f_name f)] in
                   let value (t : ty) (v : gval) (sub : path -> result (list path_value)) : listed :=
                     match t with
                     | TAlt _ => match v with
                                 | VAlt a => Add (flat_map (fun i => pv (append_index_string p (alt_item_lang i)) (ai_value i)) a)
                                 | _ => Stop Panic
                                 end
                     | TStruct _ _ => if is_empty t v then Add [] else of_result (sub p)
                     | _ => of_text (leaf_enc t v) p
                     end in
                   let elems (te : ty) (l : list gval) (sub : ty -> gval -> path -> result (list path_value)) : listed :=
                     list_elems (fun i e =>
                       let '(te', e') := deref te e in
                       let q := append_index p (Z.of_nat i) in
                       match te' with
                       | TStruct _ _ => if is_empty te' e' then Add [] else of_result (sub te' e' q)
                       | TArr ai _ => match ar_text ai with
                                      | Some c => of_text (c_enc c e') q
                                      | None => if is_empty te' e' then Add [] else Stop (Err "not a struct")
                                      end
                       | TAlt _ | TBytes => if is_empty te' e' then Add [] else Stop (Err "not a struct")
                       | _ => of_text (leaf_enc te' e') q
                       end) 0 l in
                   let field :=
                     match t with
                     | TPtr t1 =>
                         match v with
                         | VPtr v1 =>
                             match t1 with
                             | TArr i te => match v1 with
                                            | VArr l _ =>
                                                if ar_xmp i then
                                                  elems te l (fun _ e q => match te with TPtr te1 => list_type_paths te1 e q | _ => list_type_paths te e q end)
                                                else value t1 v1 (fun _ => Panic)
                                            | _ => Stop Panic
                                            end
                             | _ => value t1 v1 (fun q => list_type_paths t1 v1 q)
                             end
                         | _ => Stop Panic
                         end
                     | TArr i te => match v with
                                    | VArr l _ =>
                                        if ar_xmp i then
                                          elems te l (fun _ e q => match te with TPtr te1 => list_type_paths te1 e q | _ => list_type_paths te e q end)
                                        else value t v (fun _ => Panic)
                                    | _ => Stop Panic
                                    end
                     | _ => value t v (fun q => list_type_paths t v q)
                     end in
                   match field with
                   | Add a => fields fs' vs' x (acc ++ a)%list
                   | Stop r => r
                   end
             | _, _ => Panic
             end) fs vs x []
      | _ => Panic
      end
  | _ => Err "not a struct"
  end.
(* path.go:1001-1003 for a model whose struct type is described by fs, with IsZero if any; ns is the name of its first namespace *)
Definition list_model_paths (si : struct_info X) (fs : list (finfo * ty)) (vs : list gval) (ns : string)
  : result (list path_value) :=
  if is_empty (TPtr (TStruct si fs)) (VPtr (VStruct vs)) then Ok []
  else list_type_paths (TStruct si fs) (VStruct vs) (new_path ns []).
End TPath.
