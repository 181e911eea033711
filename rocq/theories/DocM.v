(* Documents: xmp/document.go, the document part of xmp/path.go, xmp/sync.go:142-274 and
   Filter.Apply (xmp/filter.go:138-149).
   The Go interface Model (xmp/registry.go:26-35) is a parameter: a type [M] of model values with the operations
   of [model_ops]. A Go model is a pointer; here the model value is stored in the node that refers to it,
   and "the model m" is named by the index of that node. This is faithful as long as no model pointer is
   attached to two nodes, which is what MakeModel and AddModel (called with a fresh model) produce. *)
From Coq Require Import List Arith ZArith Bool Ascii String.
From Verif Require Import GoStr GoMap Names PathM SyncFlags PVList RegistryM NodeM FilterM.
Import ListNotations.
Local Open Scope string_scope.

(* xmp/document.go:22-39 *)
Record doc (M : Type) := Doc {
  d_toolkit : string;
  d_nodes : list (node M);
  d_dirty : bool;
  d_about : string;
  d_int : gomap namespace;       (* intNsMap, keyed by URI *)
  d_ext : gomap namespace        (* extNsMap, keyed by URI *)
}.
Arguments Doc {M}.
Arguments d_toolkit {M}. Arguments d_nodes {M}. Arguments d_dirty {M}. Arguments d_about {M}.
Arguments d_int {M}. Arguments d_ext {M}.

(* xmp/node.go:28 errNotFound; other errors have other texts *)
Definition errNotFound : string := "not found".
Definition is_not_found {A} (r : result A) : bool :=
  match r with Err e => e =? errNotFound | _ => false end.

(* xmp/registry.go:26-35 the Model interface, plus the reflection based accessors GetModelPath, SetModelPath
   and ListModelPaths (xmp/path.go:281-438, 543-975, 1001-1253), which TypedM.v instantiates.
   mo_sync_to m i d: the call m.SyncToXMP(d) for the model m stored in node i of d; it may change d. *)
Record model_ops (M : Type) := ModelOps {
  mo_can : M -> string -> bool;
  mo_namespaces : M -> list namespace;
  mo_new : nat -> string -> option M;                (* Factory(name) of a factory id; may be nil *)
  mo_get : M -> path -> result string;
  mo_set : M -> path -> string -> Z -> M * result unit;
  mo_list : M -> result (list path_value);
  mo_sync_to : M -> nat -> doc M -> doc M * result unit
}.
Arguments mo_can {M}. Arguments mo_namespaces {M}. Arguments mo_new {M}. Arguments mo_get {M}.
Arguments mo_set {M}. Arguments mo_list {M}. Arguments mo_sync_to {M}.

Section Doc.
Context {M : Type}.
Variable ops : model_ops M.

(* field assignments *)
Definition with_nodes (d : doc M) (l : list (node M)) : doc M :=
  Doc (d_toolkit d) l (d_dirty d) (d_about d) (d_int d) (d_ext d).
Definition with_maps (d : doc M) (i e : gomap namespace) : doc M :=
  Doc (d_toolkit d) (d_nodes d) (d_dirty d) (d_about d) i e.
Definition with_dirty (d : doc M) (b : bool) : doc M :=
  Doc (d_toolkit d) (d_nodes d) b (d_about d) (d_int d) (d_ext d).

(* xmp/document.go:42-50; the toolkit version string is a constant of the library *)
Definition new_document (toolkit : string) : doc M := Doc toolkit [] false "" [] [].

(* xmp/document.go:52-54 *)
Definition set_dirty (d : doc M) : doc M := with_dirty d true.

(* the index of the first element satisfying t; Go code keeps the pointer to it instead *)
Fixpoint find_index {A} (t : A -> bool) (l : list A) : option nat :=
  match l with
  | [] => None
  | v :: r => if t v then Some 0 else option_map S (find_index t r)
  end.

(* assignment through a pointer to the i-th node *)
Fixpoint replace_nth {A} (i : nat) (x : A) (l : list A) : list A :=
  match l, i with
  | [], _ => []
  | _ :: r, 0 => x :: r
  | v :: r, S i' => v :: replace_nth i' x r
  end.

(* xmp/node.go:155-169 via document.go:126-128 *)
Definition doc_find_node (d : doc M) (ns : namespace) : option nat :=
  find_index (matches (mo_can ops) (ns_name ns)) (d_nodes d).

(* v.Model != nil && v.Model.Can(prefix), xmp/document.go:133 *)
Definition model_can (prefix : string) (v : node M) : bool :=
  match n_model v with Some m => mo_can ops m prefix | None => false end.

(* xmp/document.go:130-138: the index of the node whose model is returned *)
Definition doc_find_model (d : doc M) (ns : namespace) : option nat :=
  find_index (model_can (ns_name ns)) (d_nodes d).

(* the model stored in node i *)
Definition model_at (d : doc M) (i : nat) : option M :=
  match nth_error (d_nodes d) i with Some n => n_model n | None => None end.

(* xmp/document.go:260-268 *)
Definition find_ns_by_uri (d : doc M) (uri : string) : option namespace :=
  match map_get (d_int d) uri with
  | Some v => Some v
  | None => map_get (d_ext d) uri
  end.

(* xmp/document.go:270-285; the range loops visit the map in list order *)
Definition find_ns_by_prefix (reg : registry) (d : doc M) (pre : string) : option namespace :=
  match find (fun v => ns_name v =? pre) (map snd (d_int d)) with
  | Some v => Some v
  | None =>
      match find (fun v => ns_name v =? pre) (map snd (d_ext d)) with
      | Some v => Some v
      | None => match get_namespace reg pre with Ok ns => Some ns | _ => None end
      end
  end.

(* xmp/document.go:140-149 *)
Definition find_ns (reg : registry) (d : doc M) (name uri : string) : option namespace :=
  match (if negb (emptyb uri) then find_ns_by_uri d uri else None) with
  | Some ns => Some ns
  | None => find_ns_by_prefix reg d (get_prefix name)
  end.

(* xmp/path.go:132-139 *)
Definition path_namespace (reg : registry) (d : doc M) (p : path) : option namespace :=
  if is_xmp_path p then find_ns_by_prefix reg d (namespace_prefix p) else None.

(* xmp/namespace.go:111-116 *)
Definition new_model (ns : namespace) : option M :=
  match ns_factory ns with Some f => mo_new ops f (ns_name ns) | None => None end.

(* d.intNsMap[v.GetURI()] = v for all v (document.go:160-162 and 176-178) *)
Definition add_int (m : gomap namespace) (l : list namespace) : gomap namespace :=
  fold_left (fun m v => map_set m (ns_uri v) v) l m.

(* xmp/document.go:151-166; the result is the index of the node of the returned model *)
Definition make_model (d : doc M) (ns : namespace) : doc M * result nat :=
  match doc_find_model d ns with
  | Some i => (d, Ok i)
  | None =>
      match new_model ns with
      | None => (d, Err "cannot create model")
      | Some m =>
          let n := set_model (new_node (ns_xml_name ns "")) (Some m) in
          let d := with_nodes d (d_nodes d ++ [n])%list in
          let d := with_maps d (add_int (d_int d) (mo_namespaces ops m)) (d_ext d) in
          (set_dirty d, Ok (List.length (d_nodes d) - 1))
      end
  end.

(* xmp/document.go:168-187 for a non-nil model; the result is the index of the node *)
Definition add_model (d : doc M) (m : M) : doc M * result nat :=
  match mo_namespaces ops m with
  | [] => (d, Err "model must implement at least one namespace")
  | ns0 :: _ =>
      let d := with_maps d (add_int (d_int d) (mo_namespaces ops m)) (d_ext d) in
      match doc_find_node d ns0 with
      | Some i =>
          match nth_error (d_nodes d) i with
          | Some n => (set_dirty (with_nodes d (replace_nth i (set_model n (Some m)) (d_nodes d))), Ok i)
          | None => (d, Panic)                                  (* not reachable *)
          end
      | None =>
          let n := set_model (new_node (ns_xml_name ns0 "")) (Some m) in
          (set_dirty (with_nodes d (d_nodes d ++ [n])%list), Ok (List.length (d_nodes d)))
      end
  end.

(* append(d.nodes[:i], d.nodes[i+1:]...) *)
Definition remove_nth {A} (i : nat) (l : list A) : list A := (firstn i l ++ skipn (S i) l)%list.

(* xmp/document.go:189-207; also returns the index of the removed node. v.Close() recycles the removed
   subtree, see PoolM.v *)
Definition remove_namespace_i (d : doc M) (ns : namespace) : doc M * option nat :=
  match find_index (fun v => node_local v =? ns_name ns) (d_nodes d) with
  | Some i =>
      (set_dirty (with_maps (with_nodes d (remove_nth i (d_nodes d)))
                    (map_del (d_int d) (ns_uri ns)) (map_del (d_ext d) (ns_uri ns))), Some i)
  | None => (d, None)
  end.
Definition remove_namespace (d : doc M) (ns : namespace) : doc M * bool :=
  let '(d', o) := remove_namespace_i d ns in (d', match o with Some _ => true | None => false end).

(* xmp/document.go:209-212; RemoveNamespace(nil) returns false *)
Definition remove_namespace_by_name (reg : registry) (d : doc M) (n : string) : doc M * bool :=
  match find_ns_by_prefix reg d n with
  | Some ns => remove_namespace d ns
  | None => (d, false)
  end.

(* xmp/document.go:215-222 *)
Definition remove_namespaces (d : doc M) (l : list namespace) : doc M * bool :=
  fold_left (fun '(d, b) ns => let '(d', r) := remove_namespace d ns in (d', b || r)) l (d, false).

(* xmp/document.go:226-244 *)
Definition filter_namespaces (reg : registry) (d : doc M) (keep : list namespace) : doc M * bool :=
  let all := flat_map (fun v => match find_ns_by_prefix reg d (node_namespace v) with
                                | Some ns => [ns] | None => [] end) (d_nodes d) in
  fold_left (fun '(d, b) ns =>
               if nsl_contains keep (Some ns) then (d, b)
               else let '(d', r) := remove_namespace d ns in (d', b || r)) all (d, false).

(* xmp/filter.go:138-149 *)
Definition filter_apply (reg : registry) (f : filter_t) (d : doc M) : doc M * bool :=
  let '(d1, r1) := match f_include f with [] => (d, false) | l => filter_namespaces reg d l end in
  let '(d2, r2) := match f_exclude f with [] => (d1, false) | l => remove_namespaces d1 l end in
  (d2, r1 || r2).

(* xmp/document.go:96-109. The loop ranges over the node list as it was at the start; SyncToXMP
   implementations do not remove nodes, so node i stays at index i. *)
Fixpoint sync_to_loop (k i : nat) (d : doc M) : doc M * result unit :=
  match k with
  | 0 => (d, Ok tt)
  | S k' =>
      match model_at d i with
      | None => sync_to_loop k' (S i) d
      | Some m =>
          match mo_sync_to ops m i d with
          | (d', Ok _) => sync_to_loop k' (S i) d'
          | (d', e) => (d', e)
          end
      end
  end.
Definition sync_to_xmp (d : doc M) : doc M * result unit :=
  if negb (d_dirty d) then (d, Ok tt)
  else match sync_to_loop (List.length (d_nodes d)) 0 d with
       | (d', Ok _) => (with_dirty d' false, Ok tt)
       | (d', e) => (d', e)
       end.

(* xmp/path.go:251-279 *)
Definition doc_get_path (reg : registry) (d : doc M) (p : path) : result string :=
  if negb (is_xmp_path p) then Err "invalid path"
  else match path_namespace reg d p with
       | None => Err "invalid path"
       | Some ns =>
           match find_node (mo_can ops) (d_nodes d) (ns_name ns) with
           | None => Err "path not found"
           | Some n =>
               let raw := match node_get_path (mo_can ops) n p with
                          | Err _ => Err "path error" | r => r end in
               match n_model n with
               | None => raw
               | Some m =>
                   match mo_get ops m p with
                   | Ok s => Ok s
                   | Err e => if e =? errNotFound then raw else Err "path error"
                   | Panic => Panic
                   end
               end
           end
       end.

(* The variables m and n of SetPath: nil, a node (or its model) still in the document, or a model or
   node that is no longer (or never was) part of the document. A node removed by RemoveNamespace has been
   closed and is empty. *)
Inductive mref := MNil | MAt (i : nat) | MFree (m : M).
Inductive nref := NNil | NAt (i : nat) | NClosed.

(* what a removal of node k does to the variables *)
Definition shift (k i : nat) : nat := if Nat.ltb k i then i - 1 else i.
Definition mref_remove (d : doc M) (k : nat) (r : mref) : mref :=
  match r with
  | MAt i => if Nat.eqb i k then match model_at d i with Some m => MFree m | None => MNil end
             else MAt (shift k i)
  | _ => r
  end.
Definition nref_remove (k : nat) (r : nref) : nref :=
  match r with NAt i => if Nat.eqb i k then NClosed else NAt (shift k i) | _ => r end.

(* dereferencing *)
Definition mref_get (d : doc M) (r : mref) : option M :=
  match r with MNil => None | MAt i => model_at d i | MFree m => Some m end.
Definition nref_get (d : doc M) (r : nref) : option (node M) :=
  match r with NNil => None | NAt i => nth_error (d_nodes d) i | NClosed => Some (new_node empty_name) end.
(* writing back; writes to a free model or a closed node are not visible in the document *)
Definition mref_put (d : doc M) (r : mref) (m : M) : doc M :=
  match r with
  | MAt i => match nth_error (d_nodes d) i with
             | Some n => with_nodes d (replace_nth i (set_model n (Some m)) (d_nodes d))
             | None => d
             end
  | _ => d
  end.
Definition nref_put (d : doc M) (r : nref) (n : node M) : doc M :=
  match r with NAt i => with_nodes d (replace_nth i n (d_nodes d)) | _ => d end.

(* n.GetPath / n.SetPath with n possibly nil *)
Definition ref_get_path (d : doc M) (r : nref) (p : path) : result string :=
  match nref_get d r with
  | Some n => node_get_path (mo_can ops) n p
  | None => Panic
  end.
Definition ref_set_path (reg : registry) (d : doc M) (r : nref) (p : path) (v : string) (flags : Z)
  : doc M * result unit :=
  match nref_get d r with
  | Some n => let '(n', e) := node_set_path (mo_can ops) reg n p v flags in (nref_put d r n', e)
  | None => (d, Panic)
  end.

(* the end of a SetPath that stops early, e.g. xmp/path.go:464-468 *)
Definition stop (flags : Z) (msg : string) : result unit :=
  if on flags NOFAIL then Ok tt else Err msg.

(* xmp/path.go:490-541, once m and n are known. [reg] is only used for names of raw nodes. *)
Definition set_path_rest (reg : registry) (d : doc M) (p : path) (value : string) (flags : Z)
    (m : mref) (n : nref) : doc M * result unit :=
  let cur :=
    match mref_get d m with
    | Some mv =>
        let g := mo_get ops mv p in if is_not_found g then ref_get_path d n p else g
    | None => ref_get_path d n p
    end in
  match cur with
  | Panic => (d, Panic)
  | Err e => (d, Err e)
  | Ok dest =>
      if dest =? value then (d, Ok tt)
      else if emptyb dest && negb (on flags (Z.lor (Z.lor CREATE APPEND) UNIQUE))
      then (d, stop flags "create flag required")
      else if negb (emptyb dest) && negb (on flags (Z.lor (Z.lor (Z.lor REPLACE DELETE) APPEND) UNIQUE))
      then (d, stop flags "update flag required")
      else
        let '(d', e) :=
          match mref_get d m with
          | Some mv =>
              let '(mv', e) := mo_set ops mv p value flags in
              let d' := mref_put d m mv' in
              if is_not_found e then ref_set_path reg d' n p value flags else (d', e)
          | None => ref_set_path reg d n p value flags
          end in
        match e with
        | Ok _ => (set_dirty d', Ok tt)
        | Err s => (d', if on flags NOFAIL then Ok tt else Err s)
        | Panic => (d', Panic)
        end
  end.

(* xmp/path.go:479-493, once m and n are known *)
Definition set_path_with (reg : registry) (d : doc M) (ns : namespace) (p : path) (value : string) (flags : Z)
    (m : mref) (n : nref) : doc M * result unit :=
  if emptyb value && negb (on flags DELETE) then (d, stop flags "delete flag required")
  else if Nat.eqb (path_len p) 0 && on flags DELETE then
    match remove_namespace_i d ns with
    | (d', Some k) => set_path_rest reg d' p value flags (mref_remove d k m) (nref_remove k n)
    | (d', None) => set_path_rest reg d' p value flags m n
    end
  else set_path_rest reg d p value flags m n.

(* xmp/path.go:459-541 for a resolved namespace *)
Definition set_path_ns (reg : registry) (d : doc M) (ns : namespace) (p : path) (value : string) (flags : Z)
  : doc M * result unit :=
  let mi := doc_find_model d ns in
  let ni := doc_find_node d ns in
  let nr := match ni with Some i => NAt i | None => NNil end in
  match mi with
  | Some i => set_path_with reg d ns p value flags (MAt i) nr
  | None =>
      if match ni with None => true | Some _ => false end && negb (on flags CREATE)
      then (d, stop flags "create flag required to make model")
      else match new_model ns with
           | Some m =>
               match add_model d m with
               | (d', Ok i) => set_path_with reg d' ns p value flags (MAt i) (NAt i)
               | (d', _) => set_path_with reg d' ns p value flags (MFree m) NNil
               end
           | None =>
               match ni with
               | Some _ => set_path_with reg d ns p value flags MNil nr
               | None =>
                   (* d.nodes.AddNode replaces a node with the same local name, else appends *)
                   let d' := with_nodes d (nl_add (d_nodes d) (new_node (ns_root_name ns))) in
                   match find_index (fun v => x_local (n_name v) =? ns_name ns) (d_nodes d') with
                   | Some i => set_path_with reg d' ns p value flags MNil (NAt i)
                   | None => (d', Panic)                                (* not reachable *)
                   end
               end
           end
  end.

(* xmp/path.go:440-541; Register(ns) changes the global registry *)
Definition doc_set_path (reg : registry) (d : doc M) (desc : path_value)
  : registry * doc M * result unit :=
  let flags := if (pv_flags desc =? 0)%Z then DEFAULT else pv_flags desc in
  let p := pv_path desc in
  if negb (is_xmp_path p) then (reg, d, Err "invalid path")
  else match path_namespace reg d p with
       | Some ns => let '(d', e) := set_path_ns reg d ns p (pv_value desc) flags in (reg, d', e)
       | None =>
           if emptyb (pv_ns desc) then (reg, d, Err "invalid path")
           else let ns := Namespace (namespace_prefix p) (pv_ns desc) None in
                let reg' := register reg ns [] in
                let '(d', e) := set_path_ns reg' d ns p (pv_value desc) flags in (reg', d', e)
       end.

(* xmp/path.go:977-999; [sortf] is sort.Sort(byPath(_)) *)
Variable sortf : list path_value -> list path_value.
Fixpoint list_nodes (reg : registry) (l : list (node M)) : result (list path_value) :=
  match l with
  | [] => Ok []
  | v :: r =>
      let raw := list_paths reg sortf v (new_path (node_local v) []) in
      match n_model v with
      | None => match list_nodes reg r with Ok t => Ok (raw ++ t)%list | e => e end
      | Some m =>
          match mo_list ops m with
          | Ok a => match list_nodes reg r with Ok t => Ok (a ++ raw ++ t)%list | e => e end
          | e => e
          end
      end
  end.
Definition doc_list_paths (reg : registry) (d : doc M) : doc M * result (list path_value) :=
  match sync_to_xmp d with
  | (d', Ok _) =>
      (d', match list_nodes reg (d_nodes d') with
           | Ok l => Ok (pvl_unique (sortf l))
           | e => e
           end)
  | (d', Err e) => (d', Err e)
  | (d', Panic) => (d', Panic)
  end.

(* GetModelPath / SetModelPath on a possibly nil model: with at least one path segment the zero
   reflect.Value is asked for its type, which panics *)
Definition get_model_path (m : option M) (p : path) : result string :=
  match m with
  | Some m => mo_get ops m p
  | None => if emptyb (fst (pop_front p)) then Ok "" else Panic
  end.
Definition set_model_path (m : option M) (p : path) (v : string) (flags : Z) : option M * result unit :=
  match m with
  | Some m => let '(m', e) := mo_set ops m p v flags in (Some m', e)
  | None => (None, if emptyb (fst (pop_front p)) then Ok tt else Panic)
  end.

(* the choice of the destination model, xmp/sync.go:182-199. Ok None: return nil *)
Definition sync_dest (d : doc M) (dp : path) (dns : namespace) (flags : Z) (v : option nat)
  : result (option (doc M * mref)) :=
  match v with
  | Some i =>
      match option_map (mo_namespaces ops) (model_at d i) with
      | Some (ns0 :: _) => Ok (if namespace_prefix dp =? ns_name ns0 then Some (d, MAt i) else None)
      | _ => Panic                                      (* index out of range *)
      end
  | None =>
      match doc_find_model d dns with
      | Some i => Ok (Some (d, MAt i))
      | None =>
          if negb (on flags CREATE) then Ok None
          else match new_model dns with
               | None => Ok (Some (d, MNil))            (* AddModel(nil) fails, the error is dropped *)
               | Some m => match add_model d m with
                           | (d', Ok i) => Ok (Some (d', MAt i))
                           | (d', _) => Ok (Some (d', MFree m))
                           end
               end
      end
  end.

(* an error under NOFAIL is dropped *)
Definition nofail (flags : Z) (r : result unit) : result unit :=
  match r with Err e => if on flags NOFAIL then Ok tt else Err e | _ => r end.
Definition forget {A} (r : result A) : result unit :=
  match r with Ok _ => Ok tt | Err e => Err e | Panic => Panic end.

(* xmp/sync.go:201-250; sm is the source model *)
Definition sync_copy (d : doc M) (sp dp : path) (flags : Z) (sm : option M) (dr : mref)
    (conv : option (string -> string)) : doc M * result unit :=
  match get_model_path sm sp with
  | Ok sv =>
      match get_model_path (mref_get d dr) dp with
      | Ok dv =>
          if sv =? dv then (d, Ok tt)
          else if emptyb sv && negb (on flags DELETE) then (d, Ok tt)
          else if emptyb dv && negb (on flags CREATE) then (d, Ok tt)
          else if negb (emptyb dv) && negb (on flags (Z.lor (Z.lor (Z.lor REPLACE DELETE) APPEND) UNIQUE))
          then (d, Ok tt)
          else
            let sv := match conv with Some f => f sv | None => sv end in
            let '(dm, e) := set_model_path (mref_get d dr) dp sv flags in
            let d2 := match dm with Some m => mref_put d dr m | None => d end in
            match e with
            | Ok _ => (set_dirty d2, Ok tt)
            | _ => (d2, nofail flags e)
            end
      | e => (d, nofail flags (forget e))
      end
  | e => (d, nofail flags (forget e))
  end.

(* xmp/sync.go:156-251. [v] is the optional destination model (by node index); [conv] the converter *)
Definition doc_sync (reg : registry) (d : doc M) (sp dp : path) (flags : Z) (v : option nat)
    (conv : option (string -> string)) : doc M * result unit :=
  let flags := if (flags =? 0)%Z then DEFAULT else flags in
  if negb (is_xmp_path sp) || negb (is_xmp_path dp) then (d, Ok tt)
  else
    match path_namespace reg d sp, path_namespace reg d dp with
    | Some sns, Some dns =>
        match doc_find_model d sns with
        | None => (d, Ok tt)
        | Some si =>
            match sync_dest d dp dns flags v with
            | Ok (Some (d', dr)) => sync_copy d' sp dp flags (model_at d si) dr conv
            | Ok None => (d, Ok tt)
            | e => (d, forget e)
            end
        end
    | _, _ => (d, Ok tt)
    end.

(* the loop of xmp/sync.go:266-271 *)
Fixpoint merge_loop (reg : registry) (d : doc M) (l : list path_value) (flags : Z)
  : registry * doc M * result unit :=
  match l with
  | [] => (reg, d, Ok tt)
  | v :: r =>
      match doc_set_path reg d (PathValue (pv_path v) (pv_ns v) (pv_value v) flags) with
      | (reg', d', Ok _) => merge_loop reg' d' r flags
      | x => x
      end
  end.

(* copying a map into another, xmp/sync.go:260-265 *)
Definition copy_map (src dst : gomap namespace) : gomap namespace :=
  fold_left (fun m e => map_set m (fst e) (snd e)) src dst.

(* xmp/sync.go:253-274; returns also b, whose models were synchronised *)
Definition doc_merge (reg : registry) (d b : doc M) (flags : Z)
  : registry * doc M * doc M * result unit :=
  match doc_list_paths reg b with
  | (b', Ok l) =>
      let d1 := with_maps d (copy_map (d_int b') (d_int d)) (copy_map (d_ext b') (d_ext d)) in
      match merge_loop reg d1 l flags with
      | (reg', d2, Ok _) => (reg', set_dirty d2, b', Ok tt)
      | (reg', d2, e) => (reg', d2, b', e)
      end
  | (b', Err e) => (reg, d, b', Err e)
  | (b', Panic) => (reg, d, b', Panic)
  end.

End Doc.
Arguments MNil {M}. Arguments MAt {M}. Arguments MFree {M}.
