(* Node trees: xmp/node.go. Nodes are modelled as trees (values): two nodes reached by different ways
   are different nodes, which is the shape the library builds (no node is attached twice). The heap view,
   with addresses, recycling and aliasing, is in PoolM.v.
   [M] is the Go interface type Model, [can] its method Can (xmp/model.go); [reg] is the global NsRegistry. *)
From Coq Require Import List Arith ZArith Bool Ascii String.
From Verif Require Import GoStr GoMap Names PathM SyncFlags PVList RegistryM.
Local Open Scope string_scope.

(* xmp/node.go:39-42 *)
Record attr := Attr { a_name : xname; a_value : string }.

(* xmp/node.go:31-37 *)
Inductive node (M : Type) : Type :=
  Node (name : xname) (attrs : list attr) (model : option M) (value : string) (nodes : list (node M)).
Arguments Node {M} name attrs model value nodes.

(* the fields of a node, xmp/node.go:32-36 *)
Definition n_name {M} (n : node M) : xname := let 'Node x _ _ _ _ := n in x.
Definition n_attrs {M} (n : node M) : list attr := let 'Node _ a _ _ _ := n in a.
Definition n_model {M} (n : node M) : option M := let 'Node _ _ m _ _ := n in m.
Definition n_value {M} (n : node M) : string := let 'Node _ _ _ v _ := n in v.
Definition n_nodes {M} (n : node M) : list (node M) := let 'Node _ _ _ _ l := n in l.
(* assignments to the fields *)
Definition set_value {M} (n : node M) (v : string) : node M := let 'Node x a m _ l := n in Node x a m v l.
Definition set_attrs {M} (n : node M) (a : list attr) : node M := let 'Node x _ m v l := n in Node x a m v l.
Definition set_nodes {M} (n : node M) (l : list (node M)) : node M := let 'Node x a m v _ := n in Node x a m v l.
Definition set_model {M} (n : node M) (m : option M) : node M := let 'Node x a _ v l := n in Node x a m v l.
Definition set_name {M} (n : node M) (x : xname) : node M := let 'Node _ a m v l := n in Node x a m v l.

(* xmp/node.go:75-77 *)
Definition new_name (local : string) : xname := XName "" local.
(* xmp/node.go:73 *)
Definition empty_name : xname := XName "" "".

(* xmp/node.go:79-101 NewNode; both branches give a node with these fields *)
Definition new_node {M} (x : xname) : node M := Node x [] None "" [].

(* xmp/node.go:46-56 AttrList.IsZero *)
Definition attrs_is_zero (l : list attr) : bool := forallb (fun a => emptyb (a_value a)) l.

(* xmp/node.go:187-196 *)
Fixpoint is_zero {M} (n : node M) : bool :=
  let 'Node _ a m v l := n in
  let empty := match m with None => true | Some _ => false end && emptyb v
               && (Nat.eqb (List.length a) 0 || attrs_is_zero a) in
  if negb empty then false
  else fold_left (fun e x => e && is_zero x) l empty.

(* xmp/node.go:198-200 *)
Definition node_local {M} (n : node M) : string := strip_prefix (x_local (n_name n)).

(* xmp/node.go:202-207 *)
Definition full_name {M} (reg : registry) (n : node M) : string :=
  if negb (emptyb (x_space (n_name n))) then short reg (x_space (n_name n)) (x_local (n_name n))
  else x_local (n_name n).

(* xmp/node.go:209-215 *)
Definition node_namespace {M} (n : node M) : string :=
  if emptyb (x_space (n_name n)) then get_prefix (x_local (n_name n)) else x_space (n_name n).

(* xmp/node.go:140-148 NodeList.AddNode *)
Fixpoint nl_add {M} (l : list (node M)) (n : node M) : list (node M) :=
  match l with
  | [] => [n]
  | v :: r => if x_local (n_name v) =? x_local (n_name n) then n :: r else v :: nl_add r n
  end.

(* xmp/node.go:255-260 Node.AddNode; the self-loop panic needs pointer identity, see PoolM.v *)
Definition add_node {M} (n x : node M) : node M := set_nodes n (nl_add (n_nodes n) x).

(* xmp/node.go:263-268 and 150-153 *)
Definition append_node {M} (n x : node M) : node M := set_nodes n (n_nodes n ++ [x])%list.

(* xmp/node.go:310-318 *)
Fixpoint al_add (l : list attr) (a : attr) : list attr :=
  match l with
  | [] => [a]
  | v :: r => if x_local (a_name v) =? x_local (a_name a) then Attr (a_name v) (a_value a) :: r
              else v :: al_add r a
  end.
Definition add_attr {M} (n : node M) (a : attr) : node M := set_attrs n (al_add (n_attrs n) a).

(* xmp/node.go:321-323 *)
Definition add_string_attr {M} (n : node M) (name value : string) : node M :=
  add_attr n (Attr (new_name name) value).

(* xmp/node.go:325-337; the result is a copy of the attributes *)
Definition al_get (l : list attr) (ns name : string) : list attr :=
  filter (fun v => (emptyb ns || (x_space (a_name v) =? ns))
                   && (emptyb name || (strip_prefix (x_local (a_name v)) =? name))) l.
Definition get_attr {M} (n : node M) (ns name : string) : list attr := al_get (n_attrs n) ns name.

(* xmp/unmarshal.go:521-532 *)
Definition skip_field (x : xname) : bool :=
  (x_space x =? "xmlns") || (x_local x =? "rdf:parseType") || (x_local x =? "rdf:type")
  || (x_local x =? "xml:lang").

Section Ops.
Context {M : Type}.
Variable can : M -> string -> bool.
Variable reg : registry.

(* the test of FindNodeByName, xmp/node.go:161-166 *)
Definition matches (prefix : string) (v : node M) : bool :=
  (node_local v =? prefix) || match n_model v with Some m => can m prefix | None => false end.

(* xmp/node.go:159-169 *)
Definition find_node (l : list (node M)) (prefix : string) : option (node M) := find (matches prefix) l.

(* xmp/node.go:284-294 *)
Definition is_array (n : node M) : bool :=
  match n_nodes n with
  | [c] => let f := full_name reg c in (f =? "rdf:Seq") || (f =? "rdf:Bag") || (f =? "rdf:Alt")
  | _ => false
  end.

(* xmp/node.go:296-308; "" is ArrayType("") *)
Definition array_type (n : node M) : string :=
  match n_nodes n with
  | [c] => let f := full_name reg c in
           if f =? "rdf:Seq" then "Seq" else if f =? "rdf:Bag" then "Bag"
           else if f =? "rdf:Alt" then "Alt" else ""
  | _ => ""
  end.

(* the first "lang" attribute of a list item (xmp/node.go:423-427 and 570-571) *)
Definition lang_of (v : node M) : option string :=
  match get_attr v "" "lang" with [] => None | a :: _ => Some (a_value a) end.
Definition has_lang (lang : string) (v : node M) : bool :=
  match lang_of v with Some s => s =? lang | None => false end.

(* xmp/node.go:392-441. [fuel] bounds the number of recursive calls; running out of fuel is reported as
   Panic and never happens when fuel exceeds the length of the path (get_path_fuel in NodeFacts.v). *)
Fixpoint get_path_f (fuel : nat) (n : node M) (p : path) : result string :=
  match fuel with
  | 0 => Panic
  | S f =>
      let '(seg, p') := pop_front p in
      let '(name, idx, lang) := parse_segment seg in
      if (idx <? -1)%Z then Err "invalid index"
      else if emptyb name && (idx =? -1)%Z && emptyb lang then
        if Nat.eqb (path_len p') 0 then Ok (n_value n) else get_path_f f n p'
      else
        match find_node (n_nodes n) (strip_prefix name) with
        | Some c =>
            if (-1 <? idx)%Z then
              match n_nodes c with
              | [] => Ok ""
              | arr :: _ =>
                  match nth_error (n_nodes arr) (Z.to_nat idx) with
                  | Some li => get_path_f f li p'
                  | None => Ok ""
                  end
              end
            else if negb (emptyb lang) then
              match n_nodes c with
              | [] => Ok ""
              | arr :: _ =>
                  match find (has_lang lang) (n_nodes arr) with
                  | Some li => Ok (n_value li)
                  | None => Ok ""
                  end
              end
            else get_path_f f c p'
        | None =>
            match get_attr n "" (strip_prefix name) with
            | a :: _ => Ok (a_value a)
            | [] => Ok ""
            end
        end
  end.
Definition node_get_path (n : node M) (p : path) : result string := get_path_f (S (path_len p)) n p.

(* replace (Some v') or remove (None) the first element satisfying t; None if there is none.
   This is what "x := l.FindNode...; modify *x / l.RemoveNode(x)" does to l. *)
Fixpoint upd_first (t : node M -> bool) (f : node M -> option (node M) * result unit) (l : list (node M))
  : option (list (node M) * result unit) :=
  match l with
  | [] => None
  | v :: r =>
      if t v then let '(o, e) := f v in
                  Some (match o with Some v' => v' :: r | None => r end, e)
      else match upd_first t f r with
           | Some (r', e) => Some (v :: r', e)
           | None => None
           end
  end.

(* replace the element at position i (i < len) *)
Fixpoint upd_nth (i : nat) (f : node M -> node M * result unit) (l : list (node M))
  : list (node M) * result unit :=
  match l, i with
  | [], _ => ([], Panic)
  | v :: r, 0 => let '(v', e) := f v in (v' :: r, e)
  | v :: r, S i' => let '(r', e) := upd_nth i' f r in (v :: r', e)
  end.

(* "for ; l <= idx; l++ { arr.AppendNode(NewNode(NewName("rdf:li"))) }" (xmp/node.go:505-507, 538-540) *)
Definition grow (i : nat) (l : list (node M)) : list (node M) :=
  (l ++ repeat (new_node (new_name "rdf:li")) (S i - List.length l))%list.

(* a new list item, xmp/node.go:521-522 and 576-578 *)
Definition new_li (value : string) : node M := set_value (new_node (new_name "rdf:li")) value.
Definition new_lang_li (lang value : string) : node M :=
  set_value (add_string_attr (new_node (new_name "rdf:li")) "xml:lang" lang) value.

(* arr.Nodes = append(arr.Nodes[:idx], arr.Nodes[idx+1:]...) if idx < len (xmp/node.go:550-552) *)
Definition del_nth (i : nat) (l : list (node M)) : list (node M) :=
  (firstn i l ++ skipn (S i) l)%list.

(* the switch for an array node at the end of the path, xmp/node.go:513-555; None = arr removed *)
Definition set_array_end (arr : node M) (idx : Z) (value : string) (flags : Z)
  : option (node M) * result unit :=
  let some := negb (emptyb value) in
  if on flags UNIQUE && some && (idx =? -1)%Z then
    if existsb (fun v => n_value v =? value) (n_nodes arr) then (Some arr, Ok tt)
    else (Some (append_node arr (new_li value)), Ok tt)
  else if on flags APPEND && some && (idx =? -1)%Z then (Some (append_node arr (new_li value)), Ok tt)
  else if on flags (Z.lor REPLACE CREATE) && some && (idx =? -1)%Z then
    (Some (set_nodes arr [new_li value]), Ok tt)
  else if on flags (Z.lor REPLACE CREATE) && some && (-1 <? idx)%Z then
    let '(l, e) := upd_nth (Z.to_nat idx) (fun v => (set_value v value, Ok tt)) (grow (Z.to_nat idx) (n_nodes arr)) in
    (Some (set_nodes arr l), e)
  else if on flags DELETE && negb some && (idx =? -1)%Z then (None, Ok tt)
  else if on flags DELETE && negb some && (-1 <? idx)%Z then
    (Some (set_nodes arr (del_nth (Z.to_nat idx) (n_nodes arr))), Ok tt)
  else (Some arr, Err "unsupported flag combination").

(* the switch for a language alternative, xmp/node.go:566-621, here always with lang <> "" *)
Definition set_alt_end (arr : node M) (lang value : string) (flags : Z) : option (node M) * result unit :=
  let some := negb (emptyb value) in
  if on flags UNIQUE && some then
    if existsb (fun v => has_lang lang v && (n_value v =? value)) (n_nodes arr) then (Some arr, Ok tt)
    else (Some (append_node arr (new_lang_li lang value)), Ok tt)
  else if on flags APPEND && some then (Some (append_node arr (new_lang_li lang value)), Ok tt)
  else if on flags (Z.lor REPLACE CREATE) && some then
    match upd_first (has_lang lang) (fun v => (Some (set_value v value), Ok tt)) (n_nodes arr) with
    | Some (l, e) => (Some (set_nodes arr l), e)
    | None => (Some arr, Ok tt)
    end
  else if on flags DELETE && negb some then
    match upd_first (has_lang lang) (fun v => (None, Ok tt)) (n_nodes arr) with
    | Some (l, e) => (Some (set_nodes arr l), e)
    | None => (Some arr, Ok tt)
    end
  else (Some arr, Err "unsupported flag combination").

(* the array branch, xmp/node.go:484-555, for the property node c; [rec] is the recursive call *)
Definition set_array (rec : node M -> path -> node M * result unit)
    (c : node M) (p' : path) (idx : Z) (value : string) (flags : Z) : node M * result unit :=
  let on_arr (arr : node M) : option (node M) * result unit :=
    if Nat.ltb 0 (path_len p') then
      let i := Z.to_nat (if (idx <? 0)%Z then 0%Z else idx) in
      if Nat.leb (List.length (n_nodes arr)) i && negb (on flags (Z.lor CREATE APPEND)) && negb (emptyb value)
      then (Some arr, Err "CREATE flag required to extend array")
      else let '(l, e) := upd_nth i (fun li => rec li p') (grow i (n_nodes arr)) in
           (Some (set_nodes arr l), e)
    else set_array_end arr idx value flags in
  match upd_first (matches "Seq") on_arr (n_nodes c) with
  | Some (l, e) => (set_nodes c l, e)
  | None =>
      match upd_first (matches "Bag") on_arr (n_nodes c) with
      | Some (l, e) => (set_nodes c l, e)
      | None =>
          if negb (on flags CREATE) then (c, Err "CREATE flag required to make array")
          else match on_arr (new_node (new_name "rdf:Seq")) with
               | (Some arr, e) => (add_node c arr, e)
               | (None, e) => (c, e)                    (* added and removed again *)
               end
      end
  end.

(* the AltString branch, xmp/node.go:558-621 *)
Definition set_alt (c : node M) (lang value : string) (flags : Z) : node M * result unit :=
  match upd_first (matches "Alt") (fun arr => set_alt_end arr lang value flags) (n_nodes c) with
  | Some (l, e) => (set_nodes c l, e)
  | None =>
      if negb (on flags (Z.lor CREATE APPEND)) then (c, Err "CREATE flag required to extend array")
      else match set_alt_end (new_node (new_name "rdf:Alt")) lang value flags with
           | (Some arr, e) => (add_node c arr, e)
           | (None, e) => (c, e)
           end
  end.

(* the default branch, xmp/node.go:623-640 *)
Definition set_simple (rec : node M -> path -> node M * result unit)
    (c : node M) (p' : path) (value : string) (flags : Z) : node M * result unit :=
  if Nat.ltb 0 (path_len p') then rec c p'
  else if on flags (Z.lor REPLACE CREATE) && negb (emptyb value) then (set_value c value, Ok tt)
  else if on flags DELETE && emptyb value then (set_nodes (set_value c value) [], Ok tt)
  else (c, Err "unsupported flag combination").

(* the switch xmp/node.go:483-640 *)
Definition set_child (rec : node M -> path -> node M * result unit)
    (c : node M) (p' : path) (idx : Z) (lang value : string) (flags : Z) : node M * result unit :=
  if (-1 <? idx)%Z || (is_array c && emptyb lang) then set_array rec c p' idx value flags
  else if negb (emptyb lang) then set_alt c lang value flags
  else set_simple rec c p' value flags.

(* xmp/node.go:443-643. The node is returned also on error: changes made before the error stay.
   Lines 459-469 assign to attr[0], an element of the copy GetAttr returned, so nothing changes. *)
Fixpoint set_path_f (fuel : nat) (n : node M) (p : path) (value : string) (flags : Z) : node M * result unit :=
  match fuel with
  | 0 => (n, Panic)
  | S f =>
      let '(seg, p') := pop_front p in
      let '(name, idx, lang) := parse_segment seg in
      if (idx <? -1)%Z then (n, Err "invalid index")
      else if emptyb name && (idx =? -1)%Z && emptyb lang then
        (if Nat.eqb (path_len p') 0 then set_value n value else n, Ok tt)
      else if negb (Nat.eqb (List.length (get_attr n "" (strip_prefix name))) 0)
              && ((on flags REPLACE && negb (emptyb value)) || (on flags DELETE && emptyb value))
      then (n, Ok tt)
      else
        let rec li q := set_path_f f li q value flags in
        match upd_first (matches (strip_prefix name))
                (fun c => let '(c', e) := set_child rec c p' idx lang value flags in (Some c', e)) (n_nodes n) with
        | Some (l, e) => (set_nodes n l, e)
        | None =>
            if on flags CREATE && negb (emptyb value) then
              let name' := if negb (emptyb name) && negb (has_prefix name)
                           then namespace_prefix p' ++ ":" ++ name else name in
              let '(c', e) := set_child rec (new_node (new_name name')) p' idx lang value flags in
              (add_node n c', e)
            else (n, Err "CREATE flag required to make node")
        end
  end.
Definition node_set_path (n : node M) (p : path) (value : string) (flags : Z) : node M * result unit :=
  set_path_f (S (path_len p)) n p value flags.

(* ---- ListPaths, xmp/node.go:645-714 ------------------------------------------------------------ *)

(* sort.Sort(byPath(_)), xmp/path.go:102-110 and xmp/node.go:712; any function that returns a sorted
   permutation of its argument (sort.Sort is not stable, so equal paths may come in any order) *)
Variable sortf : list path_value -> list path_value.

(* the name under which a child is listed, xmp/node.go:653-656 and 695-698 *)
Definition list_name (v : node M) (p : path) : string :=
  if negb (node_namespace v =? namespace_prefix p) then full_name reg v else node_local v.

(* xmp/node.go:678-690 *)
Definition list_attrs (l : list attr) (p : path) : list path_value :=
  flat_map (fun a =>
    if skip_field (a_name a) then []
    else let name := x_local (a_name a) in
         let name := if has_prefix name && (get_prefix name =? namespace_prefix p)
                     then strip_prefix name else name in
         [PathValue (push p [name]) "" (a_value a) 0]) l.

(* the language of a list item as listed, xmp/node.go:666-669 *)
Definition list_lang (li : node M) : string :=
  match lang_of li with Some s => s | None => "x-default" end.

(* xmp/node.go:645-714; no error can occur *)
Fixpoint list_paths (n : node M) (p : path) : list path_value :=
  let 'Node x attrs _ value nodes := n in
  let fn := full_name reg (Node x attrs None value ([] : list (node M))) in
  sortf
    (if (fn =? "rdf:Seq") || (fn =? "rdf:Bag") then
       (fix items (i : nat) (l : list (node M)) : list path_value :=
          match l with
          | [] => []
          | li :: r =>
              let walker := append_index (snd (pop p)) (Z.of_nat i) in
              (flat_map (fun v => list_paths v (push walker [list_name v p])) (n_nodes li) ++ items (S i) r)%list
          end) 0 nodes
     else if fn =? "rdf:Alt" then
       map (fun li => PathValue (append_index_string (snd (pop p)) (list_lang li)) "" (n_value li) 0) nodes
     else
       (list_attrs attrs p
        ++ flat_map (fun v => if skip_field (n_name v) then [] else list_paths v (push p [list_name v p])) nodes
        ++ (if emptyb value then [] else [PathValue p "" value 0]))%list).

End Ops.
