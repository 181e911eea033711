(* JSON form of documents: xmp/json.go. The JSON text itself (encoding/json) is not modelled; both sides work
   on JSON values. Go maps have no order: JSON objects are lists of members (with different keys) in the order
   in which a range loop happens to visit them, and what is read may be any reordering of what was written. *)
From Coq Require Import List Arith ZArith Bool Ascii String.
From Verif Require Import GoStr GoMap Names Semver PathM RegistryM NodeM DocM ArrayM TypeM DecodeM.
Import ListNotations.
Local Open Scope string_scope.

(* the dynamic types json.Unmarshal stores in an interface{}; a float64 is represented by the text
   strconv.FormatFloat(val, 'f', -1, 64) gives (json.go:298) *)
Inductive json :=
| JNull
| JBool (b : bool)
| JNum (text : string)
| JStr (s : string)
| JArr (l : list json)
| JObj (m : list (string * json)).

(* the JSON of an AltItem by its tags, xmp/array.go:46-50 *)
Definition item_json (x : alt_item) : json :=
  JObj [("value", JStr (ai_value x)); ("lang", JStr (ai_lang x)); ("isDefault", JBool (ai_default x))].

Section J.
Context {M : Type}.
Notation node := (node M).
Variable reg : registry.

(* ---- writing -------------------------------------------------------------------------------------- *)

(* json.go:184-196: the item of a list item *)
Definition item_of (vv : node) : alt_item :=
  let lang := match get_attr vv "" "lang" with a :: _ => a_value a | [] => "" end in
  AltItem (n_value vv) lang (lang =? "x-default").
(* the last item with that language (json.go:191-195 overwrites): its index and value *)
Fixpoint last_default (i : nat) (l : list alt_item) (found : option (nat * string)) : option (nat * string) :=
  match l with
  | [] => found
  | x :: r => last_default (S i) r (if ai_default x then Some (i, ai_value x) else found)
  end.
(* json.go:179-210 *)
Definition json_alts (l : list node) : list alt_item :=
  let a := map item_of l in
  match last_default 0 a None with
  | Some (i, s) =>
      if negb (emptyb s) && Nat.ltb 1 (List.length a) then
        let a := map (fun x => if ai_value x =? s then AltItem (ai_value x) (ai_lang x) true else x) a in
        (firstn i a ++ skipn (S i) a)%list
      else a
  | None => a
  end.

(* json.go:131-140 *)
Definition attr_members (l : list attr) : gomap json :=
  fold_left (fun out v => if x_local (a_name v) =? "rdf:parseType" then out
                          else map_set out (x_local (a_name v)) (JStr (a_value v))) l [].

(* json.go:123-223. Line 149-160 does what nodeToJson does. *)
Fixpoint node_to_json (n : node) : json :=
  let 'Node _ attrs _ value kids := n in
  if negb (emptyb value) then JStr value
  else
    (fix go (l : list node) (out : gomap json) : json :=
       match l with
       | [] => JObj out
       | v :: r =>
           let 'Node _ _ _ _ items := v in
           let f := full_name reg v in
           if (f =? "rdf:Bag") || (f =? "rdf:Seq") then JArr (map node_to_json items)
           else if f =? "rdf:Alt" then
             match items with
             | Node _ _ _ _ (_ :: _) :: _ => JArr (map node_to_json items)
             | _ => JArr (map item_json (json_alts items))
             end
           else go r (map_set out f (node_to_json v))
       end) kids (attr_members attrs).

(* ---- reading --------------------------------------------------------------------------------------- *)

(* _, ok := m[k] *)
Definition map_has (m : gomap json) (k : string) : bool := match map_get m k with Some _ => true | None => false end.
(* json.go:413-432 *)
Definition is_item (v : json) : bool :=
  match v with
  | JObj m => Nat.leb (List.length m) 3 && map_has m "value" && map_has m "lang" && map_has m "isDefault"
  | _ => false
  end.
(* json.go:434-443 *)
Definition json_array_type (l : list json) : string :=
  match l with
  | x :: _ => if is_item x then "Alt" else "Seq"
  | [] => "Seq"
  end.

Definition rdf_name (l : string) : xname := XName ns_rdf_uri l.
Definition json_li : node := new_node (rdf_name "li").
Definition json_lang_li (lang value : string) : node := Node (rdf_name "li") [Attr (new_name "xml:lang") lang] None value [].

(* json.go:328-362: the list items for one element of an Alt array; the type assertions panic *)
Definition alt_lis (av : json) : result (list node) :=
  match av with
  | JObj item =>
      match map_get item "isDefault" with
      | Some (JBool def) =>
          match map_get item "lang" with
          | Some (JStr lang) =>
              match map_get item "value" with
              | Some (JStr val) =>
                  Ok (if def then json_lang_li "x-default" val :: (if emptyb lang then [] else [json_lang_li lang val])
                      else if emptyb lang then [json_li] else [json_lang_li lang val])
              | _ => Panic
              end
          | _ => Panic
          end
      | _ => Panic
      end
  | _ => Panic
  end.
Fixpoint all_alt_lis (l : list json) : result (list node) :=
  match l with
  | [] => Ok []
  | x :: r => bind (alt_lis x) (fun a => bind (all_alt_lis r) (fun b => Ok (a ++ b)%list))
  end.

(* json.go:290-383: the node with the additions *)
Fixpoint json_to_node (name : string) (v : json) (n : node) : result node :=
  let simple (s : string) :=
    Ok (if negb (emptyb name) && negb (name =? "rdf:value")
        then append_node n (set_value (new_node (new_name name)) s)
        else set_value n s) in
  match v with
  | JNull => Ok n
  | JBool b => simple (if b then "true" else "false")
  | JNum s => simple s
  | JStr s => simple s
  | JArr l =>
      if emptyb name then Ok n
      else
        let typ := json_array_type l in
        bind (if typ =? "Alt" then all_alt_lis l
              else (fix go (l : list json) : result (list node) :=
                      match l with
                      | [] => Ok []
                      | x :: r => bind (json_to_node "" x json_li) (fun a => bind (go r) (fun b => Ok (a :: b)))
                      end) l)
             (fun lis => Ok (append_node n (set_nodes (new_node (new_name name)) [set_nodes (new_node (rdf_name typ)) lis])))
  | JObj m =>
      let members (n : node) :=
        (fix go (m' : list (string * json)) (n : node) : result node :=
           match m' with
           | [] => Ok n
           | (on, ov) :: r =>
               bind (json_to_node (if is_item (JObj m) && (on =? "value") then "" else on) ov n) (fun n => go r n)
           end) m n in
      if emptyb name then members n
      else bind (members (new_node (new_name name))) (fun o => Ok (append_node n o))
  end.
End J.

(* ---- documents --------------------------------------------------------------------------------------- *)

(* json.go:25-37 *)
Record jdoc := JDoc {
  j_about : string; j_toolkit : string;
  j_namespaces : list (string * string);
  j_models : list (string * json)
}.

Section D.
Context {X : Type}.
Notation model := (tmodel X).
Notation node := (node (tmodel X)).
Notation doc := (doc (tmodel X)).
Variable ver : version.
Variable reg : registry.
Variable kinds : nat -> string -> option (mkind X).

(* v == nsX || v == nsXML || v == nsRDF, json.go:94, compared by name and URI *)
Definition is_basic (ns : namespace) : bool :=
  is_core ns || ((ns_name ns =? "x") && (ns_uri ns =? ns_x_uri)).

(* json.go:39-121 after syncToXMP. The tree is built as by Encode (json.go:64-89 and marshal.go:160-185). *)
Definition to_json (d : doc) : result jdoc :=
  bind (encode_doc_nodes ver reg d [] (d_nodes d)) (fun roots =>
    Ok (JDoc (d_about d) (if emptyb (d_toolkit d) then toolkit_version else d_toolkit d)
          (fold_left (fun m ns => map_set m (ns_name ns) (ns_uri ns))
             (filter (fun ns => negb (is_basic ns)) (flat_map (node_namespaces reg d) roots)) [])
          (fold_left (fun m n => if is_zero n then m else map_set m (node_namespace n) (node_to_json reg n)) roots []))).

(* json.go:253-263: the top level nodes *)
Fixpoint model_nodes (l : list (string * json)) : result (list node) :=
  match l with
  | [] => Ok []
  | (name, v) :: r =>
      bind (match v with
            | JNull => Ok (new_node (new_name name))
            | JObj m =>
                (fix go (m : list (string * json)) (n : node) : result node :=
                   match m with
                   | [] => Ok n
                   | (on, ov) :: m' => bind (json_to_node on ov n) (fun n => go m' n)
                   end) m (new_node (new_name name))
            | _ => Err "xmp: json unmarshal model failed"
            end) (fun n =>
      bind (model_nodes r) (fun l => Ok (n :: l)))
  end.

(* json.go:266-279 *)
Fixpoint decode_models (i e : gomap namespace) (l : list node) (roots : list node) : result (list node) :=
  match roots with
  | [] => Ok l
  | n :: r =>
      bind ((fix attrs (al : list attr) (l : list node) : result (list node) :=
               match al with
               | [] => Ok l
               | a :: al' => bind (decode_attribute ver reg kinds i e l a) (fun l => attrs al' l)
               end) (n_attrs n) l) (fun l =>
      bind (decode_kids ver reg kinds i e l (n_nodes n)) (fun l => decode_models i e l r))
  end.

Variable sync_from : doc -> doc * result unit.        (* syncFromXMP, xmp/document.go:84-93 *)

(* json.go:230-288 on the parsed value *)
Definition from_json (x : doc) (j : jdoc) : doc * result unit :=
  let '(i, e) := fold_left (fun m pu => add_namespace reg m (fst pu) (snd pu)) (j_namespaces j) ([], []) in
  match bind (model_nodes (j_models j)) (fun roots => decode_models i e [] roots) with
  | Ok nodes => sync_from (Doc (j_toolkit j) nodes (d_dirty x) (j_about j) i e)
  | Err s => (x, Err s)
  | Panic => (x, Panic)
  end.
End D.
