(* Typed values and their node form: xmp/marshal.go:276-624, xmp/unmarshal.go:221-346, 400-446, 474-519 and
   MarshalArray/UnmarshalArray (xmp/array.go:531-665), AltString.MarshalXMP/UnmarshalXMP (array.go:220-250).
   The code walks Go types by reflection; here a Go type is a description [ty] and a Go value a [gval].
   Simplifications: embedded structs are described by their flattened field list (typeinfo.go:158-176 does
   the same); floats are text types (their text form is a parameter); maps, fixed size arrays, interfaces,
   pointers to pointers, complex and channel kinds and MarshalerAttr are not described. A type with
   MarshalText/UnmarshalText is described by its codec, which is a parameter: CodecM.v has the codecs of
   the library. Types that implement only one direction are not described. *)
From Coq Require Import List Arith ZArith Bool Ascii String.
From Verif Require Import GoStr GoMap Names Semver RegistryM NodeM ArrayM.
Import ListNotations.
Local Open Scope string_scope.

(* a Go value. VArr l spare: a slice with elements l; spare holds what the backing array contains between
   length and capacity as far as it may differ from zero values. VNil is a nil pointer. *)
Inductive gval (X : Type) : Type :=
| VStr (s : string)                       (* string kinds and byte slices *)
| VBool (b : bool)
| VInt (z : Z)                            (* signed and unsigned integer kinds *)
| VText (x : X)                           (* a value of a type with a text codec *)
| VAlt (l : list alt_item)
| VArr (l spare : list (gval X))
| VNil
| VPtr (v : gval X)
| VStruct (vs : list (gval X)).
Arguments VStr {X}. Arguments VBool {X}. Arguments VInt {X}. Arguments VText {X}. Arguments VAlt {X}.
Arguments VArr {X}. Arguments VNil {X}. Arguments VPtr {X}. Arguments VStruct {X}.

(* encoding.TextMarshaler and TextUnmarshaler of a type, its zero value and isEmptyValue for it.
   c_enc: Ok None is a nil byte slice. c_dec gets the old value (methods may leave it unchanged). *)
Record codec (X : Type) := Codec {
  c_enc : gval X -> result (option string);
  c_dec : gval X -> string -> result (gval X);
  c_zero : gval X;
  c_empty : gval X -> bool;
  c_has_zero : bool                        (* the type has an IsZero method *)
}.
Arguments c_enc {X}. Arguments c_dec {X}. Arguments c_zero {X}. Arguments c_empty {X}. Arguments c_has_zero {X}.

(* xmp/typeinfo.go:31-37 without idx; the interface flags follow from the type. Element fields are the
   fields without the attr flag (typeinfo.go:203-204, 263-265). *)
Record finfo := Finfo {
  f_name : string;
  f_attr : bool; f_empty : bool; f_omit : bool; f_any : bool;
  f_min : version; f_max : version
}.

(* a slice type: Typ(), whether it has MarshalXMP/UnmarshalXMP (which then call MarshalArray/UnmarshalArray
   with Typ()), its text codec if any, and whether it has IsZero *)
Record arr_info (X : Type) := ArrInfo {
  ar_type : string;
  ar_xmp : bool;
  ar_text : option (codec X);
  ar_zero : bool
}.
Arguments ar_type {X}. Arguments ar_xmp {X}. Arguments ar_text {X}. Arguments ar_zero {X}.

(* a struct type: its IsZero method if any, and whether its MarshalXMP writes nothing for zero values
   (if x.IsZero() { return nil }; type _t T; return e.EncodeElement(_t(x), node)), e.g. xmp_bj/types.go:33-39 *)
Record struct_info (X : Type) := StructInfo {
  s_zero : option (list (gval X) -> bool);
  s_guard : bool
}.
Arguments s_zero {X}. Arguments s_guard {X}.

Inductive ty (X : Type) : Type :=
| TStr | TBytes | TBool
| TInt (bits : Z) | TUint (bits : Z)
| TText (c : codec X)
| TAlt (merge : bool)                      (* AltString; merge = UnmarshalXMP joins default and language *)
| TArr (i : arr_info X) (t : ty X)
| TPtr (t : ty X)
| TStruct (i : struct_info X) (fs : list (finfo * ty X)).
Arguments TStr {X}. Arguments TBytes {X}. Arguments TBool {X}. Arguments TInt {X}. Arguments TUint {X}.
Arguments TText {X}. Arguments TAlt {X}. Arguments TArr {X}. Arguments TPtr {X}. Arguments TStruct {X}.

(* the zero value reflect.New / reflect.Zero gives *)
Fixpoint zero {X} (t : ty X) : gval X :=
  match t with
  | TStr | TBytes => VStr ""
  | TBool => VBool false
  | TInt _ | TUint _ => VInt 0
  | TText c => c_zero c
  | TAlt _ => VAlt []
  | TArr _ _ => VArr [] []
  | TPtr _ => VNil
  | TStruct _ fs => VStruct (map (fun f => zero (snd f)) fs)
  end.

Section Env.
Context {X M : Type}.
Notation gval := (gval X).
Notation ty := (ty X).
Variable ver : version.                    (* e.version and d.version *)
Variable reg : registry.                   (* NsRegistry *)
Variables imap emap : gomap namespace.     (* intNsMap and extNsMap of the encoder or decoder *)

Definition active (f : finfo) : bool := version_between ver (f_min f) (f_max f).

(* ---- writing -------------------------------------------------------------------------------- *)

(* v.Type().Implements(zeroType) *)
Definition has_is_zero (t : ty) : bool :=
  match t with
  | TText c => c_has_zero c
  | TAlt _ => true
  | TArr i _ => ar_zero i
  | TStruct i _ => match s_zero i with Some _ => true | None => false end
  | _ => false
  end.

(* xmp/marshal.go:497-517 *)
Fixpoint is_empty (t : ty) (v : gval) : bool :=
  match t, v with
  | (TStr | TBytes), VStr s => emptyb s
  | TBool, VBool b => negb b
  | (TInt _ | TUint _), VInt z => (z =? 0)%Z
  | TText c, _ => c_empty c v
  | TAlt _, VAlt l => Nat.eqb (List.length l) 0
  | TArr _ _, VArr l _ => Nat.eqb (List.length l) 0
  | TPtr _, VNil => true
  | TPtr t', VPtr v' => has_is_zero t' && is_empty t' v'
  | TStruct i _, VStruct vs => match s_zero i with Some f => f vs | None => false end
  | _, _ => false
  end.

(* (fv.Kind() == Interface || fv.Kind() == Ptr) && fv.IsNil() *)
Definition is_nil (v : gval) : bool := match v with VNil => true | _ => false end.

(* xmp/marshal.go:591-624 *)
Definition simple_text (t : ty) (v : gval) : result string :=
  match t, v with
  | (TStr | TBytes), VStr s => Ok s
  | TBool, VBool b => Ok (format_bool b)
  | (TInt _ | TUint _), VInt z => Ok (itoa z)
  | (TStr | TBytes | TBool | TInt _ | TUint _), _ => Panic
  | _, _ => Err "xmp: no method for marshalling type"
  end.

(* xmp/marshal.go:519-589 marshalAttr: the attribute text, None when no attribute is written *)
Fixpoint attr_text (t : ty) (v : gval) : result (option string) :=
  match t with
  | TText c => c_enc c v
  | TArr i _ => match ar_text i with Some c => c_enc c v | None => bind (simple_text t v) (fun s => Ok (Some s)) end
  | TPtr t' => match v with VNil => Ok None | VPtr v' => attr_text t' v' | _ => Panic end
  | _ => bind (simple_text t v) (fun s => Ok (Some s))
  end.

(* the tests at the head of both field loops, xmp/marshal.go:383-407 and 435-460 *)
Definition present (f : finfo) (t : ty) (v : gval) : bool :=
  negb (f_omit f) && active f && negb (is_nil v) && (f_empty f || negb (is_empty t v)).

(* the attribute loop, xmp/marshal.go:382-430, without wrapper *)
Fixpoint marshal_attrs (fs : list (finfo * ty)) (vs : list gval) (n : node M) : result (node M) :=
  match fs, vs with
  | [], [] => Ok n
  | (f, t) :: fs', v :: vs' =>
      if f_attr f && present f t v then
        bind (attr_text t v) (fun o =>
          marshal_attrs fs' vs' (match o with
                                 | Some s => add_attr n (Attr (new_name (f_name f)) s)
                                 | None => n
                                 end))
      else marshal_attrs fs' vs' n
  | _, _ => Panic
  end.

(* xmp/array.go:545, 550 *)
Definition array_node (typ : string) (items : list (node M)) : node M :=
  set_nodes (new_node (XName "" ("rdf:" ++ typ))) items.
Definition li_node : node M := new_node (XName "" "rdf:li").

(* the items written for one AltItem of an Alt array, xmp/array.go:556-590; single = (val.Len() == 1) *)
Definition alt_item_nodes (single : bool) (ai : alt_item) : result (list (node M)) :=
  let li lang := set_value (add_string_attr li_node "xml:lang" lang) (ai_value ai) in
  if ai_default ai || single then
    if emptyb (ai_lang ai) then Ok [li "x-default"]
    else if ai_default ai then Ok [li "x-default"; li (ai_lang ai)]
    else Ok [li (ai_lang ai)]                          (* the second AddStringAttr replaces the language *)
  else if emptyb (ai_lang ai) then Err "xmp: language required for alternative array item"
  else Ok [li (ai_lang ai)].

Fixpoint alt_nodes (single : bool) (l : list alt_item) : result (list (node M)) :=
  match l with
  | [] => Ok []
  | ai :: r => bind (alt_item_nodes single ai) (fun a =>
               bind (alt_nodes single r) (fun b => Ok (a ++ b)%list))
  end.

(* MarshalArray for an AltString, xmp/array.go:220-222, 531-600 *)
Definition marshal_alt (l : list alt_item) (n : node M) : result (node M) :=
  match l with
  | [] => Ok n
  | _ => bind (alt_nodes (Nat.eqb (List.length l) 1) l) (fun items => Ok (add_node n (array_node "Alt" items)))
  end.

Definition rdf_description : xname := XName "" "rdf:Description".          (* xmp/xmp.go rdfDescription *)
Definition rdf_resource_attr : attr := Attr (new_name "rdf:parseType") "Resource".   (* rdfResourceAttr *)

Definition xname_eqb (a b : xname) : bool := (x_space a =? x_space b) && (x_local a =? x_local b).

(* b, err := v.MarshalText(); if err != nil || b == nil { return err }; node.Value = string(b) *)
Definition marshal_text (c : codec X) (v : gval) (n : node M) : result (node M) :=
  bind (c_enc c v) (fun o => Ok (match o with Some s => set_value n s | None => n end)).

(* marshalValue without wrapper, xmp/marshal.go:280-495. The node is a copy of the argument with
   the additions; after an error the Go node keeps what was added so far, which no caller looks at. *)
Fixpoint marshal (t : ty) (v : gval) (n : node M) {struct t} : result (node M) :=
  let items (typ : string) (t' : ty) :=
    match v with
    | VArr [] _ => Ok n
    | VArr l _ =>
        bind ((fix go (l : list gval) : result (list (node M)) :=
                 match l with
                 | [] => Ok []
                 | x :: r => bind (marshal t' x li_node) (fun a => bind (go r) (fun b => Ok (a :: b)))
                 end) l)
             (fun its => Ok (add_node n (array_node typ its)))
    | _ => Panic
    end in
  match t with
  | TStr | TBytes | TBool | TInt _ | TUint _ => bind (simple_text t v) (fun s => Ok (set_value n s))
  | TText c => marshal_text c v n
  | TAlt _ => match v with VAlt l => marshal_alt l n | _ => Panic end
  | TArr i t' =>
      if ar_xmp i then items (ar_type i) t'
      else match ar_text i with
           | Some c => marshal_text c v n
           | None => items "Seq" t'
           end
  | TPtr t' => match v with VNil => Ok n | VPtr v' => marshal t' v' n | _ => Panic end
  | TStruct i fs =>
      match v with
      | VStruct vs =>
          if s_guard i && is_empty t v then Ok n
          else
            bind (marshal_attrs fs vs n) (fun n =>
            (fix elems (fs : list (finfo * ty)) (vs : list gval) (n : node M) (have : bool) : result (node M) :=
               match fs, vs with
               | [], [] =>
                   Ok (if have && negb (xname_eqb (n_name n) rdf_description) then add_attr n rdf_resource_attr else n)
               | (f, t') :: fs', v' :: vs' =>
                   if negb (f_attr f) && present f t' v' then
                     bind (marshal t' v' (new_node (new_name (f_name f)))) (fun c =>
                       elems fs' vs' (add_node n c) true)
                   else elems fs' vs' n have
               | _, _ => Panic
               end) fs vs n false)
      | _ => Panic
      end
  end.

(* ---- reading -------------------------------------------------------------------------------- *)

(* xmp/unmarshal.go:365-373 and 375-387 *)
Definition dec_ns_by_uri (uri : string) : option namespace :=
  match map_get imap uri with Some v => Some v | None => map_get emap uri end.
Definition dec_ns_by_prefix (pre : string) : option namespace :=
  match find (fun v => ns_name v =? pre) (map snd imap) with
  | Some v => Some v
  | None => find (fun v => ns_name v =? pre) (map snd emap)
  end.
(* xmp/unmarshal.go:389-398 *)
Definition dec_find_ns (x : xname) : option namespace :=
  match (if emptyb (x_space x) then None else dec_ns_by_uri (x_space x)) with
  | Some ns => Some ns
  | None => dec_ns_by_prefix (get_prefix (x_local x))
  end.

(* xmp/unmarshal.go:334-346 *)
Definition translate (x : xname) : xname :=
  if emptyb (x_space x) || (x_space x =? "xmlns") then x
  else match dec_find_ns x with
       | Some ns => XName "" (expand ns (x_local x))
       | None => match get_namespace reg (reg_get_prefix reg (x_space x)) with
                 | Ok ns => XName "" (expand ns (x_local x))
                 | _ => x
                 end
       end.

(* xmp/node.go:202-207 for a name *)
Definition name_full (x : xname) : string :=
  if emptyb (x_space x) then x_local x else short reg (x_space x) (x_local x).

(* xmp/unmarshal.go:407-437 findStructField: the index of the field *)
Fixpoint find_field_from (i : nat) (any : option nat) (fs : list (finfo * ty)) (name : string) : option nat :=
  match fs with
  | [] => any
  | (f, _) :: r =>
      if negb (active f) then find_field_from (S i) any r name
      else if f_name f =? name then Some i
      else find_field_from (S i) (if f_any f then Some i else any) r name
  end.
Definition find_field (fs : list (finfo * ty)) (name : string) : option nat := find_field_from 0 None fs name.

(* assignment to the field or element with index i *)
Fixpoint set_nth (i : nat) (v : gval) (l : list gval) : list gval :=
  match l, i with
  | [], _ => []
  | _ :: r, 0 => v :: r
  | x :: r, S i' => x :: set_nth i' v r
  end.

(* reflect.Append: a spare slot is used if there is one *)
Definition arr_append (v x : gval) : gval :=
  match v with VArr l sp => VArr (l ++ [x])%list (tl sp) | _ => v end.

(* xmp/unmarshal.go:474-519. Slices of other types than byte fall through without an error (510-514). *)
Definition set_simple_value (t : ty) (v : gval) (s : string) : result gval :=
  match t with
  | TStr => Ok (VStr (trim_space s))
  | TBytes => Ok (VStr s)
  | TBool => match parse_bool (trim_space s) with Some b => Ok (VBool b) | None => Err "invalid syntax" end
  | TInt bits => match parse_int bits s with Some z => Ok (VInt z) | None => Err "invalid syntax" end
  | TUint bits => match parse_uint bits s with Some z => Ok (VInt z) | None => Err "invalid syntax" end
  | TAlt _ | TArr _ _ => Ok v
  | _ => Err "xmp: no method for unmarshalling type"
  end.

(* fmt.Errorf("... %v", finfo.String(), err): finfo is nil for array elements and DecodeElement, and calling
   a method of the pointed-to struct through a nil pointer panics (xmp/unmarshal.go:284, 320) *)
Definition wrap_err (fin : bool) (r : result gval) : result gval :=
  match r with Err e => if fin then Err e else Panic | _ => r end.

(* xmp/unmarshal.go:291-327 *)
Fixpoint unmarshal_attr (t : ty) (fin : bool) (v : gval) (s : string) : result gval :=
  match t with
  | TPtr t' =>
      bind (unmarshal_attr t' fin (match v with VPtr w => w | _ => zero t' end) s) (fun w => Ok (VPtr w))
  | TText c => c_dec c v s
  | TAlt _ => match v with VAlt l => Ok (VAlt (l ++ [alt_item_of_text s])%list) | _ => Panic end
  | TArr i t' =>
      match ar_text i with
      | Some c => c_dec c v s
      | None => bind (wrap_err fin (unmarshal_attr t' false (zero t') s)) (fun x => Ok (arr_append v x))
      end
  | _ => set_simple_value t v s
  end.

(* AltString.UnmarshalXMP, xmp/array.go:229-247: the first default item and the first other item with the
   same value become one *)
Fixpoint index_alt (t : nat -> alt_item -> bool) (i : nat) (l : list alt_item) : option nat :=
  match l with [] => None | x :: r => if t i x then Some i else index_alt t (S i) r end.
Definition alt_merge (l : list alt_item) : list alt_item :=
  match index_alt (fun _ x => ai_default x) 0 l with
  | None => l
  | Some i =>
      match nth_error l i with
      | None => l
      | Some v =>
          match index_alt (fun j x => negb (Nat.eqb i j) && (ai_value v =? ai_value x)) 0 l with
          | None => l
          | Some j =>
              match nth_error l j with
              | None => l
              | Some vv =>
                  let l' := (firstn i l ++ AltItem (ai_value v) (ai_lang vv) (ai_default v) :: skipn (S i) l)%list in
                  (firstn j l' ++ skipn (S j) l')%list
              end
          end
      end
  end.

(* the AltItem of one list item, xmp/array.go:627-644 *)
Definition alt_of_li (li : node M) : alt_item :=
  let set (x : alt_item) (a : attr) :=
    if a_value a =? "x-default" then AltItem (ai_value x) (ai_lang x) true
    else AltItem (ai_value x) (a_value a) (ai_default x) in
  let x := fold_left set (get_attr li "" "lang") (AltItem "" "" false) in
  AltItem (trim_space (n_value li)) (ai_lang x) (ai_default x).

(* the checks of UnmarshalArray, xmp/array.go:609-626: the items *)
Definition array_child (n : node M) : result (node M) :=
  match n_nodes n with
  | [arr] => if (node_local arr =? "Seq") || (node_local arr =? "Bag") || (node_local arr =? "Alt") then Ok arr
             else Err "xmp: invalid array type"
  | _ => Err "xmp: invalid array: contains wrong number of nodes"
  end.
Fixpoint alt_items (l : list (node M)) (acc : list alt_item) : result (list alt_item) :=
  match l with
  | [] => Ok acc
  | li :: r => if full_name reg li =? "rdf:li" then alt_items r (acc ++ [alt_of_li li])%list
               else Err "xmp: invalid array element type"
  end.

(* Decoder.unmarshal, xmp/unmarshal.go:221-289, with UnmarshalArray; fin: finfo != nil. The recursion is on
   the node; the inner one on the type only removes the pointer (derefValue, typeinfo.go:364-379). *)
Fixpoint unmarshal (n : node M) {struct n} : ty -> bool -> gval -> result gval :=
  let 'Node x attrs md value kids := n in
  fix onty (t : ty) (fin : bool) (v : gval) {struct t} : result gval :=
    match t with
    | TPtr t' => bind (onty t' fin (match v with VPtr w => w | _ => zero t' end)) (fun w => Ok (VPtr w))
    | TAlt merge =>
        match v with
        | VAlt l =>
            bind (array_child (Node x attrs md value kids)) (fun arr =>
            bind (alt_items (n_nodes arr) l) (fun l' => Ok (VAlt (if merge then alt_merge l' else l'))))
        | _ => Panic
        end
    | TArr i t' =>
        if ar_xmp i then
          match kids with
          | [Node ax aa am av items] =>
              if (strip_prefix (x_local ax) =? "Seq") || (strip_prefix (x_local ax) =? "Bag")
                 || (strip_prefix (x_local ax) =? "Alt") then
                (fix go (l : list (node M)) (v : gval) : result gval :=
                   match l with
                   | [] => Ok v
                   | li :: r =>
                       if full_name reg li =? "rdf:li" then
                         bind (unmarshal li t' false (zero t')) (fun w => go r (arr_append v w))
                       else Err "xmp: invalid array element type"
                   end) items v
              else Err "xmp: invalid array type"
          | _ => Err "xmp: invalid array: contains wrong number of nodes"
          end
        else match ar_text i with
             | Some c => c_dec c v value
             | None => wrap_err fin (set_simple_value t v value)
             end
    | TText c => c_dec c v value
    | TStruct _ fs =>
        match v with
        | VStruct vs =>
            bind ((fix doattrs (l : list attr) (vs : list gval) : result (list gval) :=
                     match l with
                     | [] => Ok vs
                     | a :: r =>
                         let nm := translate (a_name a) in
                         if skip_field nm then doattrs r vs
                         else match find_field fs (x_local nm) with
                              | None => Err "xmp: unmarshal model: field for attr not found"
                              | Some i =>
                                  match nth_error fs i, nth_error vs i with
                                  | Some (_, t'), Some v' =>
                                      bind (unmarshal_attr t' true v' (a_value a)) (fun w => doattrs r (set_nth i w vs))
                                  | _, _ => Panic
                                  end
                              end
                     end) attrs vs)
            (fun vs =>
             (fix dokids (l : list (node M)) (v : gval) : result gval :=
                match l with
                | [] => Ok v
                | c :: r =>
                    let nm := translate (n_name c) in
                    if name_full nm =? "rdf:Description" then
                      bind (unmarshal c t false v) (fun v => dokids r v)
                    else if skip_field nm then dokids r v
                    else match find_field fs (name_full nm) with
                         | None => Err "xmp: unmarshal model: struct field not found"
                         | Some i =>
                             match v with
                             | VStruct vs =>
                                 match nth_error fs i, nth_error vs i with
                                 | Some (_, t'), Some v' =>
                                     bind (unmarshal c t' true v') (fun w => dokids r (VStruct (set_nth i w vs)))
                                 | _, _ => Panic
                                 end
                             | _ => Panic
                             end
                         end
                end) kids (VStruct vs))
        | _ => Panic
        end
    | _ => wrap_err fin (set_simple_value t v value)
    end.

End Env.
