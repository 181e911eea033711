(* Native tags: xmp/native.go:33-350, 402-408 on the type descriptions of TypeM.v, and the tag methods of QtInfo
   (models/qt/model.go:176-314). The fields are those getTypeInfo gives for the model's own namespace name: their
   names and flags come from the struct tag with that name, e.g. exif:"0x9000". Type descriptions that cannot be
   built are not described here (TagM.v). No library type has UnmarshalBinary.
   xmp.TagList is here a slice type without text form and without MarshalArray; its node form is below. *)
From Coq Require Import List Arith ZArith Bool Ascii String.
From Verif Require Import GoStr GoMap Names Semver RegistryM NodeM ArrayM TypeM TagM TPathM.
Import ListNotations.
Local Open Scope string_scope.

(* xmp/native.go:25-31 *)
Record tag := Tag { tg_key : string; tg_value : string; tg_lang : string }.

(* ---- TagList ------------------------------------------------------------------------------------- *)
Section TagList.
Context {M : Type}.

(* native.go:33-48 *)
Definition tag_attr (t : tag) : attr :=
  Attr (XName "" (if emptyb (tg_lang t) then tg_key t else tg_key t ++ "-" ++ tg_lang t)) (tg_value t).
Definition taglist_marshal (l : list tag) (n : node M) : node M := fold_left (fun n t => add_attr n (tag_attr t)) l n.

(* native.go:50-63 *)
Definition attr_tag (a : attr) : tag :=
  let k := x_local (a_name a) in
  match index_char "-" k with
  | Some i => Tag (stake i k) (a_value a) (sdrop (S i) k)
  | None => Tag k (a_value a) ""
  end.
Definition taglist_unmarshal (l : list tag) (n : node M) : list tag := (l ++ map attr_tag (n_attrs n))%list.
End TagList.

(* ---- native fields ------------------------------------------------------------------------------- *)
Section Native.
Context {X : Type}.
Notation gval := (gval X).
Notation ty := (ty X).

(* whether the Go type of a text type has an element type (slice, array, map): reflect.Type.Elem panics
   for the others *)
Variable text_elem : codec X -> bool.

(* native.go:402-408: only whether there is a namespace matters here, its name selected the tags *)
Definition has_namespace (nss : list namespace) : bool := match nss with [] => false | _ => true end.
Definition err_no_ns : string := "model must implement at least one namespace".
Definition err_no_field : string := "no field with tag in type".

(* native.go:96-124 on the value v' of type t' behind the field of type t. marshalSimple gets the type of the
   field: for a pointer to a byte slice typ.Elem() is the slice type, not byte. *)
Definition native_enc (t t' : ty) (v' : gval) : result (option string) :=
  match t, t' with
  | TPtr _, TBytes => Err "xmp: no method for marshalling type"
  | _, _ => leaf_enc t' v'
  end.
(* native.go:79-85, 89-91: the field is read as "" *)
Definition skipped (f : finfo) (t : ty) (v : gval) : bool := is_nil v || (negb (f_empty f) && is_empty t v).

(* native.go:65-125 *)
Definition get_native (nss : list namespace) (fs : list (finfo * ty)) (vs : list gval) (name : string) : result string :=
  if has_namespace nss then
    match lookup fs name with
    | None => Err err_no_field
    | Some j =>
        match nth_error fs j, nth_error vs j with
        | Some (f, t), Some v =>
            if skipped f t v then Ok ""
            else let '(t', v') := drill t v in
                 bind (native_enc t t' v') (fun o => Ok (match o with Some s => s | None => "" end))
        | _, _ => Panic
        end
    end
  else Err err_no_ns.

(* e.g. models/dc/model.go:92-95 *)
Definition can_tag (nss : list namespace) (fs : list (finfo * ty)) (vs : list gval) (name : string) : result bool :=
  match get_native nss fs vs name with Ok _ => Ok true | Err _ => Ok false | Panic => Panic end.

(* native.go:127-175: the field values (a nil pointer stays allocated after an error) and the error.
   What a failed UnmarshalText left behind is not described. *)
Definition native_dec (t : ty) (v : gval) (value : string) : result gval :=
  match t with
  | TText c => c_dec c v value
  | TArr i _ => match ar_text i with Some c => c_dec c v value | None => set_simple_value t v value end
  | _ => set_simple_value t v value
  end.
Definition set_native (nss : list namespace) (fs : list (finfo * ty)) (vs : list gval) (name value : string)
  : list gval * result unit :=
  if has_namespace nss then
    match lookup fs name with
    | None => (vs, Err err_no_field)
    | Some j =>
        match nth_error fs j, nth_error vs j with
        | Some (f, t), Some v =>
            let '(t', v') := deref t v in
            match native_dec t' v' value with
            | Ok w => (set_nth j (reref t w) vs, Ok tt)
            | Err e => (set_nth j (reref t v') vs, Err e)
            | Panic => (vs, Panic)
            end
        | _, _ => (vs, Panic)
        end
    end
  else (vs, Err err_no_ns).

(* native.go:177-212. A slice type of AltItem that is not AltString is not described. *)
Definition set_locale (nss : list namespace) (fs : list (finfo * ty)) (vs : list gval) (lang name value : string)
  : list gval * result unit :=
  if has_namespace nss then
    match lookup fs name with
    | None => (vs, Err err_no_field)
    | Some j =>
        match nth_error fs j, nth_error vs j with
        | Some (f, t), Some v =>
            match deref t v with
            | (TAlt _, VAlt l) =>
                match alt_set l lang value with
                | Ok l' => (set_nth j (reref t (VAlt l')) vs, Ok tt)
                | Err e => (set_nth j (reref t (VAlt l)) vs, Err e)
                | Panic => (vs, Panic)
                end
            | (_, v') => (set_nth j (reref t v') vs, Err "field must be of type xmp.AltString")
            end
        | _, _ => (vs, Panic)
        end
    end
  else (vs, Err err_no_ns).

(* native.go:214-240: f.Kind() != Slice && f.Type().Elem() != AltItem. Elem panics for kinds without elements;
   pointers are not followed. *)
Definition get_locale (nss : list namespace) (fs : list (finfo * ty)) (vs : list gval) (lang name : string) : result string :=
  if has_namespace nss then
    match lookup fs name with
    | None => Err err_no_field
    | Some j =>
        match nth_error fs j, nth_error vs j with
        | Some (f, t), Some v =>
            match t, v with
            | TAlt _, VAlt l => Ok (alt_get l lang)
            | (TArr _ _ | TBytes | TPtr _), _ => Err "field must be of type AltString"
            | TText c, _ => if text_elem c then Err "field must be of type AltString" else Panic
            | _, _ => Panic
            end
        | _, _ => Panic
        end
    end
  else Err err_no_ns.

(* one turn of the loop native.go:259-347. typ is the struct type of the model: it has no MarshalText, and
   typ.Elem() in marshalSimple panics for the slices that get there. *)
Definition list_field (f : finfo) (t : ty) (v : gval) : result (list tag) :=
  let text (o : option string) : list tag :=
    match o with Some s => if emptyb s then [] else [Tag (f_name f) s ""] | None => [] end in
  if skipped f t v then Ok []
  else
    match drill t v with
    | (TAlt _, VAlt l) => Ok (map (fun i => Tag (f_name f) (ai_value i) (ai_lang i)) l)
    | (TBytes, _) => Panic
    | (TArr i te, v') => match ar_text i with Some c => bind (c_enc c v') (fun o => Ok (text o)) | None => Panic end
    | (t', v') => bind (leaf_enc t' v') (fun o => Ok (text o))
    end.
Fixpoint list_fields (fs : list (finfo * ty)) (vs : list gval) : result (list tag) :=
  match fs, vs with
  | [], [] => Ok []
  | (f, t) :: fs', v :: vs' => bind (list_field f t v) (fun a => bind (list_fields fs' vs') (fun b => Ok (a ++ b)%list))
  | _, _ => Panic
  end.
(* native.go:242-350 *)
Definition list_native (nss : list namespace) (fs : list (finfo * ty)) (vs : list gval) : result (list tag) :=
  if has_namespace nss then list_fields fs vs else Err err_no_ns.

(* ---- QtInfo -------------------------------------------------------------------------------------- *)

(* models/qt/model.go:74-86 without IXML, XMP and Extension, which no call below reads. A nil pointer is None.
   The four struct types are given by their qt fields. *)
Record qt_types := QtTypes { qt_udta_t : list (finfo * ty); qt_mdta_t : list (finfo * ty);
                             qt_player_t : list (finfo * ty); qt_pro_t : list (finfo * ty) }.
Record qt := Qt { qt_udta : option (list gval); qt_mdta : option (list gval);
                  qt_player : option (list gval); qt_pro : option (list gval) }.
Variable T : qt_types.
Variable qtns : list namespace.                          (* {NsQuicktime} *)
(* ixml.ParseXML and xmp.Unmarshal of the value: whether they succeed *)
Variables ixml_ok xmp_ok : string -> bool.

Definition zeros (fs : list (finfo * ty)) : list gval := map (fun f => zero (snd f)) fs.
Definition is_ixml_tag (tag : string) : bool :=
  (tag =? "iXML") || (tag =? "info.ixml.xml") || (tag =? "info.ixml.metadata") || (tag =? "info.ixml.info").

(* model.go:176-195. The arguments of strings.HasPrefix are swapped: the tag must be a prefix of the constant. *)
Definition qt_can_tag (tag : string) : result bool :=
  if Nat.eqb (String.length tag) 4 then can_tag qtns (qt_udta_t T) (zeros (qt_udta_t T)) tag
  else if has_prefix_str tag "com.apple.quicktime.player" then can_tag qtns (qt_player_t T) (zeros (qt_player_t T)) tag
  else if has_prefix_str tag "com.apple.quicktime" then can_tag qtns (qt_mdta_t T) (zeros (qt_mdta_t T)) tag
  else if has_prefix_str tag "com.apple.proapps" then can_tag qtns (qt_pro_t T) (zeros (qt_pro_t T)) tag
  else Ok ((tag =? "XMP_") || is_ixml_tag tag).

(* model.go:197-239 *)
Definition qt_get_tag (x : qt) (tag : string) : result string :=
  let sub (o : option (list gval)) (fs : list (finfo * ty)) :=
    match o with None => Ok "" | Some vs => get_native qtns fs vs tag end in
  if Nat.eqb (String.length tag) 4 then sub (qt_udta x) (qt_udta_t T)
  else if has_prefix_str "com.apple.quicktime.player" tag then sub (qt_player x) (qt_player_t T)
  else if has_prefix_str "com.apple.quicktime" tag then sub (qt_mdta x) (qt_mdta_t T)
  else if has_prefix_str "com.apple.proapps" tag then sub (qt_pro x) (qt_pro_t T)
  else Ok "".

(* model.go:241-293 *)
Definition qt_set_tag (x : qt) (tag value : string) : qt * result unit :=
  let sub (o : option (list gval)) (fs : list (finfo * ty)) :=
    set_native qtns fs (match o with None => zeros fs | Some vs => vs end) tag value in
  if Nat.eqb (String.length tag) 4 then
    let '(vs, e) := sub (qt_udta x) (qt_udta_t T) in (Qt (Some vs) (qt_mdta x) (qt_player x) (qt_pro x), e)
  else if has_prefix_str "com.apple.quicktime.player" tag then
    let '(vs, e) := sub (qt_player x) (qt_player_t T) in (Qt (qt_udta x) (qt_mdta x) (Some vs) (qt_pro x), e)
  else if has_prefix_str "com.apple.quicktime" tag then
    let '(vs, e) := sub (qt_mdta x) (qt_mdta_t T) in (Qt (qt_udta x) (Some vs) (qt_player x) (qt_pro x), e)
  else if has_prefix_str "com.apple.proapps" tag then
    let '(vs, e) := sub (qt_pro x) (qt_pro_t T) in (Qt (qt_udta x) (qt_mdta x) (qt_player x) (Some vs), e)
  else if is_ixml_tag tag then (x, if ixml_ok value then Ok tt else Err "parsing ixml")
  else if tag =? "XMP_" then (x, if xmp_ok value then Ok tt else Err "parsing embedded xmp")
  else (x, Ok tt).
End Native.
