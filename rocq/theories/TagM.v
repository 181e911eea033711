(* Struct tags, type descriptions and field lookup: xmp/typeinfo.go, xmp/native.go:352-400.
   A Go struct type is described by its fields in order; the interface flags (typeinfo.go:276-302) follow
   from the field types and are not part of this file. *)
From Coq Require Import List Arith ZArith Bool Ascii String.
From Verif Require Import GoStr Names Semver.
Import ListNotations.
Local Open Scope string_scope.

(* xmp/typeinfo.go:31-37 with the flags a tag can give; fElement is taken to be the absence of fAttr
   (typeinfo.go:203-204, 263-265) *)
Record tag_info := TagInfo {
  ti_name : string;
  ti_attr : bool; ti_empty : bool; ti_omit : bool; ti_any : bool; ti_flat : bool;
  ti_min : version; ti_max : version
}.

Definition no_version : version := Version 0 0 0.

(* the separators of typeinfo.go:230-236 *)
Definition is_vsep (c : ascii) : bool := Ascii.eqb c "+" || Ascii.eqb c "-" || Ascii.eqb c "<".

(* op after strings.FieldsFunc has visited every rune (typeinfo.go:228-237) *)
Fixpoint last_vsep (s : string) : option ascii :=
  match s with
  | EmptyString => None
  | String c r => match last_vsep r with
                  | Some o => Some o
                  | None => if is_vsep c then Some c else None
                  end
  end.

(* strings.FieldsFunc(s, is_vsep) (typeinfo.go:229): the maximal non-empty runs without separator *)
Fixpoint vfields_from (cur s : string) : list string :=
  match s with
  | EmptyString => if emptyb cur then [] else [cur]
  | String c r =>
      if is_vsep c then (if emptyb cur then vfields_from "" r else cur :: vfields_from "" r)
      else vfields_from (cur ++ String c "") r
  end.
Definition vfields (s : string) : list string := vfields_from "" s.

(* typeinfo.go:226-258 for the text after the letter v; (mn, mx) are the bounds so far.
   tokens[0] and tokens[1] are index expressions: they panic when there are not enough tokens. *)
Definition version_flag (s : string) (mn mx : version) : result (version * version) :=
  match last_vsep s with
  | Some c =>
      if Ascii.eqb c "+" then
        match vfields s with [] => Panic | t :: _ => bind (parse_version t) (fun v => Ok (v, mx)) end
      else if Ascii.eqb c "-" then
        match vfields s with [] => Panic | t :: _ => bind (parse_version t) (fun v => Ok (mn, v)) end
      else
        match vfields s with
        | [] => Panic
        | t :: r => bind (parse_version t) (fun v =>
                    match r with [] => Panic | u :: _ => bind (parse_version u) (fun w => Ok (v, w)) end)
        end
  | None => bind (parse_version s) (fun v => Ok (v, v))
  end.

(* one turn of the loop typeinfo.go:207-260 *)
Definition apply_flag (i : tag_info) (flag : string) : result tag_info :=
  let i := TagInfo (ti_name i) (ti_attr i || (flag =? "attr")) (ti_empty i || (flag =? "empty"))
                   (ti_omit i || (flag =? "omit")) (ti_any i || (flag =? "any")) (ti_flat i || (flag =? "flat"))
                   (ti_min i) (ti_max i) in
  if has_prefix_str "v" flag then
    bind (version_flag (sdrop 1 flag) (ti_min i) (ti_max i)) (fun p =>
      Ok (TagInfo (ti_name i) (ti_attr i) (ti_empty i) (ti_omit i) (ti_any i) (ti_flat i) (fst p) (snd p)))
  else Ok i.

Fixpoint apply_flags (i : tag_info) (flags : list string) : result tag_info :=
  match flags with
  | [] => Ok i
  | f :: r => bind (apply_flag i f) (fun i => apply_flags i r)
  end.

(* typeinfo.go:196-291 structFieldInfo for a field with name [field] and tag text [tag]. The name is
   assigned at the end in Go (267-272); no step in between looks at it. *)
Definition parse_tag (field tag : string) : result tag_info :=
  match split_char "," tag with
  | [] => Panic                                          (* unreachable: strings.Split gives at least one *)
  | n :: flags =>
      apply_flags (TagInfo (if emptyb n then field else n) false false false false false no_version no_version) flags
  end.

(* typeinfo.go:293-322 addFieldInfo: the test for one already known field *)
Definition conflicts (new old : tag_info) : bool :=
  (ti_name new =? ti_name old)
  && version_between (ti_min new) (ti_min old) (ti_max old)
  && version_between (ti_max new) (ti_min old) (ti_max old).
Definition add_field (fs : list tag_info) (new : tag_info) : result (list tag_info) :=
  if existsb (conflicts new) fs then Err "tag conflicts with field" else Ok (fs ++ [new])%list.

Fixpoint add_fields (fs : list tag_info) (l : list tag_info) : result (list tag_info) :=
  match l with
  | [] => Ok fs
  | i :: r => bind (add_field fs i) (fun fs => add_fields fs r)
  end.

(* the fields of a struct type: a field with its name, whether it is exported, and its tag; or an embedded
   struct (by value or pointer) with its tag. Embedded non-struct fields are described by [SField true]. *)
Inductive sfield :=
| SField (exported : bool) (name tag : string)
| SEmbed (tag : string) (inner : list sfield).

(* typeinfo.go:128-193 getTypeInfo without its cache (TinfoM.v). The type itself is the list of fields. *)
Definition step_field (type_info : list sfield -> result (list tag_info))
    (fs : list tag_info) (f : sfield) : result (list tag_info) :=
  match f with
  | SField exported name tag =>
      if negb exported || (tag =? "-") then Ok fs
      else bind (parse_tag name tag) (fun i => add_field fs i)
  | SEmbed tag inner =>
      if tag =? "-" then Ok fs
      else bind (type_info inner) (fun l => add_fields fs l)
  end.
Fixpoint field_info (f : sfield) (fs : list tag_info) : result (list tag_info) :=
  step_field
    (fun inner => (fix go (l : list sfield) (acc : list tag_info) : result (list tag_info) :=
                     match l with [] => Ok acc | g :: r => bind (field_info g acc) (go r) end) inner [])
    fs f.
Fixpoint type_info_from (l : list sfield) (acc : list tag_info) : result (list tag_info) :=
  match l with [] => Ok acc | g :: r => bind (field_info g acc) (type_info_from r) end.
Definition type_info (l : list sfield) : result (list tag_info) := type_info_from l [].

(* xmp/native.go:352-400 findField: the index of the field. The loop stops at the first match; any is the
   last any-field seen. *)
Definition name_matches (name field : string) : bool :=
  if has_prefix name then field =? name else strip_prefix field =? name.
Fixpoint find_native_from (i : nat) (any : option nat) (fs : list tag_info) (name : string) : option nat :=
  match fs with
  | [] => any
  | f :: r =>
      let any := if ti_any f then Some i else any in
      if name_matches name (ti_name f) then Some i else find_native_from (S i) any r name
  end.
Definition find_native (fs : list tag_info) (name : string) : option nat := find_native_from 0 None fs name.
