(* Types with XMP methods of their own: Identifier (models/xmp_base/types.go:51-165), Timecode (models/xmp_dm/types.go:579-711,
   its text form is in CodecM.v), Uri (xmp/xmp_types.go:422-463), and the records that are written field by field but read
   from a text. Built on marshal and unmarshal of TypeM.v, which EncodeElement and DecodeElement call.
   Simplifications: TypeM.v's. *)
From Coq Require Import List Arith ZArith Bool Ascii String.
From Verif Require Import GoStr GoMap Names Semver RegistryM NodeM ArrayM CodecM TypeM.
Import ListNotations.
Local Open Scope string_scope.

(* a field with just a name: xmp:"name" *)
Definition plain_field (name : string) : finfo := Finfo name false false false false (Version 0 0 0) (Version 0 0 0).

Section Env.
Context {X M : Type}.
Notation node := (node M).
Variable ver : version.
Variable reg : registry.
Variables imap emap : gomap namespace.
Notation marshal := (@marshal X M ver).
Notation unmarshal := (@unmarshal X M ver reg imap emap).

(* ---- models/xmp_base/types.go ---- *)

(* the struct type of lines 60-63 and 72-75 *)
Definition ident_fields : list (finfo * ty X) := [(plain_field "rdf:value", TStr); (plain_field "xmpidq:Scheme", TStr)].
Definition ident_struct : ty X := TStruct (StructInfo _ None false) ident_fields.
(* models/xmp_base/types.go:56-69 Identifier.MarshalXMP *)
Definition ident_marshal_xmp (x : identifier) (n : node) : result node :=
  if emptyb (id_scheme x) then marshal TStr (VStr (id_id x)) n
  else marshal ident_struct (VStruct [VStr (id_id x); VStr (id_scheme x)]) n.
(* the copy back, models/xmp_base/types.go:91-92 *)
Definition ident_of (v : gval X) : result identifier :=
  match v with VStruct [VStr i; VStr s] => Ok (Ident i s) | _ => Panic end.
(* models/xmp_base/types.go:71-94 Identifier.UnmarshalXMP; the error of line 84 is overwritten in line 85 *)
Definition ident_unmarshal_xmp (old : identifier) (n : node) : result identifier :=
  let str (v : gval X) := match v with VStr s => s | _ => id_id old end in
  match n_nodes n with
  | [] =>
      match n_attrs n with
      | [] => bind (unmarshal n TStr false (VStr (id_id old))) (fun w => ident_of (VStruct [w; VStr (id_scheme old)]))
      | _ =>
          let w := match unmarshal n TStr false (VStr (id_id old)) with Ok w => str w | _ => id_id old end in
          bind (unmarshal n ident_struct false (VStruct [VStr w; VStr (id_scheme old)])) ident_of
      end
  | c :: _ => bind (unmarshal c ident_struct false (VStruct [VStr (id_id old); VStr (id_scheme old)])) ident_of
  end.

(* MarshalArray for an IdentifierArray: models/xmp_base/types.go:157-163, xmp/array.go:531-600 *)
Fixpoint ident_items (l : list identifier) : result (list node) :=
  match l with
  | [] => Ok []
  | x :: r => bind (ident_marshal_xmp x li_node) (fun a => bind (ident_items r) (fun b => Ok (a :: b)))
  end.
Definition ident_array_marshal (l : list identifier) (n : node) : result node :=
  match l with
  | [] => Ok n
  | _ => bind (ident_items l) (fun its => Ok (add_node n (array_node "Bag" its)))
  end.
(* UnmarshalArray for it: models/xmp_base/types.go:165-167, xmp/array.go:602-665 *)
Fixpoint ident_read_items (l : list node) (acc : list identifier) : result (list identifier) :=
  match l with
  | [] => Ok acc
  | li :: r => if full_name reg li =? "rdf:li" then
                 bind (ident_unmarshal_xmp (Ident "" "") li) (fun x => ident_read_items r (acc ++ [x])%list)
               else Err "xmp: invalid array element type"
  end.
Definition ident_array_unmarshal (old : list identifier) (n : node) : result (list identifier) :=
  bind (array_child n) (fun arr => ident_read_items (n_nodes arr) old).

(* ---- models/xmp_dm/types.go ---- *)

(* models/xmp_dm/types.go:579-587: Format, and the rest as in CodecM.v *)
Record timecode_x := TCX { tx_format : string; tx_tc : timecode }.
(* the fields that have an xmp tag other than a dash *)
Definition timecode_fields : list (finfo * ty X) := [(plain_field "xmpDM:timeFormat", TStr); (plain_field "xmpDM:timeValue", TStr)].
Definition timecode_struct : ty X := TStruct (StructInfo _ None false) timecode_fields.
(* models/xmp_dm/types.go:642-644 Timecode.IsZero: such values are left out by the struct they are in *)
Definition timecode_is_zero (x : timecode_x) : bool := emptyb (tc_value (tx_tc x)) && emptyb (tx_format x).
(* models/xmp_dm/types.go:675-679 Timecode.MarshalXMP *)
Definition timecode_marshal_xmp (x : timecode_x) (n : node) : result node :=
  marshal timecode_struct (VStruct [VStr (tx_format x); VStr (tc_string (tx_tc x))]) n.
(* models/xmp_dm/types.go:681-711 Timecode.UnmarshalXMP *)
Definition timecode_unmarshal_xmp (n : node) : result timecode_x :=
  match unmarshal n timecode_struct false (VStruct [VStr ""; VStr ""]) with
  | Ok (VStruct [VStr f; VStr v]) => bind (tc_unmarshal v) (fun t => Ok (TCX f t))
  | Ok _ | Panic => Panic
  | Err _ => Err "xmp: invalid timecode"
  end.

(* ---- xmp/xmp_types.go ---- *)

(* xmp/xmp_types.go:453-463 Uri.UnmarshalXMP *)
Definition uri_unmarshal_xmp (n : node) : result string :=
  match get_attr n "rdf" "resource" with
  | a :: _ => Ok (a_value a)
  | [] => bind (unmarshal n TStr false (VStr "")) (fun w => match w with VStr s => Ok s | _ => Panic end)
  end.

(* ---- records with a text reader only ---- *)

(* Decoder.unmarshal for a type with UnmarshalText and without UnmarshalXMP (xmp/unmarshal.go:234-240): only the text of the
   node is looked at *)
Definition text_only {A} (dec : string -> result A) (n : node) : result A := dec (n_value n).
End Env.

(* UnmarshalText of Owner, Reverb, BufferSize, AudioEncryption, Commercial and AudioSeekIndex (models/id3/types.go:225-228,
   429-432, 525-528, 539-542, 591-594, 731-734) and of Location (models/qt/types.go:60-63): nothing is done *)
Definition ignore_text {A} (old : A) (s : string) : result A := Ok old.

(* models/xmp_base/types.go:142-155 IdentifierArray.Index and Remove *)
Fixpoint ident_index (l : list identifier) (v : string) : option nat :=
  match l with
  | [] => None
  | x :: r => if id_id x =? v then Some 0 else option_map S (ident_index r v)
  end.
Definition ident_remove (l : list identifier) (v : string) : list identifier :=
  match ident_index l v with
  | Some i => (firstn i l ++ firstn (S i) l)%list
  | None => l
  end.
(* models/xmp_base/types.go:127-140 AddUnique, Add and Contains *)
Definition ident_add (l : list identifier) (v : string) : list identifier := (l ++ [Ident v ""])%list.
Definition ident_contains (l : list identifier) (v : string) : bool := match ident_index l v with Some _ => true | None => false end.
Definition ident_add_unique (l : list identifier) (v : string) : list identifier := if ident_contains l v then l else ident_add l v.

(* strconv.ParseInt(s, 16, bits): an optional sign and hexadecimal digits *)
Definition hex_digit (c : ascii) : option Z :=
  let n := Z.of_nat (nat_of_ascii c) in
  if (48 <=? n)%Z && (n <=? 57)%Z then Some (n - 48)%Z
  else if (97 <=? n)%Z && (n <=? 102)%Z then Some (n - 87)%Z
  else if (65 <=? n)%Z && (n <=? 70)%Z then Some (n - 55)%Z
  else None.
Fixpoint hex_digits (acc : Z) (s : string) : option Z :=
  match s with
  | EmptyString => Some acc
  | String c r => match hex_digit c with Some d => hex_digits (16 * acc + d)%Z r | None => None end
  end.
Definition parse_hex (bits : Z) (s : string) : option Z :=
  let '(neg, d) := match s with
                   | String "-" r => (true, r)
                   | String "+" r => (false, r)
                   | _ => (false, s)
                   end in
  if emptyb d then None
  else match hex_digits 0 d with
       | None => None
       | Some n => let z := if neg : bool then (- n)%Z else n in
                   if (- 2 ^ (bits - 1) <=? z)%Z && (z <? 2 ^ (bits - 1))%Z then Some z else None
       end.
(* models/itunes/types.go:27-32 SMPB *)
Record smpb := SMPB { sm_delay : Z; sm_padding : Z; sm_samples : Z; sm_offset : Z }.
(* the loop of models/itunes/types.go:40-59 from the field with index i on *)
Fixpoint smpb_loop (i : nat) (l : list string) (x : smpb) : result smpb :=
  match l with
  | [] => Ok x
  | v :: r =>
      let num bits (f : Z -> smpb) := match parse_hex bits v with Some z => smpb_loop (S i) r (f z) | None => Err "iTunes: cannot parse SMPB" end in
      match i with
      | 1 => num 32%Z (fun z => SMPB z (sm_padding x) (sm_samples x) (sm_offset x))
      | 2 => num 32%Z (fun z => SMPB (sm_delay x) z (sm_samples x) (sm_offset x))
      | 3 => num 64%Z (fun z => SMPB (sm_delay x) (sm_padding x) z (sm_offset x))
      | 5 => num 64%Z (fun z => SMPB (sm_delay x) (sm_padding x) (sm_samples x) z)
      | _ => smpb_loop (S i) r x
      end
  end.
(* models/itunes/types.go:37-62 SMPB.UnmarshalText *)
Definition smpb_unmarshal (s : string) : result smpb := smpb_loop 0 (fields s) (SMPB 0 0 0 0).
