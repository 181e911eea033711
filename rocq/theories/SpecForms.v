(* What the properties of identifiers, time codes, URIs and thumbnails speak about. *)
From Coq Require Import List Arith ZArith Bool Ascii String.
From Verif Require Import GoStr GoMap Names Semver RegistryM NodeM CodecM TypeM.
Import ListNotations.
Local Open Scope string_scope.

Section S.
Context {M : Type}.
Notation node := (node M).
(* the name of an element or attribute, with the prefix the library uses for its namespace *)
Variable known_as : xname -> string -> Prop.

(* a simple property: an element with a text and nothing else *)
Definition simple_prop (n : node) (name text : string) : Prop :=
  exists x, known_as x name /\ n = Node x [] None text [].

(* The forms the comment above the type Identifier lists (models/xmp_base/types.go:37-49), and the form of a qualified value
   the XMP specification also has, which the library writes. *)
Inductive identifier_form : Type := JustValue | Described | SchemeAttribute | Resource.
Inductive denotes_identifier : identifier_form -> node -> identifier -> Prop :=
| form_value : forall x text, denotes_identifier JustValue (Node x [] None text []) (Ident (trim_space text) "")
| form_described : forall x d v s i sch, known_as d "rdf:Description" -> simple_prop v "rdf:value" i -> simple_prop s "xmpidq:Scheme" sch ->
    denotes_identifier Described (Node x [] None "" [Node d [] None "" [v; s]]) (Ident (trim_space i) (trim_space sch))
| form_attribute : forall x a sch text, known_as a "xmpidq:Scheme" ->
    denotes_identifier SchemeAttribute (Node x [Attr a sch] None text []) (Ident (trim_space text) (trim_space sch))
| form_resource : forall x a v s i sch, known_as a "rdf:parseType" -> simple_prop v "rdf:value" i -> simple_prop s "xmpidq:Scheme" sch ->
    denotes_identifier Resource (Node x [Attr a "Resource"] None "" [v; s]) (Ident (trim_space i) (trim_space sch)).

(* no attributes, or just rdf:parseType *)
Definition mark_only (a : list attr) : Prop := a = [] \/ exists p q, a = [Attr p q] /\ known_as p "rdf:parseType".
(* the forms of a time code: elements in it, of which the format may be missing, or two attributes *)
Inductive denotes_timecode : node -> string -> string -> Prop :=
| form_elements : forall x a f v i sch, mark_only a -> simple_prop f "xmpDM:timeFormat" i -> simple_prop v "xmpDM:timeValue" sch ->
    denotes_timecode (Node x a None "" [f; v]) (trim_space i) (trim_space sch)
| form_no_format : forall x a v sch, mark_only a -> simple_prop v "xmpDM:timeValue" sch ->
    denotes_timecode (Node x a None "" [v]) "" (trim_space sch)
| form_attributes : forall x f v i sch, known_as f "xmpDM:timeFormat" -> known_as v "xmpDM:timeValue" ->
    denotes_timecode (Node x [Attr f i; Attr v sch] None "" []) (trim_space i) (trim_space sch).
End S.

(* the text hh:mm:ss:ff or hh;mm;ss;ff shows these numbers *)
Definition digits2 (z : Z) : string := (if (z <? 10)%Z then "0" else "") ++ itoa z.
Definition clock_shows (d : bool) (h m s f : Z) (t : string) : Prop :=
  t = join (if d then ";" else ":") [digits2 h; digits2 m; digits2 s; digits2 f].

(* a hexadecimal numeral: digits only, and what they say *)
Fixpoint hex_value (l : list Z) : Z := match l with [] => 0 | d :: r => d * 16 ^ Z.of_nat (List.length r) + hex_value r end%Z.
Definition hex_char (d : Z) : ascii :=
  ascii_of_nat (Z.to_nat (if (d <? 10)%Z then 48 + d else 55 + d)).
Definition hex_text (l : list Z) : string := string_of_list_ascii (map hex_char l).
Definition hex_numeral (s : string) (z : Z) : Prop :=
  exists l, l <> [] /\ Forall (fun d => (0 <= d < 16)%Z) l /\ s = hex_text l /\ z = hex_value l.
