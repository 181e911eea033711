(* Specifications for node trees; used in PropNode *)
From Coq Require Import List Arith ZArith Bool Ascii String Permutation Sorted.
From Verif Require Import GoStr Names PathM SyncFlags PVList RegistryM NodeM Spec SpecBasic.
Local Open Scope string_scope.

(* ---- paths as users write them ------------------------------------------------------------ *)
(* a whole property, the i-th item of an array property, or the alternative of one language *)
Inductive selector := SAll | SIdx (i : nat) | SLang (lang : string).
Record pseg := PSeg { ps_pfx : option string; ps_name : string; ps_sel : selector }.

Definition sel_text (s : selector) : string :=
  match s with SAll => "" | SIdx i => "[" ++ itoa (Z.of_nat i) ++ "]" | SLang l => "[" ++ l ++ "]" end.
Definition pfx_text (o : option string) : string := match o with Some q => q ++ ":" | None => "" end.
Definition pseg_text (s : pseg) : string := pfx_text (ps_pfx s) ++ ps_name s ++ sel_text (ps_sel s).

(* a property name; it must not contain the characters with a meaning in paths *)
Definition name_ok (s : string) : Prop := s <> "" /\ no_char "/" s /\ no_char ":" s /\ no_char "[" s.
Definition pfx_ok (s : string) : Prop := s <> "" /\ no_char "/" s /\ no_char ":" s.
Definition lang_ok (s : string) : Prop := s <> "" /\ no_char "/" s /\ no_char ":" s /\ atoi s = None.
Definition pseg_ok (s : pseg) : Prop :=
  name_ok (ps_name s) /\
  match ps_pfx s with Some q => pfx_ok q | None => True end /\
  match ps_sel s with SAll => True | SIdx i => int64 (Z.of_nat i) | SLang l => lang_ok l end.

(* "ns:seg1/seg2/..." *)
Definition render (ns : string) (l : list pseg) : path := new_path ns (map pseg_text l).

(* the suffix after a property name: none, or a bracket and anything *)
Definition suffix_ok (s : string) : Prop := s = "" \/ exists t, s = String "[" t /\ t <> "" /\ no_char "/" t /\ no_char ":" t.

(* p is a path whose first segment names the property [name] *)
Definition first_prop (p : path) (name : string) : Prop :=
  exists ns pfx suffix rest,
    no_char ":" ns /\ match pfx with Some q => pfx_ok q | None => True end /\ name_ok name /\ suffix_ok suffix /\
    p = new_path ns ((pfx_text pfx ++ name ++ suffix) :: rest).

Section S.
Context {M : Type}.

(* x is n or a node below n *)
Inductive in_tree (x : node M) : node M -> Prop :=
| in_here : in_tree x x
| in_below n c : In c (n_nodes n) -> in_tree x c -> in_tree x n.

(* no node of the tree carries a typed model *)
Definition raw (n : node M) : Prop := forall x, in_tree x n -> n_model x = None.

(* c is the first child of n with local name nm *)
Definition first_child (n : node M) (nm : string) (c : node M) : Prop :=
  node_local c = nm /\ first_by node_local c (n_nodes n).

Definition no_child (n : node M) (nm : string) : Prop := forall c, In c (n_nodes n) -> node_local c <> nm.

Definition no_attr (n : node M) (nm : string) : Prop :=
  forall a, In a (n_attrs n) -> strip_prefix (x_local (a_name a)) <> nm.

Definition array_shaped (reg : registry) (c : node M) : Prop :=
  exists x, n_nodes c = [x] /\ In (full_name reg x) ["rdf:Seq"; "rdf:Bag"; "rdf:Alt"].

(* a node just created *)
Definition fresh (x : node M) : Prop := n_attrs x = [] /\ n_model x = None /\ n_value x = "" /\ n_nodes x = [].

(* li is an item for language l *)
Definition item_lang (li : node M) (l : string) : Prop :=
  exists a, first_by (fun a => strip_prefix (x_local (a_name a))) a (n_attrs li)
            /\ strip_prefix (x_local (a_name a)) = "lang" /\ a_value a = l.

(* the paths of a tree that a SetPath with the given flags can address. A path leaves the tree where a property,
   item or language does not exist yet; the remaining part is then built from fresh nodes.
   Excluded, see the _refuted theorems: properties stored as attributes (when replacing), arrays named without an
   index, indexed access to language alternatives, missing languages without APPEND or UNIQUE, and existing
   languages with them. *)
Inductive addressable (reg : registry) (flags : Z) : node M -> list pseg -> Prop :=
| addr_end n : addressable reg flags n []
| addr_new n s rest :
    (on flags REPLACE = true -> no_attr n (ps_name s)) -> no_child n (ps_name s) ->
    (forall l, ps_sel s = SLang l -> on flags APPEND = true \/ on flags UNIQUE = true) ->
    (forall x, fresh x -> addressable reg flags x rest) ->
    addressable reg flags n (s :: rest)
| addr_prop n s rest c :
    (on flags REPLACE = true -> no_attr n (ps_name s)) -> first_child n (ps_name s) c ->
    ps_sel s = SAll -> ~ array_shaped reg c -> addressable reg flags c rest ->
    addressable reg flags n (s :: rest)
| addr_item_new n s rest c i :
    (on flags REPLACE = true -> no_attr n (ps_name s)) -> first_child n (ps_name s) c ->
    ps_sel s = SIdx i -> n_nodes c = [] ->
    (forall x, fresh x -> addressable reg flags x rest) ->
    addressable reg flags n (s :: rest)
| addr_item n s rest c i arr more :
    (on flags REPLACE = true -> no_attr n (ps_name s)) -> first_child n (ps_name s) c ->
    ps_sel s = SIdx i -> n_nodes c = arr :: more ->
    (node_local arr = "Seq" \/ node_local arr = "Bag" /\ forall x, In x more -> node_local x <> "Seq") ->
    (forall li, nth_error (n_nodes arr) i = Some li -> addressable reg flags li rest) ->
    (nth_error (n_nodes arr) i = None -> forall x, fresh x -> addressable reg flags x rest) ->
    addressable reg flags n (s :: rest)
| addr_lang n s rest c l arr more li :
    (on flags REPLACE = true -> no_attr n (ps_name s)) -> first_child n (ps_name s) c ->
    ps_sel s = SLang l -> n_nodes c = arr :: more -> node_local arr = "Alt" ->
    In li (n_nodes arr) -> item_lang li l ->
    on flags APPEND = false -> on flags UNIQUE = false ->
    addressable reg flags n (s :: rest)
| addr_lang_add n s rest c l :
    (on flags REPLACE = true -> no_attr n (ps_name s)) -> first_child n (ps_name s) c ->
    ps_sel s = SLang l ->
    (n_nodes c = [] \/ exists arr more, n_nodes c = arr :: more /\ node_local arr = "Alt" /\
       forall li, In li (n_nodes arr) -> ~ item_lang li l) ->
    on flags APPEND = true \/ on flags UNIQUE = true ->
    addressable reg flags n (s :: rest).

End S.

(* ---- what a raw tree stores, and where ---------------------------------------------------- *)
Section L.
Context {M : Type}.
Implicit Types (n c : node M).

(* the segment that names a stored property: the prefix is written unless it is the one of the path *)
Definition seg_of (top local : string) (sl : selector) : pseg :=
  PSeg (if has_prefix local && negb (get_prefix local =? top) then Some (get_prefix local) else None)
       (strip_prefix local) sl.

(* a stored name: "name" or "prefix:name" *)
Definition stored_name (x : xname) : Prop :=
  x_space x = "" /\ exists q nm, x_local x = pfx_text q ++ nm /\ name_ok nm /\ no_char "]" nm
    /\ match q with Some q => pfx_ok q | None => True end.

Definition array_names : list string := ["rdf:Seq"; "rdf:Bag"; "rdf:Alt"].
Definition syntax_names : list string := ["rdf:parseType"; "rdf:type"; "xml:lang"].

(* attributes that are RDF syntax and no properties *)
Definition is_property (a : attr) : Prop := ~ In (x_local (a_name a)) syntax_names.

(* attributes and children have well-formed, pairwise different names *)
Definition names_ok n : Prop :=
  Forall (fun a => stored_name (a_name a)) (n_attrs n) /\
  Forall (fun c => stored_name (n_name c) /\ ~ In (x_local (n_name c)) syntax_names) (n_nodes n) /\
  NoDup (map (fun a => strip_prefix (x_local (a_name a))) (n_attrs n) ++ map node_local (n_nodes n)).

(* trees as the XMP data model has them: structures of properties, ordered/unordered arrays of structures,
   and language alternatives; arrays of arrays are excluded *)
Inductive struct_node : node M -> Prop :=
| Struct n : ~ In (x_local (n_name n)) array_names -> x_space (n_name n) = "" -> names_ok n ->
    (forall c, In c (n_nodes n) -> prop_node c) -> struct_node n
with prop_node : node M -> Prop :=
| Prop_struct n : struct_node n -> prop_node n
| Prop_array n arr : ~ In (x_local (n_name n)) array_names -> x_space (n_name n) = "" -> names_ok n -> n_nodes n = [arr] ->
    In (x_local (n_name arr)) ["rdf:Seq"; "rdf:Bag"] ->
    (Z.of_nat (List.length (n_nodes arr)) < 2 ^ 63)%Z ->
    (forall li, In li (n_nodes arr) -> struct_node li) -> prop_node n
| Prop_alt n arr : ~ In (x_local (n_name n)) array_names -> x_space (n_name n) = "" -> names_ok n -> n_nodes n = [arr] ->
    x_local (n_name arr) = "rdf:Alt" ->
    (forall li, In li (n_nodes arr) -> exists l, item_lang li l /\ lang_ok l) ->
    (forall i j li lj l, nth_error (n_nodes arr) i = Some li -> nth_error (n_nodes arr) j = Some lj ->
       item_lang li l -> item_lang lj l -> i = j) ->
    prop_node n.

(* the value v is stored below n at the given segments *)
Inductive stored (top : string) : node M -> list pseg -> string -> Prop :=
| st_value n : n_value n <> "" -> stored top n [] (n_value n)
| st_attr n a : In a (n_attrs n) -> is_property a ->
    stored top n [seg_of top (x_local (a_name a)) SAll] (a_value a)
| st_prop n c rest v : In c (n_nodes n) -> ~ In (x_local (n_name c)) array_names -> stored top c rest v ->
    stored top n (seg_of top (x_local (n_name c)) SAll :: rest) v
| st_item n c arr i li rest v : In c (n_nodes n) -> ~ In (x_local (n_name c)) array_names -> n_nodes c = [arr] -> In (x_local (n_name arr)) ["rdf:Seq"; "rdf:Bag"] ->
    nth_error (n_nodes arr) i = Some li -> stored top li rest v ->
    stored top n (seg_of top (x_local (n_name c)) (SIdx i) :: rest) v
| st_lang n c arr li l : In c (n_nodes n) -> ~ In (x_local (n_name c)) array_names -> n_nodes c = [arr] -> x_local (n_name arr) = "rdf:Alt" ->
    In li (n_nodes arr) -> item_lang li l ->
    stored top n [seg_of top (x_local (n_name c)) (SLang l)] (n_value li).

(* array items hold their data in child nodes only *)
Definition items_bare n : Prop :=
  forall arr li, in_tree arr n -> In (x_local (n_name arr)) ["rdf:Seq"; "rdf:Bag"] -> In li (n_nodes arr) ->
    n_value li = "" /\ forall a, In a (n_attrs li) -> ~ is_property a.

End L.

(* sort.Sort(byPath(_)) returns some sorted permutation *)
Definition sorts (f : list path_value -> list path_value) : Prop :=
  forall l, Permutation.Permutation (f l) l /\ Sorted.StronglySorted path_le (f l).
