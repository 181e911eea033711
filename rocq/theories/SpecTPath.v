(* What a user expects of typed access by path, stated without the accessors; used in PropTPath.v *)
From Coq Require Import List Arith ZArith Bool Ascii String.
From Verif Require Import GoStr Names PathM SyncFlags ArrayM TypeM SpecBasic SpecTag SpecType.
Import ListNotations.
Local Open Scope string_scope.

(* ---- paths as users write them: segments with an optional prefix and an optional subscript ------ *)
Inductive subscript := SNone | SIndex (k : nat) | SLang (g : string).
Record tseg := TSeg { g_ns : option string; g_name : string; g_sub : subscript }.

Definition sub_text (s : subscript) : string :=
  match s with SNone => "" | SIndex k => "[" ++ itoa (Z.of_nat k) ++ "]" | SLang g => "[" ++ g ++ "]" end.
Definition tseg_spec (s : tseg) : seg_spec := (g_ns s, g_name s ++ sub_text (g_sub s)).
(* ns:a/b[1]/c *)
Definition tpath (p : string) (l : list tseg) : path := new_path p (map (fun s => seg_text (tseg_spec s)) l).

Definition plain_name (n : string) : Prop := n <> "" /\ no_char "/" n /\ no_char "[" n /\ no_char ":" n.
(* a language is not a number *)
Definition lang_ok (g : string) : Prop := g <> "" /\ no_char "/" g /\ no_char ":" g /\ atoi g = None.
Definition tseg_ok (s : tseg) : Prop :=
  plain_name (g_name s)
  /\ match g_ns s with Some p => p <> "" /\ no_char ":" p /\ no_char "/" p | None => True end
  /\ match g_sub s with SNone => True | SIndex k => (Z.of_nat k < 2 ^ 63)%Z | SLang g => lang_ok g end.

(* without an index the first element is meant *)
Definition index_of (s : subscript) : nat := match s with SIndex k => k | _ => 0 end.

Section S.
Context {X : Type}.
Notation gval := (gval X).
Notation ty := (ty X).

(* ---- values ------------------------------------------------------------------------------------- *)

(* behind a pointer; a nil pointer stands for a zero value *)
Inductive under : ty -> gval -> ty -> gval -> Prop :=
| under_nil t : under (TPtr t) VNil t (zero t)
| under_ptr t v : under (TPtr t) (VPtr v) t v
| under_plain t v : is_ptr t = false -> under t v t v.
Definition wrap (t : ty) (w : gval) : gval := if is_ptr t then VPtr w else w.

(* a value shown to readers: not flagged omit, not nil, and not blank unless flagged empty *)
Definition shown (x : finfo * ty * gval) : Prop :=
  let '(f, t, v) := x in
  f_omit f = false /\ v <> VNil /\ (f_empty f = true \/ blank_value t v = false).

(* simple types and what their texts mean *)
Definition single (t : ty) : bool :=
  match t with
  | TStr | TBytes | TBool | TInt _ | TUint _ | TText _ => true
  | TArr i _ => negb (ar_xmp i) && match ar_text i with Some _ => true | None => false end
  | _ => false
  end.
Inductive reads_as : ty -> gval -> string -> gval -> Prop :=
| rd_str v s : reads_as TStr v s (VStr (trim_space s))
| rd_bytes v s : reads_as TBytes v s (VStr s)
| rd_bool v s b : parse_bool (trim_space s) = Some b -> reads_as TBool v s (VBool b)
| rd_int bits v s z : parse_int bits s = Some z -> reads_as (TInt bits) v s (VInt z)
| rd_uint bits v s z : parse_uint bits s = Some z -> reads_as (TUint bits) v s (VInt z)
| rd_text c v s w : c_dec c v s = Ok w -> reads_as (TText c) v s w
| rd_slice i t c v s w : ar_text i = Some c -> c_dec c v s = Ok w -> reads_as (TArr i t) v s w.
Inductive shows_as : ty -> gval -> string -> Prop :=
| sh_str s : shows_as TStr (VStr s) s
| sh_bytes s : shows_as TBytes (VStr s) s
| sh_bool b : shows_as TBool (VBool b) (if b then "true" else "false")
| sh_int bits z : shows_as (TInt bits) (VInt z) (itoa z)
| sh_uint bits z : shows_as (TUint bits) (VInt z) (itoa z)
| sh_text c v s : c_enc c v = Ok (Some s) -> shows_as (TText c) v s
| sh_slice i t c v s : ar_text i = Some c -> c_enc c v = Ok (Some s) -> shows_as (TArr i t) v s.

(* ---- places ------------------------------------------------------------------------------------- *)

(* the first field with this local name, and its value *)
Definition field_at (n : string) (fs : list (finfo * ty)) (vs : list gval)
    (a : list gval) (f : finfo) (t : ty) (v : gval) (b : list gval) : Prop :=
  exists fa fb, fs = (fa ++ (f, t) :: fb)%list /\ vs = (a ++ v :: b)%list /\ List.length fa = List.length a
    /\ local_name_of (f_name f) n
    /\ Forall (fun g => ~ local_name_of (f_name (fst g)) n) fa.

(* The path leads from a struct with these fields to a field of type t (pointers removed) with value v.
   trail: the fields on the way. grow: elements beyond the end of an array may be passed. *)
Inductive finds (grow : bool) : list (finfo * ty) -> list gval -> list tseg -> ty -> gval -> list (finfo * ty * gval) -> Prop :=
| finds_field fs vs s a f t0 v0 b t v :
    field_at (g_name s) fs vs a f t0 v0 b -> under t0 v0 t v ->
    finds grow fs vs [s] t v [(f, t0, v0)]
| finds_struct fs vs s r a f t0 v0 b i fs' us t v tr :
    field_at (g_name s) fs vs a f t0 v0 b -> under t0 v0 (TStruct i fs') (VStruct us) ->
    finds grow fs' us r t v tr ->
    finds grow fs vs (s :: r) t v ((f, t0, v0) :: tr)
| finds_elem fs vs s r a f t0 v0 b i te l sp e si fs' us t v tr :
    field_at (g_name s) fs vs a f t0 v0 b -> under t0 v0 (TArr i te) (VArr l sp) -> ar_xmp i = true ->
    nth_error l (index_of (g_sub s)) = Some e -> under te e (TStruct si fs') (VStruct us) ->
    finds grow fs' us r t v tr ->
    finds grow fs vs (s :: r) t v ((f, t0, v0) :: tr)
| finds_new fs vs s r a f t0 v0 b i te l sp si fs' us t v tr :
    grow = true ->
    field_at (g_name s) fs vs a f t0 v0 b -> under t0 v0 (TArr i te) (VArr l sp) -> ar_xmp i = true ->
    List.length l <= index_of (g_sub s) -> Forall (eq (zero te)) sp ->
    under te (zero te) (TStruct si fs') (VStruct us) ->
    finds grow fs' us r t v tr ->
    finds grow fs vs (s :: r) t v ((f, t0, v0) :: tr).

(* vs' is vs with w in the place of the path; elements are added with zero values up to the index *)
Inductive puts : list (finfo * ty) -> list gval -> list tseg -> gval -> list gval -> Prop :=
| puts_field fs vs s a f t0 v0 b w :
    field_at (g_name s) fs vs a f t0 v0 b ->
    puts fs vs [s] w (a ++ wrap t0 w :: b)%list
| puts_struct fs vs s r a f t0 v0 b i fs' us us' w :
    field_at (g_name s) fs vs a f t0 v0 b -> under t0 v0 (TStruct i fs') (VStruct us) ->
    puts fs' us r w us' ->
    puts fs vs (s :: r) w (a ++ wrap t0 (VStruct us') :: b)%list
| puts_elem fs vs s r a f t0 v0 b i te l1 e l2 sp si fs' us us' w :
    field_at (g_name s) fs vs a f t0 v0 b -> under t0 v0 (TArr i te) (VArr (l1 ++ e :: l2) sp) ->
    List.length l1 = index_of (g_sub s) -> under te e (TStruct si fs') (VStruct us) ->
    puts fs' us r w us' ->
    puts fs vs (s :: r) w (a ++ wrap t0 (VArr (l1 ++ wrap te (VStruct us') :: l2) sp) :: b)%list
| puts_new fs vs s r a f t0 v0 b i te l sp sp' si fs' us us' w :
    field_at (g_name s) fs vs a f t0 v0 b -> under t0 v0 (TArr i te) (VArr l sp) ->
    List.length l <= index_of (g_sub s) -> under te (zero te) (TStruct si fs') (VStruct us) ->
    puts fs' us r w us' ->
    puts fs vs (s :: r) w
      (a ++ wrap t0 (VArr (l ++ repeat (zero te) (index_of (g_sub s) - List.length l) ++ [wrap te (VStruct us')]) sp') :: b)%list.

(* ---- what the last segment reads ---------------------------------------------------------------- *)
Inductive reads : ty -> gval -> subscript -> string -> Prop :=
| reads_single t v sub s : single t = true -> shows_as t v s -> reads t v sub s
| reads_elem i te l sp e te' e' sub s :
    ar_xmp i = true -> nth_error l (index_of sub) = Some e -> under te e te' e' -> shows_as te' e' s ->
    reads (TArr i te) (VArr l sp) sub s
| reads_lang m a g x b :
    g <> "" -> ai_lang x = g -> Forall (fun y => ai_lang y <> g) a ->
    reads (TAlt m) (VAlt (a ++ x :: b)) (SLang g) (ai_value x)
| reads_default m a x b sub :
    sub = SNone \/ (exists k, sub = SIndex k) -> ai_default x = true -> Forall (fun y => ai_default y = false) a ->
    reads (TAlt m) (VAlt (a ++ x :: b)) sub (ai_value x).

(* ---- what the last segment writes --------------------------------------------------------------- *)

(* the flag is among the flags *)
Definition has (flags F : Z) : Prop := Z.land flags F <> 0%Z.

Inductive sets : ty -> gval -> subscript -> string -> Z -> gval -> Prop :=
(* a simple value: overwriting one needs REPLACE *)
| sets_single t v sub value flags w :
    single t = true -> reads_as t v value w -> has flags REPLACE \/ value = "" \/ blank_value t v = true ->
    sets t v sub value flags w
(* language alternatives *)
| sets_lang m a x b g value flags :
    value <> "" -> g <> "" -> ~ has flags UNIQUE -> ~ has flags APPEND -> has flags REPLACE \/ has flags CREATE ->
    ai_lang x = g -> Forall (fun y => ai_lang y <> g) a ->
    sets (TAlt m) (VAlt (a ++ x :: b)) (SLang g) value flags (VAlt (a ++ AltItem value g (ai_default x) :: b))
| sets_new_lang m l g value flags :
    value <> "" -> g <> "" -> ~ has flags APPEND -> has flags UNIQUE \/ has flags REPLACE \/ has flags CREATE ->
    Forall (fun y => ai_lang y <> g) l ->
    (exists x r, l = x :: r /\ ai_default x = true /\ Forall (fun y => ai_default y = false) r) ->
    sets (TAlt m) (VAlt l) (SLang g) value flags (VAlt (l ++ [AltItem value g false]))
| sets_first_lang m g value flags :
    value <> "" -> has flags UNIQUE \/ has flags APPEND \/ has flags REPLACE \/ has flags CREATE -> g <> "" ->
    sets (TAlt m) (VAlt []) (SLang g) value flags (VAlt [AltItem value g true])
| sets_default m l value flags :
    value <> "" -> ~ has flags UNIQUE -> ~ has flags APPEND -> has flags REPLACE \/ has flags CREATE ->
    sets (TAlt m) (VAlt l) SNone value flags (VAlt [AltItem value "" true])
| sets_first_default m value flags :
    value <> "" -> has flags UNIQUE \/ has flags APPEND ->
    sets (TAlt m) (VAlt []) SNone value flags (VAlt [AltItem value "" true])
| sets_clear m l flags :
    has flags DELETE -> sets (TAlt m) (VAlt l) SNone "" flags (VAlt [])
(* deleting a language: one besides the default, the only one, one that is not there *)
| sets_delete_lang m d a x b g flags :
    has flags DELETE -> g <> "" -> ai_lang x = g -> Forall (fun y => ai_lang y <> g) (d :: a) ->
    ai_default d = true -> Forall (fun y => ai_default y = false) (a ++ b) ->
    sets (TAlt m) (VAlt (d :: a ++ x :: b)) (SLang g) "" flags (VAlt (d :: a ++ b))
| sets_delete_only m x g flags :
    has flags DELETE -> g <> "" -> ai_lang x = g -> sets (TAlt m) (VAlt [x]) (SLang g) "" flags (VAlt [])
| sets_delete_absent m l g flags :
    has flags DELETE -> g <> "" -> Forall (fun y => ai_lang y <> g) l -> sets (TAlt m) (VAlt l) (SLang g) "" flags (VAlt l).

(* lists with an index k: the elements before, at and after it *)
Inductive edits (te : ty) : list gval -> subscript -> string -> Z -> list gval -> Prop :=
| edit_append l value flags x :
    value <> "" -> has flags APPEND -> ~ has flags UNIQUE -> reads_as te (zero te) value x ->
    edits te l SNone value flags (l ++ [x])
| edit_unique l value flags x :
    value <> "" -> has flags UNIQUE -> reads_as te (zero te) value x ->
    Forall (fun e => exists s, shows_as te e s /\ s <> value) l ->
    edits te l SNone value flags (l ++ [x])
| edit_only l value flags x :
    value <> "" -> ~ has flags APPEND -> ~ has flags UNIQUE -> has flags REPLACE \/ has flags CREATE ->
    reads_as te (zero te) value x ->
    edits te l SNone value flags [x]
| edit_at a e b value flags x :
    value <> "" -> has flags REPLACE \/ has flags CREATE -> reads_as te (zero te) value x ->
    edits te (a ++ e :: b) (SIndex (List.length a)) value flags (a ++ x :: b)
| edit_new l k value flags x :
    value <> "" -> has flags REPLACE \/ has flags CREATE -> reads_as te (zero te) value x -> List.length l <= k ->
    edits te l (SIndex k) value flags (l ++ repeat (zero te) (k - List.length l) ++ [x])
| edit_delete a e b flags :
    has flags DELETE -> edits te (a ++ e :: b) (SIndex (List.length a)) "" flags (a ++ b)
| edit_clear l flags :
    has flags DELETE -> edits te l SNone "" flags [].

(* ---- listing ------------------------------------------------------------------------------------- *)

(* a field name with this local part *)
Definition field_name_ok (f n : string) : Prop :=
  plain_name n /\ no_char "]" n
  /\ (f = n \/ exists p, p <> "" /\ no_char ":" p /\ no_char "/" p /\ f = p ++ ":" ++ n).
(* in every struct the local names of the fields differ *)
Fixpoint names_ok (t : ty) : Prop :=
  match t with
  | TArr _ t' => names_ok t'
  | TPtr t' => is_ptr t' = false /\ names_ok t'
  | TStruct _ fs =>
      (exists ls, Forall2 (fun f n => field_name_ok (f_name (fst f)) n) fs ls /\ NoDup ls)
      /\ (fix all (fs : list (finfo * ty)) : Prop := match fs with [] => True | f :: r => names_ok (snd f) /\ all r end) fs
  | _ => True
  end.
(* the alternatives have languages, all different *)
Fixpoint langs_ok (t : ty) (v : gval) : Prop :=
  match t, v with
  | TAlt _, VAlt l => Forall (fun x => lang_ok (ai_lang x)) l /\ NoDup (map ai_lang l)
  | TArr _ t', VArr l _ =>
      (Z.of_nat (List.length l) < 2 ^ 63)%Z
      /\ (fix all (l : list gval) : Prop := match l with [] => True | e :: r => langs_ok t' e /\ all r end) l
  | TPtr t', VPtr v' => langs_ok t' v'
  | TStruct _ fs, VStruct vs =>
      (fix all (fs : list (finfo * ty)) (vs : list gval) : Prop :=
         match fs, vs with
         | f :: fs', v :: vs' => langs_ok (snd f) v /\ all fs' vs'
         | _, _ => True
         end) fs vs
  | _, _ => True
  end.
End S.

Definition last_sub (l : list tseg) : subscript := match rev l with s :: _ => g_sub s | [] => SNone end.
(* no flags are the default flags *)
Definition effective (flags : Z) : Z := if (flags =? 0)%Z then DEFAULT else flags.
