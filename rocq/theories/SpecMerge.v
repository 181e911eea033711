(* What a user expects of Merge, stated on the values that documents answer by path; used in PropMerge.v *)
From Coq Require Import List Arith ZArith Bool Ascii String.
From Verif Require Import GoStr GoMap Names PathM SyncFlags PVList RegistryM NodeM FilterM DocM Spec SpecBasic SpecDoc ArrayM TypeM SpecTag SpecType SpecTPath DecodeM.
Import ListNotations.
Local Open Scope string_scope.

Section S.
Context {M : Type}.
Variable ops : model_ops M.

(* Models that hold single values: every watched path can be read, an empty value takes any text that fits (and then says it,
   and all other watched paths say what they said), and a value that is there is neither replaced nor changed. *)
Record holds_values (good : M -> Prop) (watched : path -> Prop) (fits : path -> string -> Prop) : Prop := HoldsValues {
  hv_reads : forall m p, good m -> watched p -> exists s, mo_get ops m p = Ok s;
  hv_fills : forall m p v, good m -> watched p -> fits p v -> mo_get ops m p = Ok "" ->
    exists m', mo_set ops m p v MERGE = (m', Ok tt) /\ good m' /\ mo_get ops m' p = Ok v
      /\ forall q, watched q -> q <> p -> mo_get ops m' q = mo_get ops m q;
  hv_refuses : forall m p v s, good m -> watched p -> fits p v -> mo_get ops m p = Ok s -> s <> "" -> s <> v ->
    exists e, mo_set ops m p v MERGE = (m, Err e) /\ e <> errNotFound }.

(* the path is answered by the model of node i, which is in a good state *)
Definition seated (reg : registry) (good : nat -> M -> Prop) (watched : nat -> path -> Prop) (d : doc M) (p : path) (i : nat) : Prop :=
  watched i p /\ exists ns n m, path_namespace reg d p = Some ns /\ settled ops d ns i n /\ n_model n = Some m /\ good i m.

(* the document d with the namespaces of b, as Merge sees it *)
Definition with_namespaces_of (b d : doc M) : doc M := with_maps d (copy_map (d_int b) (d_int d)) (copy_map (d_ext b) (d_ext d)).
(* Go maps have distinct keys *)
Definition maps_ok (b : doc M) : Prop := NoDup (map fst (d_int b)) /\ NoDup (map fst (d_ext b)).
End S.

(* ---- typed models --------------------------------------------------------------------------------------- *)
Section T.
Context {X : Type}.

(* a first-level property p:n of a simple type; no field before it has the same local name *)
Definition property (fs : list (finfo * ty X)) (p n : string) (f : finfo) (t : ty X) : Prop :=
  (exists fa fb, fs = (fa ++ (f, t) :: fb)%list /\ Forall (fun g => ~ local_name_of (f_name (fst g)) n) fa)
  /\ f_name f = p ++ ":" ++ n /\ no_char ":" p /\ plain_name n
  /\ single t = true /\ f_omit f = false /\ f_empty f = false.
Definition path_of (p n : string) : path := tpath p [TSeg None n SNone].

(* the values are either blank or show a text that is not empty *)
Definition plain_or_blank (t : ty X) (v : gval X) : Prop :=
  blank_value t v = true \/ (v <> VNil /\ exists s, s <> "" /\ shows_as t v s).
(* the text can be stored in a blank property, is shown again, and does not count as blank *)
Definition storable_text (t : ty X) (s : string) : Prop :=
  s <> "" /\ forall v, blank_value t v = true -> exists w, reads_as t v s w /\ shows_as t w s /\ blank_value t w = false /\ w <> VNil.

(* states of a model of kind k: a value for each field, properties of simple types as above *)
Definition simple_state (k : mkind X) (m : tmodel X) : Prop :=
  tm_kind m = k /\ List.length (tm_vals m) = List.length (k_fields k)
  /\ forall j f t v, nth_error (k_fields k) j = Some (f, t) -> single t = true -> nth_error (tm_vals m) j = Some v -> plain_or_blank t v.
Definition simple_path (k : mkind X) (x : path) : Prop := exists p n f t, property (k_fields k) p n f t /\ x = path_of p n.
Definition simple_text (k : mkind X) (x : path) (s : string) : Prop :=
  exists p n f t, property (k_fields k) p n f t /\ x = path_of p n /\ storable_text t s.
End T.
