(* Documents of the models the library comes with. Used in PropLib.v. *)
From Coq Require Import List Arith ZArith Bool Ascii String Permutation.
From Verif Require Import GoStr GoMap Names Semver RegistryM SpecRegistry NodeM DocM ArrayM TypeM DecodeM SpecType SpecJson SpecTree SpecTrip ModelTypes.
Import ListNotations.
Local Open Scope string_scope.

Section S.
Context {X : Type}.
Variable cdc : string -> codec X.
Variable den_zero : gval X -> bool.
Variable ver : version.
Notation model := (tmodel X).

(* A program that imports the models of the library: their namespaces are registered, in any order, and perhaps others.
   No prefix and no URI is used twice, and none is one XML uses for itself. kinds are the models that can be made. *)
Definition library_program (h : list reg_op) (kinds : nat -> string -> option (mkind X)) : Prop :=
  incl (map fst (core ++ library)) (map fst h)
  /\ (forall a b, In a (map fst h) -> In b (map fst h) -> ns_name a = ns_name b \/ ns_uri a = ns_uri b -> a = b)
  /\ (forall a, In a (map fst h) -> ~ In (ns_name a) [""; "xmlns"; "parseType"] /\ has_char ":" (ns_name a) = false
                                   /\ ~ In (ns_uri a) [""; "xmlns"])
  /\ forall f p k, library_kinds cdc den_zero f p = Some k -> kinds f p = Some k.

(* the models with fields of other namespaces *)
Definition mixed : list string := ["drone-dji"; "exif"; "pdf"; "riffinfo"; "tiff"].
(* every property it writes is one of its own namespace *)
Definition own_only (m : model) : Prop :=
  forall s t, In (s, t) (says ver m) -> exists home l, k_namespaces (tm_kind m) = [home] /\ s = ns_name home ++ ":" ++ l.
(* A model of the library with values that can be stored (SpecType.v, SpecTree.v). *)
Definition library_model (h : list reg_op) (m : model) : Prop :=
  In (tm_kind m) (library_models cdc den_zero)
  /\ Forall (fun ns => In ns (map fst h)) (k_namespaces (tm_kind m))
  /\ storable ver (record_ty (tm_kind m)) (record_of m) /\ snug ver (record_ty (tm_kind m)) (record_of m)
  /\ (Exists (fun ns => In (ns_name ns) mixed) (k_namespaces (tm_kind m)) -> own_only m).
Definition library_doc (h : list reg_op) (d : doc model) : Prop :=
  (* nothing but models of the library, under registered prefixes *)
  Forall (fun n => bare_model n /\ free_prefix h (x_local (n_name n))) (d_nodes d)
  /\ Forall (library_model h) (models_of d)
  (* no two of the same namespace *)
  /\ NoDup (map (fun m => k_namespaces (tm_kind m)) (models_of d))
  (* the namespaces the document remembers are those registered *)
  /\ forall u ns, In (u, ns) (d_int d ++ d_ext d) -> In ns (map fst h).

(* the languages of all alternatives in a value are as JSON needs them (SpecJson.v) *)
Fixpoint alts_fine (t : pval) : Prop :=
  match t with
  | PLeaf _ => True
  | PRecord fs => (fix all (fs : list (string * pval)) : Prop := match fs with [] => True | f :: r => alts_fine (snd f) /\ all r end) fs
  | PList l => (fix all (l : list pval) : Prop := match l with [] => True | t :: r => alts_fine t /\ all r end) l
  | PAlts l => alts_ok l
  end.
(* JSON can hold it: the lists are ordered or bags, the alternatives have suitable languages, and every property has some text. *)
Definition json_library (m : model) : Prop :=
  arrays_in ver ["Seq"; "Bag"] (record_ty (tm_kind m)) (record_of m)
  /\ alts_fine (PRecord (says ver m)) /\ Forall (fun f => loud (snd f) = true) (says ver m).
End S.

(* ---- records that say themselves when they are empty ---------------------------------------------------- *)

Section R.
Context {X : Type}.
Variable cdc : string -> codec X.
Variable den_zero : gval X -> bool.
(* all records of the library with an IsZero method, but ResourceRef, MediaTime and those of package exif with a text reader *)
Definition own_zero_records : list (ty X) :=
  [t_exif_Flash cdc; t_xmpdm_CuePointParam; t_ps_Layer; t_xmpbase_Thumbnail; t_xmpbj_Job; t_xmpdm_BeatSpliceStretch cdc den_zero;
   t_xmpdm_Marker cdc; t_xmpdm_ProjectLink; t_xmpdm_ResampleStretch; t_xmpdm_TimeScaleStretch cdc;
   t_xmptpg_Colorant cdc; t_xmptpg_Dimensions cdc].
End R.
