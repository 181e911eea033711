(* Property theorems C16: filter strings *)
From Coq Require Import List Arith ZArith Bool Ascii String.
From Verif Require Import GoStr GoStrFacts GoMap Names RegistryM FilterM Spec SpecFilter FilterFacts.
Local Open Scope string_scope.

(* ---- C16 ---- *)
(* missing for the full property: namespaces whose name is also a group keyword (refuted below) or
   contains a comma *)
Theorem C16_filter_string_round_trip_partial h f :
  Forall (fun n => has_char "," (ns_name n) = false /\ ~ In (ns_name n) group_keywords) (f_include f ++ f_exclude f) ->
  names (f_include (parse_filter (registry_of h) (filter_string f))) = names (f_include f) /\
  names (f_exclude (parse_filter (registry_of h) (filter_string f))) = names (f_exclude f).
Proof. exact (filter_round_trip h f). Qed.
Print Assumptions C16_filter_string_round_trip_partial.

(* the basic XMP namespace has prefix "xmp", which is parsed as the group "xmp" *)
Theorem C16_filter_string_round_trip_refuted :
  exists h f, Forall (fun n => has_char "," (ns_name n) = false) (f_include f ++ f_exclude f) /\
  names (f_include (parse_filter (registry_of h) (filter_string f))) <> names (f_include f).
Proof.
  exists [(Namespace "xmp" "http://ns.adobe.com/xap/1.0/" None, ["xmp"]);
          (Namespace "xmpMM" "http://ns.adobe.com/xap/1.0/mm/" None, ["xmp"])],
    (Filter [Namespace "xmp" "http://ns.adobe.com/xap/1.0/" None] []).
  split; [repeat constructor|]. vm_compute. discriminate.
Qed.
Print Assumptions C16_filter_string_round_trip_refuted.

Theorem C16_strict_accepts_exactly_registered_names r s f :
  parse_filter_strict r s = Ok f <-> denotes r (items s) f.
Proof. exact (strict_spec r s f). Qed.
Print Assumptions C16_strict_accepts_exactly_registered_names.

Theorem C16_strict_unknown_name_is_error r s :
  (exists it, In it (items s) /\ forall l, ~ stands_for r (snd it) l) ->
  exists e, parse_filter_strict r s = Err e.
Proof. exact (strict_err r s). Qed.
Print Assumptions C16_strict_unknown_name_is_error.

Theorem C16_lenient_agrees_with_strict r s f :
  (forall n ns, get_namespace r (String " " n) <> Ok ns) ->
  parse_filter_strict r s = Ok f -> parse_filter r s = f.
Proof. exact (lenient_agrees r s f). Qed.
Print Assumptions C16_lenient_agrees_with_strict.

Example C16_hyps :
  let h := [(Namespace "dc" "u1" None, ["xmp"]); (Namespace "exif" "u2" None, ["image"])] in
  parse_filter_strict (registry_of h) "+dc,-image,,exif"
    = Ok (Filter [Namespace "dc" "u1" None; Namespace "exif" "u2" None] [Namespace "exif" "u2" None])
  /\ filter_string (Filter [Namespace "dc" "u1" None] [Namespace "exif" "u2" None]) = "+dc,-exif"
  /\ (forall n ns, get_namespace (registry_of h) (String " " n) <> Ok ns).
Proof. repeat split; intros; discriminate. Qed.
