(* C03 continued: AppendIndex and AppendIndexString on whole paths, including paths
   which already end in an index. *)
From Coq Require Import List Arith ZArith Bool Ascii String.
From Verif Require Import GoStr GoStrFacts Names PathM Spec SpecBasic PathFacts PathMoreFacts.
Import ListNotations.
Local Open Scope string_scope.

Theorem C03_append_index_on_path ns segs s i :
  no_char ":" ns -> Forall seg_ok (segs ++ [s]) ->
  fields (append_index (new_path ns (segs ++ [s])%list) i) =
  if has_suffix_str "]" s
  then (segs ++ [s; ("[" ++ itoa i ++ "]")%string])%list
  else (segs ++ [(s ++ "[" ++ itoa i ++ "]")%string])%list.
Proof. exact (append_index_fields ns segs s i). Qed.
Print Assumptions C03_append_index_on_path.

Theorem C03_append_lang_on_path ns segs s lang :
  no_char ":" ns -> Forall seg_ok (segs ++ [s]) -> no_char "/" lang ->
  fields (append_index_string (new_path ns (segs ++ [s])%list) lang) =
  if has_suffix_str "]" s
  then (segs ++ [s; ("[" ++ lang ++ "]")%string])%list
  else (segs ++ [(s ++ "[" ++ lang ++ "]")%string])%list.
Proof. exact (append_lang_fields ns segs s lang). Qed.
Print Assumptions C03_append_lang_on_path.

Example C03_path_hyps :
  no_char ":" "xmpDM" /\ Forall seg_ok ["Tracks[2]"; "markers"] /\ Forall seg_ok ["Tracks[2]"]
  /\ append_index "xmpDM:Tracks[2]/markers" 7 = "xmpDM:Tracks[2]/markers[7]"
  /\ append_index "xmpDM:Tracks[2]" 7 = "xmpDM:Tracks[2]/[7]"
  /\ append_index_string "dc:title" "x-default" = "dc:title[x-default]".
Proof. repeat split; repeat constructor; discriminate. Qed.
