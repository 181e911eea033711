(* C148: a single value in place of a list *)
From Coq Require Import List Arith ZArith Bool Ascii String Lia.
From Verif Require Import GoStr GoStrFacts GoMap Names Semver RegistryM NodeM ArrayM CodecM CodecFacts TypeM DecodeM TreeFacts FormFacts FormsM SpecForms FormsFacts LenientM.
Import ListNotations.
Local Open Scope string_scope.

Section R.
Context {X : Type}.
Notation node := (node (tmodel X)).
Variable ver : version.
Variable reg : registry.
Variables imap emap : gomap namespace.
Notation unm := (@unmarshal X (tmodel X) ver reg imap emap).

(* ---- specification: the XML elements ---- *)
(* a property with just a text, and one with a list of texts of the given kind (Bag, Seq, Alt) *)
Definition text_prop (nm : xname) (s : string) : node := Node nm [] None s [].
Definition list_prop (nm : xname) (kind : string) (l : list string) : node :=
  Node nm [] None "" [Node (new_name ("rdf:" ++ kind)) [] None "" (map (text_prop (new_name "rdf:li")) l)].
Definition rdf_known (env : gomap string) : Prop := map_get env "rdf" = Some ns_rdf_uri /\ reg_get_prefix reg ns_rdf_uri = "rdf".
Definition strings (l : list string) : gval X := VArr (map VStr l) [].

(* ---- proofs ---- *)
Lemma read_text : forall env nm s, xml_read (X := X) env (text_prop nm s) = Node (read_name env nm) [] None (trim_space s) [].
Proof. reflexivity. Qed.

(* reading a list in general: every item is read from its text by [item] *)
Lemma read_list : forall env nm kind i t (item : string -> result (gval X)) l old, rdf_known env -> In kind ["Bag"; "Seq"; "Alt"] -> ar_xmp i = true ->
  (forall x s, unm (Node x [] None s []) t false (zero t) = item s) ->
  unm (xml_read env (list_prop nm kind l)) (TArr i t) false (VArr old []) =
    (fix go (l : list string) (old : list (gval X)) : result (gval X) :=
       match l with [] => Ok (VArr old []) | s :: r => bind (item (trim_space s)) (fun w => go r (old ++ [w])%list) end) l old.
Proof.
  intros env nm kind i t item l old [He Hr] Hk Hx Hi. unfold list_prop. cbn [xml_read declare fold_left map].
  rewrite (read_rdf env He). cbn [unmarshal]. rewrite Hx. cbn [x_local].
  assert (K : (strip_prefix kind =? "Seq") || (strip_prefix kind =? "Bag") || (strip_prefix kind =? "Alt") = true)
    by (destruct Hk as [<-|[<-|[<-|[]]]]; reflexivity).
  rewrite K. clear K. revert old. induction l as [|s l IH]; intros old; [reflexivity|].
  cbn [map]. change (xml_read env (text_prop (new_name "rdf:li") s)) with (Node (read_name env (new_name ("rdf:" ++ "li"))) [] (@None (tmodel X)) (trim_space s) []).
  unfold full_name at 1. cbn [n_name]. rewrite (read_rdf env He). unfold short at 1. cbn [x_space x_local]. rewrite Hr.
  rewrite Hi. destruct (item (trim_space s)); cbn [bind]; try reflexivity. apply IH.
Qed.

(* A list of languages, with any number of them, is read in order. *)
Theorem C148_languages : forall env nm l old, rdf_known env ->
  locale_unmarshal ver reg imap emap (strings old) (xml_read (X := X) env (list_prop nm "Bag" l)) = Ok (strings (old ++ map trim_space l)%list).
Proof.
  intros env nm l old H. unfold locale_unmarshal, lenient_unmarshal. cbn [list_prop xml_read n_nodes List.length map Nat.eqb andb].
  change (Node _ _ _ _ _) with (xml_read (X := X) env (list_prop nm "Bag" l)). unfold strings.
  rewrite (read_list env nm "Bag" _ TStr (fun s => Ok (VStr (trim_space s)))); [|exact H|now left|reflexivity|reflexivity].
  revert old. induction l as [|s l IH]; intros old; [cbn [map]; now rewrite List.app_nil_r|]. cbn [bind map].
  rewrite trim_space_idem. replace (map VStr old ++ [VStr (trim_space s)])%list with (map (@VStr X) (old ++ [trim_space s])%list) by (rewrite map_app; reflexivity).
  rewrite IH. now rewrite <- List.app_assoc.
Qed.

(* A single language is read like a list with just this one. *)
Theorem C148_one_language_partial : forall env nm s old, rdf_known env -> trim_space s <> "" ->
  locale_unmarshal ver reg imap emap (strings old) (xml_read (X := X) env (text_prop nm s)) = Ok (strings (old ++ [trim_space s])%list) /\
  locale_unmarshal ver reg imap emap (strings old) (xml_read (X := X) env (text_prop nm s)) =
    locale_unmarshal ver reg imap emap (strings old) (xml_read (X := X) env (list_prop nm "Bag" [s])).
Proof.
  intros env nm s old H N.
  assert (E : locale_unmarshal ver reg imap emap (strings old) (xml_read (X := X) env (text_prop nm s)) = Ok (strings (old ++ [trim_space s])%list)).
  { rewrite read_text. unfold locale_unmarshal, lenient_unmarshal. cbn [n_nodes List.length Nat.eqb n_value andb].
    destruct (trim_space s) eqn:T; [now elim N|]. cbn [emptyb negb bind]. unfold strings. cbn [arr_append tl]. rewrite map_app. reflexivity. }
  split; [exact E|]. rewrite E. rewrite C148_languages by exact H. reflexivity.
Qed.

(* The same for dates, whatever the codec makes of the text, errors too. *)
Theorem C148_one_date_partial : forall (c : codec X) env nm s old, rdf_known env -> trim_space s <> "" ->
  date_list_unmarshal ver reg imap emap c (VArr old []) (xml_read (X := X) env (text_prop nm s)) =
    bind (c_dec c (zero (TText c)) (trim_space s)) (fun w => Ok (VArr (old ++ [w])%list [])) /\
  date_list_unmarshal ver reg imap emap c (VArr old []) (xml_read (X := X) env (text_prop nm s)) =
    date_list_unmarshal ver reg imap emap c (VArr old []) (xml_read (X := X) env (list_prop nm "Seq" [s])).
Proof.
  intros c env nm s old H N.
  assert (E : date_list_unmarshal ver reg imap emap c (VArr old []) (xml_read (X := X) env (text_prop nm s)) =
    bind (c_dec c (zero (TText c)) (trim_space s)) (fun w => Ok (VArr (old ++ [w])%list []))).
  { rewrite read_text. unfold date_list_unmarshal, lenient_unmarshal. cbn [n_nodes List.length Nat.eqb n_value andb].
    destruct (trim_space s) eqn:T; [now elim N|]. reflexivity. }
  split; [exact E|]. rewrite E. unfold date_list_unmarshal, lenient_unmarshal. cbn [list_prop xml_read n_nodes List.length map Nat.eqb andb].
  change (Node _ _ _ _ _) with (xml_read (X := X) env (list_prop nm "Seq" [s])).
  rewrite (read_list env nm "Seq" _ (TText c) (fun s => c_dec c (zero (TText c)) s)); [|exact H|right; now left|reflexivity|reflexivity].
  reflexivity.
Qed.

(* An empty element makes reading fail, for these two and all other lists ... *)
Theorem C148_empty_refuted : forall env nm s (old : gval X), trim_space s = "" ->
  (exists e, locale_unmarshal ver reg imap emap old (xml_read (X := X) env (text_prop nm s)) = Err e) /\
  (forall c : codec X, exists e, date_list_unmarshal ver reg imap emap c old (xml_read (X := X) env (text_prop nm s)) = Err e).
Proof.
  intros env nm s old T. split; [|intros c]; rewrite read_text, T; eexists; reflexivity.
Qed.
(* ... and so does a single value in place of any other list. *)
Theorem C148_other_lists_refuted : forall i t env nm s fin old, ar_xmp i = true ->
  exists e, unm (xml_read env (text_prop nm s)) (TArr i t) fin old = Err e.
Proof. intros i t env nm s fin old H. rewrite read_text. cbn [unmarshal]. rewrite H. eexists. reflexivity. Qed.
End R.
Print Assumptions C148_languages.
Print Assumptions C148_one_language_partial.
Print Assumptions C148_one_date_partial.
Print Assumptions C148_empty_refuted.
Print Assumptions C148_other_lists_refuted.

Definition reg148 : registry := registry_of [(ns_x, []); (ns_xml, []); (ns_rdf, [])].
Definition env148 : gomap string := map_set [] "rdf" ns_rdf_uri.
Example C148_hyps : rdf_known reg148 env148 /\ trim_space " en " <> "" /\
  locale_unmarshal (X := unit) (Version 0 0 0) reg148 [] [] (strings ["fr"]) (xml_read (X := unit) env148 (list_prop (new_name "dc:language") "Bag" ["en"; " de"]))
    = Ok (strings ["fr"; "en"; "de"]) /\
  locale_unmarshal (X := unit) (Version 0 0 0) reg148 [] [] (strings []) (xml_read (X := unit) env148 (text_prop (new_name "dc:language") " en "))
    = Ok (strings ["en"]).
Proof. split; [split; vm_compute; reflexivity|]. split; [vm_compute; discriminate|]. split; vm_compute; reflexivity. Qed.
