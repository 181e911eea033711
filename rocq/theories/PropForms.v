(* C106-C111: types with XMP methods of their own *)
From Coq Require Import List Arith ZArith Bool Ascii String Lia.
From Verif Require Import GoStr GoStrFacts GoMap Names Semver RegistryM NodeM ArrayM CodecM SpecCodec TypeM DecodeM ModelTypes FormsM SpecForms FormsFacts.
Import ListNotations.
Local Open Scope string_scope.

Section P.
Context {X : Type}.
Notation node := (node (tmodel X)).
Variable ver : version.
Hypothesis Hver : version_is_zero ver = true.
Variable reg : registry.
Variables imap emap : gomap namespace.
Notation known_as := (fun x s => translate reg imap emap x = XName "" s).

(* ---- C106: identifiers ---- *)
(* lists of identifiers without a scheme come back from the XML text *)
Theorem C106_trip_partial : forall env nm l old, l <> [] -> Forall (fun x => id_scheme x = "" /\ trim_space (id_id x) = id_id x) l ->
  map_get env "rdf" = Some ns_rdf_uri -> reg_get_prefix reg ns_rdf_uri = "rdf" ->
  exists n, ident_array_marshal (X := X) ver l (new_node nm) = Ok n
    /\ ident_array_unmarshal (X := X) ver reg imap emap old (xml_read (X := X) env n) = Ok (old ++ l)%list.
Proof. intros. now apply ident_array_trip. Qed.
(* the forms listed in the comment of the type are read *)
Theorem C106_forms_partial : forall f (n : node) x, denotes_identifier known_as f n x -> f <> Resource ->
  ident_unmarshal_xmp (X := X) ver reg imap emap (Ident "" "") n = Ok x.
Proof. intros f n x H N. exact (ident_forms ver Hver reg imap emap n x f H N). Qed.
(* Every identifier with a scheme is lost: what is written for it, which is one of the forms of the XMP specification, is read
   as an empty identifier. *)
Theorem C106_scheme_refuted : forall env x, id_scheme x <> "" ->
  exists n, ident_marshal_xmp (X := X) (M := tmodel X) ver x (new_node (new_name "rdf:li")) = Ok n
    /\ ident_unmarshal_xmp (X := X) ver reg imap emap (Ident "" "") (xml_read (X := X) env n) = Ok (Ident "" "").
Proof. intros. now apply (ident_written ver Hver reg imap emap). Qed.
(* What is written for an identifier with a scheme does denote it: the form of the XMP specification with a value and a
   scheme below, under the names of the written nodes. *)
Theorem C106_written_form : forall x, id_scheme x <> "" -> id_id x <> "" ->
  exists n, ident_marshal_xmp (X := X) (M := tmodel X) ver x (new_node (new_name "rdf:li")) = Ok n
    /\ denotes_identifier (fun q s => q = XName "" s) Resource n (Ident (trim_space (id_id x)) (trim_space (id_scheme x))).
Proof.
  intros [i s] H1 H2. cbn [id_scheme id_id] in *. unfold ident_marshal_xmp. cbn [id_scheme id_id]. destruct s as [|c s]; [congruence|]. cbn [emptyb].
  destruct i as [|d i]; [congruence|].
  unfold ident_struct, ident_fields. cbn [marshal marshal_attrs plain_field f_attr andb bind s_guard negb]. unfold present. rewrite !active_plain by exact Hver.
  cbn [plain_field f_omit f_empty f_attr negb andb orb is_nil is_empty emptyb negb andb bind simple_text].
  eexists. split; [reflexivity|]. apply form_resource; [reflexivity| |]; eexists; (split; [reflexivity|]; reflexivity).
Qed.
Theorem C106_resource_refuted : forall (n : node) x, denotes_identifier known_as Resource n x ->
  ident_unmarshal_xmp (X := X) ver reg imap emap (Ident "" "") n = Ok (Ident "" "").
Proof. intros n x H. exact (ident_resource_lost ver reg imap emap _ n x H). Qed.

(* ---- C107: time codes ---- *)
(* the fields H, M, S, F and IsDropFrame and the format come back; the value becomes the text that shows them *)
Theorem C107_trip_partial : forall env nm fm v h m s f d,
  trim_space fm = fm -> (0 <= h < 2 ^ 63)%Z -> (0 <= m < 2 ^ 63)%Z -> (0 <= s < 2 ^ 63)%Z -> (0 <= f < 2 ^ 63)%Z ->
  known_as (read_name env (new_name "xmpDM:timeFormat")) "xmpDM:timeFormat" -> known_as (read_name env (new_name "xmpDM:timeValue")) "xmpDM:timeValue" ->
  known_as (read_name env (new_name "rdf:parseType")) "rdf:parseType" ->
  exists n t, timecode_marshal_xmp (X := X) ver (TCX fm (TC v h m s f d)) (new_node nm) = Ok n /\ clock_shows d h m s f t
    /\ timecode_unmarshal_xmp (X := X) ver reg imap emap (xml_read (X := X) env n) = Ok (TCX fm (TC t h m s f d)).
Proof.
  intros env nm fm v h m s f d Tf Hh Hm Hs Hf K1 K2 K3. destruct (timecode_trip (X := X) ver Hver reg imap emap env nm fm v h m s f d Tf Hh Hm Hs Hf K1 K2 K3) as (n & E & R).
  exists n, (tc_string (TC v h m s f d)). split; [exact E|]. split; [reflexivity|exact R].
Qed.
(* both the element and the attribute form are read, each by what its text says *)
Theorem C107_forms : forall (n : node) fm t d h m s f, denotes_timecode known_as n fm t -> clock_shows d h m s f t ->
  (0 <= h < 2 ^ 63)%Z -> (0 <= m < 2 ^ 63)%Z -> (0 <= s < 2 ^ 63)%Z -> (0 <= f < 2 ^ 63)%Z ->
  timecode_unmarshal_xmp (X := X) ver reg imap emap n = Ok (TCX fm (TC t h m s f d)).
Proof.
  intros n fm t d h m s f D -> Hh Hm Hs Hf. rewrite (timecode_forms ver Hver reg imap emap n fm _ D).
  pose proof (CodecFacts2.tc_rt h m s f d Hh Hm Hs Hf "") as R. cbv zeta in R.
  change (join (if d then ";" else ":") [digits2 h; digits2 m; digits2 s; digits2 f]) with (tc_string (TC "" h m s f d)). now rewrite R.
Qed.
(* The value of a time code is not what is written: it does not matter at all *)
Theorem C107_value_refuted : forall fm v v' h m s f d (n : node),
  timecode_marshal_xmp (X := X) ver (TCX fm (TC v h m s f d)) n = timecode_marshal_xmp (X := X) ver (TCX fm (TC v' h m s f d)) n.
Proof. reflexivity. Qed.
(* Only a time code with neither a value nor a format is left out; any other is written. *)
Theorem C107_left_out : forall fm v h m s f d,
  timecode_is_zero (TCX fm (TC v h m s f d)) = true <-> v = "" /\ fm = "".
Proof.
  intros. unfold timecode_is_zero. cbn [tx_tc tc_value tx_format]. rewrite andb_true_iff.
  destruct v, fm; cbn [emptyb]; intuition discriminate.
Qed.
(* and a time code that has just numbers counts as empty *)
Theorem C107_numbers_refuted : forall h m s f d, timecode_is_zero (TCX "" (TC "" h m s f d)) = true.
Proof. reflexivity. Qed.

(* ---- C108: records that are read from a text ---- *)
Variable cdc : string -> codec X.
Definition text_read_records : list (ty X) :=
  [t_exif_OECF_record cdc; t_exif_CFAPattern_record cdc; t_exif_DeviceSettings_record cdc; t_id3_AudioEncryption_record; t_id3_AudioSeekIndex_record;
   t_id3_Commercial_record cdc; t_id3_Owner_record cdc; t_id3_BufferSize_record; t_id3_Reverb_record; t_itunes_SMPB_record; t_qt_Location_record cdc].
(* Nothing of such a record is read: two different ones give the same, whatever the method does with a text. *)
Theorem C108_lost_refuted : forall A (dec : string -> result A) t, In t text_read_records ->
  forall env nm v w (n m : node), marshal (X := X) ver t v (new_node nm) = Ok n -> marshal (X := X) ver t w (new_node nm) = Ok m ->
  text_only dec (xml_read (X := X) env n) = text_only dec (xml_read (X := X) env m).
Proof.
  intros A dec t Ht env nm v w n m Hn Hm. assert (S : exists i fs, t = TStruct i fs).
  { unfold text_read_records in Ht. repeat (destruct Ht as [<-|Ht]; [do 2 eexists; reflexivity|]). destruct Ht. }
  destruct S as (i & fs & ->). destruct (text_only_lost ver dec env i fs v w nm n m Hn Hm) as [-> ->]. reflexivity.
Qed.
(* what they give is the empty record, or the one that was there *)
Theorem C108_empty : forall fl (A : Type) (old : A), oecf_unmarshal fl "" = Ok (OECF 0 0 [] []) /\ cfa_unmarshal "" = Ok (Grid 0 0 []) /\ device_unmarshal "" = Ok (Grid 0 0 [])
  /\ smpb_unmarshal "" = Ok (SMPB 0 0 0 0) /\ ignore_text old "" = Ok old.
Proof. repeat split. Qed.
(* the text of the native tag is read: four of its hexadecimal numbers *)
Theorem C108_smpb_partial : forall a0 d p s a4 o rest zd zp zs zo, word a0 -> word a4 -> Forall word rest ->
  hex_numeral d zd -> (zd < 2 ^ 31)%Z -> hex_numeral p zp -> (zp < 2 ^ 31)%Z -> hex_numeral s zs -> (zs < 2 ^ 63)%Z -> hex_numeral o zo -> (zo < 2 ^ 63)%Z ->
  smpb_unmarshal (join " " (a0 :: d :: p :: s :: a4 :: o :: rest)) = Ok (SMPB zd zp zs zo).
Proof. intros. now apply smpb_read. Qed.

(* ---- C109: URIs ---- *)
Theorem C109_text_partial : forall x m t (l : list node), uri_unmarshal_xmp (X := X) ver reg imap emap (Node x [] m t l) = Ok (trim_space t).
Proof. intros. apply uri_text. Qed.
(* An attribute resource whose space is rdf, as of a node built with such a name or of an XML text that does not declare the
   prefix, is read, whatever text, children and attributes of other spaces there are. *)
Theorem C109_attribute_partial : forall x m t (l : list node) as1 u as2, (forall a, In a as1 -> x_space (a_name a) <> "rdf") ->
  uri_unmarshal_xmp (X := X) ver reg imap emap (Node x (as1 ++ Attr (XName "rdf" "resource") u :: as2)%list m t l) = Ok u.
Proof.
  intros x m t l as1 u as2 H. unfold uri_unmarshal_xmp, get_attr. cbn [n_attrs].
  induction as1 as [|a as1 IH]; [reflexivity|]. cbn [app]. unfold al_get. cbn [filter emptyb orb].
  destruct (String.eqb_spec (x_space (a_name a)) "rdf") as [E|_]; [exfalso; apply (H a); [now left|exact E]|]. cbn [andb].
  apply IH. intros b I. apply H. now right.
Qed.
(* an attribute rdf:resource of an XML text that declares the prefix is not seen: the property is empty *)
Theorem C109_resource_refuted : forall env x u, map_get env "rdf" = Some ns_rdf_uri ->
  uri_unmarshal_xmp (X := X) ver reg imap emap (xml_read (X := X) env (Node x [Attr (new_name "rdf:resource") u] None "" [])) = Ok "".
Proof. intros env x u H. exact (uri_resource_lost ver reg imap emap env x u "" H). Qed.

(* ---- C110: thumbnails ---- *)
Definition is_text (n : node) (name t : string) : Prop :=
  (exists c, In c (n_nodes n) /\ n_name c = new_name name) /\ forall c, In c (n_nodes n) -> n_name c = new_name name -> n_value c = t.
Lemma thumbnail_node : forall nm f w h b, w <> 0%Z -> h <> 0%Z -> f <> "" -> b <> "" ->
  exists n, marshal (X := X) ver t_xmpbase_Thumbnail (VStruct [VStr f; VInt w; VInt h; VStr b]) (new_node (M := tmodel X) nm) = Ok n
    /\ n_nodes n = [Node (new_name "xmpGImg:format") [] None f []; Node (new_name "xmpGImg:height") [] None (itoa w) [];
                    Node (new_name "xmpGImg:width") [] None (itoa h) []; Node (new_name "xmpGImg:image") [] None b []].
Proof.
  intros nm f w h b Hw Hh Hf Hb. apply Z.eqb_neq in Hw, Hh. apply emptyb_false in Hf, Hb.
  assert (E : fields (X := X) fs_xmpbase_Thumbnail = [(plain_field "xmpGImg:format", TStr); (plain_field "xmpGImg:height", TInt 64); (plain_field "xmpGImg:width", TInt 64); (plain_field "xmpGImg:image", TBytes)])
    by (vm_compute; reflexivity).
  unfold t_xmpbase_Thumbnail. rewrite E. set (z := all_zero _ _).
  assert (Z0 : z [VStr f; VInt w; VInt h; VStr b] = false).
  { subst z. unfold all_zero. cbn. rewrite Hf. reflexivity. }
  cbn [marshal s_guard andb is_empty s_zero]. rewrite Z0.
  cbn [marshal_attrs plain_field f_attr andb bind]. unfold present. rewrite !active_plain by exact Hver.
  cbn [plain_field f_omit f_empty f_attr negb andb orb is_nil is_empty]. rewrite Hf, Hw, Hh, Hb. cbn [negb bind simple_text].
  eexists. split; [reflexivity|]. destruct (xname_eqb _ _); reflexivity.
Qed.
Theorem C110_format_image_partial : forall nm f w h b, w <> 0%Z -> h <> 0%Z -> f <> "" -> b <> "" ->
  exists n, marshal (X := X) ver t_xmpbase_Thumbnail (VStruct [VStr f; VInt w; VInt h; VStr b]) (new_node nm) = Ok n
    /\ is_text n "xmpGImg:format" f /\ is_text n "xmpGImg:image" b.
Proof.
  intros nm f w h b Hw Hh Hf Hb. destruct (thumbnail_node nm f w h b Hw Hh Hf Hb) as (n & E & K). exists n. split; [exact E|].
  unfold is_text. rewrite K. split; split.
  all: try (eexists; split; [left; reflexivity|reflexivity]).
  all: try (eexists; split; [right; left; reflexivity|reflexivity]).
  all: try (eexists; split; [do 2 right; left; reflexivity|reflexivity]).
  all: try (eexists; split; [do 3 right; left; reflexivity|reflexivity]).
  all: intros c [<-|[<-|[<-|[<-|[]]]]] Q; cbn in Q; try discriminate Q; reflexivity.
Qed.
(* the width is written as the height and the height as the width *)
Theorem C110_swapped_refuted : forall nm f w h b, w <> 0%Z -> h <> 0%Z -> f <> "" -> b <> "" ->
  exists n, marshal (X := X) ver t_xmpbase_Thumbnail (VStruct [VStr f; VInt w; VInt h; VStr b]) (new_node nm) = Ok n
    /\ is_text n "xmpGImg:width" (itoa h) /\ is_text n "xmpGImg:height" (itoa w).
Proof.
  intros nm f w h b Hw Hh Hf Hb. destruct (thumbnail_node nm f w h b Hw Hh Hf Hb) as (n & E & K). exists n. split; [exact E|].
  unfold is_text. rewrite K. split; split.
  all: try (eexists; split; [left; reflexivity|reflexivity]).
  all: try (eexists; split; [right; left; reflexivity|reflexivity]).
  all: try (eexists; split; [do 2 right; left; reflexivity|reflexivity]).
  all: try (eexists; split; [do 3 right; left; reflexivity|reflexivity]).
  all: intros c [<-|[<-|[<-|[<-|[]]]]] Q; cbn in Q; try discriminate Q; reflexivity.
Qed.
End P.

(* ---- C111: lists of identifiers ---- *)
Lemma index_some l v i : ident_index l v = Some i -> exists x, nth_error l i = Some x /\ id_id x = v.
Proof.
  revert i. induction l as [|x l IH]; intros i H; cbn [ident_index] in H; [discriminate|]. destruct (id_id x =? v) eqn:E.
  - injection H as <-. exists x. split; [reflexivity|now apply String.eqb_eq].
  - destruct (ident_index l v) as [j|]; [|discriminate]. injection H as <-. now apply IH.
Qed.
Lemma index_none l v : ident_index l v = None <-> ~ In v (map id_id l).
Proof.
  induction l as [|x l IH]; cbn [ident_index map In]; [tauto|]. destruct (String.eqb_spec (id_id x) v) as [->|N]; [split; [discriminate|tauto]|].
  destruct (ident_index l v); cbn [option_map]; split; intros H; try discriminate.
  - exfalso. apply H. right. destruct (in_dec string_dec v (map id_id l)) as [I|I]; [exact I|]. destruct IH as [_ IH]. now specialize (IH I).
  - intros [Q|Q]; [now apply N|]. now apply IH in Q.
  - reflexivity.
Qed.
Theorem C111_contains : forall l v, ident_contains l v = true <-> In v (map id_id l).
Proof.
  intros l v. unfold ident_contains. pose proof (index_none l v) as H. destruct (ident_index l v); split; intros Q; try discriminate; try reflexivity.
  - destruct (in_dec string_dec v (map id_id l)) as [I|I]; [exact I|]. now apply H in I.
  - exfalso. now apply H in Q.
Qed.
Theorem C111_add_unique : forall l v, (In v (map id_id l) /\ ident_add_unique l v = l)
  \/ (~ In v (map id_id l) /\ ident_add_unique l v = (l ++ [Ident v ""])%list).
Proof.
  intros l v. unfold ident_add_unique. pose proof (C111_contains l v) as H. destruct (ident_contains l v); [left; split; [now apply H|reflexivity]|right].
  split; [|reflexivity]. intros I. apply H in I. discriminate.
Qed.
Theorem C111_remove_absent_partial : forall l v, ~ In v (map id_id l) -> ident_remove l v = l.
Proof. intros l v H. unfold ident_remove. now rewrite (proj2 (index_none l v) H). Qed.
(* what is removed stays, always *)
Theorem C111_remove_refuted : forall l v, In v (map id_id l) -> In v (map id_id (ident_remove l v)).
Proof.
  intros l v H. unfold ident_remove. destruct (ident_index l v) as [i|] eqn:E; [|exact H]. destruct (index_some l v i E) as (x & N & <-).
  apply in_map. apply in_or_app. right. clear -N. revert i N. induction l as [|y l IH]; intros [|i] N; cbn in N; try discriminate; cbn [firstn].
  - injection N as ->. now left.
  - right. now apply IH.
Qed.

Print Assumptions C106_trip_partial.
Print Assumptions C106_forms_partial.
Print Assumptions C106_scheme_refuted.
Print Assumptions C106_written_form.
Print Assumptions C106_resource_refuted.
Print Assumptions C107_trip_partial.
Print Assumptions C107_forms.
Print Assumptions C107_value_refuted.
Print Assumptions C107_numbers_refuted.
Print Assumptions C107_left_out.
Print Assumptions C108_lost_refuted.
Print Assumptions C108_empty.
Print Assumptions C108_smpb_partial.
Print Assumptions C109_text_partial.
Print Assumptions C109_attribute_partial.
Print Assumptions C109_resource_refuted.
Print Assumptions C110_format_image_partial.
Print Assumptions C110_swapped_refuted.
Print Assumptions C111_contains.
Print Assumptions C111_add_unique.
Print Assumptions C111_remove_absent_partial.
Print Assumptions C111_remove_refuted.

(* ---- cases that meet the hypotheses ---- *)
Definition u_dm : string := "http://ns.adobe.com/xmp/1.0/DynamicMedia/".
Definition u_idq : string := "http://ns.adobe.com/xmp/Identifier/qual/1.0/".
Definition regf : registry := registry_of [(ns_x, []); (ns_xml, []); (ns_rdf, [])].
Definition envf : gomap string := map_set (map_set (map_set [] "rdf" ns_rdf_uri) "xmpDM" u_dm) "xmpidq" u_idq.
Definition imapf : gomap namespace := map_set (map_set [] u_dm (Namespace "xmpDM" u_dm None)) u_idq (Namespace "xmpidq" u_idq None).
Definition vz : version := Version 0 0 0.
Definition lf (name t : string) : node (tmodel unit) := Node (XName "" name) [] None t [].
Notation known := (fun x s => translate regf imapf [] x = XName "" s).
Example C106_hyps : version_is_zero vz = true /\ map_get envf "rdf" = Some ns_rdf_uri /\ reg_get_prefix regf ns_rdf_uri = "rdf"
  /\ Forall (fun x => id_scheme x = "" /\ trim_space (id_id x) = id_id x) [Ident "urn:a" ""; Ident "b c" ""]
  /\ denotes_identifier known Described (Node (XName ns_rdf_uri "li") [] None "" [Node (XName ns_rdf_uri "Description") [] None ""
       [Node (XName ns_rdf_uri "value") [] None "http://www.example.com/" []; Node (XName u_idq "Scheme") [] (None : option (tmodel unit)) "myscheme" []]]) (Ident "http://www.example.com/" "myscheme")
  /\ denotes_identifier known SchemeAttribute (Node (XName ns_rdf_uri "li") [Attr (XName u_idq "Scheme") "myscheme"] (None : option (tmodel unit)) " x " []) (Ident "x" "myscheme")
  /\ (exists n, ident_marshal_xmp (X := unit) (M := tmodel unit) vz (Ident "http://www.example.com/" "myscheme") li_node = Ok n
      /\ denotes_identifier known Resource (xml_read envf n) (Ident "http://www.example.com/" "myscheme")).
Proof.
  split; [reflexivity|]. split; [reflexivity|]. split; [vm_compute; reflexivity|]. split; [repeat constructor|]. split.
  { apply (form_described known _ _ _ _ "http://www.example.com/" "myscheme"); [vm_compute; reflexivity| |]; (eexists; split; [|reflexivity]; vm_compute; reflexivity). }
  split; [apply (form_attribute known _ _ "myscheme" " x "); vm_compute; reflexivity|]. eexists. split; [vm_compute; reflexivity|].
  match goal with |- denotes_identifier _ _ ?n _ => let n' := eval vm_compute in n in change n with n' end.
  apply (form_resource known _ _ _ _ "http://www.example.com/" "myscheme"); [vm_compute; reflexivity| |]; (eexists; split; [|reflexivity]; vm_compute; reflexivity).
Qed.
Example C107_hyps : known (read_name envf (new_name "xmpDM:timeFormat")) "xmpDM:timeFormat" /\ known (read_name envf (new_name "xmpDM:timeValue")) "xmpDM:timeValue"
  /\ known (read_name envf (new_name "rdf:parseType")) "rdf:parseType"
  /\ denotes_timecode known (Node (XName u_dm "startTimecode") [Attr (XName u_dm "timeFormat") "25Timecode"; Attr (XName u_dm "timeValue") "01:02:03:04"] (None : option (tmodel unit)) "" []) "25Timecode" "01:02:03:04"
  /\ clock_shows false 1 2 3 4 "01:02:03:04"
  (* a time code made from its text alone *)
  /\ (exists n, timecode_marshal_xmp (X := unit) vz (TCX "25Timecode" (TC "01:02:03:04" 0 0 0 0 false)) (new_node (M := tmodel unit) (new_name "xmpDM:startTimecode")) = Ok n
      /\ timecode_unmarshal_xmp (X := unit) vz regf imapf [] (xml_read envf n) = Ok (TCX "25Timecode" (TC "00:00:00:00" 0 0 0 0 false))).
Proof.
  split; [vm_compute; reflexivity|]. split; [vm_compute; reflexivity|]. split; [vm_compute; reflexivity|]. split.
  { assert (T1 : trim_space "25Timecode" = "25Timecode") by (vm_compute; reflexivity). assert (T2 : trim_space "01:02:03:04" = "01:02:03:04") by (vm_compute; reflexivity).
    pose proof (fun x f v => form_attributes (M := tmodel unit) known x f v "25Timecode" "01:02:03:04") as F. rewrite T1, T2 in F. apply F; vm_compute; reflexivity. }
  split; [vm_compute; reflexivity|]. eexists. split; [vm_compute; reflexivity|]. vm_compute. reflexivity.
Qed.
Definition cdc0 : string -> codec unit := fun _ => Codec _ (fun _ => Ok (Some "")) (fun v _ => Ok v) (VText tt) (fun _ => false) false.
Example C108_hyps : (exists n m, marshal (X := unit) vz t_id3_Reverb_record (VStruct [VInt 1; VInt 2; VInt 3; VInt 4; VInt 5; VInt 6; VInt 7; VInt 8; VInt 9; VInt 10]) (new_node (M := tmodel unit) (new_name "id3:reverb")) = Ok n
    /\ marshal (X := unit) vz t_id3_Reverb_record (VStruct [VInt 0; VInt 0; VInt 0; VInt 0; VInt 0; VInt 0; VInt 0; VInt 0; VInt 0; VInt 0]) (new_node (M := tmodel unit) (new_name "id3:reverb")) = Ok m
    /\ List.length (n_nodes n) = 10 /\ n_nodes m = [])
  /\ hex_numeral "000001CA" 458 /\ smpb_unmarshal "00000000 00000840 000001CA 00000000003F31F6 00000000 00000000 00000000" = Ok (SMPB 2112 458 4141558 0).
Proof.
  split; [do 2 eexists; repeat split; vm_compute; reflexivity|]. split; [|vm_compute; reflexivity]. exists [0; 0; 0; 0; 0; 1; 12; 10]%Z.
  split; [discriminate|]. split; [repeat constructor; lia|]. split; vm_compute; reflexivity.
Qed.
Example C109_hyps : map_get envf "rdf" = Some ns_rdf_uri
  /\ uri_unmarshal_xmp (X := unit) vz regf imapf [] (xml_read (X := unit) envf (Node (new_name "xmp:BaseURL") [Attr (new_name "rdf:resource") "http://www.adobe.com/"] None "" [])) = Ok ""
  /\ uri_unmarshal_xmp (X := unit) vz regf imapf [] (xml_read envf (lf "xmp:BaseURL" "http://www.adobe.com/")) = Ok "http://www.adobe.com/".
Proof. repeat split; vm_compute; reflexivity. Qed.
Example C110_hyps : exists n, marshal (X := unit) vz t_xmpbase_Thumbnail (VStruct [VStr "JPEG"; VInt 160; VInt 120; VStr "data"]) (new_node (M := tmodel unit) (new_name "rdf:li")) = Ok n
  /\ is_text n "xmpGImg:width" "120".
Proof. eexists. split; [vm_compute; reflexivity|]. split; [eexists; split; [do 2 right; left; reflexivity|reflexivity]|]. intros c [<-|[<-|[<-|[<-|[]]]]] Q; vm_compute in Q; try discriminate Q; reflexivity. Qed.
Example C111_hyps : ident_remove [Ident "a" ""; Ident "b" ""; Ident "c" ""] "b" = [Ident "a" ""; Ident "a" ""; Ident "b" ""]
  /\ ident_add_unique [Ident "a" "s"] "b" = [Ident "a" "s"; Ident "b" ""] /\ ident_add_unique [Ident "a" "s"] "a" = [Ident "a" "s"].
Proof. repeat split. Qed.
