(* Facts about identifiers, time codes, URIs and records with a text reader. *)
From Coq Require Import List Arith ZArith Bool Ascii String Lia.
From Verif Require Import GoStr GoStrFacts GoMap Names Semver RegistryM NodeM ArrayM CodecM CodecFacts CodecFacts2 TypeM DecodeM TreeFacts FormFacts FormsM SpecForms SpecCodec.
Import ListNotations.
Local Open Scope string_scope.

Lemma active_plain ver s : version_is_zero ver = true -> active ver (plain_field s) = true.
Proof. intros H. unfold active, version_between. now rewrite H. Qed.

Lemma skip_mark : skip_field (XName "" "rdf:parseType") = true.
Proof. reflexivity. Qed.

Section R.
Context {X : Type}.
Notation node := (node (tmodel X)).
Variable ver : version.
Hypothesis Hver : version_is_zero ver = true.
Variable reg : registry.
Variables imap emap : gomap namespace.
Notation known_as := (fun x s => translate reg imap emap x = XName "" s).
Notation unm := (@unmarshal X (tmodel X) ver reg imap emap).

Lemma unm_str x a m v (l : list node) old : unm (Node x a m v l) TStr false old = Ok (VStr (trim_space v)).
Proof. reflexivity. Qed.
Lemma unm_empty_struct x m v i fs vs fin : unm (Node x [] m v []) (TStruct i fs) fin (VStruct vs) = Ok (VStruct vs).
Proof. reflexivity. Qed.

Section Two.
(* a record with two simple fields *)
Variables f1 f2 : string.
Hypothesis Hne : f1 <> f2.
Hypothesis H1 : skip_field (XName "" f1) = false.
Hypothesis H2 : skip_field (XName "" f2) = false.
Hypothesis D1 : f1 <> "rdf:Description".
Hypothesis D2 : f2 <> "rdf:Description".
Definition two : ty X := TStruct (StructInfo _ None false) [(plain_field f1, TStr); (plain_field f2, TStr)].
Lemma find_two_1 : find_field (X:=X) ver [(plain_field f1, TStr); (plain_field f2, TStr)] f1 = Some 0.
Proof. unfold find_field. cbn [find_field_from]. rewrite active_plain by exact Hver. cbn [negb plain_field f_name]. now rewrite String.eqb_refl. Qed.
Lemma find_two_2 : find_field (X:=X) ver [(plain_field f1, TStr); (plain_field f2, TStr)] f2 = Some 1.
Proof.
  unfold find_field. cbn [find_field_from]. rewrite !active_plain by exact Hver. cbn [negb plain_field f_name f_any].
  rewrite (proj2 (String.eqb_neq _ _) Hne), String.eqb_refl. reflexivity.
Qed.
Lemma two_kids x m t a (v s : node) i j w1 w2 fin :
  mark_only known_as a ->
  simple_prop known_as v f1 i -> simple_prop known_as s f2 j ->
  unm (Node x a m t [v; s]) two fin (VStruct [w1; w2]) = Ok (VStruct [VStr (trim_space i); VStr (trim_space j)]).
Proof.
  intros Ha (xv & Kv & ->) (xs & Ks & ->).
  assert (R : name_full reg (XName "" f1) = f1 /\ name_full reg (XName "" f2) = f2) by (split; reflexivity). destruct R as [R1 R2].
  assert (N1 : (f1 =? "rdf:Description") = false) by (apply String.eqb_neq; exact D1).
  assert (N2 : (f2 =? "rdf:Description") = false) by (apply String.eqb_neq; exact D2).
  destruct Ha as [->|(p & q & -> & Kp)]; unfold two; cbn [unmarshal bind n_name a_name]; rewrite ?Kp, ?skip_mark; cbn [bind]; rewrite ?Kv, ?R1, ?N1, ?H1, ?find_two_1;
    cbn [nth_error bind wrap_err set_simple_value set_nth]; rewrite ?Ks, ?R2, ?N2, ?H2, ?find_two_2; reflexivity.
Qed.
Lemma two_kid2 x m t a (s : node) j w1 w2 fin :
  mark_only known_as a -> simple_prop known_as s f2 j ->
  unm (Node x a m t [s]) two fin (VStruct [w1; w2]) = Ok (VStruct [w1; VStr (trim_space j)]).
Proof.
  intros Ha (xs & Ks & ->).
  assert (R2 : name_full reg (XName "" f2) = f2) by reflexivity.
  assert (N2 : (f2 =? "rdf:Description") = false) by (apply String.eqb_neq; exact D2).
  destruct Ha as [->|(p & q & -> & Kp)]; unfold two; cbn [unmarshal bind n_name a_name]; rewrite ?Kp, ?skip_mark; cbn [bind]; rewrite ?Ks, ?R2, ?N2, ?H2, ?find_two_2; reflexivity.
Qed.
Lemma two_attr2 x m t a j w1 w2 fin : known_as a f2 ->
  unm (Node x [Attr a j] m t []) two fin (VStruct [w1; w2]) = Ok (VStruct [w1; VStr (trim_space j)]).
Proof.
  intros K. unfold two. cbn [unmarshal bind a_name a_value]. rewrite K, H2. cbn [x_local]. rewrite find_two_2. reflexivity.
Qed.
Lemma two_attrs x m t a b i j w1 w2 fin : known_as a f1 -> known_as b f2 ->
  unm (Node x [Attr a i; Attr b j] m t []) two fin (VStruct [w1; w2]) = Ok (VStruct [VStr (trim_space i); VStr (trim_space j)]).
Proof.
  intros K L. unfold two. cbn [unmarshal bind a_name a_value]. rewrite K, H1. cbn [x_local]. rewrite find_two_1. cbn [nth_error bind unmarshal_attr set_simple_value set_nth].
  rewrite L, H2. cbn [x_local]. rewrite find_two_2. reflexivity.
Qed.
End Two.

(* ---- identifiers ---- *)
Notation read := (@ident_unmarshal_xmp X (tmodel X) ver reg imap emap).
Lemma ident_struct_two : @ident_struct X = two "rdf:value" "xmpidq:Scheme".
Proof. reflexivity. Qed.
Lemma ident_forms n x f : denotes_identifier known_as f n x -> f <> Resource -> read (Ident "" "") n = Ok x.
Proof.
  intros H N. destruct H; [reflexivity| | |congruence]; unfold ident_unmarshal_xmp; cbn [n_nodes n_attrs id_id id_scheme]; rewrite ident_struct_two.
  - rewrite (two_kids "rdf:value" "xmpidq:Scheme") with (i := i) (j := sch); auto; try (now left); try reflexivity; discriminate.
  - rewrite unm_str. rewrite (two_attr2 "rdf:value" "xmpidq:Scheme"); auto; try reflexivity; discriminate.
Qed.
Lemma ident_resource_lost old n x : denotes_identifier known_as Resource n x -> read old n = Ok old.
Proof.
  intros H. inversion H as [| | |x0 a v s i sch Ka (xv & Kv & ->) (xs & Ks & ->)]; subst. destruct old. reflexivity.
Qed.
Lemma ident_written old env x : id_scheme x <> "" ->
  exists n, ident_marshal_xmp (X := X) (M := tmodel X) ver x li_node = Ok n /\ read old (xml_read env n) = Ok old.
Proof.
  destruct x as [i s]. cbn [id_scheme]. intros H. unfold ident_marshal_xmp. cbn [id_scheme id_id]. destruct s as [|c s]; [congruence|]. cbn [emptyb].
  unfold ident_struct, ident_fields. cbn [marshal marshal_attrs plain_field f_attr andb bind s_guard negb]. unfold present. rewrite !active_plain by exact Hver.
  cbn [plain_field f_omit f_empty f_attr negb andb orb is_nil is_empty emptyb]. destruct i as [|d i]; cbn [emptyb negb andb bind simple_text];
    (eexists; split; [reflexivity|]; destruct old; reflexivity).
Qed.

Lemma ident_plain_item env i : trim_space i = i ->
  exists n, ident_marshal_xmp (X := X) (M := tmodel X) ver (Ident i "") li_node = Ok n /\ n_attrs n = [] /\ n_name n = XName "" "rdf:li"
    /\ read (Ident "" "") (xml_read env n) = Ok (Ident i "").
Proof.
  intros T. eexists. split; [reflexivity|]. repeat split. change (Ok (Ident (trim_space (trim_space i)) "") = Ok (Ident i "")). now rewrite !T.
Qed.
Lemma ident_array_trip env nm l old : l <> [] -> Forall (fun x => id_scheme x = "" /\ trim_space (id_id x) = id_id x) l ->
  map_get env "rdf" = Some ns_rdf_uri -> reg_get_prefix reg ns_rdf_uri = "rdf" ->
  exists n, ident_array_marshal (X := X) (M := tmodel X) ver l (new_node nm) = Ok n
    /\ ident_array_unmarshal (X := X) ver reg imap emap old (xml_read env n) = Ok (old ++ l)%list.
Proof.
  intros Hl F He Hr.
  assert (I : exists its, ident_items (X := X) (M := tmodel X) ver l = Ok its /\ forall old, ident_read_items (X := X) ver reg imap emap (map (xml_read env) its) old = Ok (old ++ l)%list).
  { clear Hl old. induction F as [|[i s] l [Es Et] F IH]; [exists []; split; [reflexivity|]; intros; cbn; now rewrite List.app_nil_r|]. cbn [id_scheme id_id] in Es, Et. subst s.
    destruct IH as (its & E & R). destruct (ident_plain_item env i Et) as (n & En & Ea & Enm & Rn). exists (n :: its). split.
    - cbn [ident_items]. rewrite En. cbn [bind]. now rewrite E.
    - intros old. cbn [map ident_read_items]. replace (full_name reg (xml_read env n)) with "rdf:li".
      + rewrite String.eqb_refl, Rn. cbn [bind]. rewrite R, <- List.app_assoc. reflexivity.
      + unfold full_name. rewrite xml_read_name by (rewrite Ea; constructor). rewrite Enm. change (XName "" "rdf:li") with (new_name ("rdf:" ++ "li")).
        rewrite read_rdf by exact He. unfold short. cbn [x_space x_local]. rewrite Hr. reflexivity. }
  destruct I as (its & E & R). unfold ident_array_marshal. destruct l as [|x l]; [congruence|]. rewrite E. cbn [bind]. eexists. split; [reflexivity|].
  unfold ident_array_unmarshal, add_node, new_node, set_nodes, array_node. cbn [xml_read n_nodes declare fold_left map nl_add]. cbn [set_nodes new_node n_nodes nl_add xml_read declare fold_left map].
  unfold array_child. cbn [n_nodes]. unfold node_local. cbn [n_name]. change (XName "" ("rdf:" ++ "Bag")) with (new_name ("rdf:" ++ "Bag")).
  rewrite read_rdf by exact He. cbn [x_local]. change ((strip_prefix "Bag" =? "Seq") || (strip_prefix "Bag" =? "Bag") || (strip_prefix "Bag" =? "Alt")) with true. cbv iota.
  cbn [bind n_nodes]. apply R.
Qed.

(* ---- time codes ---- *)
Notation tread := (@timecode_unmarshal_xmp X (tmodel X) ver reg imap emap).
Lemma timecode_forms n f v : denotes_timecode known_as n f v -> tread n = bind (tc_unmarshal v) (fun t => Ok (TCX f t)).
Proof.
  intros H. unfold timecode_unmarshal_xmp. change (@timecode_struct X) with (two "xmpDM:timeFormat" "xmpDM:timeValue"). destruct H.
  - rewrite (two_kids "xmpDM:timeFormat" "xmpDM:timeValue") with (i := i) (j := sch); auto; try reflexivity; discriminate.
  - rewrite (two_kid2 "xmpDM:timeFormat" "xmpDM:timeValue") with (j := sch); auto; try reflexivity; discriminate.
  - rewrite (two_attrs "xmpDM:timeFormat" "xmpDM:timeValue"); auto; try reflexivity; discriminate.
Qed.

Lemma digits_solid z c : (0 <= z)%Z -> has_char c (two_digits z) = true -> is_space c = false.
Proof.
  intros Hz H. destruct (is_digit c) eqn:D; [now apply is_space_digit|]. exfalso.
  enough (has_char c (two_digits z) = false) by congruence. eapply numeral_no_char; [now apply two_digits_numeral|exact D].
Qed.
Lemma tc_string_trim v h m s f d : (0 <= h)%Z -> (0 <= m)%Z -> (0 <= s)%Z -> (0 <= f)%Z -> trim_space (tc_string (TC v h m s f d)) = tc_string (TC v h m s f d).
Proof.
  intros Hh Hm Hs Hf. apply trim_solid. intros c. unfold tc_string. cbn [tc_h tc_m tc_s tc_f tc_drop]. rewrite !has_char_app. rewrite !orb_true_iff.
  assert (S : forall e : bool, has_char c (if e then ";" else ":") = true -> is_space c = false).
  { intros e. destruct e; cbn [has_char]; rewrite orb_false_r; intros E; apply Ascii.eqb_eq in E; subst c; reflexivity. }
  intros H. repeat match goal with H : _ \/ _ |- _ => destruct H as [H|H] end; try (now apply (S d)); (eapply digits_solid; [|exact H]; assumption).
Qed.
Lemma timecode_trip env nm fm v h m s f d :
  trim_space fm = fm -> (0 <= h < 2 ^ 63)%Z -> (0 <= m < 2 ^ 63)%Z -> (0 <= s < 2 ^ 63)%Z -> (0 <= f < 2 ^ 63)%Z ->
  known_as (read_name env (new_name "xmpDM:timeFormat")) "xmpDM:timeFormat" -> known_as (read_name env (new_name "xmpDM:timeValue")) "xmpDM:timeValue" ->
  known_as (read_name env (new_name "rdf:parseType")) "rdf:parseType" ->
  exists n, timecode_marshal_xmp (X := X) (M := tmodel X) ver (TCX fm (TC v h m s f d)) (new_node nm) = Ok n
    /\ tread (xml_read env n) = Ok (TCX fm (TC (tc_string (TC v h m s f d)) h m s f d)).
Proof.
  intros Tf Hh Hm Hs Hf K1 K2 K3. pose proof (tc_rt h m s f d Hh Hm Hs Hf v) as RT. cbv zeta in RT. set (t := tc_string (TC v h m s f d)) in *.
  assert (Tt : trim_space t = t) by (apply tc_string_trim; lia).
  assert (Et : emptyb t = false). { destruct t eqn:E; [|reflexivity]. exfalso. unfold tc_unmarshal in RT. cbn in RT. injection RT as Q. discriminate. }
  unfold timecode_marshal_xmp. cbn [tx_format tx_tc]. fold t. unfold timecode_struct, timecode_fields. cbn [marshal marshal_attrs plain_field f_attr andb bind s_guard negb]. unfold present. rewrite !active_plain by exact Hver.
  cbn [plain_field f_omit f_empty f_attr negb andb orb is_nil is_empty]. rewrite Et.
  assert (Mk : mark_only known_as [] /\ mark_only known_as [Attr (read_name env (new_name "rdf:parseType")) "Resource"]).
  { split; [now left|]. right. do 2 eexists. split; [reflexivity|exact K3]. }
  destruct Mk as [Mk1 Mk2].
  assert (V : simple_prop known_as (Node (M := tmodel X) (read_name env (new_name "xmpDM:timeValue")) [] None t []) "xmpDM:timeValue" t) by (eexists; split; [exact K2|reflexivity]).
  assert (F : simple_prop known_as (Node (M := tmodel X) (read_name env (new_name "xmpDM:timeFormat")) [] None fm []) "xmpDM:timeFormat" fm) by (eexists; split; [exact K1|reflexivity]).
  destruct (emptyb fm) eqn:Ef; cbn [emptyb negb andb bind simple_text]; (eexists; split; [reflexivity|]).
  - destruct fm; [|discriminate]. rewrite (timecode_forms _ "" (trim_space t)); [now rewrite Tt, RT|].
    destruct (xname_eqb _ _);
      [change (denotes_timecode known_as (Node (M := tmodel X) (read_name env nm) [] None "" [Node (read_name env (new_name "xmpDM:timeValue")) [] None (trim_space t) []]) "" (trim_space t))
      |change (denotes_timecode known_as (Node (M := tmodel X) (read_name env nm) [Attr (read_name env (new_name "rdf:parseType")) "Resource"] None "" [Node (read_name env (new_name "xmpDM:timeValue")) [] None (trim_space t) []]) "" (trim_space t))];
      rewrite Tt at 1; apply form_no_format; assumption.
  - rewrite (timecode_forms _ (trim_space fm) (trim_space t)); [now rewrite Tf, Tt, RT|].
    set (kids := [Node (M := tmodel X) (read_name env (new_name "xmpDM:timeFormat")) [] None (trim_space fm) []; Node (read_name env (new_name "xmpDM:timeValue")) [] None (trim_space t) []]).
    destruct (xname_eqb _ _);
      [change (denotes_timecode known_as (Node (M := tmodel X) (read_name env nm) [] None "" kids) (trim_space fm) (trim_space t))
      |change (denotes_timecode known_as (Node (M := tmodel X) (read_name env nm) [Attr (read_name env (new_name "rdf:parseType")) "Resource"] None "" kids) (trim_space fm) (trim_space t))];
      subst kids; rewrite Tt at 1; rewrite Tf at 1; apply form_elements; assumption.
Qed.
End R.

(* ---- records with a text reader only ---- *)
Section V.
Context {X M : Type}.
Variable ver : version.
Lemma marshal_attrs_value fs : forall vs (n n' : node M), marshal_attrs (X := X) ver fs vs n = Ok n' -> n_value n' = n_value n.
Proof.
  induction fs as [|[f t] fs IH]; intros [|v vs] n n' H; cbn [marshal_attrs] in H; try discriminate; [now injection H as <-|].
  destruct (_ && _); [|now apply IH in H]. destruct (attr_text t v) as [o|e|]; cbn [bind] in H; try discriminate. apply IH in H. rewrite H.
  destruct o; [|reflexivity]. now destruct n.
Qed.
Lemma struct_value i fs v (n n' : node M) : marshal (X := X) ver (TStruct i fs) v n = Ok n' -> n_value n' = n_value n.
Proof.
  cbn [marshal]. destruct v; try discriminate. destruct (_ && _); [intros H; now injection H as <-|].
  destruct (marshal_attrs ver fs vs n) as [n1|e|] eqn:A; cbn [bind]; try discriminate. apply marshal_attrs_value in A. rewrite <- A. clear A n.
  generalize false. revert vs n1. induction fs as [|[f t] fs IH]; intros [|v vs] n1 b H; try discriminate.
  - destruct (_ && _) in H; injection H as <-; [now destruct n1|reflexivity].
  - destruct (_ && _) in H; [|now apply IH in H]. destruct (marshal ver t v _) as [c|e|] in H; cbn [bind] in H; try discriminate.
    apply IH in H. rewrite H. now destruct n1.
Qed.
End V.

Section U.
Context {X : Type}.
Variable ver : version.
Variable reg : registry.
Variables imap emap : gomap namespace.
Lemma text_only_lost {A} (dec : string -> result A) env i fs v v' nm (n n' : node (tmodel X)) :
  marshal (X := X) ver (TStruct i fs) v (new_node nm) = Ok n -> marshal (X := X) ver (TStruct i fs) v' (new_node nm) = Ok n' ->
  text_only dec (xml_read env n) = dec "" /\ text_only dec (xml_read env n') = dec "".
Proof.
  intros H H'. apply struct_value in H, H'. cbn [new_node n_value] in H, H'. unfold text_only. destruct n, n'. cbn [n_value] in *. subst. split; reflexivity.
Qed.
Lemma uri_text x m t (l : list (node (tmodel X))) : uri_unmarshal_xmp (X := X) ver reg imap emap (Node x [] m t l) = Ok (trim_space t).
Proof. reflexivity. Qed.
Lemma uri_resource_lost env x u t : map_get env "rdf" = Some ns_rdf_uri ->
  uri_unmarshal_xmp (X := X) ver reg imap emap (xml_read (X := X) env (Node x [Attr (new_name "rdf:resource") u] None t [])) = Ok (trim_space t).
Proof.
  intros He. rewrite (xml_read_eq env) by (repeat constructor; discriminate). cbn [map a_name a_value]. change (new_name "rdf:resource") with (new_name ("rdf:" ++ "resource")).
  rewrite read_rdf by exact He. unfold uri_unmarshal_xmp. change (get_attr _ "rdf" "resource") with (@nil attr). cbn [unmarshal wrap_err set_simple_value bind]. now rewrite trim_space_idem.
Qed.
End U.

(* ---- SMPB ---- *)
Lemma hex_char_cases (P : Z -> Prop) : (forall k, (k < 16)%nat -> P (Z.of_nat k)) -> forall d, (0 <= d < 16)%Z -> P d.
Proof. intros H d Hd. rewrite <- (Z2Nat.id d) by lia. apply H. lia. Qed.
Lemma hex_digit_char d : (0 <= d < 16)%Z -> hex_digit (hex_char d) = Some d /\ is_space (hex_char d) = false /\ hex_char d <> "-"%char /\ hex_char d <> "+"%char.
Proof.
  revert d. apply hex_char_cases. intros k Hk. do 16 (destruct k as [|k]; [vm_compute; repeat split; discriminate|]). lia.
Qed.
Lemma hex_digits_text l : Forall (fun d => (0 <= d < 16)%Z) l -> forall acc, hex_digits acc (hex_text l) = Some (acc * 16 ^ Z.of_nat (List.length l) + hex_value l)%Z.
Proof.
  induction 1 as [|d l Hd Hl IH]; intros acc; cbn [hex_text map string_of_list_ascii hex_digits hex_value List.length]; [f_equal; lia|].
  destruct (hex_digit_char d Hd) as (E & _). rewrite E. change (string_of_list_ascii (map hex_char l)) with (hex_text l). rewrite IH. f_equal.
  rewrite Nat2Z.inj_succ, Z.pow_succ_r by lia. lia.
Qed.
Lemma hex_value_nonneg l : Forall (fun d => (0 <= d < 16)%Z) l -> (0 <= hex_value l)%Z.
Proof. induction 1 as [|d l Hd Hl IH]; cbn [hex_value]; [lia|]. assert (0 <= 16 ^ Z.of_nat (List.length l))%Z by (apply Z.pow_nonneg; lia). nia. Qed.
Lemma parse_hex_text bits s z : (0 < bits)%Z -> hex_numeral s z -> (z < 2 ^ (bits - 1))%Z -> parse_hex bits s = Some z /\ word s.
Proof.
  intros Hb (l & Hl & F & -> & ->) Hz. split.
  - unfold parse_hex. pose proof (hex_digits_text l F 0) as D. destruct l as [|d l]; [congruence|]. inversion F as [|? ? Hd F']; subst.
    destruct (hex_digit_char d Hd) as (_ & _ & N1 & N2). cbn [hex_text map string_of_list_ascii] in D |- *. set (r := string_of_list_ascii (map hex_char l)) in *.
    assert (E : match String (hex_char d) r with String "-" r => (true, r) | String "+" r => (false, r) | _ => (false, String (hex_char d) r) end = (false, String (hex_char d) r)).
    { revert N1 N2. generalize (hex_char d). intros [[] [] [] [] [] [] [] []] N1 N2; try reflexivity; exfalso; (now apply N1) || (now apply N2). }
    rewrite E. cbn [emptyb]. rewrite D. cbv iota zeta. pose proof (hex_value_nonneg _ F). assert (0 <= 2 ^ (bits - 1))%Z by (apply Z.pow_nonneg; lia).
    rewrite Z.mul_0_l, Z.add_0_l. rewrite (proj2 (Z.leb_le _ _)) by lia. rewrite (proj2 (Z.ltb_lt _ _)) by lia. reflexivity.
  - split; [destruct l; [congruence|discriminate]|]. clear Hl Hz. induction F as [|d l Hd F IH]; intros c H; cbn in H; [discriminate|].
    apply orb_true_iff in H. destruct H as [H|H]; [|now apply IH]. apply Ascii.eqb_eq in H. subst c. now destruct (hex_digit_char d Hd).
Qed.
Lemma smpb_read a0 d p s a4 o rest zd zp zs zo : word a0 -> word a4 -> Forall word rest ->
  hex_numeral d zd -> (zd < 2 ^ 31)%Z -> hex_numeral p zp -> (zp < 2 ^ 31)%Z -> hex_numeral s zs -> (zs < 2 ^ 63)%Z -> hex_numeral o zo -> (zo < 2 ^ 63)%Z ->
  smpb_unmarshal (join " " (a0 :: d :: p :: s :: a4 :: o :: rest)) = Ok (SMPB zd zp zs zo).
Proof.
  intros W0 W4 Wr Hd Ld Hp Lp Hs Ls Ho Lo.
  destruct (parse_hex_text 32 d zd ltac:(lia) Hd Ld) as [Ed Wd]. destruct (parse_hex_text 32 p zp ltac:(lia) Hp Lp) as [Ep Wp].
  destruct (parse_hex_text 64 s zs ltac:(lia) Hs Ls) as [Es Ws]. destruct (parse_hex_text 64 o zo ltac:(lia) Ho Lo) as [Eo Wo].
  unfold smpb_unmarshal. rewrite fields_join by (repeat (constructor; [assumption|]); assumption).
  cbn [smpb_loop]. rewrite Ed. cbn [smpb_loop]. rewrite Ep. cbn [smpb_loop]. rewrite Es. cbn [smpb_loop]. rewrite Eo. cbn [sm_delay sm_padding sm_samples sm_offset].
  clear. generalize (SMPB zd zp zs zo). assert (G : forall i l x, 6 <= i -> smpb_loop i l x = Ok x).
  { intros i l. revert i. induction l as [|v l IH]; intros i x Hi; [reflexivity|]. cbn [smpb_loop]. do 6 (destruct i as [|i]; [lia|]). apply IH. lia. }
  intros x. apply G. lia.
Qed.
