(* C75-C79: native tags *)
From Coq Require Import List Arith ZArith Bool Ascii String Lia.
From Verif Require Import GoStr GoStrFacts Names Semver RegistryM NodeM ArrayM TypeM TagM TPathM NativeM.
From Verif Require Import SpecBasic SpecTag SpecType SpecTPath SpecArray SpecNative TPathFacts ArrayFacts NativeFacts.
Import ListNotations.
Local Open Scope string_scope.

(* ---- C75: tags are read from and stored in the field the name selects -------------------------------- *)

Theorem C75_get_tag X nss (fs : list (finfo * ty X)) vs name j f t v :
  nss <> [] -> the_field fs vs name j f t v ->
  (unset f t v -> get_native nss fs vs name = Ok "")
  /\ (forall t' v' s, ~ unset f t v -> under t v t' v' -> plain_bytes t t' -> shows_as t' v' s ->
      get_native nss fs vs name = Ok s).
Proof. intros N F. split; [eapply get_unset; eauto|]. intros. eapply get_set; eauto. Qed.
Print Assumptions C75_get_tag.

(* the meaning of the text is stored in the selected field, all other fields stay, and the tag reads what was stored *)
Theorem C75_set_tag_partial X nss (fs : list (finfo * ty X)) vs name value j f t v t' v' w :
  nss <> [] -> the_field fs vs name j f t v -> under t v t' v' -> reads_as t' v' value w ->
  exists vs', set_native nss fs vs name value = (vs', Ok tt) /\ changed_at vs vs' j (wrap t w)
    /\ (unset f t (wrap t w) -> get_native nss fs vs' name = Ok "")
    /\ (forall s, ~ unset f t (wrap t w) -> plain_bytes t t' -> shows_as t' w s -> get_native nss fs vs' name = Ok s).
Proof.
  intros N F U R. destruct (set_stores nss fs vs name N value j f t v t' v' w F U R) as (vs' & E & C).
  assert (F' : the_field fs vs' name j f t (wrap t w)).
  { destruct F as (S & F & _). destruct C as (_ & C & _). split; auto. }
  exists vs'. split; [exact E|]. split; [exact C|]. split.
  - intros Un. eapply get_unset; eauto.
  - intros s Un P S. eapply get_set; eauto. eapply under_wrap; eauto.
Qed.
Print Assumptions C75_set_tag_partial.

(* a name no field answers to: both calls fail, nothing changes *)
Theorem C75_unknown_tag X nss (fs : list (finfo * ty X)) vs name value :
  nss <> [] -> (forall j, ~ selects fs name j) ->
  (exists e, get_native nss fs vs name = Err e) /\ exists e, set_native nss fs vs name value = (vs, Err e).
Proof. intros N F. split; [now apply get_missing|now apply set_missing]. Qed.
Print Assumptions C75_unknown_tag.

(* whatever happens, only the selected field can change *)
Theorem C75_others_stay X nss (fs : list (finfo * ty X)) vs name value vs' r j :
  nss <> [] -> set_native nss fs vs name value = (vs', r) -> (forall k, selects fs name k -> k <> j) ->
  nth_error vs' j = nth_error vs j /\ List.length vs' = List.length vs.
Proof. intros N. exact (set_other_fields nss fs vs name N value vs' r j). Qed.
Print Assumptions C75_others_stay.

(* a refused text changes nothing, except that a nil pointer becomes a pointer to a zero value *)
Theorem C75_refused_text_partial X nss (fs : list (finfo * ty X)) vs name value vs' e :
  nss <> [] -> set_native nss fs vs name value = (vs', Err e) ->
  (forall j f t v, the_field fs vs name j f t v -> is_ptr t = true -> v = VNil \/ exists u, v = VPtr u) ->
  vs' = vs \/ exists j f t, the_field fs vs name j f (TPtr t) VNil /\ changed_at vs vs' j (VPtr (zero t)).
Proof. intros N. exact (set_fails nss fs vs name N value vs' e). Qed.
Print Assumptions C75_refused_text_partial.

(* a model of the demo kind: plain fields, a pointer, a list of structs, a struct, a catch-all list of tags *)
Definition nt_fi (n : string) : finfo := Finfo n false false false false (Version 0 0 0) (Version 0 0 0).
Definition nt_fs : list (finfo * ty unit) :=
  [(nt_fi "name", TStr); (nt_fi "count", TPtr (TInt 16)); (nt_fi "title", TAlt true);
   (nt_fi "history", TArr (ArrInfo _ "Seq" true None false) (TStruct (StructInfo _ None false) [(nt_fi "action", TStr)]));
   (nt_fi "origin", TStruct (StructInfo _ None false) [(nt_fi "place", TStr)])].
Definition nt_any : finfo * ty unit :=
  (Finfo "extension" false false false true (Version 0 0 0) (Version 0 0 0), TArr (ArrInfo _ "" false None false) TStr).
Definition nt_ns : list namespace := [Namespace "demo" "http://demo/" None].
Definition nt_vs : list (gval unit) :=
  [VStr "A"; VNil; VAlt [AltItem "Hallo" "de" true; AltItem "Hello" "en" false]; VArr [] []; VStruct [VStr ""]].

Lemma nt_asked n f : asked n f -> has_prefix n = false -> strip_prefix f = n.
Proof.
  intros [[P _]|[_ L]] H; [apply TagFacts.prefixed_iff in P; congruence|now apply TagFacts.local_iff].
Qed.
Lemma nt_field : the_field nt_fs nt_vs "count" 1 (nt_fi "count") (TPtr (TInt 16)) VNil.
Proof.
  split; [|auto]. left. split.
  - exists (nt_fi "count", TPtr (TInt 16)). split; [reflexivity|]. right. split.
    + intros P. apply TagFacts.prefixed_iff in P. discriminate.
    + apply TagFacts.local_iff. reflexivity.
  - intros [|i] x Hi Hx; [|lia]. injection Hx as <-. intros A. apply nt_asked in A; [discriminate|reflexivity].
Qed.
Example C75_hyps : nt_ns <> [] /\ the_field nt_fs nt_vs "count" 1 (nt_fi "count") (TPtr (TInt 16)) VNil
  /\ under (TPtr (TInt 16)) VNil (TInt 16) (VInt 0 : gval unit) /\ reads_as (TInt 16) (VInt 0) "0042" (VInt 42 : gval unit)
  /\ (forall j, ~ selects nt_fs "colour" j)
  /\ set_native nt_ns nt_fs nt_vs "count" "0042"
     = ([VStr "A"; VPtr (VInt 42); VAlt [AltItem "Hallo" "de" true; AltItem "Hello" "en" false]; VArr [] []; VStruct [VStr ""]], Ok tt)
  /\ get_native nt_ns nt_fs (fst (set_native nt_ns nt_fs nt_vs "count" "0042")) "count" = Ok "42".
Proof.
  split; [discriminate|]. split; [exact nt_field|]. split; [constructor|].
  split; [apply rd_int; vm_compute; reflexivity|]. split; [|split; vm_compute; reflexivity].
  apply lookup_none. vm_compute. reflexivity.
Qed.

(* Setting a list succeeds and stores nothing; so does setting an unknown tag of a model with a catch-all field. *)
Theorem C75_set_stores_nothing_refuted :
  set_native nt_ns nt_fs nt_vs "history" "saved" = (nt_vs, Ok tt)
  /\ let fs := [nth 0 nt_fs nt_any; nt_any] in let vs := [VStr "A"; VArr [] []] in
     set_native nt_ns fs vs "colour" "red" = (vs, Ok tt) /\ get_native nt_ns fs vs "colour" = Ok "".
Proof. vm_compute. repeat split; reflexivity. Qed.
Print Assumptions C75_set_stores_nothing_refuted.

(* A refused text leaves a zero value where there was none. *)
Theorem C75_refused_text_refuted :
  exists e, set_native nt_ns nt_fs nt_vs "count" "many"
    = ([VStr "A"; VPtr (VInt 0); VAlt [AltItem "Hallo" "de" true; AltItem "Hello" "en" false]; VArr [] []; VStruct [VStr ""]], Err e).
Proof. eexists. vm_compute. reflexivity. Qed.
Print Assumptions C75_refused_text_refuted.

(* Blanks around a string are dropped. *)
Theorem C75_blanks_refuted :
  let vs := fst (set_native nt_ns nt_fs nt_vs "name" " B ") in
  snd (set_native nt_ns nt_fs nt_vs "name" " B ") = Ok tt /\ get_native nt_ns nt_fs vs "name" = Ok "B".
Proof. vm_compute. split; reflexivity. Qed.
Print Assumptions C75_blanks_refuted.

(* ---- C76: whether a model knows a tag ------------------------------------------------------------------ *)

(* CanTag answers yes for a tag with a field whose values all have a text, and no without a field *)
Theorem C76_can_tag_partial X nss (fs : list (finfo * ty X)) vs name :
  nss <> [] ->
  ((forall j, ~ selects fs name j) -> can_tag nss fs vs name = Ok false)
  /\ (forall j f t v, the_field fs vs name j f t v ->
      unset f t v \/ (exists t' v' s, under t v t' v' /\ plain_bytes t t' /\ shows_as t' v' s) -> can_tag nss fs vs name = Ok true).
Proof.
  intros N. unfold can_tag. split.
  - intros H. destruct (get_missing nss fs vs name N H) as [e E]. now rewrite E.
  - intros j f t v F [U|(t' & v' & s & U & P & S)].
    + now rewrite (get_unset nss fs vs name N j f t v F U).
    + destruct (skipped f t v) eqn:K.
      * apply skipped_unset in K. now rewrite (get_unset nss fs vs name N j f t v F K).
      * apply skipped_set in K. now rewrite (get_set nss fs vs name N j f t v t' v' s F K U P S).
Qed.
Print Assumptions C76_can_tag_partial.

Example C76_hyps : the_field nt_fs nt_vs "count" 1 (nt_fi "count") (TPtr (TInt 16)) VNil /\ unset (nt_fi "count") (TPtr (TInt 16)) (VNil : gval unit)
  /\ can_tag nt_ns nt_fs nt_vs "count" = Ok true /\ can_tag nt_ns nt_fs nt_vs "colour" = Ok false.
Proof. split; [exact nt_field|]. split; [left; reflexivity|]. split; vm_compute; reflexivity. Qed.

(* The answer depends on the values: a list of structs is known while it is empty, a language alternative too. *)
Theorem C76_answer_depends_on_values_refuted :
  can_tag nt_ns nt_fs nt_vs "history" = Ok true
  /\ can_tag nt_ns nt_fs [VStr "A"; VNil; VAlt []; VArr [VStruct [VStr "saved"]] []; VStruct [VStr ""]] "history" = Ok false
  /\ can_tag nt_ns nt_fs [VStr "A"; VNil; VAlt []; VArr [] []; VStruct [VStr ""]] "title" = Ok true
  /\ can_tag nt_ns nt_fs nt_vs "title" = Ok false.
Proof. vm_compute. repeat split; reflexivity. Qed.
Print Assumptions C76_answer_depends_on_values_refuted.

(* ---- C77: language alternatives by tag ----------------------------------------------------------------- *)

(* Setting a language of an alternative with one default changes this language only; reading gives it back. *)
Theorem C77_set_language_partial X te nss (fs : list (finfo * ty X)) vs name lang value j f t v m l :
  nss <> [] -> the_field fs vs name j f t v -> under t v (TAlt m) (VAlt l) -> one_default l -> value <> "" -> lang <> "" ->
  exists l' vs', set_locale nss fs vs lang name value = (vs', Ok tt) /\ changed_at vs vs' j (wrap t (VAlt l')) /\ one_default l'
    /\ (is_ptr t = false -> get_locale te nss fs vs' lang name = Ok value
        /\ forall g, g <> "" -> g <> lang -> get_locale te nss fs vs' g name = get_locale te nss fs vs g name).
Proof.
  intros N F U O NV NL.
  destruct (locale_sets nss fs vs name N lang value j f t v m l F U O NV) as (l' & vs' & E & C & O' & G & H).
  exists l', vs'. split; [exact E|]. split; [exact C|]. split; [exact O'|]. intros P.
  assert (t = TAlt m /\ v = VAlt l) as [-> ->] by (inversion U; subst; [discriminate P|discriminate P|auto]).
  assert (F' : the_field fs vs' name j f (TAlt m) (VAlt l')) by (destruct F as (S & F & _); destruct C as (_ & C & _); split; auto).
  split.
  - rewrite (locale_gets nss fs vs' name N te lang j f m l' F'). f_equal. auto.
  - intros g Hg Hl. rewrite (locale_gets nss fs vs' name N te g j f m l' F'), (locale_gets nss fs vs name N te g j f m l F). f_equal. auto.
Qed.
Print Assumptions C77_set_language_partial.

(* fields of other types are refused *)
Theorem C77_other_types_refused X nss (fs : list (finfo * ty X)) vs name lang value j f t v t' v' :
  nss <> [] -> the_field fs vs name j f t v -> under t v t' v' -> (forall m, t' <> TAlt m) ->
  exists e vs', set_locale nss fs vs lang name value = (vs', Err e) /\ changed_at vs vs' j (wrap t v').
Proof. intros N. exact (locale_wrong_type nss fs vs name N lang value j f t v t' v'). Qed.
Print Assumptions C77_other_types_refused.

Example C77_hyps : one_default [AltItem "Hallo" "de" true; AltItem "Hello" "en" false]
  /\ under (TAlt true) (nth 2 nt_vs VNil) (TAlt true) (VAlt [AltItem "Hallo" "de" true; AltItem "Hello" "en" false])
  /\ get_locale (fun _ => false) nt_ns nt_fs (fst (set_locale nt_ns nt_fs nt_vs "en" "title" "Hi")) "en" "title" = Ok "Hi"
  /\ get_locale (fun _ => false) nt_ns nt_fs (fst (set_locale nt_ns nt_fs nt_vs "fr" "title" "Salut")) "fr" "title" = Ok "Salut"
  /\ get_locale (fun _ => false) nt_ns nt_fs (fst (set_locale nt_ns nt_fs nt_vs "fr" "title" "Salut")) "de" "title" = Ok "Hallo".
Proof.
  split; [split; [reflexivity|intros y [<-|[]]; reflexivity]|]. split; [constructor; reflexivity|].
  repeat split; vm_compute; reflexivity.
Qed.

(* Asking a string for a language panics, as does asking a struct; a pointer to an alternative can be written but not read. *)
Theorem C77_get_language_panics_refuted :
  get_locale (fun _ => false) nt_ns nt_fs nt_vs "en" "name" = Panic
  /\ get_locale (fun _ => false) nt_ns nt_fs nt_vs "en" "origin" = Panic
  /\ let fs := [(nt_fi "title", TPtr (TAlt true))] : list (finfo * ty unit) in
     let vs := fst (set_locale nt_ns fs [VNil] "en" "title" "Hi") in
     vs = [VPtr (VAlt [AltItem "Hi" "en" true])] /\ exists e, get_locale (fun _ => false) nt_ns fs vs "en" "title" = Err e.
Proof. split; [vm_compute; reflexivity|]. split; [vm_compute; reflexivity|]. cbv zeta. split; [vm_compute; reflexivity|eexists; vm_compute; reflexivity]. Qed.
Print Assumptions C77_get_language_panics_refuted.

(* ---- C78: listing ---------------------------------------------------------------------------------------- *)

(* The listing is, field after field, the tags of the field (tags_of): one per language, otherwise one with the text. *)
Theorem C78_listing_partial X nss (fs : list (finfo * ty X)) vs l :
  nss <> [] ->
  (list_native nss fs vs = Ok l <->
   List.length fs = List.length vs
   /\ exists ls, Forall2 (fun x l => tags_of (fst (fst x)) (snd (fst x)) (snd x) l) (combine fs vs) ls /\ l = List.concat ls).
Proof. intros N. unfold list_native. rewrite (ns_true nss N). apply list_fields_spec. Qed.
Print Assumptions C78_listing_partial.

(* every listed text is what the tag reads, every listed language what the language of the tag reads *)
Theorem C78_listed_reads_back_partial X te nss (fs : list (finfo * ty X)) vs l k s g :
  nss <> [] -> own_names fs -> list_native nss fs vs = Ok l -> In (Tag k s g) l ->
  (g = "" /\ get_native nss fs vs k = Ok s)
  \/ exists j f t v m a, the_field fs vs k j f t v /\ under t v (TAlt m) (VAlt a) /\ In (g, s) (map (fun i => (ai_lang i, ai_value i)) a)
     /\ (is_ptr t = false -> g <> "" -> NoDup (map ai_lang a) -> get_locale te nss fs vs g k = Ok s).
Proof.
  intros N ON L I. unfold list_native in L. rewrite (ns_true nss N) in L.
  destruct (listed_from fs vs l _ L I) as (j & f & t & v & lf & F & V & TG & I').
  assert (TF : the_field fs vs (f_name f) j f t v) by (split; [eapply ON; eauto|auto]).
  destruct TG as [U|m a SK U|t' v' s' SK U B S NE|t' v' SK U B S|t' v' c SK U C E]; try (destruct I'; fail).
  - right. apply in_map_iff in I'. destruct I' as (i & E & Hi). injection E as <- <- <-.
    exists j, f, t, v, m, a. split; [exact TF|]. split; [exact U|]. split.
    + apply in_map_iff. exists i. auto.
    + intros P G ND. assert (t = TAlt m /\ v = VAlt a) as [-> ->] by (inversion U; subst; [discriminate P|discriminate P|auto]).
      rewrite (locale_gets nss fs vs (f_name f) N te (ai_lang i) j f m a TF). f_equal.
      apply in_split in Hi. destruct Hi as (a1 & a2 & ->). apply get_first; auto.
      intros y Hy E. rewrite map_app in ND. cbn [map] in ND. apply NoDup_remove_2 in ND. apply ND. apply in_or_app. left.
      rewrite <- E. now apply in_map.
  - left. destruct I' as [E|[]]. injection E as <- <- <-. split; [reflexivity|].
    eapply get_set; eauto. intros ->. congruence.
Qed.
Print Assumptions C78_listed_reads_back_partial.

Example C78_hyps : own_names (firstn 4 nt_fs)
  /\ list_native nt_ns (firstn 4 nt_fs) (firstn 4 nt_vs) = Ok [Tag "name" "A" ""; Tag "title" "Hallo" "de"; Tag "title" "Hello" "en"].
Proof.
  split; [|vm_compute; reflexivity]. intros j f t H. apply lookup_selects.
  destruct j as [|[|[|[|[|j]]]]]; cbn in H; try discriminate; injection H as <- <-; vm_compute; reflexivity.
Qed.

(* Listing panics when a list without text form has elements, and fails altogether when there is a struct. *)
Theorem C78_listing_panics_refuted :
  list_native nt_ns (firstn 4 nt_fs) [VStr "A"; VNil; VAlt []; VArr [VStruct [VStr "saved"]] []] = Panic
  /\ list_native nt_ns [(nt_fi "raw", TBytes)] [VStr "x" : gval unit] = Panic
  /\ exists e, list_native nt_ns nt_fs nt_vs = Err e.
Proof. split; [vm_compute; reflexivity|]. split; [vm_compute; reflexivity|]. eexists. vm_compute. reflexivity. Qed.
Print Assumptions C78_listing_panics_refuted.

(* ---- C79: lists of tags in documents ------------------------------------------------------------------------ *)

(* read into a list, which is empty as a rule: the tags come after those it has *)
Theorem C79_tag_list_survives_partial M (n : node M) old l :
  n_attrs n = [] -> Forall (fun t => no_char "-" (tg_key t)) l -> NoDup (map (fun t => (tg_key t, tg_lang t)) l) ->
  taglist_unmarshal old (taglist_marshal l n) = (old ++ l)%list.
Proof. apply taglist_trip. Qed.
Print Assumptions C79_tag_list_survives_partial.

Example C79_hyps : Forall (fun t => no_char "-" (tg_key t)) [Tag "title" "Hi" "en-US"; Tag "title" "Hallo" "de"; Tag "xyz" "1" ""]
  /\ NoDup (map (fun t => (tg_key t, tg_lang t)) [Tag "title" "Hi" "en-US"; Tag "title" "Hallo" "de"; Tag "xyz" "1" ""]).
Proof. split; [repeat constructor|]. repeat constructor; cbn; intuition discriminate. Qed.

(* A dash in a key is taken for the start of a language; of two tags with the same key the first value is lost. *)
Theorem C79_dash_refuted :
  taglist_unmarshal [] (taglist_marshal [Tag "a-b" "1" ""; Tag "c" "2" ""; Tag "c" "3" ""] (new_node (M := unit) (XName "" "x")))
  = [Tag "a" "1" "b"; Tag "c" "3" ""].
Proof. vm_compute. reflexivity. Qed.
Print Assumptions C79_dash_refuted.

(* ---- C80: QuickTime tags -------------------------------------------------------------------------------------- *)

(* where a tag belongs: four letter tags to the user data, the others by their prefix *)
Inductive qt_part := QtU | QtP | QtM | QtA.
Definition belongs (tag : string) (p : qt_part) : Prop :=
  let starts c := exists r, tag = c ++ r in
  match p with
  | QtU => String.length tag = 4
  | QtP => String.length tag <> 4 /\ starts "com.apple.quicktime.player"
  | QtM => String.length tag <> 4 /\ starts "com.apple.quicktime" /\ ~ starts "com.apple.quicktime.player"
  | QtA => String.length tag <> 4 /\ starts "com.apple.proapps"
  end.
Definition part_types {X} (T : @qt_types X) (p : qt_part) :=
  match p with QtU => qt_udta_t T | QtM => qt_mdta_t T | QtP => qt_player_t T | QtA => qt_pro_t T end.
Definition part_values {X} (x : @qt X) (p : qt_part) :=
  match p with QtU => qt_udta x | QtM => qt_mdta x | QtP => qt_player x | QtA => qt_pro x end.

Lemma starts_iff c s : has_prefix_str c s = true <-> exists r, s = c ++ r.
Proof.
  unfold has_prefix_str. revert s. induction c as [|a c IH]; intros s; cbn [String.prefix append].
  - split; [eauto|destruct s; reflexivity].
  - destruct s as [|b s]; [split; [discriminate|intros [r E]; discriminate]|].
    cbn [String.prefix]. destruct (ascii_dec a b) as [->|NE]; cbn iota.
    + rewrite IH. split; intros [r E]; exists r; congruence.
    + split; [discriminate|intros [r E]; congruence].
Qed.
Lemma starts_not c s : has_prefix_str c s = false <-> ~ exists r, s = c ++ r.
Proof. rewrite <- starts_iff. destruct (has_prefix_str c s); split; congruence. Qed.

(* A tag is stored in the part it belongs to, created if needed, and read from there; the other parts stay. *)
Theorem C80_quicktime_tags X (T : @qt_types X) nss io xo (x : @qt X) tag value p :
  belongs tag p ->
  let old := match part_values x p with Some vs => vs | None => zeros (part_types T p) end in
  let r := qt_set_tag T nss io xo x tag value in
  part_values (fst r) p = Some (fst (set_native nss (part_types T p) old tag value))
  /\ snd r = snd (set_native nss (part_types T p) old tag value)
  /\ (forall q, q <> p -> part_values (fst r) q = part_values x q)
  /\ qt_get_tag T nss (fst r) tag = get_native nss (part_types T p) (fst (set_native nss (part_types T p) old tag value)) tag
  /\ (part_values x p = None -> qt_get_tag T nss x tag = Ok "").
Proof.
  intros B. cbv zeta. unfold qt_set_tag, qt_get_tag. destruct p; cbn [belongs] in B; cbn [part_types part_values].
  - rewrite B. cbn [Nat.eqb].
    destruct (set_native nss (qt_udta_t T) _ tag value) as [vs e]. cbn [fst snd qt_udta qt_mdta qt_player qt_pro].
    repeat split; try reflexivity; [intros [] Q; congruence || reflexivity|intros ->; reflexivity].
  - destruct B as [L S]. rewrite (proj2 (Nat.eqb_neq _ _) L), (proj2 (starts_iff _ _) S).
    destruct (set_native nss (qt_player_t T) _ tag value) as [vs e]. cbn [fst snd qt_udta qt_mdta qt_player qt_pro].
    repeat split; try reflexivity; [intros [] Q; congruence || reflexivity|intros ->; reflexivity].
  - destruct B as (L & S & NS). rewrite (proj2 (Nat.eqb_neq _ _) L), (proj2 (starts_iff _ _) S), (proj2 (starts_not _ _) NS).
    destruct (set_native nss (qt_mdta_t T) _ tag value) as [vs e]. cbn [fst snd qt_udta qt_mdta qt_player qt_pro].
    repeat split; try reflexivity; [intros [] Q; congruence || reflexivity|intros ->; reflexivity].
  - destruct B as (L & r & ->). rewrite (proj2 (Nat.eqb_neq _ _) L).
    change (has_prefix_str "com.apple.quicktime.player" ("com.apple.proapps" ++ r)) with false.
    change (has_prefix_str "com.apple.quicktime" ("com.apple.proapps" ++ r)) with false.
    rewrite (proj2 (starts_iff "com.apple.proapps" ("com.apple.proapps" ++ r))) by eauto.
    destruct (set_native nss (qt_pro_t T) _ _ value) as [vs e]. cbn [fst snd qt_udta qt_mdta qt_player qt_pro].
    repeat split; try reflexivity; [intros [] Q; congruence || reflexivity|intros ->; reflexivity].
Qed.
Print Assumptions C80_quicktime_tags.

(* CanTag has the arguments of HasPrefix swapped: it denies every tag longer than the prefix. *)
Theorem C80_can_tag_refuted X (T : @qt_types X) nss tag :
  26 < String.length tag -> qt_can_tag T nss tag = Ok false.
Proof.
  intros H. unfold qt_can_tag.
  assert (P : forall c, String.length c < String.length tag -> has_prefix_str tag c = false).
  { intros c Hc. apply starts_not. intros [r ->]. rewrite length_app in Hc. lia. }
  rewrite (proj2 (Nat.eqb_neq _ 4)) by lia. rewrite !P by (cbn [String.length]; lia).
  unfold is_ixml_tag. rewrite !(fun s E => proj2 (String.eqb_neq tag s) E); [reflexivity|..]; intros ->; cbn in H; lia.
Qed.
Print Assumptions C80_can_tag_refuted.

(* the sign of copyright is two bytes long *)
Definition copyright_mak : string := String "194" (String "169" "mak").
Definition qt_demo : @qt_types unit :=
  QtTypes [(nt_fi "name", TStr); (nt_fi copyright_mak, TStr)] [(nt_fi "com.apple.quicktime.title", TStr); (nt_fi "com.apple.quicktime.description", TStr)]
          [(nt_fi "com.apple.quicktime.player.version", TStr)] [(nt_fi "com.apple.proapps.share", TStr)].
Example C80_hyps : belongs "com.apple.quicktime.description" QtM /\ 26 < String.length "com.apple.quicktime.description"
  /\ qt_set_tag qt_demo nt_ns (fun _ => true) (fun _ => true) (Qt None None None None) "com.apple.quicktime.description" "T"
     = (Qt None (Some [VStr ""; VStr "T"]) None None, Ok tt).
Proof.
  split; [|split; [cbn; lia|vm_compute; reflexivity]]. split; [discriminate|]. split; [exists ".description"; reflexivity|].
  intros [r E]. discriminate.
Qed.
(* The tags for embedded documents have four letters and go to the user data, which has no such fields. *)
Theorem C80_embedded_refuted :
  (exists e, snd (qt_set_tag qt_demo nt_ns (fun _ => true) (fun _ => true) (Qt None None None None) "XMP_" "<x/>") = Err e)
  /\ (exists e, snd (qt_set_tag qt_demo nt_ns (fun _ => true) (fun _ => true) (Qt None None None None) "iXML" "<x/>") = Err e)
  /\ qt_can_tag qt_demo nt_ns "com" = Ok false.
Proof. repeat split; try eexists; vm_compute; reflexivity. Qed.
Print Assumptions C80_embedded_refuted.

(* Tags with the sign of copyright have five bytes: they are dropped without an error although the user data has the field. *)
Theorem C80_copyright_tags_refuted :
  qt_set_tag qt_demo nt_ns (fun _ => true) (fun _ => true) (Qt None None None None) copyright_mak "ACME" = (Qt None None None None, Ok tt)
  /\ lookup (qt_udta_t qt_demo) copyright_mak = Some 1.
Proof. vm_compute. split; reflexivity. Qed.
Print Assumptions C80_copyright_tags_refuted.
