(* C132: access by path never crashes *)
From Coq Require Import List Arith ZArith Bool Ascii String Lia.
From Verif Require Import GoStr GoStrFacts GoMap Names Semver RegistryM PathM PVList SyncFlags NodeM DocM ArrayM SpecArray TypeM TagM DecodeM ModelTypes TPathM SpecSafePath SafePathFacts.
Import ListNotations.
Local Open Scope string_scope.

(* what one call does to the values of a model, and its outcome *)
Definition call_outcome {X} (growth : nat -> nat) (sortf : list path_value -> list path_value) (si : struct_info X) (fs : list (finfo * ty X)) (vs : list (gval X)) (c : call)
  : list (gval X) * result unit :=
  match c with
  | CGet x => (vs, bind (get_model_path fs vs x) (fun _ => Ok tt))
  | CSet x value flags => set_model_path growth fs vs x value flags
  | CList ns => (vs, bind (list_model_paths sortf si fs vs ns) (fun _ => Ok tt))
  end.
Fixpoint calls {X} growth sortf si (fs : list (finfo * ty X)) vs (cs : list call) : list (gval X) :=
  match cs with [] => vs | c :: r => calls growth sortf si fs (fst (call_outcome growth sortf si fs vs c)) r end.
Definition harmless (c : call) : Prop := match c with CSet x value flags => ~ deletes_language x value flags | _ => True end.

Section T.
Context {X : Type}.
Variable text_value : codec X -> gval X -> Prop.
Variable growth : nat -> nat.
Variable sortf : list path_value -> list path_value.
Notation wf := (well_formed text_value).

(* Reading and listing well-formed models does not crash, whatever the path. *)
Theorem C132_get : forall fs vs x, calm_model text_value fs -> wf fs vs -> get_model_path fs vs x <> Panic.
Proof. intros fs vs x C W. unfold get_model_path. eapply get_calm; eauto. Qed.
Theorem C132_list : forall si fs vs ns, calm_model text_value fs -> wf fs vs -> list_model_paths sortf si fs vs ns <> Panic.
Proof. intros. eapply list_calm; eauto. Qed.
(* Writing leaves a well-formed model, even when it fails or crashes, and it crashes only on deleting a language.
   Missing: the limits of memory, for indices so great that the list does not fit (PropGrow). *)
Theorem C132_set_partial : forall fs vs x value flags, calm_model text_value fs -> wf fs vs ->
  wf fs (fst (set_model_path growth fs vs x value flags)) /\
  (snd (set_model_path growth fs vs x value flags) = Panic -> deletes_language x value flags).
Proof.
  intros fs vs x value flags C W. unfold set_model_path. destruct (negb (is_xmp_path x)); [split; [exact W|discriminate]|].
  destruct (set_keeps text_value growth (steps x) value (if (flags =? 0)%Z then DEFAULT else flags) fs vs C W) as [A B].
  split; [exact A|]. intros Q. destruct (B Q) as (V & D & L). split; [exact V|]. split; [|exact L].
  destruct (Z.eqb_spec flags 0); auto.
Qed.
(* So no call of any program crashes that does not delete a language. *)
Theorem C132_history_partial : forall si fs vs cs c rest, calm_model text_value fs -> wf fs vs -> 
  wf fs (calls growth sortf si fs vs cs) /\
  (harmless c -> snd (call_outcome growth sortf si fs (calls growth sortf si fs vs cs) c) <> Panic) /\
  calls growth sortf si fs vs (cs ++ c :: rest)%list = calls growth sortf si fs (fst (call_outcome growth sortf si fs (calls growth sortf si fs vs cs) c)) rest.
Proof.
  intros si fs vs cs c rest C W.
  assert (H : wf fs (calls growth sortf si fs vs cs)).
  { revert vs W. induction cs as [|d cs IH]; intros vs W; cbn [calls]; [exact W|]. apply IH. destruct d; cbn [call_outcome fst]; [exact W| |exact W]. now apply C132_set_partial. }
  split; [exact H|]. split.
  - destruct c as [x|x value flags|ns]; cbn [call_outcome snd harmless].
    + intros _. pose proof (C132_get fs _ x C H) as G. destruct (get_model_path _ _ x); cbn [bind]; congruence.
    + intros N Q. apply N. eapply C132_set_partial; eauto.
    + intros _. pose proof (C132_list si fs _ ns C H) as G. destruct (list_model_paths _ _ _ _ ns); cbn [bind]; congruence.
  - clear. revert vs. induction cs as [|d cs IH]; intros vs; cbn [calls app]; [reflexivity|]. apply IH.
Qed.

(* ---- the models of the library ---- *)
Section Lib.
Variable cdc : string -> codec X.
Variable den_zero : gval X -> bool.
(* the text methods of the library do not crash: of simple types, and of slices of well-typed elements *)
Definition slices_with_text : list (ty X) :=
  [t_xmp_StringArray cdc; t_xmp_StringList cdc; t_id3_Genre cdc; t_ixml_TakeTypeList cdc; t_ixml_LocationTypeList cdc; t_ixml_LocationTimeList cdc; t_xmpdm_PartList cdc].
Definition calm_texts : Prop :=
  (forall name, calm_text text_value (cdc name)) /\ calm_type text_value special /\ Forall (calm_type text_value) slices_with_text.

Lemma calm_fields (r : raw) : Forall (fun f => calm_type text_value (go_type f)) r -> calm_model text_value (fields r).
Proof.
  unfold calm_model, fields, kept. induction 1 as [|f r H F IH]; cbn [filter flat_map]; [constructor|].
  destruct (negb (go_tag f =? "-")); [|exact IH]. cbn [flat_map]. destruct (parse_tag (go_name f) (go_tag f)); [|exact IH..].
  cbn [app]. constructor; [exact H|exact IH].
Qed.
Lemma calm_ptr t : calm_type text_value t -> calm_type text_value (TPtr t).
Proof. intros H. exact H. Qed.
End Lib.
End T.
Ltac head t := lazymatch t with ?f _ => head f | _ => t end.
Ltac calm_step HT HS HA :=
  lazymatch goal with
  | |- calm_type _ (TStruct _ (fields ?r)) => refine (proj2 (calm_struct _ _ _) _); apply calm_fields; let h := head r in unfold h; calm_list HT HS HA
  | |- calm_type _ (TPtr _) => apply calm_ptr; calm_step HT HS HA
  | |- calm_type _ (TText (?c _)) => apply HT
  | |- calm_type _ (TArr (ArrInfo _ _ _ None _) _) => split; [exact I|calm_step HT HS HA]
  | |- calm_type _ TStr => exact I
  | |- calm_type _ TBytes => exact I
  | |- calm_type _ TBool => exact I
  | |- calm_type _ (TInt _) => exact I
  | |- calm_type _ (TUint _) => exact I
  | |- calm_type _ (TAlt _) => exact I
  | |- calm_type _ special => exact HS
  | |- calm_type _ (t_xmp_StringArray _) => apply HA; left; reflexivity
  | |- calm_type _ (t_xmp_StringList _) => apply HA; right; left; reflexivity
  | |- calm_type _ (t_id3_Genre _) => apply HA; do 2 right; left; reflexivity
  | |- calm_type _ (t_ixml_TakeTypeList _) => apply HA; do 3 right; left; reflexivity
  | |- calm_type _ (t_ixml_LocationTypeList _) => apply HA; do 4 right; left; reflexivity
  | |- calm_type _ (t_ixml_LocationTimeList _) => apply HA; do 5 right; left; reflexivity
  | |- calm_type _ (t_xmpdm_PartList _) => apply HA; do 6 right; left; reflexivity
  | |- calm_type _ ?t => let h := head t in unfold h; calm_step HT HS HA
  end
with calm_list HT HS HA :=
  lazymatch goal with
  | |- Forall _ [] => apply Forall_nil
  | |- Forall _ (_ :: _) => apply Forall_cons; [cbn [go_type]; calm_step HT HS HA|calm_list HT HS HA]
  end.
Lemma wf_zero {X} tv (fs : list (finfo * ty X)) : calm_model tv fs -> well_formed tv fs (map (fun f => zero (snd f)) fs).
Proof. unfold calm_model, well_formed. induction 1; cbn [map]; constructor; [now apply wt_zero|auto]. Qed.
Lemma fields_cons {X} n t (T : ty X) i r : parse_tag n t = Ok i -> t =? "-" = false -> fields (F n t T :: r) = (finfo_of i, T) :: fields r.
Proof. intros P N. unfold fields, kept. cbn [filter go_tag]. rewrite N. cbn [negb flat_map go_name go_tag go_type]. now rewrite P. Qed.
Lemma fields_skip {X} n (T : ty X) r : fields (F n "-" T :: r) = fields r.
Proof. reflexivity. Qed.
Lemma ixml_first {X} (cdc : string -> codec X) : exists f r, fields (fs_ixml_IXML cdc) = (f, TStr) :: r.
Proof. unfold fs_ixml_IXML. rewrite !fields_skip. erewrite fields_cons; [eauto|vm_compute; reflexivity|reflexivity]. Qed.
Local Opaque fields.
(* new models have zero values in all fields, but the version of an iXML model is 2.0 *)
Lemma init_zero {X} (cdc : string -> codec X) dz k : In k (library_models cdc dz) ->
  k_init k = map (fun f => zero (snd f)) (k_fields k) \/ exists f r, k_fields k = (f, TStr) :: r /\ k_init k = VStr "2.0" :: map (fun f => zero (snd f)) r.
Proof.
  intros I. unfold library_models in I. cbn [In] in I.
  repeat (destruct I as [<-|I];
    [lazymatch goal with
     | |- context [k_ixml_IXML] => right; destruct (ixml_first cdc) as (f & r & E); exists f, r; unfold k_ixml_IXML; cbn [k_fields k_init]; rewrite E; split; reflexivity
     | |- k_init ?k = _ \/ _ => left; let h := head k in unfold h; cbn [k_fields k_init]; reflexivity
     end|]). destruct I.
Qed.
(* All models of the library are like this, as are new models, provided that their text methods do not crash. *)
Theorem C132_library : forall X text_value (cdc : string -> codec X) den_zero k, calm_texts text_value cdc -> In k (library_models cdc den_zero) ->
  calm_model text_value (k_fields k) /\ well_formed text_value (k_fields k) (k_init k).
Proof.
  intros X tv cdc dz k (HT & HS & HA) I.
  enough (C : calm_model tv (k_fields k)).
  { split; [exact C|]. destruct (init_zero cdc dz k I) as [->|(f & r & E & ->)]; [now apply wf_zero|]. rewrite E in *.
    constructor; [exists "2.0"; reflexivity|]. apply wf_zero. now inversion C. } pose proof (proj1 (Forall_forall _ _) HA) as HA'. clear HA.
  unfold library_models in I. cbn [In] in I.
  repeat (destruct I as [<-|I]; [match goal with |- calm_model _ (k_fields ?k) => let h := head k in unfold h end; cbn [k_fields]; apply calm_fields;
    match goal with |- Forall _ ?r => let h := head r in unfold h end; calm_list HT HS HA'|]). destruct I.
Qed.
Print Assumptions C132_get.
Print Assumptions C132_list.
Print Assumptions C132_set_partial.
Print Assumptions C132_history_partial.
Print Assumptions C132_library.
Local Transparent fields.

(* Deleting the default language of three does crash, in a model of the library that a program filled by path. *)
Definition joined : list string := ["xmp.StringArray"; "xmp.StringList"; "id3.Genre"].
Definition kept_lists : list string := ["ixml.TakeTypeList"; "ixml.LocationTypeList"; "ixml.LocationTimeList"; "xmpdm.PartList"].
Definition text_of (v : gval unit) : string := match v with VStr s => s | _ => "" end.
(* texts, and lists of texts with commas *)
Definition demo_cdc (name : string) : codec unit :=
  if existsb (String.eqb name) joined then
    Codec _ (fun v => match v with VArr l _ => Ok (Some (join "," (map text_of l))) | _ => Err "type" end)
      (fun _ s => Ok (VArr (map VStr (split_char "," s)) [])) (VArr [] []) (fun v => is_nil v) true
  else if existsb (String.eqb name) kept_lists then
    Codec _ (fun _ => Ok (Some "")) (fun v _ => Ok v) (VArr [] []) (fun v => is_nil v) true
  else
    Codec _ (fun v => match v with VStr s => Ok (Some s) | _ => Err "type" end) (fun _ s => Ok (VStr s)) (VStr "") (fun v => match v with VStr "" => true | _ => false end) true.
Definition any_value (c : codec unit) (v : gval unit) : Prop := True.
Definition dc_k := k_dc_DublinCore demo_cdc.
Definition dc_calls : list call :=
  [CSet "dc:title[en]" "Hello" DEFAULT; CSet "dc:title[de]" "Hallo" DEFAULT; CSet "dc:title[fr]" "Salut" DEFAULT; CSet "dc:creator[1]" "B" CREATE; CSet "dc:title[it]" "" DEFAULT].
Definition dc_after := calls (fun n => n) (fun l => l) (StructInfo _ None false) (k_fields dc_k) (k_init dc_k) dc_calls.
Theorem C132_delete_language_refuted :
  snd (set_model_path (fun n => n) (k_fields dc_k) dc_after "dc:title[en]" "" DEFAULT) = Panic.
Proof. vm_compute. reflexivity. Qed.
Print Assumptions C132_delete_language_refuted.

Example C132_hyps : calm_texts any_value demo_cdc /\ In dc_k (library_models demo_cdc (fun _ => false)) /\
  calm_model any_value (k_fields dc_k) /\ well_formed any_value (k_fields dc_k) dc_after /\
  deletes_language "dc:title[en]" "" DEFAULT /\ harmless (CSet "dc:creator[1]" "" DEFAULT) /\
  get_model_path (k_fields dc_k) dc_after "dc:title[de]" = Ok "Hallo" /\ get_model_path (k_fields dc_k) dc_after "dc:creator[1]" = Ok "B" /\
  get_model_path (k_fields dc_k) dc_after "dc:title[en" = Ok "Hello" /\ get_model_path (k_fields dc_k) dc_after "dc:[[[/" = Err errNotFound.
Proof.
  assert (CT : calm_texts any_value demo_cdc).
  { split; [|split].
    - intros name. split; [exact I|]. intros v _. unfold demo_cdc. destruct (existsb _ joined); [|destruct (existsb _ kept_lists)]; cbn [c_enc c_dec];
        (split; [destruct v; discriminate|]); intros s; (split; [discriminate|]); intros; exact I.
    - split; [exact I|]. intros v _. split; [discriminate|]. intros s. split; discriminate.
    - assert (S : forall i name, existsb (String.eqb name) joined = true -> calm_on (well_typed any_value (TArr i TStr)) (demo_cdc name)).
      { intros i name J v W. unfold demo_cdc. rewrite J. cbn [c_enc c_dec]. split; [destruct v; discriminate|]. intros s. split; [discriminate|].
        intros w [= <-]. eexists _, _. split; [reflexivity|]. split; [|constructor]. apply Forall_forall. intros x H. apply in_map_iff in H. destruct H as (y & <- & _). cbn. eauto. }
      assert (K : forall t name, existsb (String.eqb name) joined = false -> existsb (String.eqb name) kept_lists = true -> calm_on (well_typed any_value t) (demo_cdc name)).
      { intros t name J1 J2 v W. unfold demo_cdc. rewrite J1, J2. cbn [c_enc c_dec]. split; [discriminate|]. intros s. split; [discriminate|]. now intros w [= <-]. }
      unfold slices_with_text. repeat apply Forall_cons; try apply Forall_nil; (split; [first [now apply S | now apply K]|]); try exact I.
      all: split; [exact I|]; intros v _; split; [destruct v; discriminate|]; intros s; split; [discriminate|intros; exact I]. }
  assert (IN : In dc_k (library_models demo_cdc (fun _ => false))) by (right; right; left; reflexivity).
  destruct (C132_library _ any_value demo_cdc (fun _ => false) dc_k CT IN) as [C W].
  split; [exact CT|]. split; [exact IN|]. split; [exact C|].
  split; [apply (C132_history_partial any_value (fun n => n) (fun l => l) (StructInfo _ None false) (k_fields dc_k) (k_init dc_k) dc_calls (CList "") [] C W)|].
  split; [split; [reflexivity|]; split; [right; reflexivity|]; exists "title[en]", false; split; [vm_compute; tauto|discriminate]|].
  split.
  { intros (_ & _ & n & more & I & L). vm_compute in I. destruct I as [[= <- <-]|[]]. apply L. reflexivity. }
  repeat split; vm_compute; reflexivity.
Qed.
