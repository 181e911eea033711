(* Saving in the terms of SpecSync.v *)
From Coq Require Import List Arith ZArith Bool Ascii String Lia.
From Verif Require Import GoStr GoMap Names Semver RegistryM PathM PVList NodeM FilterM ArrayM CodecM DocM DocFacts TypeM TagM DecodeM TPathM ModelTypes SpecTrip SpecSync SyncModelsM SyncFacts.
Import ListNotations.
Local Open Scope string_scope.

Section F.
Context {X : Type}.
Variable cdc : string -> codec X.
Variable den_zero : gval X -> bool.
Variable kinds : nat -> string -> option (mkind X).
Variable growth : nat -> nat.
Variable sortf : list path_value -> list path_value.
Variable conv : string -> list (gval X) -> result (gval X).
Hypothesis Hk : forall f p k, library_kinds cdc den_zero f p = Some k -> kinds f p = Some k.
(* the zero date and the zero truth value are empty *)
Hypothesis Hz : c_empty (cdc "xmp.Date") (c_zero (cdc "xmp.Date")) = true /\ c_empty (cdc "xmp.Bool") (c_zero (cdc "xmp.Bool")) = true.
Notation model := (tmodel X).
Notation gval := (gval X).
Notation doc := (doc (tmodel X)).
Notation bops := (base_ops kinds growth sortf).
Notation lops := (lib_ops kinds growth sortf conv).
Notation lib := (library_models cdc den_zero).
Notation okd := (okd cdc den_zero).
Notation V := (V kinds growth sortf).
Notation shareds := (copied cdc ++ overwritten cdc conv)%list.

Lemma plan_models (d : doc) : flat_map (steps_at conv d) (seq 0 (List.length (d_nodes d))) = flat_map (steps_to conv) (models_of d).
Proof.
  unfold models_of, steps_at, model_at. generalize (d_nodes d). intros l.
  assert (G : forall l a, flat_map (fun j => match match nth_error (a ++ l)%list j with Some n => n_model n | None => None end with
                                          | Some m => steps_to conv m | None => [] end) (seq (List.length a) (List.length l))
              = flat_map (steps_to conv) (flat_map (fun n => match n_model n with Some m => [m] | None => [] end) l)).
  { clear. intros l. induction l as [|n l IH]; intros a; [reflexivity|].
    cbn [List.length seq flat_map]. rewrite nth_error_app2, Nat.sub_diag by lia. cbn [nth_error].
    rewrite flat_map_app. f_equal.
    - destruct (n_model n); cbn [flat_map]; [now rewrite List.app_nil_r|reflexivity].
    - specialize (IH (a ++ [n])%list). rewrite app_length in IH. cbn in IH. rewrite Nat.add_1_r, <- List.app_assoc in IH. exact IH. }
  exact (G l []).
Qed.

(* ---- what a document says ---- *)
Definition row_type (s : shared) : Prop := exists ns, In ns targets /\ ns_name ns = sh_prefix s /\
  (exists m0, new_of kinds growth sortf ns = Some m0 /\ get_field m0 (sh_name s) = Some (sh_type s, zero (sh_type s)))
  /\ is_empty (sh_type s) (zero (sh_type s)) = true
  /\ forall x, In (tm_kind x) lib -> is_a x (sh_prefix s) = true -> List.length (tm_vals x) = List.length (k_fields (tm_kind x)) ->
    exists v, get_field x (sh_name s) = Some (sh_type s, v).
Definition typed_at (k : mkind X) (f : string) (t : ty X) : Prop :=
  match field_index (k_fields k) f with Some i => option_map snd (nth_error (k_fields k) i) = Some t | None => False end.
Lemma kind_dc k : In k lib -> k_can k "dc" = true -> k = k_dc_DublinCore cdc.
Proof. intros H. unfold library_models in H. cbn [In] in H. repeat (destruct H as [<-|H]); try discriminate; try reflexivity. contradiction. Qed.
Lemma kind_xmp k : In k lib -> k_can k "xmp" = true -> k = k_xmpbase_XmpBase cdc.
Proof. intros H. unfold library_models in H. cbn [In] in H. repeat (destruct H as [<-|H]); try discriminate; try reflexivity. contradiction. Qed.
Lemma kind_dm k : In k lib -> k_can k "xmpDM" = true -> k = k_xmpdm_XmpDM cdc den_zero.
Proof. intros H. unfold library_models in H. cbn [In] in H. repeat (destruct H as [<-|H]); try discriminate; try reflexivity. contradiction. Qed.
Lemma kind_rights k : In k lib -> k_can k "xmpRights" = true -> k = k_xmprights_XmpRights cdc.
Proof. intros H. unfold library_models in H. cbn [In] in H. repeat (destruct H as [<-|H]); try discriminate; try reflexivity. contradiction. Qed.

Lemma row_from ns k s : In ns targets -> ns_name ns = sh_prefix s -> In (sh_name s) (touched (sh_prefix s)) ->
  (forall k', In k' lib -> k_can k' (sh_prefix s) = true -> k' = k) -> typed_at k (sh_name s) (sh_type s) ->
  is_empty (sh_type s) (zero (sh_type s)) = true -> row_type s.
Proof.
  intros Ht En Hf Hu Ty Ez.
  assert (U : forall x, In (tm_kind x) lib -> is_a x (sh_prefix s) = true -> forall t v, get_field x (sh_name s) = Some (t, v) -> t = sh_type s).
  { intros x Hx Ha t v G. unfold get_field in G. rewrite (Hu _ Hx Ha) in G. unfold typed_at in Ty. destruct (field_index (k_fields k) (sh_name s)) as [i|]; [|contradiction].
    destruct (nth_error (k_fields k) i) as [[fi t']|]; [|discriminate]. cbn in Ty. destruct (nth_error (tm_vals x) i); [|discriminate]. congruence. }
  exists ns. split; [exact Ht|]. split; [exact En|]. split; [|split; [exact Ez|]].
  2:{ intros x Hx Ha N. assert (Eh : home x = sh_prefix s) by (rewrite (home_can cdc den_zero _ _ Hx) in Ha; now apply String.eqb_eq in Ha).
      destruct (touched_field cdc den_zero x (sh_name s) Hx N) as (t & v & G); [now rewrite Eh|]. exists v. now rewrite G, (U x Hx Ha t v G). }
  destruct (target_new cdc den_zero kinds growth sortf Hk ns Ht) as (m0 & Hm & F). exists m0. split; [exact Hm|].
  destruct F as (F1 & F2 & F3 & F4 & F5). destruct (F5 (sh_name s)) as [t G]; [now rewrite En|]. rewrite G.
  rewrite (U m0 F2) with (t := t) (v := zero t); [reflexivity| |exact G]. unfold is_a. rewrite (lib_named cdc den_zero _ ns F2 F1), En. apply String.eqb_refl.
Qed.
Ltac row k ns K := apply (row_from ns k);
  [unfold targets; cbn; tauto|reflexivity|cbn; tauto|exact K|vm_compute; reflexivity|first [reflexivity|apply Hz]].
Lemma rows_typed : Forall row_type shareds.
Proof.
  apply Forall_app. split; unfold copied, overwritten; repeat (apply Forall_cons; [|]); try apply Forall_nil.
  all: lazymatch goal with
       | |- row_type (Shared "dc" _ _ _ _) => row (k_dc_DublinCore cdc) ns_dc_NsDc kind_dc
       | |- row_type (Shared "xmp" _ _ _ _) => row (k_xmpbase_XmpBase cdc) ns_xmpbase_NsXmp kind_xmp
       | |- row_type (Shared "xmpDM" _ _ _ _) => row (k_xmpdm_XmpDM cdc den_zero) ns_xmpdm_NsXmpDM kind_dm
       | |- row_type (Shared "xmpRights" _ _ _ _) => row (k_xmprights_XmpRights cdc) ns_xmprights_NsXmpRights kind_rights
       end.
Qed.
Lemma find_models (d : doc) ns : match doc_find_model bops d ns with Some j => model_at d j | None => None end = find (fun m => is_a m (ns_name ns)) (models_of d).
Proof.
  unfold doc_find_model, model_at, models_of. induction (d_nodes d) as [|n l IH]; [reflexivity|]. cbn [find_index flat_map]. unfold model_can at 1.
  destruct (n_model n) as [m|] eqn:E; cbn [List.app find].
  - unfold is_a at 1. cbn [base_ops mo_can]. unfold tm_can. destruct (k_can (tm_kind m) (ns_name ns)); [cbn; exact E|].
    rewrite <- IH. now destruct (find_index _ l).
  - rewrite <- IH. now destruct (find_index _ l).
Qed.
Definition seen_at (o : option (ty X * gval)) : option gval := match o with Some (t, v) => seen t v | None => None end.
Lemma said_V s (d : doc) : row_type s -> okd d -> exists ns, In ns targets /\ ns_name ns = sh_prefix s
  /\ said d (sh_prefix s) (sh_name s) = seen_at (V d ns (sh_name s)) /\ exists v, V d ns (sh_name s) = Some (sh_type s, v).
Proof.
  intros (ns & Ht & En & (m0 & Hm & G0) & Ez & U) O. exists ns. split; [exact Ht|]. split; [exact En|]. unfold said, SyncFacts.V. rewrite <- En, <- find_models.
  destruct (doc_find_model bops d ns) as [j|] eqn:E.
  - destruct (fm_model _ _ _ _ _ _ E) as (m & Hmj & Ha). rewrite Hmj, <- get_field_field. rewrite En in Ha.
    destruct (U m (proj1 (O _ _ Hmj)) Ha (proj2 (O _ _ Hmj))) as [v G]. rewrite G. split; [reflexivity|]. eauto.
  - rewrite Hm, G0. cbn [seen_at]. unfold seen. rewrite Ez. split; [reflexivity|]. eauto.
Qed.

(* ---- what a list of assignments does to one field ---- *)
Definition puts (L : list (@op X)) : list gval := flat_map (fun p : bool * result gval => if fst p then [] else good (snd p)) L.
Definition fills (L : list (@op X)) : list gval := flat_map (fun p : bool * result gval => if fst p then good (snd p) else []) L.
Definition set_in (t : ty X) (v : gval) : bool := negb (is_empty t v).
Lemma find_filter (p : gval -> bool) l : find p l = hd_error (filter p l).
Proof. induction l as [|a l IH]; [reflexivity|]. cbn. now destruct (p a). Qed.
Lemma fold_ops t L : forall w, (filter (set_in t) (fills L) = [] \/ Forall (fun v => set_in t v = true) (puts L)) ->
  exists w', fold_left apply_op L (Some (t, w)) = Some (t, w') /\
  seen t w' = match rev (puts L) with
              | v :: _ => seen t v
              | [] => match seen t w with Some v => Some v | None => find (set_in t) (fills L) end
              end.
Proof.
  induction L as [|[b r] L IH]; intros w C; cbn [fold_left].
  - exists w. split; [reflexivity|]. cbn. now destruct (seen t w).
  - assert (C' : filter (set_in t) (fills L) = [] \/ Forall (fun v => set_in t v = true) (puts L)).
    { destruct C as [C|C]; [left|right]; unfold fills, puts in *; cbn [flat_map fst snd] in C.
      - rewrite filter_app in C. now apply app_eq_nil in C.
      - now apply Forall_app in C. }
    unfold apply_op at 2. cbn [fst snd]. destruct b; cbn [andb].
    + change (puts ((true, r) :: L)) with (puts L). change (fills ((true, r) :: L)) with (good r ++ fills L)%list.
      destruct (is_empty t w) eqn:Ew; cbn [negb].
      * destruct r as [v| |].
        -- destruct (IH v C') as (w' & F & E). exists w'. split; [exact F|]. rewrite E. destruct (rev (puts L)); [|reflexivity].
           unfold seen at 2. rewrite Ew. cbn [good List.app find]. unfold seen, set_in at 2. destruct (is_empty t v); reflexivity.
        -- destruct (IH w C') as (w' & F & E). exists w'. split; [exact F|]. rewrite E. reflexivity.
        -- destruct (IH w C') as (w' & F & E). exists w'. split; [exact F|]. rewrite E. reflexivity.
      * destruct (IH w C') as (w' & F & E). exists w'. split; [exact F|]. rewrite E. destruct (rev (puts L)); [|reflexivity].
        unfold seen. now rewrite Ew.
    + change (puts ((false, r) :: L)) with (good r ++ puts L)%list in C |- *. change (fills ((false, r) :: L)) with (fills L) in C |- *.
      destruct r as [v| |].
      * destruct (IH v C') as (w' & F & E). exists w'. split; [exact F|]. rewrite E. cbn [good List.app rev].
        destruct (rev (puts L)) as [|u r] eqn:R; [|reflexivity]. cbn [List.app]. unfold seen. destruct (is_empty t v) eqn:Ev; [|reflexivity].
        destruct C as [C|C]; [rewrite find_filter, C; reflexivity|].
        cbn [good] in C. apply Forall_app in C. destruct C as [C _]. inversion C as [|? ? C1 _]; subst.
        unfold set_in in C1. rewrite Ev in C1. discriminate.
      * destruct (IH w C') as (w' & F & E). exists w'. split; [exact F|]. rewrite E. reflexivity.
      * destruct (IH w C') as (w' & F & E). exists w'. split; [exact F|]. rewrite E. reflexivity.
Qed.
Lemma puts_app a b : puts (a ++ b)%list = (puts a ++ puts b)%list. Proof. apply flat_map_app. Qed.
Lemma fills_app a b : fills (a ++ b)%list = (fills a ++ fills b)%list. Proof. apply flat_map_app. Qed.
Lemma ops_app (ns : namespace) f (a b : list (@step X)) : cell_ops ns f (a ++ b)%list = (cell_ops ns f a ++ cell_ops ns f b)%list. Proof. apply flat_map_app. Qed.
Lemma ops_when (ns : namespace) f b (l : list (@step X)) : cell_ops ns f (when b l) = if b then cell_ops ns f l else [].
Proof. now destruct b. Qed.
Lemma if_nil {A} (b : bool) : (if b then @nil A else []) = []. Proof. now destruct b. Qed.
Lemma own_value (x : model) f : value x f = own x f. Proof. unfold value, own. now rewrite get_field_field. Qed.
Lemma if_set_unset (x : model) f l : if_set x f l = if unset x f then [] else l.
Proof. unfold if_set, unset. rewrite get_field_field. now destruct (field x f) as [[t v]|]. Qed.
Lemma text_own (x : model) f : text (own x f) = own_text x f. Proof. reflexivity. Qed.
Lemma texts_own (x : model) f : texts (own x f) = own_texts x f. Proof. reflexivity. Qed.
Lemma list_strs l : list_of (X := X) l = strs l. Proof. reflexivity. Qed.
Lemma default_one lang s : VAlt (X := X) (alt_add_default [] lang s) = one_alt lang s. Proof. unfold one_alt, alt_add_default. now destruct (emptyb s). Qed.
Definition home_of (k : mkind X) : string := match k_namespaces k with ns :: _ => ns_name ns | [] => "" end.
Lemma kind_tiff k : In k lib -> home_of k = "tiff" -> k = k_tiff_TiffInfo cdc.
Proof. intros H. unfold library_models in H. cbn [In] in H. repeat (destruct H as [<-|H]); try discriminate; try reflexivity. contradiction. Qed.
Lemma kind_id3 k : In k lib -> home_of k = "id3" -> k = k_id3_ID3 cdc.
Proof. intros H. unfold library_models in H. cbn [In] in H. repeat (destruct H as [<-|H]); try discriminate; try reflexivity. contradiction. Qed.

(* ---- what the assignments of one model are ---- *)
Lemma typed_of (x : model) k f t : tm_kind x = k -> typed_at k f t -> forall t' v, get_field x f = Some (t', v) -> t' = t.
Proof.
  intros <- Ty t' v. unfold get_field. unfold typed_at in Ty. destruct (field_index (k_fields (tm_kind x)) f) as [i|]; [|contradiction].
  destruct (nth_error (k_fields (tm_kind x)) i) as [[fi u]|]; [|discriminate]. cbn in Ty. destruct (nth_error (tm_vals x) i); [|discriminate]. congruence.
Qed.
Lemma unset_set_in (x : model) k f t : tm_kind x = k -> typed_at k f t -> index_of k f = true -> List.length (tm_vals x) = List.length (k_fields (tm_kind x)) ->
  set_in t (own x f) = negb (unset x f).
Proof.
  intros K Ty I L. unfold set_in, unset. rewrite <- own_value. unfold value. destruct (get_field x f) as [[t' v]|] eqn:G.
  - now rewrite (typed_of x k f t K Ty t' v G).
  - exfalso. unfold get_field in G. unfold index_of in I. rewrite K in G, L. destruct (field_index (k_fields k) f) as [i|] eqn:E; [|discriminate].
    destruct (field_index_some _ _ _ E) as (fi & u & Hn & _). rewrite Hn in G. destruct (nth_error (tm_vals x) i) eqn:N; [discriminate|].
    apply nth_error_None in N. assert (nth_error (k_fields k) i <> None) as Q by congruence. apply nth_error_Some in Q. lia.
Qed.
Lemma unset_text (x : model) k f : tm_kind x = k -> typed_at k f TStr -> unset x f = true -> own_text x f = "".
Proof.
  intros K Ty. unfold unset, own_text. rewrite <- own_value. unfold value. destruct (get_field x f) as [[t' v]|] eqn:G; [|reflexivity].
  rewrite (typed_of x k f TStr K Ty t' v G). destruct v; try reflexivity. cbn. destruct s; [reflexivity|discriminate].
Qed.
(* the assignments of model x to the property s are the values that x proposes or demands for it *)
Definition row_of (x : model) (s : shared) : Prop :=
  exists ns, In ns targets /\ ns_name ns = sh_prefix s
    /\ puts (cell_ops ns (sh_name s) (steps_to conv x)) = demands s x
    /\ filter (set_in (sh_type s)) (fills (cell_ops ns (sh_name s) (steps_to conv x))) = filter (set_in (sh_type s)) (proposes s x).
Definition target_of (p : string) : namespace :=
  if p =? "dc" then ns_dc_NsDc else if p =? "xmp" then ns_xmpbase_NsXmp else if p =? "xmpDM" then ns_xmpdm_NsXmpDM else ns_xmprights_NsXmpRights.
Ltac rows := repeat (apply Forall_cons; [|]); try apply Forall_nil.
Lemma puts_if (b : bool) l : puts (if b then l else []) = if b then puts l else []. Proof. now destruct b. Qed.
Lemma fills_if (b : bool) l : fills (if b then l else []) = if b then fills l else []. Proof. now destruct b. Qed.
Lemma filter_if p (b : bool) (l : list gval) : filter p (if b then l else []) = if b then filter p l else []. Proof. now destruct b. Qed.
Lemma ops_cons (ns : namespace) f (s : @step X) l : cell_ops ns f (s :: l) = (cell_op ns f s ++ cell_ops ns f l)%list. Proof. reflexivity. Qed.
Ltac row_start L E S := intros L E; apply Forall_app; split; unfold copied, overwritten; rows;
  match goal with |- row_of _ (Shared ?p _ _ _ _) => exists (target_of p) end;
  cbn [sh_prefix sh_name sh_type proposes demands]; (split; [unfold targets; cbn; tauto|]); (split; [reflexivity|]);
  unfold no_one, only, if_a; rewrite ?(home_can cdc den_zero) by assumption; rewrite S by exact E; rewrite ?E.
Lemma steps_pdf x : home x = "pdf" -> steps_to conv x = pdf_to x. Proof. intros E. unfold steps_to. now rewrite E. Qed.
Lemma steps_tiff x : home x = "tiff" -> steps_to conv x = tiff_to x. Proof. intros E. unfold steps_to. now rewrite E. Qed.
Lemma steps_riff x : home x = "riffinfo" -> steps_to conv x = riff_to conv x. Proof. intros E. unfold steps_to. now rewrite E. Qed.
Lemma steps_id3 x : home x = "id3" -> steps_to conv x = id3_to conv x. Proof. intros E. unfold steps_to. now rewrite E. Qed.
Lemma steps_ixml x : home x = "iXML" -> steps_to conv x = ixml_to conv x. Proof. intros E. unfold steps_to. now rewrite E. Qed.
Lemma steps_exif x : home x = "exif" -> steps_to conv x = exif_to conv x. Proof. intros E. unfold steps_to. now rewrite E. Qed.
Ltac split_ops := repeat first [rewrite ops_when|rewrite ops_app|rewrite ops_cons].
Lemma row_pdf x : In (tm_kind x) lib -> home x = "pdf" -> Forall (row_of x) shareds.
Proof. row_start L E steps_pdf. all: cbn; rewrite ?own_value; split; reflexivity. Qed.
Lemma ops_self_map (ns : namespace) f b g (h : gval -> result gval) (l : list gval) : cell_ops ns f (map (fun v => Set_ b Self g (h v)) l) = [].
Proof. induction l as [|v l IH]; [reflexivity|]. cbn [map]. rewrite ops_cons, IH. reflexivity. Qed.
Lemma row_riff x : In (tm_kind x) lib -> home x = "riffinfo" -> Forall (row_of x) shareds.
Proof.
  intros L E. assert (C : forall ns f, cell_ops ns f (riff_to conv x) = cell_ops ns f [Make ns_dc_NsDc; Set_ true (Model ns_dc_NsDc) "dc:title" (Ok (value x "riffinfo:name"))]).
  { intros ns f. unfold riff_to, fill. rewrite !ops_app, !ops_self_map. reflexivity. }
  revert L E. row_start L E steps_riff. all: rewrite C; cbn; rewrite ?own_value; split; reflexivity.
Qed.
Lemma row_tiff x : In (tm_kind x) lib -> List.length (tm_vals x) = List.length (k_fields (tm_kind x)) -> home x = "tiff" -> Forall (row_of x) shareds.
Proof.
  intros L N E. pose proof (kind_tiff _ L E) as K.
  assert (A1 : set_in (t_xmp_StringList cdc) (own x "dc:creator") = negb (unset x "dc:creator"))
    by (apply (unset_set_in x _ _ _ K); [vm_compute; reflexivity..|exact N]).
  assert (A2 : set_in TStr (own x "xmp:CreatorTool") = negb (unset x "xmp:CreatorTool"))
    by (apply (unset_set_in x _ _ _ K); [vm_compute; reflexivity..|exact N]).
  eassert (C : forall ns f, cell_ops ns f (tiff_to x) = ?[g] ns f).
  { intros ns f. unfold tiff_to. split_ops. rewrite !own_value.
    match goal with |- ?a = _ => let b := eval pattern ns, f in a in match b with ?h _ _ => instantiate (g := h) end end. reflexivity. }
  revert L E. row_start L E steps_tiff.
  all: rewrite C; clear C; cbn; rewrite ?if_nil; cbn.
  all: split; try reflexivity; rewrite ?if_set_unset; cbn [filter]; rewrite ?A1, ?A2.
  all: repeat match goal with |- context [unset ?y ?f] => destruct (unset y f) eqn:?U end; cbn [negb]; cbn; try reflexivity.
  all: rewrite ?A1, ?A2, ?U, ?U0; reflexivity.
Qed.
Lemma row_id3 x : In (tm_kind x) lib -> List.length (tm_vals x) = List.length (k_fields (tm_kind x)) -> home x = "id3" -> Forall (row_of x) shareds.
Proof.
  intros L N E. pose proof (kind_id3 _ L E) as K.
  assert (A1 : unset x "id3:titleDescription" = true -> own_text x "id3:titleDescription" = "")
    by (apply (unset_text x _ _ K); vm_compute; reflexivity).
  assert (A2 : unset x "id3:copyright" = true -> own_text x "id3:copyright" = "")
    by (apply (unset_text x _ _ K); vm_compute; reflexivity).
  eassert (C : forall ns f, cell_ops ns f (id3_to conv x) = ?[g] ns f).
  { intros ns f. unfold id3_to. cbv zeta. split_ops. rewrite !own_value.
    match goal with |- ?a = _ => let b := eval pattern ns, f in a in match b with ?h _ _ => instantiate (g := h) end end. reflexivity. }
  revert L E. row_start L E steps_id3.
  all: rewrite C; clear C; cbn; rewrite ?if_nil; cbn.
  all: split; try reflexivity; rewrite ?if_set_unset, ?default_one, ?text_own, ?texts_own.
  all: repeat match goal with |- context [unset ?y ?f] => destruct (unset y f) eqn:?U end; cbn [negb orb]; cbn; try reflexivity.
  all: try (rewrite A1 by reflexivity; reflexivity).
  all: try (rewrite A2 by reflexivity; reflexivity).
  all: rewrite ?List.app_nil_r; try reflexivity.
Qed.
Lemma row_ixml x : In (tm_kind x) lib -> home x = "iXML" -> Forall (row_of x) shareds.
Proof.
  intros L E. 
  eassert (C : forall ns f, cell_ops ns f (ixml_to conv x) = ?[g] ns f).
  { intros ns f. unfold ixml_to. split_ops. rewrite !own_value.
    match goal with |- ?a = _ => let b := eval pattern ns, f in a in match b with ?h _ _ => instantiate (g := h) end end. reflexivity. }
  revert L E. row_start L E steps_ixml.
  all: rewrite C; clear C; cbn; destruct (own x "iXML:speed"); cbn; rewrite ?List.app_nil_r; split; reflexivity.
Qed.
Lemma row_exif x : In (tm_kind x) lib -> home x = "exif" -> Forall (row_of x) shareds.
Proof.
  intros L E. 
  assert (C : forall ns f, cell_ops ns f (exif_to conv x) = []).
  { intros ns f. unfold exif_to, put, fill. split_ops. rewrite !ops_self_map. cbn. rewrite !if_nil. destruct (value x "exif:ISOSpeedRatings") as [| | | | |[|]| | |]; reflexivity. }
  revert L E. row_start L E steps_exif.
  all: rewrite C; split; reflexivity.
Qed.
Lemma row_all x s : In (tm_kind x) lib -> List.length (tm_vals x) = List.length (k_fields (tm_kind x)) -> In s shareds -> row_of x s.
Proof.
  intros L N. revert s. apply Forall_forall.
  destruct (String.eqb_spec (home x) "pdf") as [E|N1]; [exact (row_pdf x L E)|].
  destruct (String.eqb_spec (home x) "tiff") as [E|N2]; [exact (row_tiff x L N E)|].
  destruct (String.eqb_spec (home x) "riffinfo") as [E|N3]; [exact (row_riff x L E)|].
  destruct (String.eqb_spec (home x) "id3") as [E|N4]; [exact (row_id3 x L N E)|].
  destruct (String.eqb_spec (home x) "iXML") as [E|N5]; [exact (row_ixml x L E)|].
  destruct (String.eqb_spec (home x) "exif") as [E|N6]; [exact (row_exif x L E)|].
  apply String.eqb_neq in N1, N2, N3, N4, N5, N6.
  assert (S : home x = home x -> steps_to conv x = []) by (intros _; unfold steps_to; now rewrite N1, N2, N3, N4, N5, N6).
  assert (E : home x = home x) by reflexivity. revert L E. row_start L E S.
  all: rewrite ?N1, ?N2, ?N3, ?N4, ?N5, ?N6; split; reflexivity.
Qed.
End F.
