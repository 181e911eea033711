(* Lemmas about ListModelPaths in TPathM.v *)
From Coq Require Import List Arith ZArith Bool Ascii String Lia Permutation.
From Verif Require Import GoStr GoStrFacts GoMap Names Semver PathM PathFacts PVList SyncFlags NodeM ArrayM DocM TypeM TagM TPathM.
From Verif Require Import SpecBasic BasicFacts SpecTag TagFacts SpecType TypeFacts SpecTPath TPathFacts.
Import ListNotations.
Local Open Scope string_scope.

Section L.
Context {X : Type}.
Notation gval := (gval X).
Notation ty := (ty X).
Variable sortf : list path_value -> list path_value.
Hypothesis Hsort : forall l, Permutation (sortf l) l.
Notation list_type_paths := (@list_type_paths X sortf).

(* ---- the listing of one field, outside the recursion -------------------------------------------------- *)
Definition value_listed (t : ty) (v : gval) (p : path) : listed :=
  match t with
  | TAlt _ => match v with
              | VAlt a => Add (flat_map (fun i => pv (append_index_string p (alt_item_lang i)) (ai_value i)) a)
              | _ => Stop Panic
              end
  | TStruct _ _ => if is_empty t v then Add [] else of_result (list_type_paths t v p)
  | _ => of_text (leaf_enc t v) p
  end.
Definition elem_listed (te : ty) (p : path) (i : nat) (e : gval) : listed :=
  let '(te', e') := deref te e in
  let q := append_index p (Z.of_nat i) in
  match te' with
  | TStruct _ _ => if is_empty te' e' then Add [] else of_result (list_type_paths te' e' q)
  | TArr ai _ => match ar_text ai with
                 | Some c => of_text (c_enc c e') q
                 | None => if is_empty te' e' then Add [] else Stop (Err "not a struct")
                 end
  | TAlt _ | TBytes => if is_empty te' e' then Add [] else Stop (Err "not a struct")
  | _ => of_text (leaf_enc te' e') q
  end.
Definition plain_listed (t : ty) (v : gval) (p : path) : listed :=
  match t with
  | TArr i te => match v with
                 | VArr l _ => if ar_xmp i then list_elems (elem_listed te p) 0 l else value_listed t v p
                 | _ => Stop Panic
                 end
  | _ => value_listed t v p
  end.
Definition field_listed (t : ty) (v : gval) (p : path) : listed :=
  match t with
  | TPtr t1 => match v with VPtr v1 => plain_listed t1 v1 p | _ => Stop Panic end
  | _ => plain_listed t v p
  end.
Fixpoint list_fields (fs : list (finfo * ty)) (vs : list gval) (x : path) (acc : list path_value) : result (list path_value) :=
  match fs, vs with
  | [], [] => Ok (sortf acc)
  | (f, t) :: fs', v :: vs' =>
      if is_nil v || f_omit f || (negb (f_empty f) && is_empty t v) then list_fields fs' vs' x acc
      else
        let x := field_path x (f_name f) in
        match field_listed t v (push x [field_segment x (f_name f)]) with
        | Add a => list_fields fs' vs' x (acc ++ a)%list
        | Stop r => r
        end
  | _, _ => Panic
  end.

Lemma list_elems_ext (f g : nat -> gval -> listed) l : (forall i e, f i e = g i e) -> forall i, list_elems f i l = list_elems g i l.
Proof. intros H. induction l as [|e l IH]; intros i; cbn [list_elems]; [reflexivity|]. rewrite H, IH. reflexivity. Qed.

Lemma elem_eq te p i e :
  (let '(te', e') := deref te e in
   let q := append_index p (Z.of_nat i) in
   match te' with
   | TStruct _ _ => if is_empty te' e' then Add [] else of_result (match te with TPtr te1 => list_type_paths te1 e' q | _ => list_type_paths te e' q end)
   | TArr ai _ => match ar_text ai with
                  | Some c => of_text (c_enc c e') q
                  | None => if is_empty te' e' then Add [] else Stop (Err "not a struct")
                  end
   | TAlt _ | TBytes => if is_empty te' e' then Add [] else Stop (Err "not a struct")
   | _ => of_text (leaf_enc te' e') q
   end) = elem_listed te p i e.
Proof.
  unfold elem_listed. destruct te as [| | | bi | bu | c | m | ai te1 | t1 | si fs]; try reflexivity.
  destruct e; cbn [deref]; try reflexivity; destruct t1; reflexivity.
Qed.

Lemma list_struct si fs vs x : list_type_paths (TStruct si fs) (VStruct vs) x = list_fields fs vs x [].
Proof.
  cbn [TPathM.list_type_paths]. 
  match goal with |- ?F fs vs x [] = _ => enough (H : forall vs x acc, F fs vs x acc = list_fields fs vs x acc) by apply H end. clear vs x.
  induction fs as [|[f t] fs IH]; intros vs x acc; destruct vs as [|v vs]; cbn [list_fields]; try reflexivity.
  destruct (is_nil v || f_omit f || (negb (f_empty f) && is_empty t v)); [apply IH|].
  set (x' := field_path x (f_name f)). set (p := push x' [field_segment x' (f_name f)]).
  match goal with |- match ?L with _ => _ end = match ?R with _ => _ end => assert (E : L = R) end.
  { unfold field_listed, plain_listed.
    destruct t as [| | | bi | bu | c | m | ai te | t1 | si1 fs1]; try reflexivity.
    - destruct v; try reflexivity. destruct (ar_xmp ai); [|reflexivity].
      apply list_elems_ext. intros i e. apply elem_eq.
    - destruct v as [| | | | | | |v1|]; try reflexivity. destruct t1 as [| | | bi | bu | c | m | ai te | t2 | si1 fs1]; try reflexivity.
      destruct v1; try reflexivity. destruct (ar_xmp ai); [|reflexivity].
      apply list_elems_ext. intros i e. apply elem_eq. }
  rewrite E. destruct (field_listed t v p); [apply IH|reflexivity].
Qed.

(* ---- paths --------------------------------------------------------------------------------------------- *)

Lemma suffix_last a n c : n <> "" -> no_char c n -> has_suffix_str (String c "") (a ++ n) = false.
Proof.
  intros N F. destruct (has_suffix_str (String c "") (a ++ n)) eqn:E; [|reflexivity]. exfalso.
  apply has_suffix_spec in E. destruct E as (t & E).
  assert (H : forall m, m <> "" -> exists i z, m = i ++ String z "").
  { induction m as [|d m IH]; [congruence|]. intros _. destruct m as [|d2 m2].
    - exists "", d. reflexivity.
    - destruct IH as (i & z & Ez); [discriminate|]. exists (String d i), z. rewrite Ez. reflexivity. }
  destruct (H n N) as (i & z & ->).
  assert (z = c).
  { rewrite <- app_assoc in E.
    assert (G : forall u w y1 y2, u ++ String y1 "" = w ++ String y2 "" -> y1 = y2).
    { induction u as [|d u IH]; intros w y1 y2; destruct w as [|d2 w]; cbn [append].
      - congruence.
      - intros Q. injection Q as _ Q. destruct w; discriminate.
      - intros Q. injection Q as _ Q. destruct u; discriminate.
      - intros Q. injection Q as _ Q. eapply IH. exact Q. }
    apply G in E. exact E. }
  subst z. unfold no_char in F. rewrite has_char_app in F. cbn [has_char] in F. rewrite Ascii.eqb_refl, orb_true_r in F. discriminate.
Qed.

Lemma join_cons2 (b : string) m : m <> [] -> join "/" (b :: m) = b ++ "/" ++ join "/" m.
Proof. destruct m; [congruence|reflexivity]. Qed.
Lemma snoc_not_nil {A} (l : list A) a : (l ++ [a])%list <> [].
Proof. destruct l; discriminate. Qed.
Lemma join_snoc l a s : join "/" (l ++ [a])%list ++ s = join "/" (l ++ [(a ++ s)%string])%list.
Proof.
  induction l as [|b l IH]; [reflexivity|].
  change ((b :: l) ++ [a])%list with (b :: (l ++ [a]))%list. change ((b :: l) ++ [(a ++ s)%string])%list with (b :: (l ++ [(a ++ s)%string]))%list.
  rewrite !join_cons2 by apply snoc_not_nil. rewrite !app_assoc, IH. reflexivity.
Qed.

Lemma join_ends l a : exists r, join "/" (l ++ [a])%list = r ++ a.
Proof.
  induction l as [|b l (r & IH)]; [exists ""; reflexivity|].
  change ((b :: l) ++ [a])%list with (b :: (l ++ [a]))%list.
  rewrite join_cons2 by apply snoc_not_nil. rewrite IH. exists (b ++ "/" ++ r). now rewrite !app_assoc.
Qed.

Definition sub_seg (s : tseg) (u : subscript) : tseg := TSeg (g_ns s) (g_name s) u.

Lemma tpath_snoc ns segs s : tpath ns (segs ++ [s]) = new_path ns (map (fun s => seg_text (tseg_spec s)) segs ++ [seg_text (tseg_spec s)])%list.
Proof. unfold tpath. rewrite map_app. reflexivity. Qed.

Lemma add_sub ns segs s u : g_sub s = SNone -> tpath ns (segs ++ [s]) ++ sub_text u = tpath ns (segs ++ [sub_seg s u]).
Proof.
  intros E. rewrite !tpath_snoc. unfold new_path. rewrite !app_assoc, join_snoc. f_equal. f_equal. f_equal. f_equal. f_equal.
  unfold seg_text, tseg_spec, sub_seg. cbn [fst snd g_ns g_name g_sub]. rewrite E. cbn [sub_text]. rewrite app_nil_r.
  destruct (g_ns s); [now rewrite !app_assoc|reflexivity].
Qed.
Lemma open_end ns segs s : g_sub s = SNone -> plain_name (g_name s) -> no_char "]" (g_name s) -> has_suffix_str "]" (tpath ns (segs ++ [s])) = false.
Proof.
  intros E (N & _) B. rewrite tpath_snoc. unfold new_path.
  destruct (join_ends (map (fun s => seg_text (tseg_spec s)) segs) (seg_text (tseg_spec s))) as (r & ->).
  unfold seg_text, tseg_spec. cbn [fst snd]. rewrite E. cbn [sub_text]. rewrite app_nil_r.
  destruct (g_ns s) as [q|]; rewrite <- ?app_assoc; apply suffix_last; auto.
Qed.
Lemma index_path ns segs s i : g_sub s = SNone -> plain_name (g_name s) -> no_char "]" (g_name s) ->
  append_index (tpath ns (segs ++ [s])) (Z.of_nat i) = tpath ns (segs ++ [sub_seg s (SIndex i)]).
Proof. intros E P B. unfold append_index. rewrite open_end by auto. rewrite <- add_sub by auto. reflexivity. Qed.
Lemma lang_path ns segs s g : g_sub s = SNone -> plain_name (g_name s) -> no_char "]" (g_name s) ->
  append_index_string (tpath ns (segs ++ [s])) g = tpath ns (segs ++ [sub_seg s (SLang g)]).
Proof. intros E P B. unfold append_index_string. rewrite open_end by auto. rewrite <- add_sub by auto. reflexivity. Qed.

Lemma tsegs_ok l : Forall tseg_ok l -> Forall seg_ok (map (fun s => seg_text (tseg_spec s)) l).
Proof. intros H. apply Forall_map. eapply Forall_impl; [|exact H]. intros s Hs. apply seg_text_ok, tseg_spec_ok, Hs. Qed.

Lemma push_tpath ns segs s : no_char ":" ns -> Forall tseg_ok segs -> push (tpath ns segs) [seg_text (tseg_spec s)] = tpath ns (segs ++ [s]).
Proof. intros Hn Hs. unfold tpath at 1. rewrite push_new by (auto using tsegs_ok). now rewrite tpath_snoc. Qed.

Lemma tpath_len ns segs : no_char ":" ns -> Forall tseg_ok segs -> path_len (tpath ns segs) = List.length segs.
Proof. intros Hn Hs. unfold tpath. rewrite path_len_fields, fields_new by (auto using tsegs_ok). apply map_length. Qed.

(* the segment a listing writes for a field *)
Lemma field_seg ns segs name n : no_char ":" ns -> Forall tseg_ok segs -> field_name_ok name n ->
  exists ns' o, field_path (tpath ns segs) name = tpath ns' segs /\ no_char ":" ns' /\ (segs = [] \/ ns' = ns)
    /\ field_segment (tpath ns' segs) name = seg_text (tseg_spec (TSeg o n SNone)) /\ tseg_ok (TSeg o n SNone).
Proof.
  intros Hn Hs (P & B & F).
  assert (FP : exists ns', field_path (tpath ns segs) name = tpath ns' segs /\ no_char ":" ns' /\ (segs = [] \/ ns' = ns)).
  { unfold field_path. rewrite tpath_len by auto. destruct segs as [|s segs].
    - cbn [List.length Nat.eqb]. destruct (namespace_prefix (tpath ns []) =? get_prefix name).
      + exists ns. auto.
      + exists (get_prefix name). split; [reflexivity|]. split; [apply get_prefix_no_colon|auto].
    - exists ns. auto. }
  destruct FP as (ns' & E1 & E2 & E3). exists ns'.
  assert (NP : namespace_prefix (tpath ns' segs) = ns') by (apply namespace_prefix_new; exact E2).
  unfold field_segment. rewrite NP.
  assert (O1 : tseg_ok (TSeg None n SNone)) by (repeat split; apply P).
  assert (T1 : seg_text (tseg_spec (TSeg None n SNone)) = n) by (unfold seg_text, tseg_spec; cbn; apply app_nil_r).
  destruct F as [->|(p & P1 & P2 & P3 & ->)].
  - exists None. rewrite has_prefix_none by apply P. cbn [andb].
    replace (strip_prefix n) with n.
    2:{ symmetry. unfold strip_prefix. now rewrite (proj2 (index_char_none _ _) (proj2 (proj2 (proj2 P)))). }
    auto 6.
  - rewrite has_prefix_qualified, get_prefix_qualified, strip_prefix_qualified by auto. cbn [andb].
    destruct (negb (p =? ns')).
    + exists (Some p). repeat split; auto; try apply P. unfold seg_text, tseg_spec. cbn [fst snd g_ns g_name g_sub sub_text]. now rewrite app_nil_r.
    + exists None. auto 6.
Qed.

(* ---- one field of a struct ------------------------------------------------------------------------------ *)

(* what a listing promises: the rest of the path, read from this struct, gives the value *)
Definition good (ns : string) (segs : list tseg) (fs : list (finfo * ty)) (vs : list gval) (x : path_value) : Prop :=
  exists ns' more, (segs = [] \/ ns' = ns) /\ no_char ":" ns' /\ Forall tseg_ok more /\ more <> []
    /\ pv_path x = tpath ns' (segs ++ more) /\ get_steps (tsteps more) fs vs = Ok (pv_value x).

Lemma pv_in p s x : In x (pv p s) -> x = PathValue p "" s 0 /\ s <> "".
Proof. unfold pv, pvl_add. destruct (emptyb s) eqn:E; cbn; [tauto|]. intros [<-|[]]. split; [reflexivity|]. now apply emptyb_false. Qed.
Lemma of_text_in r p l x : of_text r p = Add l -> In x l -> exists s, r = Ok (Some s) /\ x = PathValue p "" s 0.
Proof.
  unfold of_text. destruct r as [[s|]| |]; intros E; try discriminate. injection E as <-. intros H. apply pv_in in H. exists s. tauto.
Qed.

Lemma get_one (fs : list (finfo * ty)) vs s a f t v b more rest :
  no_char ":" (g_name s) -> tseg_ok s -> field_at (g_name s) fs vs a f t v b ->
  is_nil v || f_omit f || (negb (f_empty f) && is_empty t v) = false ->
  get_steps ((seg_word s, more) :: rest) fs vs =
    match drill t v with
    | (TStruct si fs', VStruct vs') => if more then get_steps rest fs' vs' else leaf_text (TStruct si fs') (VStruct vs')
    | (TAlt _, VAlt a) => Ok (if emptyb (seg_lang (g_sub s)) then alt_default a else alt_get a (seg_lang (g_sub s)))
    | (TArr i te, VArr l sp) =>
        if ar_xmp i then
          match nth_error l (index_of (g_sub s)) with
          | None => Err errNotFound
          | Some e =>
              let '(te', e') := deref te e in
              if more then
                match te', e', rest with
                | TStruct _ fs', VStruct vs', _ => get_steps rest fs' vs'
                | _, _, [] => Ok ""
                | _, _, _ => Err errNotFound
                end
              else leaf_text te' e'
          end
        else leaf_text (TArr i te) (VArr l sp)
    | (t', v') => leaf_text t' v'
    end.
Proof.
  intros N O FA C. destruct (lookup_field _ _ _ _ _ _ _ _ N FA) as (L1 & L2 & L3).
  cbn [get_steps]. rewrite parse_tseg by auto. cbv iota beta. rewrite idx_ok, L1, L2, L3, idx_nat.
  rewrite <- orb_assoc in C. apply orb_false_iff in C. destruct C as [C1 C2]. rewrite C1, C2. reflexivity.
Qed.

Definition lists_good (t : ty) : Prop :=
  forall (si : struct_info X) (fs : list (finfo * ty)) (vs : list gval) ns segs l, t = TStruct si fs -> no_char ":" ns -> Forall tseg_ok segs -> names_ok t -> langs_ok t (VStruct vs) ->
  list_type_paths t (VStruct vs) (tpath ns segs) = Ok l -> Forall (good ns segs fs vs) l.

Lemma langs_zero (t : ty) : langs_ok t (zero t).
Proof.
  induction t as [| | | bi | bu | c | m | i t IH | t IH | i fs IH] using ty_nested_ind; cbn [langs_ok zero]; auto.
  - split; constructor.
  - split; [reflexivity|exact I].
  - induction IH as [|f fs Hf _ IHf]; cbn [map]; auto.
Qed.

Lemma all_nth (t : ty) l : (fix all (l : list gval) : Prop := match l with [] => True | e :: r => langs_ok t e /\ all r end) l ->
  forall i e, nth_error l i = Some e -> langs_ok t e.
Proof.
  induction l as [|x l IH]; intros H [|i] e E; cbn in E; try discriminate.
  - injection E as <-. apply H.
  - apply (IH (proj2 H) i e E).
Qed.

Lemma elems_in (g : nat -> gval -> listed) l : forall i0 r x, list_elems g i0 l = Add r -> In x r ->
  exists i e a, nth_error l i = Some e /\ g (i0 + i) e = Add a /\ In x a.
Proof.
  induction l as [|e l IH]; intros i0 r x E H; cbn [list_elems] in E.
  - injection E as <-. destruct H.
  - destruct (g i0 e) as [a|] eqn:G; [|discriminate]. destruct (list_elems g (S i0) l) as [b|] eqn:E2; [|discriminate].
    injection E as <-. apply in_app_or in H. destruct H as [H|H].
    + exists 0, e, a. rewrite Nat.add_0_r. auto.
    + destruct (IH _ _ _ E2 H) as (i & e' & a' & H1 & H2 & H3). exists (S i), e', a'. replace (i0 + S i) with (S i0 + i) by lia. auto.
Qed.

Lemma sub_ok s u : tseg_ok s -> match u with SNone => True | SIndex k => (Z.of_nat k < 2 ^ 63)%Z | SLang g => lang_ok g end -> tseg_ok (sub_seg s u).
Proof. intros (H1 & H2 & _) H. repeat split; try apply H1; auto. Qed.

Lemma in_find_lang l x : NoDup (map ai_lang l) -> In x l -> find (fun y => ai_lang y =? ai_lang x) l = Some x.
Proof.
  induction l as [|y l IH]; intros ND H; [destruct H|]. cbn [map] in ND. inversion ND as [|? ? N1 N2]; subst. cbn [find].
  destruct H as [->|H]; [now rewrite eqb_refl|]. destruct (ai_lang y =? ai_lang x) eqn:E; [|auto].
  apply eqb_eq in E. exfalso. apply N1. rewrite E. now apply in_map.
Qed.

(* the text of a leaf *)
Lemma field_good t v fs vs a f b ns0 ns segs o n r :
  lists_good t -> (forall t', t = TPtr t' -> lists_good t') ->
  (forall i te, (t = TArr i te \/ t = TPtr (TArr i te)) -> lists_good te /\ forall t', te = TPtr t' -> lists_good t') ->
  names_ok t -> langs_ok t v ->
  field_at n fs vs a f t v b -> no_char ":" ns -> (segs = [] \/ ns = ns0) -> Forall tseg_ok segs ->
  tseg_ok (TSeg o n SNone) -> no_char "]" n ->
  is_nil v || f_omit f || (negb (f_empty f) && is_empty t v) = false ->
  field_listed t v (tpath ns (segs ++ [TSeg o n SNone])) = Add r -> Forall (good ns0 segs fs vs) r.
Proof.
  intros G1 G2 G3 NO LO FA Hns Hor Hsegs Hseg Hb C E. apply Forall_forall. intros x Hx.
  assert (PN : plain_name n) by apply Hseg.
  set (s0 := TSeg o n SNone) in *.
  (* a leaf of this field *)
  assert (LEAF : forall t1 v1, drill t v = (t1, v1) ->
      (forall y, t1 <> TAlt y) -> (forall i te, t1 = TArr i te -> ar_xmp i = false) -> forall s, leaf_enc t1 v1 = Ok (Some s) ->
      x = PathValue (tpath ns (segs ++ [s0])) "" s 0 -> good ns0 segs fs vs x).
  { intros t1 v1 D NA NX s Es ->. exists ns, [s0]. cbn [pv_path pv_value]. repeat split; auto; [discriminate|].
    cbn [tsteps]. rewrite (get_one fs vs s0 a f t v b); auto; [|apply PN]. rewrite D.
    assert (LT : leaf_text t1 v1 = Ok s) by (unfold leaf_text; rewrite Es; reflexivity).
    destruct t1; try exact LT; destruct v1; try exact LT.
    - exfalso. eapply NA. reflexivity.
    - rewrite (NX _ _ eq_refl). exact LT. }
  assert (REC : forall t1 v1, drill t v = (t1, v1) -> lists_good t1 -> names_ok t1 -> langs_ok t1 v1 ->
      value_listed t1 v1 (tpath ns (segs ++ [s0])) = Add r -> (forall i te, t1 = TArr i te -> ar_xmp i = false) -> good ns0 segs fs vs x).
  { intros t1 v1 D LG NO1 LO1 EV NX. unfold value_listed in EV.
    destruct t1 as [| | | bi | bu | c | m | ai te | t2 | si fs1].
    1,2,3,4,5,6,8,9: (destruct (of_text_in _ _ _ _ EV Hx) as (s & Es & ->); eapply LEAF; eauto; discriminate).
    - destruct v1 as [| | | |al| | | |]; try discriminate. injection EV as <-.
      apply in_flat_map in Hx. destruct Hx as (it & Hit & Hx). apply pv_in in Hx. destruct Hx as [-> Hv].
      cbn [langs_ok] in LO1. destruct LO1 as [LO1 LO2]. pose proof LO1 as LO3. rewrite Forall_forall in LO3. specialize (LO3 it Hit).
      assert (AL : alt_item_lang it = ai_lang it).
      { unfold alt_item_lang. rewrite (proj2 (emptyb_false _) (proj1 LO3)). reflexivity. }
      rewrite AL. exists ns, [sub_seg s0 (SLang (ai_lang it))]. cbn [pv_path pv_value].
      assert (O2 : tseg_ok (sub_seg s0 (SLang (ai_lang it)))) by (apply sub_ok; auto).
      repeat split; auto; [discriminate|apply lang_path; auto|].
      cbn [tsteps]. rewrite (get_one fs vs (sub_seg s0 (SLang (ai_lang it))) a f t v b); auto; [|apply PN].
      rewrite D. cbn [sub_seg g_sub seg_lang]. unfold alt_get. rewrite !(proj2 (emptyb_false _) (proj1 LO3)).
      rewrite (in_find_lang al it) by auto. reflexivity.
    - destruct (is_empty (TStruct si fs1) v1); [injection EV as <-; destruct Hx|].
      destruct (list_type_paths (TStruct si fs1) v1 (tpath ns (segs ++ [s0]))) as [l'| |] eqn:EL; try discriminate.
      cbn [of_result] in EV. injection EV as <-.
      destruct v1 as [| | | | | | | |vs1]; try discriminate.
      assert (F2 : Forall tseg_ok (segs ++ [s0])) by (apply Forall_app; auto).
      pose proof (LG si fs1 vs1 ns (segs ++ [s0])%list l' eq_refl Hns F2 NO1 LO1 EL) as FG.
      rewrite Forall_forall in FG. destruct (FG x Hx) as (ns' & more & Q1 & Q2 & Q3 & Q4 & Q5 & Q6).
      destruct Q1 as [Q1|Q1]; [destruct segs; discriminate|]. subst ns'.
      exists ns, (s0 :: more). repeat split; auto; [discriminate| |].
      + rewrite Q5, <- List.app_assoc. reflexivity.
      + destruct more as [|m1 more]; [congruence|]. cbn [tsteps].
        rewrite (get_one fs vs s0 a f t v b); auto; [|apply PN]. rewrite D. exact Q6. }
  assert (ELEM : forall i te l sp, drill t v = (TArr i te, VArr l sp) -> ar_xmp i = true ->
      (lists_good te /\ forall t', te = TPtr t' -> lists_good t') -> names_ok te -> langs_ok (TArr i te) (VArr l sp) ->
      list_elems (elem_listed te (tpath ns (segs ++ [s0]))) 0 l = Add r -> good ns0 segs fs vs x).
  { intros i te l sp D AX LG NO1 LO1 EV. destruct (elems_in _ _ _ _ _ EV Hx) as (k & e & ra & K1 & K2 & K3).
    rewrite Nat.add_0_l in K2. cbn [langs_ok] in LO1. destruct LO1 as [LEN ALL].
    pose proof (all_nth _ _ ALL _ _ K1) as LE.
    assert (KB : (Z.of_nat k < 2 ^ 63)%Z).
    { assert (k < List.length l) by (apply nth_error_Some; congruence). lia. }
    assert (O2 : tseg_ok (sub_seg s0 (SIndex k))) by (apply sub_ok; auto).
    unfold elem_listed in K2. destruct (deref te e) as [te' e'] eqn:DE.
    rewrite index_path in K2 by auto.
    assert (LEAF2 : forall s, leaf_enc te' e' = Ok (Some s) ->
        x = PathValue (tpath ns (segs ++ [sub_seg s0 (SIndex k)])) "" s 0 -> good ns0 segs fs vs x).
    { intros s Es ->. exists ns, [sub_seg s0 (SIndex k)]. cbn [pv_path pv_value]. repeat split; auto; [discriminate|].
      cbn [tsteps]. rewrite (get_one fs vs (sub_seg s0 (SIndex k)) a f t v b); auto; [|apply PN].
      rewrite D, AX. cbn [sub_seg g_sub index_of]. rewrite K1, DE. unfold leaf_text. rewrite Es. reflexivity. }
    destruct te' as [| | | bi | bu | c | m | ai te1 | t2 | si fs1].
    1,3,4,5,6,9: (destruct (of_text_in _ _ _ _ K2 K3) as (s & Es & ->); eapply LEAF2; eauto).
    - destruct (is_empty TBytes e'); [injection K2 as <-; destruct K3|discriminate].
    - destruct (is_empty (TAlt m) e'); [injection K2 as <-; destruct K3|discriminate].
    - destruct (ar_text ai) as [c|] eqn:AT; [|destruct (is_empty (TArr ai te1) e'); [injection K2 as <-; destruct K3|discriminate]].
      destruct (of_text_in _ _ _ _ K2 K3) as (s & Es & ->). eapply LEAF2; [|reflexivity]. unfold leaf_enc. rewrite AT. exact Es.
    - destruct (is_empty (TStruct si fs1) e'); [injection K2 as <-; destruct K3|].
      destruct (list_type_paths (TStruct si fs1) e' (tpath ns (segs ++ [sub_seg s0 (SIndex k)]))) as [l'| |] eqn:EL; try discriminate.
      cbn [of_result] in K2. injection K2 as <-.
      destruct e' as [| | | | | | | |vs1]; try discriminate.
      assert (TE : lists_good (TStruct si fs1) /\ names_ok (TStruct si fs1) /\ langs_ok (TStruct si fs1) (VStruct vs1)).
      { destruct te; try (cbn [deref] in DE; injection DE as -> ->; tauto); try (cbn [deref] in DE; discriminate).
        - cbn [deref] in DE. destruct e; try discriminate; injection DE as <- <-.
          + split; [apply LG; reflexivity|]. split; [apply NO1|]. apply langs_zero.
          + split; [apply LG; reflexivity|]. split; [apply NO1|]. exact LE. 
        - cbn [deref] in DE. injection DE as <- <- ->. tauto. }
      destruct TE as (T1 & T2 & T3).
      assert (F2 : Forall tseg_ok (segs ++ [sub_seg s0 (SIndex k)])) by (apply Forall_app; auto).
      pose proof (T1 si fs1 vs1 ns _ l' eq_refl Hns F2 T2 T3 EL) as FG.
      rewrite Forall_forall in FG. destruct (FG x K3) as (ns' & more & Q1 & Q2 & Q3 & Q4 & Q5 & Q6).
      destruct Q1 as [Q1|Q1]; [destruct segs; discriminate|]. subst ns'.
      exists ns, (sub_seg s0 (SIndex k) :: more). repeat split; auto; [discriminate| |].
      + rewrite Q5, <- List.app_assoc. reflexivity.
      + destruct more as [|m1 more]; [congruence|]. cbn [tsteps].
        rewrite (get_one fs vs (sub_seg s0 (SIndex k)) a f t v b); auto; [|apply PN].
        rewrite D, AX. cbn [sub_seg g_sub index_of]. rewrite K1, DE. exact Q6. }
  assert (PLAIN : forall t1 v1, drill t v = (t1, v1) -> lists_good t1 -> names_ok t1 -> langs_ok t1 v1 ->
      (forall i te, t1 = TArr i te -> lists_good te /\ forall t', te = TPtr t' -> lists_good t') ->
      plain_listed t1 v1 (tpath ns (segs ++ [s0])) = Add r -> good ns0 segs fs vs x).
  { intros t1 v1 D LG NO1 LO1 LA EP. unfold plain_listed in EP.
    destruct t1 as [| | | bi | bu | c | m | ai te | t2 | si fs1];
      try (eapply REC; eauto; discriminate).
    destruct v1; try discriminate. destruct (ar_xmp ai) eqn:AX.
    - eapply ELEM; eauto.
    - eapply REC; eauto. intros i0 te0 Q. injection Q as <- <-. exact AX. }
  unfold field_listed in E.
  destruct t as [| | | bi | bu | c | m | ai te | t1 | si fs1]; 
    try (eapply PLAIN; [reflexivity|exact G1|exact NO|exact LO|intros i0 te0 Q; apply (G3 i0 te0); left; exact Q|exact E]).
  destruct v as [| | | | | | |v1|]; try discriminate. eapply PLAIN; [reflexivity|apply G2; reflexivity|apply NO|exact LO| |exact E].
  intros i te ->. apply (G3 i). right. reflexivity.
Qed.

Lemma name_local f n : field_name_ok f n -> local_name_of f n.
Proof. intros (P & _ & [->|(p & _ & P2 & _ & ->)]); [left; split; [apply P|reflexivity]|right; exists p; auto]. Qed.

Lemma field_pos (fs : list (finfo * ty)) ls fpre f t fs' vpre v vs' :
  Forall2 (fun f n => field_name_ok (f_name (fst f)) n) fs ls -> NoDup ls ->
  fs = (fpre ++ (f, t) :: fs')%list -> List.length fpre = List.length vpre ->
  exists n, field_name_ok (f_name f) n /\ field_at n fs (vpre ++ v :: vs')%list vpre f t v vs'.
Proof.
  intros F2 ND -> L. apply Forall2_app_inv_l in F2. destruct F2 as (l1 & l2 & F1 & F2 & ->).
  inversion F2 as [|? n ? l3 Hn F3]; subst. cbn [fst] in Hn. exists n. split; [exact Hn|].
  exists fpre, fs'. repeat split; auto; [now apply name_local|].
  assert (NI : ~ In n l1).
  { intros Hi. apply NoDup_remove_2 in ND. apply ND. apply in_or_app. auto. }
  clear - F1 NI. induction F1 as [|g m fpre l1 Hg F1 IH]; constructor.
  - intros Hl. apply NI. left. apply local_iff in Hl. apply name_local, local_iff in Hg. congruence.
  - apply IH. intros H. apply NI. now right.
Qed.

Lemma names_struct si (fs : list (finfo * ty)) : names_ok (TStruct si fs) ->
  (exists ls, Forall2 (fun f n => field_name_ok (f_name (fst f)) n) fs ls /\ NoDup ls) /\ Forall (fun f => names_ok (snd f)) fs.
Proof.
  intros [H1 H2]. split; [exact H1|]. clear H1. induction fs as [|f fs IH]; constructor; [apply H2|apply IH, H2].
Qed.
Lemma langs_struct si (fs : list (finfo * ty)) vs : langs_ok (TStruct si fs) (VStruct vs) ->
  forall fpre f t fs' vpre v vs', fs = (fpre ++ (f, t) :: fs')%list -> vs = (vpre ++ v :: vs')%list -> List.length fpre = List.length vpre -> langs_ok t v.
Proof.
  cbn [langs_ok]. revert vs. induction fs as [|g fs IH]; intros vs H fpre f t fs' vpre v vs' E1 E2 L; [destruct fpre; discriminate|].
  destruct fpre as [|g' fpre]; destruct vpre as [|v' vpre]; try discriminate; cbn [List.app] in *; subst vs; injection E1 as -> E1.
  - exact (proj1 H).
  - eapply (IH (vpre ++ v :: vs')%list); [exact (proj2 H)|exact E1|reflexivity|]. cbn [List.length] in L. lia.
Qed.

(* an early return carries an error or nothing *)
Definition no_list (r : result (list path_value)) : Prop := r = Ok [] \/ forall l, r <> Ok l.
Lemma of_text_stop t p r : of_text t p = Stop r -> no_list r.
Proof.
  unfold of_text, no_list. destruct t as [[?|]| |]; intros E; try discriminate; injection E as <-; auto; right; intros ? Q; discriminate.
Qed.
Lemma of_result_stop q r : of_result q = Stop r -> no_list r.
Proof. unfold of_result, no_list. destruct q; intros E; try discriminate; injection E as <-; right; intros ? Q; discriminate. Qed.
Lemma elems_stop (g : nat -> gval -> listed) l : (forall i e r, g i e = Stop r -> no_list r) -> forall i r, list_elems g i l = Stop r -> no_list r.
Proof.
  intros H. induction l as [|e l IH]; intros i r E; cbn [list_elems] in E; [discriminate|].
  destruct (g i e) eqn:G; [|injection E as ->; eauto]. destruct (list_elems g (S i) l) eqn:E2; [discriminate|]. injection E as ->. eauto.
Qed.
Lemma panic_no : no_list Panic. Proof. right. intros ? E; discriminate. Qed.
Lemma value_stop t v p r : value_listed t v p = Stop r -> no_list r.
Proof.
  unfold value_listed. destruct t; try apply of_text_stop.
  - destruct v; intros E; try discriminate; injection E as <-; apply panic_no.
  - destruct (is_empty _ _); [discriminate|]. apply of_result_stop.
Qed.
Lemma elem_stop te p i e r : elem_listed te p i e = Stop r -> no_list r.
Proof.
  unfold elem_listed. destruct (deref te e) as [te' e']. cbv zeta.
  assert (K : forall b, (if b : bool then Add [] else Stop (Err "not a struct")) = Stop r -> no_list r).
  { intros [|] E; [discriminate|]. injection E as <-. right. intros ? Q; discriminate. }
  destruct te' as [| | | bi | bu | c | m | ai te1 | t2 | si fs1]; try apply of_text_stop; try apply K.
  - destruct (ar_text ai); [apply of_text_stop|apply K].
  - destruct (is_empty _ _); [discriminate|]. apply of_result_stop.
Qed.
Lemma plain_stop t v p r : plain_listed t v p = Stop r -> no_list r.
Proof.
  unfold plain_listed. destruct t; try apply value_stop. destruct v; try (intros E; injection E as <-; apply panic_no).
  destruct (ar_xmp i); [|apply value_stop]. apply elems_stop. intros. eapply elem_stop; eauto.
Qed.
Lemma stop_ok t v p r : field_listed t v p = Stop r -> no_list r.
Proof.
  unfold field_listed. destruct t; try apply plain_stop. destruct v; try (intros E; injection E as <-; apply panic_no). apply plain_stop.
Qed.

Definition deep (t : ty) : Prop :=
  lists_good t /\ (forall t', t = TPtr t' -> lists_good t') /\
  (forall i te, (t = TArr i te \/ t = TPtr (TArr i te)) -> lists_good te /\ forall t', te = TPtr t' -> lists_good t').

Lemma fields_good (fs : list (finfo * ty)) vs ns0 segs : Forall tseg_ok segs -> Forall (fun f => deep (snd f)) fs ->
  forall si, names_ok (TStruct si fs) -> langs_ok (TStruct si fs) (VStruct vs) ->
  forall fs' vs' fpre vpre ns acc l, fs = (fpre ++ fs')%list -> vs = (vpre ++ vs')%list -> List.length fpre = List.length vpre ->
  no_char ":" ns -> (segs = [] \/ ns = ns0) -> Forall (good ns0 segs fs vs) acc ->
  list_fields fs' vs' (tpath ns segs) acc = Ok l -> Forall (good ns0 segs fs vs) l.
Proof.
  intros Hs Hd si NO LO. destruct (names_struct _ _ NO) as ((ls & F2 & ND) & NF).
  induction fs' as [|[f t] fs' IH]; intros vs' fpre vpre ns acc l E1 E2 L Hn Hor HA HL; destruct vs' as [|v vs']; cbn [list_fields] in HL; try discriminate.
  - injection HL as <-. eapply Permutation_Forall; [|exact HA]. symmetry. apply Hsort.
  - assert (A1 : fs = ((fpre ++ [(f, t)]) ++ fs')%list) by (rewrite <- List.app_assoc; exact E1).
    assert (A2 : vs = ((vpre ++ [v]) ++ vs')%list) by (rewrite <- List.app_assoc; exact E2).
    assert (A3 : List.length (fpre ++ [(f, t)])%list = List.length (vpre ++ [v])%list) by (rewrite !List.app_length; cbn; lia).
    destruct (is_nil v || f_omit f || (negb (f_empty f) && is_empty t v)) eqn:C; [eapply IH; eauto|].
    destruct (field_pos fs ls fpre f t fs' vpre v vs' F2 ND E1 L) as (n & Nn & FA). rewrite <- E2 in FA.
    destruct (field_seg ns segs (f_name f) n Hn Hs Nn) as (ns' & o & P1 & P2 & P3 & P4 & P5).
    rewrite P1, P4, push_tpath in HL by auto.
    destruct (field_listed t v (tpath ns' (segs ++ [TSeg o n SNone]))) as [r|] eqn:ER.
    + assert (Hin : In (f, t) fs) by (rewrite E1; apply in_elt).
      rewrite Forall_forall in Hd, NF.
      assert (Hor2 : segs = [] \/ ns' = ns0) by (destruct P3 as [P3| ->]; auto).
      eapply IH; [exact A1|exact A2|exact A3|exact P2|exact Hor2| |exact HL].
      apply Forall_app. split; [exact HA|].
      eapply (field_good t v fs vs vpre f vs' ns0 ns' segs o n r); eauto.
      * exact (proj1 (Hd _ Hin)).
      * exact (proj1 (proj2 (Hd _ Hin))).
      * exact (proj2 (proj2 (Hd _ Hin))).
      * exact (NF _ Hin).
      * eapply langs_struct; eauto.
      * exact (proj1 (proj2 Nn)).
    + destruct (stop_ok _ _ _ _ ER) as [->|NOK]; [injection HL as <-; constructor|]. exfalso. subst r. exact (NOK _ eq_refl).
Qed.

Theorem lists_good_all t : deep t.
Proof.
  induction t as [| | | bi | bu | c | m | i t IH | t IH | si fs IH] using ty_nested_ind;
    try (split; [intros ? ? ? ? ? ? E; discriminate|split; [intros ? E; discriminate|intros ? ? [E|E]; discriminate]]).
  - split; [intros ? ? ? ? ? ? E; discriminate|split; [intros ? E; discriminate|]].
    intros i' te [E|E]; [|discriminate]. injection E as <- <-. destruct IH as (I1 & I2 & _). auto.
  - split; [intros ? ? ? ? ? ? E; discriminate|split].
    + intros t' E. injection E as <-. exact (proj1 IH).
    + intros i te [E|E]; [discriminate|]. injection E as ->. destruct IH as (_ & _ & I3). apply (I3 i te). auto.
  - split; [|split; [intros ? E; discriminate|intros ? ? [E|E]; discriminate]].
    intros si' fs' vs ns segs l E Hn Hs NO LO HL. injection E as <- <-.
    rewrite list_struct in HL. eapply (fields_good fs vs ns segs Hs IH si NO LO fs vs [] [] ns []); eauto.
Qed.

Theorem listed_reads_back si (fs : list (finfo * ty)) vs ns l x :
  no_char ":" ns -> names_ok (TStruct si fs) -> langs_ok (TStruct si fs) (VStruct vs) ->
  list_model_paths sortf si fs vs ns = Ok l -> In x l -> get_model_path fs vs (pv_path x) = Ok (pv_value x).
Proof.
  intros Hn NO LO HL Hx. unfold list_model_paths in HL.
  destruct (is_empty (TPtr (TStruct si fs)) (VPtr (VStruct vs))); [injection HL as <-; destruct Hx|].
  pose proof (proj1 (lists_good_all (TStruct si fs)) si fs vs ns [] l eq_refl Hn (Forall_nil _) NO LO HL) as G.
  rewrite Forall_forall in G. destruct (G x Hx) as (ns' & more & _ & Hn' & Ho & _ & -> & E).
  unfold get_model_path. rewrite steps_tpath by auto. exact E.
Qed.
End L.
