(* SetPath/GetPath on raw nodes *)
From Coq Require Import List Arith ZArith Bool Ascii String Lia.
From Verif Require Import GoStr GoStrFacts Names PathM SyncFlags PVList RegistryM NodeM Spec SpecFacts SpecBasic PathFacts SpecNode NodeFacts.
Local Open Scope string_scope.

Lemma on_lor f a b : (0 <= a)%Z -> (0 <= b)%Z -> (0 <= f)%Z -> on f (Z.lor a b) = on f a || on f b.
Proof.
  intros Ha Hb Hf. unfold on. rewrite Z.land_lor_distr_r.
  set (x := Z.land f a). set (y := Z.land f b).
  assert (0 <= x)%Z by (apply Z.land_nonneg; auto). assert (0 <= y)%Z by (apply Z.land_nonneg; auto).
  assert (Hx : (0 <= Z.lor x y)%Z) by (apply Z.lor_nonneg; auto).
  destruct (Z.ltb_spec 0 x); destruct (Z.ltb_spec 0 y); cbn; apply Z.ltb_lt || apply Z.ltb_ge.
  - destruct (Z.eq_dec (Z.lor x y) 0) as [E|]; [|lia]. apply Z.lor_eq_0_iff in E. lia.
  - destruct (Z.eq_dec (Z.lor x y) 0) as [E|]; [|lia]. apply Z.lor_eq_0_iff in E. lia.
  - destruct (Z.eq_dec (Z.lor x y) 0) as [E|]; [|lia]. apply Z.lor_eq_0_iff in E. lia.
  - replace x with 0%Z by lia. replace y with 0%Z by lia. cbn. lia.
Qed.

Section Lists.
Context {M : Type}.
Implicit Types (t : node M -> bool) (l : list (node M)).

Lemma upd_first_split t f pre c post o e : Forall (fun x => t x = false) pre -> t c = true -> f c = (o, e) ->
  upd_first t f (pre ++ c :: post)%list = Some ((pre ++ (match o with Some c' => [c'] | None => [] end) ++ post)%list, e).
Proof.
  intros H Ht Hf. induction H as [|v r Hv _ IH].
  - cbn. rewrite Ht, Hf. now destruct o.
  - cbn. now rewrite Hv, IH.
Qed.

Lemma upd_first_none t f l : Forall (fun x => t x = false) l -> upd_first t f l = None.
Proof. induction 1 as [|v r Hv _ IH]; cbn; auto. now rewrite Hv, IH. Qed.

Lemma upd_first_case t f l :
  (Forall (fun x => t x = false) l /\ upd_first t f l = None) \/
  exists pre c post, l = (pre ++ c :: post)%list /\ Forall (fun x => t x = false) pre /\ t c = true /\
    upd_first t f l = Some ((pre ++ (match fst (f c) with Some c' => [c'] | None => [] end) ++ post)%list, snd (f c)).
Proof.
  induction l as [|v r IH]; [left; auto|]. destruct (t v) eqn:E.
  - right. exists [], v, r. repeat split; auto. cbn. rewrite E. destruct (f v) as [[?|] ?]; reflexivity.
  - destruct IH as [[H1 H2]|(pre & c & post & -> & H1 & H2 & H3)].
    + left. split; auto. cbn. now rewrite E, H2.
    + right. exists (v :: pre), c, post. repeat split; auto. cbn. now rewrite E, H3.
Qed.

Lemma find_split t pre c post : Forall (fun x => t x = false) pre -> t c = true -> find t (pre ++ c :: post) = Some c.
Proof. intros H Ht. induction H as [|v r Hv _ IH]; cbn; [now rewrite Ht|now rewrite Hv]. Qed.

Lemma find_all_none t l : Forall (fun x => t x = false) l -> find t l = None.
Proof. induction 1 as [|v r Hv _ IH]; cbn; auto. now rewrite Hv. Qed.

Lemma find_app t a b : find t (a ++ b)%list = match find t a with Some x => Some x | None => find t b end.
Proof. induction a as [|v r IH]; cbn; auto. destruct (t v); auto. Qed.

Lemma nl_add_append l (x : node M) : (forall c, In c l -> x_local (n_name c) <> x_local (n_name x)) -> nl_add l x = (l ++ [x])%list.
Proof.
  induction l as [|v r IH]; intros H; cbn; auto.
  rewrite (proj2 (eqb_neq _ _) (H v (or_introl eq_refl))). now rewrite IH by (intros; apply H; now right).
Qed.

Lemma nth_upd_nth i : forall f l li, nth_error l i = Some li ->
  nth_error (fst (upd_nth i f l)) i = Some (fst (f li)) /\ snd (upd_nth i f l) = snd (f li).
Proof.
  induction i as [|i IH]; intros f [|v r] li H; cbn in *; try discriminate.
  - inversion H; subst. destruct (f li). cbn. auto.
  - specialize (IH f r li H). destruct (upd_nth i f r) eqn:E. cbn in *. exact IH.
Qed.

Lemma grow_nth i l : nth_error (grow i l) i = Some (match nth_error l i with Some li => li | None => new_node (new_name "rdf:li") end).
Proof.
  unfold grow. destruct (nth_error l i) eqn:E.
  - rewrite nth_error_app1; auto. apply nth_error_Some. congruence.
  - apply nth_error_None in E. rewrite nth_error_app2 by auto.
    rewrite nth_error_repeat; auto. lia.
Qed.

Lemma upd_nth_length i : forall f l, List.length (fst (upd_nth i f l)) = List.length l.
Proof.
  induction i as [|i IH]; intros f [|v r]; cbn; auto.
  - now destruct (f v).
  - specialize (IH f r). destruct (upd_nth i f r). cbn in *. congruence.
Qed.
End Lists.

Section Ops.
Context {M : Type}.
Variable can : M -> string -> bool.
Variable reg : registry.
Notation matches := (matches can).
Notation read := (read can).
Notation write := (write can reg).

Lemma raw_child (n c : node M) : raw n -> In c (n_nodes n) -> raw c.
Proof. intros H Hc x Hx. apply H. eapply in_below; eauto. Qed.

Lemma raw_model (n : node M) : raw n -> n_model n = None.
Proof. intros H. apply H. constructor. Qed.

Lemma raw_intro (n : node M) : n_model n = None -> (forall c, In c (n_nodes n) -> raw c) -> raw n.
Proof. intros H1 H2 x Hx. inversion Hx; subst; auto. eapply H2; eauto. Qed.

Lemma matches_none nm (c : node M) : n_model c = None -> matches nm c = (node_local c =? nm).
Proof. intros H. unfold NodeM.matches. rewrite H. now rewrite orb_false_r. Qed.

Lemma raw_matches nm (n c : node M) : raw n -> In c (n_nodes n) -> matches nm c = (node_local c =? nm).
Proof. intros H Hc. apply matches_none. apply raw_model. eapply raw_child; eauto. Qed.

Lemma raw_fresh (x : node M) : fresh x -> raw x.
Proof. intros (H1 & H2 & H3 & H4). apply raw_intro; auto. rewrite H4. intros ? []. Qed.

Lemma fresh_new x : fresh (new_node x : node M).
Proof. repeat split. Qed.

(* ---- set_child keeps name, attributes and model of the node it works on ---- *)
Definition keeps (f : node M -> node M * result unit) : Prop :=
  forall c, n_name (fst (f c)) = n_name c /\ n_attrs (fst (f c)) = n_attrs c /\ n_model (fst (f c)) = n_model c.

Lemma set_nodes_keeps (c : node M) l : n_name (set_nodes c l) = n_name c /\ n_attrs (set_nodes c l) = n_attrs c /\ n_model (set_nodes c l) = n_model c
   /\ n_value (set_nodes c l) = n_value c /\ n_nodes (set_nodes c l) = l.
Proof. destruct c; cbn; auto. Qed.
Lemma set_value_keeps (c : node M) v : n_name (set_value c v) = n_name c /\ n_attrs (set_value c v) = n_attrs c /\ n_model (set_value c v) = n_model c
   /\ n_value (set_value c v) = v /\ n_nodes (set_value c v) = n_nodes c.
Proof. destruct c; cbn; auto 6. Qed.

Lemma set_array_keeps rec (c : node M) p' idx value flags :
  let c' := fst (set_array can rec c p' idx value flags) in
  n_name c' = n_name c /\ n_attrs c' = n_attrs c /\ n_model c' = n_model c.
Proof.
  cbv zeta. unfold set_array.
  destruct (upd_first (matches "Seq") _ _) as [[l e]|]; cbn [fst]; [destruct c; cbn; auto|].
  destruct (upd_first (matches "Bag") _ _) as [[l e]|]; cbn [fst]; [destruct c; cbn; auto|].
  destruct (negb _); cbn [fst]; auto.
  match goal with |- context [match ?x with (_, _) => _ end] => destruct x as [[arr|] e] end; cbn [fst]; auto.
  destruct c; cbn; auto.
Qed.
Lemma set_alt_keeps (c : node M) lang value flags :
  let c' := fst (set_alt can c lang value flags) in
  n_name c' = n_name c /\ n_attrs c' = n_attrs c /\ n_model c' = n_model c.
Proof.
  cbv zeta. unfold set_alt.
  destruct (upd_first (matches "Alt") _ _) as [[l e]|]; cbn [fst]; [destruct c; cbn; auto|].
  destruct (negb _); cbn [fst]; auto.
  match goal with |- context [match ?x with (_, _) => _ end] => destruct x as [[arr|] e] end; cbn [fst]; auto.
  destruct c; cbn; auto.
Qed.

Lemma set_child_keeps rec p' idx lang value flags : keeps (fun c => rec c p') ->
  keeps (fun c => set_child can reg rec c p' idx lang value flags).
Proof.
  intros Hr c. unfold set_child.
  destruct (_ || _); [apply set_array_keeps|]. destruct (negb _); [apply set_alt_keeps|].
  unfold set_simple. destruct (Nat.ltb _ _); [apply (Hr c)|].
  destruct (_ && _); cbn [fst]; [destruct c; cbn; auto|].
  destruct (_ && _); cbn [fst]; destruct c; cbn; auto.
Qed.

Lemma write_keeps l : forall ns value flags, keeps (write ns l value flags).
Proof.
  destruct l as [|s rest]; intros ns value flags n; cbn [NodeFacts.write].
  { destruct n; cbn; auto. }
  destruct (_ && _); [auto|].
  destruct (upd_first _ _ _) as [[? ?]|]; cbn [fst]; [destruct n; cbn; auto|].
  destruct (_ && _); [|auto].
  match goal with |- context [match ?x with (_, _) => _ end] => destruct x as [? ?] end.
  cbn [fst]. destruct n; cbn; auto.
Qed.

(* also the value stays, except for the empty path *)
Lemma write_keeps_value s rest ns value flags n : n_value (fst (write ns (s :: rest) value flags n)) = n_value n.
Proof.
  cbn [NodeFacts.write]. destruct (_ && _); [auto|].
  destruct (upd_first _ _ _) as [[? ?]|]; cbn [fst]; [destruct n; cbn; auto|].
  destruct (_ && _); [|auto].
  match goal with |- context [match ?x with (_, _) => _ end] => destruct x as [? ?] end.
  cbn [fst]. destruct n; cbn; auto.
Qed.

(* ---- languages ---- *)
Lemma lang_of_item (li : node M) l : lang_of li = Some l <-> item_lang li l.
Proof.
  unfold lang_of, item_lang, get_attr, al_get.
  induction (n_attrs li) as [|a r IH]; cbn [filter].
  - split; [discriminate|]. intros (a & (pre & post & E & _) & _). destruct pre; discriminate.
  - cbn [emptyb orb]. destruct (strip_prefix (x_local (a_name a)) =? "lang") eqn:E.
    + apply eqb_eq in E. cbn. split.
      * intros H; inversion H; subst. exists a. split; [|auto]. exists [], r. auto.
      * intros (b & (pre & post & Eq & Hp) & Hb & Hv). destruct pre as [|x pre]; inversion Eq; subst; auto.
        inversion Hp; subst. congruence.
    + apply eqb_neq in E. cbn. rewrite IH. split.
      * intros (b & (pre & post & Eq & Hp) & Hb & Hv). exists b. split; [|auto].
        exists (a :: pre), post. rewrite Eq. split; auto. constructor; auto. congruence.
      * intros (b & (pre & post & Eq & Hp) & Hb & Hv). exists b. split; [|auto].
        destruct pre as [|x pre]; inversion Eq; subst; [congruence|].
        exists pre, post. inversion Hp; subst; auto.
Qed.

Lemma has_lang_item (li : node M) l : has_lang l li = true <-> item_lang li l.
Proof.
  rewrite <- lang_of_item. unfold has_lang. destruct (lang_of li); [|split; discriminate].
  rewrite eqb_eq. split; congruence.
Qed.

Lemma lang_new lang value : has_lang lang (new_lang_li lang value : node M) = true.
Proof. unfold has_lang, lang_of. cbn. apply eqb_refl. Qed.

Lemma get_attr_none (n : node M) nm : no_attr n nm -> get_attr n "" nm = [] \/ nm = "".
Proof.
  intros H. destruct (emptyb nm) eqn:En; [right; now apply emptyb_true|left].
  unfold get_attr, al_get. unfold no_attr in H. rewrite En. cbn [emptyb orb andb].
  induction (n_attrs n) as [|a r IH]; cbn [filter]; auto.
  rewrite (proj2 (eqb_neq _ _) (H a (or_introl eq_refl))). apply IH. intros; apply H; now right.
Qed.

(* what is read below the child c *)
Definition read_sel (c : node M) (sl : selector) (rest : list pseg) : string :=
  match sl with
  | SAll => read c rest
  | SIdx i => match n_nodes c with
              | [] => ""
              | arr :: _ => match nth_error (n_nodes arr) i with Some li => read li rest | None => "" end
              end
  | SLang l => match n_nodes c with
               | [] => ""
               | arr :: _ => match find (has_lang l) (n_nodes arr) with Some li => n_value li | None => "" end
               end
  end.

Lemma read_cons n s rest c : find_node can (n_nodes n) (ps_name s) = Some c -> read n (s :: rest) = read_sel c (ps_sel s) rest.
Proof. intros H. cbn [NodeFacts.read]. rewrite H. unfold read_sel. destruct (ps_sel s); reflexivity. Qed.

Variable value : string.
Variable flags : Z.
Hypothesis Hv : value <> "".
Hypothesis Hf : on flags (Z.lor REPLACE CREATE) = true.

Lemma emptyb_value : emptyb value = false.
Proof. now apply emptyb_false. Qed.

Lemma idx_nonneg i : ((Z.of_nat i =? -1) = false /\ (-1 <? Z.of_nat i) = true /\ (Z.of_nat i <? 0) = false)%Z.
Proof. repeat split; [apply Z.eqb_neq|apply Z.ltb_lt|apply Z.ltb_ge]; lia. Qed.

(* the array node itself *)
Definition on_arr (rec : node M -> node M * result unit) (p' : path) (idx : Z) (arr : node M) :=
    if Nat.ltb 0 (path_len p') then
      let i := Z.to_nat (if (idx <? 0)%Z then 0%Z else idx) in
      if Nat.leb (List.length (n_nodes arr)) i && negb (on flags (Z.lor CREATE APPEND)) && negb (emptyb value)
      then (Some arr, Err "CREATE flag required to extend array")
      else let '(l, e) := upd_nth i (fun li => rec li) (grow i (n_nodes arr)) in
           (Some (set_nodes arr l), e)
    else set_array_end arr idx value flags.

Lemma on_arr_ok ns' rest i arr o : no_char ":" ns' -> Forall pseg_ok rest ->
  (rest <> [] -> forall li' e, write ns' rest value flags (match nth_error (n_nodes arr) i with Some li => li | None => new_node (new_name "rdf:li") end) = (li', Ok e) -> read li' rest = value) ->
  on_arr (write ns' rest value flags) (render ns' rest) (Z.of_nat i) arr = (o, Ok tt) ->
  exists arr' li', o = Some arr' /\ n_name arr' = n_name arr /\ n_model arr' = n_model arr /\ nth_error (n_nodes arr') i = Some li' /\ read li' rest = value.
Proof.
  intros Hns Hok Hw. unfold on_arr. rewrite path_len_render by auto.
  destruct (idx_nonneg i) as (I1 & I2 & I3).
  destruct rest as [|s rest].
  - cbn [List.length]. cbn [Nat.ltb Nat.leb]. unfold set_array_end. rewrite I1, I2, emptyb_value, Hf.
    rewrite !andb_false_r. cbn [andb negb]. rewrite Nat2Z.id.
    destruct (upd_nth _ _ _) as [l e] eqn:E. intros H; inversion H; subst.
    pose proof (nth_upd_nth i (fun v => (set_value v value, Ok tt)) _ _ (grow_nth i (n_nodes arr))) as [A B].
    rewrite E in A, B. cbn in A, B.
    eexists _, _. split; [reflexivity|]. destruct (set_nodes_keeps arr l) as (? & ? & ? & ? & Hn).
    repeat split; eauto. rewrite Hn. exact A.
    cbn. destruct (nth_error (n_nodes arr) i) as [[]|]; reflexivity.
  - cbn [List.length]. replace (Nat.ltb 0 (S (List.length rest))) with true by reflexivity.
    rewrite I3, Nat2Z.id.
    destruct (_ && _ && _); [discriminate|].
    destruct (upd_nth _ _ _) as [l e] eqn:E. intros H; inversion H; subst.
    pose proof (nth_upd_nth i (fun li => write ns' (s :: rest) value flags li) _ _ (grow_nth i (n_nodes arr))) as [A B].
    rewrite E in A, B. cbn [fst snd] in A, B.
    eexists _, _. split; [reflexivity|]. destruct (set_nodes_keeps arr l) as (? & ? & ? & ? & Hn).
    repeat split; eauto. rewrite Hn. exact A.
    match type of B with _ = snd (write _ _ _ _ ?x) => destruct (write ns' (s :: rest) value flags x) as [li' e'] eqn:E2 end.
    cbn [snd] in B. subst e'. cbn [fst]. eapply Hw; [discriminate|reflexivity].
Qed.

Lemma set_array_on_arr ns' rest (c : node M) idx :
  set_array can (fun li _ => write ns' rest value flags li) c (render ns' rest) idx value flags =
  match upd_first (matches "Seq") (on_arr (write ns' rest value flags) (render ns' rest) idx) (n_nodes c) with
  | Some (l, e) => (set_nodes c l, e)
  | None =>
      match upd_first (matches "Bag") (on_arr (write ns' rest value flags) (render ns' rest) idx) (n_nodes c) with
      | Some (l, e) => (set_nodes c l, e)
      | None =>
          if negb (on flags CREATE) then (c, Err "CREATE flag required to make array")
          else match on_arr (write ns' rest value flags) (render ns' rest) idx (new_node (new_name "rdf:Seq")) with
               | (Some arr, e) => (add_node c arr, e)
               | (None, e) => (c, e)
               end
      end
  end.
Proof. reflexivity. Qed.

Lemma no_matches_nil t (l : list (node M)) : l = [] -> Forall (fun x => t x = false) l.
Proof. intros ->; constructor. Qed.

Lemma node_local_eq (a b : node M) : n_name a = n_name b -> node_local a = node_local b.
Proof. unfold node_local. congruence. Qed.

(* a child without children *)
Lemma set_array_new ns' rest (c c' : node M) i : no_char ":" ns' -> Forall pseg_ok rest -> n_nodes c = [] ->
  (rest <> [] -> forall x li' e, fresh x -> write ns' rest value flags x = (li', Ok e) -> read li' rest = value) ->
  set_array can (fun li _ => write ns' rest value flags li) c (render ns' rest) (Z.of_nat i) value flags = (c', Ok tt) ->
  read_sel c' (SIdx i) rest = value.
Proof.
  intros Hns Hok Hc Hw. rewrite set_array_on_arr, Hc. cbn [upd_first].
  destruct (negb (on flags CREATE)); [discriminate|].
  destruct (on_arr _ _ _ _) as [o e] eqn:E. intros H.
  assert (e = Ok tt) by (destruct o; congruence). subst e.
  eapply on_arr_ok in E as (arr' & li' & -> & H1 & H2 & H3 & H4); auto.
  - inversion H; subst. cbn [read_sel]. unfold add_node. destruct (set_nodes_keeps c (nl_add (n_nodes c) arr')) as (? & ? & ? & ? & ->).
    rewrite Hc. cbn [nl_add]. now rewrite H3.
  - intros Hr li' e He. eapply (Hw Hr); [|exact He]. destruct (nth_error _ i) eqn:En; [|apply fresh_new].
    destruct i; cbn in En; discriminate.
Qed.

Lemma set_array_old ns' rest (c c' arr : node M) more i : no_char ":" ns' -> Forall pseg_ok rest -> raw c -> n_nodes c = arr :: more ->
  (node_local arr = "Seq" \/ node_local arr = "Bag" /\ forall x, In x more -> node_local x <> "Seq") ->
  (rest <> [] -> forall li li' e, nth_error (n_nodes arr) i = Some li -> write ns' rest value flags li = (li', Ok e) -> read li' rest = value) ->
  (rest <> [] -> nth_error (n_nodes arr) i = None -> forall x li' e, fresh x -> write ns' rest value flags x = (li', Ok e) -> read li' rest = value) ->
  set_array can (fun li _ => write ns' rest value flags li) c (render ns' rest) (Z.of_nat i) value flags = (c', Ok tt) ->
  read_sel c' (SIdx i) rest = value.
Proof.
  intros Hns Hok Hraw Hc Hm Hw1 Hw2. rewrite set_array_on_arr.
  assert (Hwr : rest <> [] -> forall li' e, write ns' rest value flags (match nth_error (n_nodes arr) i with Some li => li | None => new_node (new_name "rdf:li") end) = (li', Ok e) -> read li' rest = value).
  { intros Hr li' e. destruct (nth_error (n_nodes arr) i) eqn:En.
    - intros. eapply Hw1; eauto.
    - intros. eapply Hw2; eauto. apply fresh_new. }
  destruct (on_arr (write ns' rest value flags) (render ns' rest) (Z.of_nat i) arr) as [o e] eqn:E.
  assert (Hres : forall l, (set_nodes c l, e) = (c', Ok tt) -> l = ((match o with Some c' => [c'] | None => [] end) ++ more)%list -> read_sel c' (SIdx i) rest = value).
  { intros l H Hl. inversion H; subst.
    eapply on_arr_ok in E as (arr' & li' & -> & H1 & H2 & H3 & H4); auto.
    cbn [read_sel]. destruct (set_nodes_keeps c ([arr'] ++ more)%list) as (? & ? & ? & ? & ->).
    cbn [app]. now rewrite H3. }
  assert (Ha : In arr (n_nodes c)) by (rewrite Hc; now left).
  destruct Hm as [Hm|[Hm Hmore]].
  - rewrite Hc. rewrite (upd_first_split (matches "Seq") _ [] arr more o e); auto.
    + intros H. eapply Hres; eauto.
    + rewrite (raw_matches "Seq" c arr); auto. now apply eqb_eq.
  - rewrite (upd_first_none (matches "Seq")).
    + rewrite Hc. rewrite (upd_first_split (matches "Bag") _ [] arr more o e); auto.
      * intros H. eapply Hres; eauto.
      * rewrite (raw_matches "Bag" c arr); auto. now apply eqb_eq.
    + apply Forall_forall. intros x Hx. rewrite (raw_matches "Seq" c x); auto. apply eqb_neq.
      rewrite Hc in Hx. destruct Hx as [<-|Hx]; [congruence|auto].
Qed.

Lemma set_alt_end_ok (arr : node M) lang o :
  ((exists li, In li (n_nodes arr) /\ item_lang li lang) /\ on flags APPEND = false /\ on flags UNIQUE = false) \/
  ((forall li, In li (n_nodes arr) -> ~ item_lang li lang) /\ (on flags APPEND = true \/ on flags UNIQUE = true)) ->
  set_alt_end arr lang value flags = (o, Ok tt) ->
  exists arr' li, o = Some arr' /\ n_name arr' = n_name arr /\ find (has_lang lang) (n_nodes arr') = Some li /\ n_value li = value.
Proof.
  intros Hc. unfold set_alt_end. rewrite emptyb_value. cbn [negb]. rewrite !andb_true_r.
  destruct Hc as [[[li [Hin Hl]] [Ha Hu]]|[Hno Hau]].
  - rewrite Ha, Hu, Hf. apply has_lang_item in Hl.
    destruct (upd_first_case (has_lang lang) (fun v => (Some (set_value v value), Ok tt)) (n_nodes arr)) as [[Hx _]|(pre & c & post & E & Hp & Hc & ->)].
    { rewrite Forall_forall in Hx. rewrite (Hx li Hin) in Hl. discriminate. }
    cbn [fst snd]. intros H; inversion H; subst. destruct (set_nodes_keeps arr (pre ++ set_value c value :: post)%list) as (? & ? & ? & ? & En).
    eexists _, (set_value c value). split; [reflexivity|]. split; [assumption|]. split.
    + rewrite En. cbn [app]. apply find_split; auto. unfold has_lang, lang_of, get_attr in *.
      destruct (set_value_keeps c value) as (_ & -> & _). exact Hc.
    + now destruct c.
  - assert (Hnone : find (has_lang lang) (n_nodes arr) = None).
    { apply find_all_none. apply Forall_forall. intros x Hx. destruct (has_lang lang x) eqn:E; auto.
      apply has_lang_item in E. now apply Hno in E. }
    assert (Happ : find (has_lang lang) (n_nodes (append_node arr (new_lang_li lang value))) = Some (new_lang_li lang value)).
    { destruct arr as [x a m v l]; cbn [append_node set_nodes n_nodes] in *. rewrite find_app, Hnone. cbn [find].
      now rewrite lang_new. }
    assert (Hex : existsb (fun v => has_lang lang v && (n_value v =? value)) (n_nodes arr) = false).
    { apply not_true_is_false. intros E. apply existsb_exists in E as (x & Hx & E).
      apply andb_true_iff in E as [E _]. apply has_lang_item in E. now apply Hno in E. }
    destruct (on flags UNIQUE) eqn:Eu.
    + rewrite Hex. intros H; inversion H; subst. eexists _, _. split; [reflexivity|]. split; [now destruct arr|]. split; [exact Happ|reflexivity].
    + destruct Hau as [Ha|?]; [|discriminate]. rewrite Ha. intros H; inversion H; subst.
      eexists _, _. split; [reflexivity|]. split; [now destruct arr|]. split; [exact Happ|reflexivity].
Qed.

Lemma set_alt_new (c c' : node M) lang rest : n_nodes c = [] ->
  (on flags APPEND = true \/ on flags UNIQUE = true) ->
  set_alt can c lang value flags = (c', Ok tt) -> read_sel c' (SLang lang) rest = value.
Proof.
  intros Hc Hau. unfold set_alt. rewrite Hc. cbn [upd_first]. destruct (negb _); [discriminate|].
  destruct (set_alt_end _ _ _ _) as [o e] eqn:E. intros H.
  assert (e = Ok tt) by (destruct o; congruence). subst e.
  apply set_alt_end_ok in E as (arr' & li & -> & H1 & H2 & H3).
  - inversion H; subst. unfold add_node. cbn [read_sel]. destruct (set_nodes_keeps c (nl_add (n_nodes c) arr')) as (? & ? & ? & ? & ->).
    rewrite Hc. cbn [nl_add]. now rewrite H2.
  - right. split; [cbn; intros ? []|auto].
Qed.

Lemma set_alt_old (c c' arr : node M) more lang rest : raw c -> n_nodes c = arr :: more -> node_local arr = "Alt" ->
  ((exists li, In li (n_nodes arr) /\ item_lang li lang) /\ on flags APPEND = false /\ on flags UNIQUE = false) \/
  ((forall li, In li (n_nodes arr) -> ~ item_lang li lang) /\ (on flags APPEND = true \/ on flags UNIQUE = true)) ->
  set_alt can c lang value flags = (c', Ok tt) -> read_sel c' (SLang lang) rest = value.
Proof.
  intros Hraw Hc Ha Hcase. unfold set_alt.
  destruct (set_alt_end arr lang value flags) as [o e] eqn:E.
  assert (Hin : In arr (n_nodes c)) by (rewrite Hc; now left).
  rewrite Hc, (upd_first_split (matches "Alt") _ [] arr more o e); auto.
  - intros H. assert (e = Ok tt) by congruence. subst e.
    apply set_alt_end_ok in E as (arr' & li & -> & H1 & H2 & H3); auto.
    inversion H; subst. cbn [read_sel app]. destruct (set_nodes_keeps c (arr' :: more)) as (? & ? & ? & ? & ->). now rewrite H2.
  - rewrite (raw_matches "Alt" c arr); auto. now apply eqb_eq.
Qed.

Lemma first_child_split (n : node M) nm c : raw n -> first_child n nm c ->
  exists pre post, n_nodes n = (pre ++ c :: post)%list /\ Forall (fun x => matches nm x = false) pre /\ matches nm c = true.
Proof.
  intros Hr [Hn (pre & post & E & Hp)]. exists pre, post. split; auto. split.
  - rewrite Forall_forall in *. intros x Hx. rewrite (raw_matches nm n); auto.
    + apply eqb_neq. rewrite <- Hn. now apply Hp.
    + rewrite E. apply in_or_app. now left.
  - rewrite (raw_matches nm n); auto. { now apply eqb_eq. } rewrite E. apply in_or_app. right. now left.
Qed.

Lemma is_array_shape (c : node M) : is_array reg c = true <-> array_shaped reg c.
Proof.
  unfold is_array, array_shaped. destruct (n_nodes c) as [|x [|y r]].
  - split; [discriminate|]. intros (z & H & _). discriminate.
  - cbv zeta. rewrite !orb_true_iff, !eqb_eq. split.
    + intros H. exists x. split; auto. cbn. intuition.
    + intros (z & H & Hi). inversion H; subst. cbn in Hi. intuition.
  - split; [discriminate|]. intros (z & H & _). discriminate.
Qed.

Theorem write_read n l : addressable reg flags n l -> raw n -> Forall pseg_ok l ->
  forall ns n', no_char ":" ns -> write ns l value flags n = (n', Ok tt) -> read n' l = value.
Proof.
  intros Had. induction Had as
   [ n | n s rest Hat Hno Hlang Hfr IHfr
   | n s rest c Hat Hc Hs Harr Had IH
   | n s rest c i Hat Hc Hs Hnil Hfr IHfr
   | n s rest c i arr more Hat Hc Hs Hnd Hnm Hold IHold Hnew IHnew
   | n s rest c lg arr more li Hat Hc Hs Hnd Hnm Hin Hli Ha Hu
   | n s rest c lg Hat Hc Hs Hcase Hau ]; intros Hraw Hok ns n' Hns.
  - cbn [NodeFacts.write]. intros H; inversion H; subst. now destruct n.
  - (* new node *)
    inversion Hok as [|? ? Hs1 Hs2]; subst. cbn [NodeFacts.write].
    assert (Hnone : Forall (fun x => matches (ps_name s) x = false) (n_nodes n)).
    { apply Forall_forall. intros x Hx. rewrite (raw_matches (ps_name s) n x Hraw Hx). apply eqb_neq. now apply Hno. }
    rewrite upd_first_none by auto.
    rewrite emptyb_value. cbn [negb]. rewrite !andb_true_r, andb_false_r, orb_false_r.
    destruct (negb (Nat.eqb (List.length (get_attr n "" (ps_name s))) 0) && on flags REPLACE) eqn:Eat.
    { apply andb_true_iff in Eat as [E1 E2]. exfalso. destruct (get_attr_none n (ps_name s) (Hat E2)) as [H|H].
      - rewrite H in E1. discriminate.
      - apply (proj1 (proj1 Hs1)). auto. }
    destruct (on flags CREATE) eqn:Ecr; [|discriminate].
    set (x0 := new_node (new_name (next_ns ns s ++ ":" ++ ps_name s)) : node M).
    destruct (set_child can reg (fun li _ => write (next_ns ns s) rest value flags li) x0 _ _ _ value flags) as [c' e] eqn:E.
    intros H. inversion H; subst. clear H.
    assert (Hns' := next_ns_ok ns s Hns Hs1).
    pose proof (set_child_keeps (fun li _ => write (next_ns ns s) rest value flags li) (render (next_ns ns s) rest)
                 (sel_idx (ps_sel s)) (sel_lang (ps_sel s)) value flags (write_keeps rest (next_ns ns s) value flags) x0) as (K1 & K2 & K3).
    rewrite E in K1, K2, K3. cbn [fst] in K1, K2, K3.
    assert (Hl : node_local c' = ps_name s).
    { unfold node_local. rewrite K1. cbn. apply strip_prefix_qualified. exact Hns'. }
    rewrite (read_cons _ s rest c').
    2:{ unfold find_node, add_node. destruct (set_nodes_keeps n (nl_add (n_nodes n) c')) as (_ & _ & _ & _ & ->).
        rewrite nl_add_append.
        - rewrite find_app, find_all_none by auto. cbn [find]. rewrite matches_none by (rewrite K3; reflexivity).
          now rewrite Hl, eqb_refl.
        - intros x Hx Heq. apply (Hno x Hx). unfold node_local in *. rewrite Heq. exact Hl. }
    assert (Hsub : forall x li' e0, fresh x -> write (next_ns ns s) rest value flags x = (li', Ok e0) -> read li' rest = value).
    { intros x li' e0 Hx Hw. destruct e0. eapply IHfr; eauto. now apply raw_fresh. }
    unfold set_child in E.
    destruct (ps_sel s) as [|i|lg] eqn:Es; cbn [sel_idx sel_lang] in E.
    + cbn [is_array x0 new_node n_nodes] in E. change (-1 <? -1)%Z with false in E. cbn [orb andb negb emptyb] in E.
      cbn [read_sel]. unfold set_simple in E. rewrite path_len_render in E by auto.
      destruct rest as [|s2 rest].
      * cbn [List.length Nat.ltb Nat.leb] in E. rewrite emptyb_value, Hf in E. cbn [andb negb] in E. inversion E. reflexivity.
      * cbn [List.length] in E. replace (Nat.ltb 0 _) with true in E by reflexivity.
        eapply Hsub; [|exact E]. apply fresh_new.
    + destruct (idx_nonneg i) as (_ & I2 & _). rewrite I2 in E. cbn [orb] in E.
      eapply set_array_new in E; eauto.
    + change (-1 <? -1)%Z with false in E. destruct Hs1 as (_ & _ & Hs1). rewrite Es in Hs1.
      rewrite (proj2 (emptyb_false _) (proj1 Hs1)) in E. rewrite andb_false_r in E. cbn [orb negb] in E.
      eapply set_alt_new in E; eauto.
  - (* existing property *)
    inversion Hok as [|? ? Hs1 Hs2]; subst.
    destruct (first_child_split n (ps_name s) c Hraw Hc) as (pre & post & En & Hpre & Hmc).
    assert (Hcin : In c (n_nodes n)) by (rewrite En; apply in_or_app; right; now left).
    cbn [NodeFacts.write]. rewrite emptyb_value. cbn [negb]. rewrite !andb_true_r, andb_false_r, orb_false_r.
    destruct (negb (Nat.eqb (List.length (get_attr n "" (ps_name s))) 0) && on flags REPLACE) eqn:Eat.
    { apply andb_true_iff in Eat as [E1 E2]. exfalso. destruct (get_attr_none n (ps_name s) (Hat E2)) as [H|H].
      - rewrite H in E1. discriminate.
      - apply (proj1 (proj1 Hs1)). auto. }
    assert (Hns' := next_ns_ok ns s Hns Hs1).
    rewrite Hs. cbn [sel_idx sel_lang].
    destruct (set_child can reg (fun li _ => write (next_ns ns s) rest value flags li) c (render (next_ns ns s) rest) (-1)%Z "" value flags) as [c' e] eqn:E.
    rewrite En, (upd_first_split (matches (ps_name s)) _ pre c post (Some c') e) by (auto; now rewrite E).
    intros H; inversion H; subst.
    pose proof (set_child_keeps (fun li _ => write (next_ns ns s) rest value flags li) (render (next_ns ns s) rest)
                 (-1) "" value flags (write_keeps rest (next_ns ns s) value flags) c) as (K1 & K2 & K3).
    rewrite E in K1, K2, K3. cbn [fst] in K1, K2, K3.
    rewrite (read_cons _ s rest c').
    2:{ unfold find_node. destruct (set_nodes_keeps n (pre ++ c' :: post)%list) as (_ & _ & _ & _ & ->).
        apply find_split; auto. unfold NodeM.matches in *. rewrite (node_local_eq _ _ K1), K3. exact Hmc. }
    rewrite Hs. cbn [read_sel]. unfold set_child in E. change (-1 <? -1)%Z with false in E.
    destruct (is_array reg c) eqn:Ea; [now apply is_array_shape in Ea|]. cbn [orb andb negb emptyb] in E.
    unfold set_simple in E. rewrite path_len_render in E by auto.
    destruct rest as [|s2 rest].
    * cbn [List.length Nat.ltb Nat.leb] in E. rewrite emptyb_value, Hf in E. cbn [andb negb] in E. inversion E; subst. now destruct c.
    * cbn [List.length] in E. replace (Nat.ltb 0 _) with true in E by reflexivity.
      eapply IH; [eapply raw_child; eauto|auto| |exact E]; auto.
  - (* item of a property without children *)
    inversion Hok as [|? ? Hs1 Hs2]; subst.
    destruct (first_child_split n (ps_name s) c Hraw Hc) as (pre & post & En & Hpre & Hmc).
    cbn [NodeFacts.write]. rewrite emptyb_value. cbn [negb]. rewrite !andb_true_r, andb_false_r, orb_false_r.
    destruct (negb (Nat.eqb (List.length (get_attr n "" (ps_name s))) 0) && on flags REPLACE) eqn:Eat.
    { apply andb_true_iff in Eat as [E1 E2]. exfalso. destruct (get_attr_none n (ps_name s) (Hat E2)) as [H|H].
      - rewrite H in E1. discriminate.
      - apply (proj1 (proj1 Hs1)). auto. }
    assert (Hns' := next_ns_ok ns s Hns Hs1).
    rewrite Hs. cbn [sel_idx sel_lang].
    destruct (set_child can reg (fun li _ => write (next_ns ns s) rest value flags li) c (render (next_ns ns s) rest) (Z.of_nat i) "" value flags) as [c' e] eqn:E.
    rewrite En, (upd_first_split (matches (ps_name s)) _ pre c post (Some c') e) by (auto; now rewrite E).
    intros H; inversion H; subst.
    pose proof (set_child_keeps (fun li _ => write (next_ns ns s) rest value flags li) (render (next_ns ns s) rest)
                 (Z.of_nat i) "" value flags (write_keeps rest (next_ns ns s) value flags) c) as (K1 & K2 & K3).
    rewrite E in K1, K2, K3. cbn [fst] in K1, K2, K3.
    rewrite (read_cons _ s rest c').
    2:{ unfold find_node. destruct (set_nodes_keeps n (pre ++ c' :: post)%list) as (_ & _ & _ & _ & ->).
        apply find_split; auto. unfold NodeM.matches in *. rewrite (node_local_eq _ _ K1), K3. exact Hmc. }
    rewrite Hs. unfold set_child in E. destruct (idx_nonneg i) as (_ & I2 & _). rewrite I2 in E. cbn [orb] in E.
    eapply set_array_new in E; eauto.
    intros _ x li' e0 Hx Hw. destruct e0. eapply IHfr; eauto. now apply raw_fresh.
  - (* item of an array *)
    inversion Hok as [|? ? Hs1 Hs2]; subst.
    destruct (first_child_split n (ps_name s) c Hraw Hc) as (pre & post & En & Hpre & Hmc).
    assert (Hcin : In c (n_nodes n)) by (rewrite En; apply in_or_app; right; now left).
    cbn [NodeFacts.write]. rewrite emptyb_value. cbn [negb]. rewrite !andb_true_r, andb_false_r, orb_false_r.
    destruct (negb (Nat.eqb (List.length (get_attr n "" (ps_name s))) 0) && on flags REPLACE) eqn:Eat.
    { apply andb_true_iff in Eat as [E1 E2]. exfalso. destruct (get_attr_none n (ps_name s) (Hat E2)) as [H|H].
      - rewrite H in E1. discriminate.
      - apply (proj1 (proj1 Hs1)). auto. }
    assert (Hns' := next_ns_ok ns s Hns Hs1).
    rewrite Hs. cbn [sel_idx sel_lang].
    destruct (set_child can reg (fun li _ => write (next_ns ns s) rest value flags li) c (render (next_ns ns s) rest) (Z.of_nat i) "" value flags) as [c' e] eqn:E.
    rewrite En, (upd_first_split (matches (ps_name s)) _ pre c post (Some c') e) by (auto; now rewrite E).
    intros H; inversion H; subst.
    pose proof (set_child_keeps (fun li _ => write (next_ns ns s) rest value flags li) (render (next_ns ns s) rest)
                 (Z.of_nat i) "" value flags (write_keeps rest (next_ns ns s) value flags) c) as (K1 & K2 & K3).
    rewrite E in K1, K2, K3. cbn [fst] in K1, K2, K3.
    rewrite (read_cons _ s rest c').
    2:{ unfold find_node. destruct (set_nodes_keeps n (pre ++ c' :: post)%list) as (_ & _ & _ & _ & ->).
        apply find_split; auto. unfold NodeM.matches in *. rewrite (node_local_eq _ _ K1), K3. exact Hmc. }
    rewrite Hs. unfold set_child in E. destruct (idx_nonneg i) as (_ & I2 & _). rewrite I2 in E. cbn [orb] in E.
    assert (Hrc : raw c) by (eapply raw_child; eauto).
    assert (Hra : raw arr) by (eapply raw_child; [exact Hrc|rewrite Hnd; now left]).
    eapply set_array_old in E; eauto.
    + intros _ li li' e0 Hli Hw. destruct e0. eapply IHold; eauto. eapply raw_child; [exact Hra|]. eapply nth_error_In; eauto.
    + intros _ Hn0 x li' e0 Hx Hw. destruct e0. eapply IHnew; eauto. now apply raw_fresh.
  - (* existing language *)
    inversion Hok as [|? ? Hs1 Hs2]; subst.
    destruct (first_child_split n (ps_name s) c Hraw Hc) as (pre & post & En & Hpre & Hmc).
    assert (Hcin : In c (n_nodes n)) by (rewrite En; apply in_or_app; right; now left).
    cbn [NodeFacts.write]. rewrite emptyb_value. cbn [negb]. rewrite !andb_true_r, andb_false_r, orb_false_r.
    destruct (negb (Nat.eqb (List.length (get_attr n "" (ps_name s))) 0) && on flags REPLACE) eqn:Eat.
    { apply andb_true_iff in Eat as [E1 E2]. exfalso. destruct (get_attr_none n (ps_name s) (Hat E2)) as [H|H].
      - rewrite H in E1. discriminate.
      - apply (proj1 (proj1 Hs1)). auto. }
    rewrite Hs. cbn [sel_idx sel_lang].
    destruct (set_child can reg (fun li _ => write (next_ns ns s) rest value flags li) c (render (next_ns ns s) rest) (-1)%Z lg value flags) as [c' e] eqn:E.
    rewrite En, (upd_first_split (matches (ps_name s)) _ pre c post (Some c') e) by (auto; now rewrite E).
    intros H; inversion H; subst.
    pose proof (set_child_keeps (fun li _ => write (next_ns ns s) rest value flags li) (render (next_ns ns s) rest)
                 (-1) lg value flags (write_keeps rest (next_ns ns s) value flags) c) as (K1 & K2 & K3).
    rewrite E in K1, K2, K3. cbn [fst] in K1, K2, K3.
    rewrite (read_cons _ s rest c').
    2:{ unfold find_node. destruct (set_nodes_keeps n (pre ++ c' :: post)%list) as (_ & _ & _ & _ & ->).
        apply find_split; auto. unfold NodeM.matches in *. rewrite (node_local_eq _ _ K1), K3. exact Hmc. }
    rewrite Hs. unfold set_child in E. change (-1 <? -1)%Z with false in E.
    destruct Hs1 as (_ & _ & Hs1). rewrite Hs in Hs1. rewrite (proj2 (emptyb_false _) (proj1 Hs1)) in E.
    rewrite andb_false_r in E. cbn [orb negb] in E.
    eapply set_alt_old in E; eauto. { eapply raw_child; eauto. } left. split; eauto.
  - (* new language *)
    inversion Hok as [|? ? Hs1 Hs2]; subst.
    destruct (first_child_split n (ps_name s) c Hraw Hc) as (pre & post & En & Hpre & Hmc).
    assert (Hcin : In c (n_nodes n)) by (rewrite En; apply in_or_app; right; now left).
    cbn [NodeFacts.write]. rewrite emptyb_value. cbn [negb]. rewrite !andb_true_r, andb_false_r, orb_false_r.
    destruct (negb (Nat.eqb (List.length (get_attr n "" (ps_name s))) 0) && on flags REPLACE) eqn:Eat.
    { apply andb_true_iff in Eat as [E1 E2]. exfalso. destruct (get_attr_none n (ps_name s) (Hat E2)) as [H|H].
      - rewrite H in E1. discriminate.
      - apply (proj1 (proj1 Hs1)). auto. }
    rewrite Hs. cbn [sel_idx sel_lang].
    destruct (set_child can reg (fun li _ => write (next_ns ns s) rest value flags li) c (render (next_ns ns s) rest) (-1)%Z lg value flags) as [c' e] eqn:E.
    rewrite En, (upd_first_split (matches (ps_name s)) _ pre c post (Some c') e) by (auto; now rewrite E).
    intros H; inversion H; subst.
    pose proof (set_child_keeps (fun li _ => write (next_ns ns s) rest value flags li) (render (next_ns ns s) rest)
                 (-1) lg value flags (write_keeps rest (next_ns ns s) value flags) c) as (K1 & K2 & K3).
    rewrite E in K1, K2, K3. cbn [fst] in K1, K2, K3.
    rewrite (read_cons _ s rest c').
    2:{ unfold find_node. destruct (set_nodes_keeps n (pre ++ c' :: post)%list) as (_ & _ & _ & _ & ->).
        apply find_split; auto. unfold NodeM.matches in *. rewrite (node_local_eq _ _ K1), K3. exact Hmc. }
    rewrite Hs. unfold set_child in E. change (-1 <? -1)%Z with false in E.
    destruct Hs1 as (_ & _ & Hs1). rewrite Hs in Hs1. rewrite (proj2 (emptyb_false _) (proj1 Hs1)) in E.
    rewrite andb_false_r in E. cbn [orb negb] in E.
    destruct Hcase as [Hnil|(arr & more & Hnd & Hnm & Hno)].
    + eapply set_alt_new in E; eauto.
    + eapply set_alt_old in E; eauto. eapply raw_child; eauto.
Qed.

End Ops.
