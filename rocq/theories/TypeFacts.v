(* Typed values survive marshalling and unmarshalling. *)
From Coq Require Import List Arith ZArith Bool Ascii String Lia.
From Verif Require Import GoStr GoStrFacts GoMap Names Semver RegistryM NodeM ArrayM TypeM SpecType.
Import ListNotations.
Local Open Scope string_scope.

Section F.
Context {X M : Type}.
Notation gval := (gval X).
Notation ty := (ty X).
Notation node := (node M).
Variable ver : version.
Variable reg : registry.
Variables imap emap : gomap namespace.
Notation marshal := (@marshal X M ver).
Notation unmarshal := (@unmarshal X M ver reg imap emap).
Notation translate := (translate reg imap emap).
Notation find_field := (@find_field X ver).
Notation find_field_from := (@find_field_from X ver).
Notation marshal_attrs := (@marshal_attrs X M ver).
Notation present := (@present X ver).
Notation norm := (@norm X ver).
Notation storable := (@storable X ver).
Notation attr_ok := (@attr_ok X ver).
Notation left_out := (@left_out X ver).
Notation wf_ty := (@wf_ty X ver).
Notation li_node := (@li_node M).

(* ---- equations --------------------------------------------------------------------------- *)

Definition marshal_list (t : ty) : list gval -> result (list node) :=
  fix go (l : list gval) : result (list node) :=
  match l with
  | [] => Ok []
  | x :: r => bind (marshal t x li_node) (fun a => bind (go r) (fun b => Ok (a :: b)))
  end.

Definition marshal_items (typ : string) (t : ty) (v : gval) (n : node) : result node :=
  match v with
  | VArr [] _ => Ok n
  | VArr l _ => bind (marshal_list t l) (fun its => Ok (add_node n (array_node typ its)))
  | _ => Panic
  end.

Fixpoint marshal_elems (fs : list (finfo * ty)) (vs : list gval) (n : node) (have : bool) : result node :=
  match fs, vs with
  | [], [] =>
      Ok (if have && negb (xname_eqb (n_name n) rdf_description) then add_attr n rdf_resource_attr else n)
  | (f, t') :: fs', v' :: vs' =>
      if negb (f_attr f) && present f t' v' then
        bind (marshal t' v' (new_node (new_name (f_name f)))) (fun c => marshal_elems fs' vs' (add_node n c) true)
      else marshal_elems fs' vs' n have
  | _, _ => Panic
  end.

Lemma marshal_arr i t v n :
  marshal (TArr i t) v n =
    if ar_xmp i then marshal_items (ar_type i) t v n
    else match ar_text i with Some c => marshal_text c v n | None => marshal_items "Seq" t v n end.
Proof. reflexivity. Qed.

Lemma marshal_struct i fs vs n :
  marshal (TStruct i fs) (VStruct vs) n =
    if s_guard i && is_empty (TStruct i fs) (VStruct vs) then Ok n
    else bind (marshal_attrs fs vs n) (fun n => marshal_elems fs vs n false).
Proof. reflexivity. Qed.

Definition read_attrs (fs : list (finfo * ty)) : list attr -> list gval -> result (list gval) :=
  fix go (l : list attr) (vs : list gval) : result (list gval) :=
  match l with
  | [] => Ok vs
  | a :: r =>
      let nm := translate (a_name a) in
      if skip_field nm then go r vs
      else match find_field fs (x_local nm) with
           | None => Err "xmp: unmarshal model: field for attr not found"
           | Some i =>
               match nth_error fs i, nth_error vs i with
               | Some (_, t'), Some v' =>
                   bind (unmarshal_attr t' true v' (a_value a)) (fun w => go r (set_nth i w vs))
               | _, _ => Panic
               end
           end
  end.

Definition read_kids (t : ty) (fs : list (finfo * ty)) : list node -> gval -> result gval :=
  fix go (l : list node) (v : gval) : result gval :=
  match l with
  | [] => Ok v
  | c :: r =>
      let nm := translate (n_name c) in
      if name_full reg nm =? "rdf:Description" then
        bind (unmarshal c t false v) (fun v => go r v)
      else if skip_field nm then go r v
      else match find_field fs (name_full reg nm) with
           | None => Err "xmp: unmarshal model: struct field not found"
           | Some i =>
               match v with
               | VStruct vs =>
                   match nth_error fs i, nth_error vs i with
                   | Some (_, t'), Some v' =>
                       bind (unmarshal c t' true v') (fun w => go r (VStruct (set_nth i w vs)))
                   | _, _ => Panic
                   end
               | _ => Panic
               end
           end
  end.

Definition read_items (t : ty) : list node -> gval -> result gval :=
  fix go (l : list node) (v : gval) : result gval :=
  match l with
  | [] => Ok v
  | li :: r =>
      if full_name reg li =? "rdf:li" then
        bind (unmarshal li t false (zero t)) (fun w => go r (arr_append v w))
      else Err "xmp: invalid array element type"
  end.

Lemma unmarshal_struct n i fs fin vs :
  unmarshal n (TStruct i fs) fin (VStruct vs) =
    bind (read_attrs fs (n_attrs n) vs) (fun vs => read_kids (TStruct i fs) fs (n_nodes n) (VStruct vs)).
Proof. destruct n. reflexivity. Qed.

Lemma unmarshal_ptr n t fin v :
  unmarshal n (TPtr t) fin v =
    bind (unmarshal n t fin (match v with VPtr w => w | _ => zero t end)) (fun w => Ok (VPtr w)).
Proof. destruct n. reflexivity. Qed.

Lemma unmarshal_text n c fin v : unmarshal n (TText c) fin v = c_dec c v (n_value n).
Proof. destruct n. reflexivity. Qed.

Definition simple_ty (t : ty) : bool :=
  match t with TStr | TBytes | TBool | TInt _ | TUint _ => true | _ => false end.
Lemma unmarshal_simple n t fin v : simple_ty t = true ->
  unmarshal n t fin v = wrap_err fin (set_simple_value t v (n_value n)).
Proof. destruct n, t; try discriminate; reflexivity. Qed.

Lemma unmarshal_alt n m fin l :
  unmarshal n (TAlt m) fin (VAlt l) =
    bind (array_child n) (fun arr =>
    bind (alt_items reg (n_nodes arr) l) (fun l' => Ok (VAlt (if m then alt_merge l' else l')))).
Proof. destruct n. reflexivity. Qed.

Lemma unmarshal_arr n i t fin v :
  unmarshal n (TArr i t) fin v =
    if ar_xmp i then bind (array_child n) (fun arr => read_items t (n_nodes arr) v)
    else match ar_text i with
         | Some c => c_dec c v (n_value n)
         | None => wrap_err fin (set_simple_value (TArr i t) v (n_value n))
         end.
Proof.
  destruct n as [x a m val kids]. cbn [TypeM.unmarshal]. destruct (ar_xmp i); [|reflexivity].
  unfold array_child. cbn [n_nodes]. destruct kids as [|[ax aa am av items] [|]]; try reflexivity.
  unfold node_local. cbn [n_name].
  destruct ((strip_prefix (x_local ax) =? "Seq") || (strip_prefix (x_local ax) =? "Bag")
            || (strip_prefix (x_local ax) =? "Alt")); reflexivity.
Qed.

(* ---- agreement of the specification with the tests of the encoder ------------------------------- *)

Lemma own_zero_eq (t : ty) : own_zero t = has_is_zero t.
Proof. destruct t; try reflexivity. Qed.

Lemma blank_eq (t : ty) : forall v, blank_value t v = is_empty t v.
Proof.
  induction t as [| | | bi | bu | c | m | i t IH | t IH | i fs _] using ty_nested_ind; intros v;
    destruct v as [s|b|z|x|l|l sp| |w|vs]; try reflexivity;
    try (destruct s; reflexivity); try (destruct b; reflexivity); try (destruct z; reflexivity);
    try (destruct l; reflexivity).
  cbn [blank_value is_empty]. now rewrite IH, own_zero_eq.
Qed.

Lemma left_out_eq f t v : left_out f t v = negb (present f t v).
Proof.
  unfold SpecType.left_out, TypeM.present, in_version, active. rewrite blank_eq.
  destruct (f_omit f), (version_between ver (f_min f) (f_max f)), v, (f_empty f), (is_empty t _); reflexivity.
Qed.

(* ---- small facts ------------------------------------------------------------------------------ *)

Lemma nl_add_new (l : list node) c :
  (forall v, In v l -> x_local (n_name v) <> x_local (n_name c)) -> nl_add l c = (l ++ [c])%list.
Proof.
  induction l as [|v l IH]; intros H; [reflexivity|]. cbn [nl_add List.app].
  destruct (String.eqb_spec (x_local (n_name v)) (x_local (n_name c))) as [E|E].
  - exfalso. now apply (H v (or_introl eq_refl)).
  - now rewrite IH by (intros w Hw; apply H; now right).
Qed.

Lemma al_add_new l a :
  (forall v, In v l -> x_local (a_name v) <> x_local (a_name a)) -> al_add l a = (l ++ [a])%list.
Proof.
  induction l as [|v l IH]; intros H; [reflexivity|]. cbn [al_add List.app].
  destruct (String.eqb_spec (x_local (a_name v)) (x_local (a_name a))) as [E|E].
  - exfalso. now apply (H v (or_introl eq_refl)).
  - now rewrite IH by (intros w Hw; apply H; now right).
Qed.

Lemma set_nth_mid pre (v w : gval) post : set_nth (List.length pre) w (pre ++ v :: post)%list = (pre ++ w :: post)%list.
Proof. induction pre as [|x pre IH]; [reflexivity|]. cbn [List.length List.app set_nth]. now rewrite IH. Qed.

Lemma nth_error_mid {A} pre (v : A) post : nth_error (pre ++ v :: post)%list (List.length pre) = Some v.
Proof. rewrite nth_error_app2, Nat.sub_diag by lia. reflexivity. Qed.

Lemma marshal_name t v n : forall n', marshal t v n = Ok n' -> n_name n' = n_name n.
Proof.
  revert v n. induction t as [| | | bi | bu | c | m | i t IH | t IH | i fs IH] using ty_nested_ind; intros v n n' H;
    try (destruct v; try discriminate H; injection H as <-; destruct n; reflexivity).
  - cbn in H. unfold marshal_text in H. destruct (c_enc c v) as [[s|]|e|]; try discriminate H;
      injection H as <-; destruct n; reflexivity.
  - destruct v; try discriminate H. cbn in H. destruct l as [|a l]; [now injection H as <-|].
    unfold marshal_alt in H. destruct (alt_nodes _ _) as [its|e|]; try discriminate H.
    injection H as <-. destruct n; reflexivity.
  - assert (L : forall typ, marshal_items typ t v n = Ok n' -> n_name n' = n_name n).
    { intros typ. unfold marshal_items. destruct v as [| | | | |l sp| | |]; try discriminate.
      destruct l as [|a l]; [intros E; now injection E as <-|].
      destruct (marshal_list t (a :: l)) as [its|e|]; try discriminate. cbn [bind].
      intros E; injection E as <-. destruct n; reflexivity. }
    rewrite marshal_arr in H. destruct (ar_xmp i); [eauto|]. destruct (ar_text i) as [c|]; [|eauto].
    unfold marshal_text in H. destruct (c_enc c v) as [[s|]|e|]; try discriminate H; injection H as <-; destruct n; reflexivity.
  - destruct v; try discriminate H; cbn in H; [now injection H as <-|]. eauto.
  - destruct v; try discriminate H. rewrite marshal_struct in H.
    destruct (s_guard i && is_empty _ _); [now injection H as <-|].
    destruct (marshal_attrs fs vs n) as [n1|e|] eqn:EA; try discriminate H. cbn [bind] in H.
    assert (A : forall fs vs n n1, marshal_attrs fs vs n = Ok n1 -> n_name n1 = n_name n).
    { clear. induction fs as [|[f t] fs IH]; intros [|v vs] n n1 H; try discriminate H; [now injection H as <-|].
      cbn [TypeM.marshal_attrs] in H. destruct (f_attr f && present f t v); [|eauto].
      destruct (attr_text t v) as [[s|]|e|]; try discriminate H; cbn [bind] in H; [|eauto].
      apply IH in H. rewrite H. destruct n; reflexivity. }
    apply A in EA. rewrite <- EA.
    assert (B : forall fs vs n h n1, marshal_elems fs vs n h = Ok n1 -> n_name n1 = n_name n).
    { clear. induction fs as [|[f t] fs IH]; intros [|v vs] n h n1 H; try discriminate H.
      - cbn [marshal_elems] in H. injection H as <-. destruct (_ && _); destruct n; reflexivity.
      - cbn [marshal_elems] in H. destruct (negb (f_attr f) && present f t v); [|eauto].
        destruct (marshal t v _) as [c|e|]; try discriminate H. cbn [bind] in H. apply IH in H. rewrite H. destruct n; reflexivity. }
    eauto.
Qed.

(* ---- field lookup --------------------------------------------------------------------------------- *)

Lemma find_field_mid fpre f t fs :
  NoDup (map f_name (filter (in_version ver) (map fst (fpre ++ (f, t) :: fs)%list))) ->
  active ver f = true ->
  find_field (fpre ++ (f, t) :: fs)%list (f_name f) = Some (List.length fpre).
Proof.
  intros ND Ha. unfold TypeM.find_field.
  assert (G : forall fpre k any,
    (forall g, In g (map fst fpre) -> active ver g = true -> f_name g <> f_name f) ->
    find_field_from k any (fpre ++ (f, t) :: fs)%list (f_name f) = Some (k + List.length fpre)).
  { clear ND fpre. induction fpre as [|[g tg] fpre IH]; intros k any H; cbn [TypeM.find_field_from List.app List.length].
    - rewrite Ha. cbn [negb]. rewrite String.eqb_refl. f_equal. lia.
    - destruct (active ver g) eqn:Eg; cbn [negb].
      + destruct (String.eqb_spec (f_name g) (f_name f)) as [E|E].
        * exfalso. apply (H g); auto. now left.
        * rewrite IH; [f_equal; lia|]. intros x Hx. apply H. now right.
      + rewrite IH; [f_equal; lia|]. intros x Hx. apply H. now right. }
  rewrite G; [reflexivity|]. intros g Hg Hag E.
  rewrite map_app, filter_app, map_app in ND. cbn [map filter fst] in ND.
  change (in_version ver f) with (active ver f) in ND. rewrite Ha in ND. cbn [map] in ND.
  apply NoDup_remove_2 in ND. apply ND. apply in_or_app. left. rewrite <- E. apply in_map.
  apply filter_In. split; auto.
Qed.

Lemma not_reserved f : ~ In (f_name f) reserved ->
  f_name f <> "rdf:parseType" /\ f_name f <> "rdf:Description" /\ skip_field (new_name (f_name f)) = false.
Proof.
  intros H. unfold reserved in H. repeat split; try (intros E; apply H; rewrite E; cbn; tauto).
  unfold skip_field, new_name. cbn [x_space x_local].
  destruct (String.eqb_spec (f_name f) "rdf:parseType"); [exfalso; apply H; cbn; auto|].
  destruct (String.eqb_spec (f_name f) "rdf:type"); [exfalso; apply H; cbn; auto|].
  destruct (String.eqb_spec (f_name f) "xml:lang"); [exfalso; apply H; cbn; auto|]. reflexivity.
Qed.

Lemma translate_new s : translate (new_name s) = new_name s.
Proof. reflexivity. Qed.

(* ---- simple values ----------------------------------------------------------------------------- *)

Lemma itoa_nat z : (0 <= z)%Z -> itoa z = utoa (Z.to_N z).
Proof. intros H. rewrite itoa_utoa. destruct (Z.ltb_spec z 0); [lia|]. destruct z; try lia; reflexivity. Qed.

Lemma simple_rt t v : simple_ty t = true -> storable t v ->
  exists s, simple_text t v = Ok s /\ set_simple_value t (zero t) s = Ok (norm t v).
Proof.
  destruct t; try discriminate; intros _ H; destruct v as [s|b|z| | | | | |]; try contradiction; cbn in H.
  - eexists. split; reflexivity.
  - eexists. split; reflexivity.
  - exists (format_bool b). split; [reflexivity|]. destruct b; reflexivity.
  - exists (itoa z). split; [reflexivity|]. cbn [set_simple_value]. now rewrite parse_int_itoa by tauto.
  - exists (itoa z). split; [reflexivity|]. cbn [set_simple_value].
    rewrite itoa_nat, parse_uint_utoa by (rewrite ?Z2N.id; lia). rewrite Z2N.id by lia. reflexivity.
Qed.

Lemma attr_rt t v fin : attr_ok t v -> exists s, attr_text t v = Ok (Some s) /\
  unmarshal_attr t fin (zero t) s = Ok (norm t v).
Proof.
  revert v. induction t as [| | | bi | bu | c | m | i t IH | t IH | i fs IH] using ty_nested_ind; intros v H;
    try (destruct v; try contradiction;
         match goal with |- context [attr_text ?t ?v] =>
           destruct (simple_rt t v eq_refl H) as (s' & E1 & E2); exists s'; cbn [attr_text];
             rewrite E1; split; [reflexivity|exact E2] end).
  - assert (H' : text_back c (c_zero c) v v None) by (destruct v; exact H).
    unfold text_back in H'. cbn [attr_text unmarshal_attr zero].
    destruct (c_enc c v) as [[s|]|e|]; try contradiction. exists s. split; [reflexivity|].
    rewrite H'. destruct v; reflexivity.
  - destruct v; try contradiction. cbn [SpecType.attr_ok] in H. destruct (ar_text i) as [c|] eqn:Ec; [|contradiction].
    unfold text_back in H. cbn [attr_text unmarshal_attr]. rewrite Ec.
    destruct (c_enc c _) as [[s|]|e|]; try contradiction. exists s. split; [reflexivity|]. exact H.
  - destruct v; try contradiction. cbn [SpecType.attr_ok] in H. destruct (IH _ H) as (s & E1 & E2).
    exists s. split; [exact E1|]. cbn [unmarshal_attr zero]. rewrite E2. reflexivity.
Qed.

(* ---- alternatives ------------------------------------------------------------------------------- *)

Definition li_of (lang value : string) : node := set_value (add_string_attr li_node "xml:lang" lang) value.

Lemma alt_of_li_of lang value : alt_of_li (li_of lang value) =
  if lang =? "x-default" then AltItem (trim_space value) "" true else AltItem (trim_space value) lang false.
Proof.
  unfold li_of, add_string_attr, add_attr. cbn. unfold alt_of_li. cbn [n_value].
  unfold get_attr, al_get. cbn. destruct (lang =? "x-default"); reflexivity.
Qed.

(* the items read for one item written *)
Definition expanded (x : alt_item) : list alt_item :=
  if ai_default x then
    AltItem (trim_space (ai_value x)) "" true
      :: (if emptyb (ai_lang x) then [] else [AltItem (trim_space (ai_value x)) (ai_lang x) false])
  else [trim_item x].

Lemma alt_items_app (a b : list node) acc :
  (forall li, In li a -> full_name reg li = "rdf:li") ->
  alt_items reg (a ++ b)%list acc = alt_items reg b (acc ++ map alt_of_li a)%list.
Proof.
  revert acc. induction a as [|li a IH]; intros acc H; cbn [List.app map]; [now rewrite List.app_nil_r|].
  cbn [alt_items]. rewrite (H li (or_introl eq_refl)). cbn [String.eqb]. cbn. rewrite IH by (intros; apply H; now right).
  now rewrite <- List.app_assoc.
Qed.

Definition writable_item (single : bool) (x : alt_item) : Prop :=
  ai_lang x <> "x-default" /\ (ai_default x = true \/ ai_lang x <> "").

Lemma alt_nodes_ok single l : Forall (writable_item single) l ->
  exists ns, alt_nodes (M:=M) single l = Ok ns /\ (l <> [] -> ns <> []) /\
    forall acc, alt_items reg ns acc = Ok (acc ++ flat_map expanded l)%list.
Proof.
  induction l as [|x l IH]; intros H.
  - exists []. repeat split; auto. intros acc. cbn. now rewrite List.app_nil_r.
  - apply Forall_cons_iff in H. destruct H as [[Hx Hl] H]. destruct (IH H) as (ns & E & _ & R).
    assert (A : exists a, alt_item_nodes (M:=M) single x = Ok a /\ a <> [] /\
              (forall li, In li a -> full_name reg li = "rdf:li") /\ map alt_of_li a = expanded x).
    { unfold alt_item_nodes, expanded. destruct (ai_default x) eqn:Ed; cbn [orb].
      - destruct (ai_lang x) as [|c s] eqn:El; cbn [emptyb].
        + eexists. split; [reflexivity|]. split; [discriminate|]. split; [intros li [<-|[]]; reflexivity|].
          cbn [map]. fold (li_of "x-default" (ai_value x)). rewrite alt_of_li_of. reflexivity.
        + eexists. split; [reflexivity|]. split; [discriminate|].
          split; [intros li [<-|[<-|[]]]; reflexivity|].
          cbn [map]. fold (li_of "x-default" (ai_value x)). fold (li_of (String c s) (ai_value x)).
          rewrite !alt_of_li_of. rewrite (proj2 (String.eqb_neq (String c s) "x-default") Hx). reflexivity.
      - destruct Hl as [Hl|Hl]; [discriminate|].
        destruct (ai_lang x) as [|c s] eqn:El; [now elim Hl|]. cbn [emptyb].
        exists [li_of (String c s) (ai_value x)]. split; [destruct single; reflexivity|]. split; [discriminate|].
        split; [intros li [<-|[]]; reflexivity|].
        cbn [map]. rewrite alt_of_li_of. rewrite (proj2 (String.eqb_neq (String c s) "x-default") Hx).
        unfold trim_item. now rewrite El, Ed. }
    destruct A as (a & Ea & Na & Fa & Ma). exists (a ++ ns)%list. cbn [alt_nodes]. rewrite Ea, E. cbn [bind].
    split; [reflexivity|]. split.
    + intros _. destruct a; [now elim Na|discriminate].
    + intros acc. rewrite alt_items_app by exact Fa. rewrite R, Ma. cbn [flat_map]. now rewrite <- List.app_assoc.
Qed.

Lemma index_alt_app t l1 l2 i : (forall j x, nth_error l1 j = Some x -> t (i + j) x = false) ->
  index_alt t i (l1 ++ l2)%list = index_alt t (i + List.length l1) l2.
Proof.
  revert i. induction l1 as [|x l1 IH]; intros i H; cbn [List.app List.length]; [now rewrite Nat.add_0_r|].
  cbn [index_alt]. specialize (H 0 x eq_refl) as H0. rewrite Nat.add_0_r in H0. rewrite H0.
  rewrite IH; [f_equal; lia|]. intros j y Hj. specialize (H (S j) y Hj). rewrite <- H. f_equal. lia.
Qed.

Lemma index_alt_none t l i : (forall j x, nth_error l j = Some x -> t (i + j) x = false) -> index_alt t i l = None.
Proof.
  intros H. rewrite <- (List.app_nil_r l) at 1. rewrite index_alt_app by exact H. reflexivity.
Qed.

Lemma flat_lang l : Forall lang_item l -> flat_map expanded l = map trim_item l.
Proof.
  induction l as [|x l IH]; intros H; [reflexivity|]. apply Forall_cons_iff in H. destruct H as [[Hd _] H].
  cbn [flat_map map]. rewrite IH by auto. unfold expanded. rewrite Hd. reflexivity.
Qed.

Lemma in_trim_nth l j x : Forall lang_item l -> nth_error (map trim_item l) j = Some x ->
  ai_default x = false /\ exists y, In y l /\ ai_value x = trim_space (ai_value y).
Proof.
  intros H E. rewrite nth_error_map in E. destruct (nth_error l j) as [y|] eqn:Ey; [|discriminate].
  injection E as <-. apply nth_error_In in Ey. rewrite Forall_forall in H. destruct (H y Ey) as [Hd _].
  split; [exact Hd|]. exists y. split; [exact Ey|reflexivity].
Qed.

Lemma alt_ok_merge m l : alt_ok m l ->
  (if m then alt_merge (flat_map expanded l) else flat_map expanded l) = map trim_item l.
Proof.
  intros [Hn [H|(pre & d & post & -> & Hd & Hpre & Hpost & Hc)]].
  - rewrite flat_lang by auto. destruct m; [|reflexivity]. unfold alt_merge.
    rewrite index_alt_none; [reflexivity|]. intros j x Hj. now apply in_trim_nth in Hj.
  - rewrite flat_map_app, map_app. cbn [flat_map map]. rewrite !flat_lang by auto.
    set (P := map trim_item pre). set (Q := map trim_item post). set (k := List.length P).
    assert (Idx : forall i, expanded d = AltItem (trim_space (ai_value d)) "" true :: i ->
              index_alt (fun _ x => ai_default x) 0 (P ++ (expanded d ++ Q))%list = Some k).
    { intros i Ei. rewrite index_alt_app; [rewrite Ei; reflexivity|].
      intros j x Hj. unfold P in Hj. now apply in_trim_nth in Hj. }
    unfold expanded in *. rewrite Hd in *.
    destruct Hc as [[Hl Hv]|(Hl & Hx & -> & Hv)].
    + rewrite Hl in *. cbn [emptyb List.app] in *. assert (T : trim_item d = AltItem (trim_space (ai_value d)) "" true)
        by (unfold trim_item; now rewrite Hd, Hl).
      rewrite T. destruct m; [|reflexivity]. unfold alt_merge. rewrite (Idx [] eq_refl).
      unfold k. rewrite nth_error_mid. fold k. cbn [ai_value].
      rewrite index_alt_none; [reflexivity|]. intros j x Hj. cbn [Nat.add]. destruct (Nat.eqb_spec k j) as [E|E]; [reflexivity|].
      cbn [negb andb]. apply String.eqb_neq. intros Eq.
      assert (In x (map trim_item (pre ++ post)%list)) as I.
      { rewrite map_app. fold P Q. apply in_or_app. destruct (Nat.lt_ge_cases j k) as [L|G].
        - left. rewrite nth_error_app1 in Hj by exact L. now apply nth_error_In in Hj.
        - right. rewrite nth_error_app2 in Hj by exact G. fold k in Hj. replace (j - k) with (S (j - k - 1)) in Hj by lia.
          cbn [nth_error] in Hj. now apply nth_error_In in Hj. }
      apply in_map_iff in I. destruct I as (y & Ey & Iy). apply (Hv eq_refl y Iy). subst x. cbn in Eq. now symmetry.
    + destruct (ai_lang d) as [|c s] eqn:El; [now elim Hl|]. cbn [emptyb List.app] in *.
      unfold alt_merge. rewrite (Idx _ eq_refl). unfold k. rewrite nth_error_mid. fold k. cbn [ai_value ai_default].
      set (L := AltItem (trim_space (ai_value d)) "" true).
      set (N := AltItem (trim_space (ai_value d)) (String c s) false).
      assert (IX : index_alt (fun j x => negb (Nat.eqb k j) && (trim_space (ai_value d) =? ai_value x)) 0 (P ++ L :: N :: Q)%list = Some (S k)).
      { rewrite index_alt_app.
        - fold k. cbn [Nat.add index_alt]. rewrite Nat.eqb_refl. cbn [negb andb].
          replace (Nat.eqb k (S k)) with false by (symmetry; apply Nat.eqb_neq; lia). cbn [negb andb]. unfold N. cbn [ai_value].
          now rewrite String.eqb_refl.
        - intros j x Hj. destruct (in_trim_nth pre j x Hpre Hj) as (_ & y & Iy & Ey).
          rewrite Ey. apply andb_false_intro2. apply String.eqb_neq. intros E. apply (Hv y Iy). now symmetry. }
      rewrite IX. assert (NE : nth_error (P ++ L :: N :: Q)%list (S k) = Some N).
      { rewrite nth_error_app2 by (fold k; lia). fold k. replace (S k - k) with 1 by lia. reflexivity. }
      rewrite NE. change (ai_lang N) with (String c s).
      assert (F1 : firstn k (P ++ L :: N :: Q)%list = P).
      { rewrite firstn_app. fold k. rewrite Nat.sub_diag. unfold k. rewrite firstn_all. cbn. apply List.app_nil_r. }
      assert (F2 : skipn (S k) (P ++ L :: N :: Q)%list = N :: Q).
      { rewrite skipn_app. fold k. rewrite (skipn_all2 P) by (fold k; lia). replace (S k - k) with 1 by lia. reflexivity. }
      rewrite F1, F2. set (D := AltItem (trim_space (ai_value d)) (String c s) true).
      assert (G1 : firstn (S k) (P ++ D :: N :: Q)%list = (P ++ [D])%list).
      { rewrite firstn_app. fold k. rewrite (firstn_all2 P) by (fold k; lia). replace (S k - k) with 1 by lia. reflexivity. }
      assert (G2 : skipn (S (S k)) (P ++ D :: N :: Q)%list = Q).
      { rewrite skipn_app. fold k. rewrite (skipn_all2 P) by (fold k; lia). replace (S (S k) - k) with 2 by lia. reflexivity. }
      rewrite G1, G2. rewrite <- List.app_assoc. cbn [List.app].
      assert (T : trim_item d = D) by (unfold trim_item, D; now rewrite Hd, El). now rewrite T.
Qed.

Lemma alt_ok_writable m l single : alt_ok m l -> Forall (writable_item single) l.
Proof.
  intros [_ [H|(pre & d & post & -> & Hd & Hpre & Hpost & Hc)]].
  - eapply Forall_impl; [|exact H]. intros x (Hd & Hl & Hx). split; auto.
  - assert (A : forall l, Forall lang_item l -> Forall (writable_item single) l).
    { intros l H. eapply Forall_impl; [|exact H]. intros x (_ & Hl & Hx). split; auto. }
    apply Forall_app. split; [auto|]. constructor; [|auto]. split; [|now left].
    destruct Hc as [[Hl _]|(_ & Hx & _)]; [rewrite Hl; discriminate|exact Hx].
Qed.

Lemma nodes_set (n : node) l : n_nodes (set_nodes n l) = l.
Proof. destruct n; reflexivity. Qed.

Lemma array_child_ok x typ its : In typ ["Seq"; "Bag"; "Alt"] ->
  array_child (add_node (new_node x) (array_node typ its)) = Ok (@array_node M typ its).
Proof. intros H. cbn in H. destruct H as [<-|[<-|[<-|[]]]]; reflexivity. Qed.

Theorem alt_rt m l x fin : alt_ok m l ->
  exists n, marshal (TAlt m) (VAlt l) (new_node x) = Ok n /\
            unmarshal n (TAlt m) fin (VAlt []) = Ok (VAlt (map trim_item l)).
Proof.
  intros H. pose proof (alt_ok_writable m l (Nat.eqb (List.length l) 1) H) as W.
  destruct (alt_nodes_ok _ l W) as (ns & E & Nn & R).
  cbn [TypeM.marshal]. unfold marshal_alt. destruct l as [|a l]; [exfalso; apply (proj1 H); reflexivity|].
  rewrite E. cbn [bind]. eexists. split; [reflexivity|].
  rewrite unmarshal_alt, array_child_ok by (cbn; auto). cbn [bind].
  unfold array_node. rewrite nodes_set, R. cbn [bind List.app].
  f_equal. f_equal. exact (alt_ok_merge m (a :: l) H).
Qed.

(* ---- structs -------------------------------------------------------------------------------------- *)

(* attributes and children written for the fields *)
Fixpoint attrs_of (fs : list (finfo * ty)) (vs : list gval) : list attr :=
  match fs, vs with
  | (f, t) :: fs', v :: vs' =>
      if f_attr f && present f t v then
        match attr_text t v with
        | Ok (Some s) => Attr (new_name (f_name f)) s :: attrs_of fs' vs'
        | _ => attrs_of fs' vs'
        end
      else attrs_of fs' vs'
  | _, _ => []
  end.

Fixpoint after_attrs (fs : list (finfo * ty)) (vs : list gval) : list gval :=
  match fs, vs with
  | (f, t) :: fs', v :: vs' =>
      (if f_attr f && present f t v then norm t v else zero t) :: after_attrs fs' vs'
  | _, _ => []
  end.

Fixpoint norm_fields (fs : list (finfo * ty)) (vs : list gval) : list gval :=
  match fs, vs with
  | (f, t) :: fs', v :: vs' => (if left_out f t v then zero t else norm t v) :: norm_fields fs' vs'
  | _, _ => []
  end.

Fixpoint fields_ok (fs : list (finfo * ty)) (vs : list gval) : Prop :=
  match fs, vs with
  | [], [] => True
  | (f, t) :: fs', v :: vs' =>
      (left_out f t v = false -> if f_attr f then attr_ok t v else storable t v) /\ fields_ok fs' vs'
  | _, _ => False
  end.

Lemma norm_struct i fs vs : norm (TStruct i fs) (VStruct vs) =
  if s_guard i && blank_value (TStruct i fs) (VStruct vs) then zero (TStruct i fs) else VStruct (norm_fields fs vs).
Proof. reflexivity. Qed.

Lemma storable_struct i fs vs : storable (TStruct i fs) (VStruct vs) = fields_ok fs vs.
Proof. reflexivity. Qed.

Lemma wf_struct i fs : wf_ty (TStruct i fs) <->
  NoDup (map f_name (filter (in_version ver) (map fst fs))) /\
  (forall f, In f (map fst fs) -> ~ In (f_name f) reserved) /\ Forall (fun f => wf_ty (snd f)) fs.
Proof.
  cbn [SpecType.wf_ty].
  assert (E : ((fix all (l : list (finfo * ty)) : Prop := match l with [] => True | f :: r => wf_ty (snd f) /\ all r end) fs)
              <-> Forall (fun f => wf_ty (snd f)) fs).
  { induction fs as [|f fs IH]; [split; constructor|]. rewrite Forall_cons_iff, <- IH. reflexivity. }
  now rewrite <- E.
Qed.

Lemma storable_items i t l sp : storable (TArr i t) (VArr l sp) <->
  if ar_xmp i then l <> [] /\ Forall (storable t) l
  else match ar_text i with
       | Some c => text_back c (VArr [] []) (VArr l sp) (norm (TArr i t) (VArr l sp)) (Some "")
       | None => False
       end.
Proof.
  cbn [SpecType.storable]. destruct (ar_xmp i); [|tauto].
  assert (E : ((fix all (l : list gval) : Prop := match l with [] => True | x :: r => storable t x /\ all r end) l)
              <-> Forall (storable t) l).
  { induction l as [|x l IH]; [split; constructor|]. rewrite Forall_cons_iff, <- IH. reflexivity. }
  now rewrite <- E.
Qed.

Lemma attr_name_new l (a : attr) (n : node) :
  (forall v, In v l -> x_local (a_name v) <> x_local (a_name a)) ->
  n_attrs n = l -> add_attr n a = set_attrs n (l ++ [a])%list.
Proof. intros H <-. unfold add_attr. now rewrite al_add_new. Qed.

Lemma attrs_of_names fs vs a : In a (attrs_of fs vs) -> exists f, In f (map fst fs) /\ active ver f = true /\ a_name a = new_name (f_name f).
Proof.
  revert vs. induction fs as [|[f t] fs IH]; intros [|v vs] H; try contradiction.
  cbn [attrs_of] in H. destruct (f_attr f && present f t v) eqn:E.
  - destruct (attr_text t v) as [[s|]|e|].
    + destruct H as [<-|H]; [|destruct (IH _ H) as (g & I & A); exists g; split; [now right|exact A]].
      exists f. split; [now left|]. split; [|reflexivity].
      unfold TypeM.present in E. now destruct (f_attr f), (f_omit f), (active ver f).
    + destruct (IH _ H) as (g & I & A); exists g; split; [now right|exact A].
    + destruct (IH _ H) as (g & I & A); exists g; split; [now right|exact A].
    + destruct (IH _ H) as (g & I & A); exists g; split; [now right|exact A].
  - destruct (IH _ H) as (g & I & A); exists g; split; [now right|exact A].
Qed.

Lemma set_attrs_twice (n : node) a b : set_attrs (set_attrs n a) b = set_attrs n b.
Proof. destruct n; reflexivity. Qed.
Lemma attrs_set (n : node) a : n_attrs (set_attrs n a) = a.
Proof. destruct n; reflexivity. Qed.
Lemma set_attrs_id (n : node) : set_attrs n (n_attrs n) = n.
Proof. destruct n; reflexivity. Qed.

Lemma active_present f t v : present f t v = true -> active ver f = true.
Proof. unfold TypeM.present. destruct (f_omit f), (active ver f); auto. Qed.

(* fields with different names: the head name occurs nowhere else *)
Lemma names_head f (t : ty) (fs : list (finfo * ty)) :
  NoDup (map f_name (filter (in_version ver) (map fst ((f, t) :: fs)))) ->
  NoDup (map f_name (filter (in_version ver) (map fst fs))) /\
  (active ver f = true -> forall g, In g (map fst fs) -> active ver g = true -> f_name g <> f_name f).
Proof.
  cbn [map filter fst]. change (in_version ver f) with (active ver f). destruct (active ver f); intros H.
  - cbn [map] in H. inversion H; subst. split; auto. intros _ g Hg Ha E. apply H2. rewrite <- E.
    apply in_map, filter_In. auto.
  - split; auto. discriminate.
Qed.

Lemma marshal_attrs_ok fs vs n :
  NoDup (map f_name (filter (in_version ver) (map fst fs))) ->
  fields_ok fs vs ->
  (forall a f, In a (n_attrs n) -> In f (map fst fs) -> active ver f = true -> x_local (a_name a) <> f_name f) ->
  marshal_attrs fs vs n = Ok (set_attrs n (n_attrs n ++ attrs_of fs vs)%list).
Proof.
  revert vs n. induction fs as [|[f t] fs IH]; intros [|v vs] n ND H D; try contradiction.
  - cbn. rewrite List.app_nil_r. now rewrite set_attrs_id.
  - destruct (names_head f t fs ND) as [ND' Hd]. destruct H as [Hf H]. cbn [TypeM.marshal_attrs attrs_of].
    destruct (f_attr f && present f t v) eqn:E.
    + apply andb_true_iff in E. destruct E as [Ea Ep]. rewrite left_out_eq, Ep, Ea in Hf.
      destruct (attr_rt t v true (Hf eq_refl)) as (s & E1 & _). rewrite E1. cbn [bind].
      rewrite (attr_name_new (n_attrs n));
        [|intros w Hw; cbn; apply (D w f Hw); [now left|now apply (active_present f t v)]|reflexivity].
      rewrite IH; auto.
      * rewrite attrs_set, set_attrs_twice, <- List.app_assoc. reflexivity.
      * intros a g Ha Hg Hag. rewrite attrs_set in Ha. apply in_app_or in Ha. destruct Ha as [Ha|[<-|[]]].
        -- apply (D a g Ha); auto. now right.
        -- cbn. intros Eq. apply (Hd (active_present f t v Ep) g Hg Hag). now symmetry.
    + rewrite IH; auto. intros a g Ha Hg Hag. apply (D a g Ha); auto. now right.
Qed.

Definition finish (h : bool) (n : node) : node :=
  if h && negb (xname_eqb (n_name n) rdf_description) then add_attr n rdf_resource_attr else n.

(* what is to be shown of a type *)
Definition survives (t : ty) : Prop := forall v x, wf_ty t -> storable t v ->
  exists n, marshal t v (new_node x) = Ok n /\ forall fin, unmarshal n t fin (zero t) = Ok (norm t v).

Definition zeros (fs : list (finfo * ty)) : list gval := map (fun f => zero (snd f)) fs.

Lemma fields_length fs vs : fields_ok fs vs -> List.length fs = List.length vs.
Proof.
  revert vs. induction fs as [|[f t] fs IH]; intros [|v vs] H; try contradiction; [reflexivity|].
  cbn [List.length]. destruct H as [_ H]. now rewrite (IH _ H).
Qed.

Lemma read_attrs_ok fs vs : fields_ok fs vs -> forall fpre pre tl,
  List.length pre = List.length fpre ->
  NoDup (map f_name (filter (in_version ver) (map fst (fpre ++ fs)%list))) ->
  (forall f, In f (map fst fs) -> ~ In (f_name f) reserved) ->
  read_attrs (fpre ++ fs)%list (attrs_of fs vs ++ tl)%list (pre ++ zeros fs)%list =
  read_attrs (fpre ++ fs)%list tl (pre ++ after_attrs fs vs)%list.
Proof.
  revert vs. induction fs as [|[f t] fs IH]; intros [|v vs] H fpre pre tl L ND R; try contradiction; [reflexivity|].
  destruct H as [Hf H]. cbn [attrs_of after_attrs].
  assert (Step : forall w, read_attrs (fpre ++ (f, t) :: fs)%list (attrs_of fs vs ++ tl)%list (pre ++ w :: zeros fs)%list =
                 read_attrs (fpre ++ (f, t) :: fs)%list tl (pre ++ w :: after_attrs fs vs)%list).
  { intros w. specialize (IH vs H (fpre ++ [(f, t)])%list (pre ++ [w])%list tl). rewrite <- !List.app_assoc in IH. cbn [List.app] in IH.
    apply IH; [rewrite !List.app_length; cbn; lia|exact ND|intros g Hg; apply R; now right]. }
  destruct (f_attr f && present f t v) eqn:E; [|exact (Step (zero t))].
  apply andb_true_iff in E. destruct E as [Ea Ep]. rewrite left_out_eq, Ep, Ea in Hf.
  destruct (attr_rt t v true (Hf eq_refl)) as (s & E1 & E2). rewrite E1.
  cbn [List.app]. unfold read_attrs at 1. cbn [a_name a_value]. rewrite translate_new.
  destruct (not_reserved f) as (_ & _ & Sk); [apply R; now left|]. rewrite Sk. cbn [x_local new_name].
  rewrite find_field_mid by (auto; now apply (active_present f t v)).
  rewrite nth_error_mid, <- L. change (zeros ((f, t) :: fs)) with (zero t :: zeros fs). rewrite nth_error_mid.
  rewrite E2. cbn [bind]. rewrite set_nth_mid. exact (Step (norm t v)).
Qed.

Lemma set_nodes_twice (n : node) a b : set_nodes (set_nodes n a) b = set_nodes n b.
Proof. destruct n; reflexivity. Qed.
Lemma set_nodes_id (n : node) : set_nodes n (n_nodes n) = n.
Proof. destruct n; reflexivity. Qed.

Lemma elems_ok T fs vs : Forall (fun f => survives (snd f)) fs -> Forall (fun f => wf_ty (snd f)) fs ->
  fields_ok fs vs -> forall n have,
  NoDup (map f_name (filter (in_version ver) (map fst fs))) ->
  (forall c f, In c (n_nodes n) -> In f (map fst fs) -> active ver f = true -> x_local (n_name c) <> f_name f) ->
  exists N h, marshal_elems fs vs n have = Ok (finish h (set_nodes n (n_nodes n ++ N)%list)) /\
    forall fpre pre tl, List.length pre = List.length fpre ->
      NoDup (map f_name (filter (in_version ver) (map fst (fpre ++ fs)%list))) ->
      (forall f, In f (map fst fs) -> ~ In (f_name f) reserved) ->
      read_kids T (fpre ++ fs)%list (N ++ tl)%list (VStruct (pre ++ after_attrs fs vs)%list) =
      read_kids T (fpre ++ fs)%list tl (VStruct (pre ++ norm_fields fs vs)%list).
Proof.
  revert vs. induction fs as [|[f t] fs IH]; intros [|v vs] HS HW H n have ND D; try contradiction.
  - exists [], have. split; [|reflexivity]. cbn [marshal_elems]. rewrite List.app_nil_r, set_nodes_id. reflexivity.
  - apply Forall_cons_iff in HS. destruct HS as [S1 HS]. apply Forall_cons_iff in HW. destruct HW as [W1 HW].
    cbn [snd] in S1, W1. destruct H as [Hf H]. destruct (names_head f t fs ND) as [ND' Hd].
    cbn [marshal_elems after_attrs norm_fields]. rewrite !left_out_eq in *.
    assert (Step : forall N w, (forall fpre pre tl, List.length pre = List.length fpre ->
          NoDup (map f_name (filter (in_version ver) (map fst (fpre ++ fs)%list))) ->
          (forall f, In f (map fst fs) -> ~ In (f_name f) reserved) ->
          read_kids T (fpre ++ fs)%list (N ++ tl)%list (VStruct (pre ++ after_attrs fs vs)%list) =
          read_kids T (fpre ++ fs)%list tl (VStruct (pre ++ norm_fields fs vs)%list)) ->
       forall fpre pre tl, List.length pre = List.length fpre ->
          NoDup (map f_name (filter (in_version ver) (map fst (fpre ++ (f, t) :: fs)%list))) ->
          (forall g, In g (map fst ((f, t) :: fs)) -> ~ In (f_name g) reserved) ->
          read_kids T (fpre ++ (f, t) :: fs)%list (N ++ tl)%list (VStruct (pre ++ w :: after_attrs fs vs)%list) =
          read_kids T (fpre ++ (f, t) :: fs)%list tl (VStruct (pre ++ w :: norm_fields fs vs)%list)).
    { intros N w HN fpre pre tl L NDa R. specialize (HN (fpre ++ [(f, t)])%list (pre ++ [w])%list tl).
      rewrite <- !List.app_assoc in HN. cbn [List.app] in HN.
      apply HN; [rewrite !List.app_length; cbn; lia|exact NDa|intros g Hg; apply R; now right]. }
    destruct (present f t v) eqn:Ep; cbn [negb] in *; rewrite ?andb_false_r, ?andb_true_r.
    + destruct (f_attr f) eqn:Ea; cbn [negb].
      * destruct (IH vs HS HW H n have ND') as (N & h & E & HN).
        { intros c g Hc Hg Ha. apply D; auto. now right. }
        exists N, h. split; [exact E|]. apply Step. exact HN.
      * destruct (S1 v (new_name (f_name f)) W1 (Hf eq_refl)) as (c & Ec & Uc).
        rewrite Ec. cbn [bind].
        assert (Nc : n_name c = new_name (f_name f)) by (apply marshal_name in Ec; exact Ec).
        assert (Ad : add_node n c = set_nodes n (n_nodes n ++ [c])%list).
        { unfold add_node. rewrite nl_add_new; [reflexivity|]. intros w Hw. rewrite Nc. cbn.
          apply (D w f Hw); [now left|now apply (active_present f t v)]. }
        destruct (IH vs HS HW H (add_node n c) true ND') as (N & h & E & HN).
        { intros w g Hw Hg Ha. rewrite Ad, nodes_set in Hw. apply in_app_or in Hw. destruct Hw as [Hw|[<-|[]]].
          - apply (D w g Hw); auto. now right.
          - rewrite Nc. cbn. intros Eq. apply (Hd (active_present f t v Ep) g Hg Ha). now symmetry. }
        exists (c :: N), h. split.
        -- rewrite E, Ad, set_nodes_twice, nodes_set, <- List.app_assoc. reflexivity.
        -- intros fpre pre tl L NDa R. cbn [List.app]. unfold read_kids at 1. rewrite Nc, translate_new.
           destruct (not_reserved f) as (_ & Hde & Sk); [apply R; now left|]. unfold name_full. cbn [x_space x_local new_name emptyb].
           rewrite (proj2 (String.eqb_neq _ _) Hde). change (XName "" (f_name f)) with (new_name (f_name f)). rewrite Sk.
           rewrite find_field_mid by (auto; now apply (active_present f t v)).
           rewrite nth_error_mid, <- L, nth_error_mid. rewrite Uc. cbn [bind]. rewrite set_nth_mid.
           apply (Step N (norm t v) HN); auto.
    + destruct (IH vs HS HW H n have ND') as (N & h & E & HN).
      { intros c g Hc Hg Ha. apply D; auto. now right. }
      exists N, h. split; [exact E|]. apply Step. exact HN.
Qed.

Lemma attrs_finish h (n : node) : (forall a, In a (n_attrs n) -> x_local (a_name a) <> "rdf:parseType") ->
  n_attrs (finish h n) = (n_attrs n ++ if h && negb (xname_eqb (n_name n) rdf_description) then [rdf_resource_attr] else [])%list.
Proof.
  intros H. unfold finish. destruct (h && negb _); [|now rewrite List.app_nil_r].
  rewrite (attr_name_new (n_attrs n)) by auto. now rewrite attrs_set.
Qed.
Lemma nodes_finish h (n : node) : n_nodes (finish h n) = n_nodes n.
Proof. unfold finish, add_attr. destruct (h && negb _); destruct n; reflexivity. Qed.
Lemma attrs_set_nodes (n : node) l : n_attrs (set_nodes n l) = n_attrs n.
Proof. destruct n; reflexivity. Qed.
Lemma nodes_set_attrs (n : node) l : n_nodes (set_attrs n l) = n_nodes n.
Proof. destruct n; reflexivity. Qed.

Lemma marshal_list_ok t l : survives t -> wf_ty t -> Forall (storable t) l ->
  exists its, marshal_list t l = Ok its /\
    forall acc tl, read_items t (its ++ tl)%list (VArr acc []) = read_items t tl (VArr (acc ++ map (norm t) l)%list []).
Proof.
  intros S W. induction l as [|x l IH]; intros H.
  - exists []. split; [reflexivity|]. intros acc tl. cbn [map List.app]. now rewrite List.app_nil_r.
  - apply Forall_cons_iff in H. destruct H as [Hx H]. destruct (IH H) as (its & E & R).
    destruct (S x (XName "" "rdf:li") W Hx) as (c & Ec & Uc).
    assert (Nc : n_name c = XName "" "rdf:li") by (apply marshal_name in Ec; exact Ec).
    exists (c :: its). split.
    + unfold marshal_list. fold (marshal_list t). change li_node with (@new_node M (XName "" "rdf:li")). now rewrite Ec, E.
    + intros acc tl. cbn [List.app]. unfold read_items at 1. unfold full_name. rewrite Nc. cbn [x_space x_local emptyb negb].
      rewrite Uc. cbn [bind arr_append List.tl]. fold (read_items t). rewrite R. cbn [map]. now rewrite <- List.app_assoc.
Qed.

Theorem types_survive t : survives t.
Proof.
  induction t as [| | | bi | bu | c | m | i t IH | t IH | i fs IH] using ty_nested_ind; intros v x W H;
    try (match goal with |- context [marshal ?t v] =>
           destruct (simple_rt t v eq_refl H) as (s' & E1 & E2) end;
         eexists; split; [cbn [TypeM.marshal]; rewrite E1; reflexivity|];
         intros fin; rewrite unmarshal_simple by reflexivity; cbn [n_value set_value new_node]; now rewrite E2).
  - assert (H' : text_back c (c_zero c) v v (Some "")) by (destruct v; exact H).
    unfold text_back in H'. cbn [TypeM.marshal]. unfold marshal_text.
    assert (Nv : norm (TText c) v = v) by (destruct v; reflexivity).
    destruct (c_enc c v) as [[s|]|e|]; try contradiction; (eexists; split; [reflexivity|]); intros fin;
      rewrite unmarshal_text, Nv; exact H'.
  - destruct v as [| | | |l| | | |]; try contradiction. cbn [SpecType.storable] in H.
    destruct (alt_rt m l x true H) as (n & E & _). exists n. split; [exact E|]. intros fin.
    destruct (alt_rt m l x fin H) as (n' & E' & U). rewrite E in E'. injection E' as <-. exact U.
  - destruct v as [| | | | |l sp| | |]; try contradiction. destruct W as [Wi Wt].
    rewrite storable_items in H. rewrite marshal_arr. destruct (ar_xmp i) eqn:Ex.
    + destruct H as [Hn H]. destruct (marshal_list_ok t l IH Wt H) as (its & E & R).
      unfold marshal_items. destruct l as [|y l]; [now elim Hn|]. rewrite E. cbn [bind].
      eexists. split; [reflexivity|]. intros fin. rewrite unmarshal_arr, Ex, array_child_ok by exact (Wi eq_refl). cbn [bind].
      unfold array_node. rewrite nodes_set. specialize (R [] []). rewrite List.app_nil_r in R. cbn [zero]. rewrite R. reflexivity.
    + destruct (ar_text i) as [c|] eqn:Et; [|contradiction]. unfold text_back in H. unfold marshal_text.
      destruct (c_enc c (VArr l sp)) as [[s|]|e|]; try contradiction; (eexists; split; [reflexivity|]); intros fin;
        rewrite unmarshal_arr, Ex, Et; exact H.
  - destruct v as [| | | | | | |v|]; try contradiction. cbn [SpecType.storable] in H. destruct W as [_ W].
    destruct (IH v x W H) as (n & E & U). exists n. split; [exact E|]. intros fin. rewrite unmarshal_ptr. cbn [zero].
    rewrite U. reflexivity.
  - destruct v as [| | | | | | | |vs]; try contradiction. rewrite storable_struct in H.
    apply wf_struct in W. destruct W as (ND & R & W). rewrite marshal_struct, norm_struct, blank_eq.
    destruct (s_guard i && is_empty (TStruct i fs) (VStruct vs)).
    + eexists. split; [reflexivity|]. intros fin. cbn [zero]. now rewrite unmarshal_struct.
    + rewrite marshal_attrs_ok by (auto; intros a f []). cbn [bind].
      set (n1 := set_attrs (new_node x) (n_attrs (new_node x) ++ attrs_of fs vs)%list).
      destruct (elems_ok (TStruct i fs) fs vs IH W H n1 false ND) as (N & h & E & RK).
      { intros c f Hc. unfold n1 in Hc. destruct Hc. }
      exists (finish h (set_nodes n1 (n_nodes n1 ++ N)%list)). split; [exact E|]. intros fin.
      cbn [zero]. rewrite unmarshal_struct. rewrite nodes_finish, nodes_set.
      assert (A1 : n_attrs n1 = attrs_of fs vs) by reflexivity.
      assert (N1 : n_nodes n1 = []) by reflexivity. rewrite N1. cbn [List.app].
      rewrite attrs_finish; rewrite attrs_set_nodes, A1.
      * pose proof (read_attrs_ok fs vs H [] []) as RA. cbn [List.app] in RA.
        fold (zeros fs). rewrite RA by auto.
        assert (Z : forall b : bool, read_attrs fs (if b then [rdf_resource_attr] else []) (after_attrs fs vs) = Ok (after_attrs fs vs))
          by (intros [|]; reflexivity).
        rewrite Z. cbn [bind]. specialize (RK [] [] [] eq_refl ND R). rewrite List.app_nil_r in RK. cbn [List.app] in RK.
        rewrite RK. reflexivity.
      * intros a Ha. apply attrs_of_names in Ha. destruct Ha as (f & If & _ & ->). cbn.
        now destruct (not_reserved f (R f If)).
Qed.

(* ---- arrays, exactly ------------------------------------------------------------------------------ *)

Lemma marshal_list_forall2 t l its : marshal_list t l = Ok its ->
  Forall2 (fun e li => n_name li = new_name "rdf:li" /\ marshal t e (new_node (new_name "rdf:li")) = Ok li) l its.
Proof.
  revert its. induction l as [|x l IH]; intros its H.
  - injection H as <-. constructor.
  - cbn [marshal_list] in H. change (@TypeM.li_node M) with (@new_node M (new_name "rdf:li")) in H.
    destruct (marshal t x (new_node (new_name "rdf:li"))) as [a|e|] eqn:E; try discriminate.
    cbn [bind] in H. fold (marshal_list t) in H.
    destruct (marshal_list t l) as [b|e|] eqn:E2; try discriminate. injection H as <-. constructor; [|auto].
    split; [|exact E]. now apply marshal_name in E.
Qed.

Lemma arr_written i t l spare x n : ar_xmp i = true ->
  marshal (TArr i t) (VArr l spare) (new_node x) = Ok n ->
  (l = [] -> n = new_node x) /\
  (l <> [] -> exists arr, n = set_nodes (new_node x) [arr] /\ n_name arr = new_name ("rdf:" ++ ar_type i) /\ n_attrs arr = [] /\
     Forall2 (fun e li => n_name li = new_name "rdf:li" /\ marshal t e (new_node (new_name "rdf:li")) = Ok li) l (n_nodes arr)).
Proof.
  intros Hx H. rewrite marshal_arr, Hx in H. unfold marshal_items in H. split.
  - intros ->. now injection H as <-.
  - intros Hn. destruct l as [|a l]; [now elim Hn|].
    destruct (marshal_list t (a :: l)) as [its|e|] eqn:E; try discriminate. injection H as <-.
    exists (array_node (ar_type i) its). split; [reflexivity|]. split; [reflexivity|]. split; [reflexivity|].
    unfold array_node. rewrite nodes_set. now apply marshal_list_forall2.
Qed.

Lemma read_items_forall2 t its : forall es old spare,
  Forall2 (fun e li => full_name reg li = "rdf:li" /\ unmarshal li t false (zero t) = Ok e) es its ->
  exists spare', read_items t its (VArr old spare) = Ok (VArr (old ++ es)%list spare').
Proof.
  induction its as [|li its IH]; intros es old spare H; inversion H as [|e li' es' its' [H1 H2] H3]; subst; clear H.
  - exists spare. cbn. now rewrite List.app_nil_r.
  - unfold read_items. rewrite H1. rewrite String.eqb_refl, H2.
    cbn [bind arr_append]. fold (read_items t). destruct (IH es' (old ++ [e])%list (tl spare) H3) as (sp & E). exists sp.
    rewrite E. now rewrite <- List.app_assoc.
Qed.

Lemma arr_read i t old spare field x a md v arr es : ar_xmp i = true ->
  In (node_local arr) ["Seq"; "Bag"; "Alt"] ->
  Forall2 (fun e li => full_name reg li = "rdf:li" /\ unmarshal li t false (zero t) = Ok e) es (n_nodes arr) ->
  exists spare', unmarshal (Node x a md v [arr]) (TArr i t) field (VArr old spare) = Ok (VArr (old ++ es)%list spare').
Proof.
  intros Hx Ha H. rewrite unmarshal_arr, Hx. unfold array_child. cbn [n_nodes].
  assert ((node_local arr =? "Seq") || (node_local arr =? "Bag") || (node_local arr =? "Alt") = true) as ->.
  { cbn in Ha. destruct Ha as [<-|[<-|[<-|[]]]]; reflexivity. }
  cbn [bind]. now apply read_items_forall2.
Qed.

Lemma arr_not i t field v n : ar_xmp i = true ->
  (forall arr, n_nodes n = [arr] -> ~ In (node_local arr) ["Seq"; "Bag"; "Alt"]) ->
  exists e, unmarshal n (TArr i t) field v = Err e.
Proof.
  intros Hx H. rewrite unmarshal_arr, Hx. unfold array_child. destruct (n_nodes n) as [|a [|b r]]; try (eexists; reflexivity).
  specialize (H a eq_refl).
  assert ((node_local a =? "Seq") || (node_local a =? "Bag") || (node_local a =? "Alt") = false) as ->.
  { destruct (String.eqb_spec (node_local a) "Seq") as [E|]; [elim H; rewrite E; now left|].
    destruct (String.eqb_spec (node_local a) "Bag") as [E|]; [elim H; rewrite E; right; now left|].
    destruct (String.eqb_spec (node_local a) "Alt") as [E|]; [elim H; rewrite E; right; right; now left|]. reflexivity. }
  eexists; reflexivity.
Qed.
End F.

Lemma alt_written M l (n : node M) x : marshal_alt l (new_node x) = Ok n -> l <> [] ->
  exists arr, n_nodes n = [arr] /\ n_name arr = new_name "rdf:Alt" /\
    map n_value (n_nodes arr) =
      flat_map (fun i => if ai_default i && negb (ai_lang i =? "") then [ai_value i; ai_value i] else [ai_value i]) l.
Proof.
  intros H Hn. unfold marshal_alt in H. destruct l as [|a l]; [now elim Hn|].
  generalize dependent (Nat.eqb (List.length (a :: l)) 1). intros single H.
  destruct (alt_nodes single (a :: l)) as [its|e|] eqn:E; try discriminate. injection H as <-.
  exists (array_node "Alt" its). split; [reflexivity|]. split; [reflexivity|].
  change (n_nodes (array_node "Alt" its)) with its. clear Hn. revert its E. generalize (a :: l). clear a l.
  intros l. induction l as [|b l IH]; intros its E; cbn [alt_nodes] in E; [now injection E as <-|].
  destruct (alt_item_nodes single b) as [p|e|] eqn:Ea; try discriminate. cbn [bind] in E.
  destruct (alt_nodes single l) as [q|e|] eqn:El; try discriminate. injection E as <-.
  rewrite map_app, (IH q eq_refl). cbn [flat_map]. f_equal. clear - Ea.
  unfold alt_item_nodes in Ea. destruct b as [v g d]. cbn [ai_value ai_lang ai_default] in *.
  destruct d, single, g; cbn [orb andb negb emptyb] in Ea; try discriminate; injection Ea as <-; reflexivity.
Qed.
