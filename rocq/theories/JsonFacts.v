(* Proofs about the JSON form *)
From Coq Require Import List Arith ZArith Bool Ascii String Permutation Lia.
From Verif Require Import GoStr GoStrFacts GoMap Names RegistryM RegistryFacts NodeM ArrayM TypeM DecodeM JsonM SpecBasic SpecTag SpecJson TagFacts.
Import ListNotations.
Local Open Scope string_scope.

Lemma map_set_new {V} (m : gomap V) k v : ~ In k (map fst m) -> map_set m k v = (m ++ [(k, v)])%list.
Proof.
  induction m as [|[k' v'] m IH]; cbn; intros H; [reflexivity|].
  destruct (String.eqb_spec k' k) as [->|]; [tauto|]. rewrite IH by tauto. reflexivity.
Qed.
Lemma get_of_in {V} (m : gomap V) k v : NoDup (map fst m) -> In (k, v) m -> map_get m k = Some v.
Proof.
  induction m as [|[k' v'] m IH]; cbn; intros N H; [contradiction|]. inversion N; subst.
  destruct H as [H|H].
  - injection H as -> ->. rewrite String.eqb_refl. reflexivity.
  - destruct (String.eqb_spec k' k) as [->|]; [|auto]. exfalso. apply H2. apply (in_map fst) in H. exact H.
Qed.
Lemma perm_forall2 {A B} (R : A -> B -> Prop) l1 l1' : Permutation l1 l1' -> forall l2, Forall2 R l1 l2 ->
  exists l2', Permutation l2 l2' /\ Forall2 R l1' l2'.
Proof.
  induction 1; intros l2 F.
  - inversion F; subst. exists []. auto.
  - inversion F; subst. destruct (IHPermutation _ H4) as (l2' & P & Q). exists (y :: l2'). split; auto.
  - inversion F as [|? ? ? ? A1 A2]; subst. inversion A2 as [|? ? ? ? A3 A4]; subst. eexists. split; [apply perm_swap|]. repeat constructor; auto.
  - destruct (IHPermutation1 _ F) as (m2 & P & Q). destruct (IHPermutation2 _ Q) as (m3 & P' & Q'). exists m3. split; [eapply perm_trans; eauto|auto].
Qed.

Section CarriesInd.
Context {M : Type}.
Variable reg : registry.
Variable P : node M -> pval -> Prop.
Hypothesis Pleaf : forall x a m s, Forall marker a -> P (Node x a m s []) (PLeaf s).
Hypothesis Prec : forall x a m l kfs fs,
  Forall2 (fun c f => named reg c (fst f) /\ carries reg c (snd f) /\ P c (snd f)) l kfs ->
  Permutation fs (attr_fields a ++ kfs) -> P (Node x a m "" l) (PRecord fs).
Hypothesis Plist : forall x a m ax aa am items l, Forall marker a -> Forall marker aa ->
  named reg (Node ax aa am "" items) "rdf:Bag" \/ named reg (Node ax aa am "" items) "rdf:Seq" ->
  Forall2 (fun c t => named reg c "rdf:li" /\ carries reg c t /\ P c t) items l ->
  P (Node x a m "" [Node ax aa am "" items]) (PList l).
Hypothesis Palts : forall x a m ax aa am items l, Forall marker a -> Forall marker aa ->
  named reg (Node ax aa am "" items) "rdf:Alt" ->
  Forall2 (fun c i => named reg c "rdf:li" /\ n_value c = snd i /\ n_nodes c = []
     /\ exists b, n_attrs c = [b] /\ local_name_of (x_local (a_name b)) "lang" /\ a_value b = fst i) items l ->
  P (Node x a m "" [Node ax aa am "" items]) (PAlts l).
Fixpoint carries_ind2 n t (H : carries reg n t) : P n t :=
  match H in carries _ n t return P n t with
  | ca_leaf _ x a m s Ha => Pleaf x a m s Ha
  | ca_record _ x a m l kfs fs F Pe =>
      Prec x a m l kfs fs
        ((fix go l kfs (F : Forall2 (fun c f => named reg c (fst f) /\ carries reg c (snd f)) l kfs) :
            Forall2 (fun c f => named reg c (fst f) /\ carries reg c (snd f) /\ P c (snd f)) l kfs :=
            match F with
            | Forall2_nil _ => Forall2_nil _
            | @Forall2_cons _ _ _ c f l' k' (conj A B) F' => @Forall2_cons _ _ _ c f l' k' (conj A (conj B (carries_ind2 _ _ B))) (go _ _ F')
            end) l kfs F) Pe
  | ca_list _ x a m ax aa am items l Ha Haa N F =>
      Plist x a m ax aa am items l Ha Haa N
        ((fix go l kfs (F : Forall2 (fun c t => named reg c "rdf:li" /\ carries reg c t) l kfs) :
            Forall2 (fun c t => named reg c "rdf:li" /\ carries reg c t /\ P c t) l kfs :=
            match F with
            | Forall2_nil _ => Forall2_nil _
            | @Forall2_cons _ _ _ c f l' k' (conj A B) F' => @Forall2_cons _ _ _ c f l' k' (conj A (conj B (carries_ind2 _ _ B))) (go _ _ F')
            end) items l F)
  | ca_alts _ x a m ax aa am items l Ha Haa N F => Palts x a m ax aa am items l Ha Haa N F
  end.
End CarriesInd.

Section J.
Context {M : Type}.
Notation node := (node M).
Variable reg : registry.
Hypothesis Hrdf : reg_get_prefix reg ns_rdf_uri = "rdf".

Lemma rdf_full (l : string) (n : node) : n_name n = rdf_name l -> full_name reg n = "rdf:" ++ l.
Proof.
  intros E. unfold full_name. rewrite E. cbn [rdf_name x_space x_local]. unfold short. rewrite Hrdf. reflexivity.
Qed.
Lemma new_full (s : string) (n : node) : n_name n = new_name s -> named reg n s.
Proof. intros E. unfold named, full_name. rewrite E. reflexivity. Qed.

Fixpoint add_members (m : list (string * json)) (n : node) : result node :=
  match m with
  | [] => Ok n
  | (on, ov) :: r => bind (json_to_node on ov n) (fun n => add_members r n)
  end.

(* what a JSON value read back gives *)
Definition good (j : json) (t : pval) : Prop :=
  forall j', reorder j j' ->
    (forall name (p : node), member_name name ->
       exists n', json_to_node name j' p = Ok (append_node p n') /\ n_name n' = new_name name /\ carries reg n' t)
    /\ (flat_value t -> is_item j' = false /\
        forall x, exists n' : node, json_to_node "" j' (new_node x) = Ok n' /\ n_name n' = x /\ carries reg n' t).

Lemma member_name_ne n : member_name n -> emptyb n = false /\ (n =? "rdf:value") = false.
Proof.
  intros [H1 H2]. split; [apply emptyb_false; exact H1|]. apply String.eqb_neq. intros ->. apply H2. cbn. auto.
Qed.

Lemma good_str s : good (JStr s) (PLeaf s).
Proof.
  intros j' R. inversion R; subst. split.
  - intros name p Hn. destruct (member_name_ne _ Hn) as [E1 E2]. cbn [json_to_node]. rewrite E1, E2. cbn [negb andb].
    eexists. split; [reflexivity|]. split; [reflexivity|]. apply ca_leaf. constructor.
  - intros _. split; [reflexivity|]. intros x. eexists. split; [reflexivity|]. split; [reflexivity|]. apply ca_leaf. constructor.
Qed.

Lemma reorder_item_false m m1 m2 : Permutation m m1 ->
  Forall2 (fun a b => fst a = fst b /\ reorder (snd a) (snd b)) m1 m2 ->
  ~ (In "value" (map fst m) /\ In "lang" (map fst m) /\ In "isDefault" (map fst m)) -> is_item (JObj m2) = false.
Proof.
  intros P F H.
  assert (K : map fst m2 = map fst m1).
  { clear -F. induction F as [|a b l l' [E _] F IH]; cbn; congruence. }
  assert (HH : forall k, map_has m2 k = true -> In k (map fst m)).
  { intros k E. unfold map_has in E. destruct (map_get m2 k) eqn:G; [|discriminate].
    apply (Permutation_in _ (Permutation_map fst (Permutation_sym P))). rewrite <- K.
    apply map_get_in in G. apply (in_map fst) in G. exact G. }
  cbn [is_item]. destruct (map_has m2 "value") eqn:E1; [|rewrite andb_false_r; reflexivity].
  destruct (map_has m2 "lang") eqn:E2; [|rewrite andb_false_r; reflexivity].
  destruct (map_has m2 "isDefault") eqn:E3; [|rewrite andb_false_r; reflexivity].
  exfalso. apply H. auto.
Qed.

Lemma add_members_good m1 ts : Forall2 (fun a f => fst a = fst f /\ good (snd a) (snd f)) m1 ts ->
  Forall member_name (map fst ts) ->
  forall m2, Forall2 (fun a b => fst a = fst b /\ reorder (snd a) (snd b)) m1 m2 -> forall p : node,
  exists kids, add_members m2 p = Ok (set_nodes p (n_nodes p ++ kids)%list)
    /\ Forall2 (fun c f => named reg c (fst f) /\ carries reg c (snd f)) kids ts.
Proof.
  induction 1 as [|[k j] [k' t] m1 ts [E G] F IH]; intros Hn m2 F2 p.
  - inversion F2; subst. exists []. cbn. destruct p. cbn. rewrite List.app_nil_r. auto.
  - inversion F2 as [|? [k2 j2] ? m2' [E2 R2] F2']; subst. cbn in *. subst. inversion Hn; subst.
    destruct (G _ R2) as [GN _]. destruct (GN k2 p H1) as (n' & J & N' & C').
    destruct (IH H2 m2' F2' (append_node p n')) as (kids & A & K).
    rewrite J. cbn [bind]. rewrite A. exists (n' :: kids). split.
    + destruct p. cbn. rewrite <- List.app_assoc. reflexivity.
    + constructor; auto. split; [apply new_full; exact N'|exact C'].
Qed.

Lemma obj_named name m2 (p : node) : emptyb name = false -> is_item (JObj m2) = false ->
  json_to_node name (JObj m2) p = bind (add_members m2 (new_node (new_name name))) (fun o => Ok (append_node p o)).
Proof.
  intros E I. cbn [json_to_node]. rewrite E. rewrite I. cbn [andb]. reflexivity.
Qed.
Lemma obj_item m2 (p : node) : is_item (JObj m2) = false -> json_to_node "" (JObj m2) p = add_members m2 p.
Proof. intros I. cbn [json_to_node emptyb]. rewrite I. cbn [andb]. reflexivity. Qed.

Lemma good_obj m ts fs : Forall2 (fun a f => fst a = fst f /\ good (snd a) (snd f)) m ts -> Permutation fs ts ->
  Forall member_name (map fst fs) ->
  ~ (In "value" (map fst fs) /\ In "lang" (map fst fs) /\ In "isDefault" (map fst fs)) ->
  good (JObj m) (PRecord fs).
Proof.
  intros F P Hn Hi j' R. inversion R as [| | | | |m0 m1 m2 P1 F1]; subst.
  assert (K : map fst m = map fst ts).
  { clear -F. induction F as [|a b l l' [E _] F IH]; cbn; congruence. }
  assert (I : is_item (JObj m2) = false).
  { eapply reorder_item_false; eauto. rewrite K. intros H. apply Hi.
    assert (Q := Permutation_sym (Permutation_map fst P)). destruct H as (H1 & H2 & H3).
    repeat split; eapply Permutation_in; eauto. }
  destruct (perm_forall2 _ _ _ P1 _ F) as (ts1 & P2 & F2).
  assert (Hn1 : Forall member_name (map fst ts1)).
  { eapply Permutation_Forall; [|exact Hn]. apply Permutation_map. eapply perm_trans; eauto. }
  split.
  - intros name p H. destruct (member_name_ne _ H) as [E1 E2]. rewrite obj_named by assumption.
    destruct (add_members_good m1 ts1 F2 Hn1 m2 F1 (new_node (new_name name))) as (kids & A & C). rewrite A. cbn [bind].
    eexists. split; [reflexivity|]. split; [reflexivity|].
    cbn. eapply ca_record; [exact C|]. cbn. eapply perm_trans; eauto.
  - intros _. split; [exact I|]. intros x. rewrite obj_item by assumption.
    destruct (add_members_good m1 ts1 F2 Hn1 m2 F1 (new_node x)) as (kids & A & C). rewrite A.
    eexists. split; [reflexivity|]. split; [reflexivity|].
    cbn. eapply ca_record; [exact C|]. cbn. eapply perm_trans; eauto.
Qed.

(* an empty element *)
Lemma good_empty : good (JObj []) (PLeaf "").
Proof.
  intros j' R. inversion R as [| | | | |m0 m1 m2 P1 F1]; subst. apply Permutation_nil in P1. subst. inversion F1; subst. split.
  - intros name p H. destruct (member_name_ne _ H) as [E1 E2]. rewrite obj_named by (assumption || reflexivity). cbn.
    eexists. split; [reflexivity|]. split; [reflexivity|]. apply ca_leaf. constructor.
  - intros _. split; [reflexivity|]. intros x. eexists. split; [reflexivity|]. split; [reflexivity|]. apply ca_leaf. constructor.
Qed.

(* ---- lists ---- *)
Fixpoint item_nodes (l : list json) : result (list node) :=
  match l with
  | [] => Ok []
  | x :: r => bind (json_to_node "" x json_li) (fun a => bind (item_nodes r) (fun b => Ok (a :: b)))
  end.

Lemma item_nodes_good js ts : Forall2 good js ts -> Forall flat_value ts -> forall js', Forall2 reorder js js' ->
  json_array_type js' = "Seq" /\
  exists lis, item_nodes js' = Ok lis /\ Forall2 (fun c t => named reg c "rdf:li" /\ carries reg c t) lis ts.
Proof.
  induction 1 as [|j t js ts G F IH]; intros Hf js' R.
  - inversion R; subst. cbn. eauto.
  - inversion R as [|? j' ? js2 R1 R2]; subst. inversion Hf; subst.
    destruct (G _ R1) as [_ GI]. destruct (GI H1) as [I J]. destruct (J (rdf_name "li")) as (n' & J1 & J2 & J3).
    destruct (IH H2 _ R2) as (_ & lis & L1 & L2).
    cbn [json_array_type item_nodes]. rewrite I. split; [reflexivity|].
    unfold json_li. rewrite J1. cbn [bind]. rewrite L1. cbn [bind]. exists (n' :: lis). split; [reflexivity|].
    constructor; auto. split; [|exact J3]. exact (rdf_full "li" n' J2).
Qed.

Lemma good_list js ts : Forall2 good js ts -> Forall flat_value ts -> good (JArr js) (PList ts).
Proof.
  intros F Hf j' R. inversion R as [| | | |l l' R1|]; subst.
  destruct (item_nodes_good js ts F Hf l' R1) as (T & lis & L1 & L2). split; [|intros []].
  intros name p Hn. destruct (member_name_ne _ Hn) as [E1 E2]. cbn [json_to_node]. rewrite E1, T. cbn [String.eqb Ascii.eqb Bool.eqb].
  match goal with |- exists _, bind (?f l') _ = _ /\ _ => replace (f l') with (item_nodes l') by reflexivity end.
  rewrite L1. cbn [bind]. eexists. split; [reflexivity|]. split; [reflexivity|].
  cbn. apply ca_list; auto. right. apply (rdf_full "Seq"). reflexivity.
Qed.

(* ---- language alternatives ---- *)
Definition item_of_pair (i : string * string) : alt_item := AltItem (snd i) (fst i) (fst i =? "x-default").

Lemma item_of_li (c : node) i : n_value c = snd i ->
  (exists b, n_attrs c = [b] /\ local_name_of (x_local (a_name b)) "lang" /\ a_value b = fst i) -> item_of c = item_of_pair i.
Proof.
  intros V (b & A & L & B). apply local_iff in L. unfold item_of, get_attr, al_get. rewrite A. cbn [filter emptyb orb andb].
  rewrite L. cbn. rewrite B, V. reflexivity.
Qed.

Lemma last_default_none k l f : Forall (fun i => fst i <> "x-default") l -> last_default k (map item_of_pair l) f = f.
Proof.
  intros H. revert k f. induction H as [|i l H _ IH]; intros k f; cbn [map last_default item_of_pair ai_default]; [reflexivity|].
  apply String.eqb_neq in H. rewrite H. apply IH.
Qed.
Lemma last_default_at k a s b f : Forall (fun i => fst i <> "x-default") a -> Forall (fun i => fst i <> "x-default") b ->
  last_default k (map item_of_pair (a ++ ("x-default", s) :: b)%list) f = Some (k + List.length a, s).
Proof.
  intros H Hb. revert k f. induction H as [|i a H _ IH]; intros k f; cbn [List.app map last_default item_of_pair ai_default].
  - cbn [fst snd]. rewrite String.eqb_refl. rewrite last_default_none by assumption. cbn. rewrite Nat.add_0_r. reflexivity.
  - apply String.eqb_neq in H. rewrite H. rewrite IH. cbn. f_equal. f_equal. lia.
Qed.

Definition default_item (s g : string) : alt_item := AltItem s g true.
Lemma json_alts_default (items : list node) a s g b :
  map item_of items = map item_of_pair (a ++ ("x-default", s) :: (g, s) :: b)%list -> s <> "" -> g <> "x-default" ->
  Forall (fun i => fst i <> "x-default" /\ snd i <> s) (a ++ b)%list ->
  json_alts items = (map item_of_pair a ++ default_item s g :: map item_of_pair b)%list.
Proof.
  intros E Hs Hg H. unfold json_alts. rewrite E. apply Forall_app in H. destruct H as [Ha Hb].
  assert (Ma : map (fun x => if ai_value x =? s then AltItem (ai_value x) (ai_lang x) true else x) (map item_of_pair a) = map item_of_pair a).
  { rewrite map_map. apply map_ext_in. intros i Hi. rewrite Forall_forall in Ha. destruct (Ha i Hi) as [_ N].
    cbn. apply String.eqb_neq in N. rewrite N. reflexivity. }
  assert (Mb : map (fun x => if ai_value x =? s then AltItem (ai_value x) (ai_lang x) true else x) (map item_of_pair b) = map item_of_pair b).
  { rewrite map_map. apply map_ext_in. intros i Hi. rewrite Forall_forall in Hb. destruct (Hb i Hi) as [_ N].
    cbn. apply String.eqb_neq in N. rewrite N. reflexivity. }
  rewrite last_default_at.
  - cbn [plus]. apply emptyb_false in Hs. rewrite Hs. cbn [negb andb].
    rewrite map_length, List.app_length. cbn [List.length].
    replace (Nat.ltb 1 (List.length a + S (S (List.length b)))) with true by (symmetry; apply Nat.ltb_lt; lia).
    rewrite (map_app item_of_pair). cbn [map]. rewrite map_app. cbn [map]. rewrite Ma, Mb.
    cbn [item_of_pair ai_value fst snd ai_lang]. rewrite String.eqb_refl.
    rewrite <- (map_length item_of_pair a). rewrite firstn_app, firstn_all, Nat.sub_diag. cbn [firstn].
    rewrite List.app_nil_r. rewrite skipn_app.
    rewrite skipn_all2 by lia. replace (S (List.length (map item_of_pair a)) - List.length (map item_of_pair a)) with 1 by lia.
    cbn [skipn List.app]. reflexivity.
  - eapply Forall_impl; [|exact Ha]. cbn. tauto.
  - constructor; [exact Hg|]. eapply Forall_impl; [|exact Hb]. cbn. tauto.
Qed.

Lemma reorder_scalar j j' : reorder j j' -> match j with JArr _ | JObj _ => False | _ => True end -> j' = j.
Proof. destruct 1; tauto. Qed.

Lemma reorder_item x j' : reorder (item_json x) j' -> is_item j' = true /\
  alt_lis (M:=M) j' = Ok (if ai_default x then json_lang_li "x-default" (ai_value x) :: (if emptyb (ai_lang x) then [] else [json_lang_li (ai_lang x) (ai_value x)])
                    else if emptyb (ai_lang x) then [json_li] else [json_lang_li (ai_lang x) (ai_value x)]).
Proof.
  intros R. unfold item_json in R. inversion R as [| | | | |m0 m1 m2 P1 F1]; subst.
  assert (E : m2 = m1).
  { assert (S1 : Forall (fun a => match snd a with JArr _ | JObj _ => False | _ => True end) m1).
    { eapply Permutation_Forall; [exact P1|]. repeat constructor. }
    clear -F1 S1. induction F1 as [|[k j] [k' j'] l l' [E Rj] F IH]; [reflexivity|]. inversion S1; subst. cbn in *. subst.
    f_equal; [|auto]. f_equal. apply reorder_scalar; auto. }
  subst m2.
  assert (ND : NoDup (map fst m1)).
  { eapply Permutation_NoDup; [apply Permutation_map; exact P1|]. cbn. repeat constructor; cbn; intuition discriminate. }
  assert (G : forall k v, In (k, v) [("value", JStr (ai_value x)); ("lang", JStr (ai_lang x)); ("isDefault", JBool (ai_default x))] -> map_get m1 k = Some v).
  { intros k v H. apply get_of_in; [exact ND|]. eapply Permutation_in; eauto. }
  assert (G1 : map_get m1 "value" = Some (JStr (ai_value x))) by (apply G; cbn; auto).
  assert (G2 : map_get m1 "lang" = Some (JStr (ai_lang x))) by (apply G; cbn; auto).
  assert (G3 : map_get m1 "isDefault" = Some (JBool (ai_default x))) by (apply G; cbn; auto).
  split.
  - cbn [is_item]. unfold map_has. rewrite G1, G2, G3. rewrite <- (Permutation_length P1). reflexivity.
  - cbn [alt_lis]. rewrite G1, G2, G3. reflexivity.
Qed.

Lemma all_alt_lis_items l js' : Forall2 reorder (map item_json l) js' ->
  Forall (fun x => ai_lang x <> "") l ->
  all_alt_lis (M:=M) js' = Ok (flat_map (fun x => ((if ai_default x then [json_lang_li "x-default" (ai_value x)] else []) ++ [json_lang_li (ai_lang x) (ai_value x)])%list) l).
Proof.
  revert js'. induction l as [|x l IH]; intros js' F H; inversion F; subst; [reflexivity|]. inversion H; subst.
  cbn [all_alt_lis flat_map]. destruct (reorder_item _ _ H2) as [_ E]. rewrite E. rewrite (IH _ H4) by assumption.
  apply emptyb_false in H3. rewrite H3. cbn [bind]. destruct (ai_default x); reflexivity.
Qed.

Lemma lang_li_carries (g s : string) : named reg (json_lang_li (M:=M) g s) "rdf:li" /\ n_value (json_lang_li (M:=M) g s) = s /\ n_nodes (json_lang_li (M:=M) g s) = []
  /\ exists b, n_attrs (json_lang_li (M:=M) g s) = [b] /\ local_name_of (x_local (a_name b)) "lang" /\ a_value b = g.
Proof.
  split; [apply (rdf_full "li"); reflexivity|]. split; [reflexivity|]. split; [reflexivity|].
  eexists. split; [reflexivity|]. split; [|reflexivity]. apply local_iff. reflexivity.
Qed.

Lemma lis_pairs l : Forall (fun i => fst i <> "x-default") l ->
  Forall2 (fun (c : node) (i : string * string) => named reg c "rdf:li" /\ n_value c = snd i /\ n_nodes c = []
     /\ exists b, n_attrs c = [b] /\ local_name_of (x_local (a_name b)) "lang" /\ a_value b = fst i)
    (flat_map (fun x => ((if ai_default x then [json_lang_li "x-default" (ai_value x)] else []) ++ [json_lang_li (ai_lang x) (ai_value x)])%list) (map item_of_pair l)) l.
Proof.
  induction 1 as [|[g s] l H _ IH]; cbn [map flat_map]; [constructor|].
  apply String.eqb_neq in H. cbn [item_of_pair ai_default ai_value ai_lang fst snd] in *. rewrite H. cbn [List.app].
  constructor; [apply lang_li_carries|exact IH].
Qed.

Lemma good_alts (items : list node) l : alts_ok l -> map item_of items = map item_of_pair l ->
  good (JArr (map item_json (json_alts items))) (PAlts l).
Proof.
  intros (Hne & Hl & Hd) E j' R. inversion R as [| | | |l0 js' R1|]; subst. split; [|intros []].
  intros name p Hn. destruct (member_name_ne _ Hn) as [E1 E2].
  assert (Q : exists xs, json_alts items = xs /\ xs <> [] /\ Forall (fun x => ai_lang x <> "") xs /\
     Forall2 (fun (c : node) (i : string * string) => named reg c "rdf:li" /\ n_value c = snd i /\ n_nodes c = []
       /\ exists b, n_attrs c = [b] /\ local_name_of (x_local (a_name b)) "lang" /\ a_value b = fst i)
      (flat_map (fun x => ((if ai_default x then [json_lang_li "x-default" (ai_value x)] else []) ++ [json_lang_li (ai_lang x) (ai_value x)])%list) xs) l).
  { destruct Hd as [Hd|(a & s & g & b & -> & Hs & Hg & Hab)].
    - exists (map item_of_pair l). split; [|split; [|split]].
      + unfold json_alts. rewrite E. rewrite last_default_none by assumption. reflexivity.
      + destruct l; [congruence|discriminate].
      + apply Forall_map. exact Hl.
      + apply lis_pairs. exact Hd.
    - exists (map item_of_pair a ++ default_item s g :: map item_of_pair b)%list.
      apply Forall_app in Hl. destruct Hl as [Hla Hlb]. inversion Hlb as [|? ? _ Hlb2]; subst. inversion Hlb2 as [|? ? Hgne Hlb3]; subst.
      split; [eapply json_alts_default; eauto|]. apply Forall_app in Hab. destruct Hab as [Ha Hb].
      split; [destruct a; discriminate|]. split.
      + apply Forall_app. split; [apply Forall_map; exact Hla|]. constructor; [exact Hgne|]. apply Forall_map. exact Hlb3.
      + rewrite flat_map_app. apply Forall2_app.
        * apply lis_pairs. eapply Forall_impl; [|exact Ha]. cbn. tauto.
        * cbn [flat_map default_item ai_default ai_value ai_lang List.app].
          constructor; [apply lang_li_carries|]. constructor; [apply lang_li_carries|].
          apply lis_pairs. eapply Forall_impl; [|exact Hb]. cbn. tauto. }
  destruct Q as (xs & QE & Qne & Ql & QF). rewrite QE in R1.
  assert (T : json_array_type js' = "Alt").
  { destruct xs as [|x xs]; [congruence|]. inversion R1; subst. cbn [json_array_type]. destruct (reorder_item _ _ H1) as [-> _]. reflexivity. }
  cbn [json_to_node]. rewrite E1, T. cbn [String.eqb Ascii.eqb Bool.eqb]. rewrite (all_alt_lis_items xs js' R1 Ql). cbn [bind].
  eexists. split; [reflexivity|]. split; [reflexivity|].
  cbn. apply ca_alts; auto. apply (rdf_full "Alt"). reflexivity.
Qed.

(* ---- the nodes written ---- *)
Lemma attr_members_from a out : NoDup (map fst out ++ map fst (attr_fields a))%list ->
  fold_left (fun out v => if x_local (a_name v) =? "rdf:parseType" then out
                          else map_set out (x_local (a_name v)) (JStr (a_value v))) a out
  = (out ++ map (fun b => (x_local (a_name b), JStr (a_value b))) (filter (fun b => negb (x_local (a_name b) =? "rdf:parseType")) a))%list.
Proof.
  unfold attr_fields. revert out. induction a as [|b a IH]; intros out N; cbn [fold_left filter map].
  - symmetry. apply List.app_nil_r.
  - destruct (x_local (a_name b) =? "rdf:parseType") eqn:E; cbn [negb].
    + apply IH. cbn [filter] in N. rewrite E in N. exact N.
    + cbn [filter] in N. rewrite E in N. cbn [negb map fst] in N.
      assert (NI : ~ In (x_local (a_name b)) (map fst out)).
      { intros H. apply NoDup_remove_2 in N. apply N. apply in_or_app. left. exact H. }
      rewrite map_set_new by exact NI. rewrite IH.
      * cbn [map]. rewrite <- List.app_assoc. reflexivity.
      * rewrite map_app. cbn [map fst]. rewrite <- List.app_assoc. exact N.
Qed.

Lemma record_json x a m (l : list node) kfs :
  Forall2 (fun c f => named reg c (fst f)) l kfs -> Forall member_name (map fst kfs) ->
  NoDup (map fst (attr_fields a ++ kfs)%list) ->
  node_to_json reg (Node x a m "" l) =
    JObj (map (fun b => (x_local (a_name b), JStr (a_value b))) (filter (fun b => negb (x_local (a_name b) =? "rdf:parseType")) a)
          ++ map (fun c => (full_name reg c, node_to_json reg c)) l)%list.
Proof.
  intros F Hn N. cbn [node_to_json emptyb negb]. unfold attr_members. rewrite attr_members_from.
  2:{ cbn [map List.app]. rewrite map_app in N. revert N. generalize (map fst (attr_fields a)). intros ls. clear. induction ls as [|y ls IH]; cbn; intros N; constructor; inversion N; subst; [intros H; apply H1; apply in_or_app; auto|auto]. }
  cbn [List.app].
  assert (Hout : NoDup (map fst (map (fun b => (x_local (a_name b), JStr (a_value b))) (filter (fun b => negb (x_local (a_name b) =? "rdf:parseType")) a)) ++ map fst kfs)%list).
  { rewrite map_app in N. unfold attr_fields in N. rewrite map_map in *. exact N. }
  revert Hout. generalize (map (fun b => (x_local (a_name b), JStr (a_value b))) (filter (fun b => negb (x_local (a_name b) =? "rdf:parseType")) a)).
  clear N a x m. induction F as [|c [k t] l kfs Nm F IH]; intros out N.
  - cbn. rewrite List.app_nil_r. reflexivity.
  - cbn [map fst] in *. inversion Hn as [|? ? Hk Hks]; subst. unfold named in Nm.
    destruct c as [cx ca cm cv cl].
    destruct Hk as [_ Hk]. cbn in Hk.
    rewrite Nm. replace (k =? "rdf:Bag") with false by (symmetry; apply String.eqb_neq; intros ->; tauto).
    replace (k =? "rdf:Seq") with false by (symmetry; apply String.eqb_neq; intros ->; tauto).
    replace (k =? "rdf:Alt") with false by (symmetry; apply String.eqb_neq; intros ->; tauto).
    cbn [orb].
    assert (NI : ~ In k (map fst out)).
    { intros H. apply NoDup_remove_2 in N. apply N. apply in_or_app. left. exact H. }
    rewrite map_set_new by exact NI. rewrite (IH Hks).
    + rewrite <- List.app_assoc. reflexivity.
    + rewrite map_app. cbn [map fst]. rewrite <- List.app_assoc. exact N.
Qed.

Lemma markers_none a : Forall marker a -> attr_members a = [].
Proof.
  intros H. unfold attr_members. generalize (@nil (string * json)). induction H as [|b a H _ IH]; intros out; [reflexivity|].
  cbn [fold_left]. unfold marker in H. rewrite H. cbn [String.eqb Ascii.eqb Bool.eqb]. apply IH.
Qed.

Lemma json_ok_all fs : (fix all (fs : list (string * pval)) : Prop := match fs with [] => True | f :: r => json_ok (snd f) /\ all r end) fs ->
  Forall (fun f => json_ok (snd f)) fs.
Proof. induction fs as [|f fs IH]; cbn; intros H; [constructor|constructor; tauto]. Qed.
Lemma json_ok_items l : (fix all (l : list pval) : Prop := match l with [] => True | t :: r => (flat_value t /\ json_ok t) /\ all r end) l ->
  Forall flat_value l /\ Forall json_ok l.
Proof. induction l as [|t l IH]; cbn; intros H; [auto|]. destruct H as [[H1 H2] H3]. destruct (IH H3). auto. Qed.

Theorem written_good (n : node) t : carries reg n t -> json_ok t -> good (node_to_json reg n) t.
Proof.
  intros C0. refine (carries_ind2 reg (fun n t => json_ok t -> good (node_to_json reg n) t) _ _ _ _ n t C0); clear n t C0.
  - intros x a m s H Hok. destruct s as [|ch s].
    + cbn [node_to_json emptyb negb]. rewrite markers_none by assumption. apply good_empty.
    + cbn [node_to_json emptyb negb]. apply good_str.
  - intros x a m l kfs fs H H0 Hok. destruct Hok as (N & Hm & Hi & Hall). apply json_ok_all in Hall.
    assert (Hm' : Forall member_name (map fst (attr_fields a ++ kfs)%list)).
    { eapply Permutation_Forall; [apply Permutation_map; exact H0|exact Hm]. }
    assert (N' : NoDup (map fst (attr_fields a ++ kfs)%list)).
    { eapply Permutation_NoDup; [apply Permutation_map; exact H0|exact N]. }
    assert (Hall' : Forall (fun f => json_ok (snd f)) (attr_fields a ++ kfs)%list).
    { eapply Permutation_Forall; [exact H0|exact Hall]. }
    rewrite (record_json x a m l kfs); auto.
    + eapply good_obj with (ts := (attr_fields a ++ kfs)%list); auto. apply Forall2_app.
      * unfold attr_fields. induction (filter (fun b => negb (x_local (a_name b) =? "rdf:parseType")) a) as [|b r IHr]; cbn [map]; constructor; auto.
        cbn. split; [reflexivity|apply good_str].
      * apply Forall_app in Hall'. destruct Hall' as [_ Hk]. clear -H Hk. induction H as [|c f l kfs (A & B & C) F IH]; cbn [map]; constructor.
        -- inversion Hk; subst. cbn. split; [exact A|auto].
        -- inversion Hk; subst. auto.
    + clear -H. induction H as [|c f l kfs (A & B & C) F IH]; constructor; auto.
    + rewrite map_app in Hm'. apply Forall_app in Hm'. tauto.
  - intros x a m ax aa am items l H H0 H1 H2 Hok. destruct (json_ok_items _ Hok) as [Hf Hj].
    assert (E : node_to_json reg (Node x a m "" [Node ax aa am "" items]) = JArr (map (node_to_json reg) items)).
    { cbn [node_to_json emptyb negb]. destruct H1 as [H1|H1]; unfold named in H1; rewrite H1; reflexivity. }
    rewrite E. apply good_list; [|exact Hf].
    clear -H2 Hj. induction H2 as [|c t items l (A & B & C) F IH]; cbn [map]; constructor; inversion Hj; subst; auto.
  - intros x a m ax aa am items l H H0 H1 H2 Hok. assert (I : map item_of items = map item_of_pair l).
    { clear -H2. induction H2 as [|c i items l (A & B & C & D) F IH]; cbn [map]; [reflexivity|]. f_equal; [|exact IH]. apply item_of_li; assumption. }
    assert (E : node_to_json reg (Node x a m "" [Node ax aa am "" items]) = JArr (map item_json (json_alts items))).
    { cbn [node_to_json emptyb negb]. unfold named in H1. rewrite H1. cbn [String.eqb Ascii.eqb Bool.eqb orb].
      destruct items as [|[cx ca cm cv cl] items]; [reflexivity|]. inversion H2 as [|? ? ? ? (A & B & C & D) F]; subst. cbn in C. subst cl. reflexivity. }
    rewrite E. apply good_alts; assumption.
Qed.
End J.

Lemma model_back {X} reg (n : node (tmodel X)) fs j' name :
  reg_get_prefix reg ns_rdf_uri = "rdf" -> carries reg n (PRecord fs) -> json_ok (PRecord fs) ->
  reorder (node_to_json reg n) j' ->
  exists n' : node (tmodel X), model_nodes [(name, j')] = Ok [n'] /\ n_name n' = new_name name /\ carries reg n' (PRecord fs).
Proof.
  intros Hr Hc Hj Ho.
  destruct (written_good reg Hr n _ Hc Hj j' Ho) as [_ H]. destruct (H I) as [Hi H']. clear H.
  destruct (H' (new_name name)) as (n' & H1 & H2 & H3). clear H'. exists n'. split; [|auto].
  assert (Hobj : exists m, j' = JObj m).
  { inversion Hc as [|x a m l kfs fs' F P| |]; subst. destruct Hj as (J1 & J2 & _).
    rewrite (record_json reg x a m l kfs) in Ho.
    - inversion Ho; subst. eauto.
    - clear -F. induction F as [|? ? ? ? [A B]]; constructor; auto.
    - rewrite P, map_app in J2. apply Forall_app in J2. apply J2.
    - rewrite <- P. exact J1. }
  destruct Hobj as [m ->]. rewrite obj_item in H1 by exact Hi.
  cbn [model_nodes].
  assert (A : forall m' n0, (fix go (m : list (string * json)) (n : node (tmodel X)) : result (node (tmodel X)) :=
                   match m with
                   | [] => Ok n
                   | (on, ov) :: m' => bind (json_to_node on ov n) (fun n => go m' n)
                   end) m' n0 = add_members m' n0).
  { induction m' as [|[k v] m' IH]; intros n0; [reflexivity|]. cbn [add_members]. destruct (json_to_node k v n0); cbn [bind]; auto. }
  rewrite A, H1. reflexivity.
Qed.
