From Coq Require Import List Arith ZArith Bool Ascii String Lia.
From Verif Require Import GoStr GoStrFacts GoMap Names Semver RegistryM NodeM DocM DocFacts TypeM DecodeM DecodeKeepFacts ExtM SpecExt.
Import ListNotations.
Local Open Scope string_scope.

Section F.
Context {X : Type}.
Notation node := (node (tmodel X)).
Variable ver : version.
Variable reg : registry.
Variable kinds : nat -> string -> option (mkind X).

Lemma simple_kids x a m v l : simple_tree (Node (M := tmodel X) x a m v l) -> m = None /\ trim_space v = v /\ Forall simple_tree l.
Proof. cbn. intros (A & B & C). split; [exact A|]. split; [exact B|]. induction l; constructor; destruct C; auto. Qed.
Lemma declare_none env (a : list attr) : (forall b, In b a -> get_prefix (x_local (a_name b)) <> "xmlns") -> declare env a = env.
Proof.
  unfold declare. revert env. induction a as [|b a IH]; intros env H; [reflexivity|]. cbn [fold_left].
  destruct (String.eqb_spec (get_prefix (x_local (a_name b))) "xmlns") as [E|E]; [exfalso; apply (H b); [left; reflexivity|exact E]|].
  apply IH. intros c C. apply H. right. exact C.
Qed.
(* a tree is read as it was written *)
Fixpoint tree_size (n : node) : nat := let 'Node _ _ _ _ l := n in S (list_sum (map tree_size l)).
Lemma kid_size x a v l (c : node) : In c l -> S (tree_size c) <= tree_size (Node x a None v l).
Proof.
  intros C. cbn [tree_size]. apply le_n_S. induction l as [|b l IH]; [destruct C|]. cbn [map].
  change (list_sum (tree_size b :: map tree_size l)) with (tree_size b + list_sum (map tree_size l)). destruct C as [->|C]; [lia|]. specialize (IH C). lia.
Qed.
Lemma tree_back env i e : forall k (n : node), tree_size n <= k -> simple_tree n -> (forall x, In x (all_names n) -> comes_back reg env i e x) ->
  translate_tree reg i e (xml_read env n) = n.
Proof.
  induction k as [|k IH]; intros [x a m v l] S T H; [cbn [tree_size] in S; lia|].
  destruct (simple_kids _ _ _ _ _ T) as (-> & V & K). cbn [xml_read]. rewrite V. rewrite declare_none.
  - cbn [translate_tree]. rewrite !map_map. f_equal.
    + apply H. left. reflexivity.
    + transitivity (map (fun b : attr => b) a); [|apply map_id]. apply map_ext_in. intros b B. cbn. destruct b as [y w]. cbn. f_equal. apply (H y).
      right. apply in_or_app. left. apply (in_map a_name a (Attr y w) B).
    + transitivity (map (fun c : node => c) l); [|apply map_id]. apply map_ext_in. intros c C. apply IH.
      * pose proof (kid_size x a v l c C). lia.
      * rewrite Forall_forall in K. auto.
      * intros y Y. apply H. right. apply in_or_app. right. apply in_flat_map. exists c. auto.
  - intros b B. apply (H (a_name b)). right. apply in_or_app. left. now apply in_map.
Qed.
Lemma plain_back env i e l : has_char ":" l = false -> l <> "xmlns" -> comes_back reg env i e (XName "" l).
Proof.
  intros H N. split.
  - unfold read_name. cbn [x_local]. rewrite (proj2 (index_char_none _ _) H). reflexivity.
  - cbn [x_local]. unfold get_prefix. rewrite (proj2 (index_char_none _ _) H). exact N.
Qed.

(* ---- named extensions ---- *)
Lemma named_elem_eq (v : node) : named_elem v = Node (new_name (x_local (n_name v))) (rdf_resource_attr :: n_attrs v) None "" (n_nodes v).
Proof. reflexivity. Qed.
Lemma nl_add_fresh (l : list node) n : ~ In (x_local (n_name n)) (map (fun v => x_local (n_name v)) l) -> nl_add l n = (l ++ [n])%list.
Proof.
  induction l as [|v l IH]; intros H; [reflexivity|]. cbn [nl_add]. cbn in H.
  destruct (String.eqb_spec (x_local (n_name v)) (x_local (n_name n))) as [E|E]; [exfalso; apply H; left; exact E|]. cbn. f_equal. apply IH. tauto.
Qed.
Lemma named_marshal_eq (l : list node) : forall n, NoDup (map (fun v => x_local (n_name v)) l) ->
  (forall v, In v l -> ~ In (x_local (n_name v)) (map (fun c => x_local (n_name c)) (n_nodes n))) ->
  named_marshal l n = set_nodes n (n_nodes n ++ map named_elem l)%list.
Proof.
  induction l as [|v l IH]; intros n D F; unfold named_marshal; cbn [fold_left].
  - cbn. rewrite List.app_nil_r. now destruct n.
  - inversion D as [|? ? D1 D2]; subst. change (named_marshal l (add_node n (named_elem v)) = set_nodes n (n_nodes n ++ map named_elem (v :: l))%list).
    unfold add_node. rewrite nl_add_fresh by (rewrite named_elem_eq; cbn; apply F; left; reflexivity).
    rewrite IH; [|exact D2|].
    + destruct n as [x a m w k]. cbn. rewrite <- List.app_assoc. reflexivity.
    + intros w W. destruct n as [x a m z k]. cbn. rewrite map_app, in_app_iff. cbn. intros [C|[C|[]]].
      * apply (F w (or_intror W)). exact C.
      * apply D1. rewrite C. apply in_map_iff. exists w. auto.
Qed.
Definition ext_names_back env i e (v : node) : Prop := (forall x, In x (all_names (marked v)) -> comes_back reg env i e x) /\ simple_tree (marked v).
Lemma named_of_back env i e (v : node) : named_ext v -> ext_names_back env i e v -> named_of reg i e (xml_read env (named_elem v)) = marked v.
Proof.
  intros (A & B & C) (D & T). destruct v as [[s l] a m w k]. cbn in A, B, C. subst.
  assert (E : named_elem (Node (M := tmodel X) (XName "" l) a None "" k) = marked (Node (XName "" l) a None "" k)) by reflexivity.
  rewrite E. unfold named_of. rewrite (tree_back env i e _ _ (le_n _) T D). reflexivity.
Qed.
Lemma named_trip env i e (l : list node) nm : Forall named_ext l -> Forall (ext_names_back env i e) l -> NoDup (map (fun v => x_local (n_name v)) l) ->
  named_unmarshal reg i e [] (xml_read env (named_marshal l (new_node nm))) = map marked l.
Proof.
  intros A B D. rewrite named_marshal_eq; [|exact D|intros v _ []]. unfold new_node. cbn [set_nodes n_nodes List.app xml_read declare fold_left].
  unfold named_unmarshal. cbn [List.app n_nodes]. rewrite !map_map. apply map_ext_in. intros v V. rewrite Forall_forall in A, B. apply named_of_back; auto.
Qed.

(* ---- the extension of a pantry ---- *)
Definition without_attrs (n : node) : node := set_attrs n [].
Lemma ext_marshal_attrs (l : list node) : forall n, ext_marshal ver empty_name l n = ext_marshal ver empty_name (map without_attrs l) n.
Proof.
  induction l as [|v l IH]; intros n; [reflexivity|]. cbn [ext_marshal map]. destruct v as [x a m w k]. cbn [without_attrs set_attrs n_nodes].
  change (encode_model_of ver (Node x a m w k) n) with (encode_model_of ver (Node x [] m w k) n).
  destruct (encode_model_of ver (Node x [] m w k) n) as [n1|s|]; cbn [bind]; try reflexivity.
  cbn [emptyb empty_name x_local]. destruct (unwrap ver k n1); cbn [bind]; auto.
Qed.
Lemma ext_marshal_app name (l r : list node) : forall n, ext_marshal ver name (l ++ r) n = bind (ext_marshal ver name l n) (ext_marshal ver name r).
Proof.
  induction l as [|v l IH]; intros n; [reflexivity|]. cbn [ext_marshal List.app]. destruct (encode_model_of ver v n) as [n1|s|]; cbn [bind]; try reflexivity.
  destruct (if emptyb (x_local name) then unwrap ver (n_nodes v) n1 else Ok (set_nodes n1 (n_nodes n1 ++ [v])%list)) as [n2|s|]; cbn [bind]; auto.
Qed.
Lemma ext_marshal_last name (l : list node) v n n' : x_local name <> "" -> ext_marshal ver name (l ++ [v]) n = Ok n' -> In v (n_nodes n').
Proof.
  intros N E. rewrite ext_marshal_app in E. destruct (ext_marshal ver name l n) as [n1|s|]; cbn [bind] in E; try discriminate. cbn [ext_marshal] in E.
  destruct (encode_model_of ver v n1) as [n2|s|]; cbn [bind] in E; try discriminate. destruct (x_local name) as [|c s]; [congruence|]. cbn [emptyb bind] in E.
  injection E as <-. destruct n2. cbn. apply in_or_app. right. left. reflexivity.
Qed.

(* raw items *)
Definition block (p : string) (kids : list node) : node := Node (XName "" p) [] None "" kids.
Lemma ext_marshal_raw (bs : list (string * list node)) : Forall (fun b => Forall (fun c => n_model c = None) (snd b)) bs -> forall n,
  ext_marshal ver empty_name (map (fun b => block (fst b) (snd b)) bs) n = Ok (set_nodes n (n_nodes n ++ flat_map snd bs)%list).
Proof.
  induction 1 as [|[p k] bs K F IH]; intros n; cbn [ext_marshal map].
  - cbn. rewrite List.app_nil_r. now destruct n.
  - cbn [block fst snd encode_model_of n_model bind empty_name x_local emptyb n_nodes].
    assert (U : forall l n, Forall (fun c : node => n_model c = None) l -> unwrap ver l n = Ok (set_nodes n (n_nodes n ++ l)%list)).
    { clear. induction l as [|c l IH]; intros n H; cbn [unwrap]; [rewrite List.app_nil_r; now destruct n|]. inversion H as [|? ? C D]; subst. rewrite C. cbn [bind].
      rewrite IH by exact D. destruct n. cbn. now rewrite <- List.app_assoc. }
    rewrite U by exact K. cbn [bind]. change (XName "" "") with empty_name. rewrite IH. destruct n. cbn. now rewrite <- List.app_assoc.
Qed.

(* ---- reading a raw item ---- *)
Lemma ext_unmarshal_kids i e x m v (kl : list node) : forall l l', Forall (fun c => full_name reg c <> "rdf:Description") kl ->
  decode_kids ver reg kinds i e l kl = Ok l' -> ext_unmarshal ver reg kinds i e l (Node x [] m v kl) = Ok l'.
Proof.
  cbn [ext_unmarshal ext_attrs bind]. induction kl as [|c kl IH]; intros l l' H E; [exact E|]. cbn [decode_kids] in E. inversion H as [|? ? H1 H2]; subst.
  destruct (String.eqb_spec (full_name reg c) "rdf:Description") as [Q|Q]; [contradiction|].
  destruct (decode_node ver reg kinds i e l c) as [l1|s|]; cbn [bind] in E |- *; try discriminate. apply IH; assumption.
Qed.
Lemma ext_unmarshal_li i e x m v (d : node) l : full_name reg d = "rdf:Description" ->
  ext_unmarshal ver reg kinds i e l (Node x [] m v [d]) = ext_unmarshal ver reg kinds i e l d.
Proof.
  intros E. cbn [ext_unmarshal ext_attrs bind]. rewrite E. cbn [String.eqb Ascii.eqb Bool.eqb]. now destruct (ext_unmarshal ver reg kinds i e l d).
Qed.
Lemma matches_block p (b : string * list node) : has_char ":" (fst b) = false -> matches tm_can p (block (fst b) (snd b)) = (fst b =? p).
Proof.
  intros H. unfold matches, block, node_local. cbn [n_model n_name x_local]. unfold strip_prefix. rewrite (proj2 (index_char_none _ _) H). apply orb_false_r.
Qed.
Lemma find_block_none p (bs : list (string * list node)) : Forall (fun b => has_char ":" (fst b) = false) bs -> ~ In p (map fst bs) ->
  find_index (matches tm_can p) (map (fun b => block (fst b) (snd b)) bs) = None.
Proof.
  induction 1 as [|b bs H F IH]; intros N; [reflexivity|]. cbn [map find_index]. rewrite matches_block by exact H. cbn in N.
  destruct (String.eqb_spec (fst b) p) as [E|E]; [exfalso; apply N; left; exact E|]. rewrite IH by tauto. reflexivity.
Qed.
Lemma find_block_last p k (bs : list (string * list node)) : Forall (fun b => has_char ":" (fst b) = false) bs -> ~ In p (map fst bs) -> has_char ":" p = false ->
  find_index (matches tm_can p) (map (fun b => block (fst b) (snd b)) bs ++ [block p k])%list = Some (List.length bs).
Proof.
  induction 1 as [|b bs H F IH]; intros N C.
  - cbn [map List.app find_index]. pose proof (matches_block p (p, k) C) as M. cbn [fst snd] in M. now rewrite M, String.eqb_refl.
  - cbn [map find_index List.app]. rewrite matches_block by exact H. cbn in N.
    destruct (String.eqb_spec (fst b) p) as [E|E]; [exfalso; apply N; left; exact E|]. rewrite IH by tauto. reflexivity.
Qed.
Lemma raw_read env i e p (c : node) : raw_property reg env i e p c -> translate_tree reg i e (xml_read env c) = c.
Proof. intros (A & _ & B & _). exact (tree_back env i e _ c (le_n _) A B). Qed.
Lemma xml_read_name env (c : node) : (forall x, In x (all_names c) -> get_prefix (x_local x) <> "xmlns") -> n_name (xml_read env c) = read_name env (n_name c).
Proof.
  destruct c as [x a m v l]. intros H. cbn [xml_read n_name]. rewrite declare_none; [reflexivity|]. intros b B. apply H. cbn. right. apply in_or_app. left. now apply in_map.
Qed.
Lemma trans_set_name i e (s : node) : translate_tree reg i e (set_name s (translate reg i e (n_name s))) = translate_tree reg i e s.
Proof. destruct s. cbn [set_name translate_tree n_name]. now rewrite translate_idem. Qed.
Lemma read_first env i e p (c : node) (bs : list (string * list node)) : raw_property reg env i e p c -> Forall (fun b => has_char ":" (fst b) = false) bs -> ~ In p (map fst bs) ->
  decode_node ver reg kinds i e (map (fun b => block (fst b) (snd b)) bs) (xml_read env c) = Ok (map (fun b => block (fst b) (snd b)) bs ++ [block p [c]])%list.
Proof.
  intros R F N. pose proof (raw_read _ _ _ _ _ R) as T. destruct R as (A & Z & B & (ns & D & P & Q) & S & _).
  unfold decode_node, lookup_node. rewrite xml_read_name by (intros x I; apply (B x I)). rewrite D, P, find_block_none by assumption.
  unfold new_tmodel. rewrite Q. cbn [bind]. rewrite nth_error_app2 by lia. rewrite Nat.sub_diag. cbn [nth_error n_model new_node].
  rewrite <- (xml_read_name env c) by (intros x I; apply (B x I)). rewrite trans_set_name, T, Z. f_equal.
  unfold ns_xml_name, expand. cbn [emptyb]. rewrite P. change (Node (XName "" p) [] None "" []) with (block p []).
  assert (G : forall (l : list node) y, replace_nth (List.length l) y (l ++ [block p []])%list = (l ++ [y])%list) by (clear; induction l; intros; cbn; [reflexivity|now rewrite IHl]).
  apply G.
Qed.
Lemma read_next env i e p (c : node) k (bs : list (string * list node)) : raw_property reg env i e p c -> Forall (fun b => has_char ":" (fst b) = false) bs -> ~ In p (map fst bs) ->
  has_char ":" p = false -> ~ In (x_local (n_name c)) (map (fun c => x_local (n_name c)) k) ->
  decode_node ver reg kinds i e (map (fun b => block (fst b) (snd b)) bs ++ [block p k])%list (xml_read env c) = Ok (map (fun b => block (fst b) (snd b)) bs ++ [block p (k ++ [c])])%list.
Proof.
  intros R F N C K. pose proof (raw_read _ _ _ _ _ R) as T. destruct R as (A & Z & B & (ns & D & P & Q) & S & _).
  unfold decode_node, lookup_node. rewrite xml_read_name by (intros x I; apply (B x I)). rewrite D, P, find_block_last by assumption. cbn [bind].
  replace (List.length bs) with (List.length (map (fun b => block (fst b) (snd b)) bs)) by apply map_length.
  rewrite nth_error_app2 by lia. rewrite Nat.sub_diag. cbn [nth_error n_model block].
  rewrite <- (xml_read_name env c) by (intros x I; apply (B x I)). rewrite trans_set_name, T, Z. f_equal.
  unfold add_node. cbn [set_nodes n_nodes]. rewrite nl_add_fresh by exact K.
  assert (G : forall (l : list node) x y, replace_nth (List.length l) y (l ++ [x])%list = (l ++ [y])%list) by (clear; induction l; intros; cbn; [reflexivity|now rewrite IHl]).
  apply G.
Qed.
Lemma read_rest env i e p (k2 : list node) : forall k1 bs, Forall (raw_property reg env i e p) k2 -> Forall (fun b => has_char ":" (fst b) = false) bs -> ~ In p (map fst bs) ->
  has_char ":" p = false -> NoDup (map (fun c => x_local (n_name c)) (k1 ++ k2)) ->
  decode_kids ver reg kinds i e (map (fun b => block (fst b) (snd b)) bs ++ [block p k1])%list (map (xml_read env) k2)
  = Ok (map (fun b => block (fst b) (snd b)) bs ++ [block p (k1 ++ k2)])%list.
Proof.
  induction k2 as [|c k2 IH]; intros k1 bs R F N C D; cbn [map decode_kids]; [now rewrite List.app_nil_r|]. inversion R as [|? ? R1 R2]; subst.
  rewrite (read_next env i e p c k1 bs R1 F N C).
  - cbn [bind]. rewrite IH; auto; [now rewrite <- List.app_assoc|]. now rewrite <- List.app_assoc.
  - rewrite map_app in D. cbn in D. apply NoDup_remove in D as [_ D]. rewrite in_app_iff in D. tauto.
Qed.
Lemma decode_kids_app i e (a b : list node) : forall l, decode_kids ver reg kinds i e l (a ++ b) = bind (decode_kids ver reg kinds i e l a) (fun l => decode_kids ver reg kinds i e l b).
Proof. induction a as [|c a IH]; intros l; [reflexivity|]. cbn [decode_kids List.app]. destruct (decode_node ver reg kinds i e l c); cbn [bind]; auto. Qed.
Lemma read_blocks env i e (bs : list (string * list node)) : forall acc, raw_item reg env i e (acc ++ bs)%list ->
  decode_kids ver reg kinds i e (map (fun b => block (fst b) (snd b)) acc) (map (xml_read env) (flat_map snd bs)) = Ok (map (fun b => block (fst b) (snd b)) (acc ++ bs)%list).
Proof.
  induction bs as [|[p k] bs IH]; intros acc (D & F); cbn [flat_map map]; [now rewrite List.app_nil_r|].
  rewrite map_app, decode_kids_app. assert (F0 := F). rewrite Forall_app in F. destruct F as [F1 F2]. inversion F2 as [|? ? (C & NE & ND & RP) F3]; subst. cbn [fst snd] in *.
  assert (FA : Forall (fun b : string * list node => has_char ":" (fst b) = false) acc) by (eapply Forall_impl; [|exact F1]; cbn; tauto).
  rewrite map_app in D. cbn [map fst] in D. assert (NI : ~ In p (map fst acc)) by (apply NoDup_remove in D as [_ D']; rewrite in_app_iff in D'; tauto).
  destruct k as [|c k]; [congruence|]. inversion RP as [|? ? R1 R2]; subst. cbn [map decode_kids]. rewrite (read_first env i e p c acc R1 FA NI). cbn [bind].
  rewrite (read_rest env i e p k [c] acc R2 FA NI C ND). cbn [bind List.app].
  specialize (IH (acc ++ [(p, c :: k)])%list). rewrite map_app in IH. cbn [map fst snd] in IH. rewrite <- List.app_assoc in IH. cbn [List.app] in IH. apply IH.
  split; [now rewrite map_app|exact F0].
Qed.
Lemma pantry_item_trip env i e bs li : raw_item reg env i e bs -> map_get env "rdf" = Some ns_rdf_uri -> short reg ns_rdf_uri "Description" = "rdf:Description" ->
  pantry_items ver [Node empty_name [] None "" (item_nodes bs)] = Ok [li] ->
  ext_unmarshal ver reg kinds i e [] (xml_read env li) = Ok (item_nodes bs).
Proof.
  intros R M SH E. cbn [pantry_items n_name n_nodes] in E. unfold item_nodes in E.
  change (fun b : string * list node => Node (M := tmodel X) (XName "" (fst b)) [] None "" (snd b)) with (fun b : string * list node => block (fst b) (snd b)) in E.
  rewrite ext_marshal_raw in E.
  - cbn [bind new_node n_nodes set_nodes List.app] in E. injection E as <-. cbn [set_nodes new_node xml_read map declare fold_left].
    change (trim_space "") with "". rewrite ext_unmarshal_li.
    + eapply ext_unmarshal_kids; [|exact (read_blocks env i e bs [] R)].
      destruct R as [_ F]. apply Forall_forall. intros c C. apply in_map_iff in C as (c0 & <- & C). apply in_flat_map in C as (b & B & C).
      rewrite Forall_forall in F. destruct (F b B) as (_ & _ & _ & RP). rewrite Forall_forall in RP. apply (RP c0 C).
    + unfold full_name, rdf_description. cbn [n_name]. unfold read_name. cbn [x_local new_name]. change (index_char ":" "rdf:Description") with (Some 3).
      cbn [stake sdrop]. cbn [String.eqb Ascii.eqb Bool.eqb]. rewrite M. cbn [x_space x_local]. unfold ns_rdf_uri in *. cbn [emptyb negb]. exact SH.
  - destruct R as [_ F]. eapply Forall_impl; [|exact F]. cbn. intros b (_ & _ & _ & RP). eapply Forall_impl; [|exact RP]. intros c (A & _). destruct c. cbn in A |- *. tauto.
Qed.
(* rdf:about on the description inside *)
Lemma ext_about i e l x m v a r kl : translate reg i e (a_name a) = XName "" "rdf:about" -> dec_find_ns i e (XName "" "rdf:about") = None ->
  ext_unmarshal ver reg kinds i e l (Node x (a :: r) m v kl) = Err "xmp: undefined XML namespace".
Proof.
  intros T N. cbn [ext_unmarshal ext_attrs]. unfold decode_attribute at 1. rewrite T. cbn [skip_field]. unfold skip_field. cbn [x_space x_local].
  cbn [String.eqb Ascii.eqb Bool.eqb orb]. unfold lookup_node. rewrite N. reflexivity.
Qed.
End F.
