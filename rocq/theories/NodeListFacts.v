(* ListPaths on raw nodes, and the remaining tree facts *)
From Coq Require Import List Arith ZArith Bool Ascii String Lia Permutation Sorted.
From Verif Require Import GoStr GoStrFacts Names PathM SyncFlags PVList RegistryM NodeM Spec SpecFacts SpecBasic PathFacts SpecNode NodeFacts NodePathFacts.
Local Open Scope string_scope.

(* ---- names ---- *)
Lemma stored_name_local x : stored_name x -> name_ok (strip_prefix (x_local x)) /\ no_char "]" (strip_prefix (x_local x)).
Proof.
  intros (_ & q & nm & E & Hn & Hb & Hq). rewrite E. destruct q as [q|]; cbn [pfx_text].
  - rewrite app_assoc, strip_prefix_qualified by apply Hq. auto.
  - cbn [append]. rewrite strip_prefix_none by apply Hn. auto.
Qed.

Lemma seg_of_ok top x sl : stored_name x ->
  match sl with SAll => True | SIdx i => int64 (Z.of_nat i) | SLang l => lang_ok l end ->
  pseg_ok (seg_of top (x_local x) sl).
Proof.
  intros H Hs. destruct (stored_name_local x H) as [Hn _]. unfold pseg_ok, seg_of. cbn [ps_name ps_pfx ps_sel].
  split; auto. split; auto.
  destruct H as (_ & q & nm & E & Hnm & Hb & Hq). rewrite E.
  destruct q as [q|]; cbn [pfx_text].
  - rewrite app_assoc. rewrite has_prefix_qualified, get_prefix_qualified by apply Hq.
    destruct (negb _); cbn [andb]; auto.
  - cbn [append]. rewrite has_prefix_none by apply Hnm. exact I.
Qed.

Lemma seg_of_text top x : stored_name x ->
  pseg_text (seg_of top (x_local x) SAll) =
  (if has_prefix (x_local x) && (get_prefix (x_local x) =? top) then strip_prefix (x_local x) else x_local x).
Proof.
  intros (_ & q & nm & E & Hnm & Hb & Hq). unfold pseg_text, seg_of. cbn [ps_pfx ps_name ps_sel sel_text]. rewrite app_nil_r, E.
  destruct q as [q|]; cbn [pfx_text].
  - rewrite !app_assoc. rewrite has_prefix_qualified, get_prefix_qualified, strip_prefix_qualified by apply Hq.
    cbn [andb]. destruct (q =? top); cbn [negb andb pfx_text]; [reflexivity|]. now rewrite app_assoc.
  - cbn [append]. rewrite has_prefix_none by apply Hnm. cbn [andb]. cbn [pfx_text append]. now apply strip_prefix_none, Hnm.
Qed.

Lemma list_name_seg {M} reg (v : node M) top p : stored_name (n_name v) -> namespace_prefix p = top ->
  list_name reg v p = pseg_text (seg_of top (x_local (n_name v)) SAll).
Proof.
  intros H Hp. rewrite seg_of_text by auto. unfold list_name, node_namespace, full_name, node_local. rewrite Hp.
  destruct H as (Hs & q & nm & E & Hnm & Hb & Hq). rewrite Hs. cbn [emptyb negb]. rewrite E.
  destruct q as [q|]; cbn [pfx_text].
  - rewrite !app_assoc. rewrite has_prefix_qualified, get_prefix_qualified, strip_prefix_qualified by apply Hq.
    cbn [andb]. destruct (q =? top); reflexivity.
  - cbn [append]. rewrite has_prefix_none by apply Hnm. cbn [andb].
    rewrite strip_prefix_none by apply Hnm. destruct (negb _); reflexivity.
Qed.

(* ---- appending an index to a rendered path ---- *)
Lemma join_last a x y : join "/" (a ++ [(x ++ y)%string])%list = join "/" (a ++ [x])%list ++ y.
Proof.
  induction a as [|z a IH]; [reflexivity|]. cbn [app].
  rewrite !(join_cons' "/" z) by (destruct a; discriminate). rewrite IH. now rewrite !app_assoc.
Qed.

Lemma has_suffix_no_char c s : s <> "" -> no_char c s -> has_suffix_str (String c "") s = false.
Proof.
  intros Hs Hc. destruct (has_suffix_str _ s) eqn:E; auto. apply has_suffix_spec in E as [t ->].
  unfold no_char in Hc. rewrite has_char_app in Hc. cbn in Hc. rewrite Ascii.eqb_refl in Hc.
  rewrite orb_true_r in Hc. discriminate.
Qed.

Fixpoint last_char (s : string) : option ascii :=
  match s with "" => None | String c "" => Some c | String c r => last_char r end.

Lemma last_char_snoc s c : last_char (s ++ String c "") = Some c.
Proof. induction s as [|d s IH]; cbn; auto. destruct (s ++ String c "") eqn:E; auto. destruct s; discriminate. Qed.

Lemma last_char_app a b : b <> "" -> last_char (a ++ b) = last_char b.
Proof.
  intros Hb. induction a as [|d a IH]; cbn; auto. destruct (a ++ b) eqn:E; auto.
  destruct a; cbn in E; congruence.
Qed.

Lemma last_char_in s c : last_char s = Some c -> has_char c s = true.
Proof.
  induction s as [|d s IH]; cbn; [discriminate|]. destruct s.
  - intros H; inversion H; subst. now rewrite Ascii.eqb_refl.
  - intros H. rewrite IH by auto. apply orb_true_r.
Qed.

Lemma join_snoc_ne a x : x <> "" -> join "/" (a ++ [x])%list <> "".
Proof.
  intros Hx. induction a as [|z a IH]; [exact Hx|]. cbn [app]. rewrite join_cons' by (destruct a; discriminate).
  destruct z; discriminate.
Qed.

Lemma join_ends a x : x <> "" -> last_char (join "/" (a ++ [x])%list) = last_char x.
Proof.
  intros Hx. induction a as [|z a IH]; [reflexivity|]. cbn [app]. rewrite join_cons' by (destruct a; discriminate).
  rewrite last_char_app.
  - rewrite last_char_app; auto. now apply join_snoc_ne.
  - destruct (join _ _); discriminate.
Qed.

Lemma render_append top pre s sl : ps_sel s = SAll -> ps_name s <> "" -> no_char "]" (ps_name s) ->
  has_suffix_str "]" (render top (pre ++ [s])) = false /\
  render top (pre ++ [s]) ++ sel_text sl = render top (pre ++ [PSeg (ps_pfx s) (ps_name s) sl]).
Proof.
  intros Hs Hn Hb. unfold render. rewrite !map_app. cbn [map].
  assert (Et : pseg_text s = pfx_text (ps_pfx s) ++ ps_name s).
  { unfold pseg_text. rewrite Hs. cbn [sel_text]. now rewrite app_nil_r. }
  split.
  - destruct (has_suffix_str _ _) eqn:E; auto. apply has_suffix_spec in E as [t E]. exfalso.
    unfold new_path in E.
    assert (L : last_char (top ++ ":" ++ join "/" (map pseg_text pre ++ [pseg_text s])%list) = Some "]"%char).
    { rewrite E. apply last_char_snoc. }
    rewrite last_char_app in L by (cbn; discriminate).
    assert (Hne : pseg_text s <> "").
    { rewrite Et. intros H. destruct (pfx_text (ps_pfx s)); cbn in H; [congruence|discriminate]. }
    rewrite last_char_app in L.
    2:{ now apply join_snoc_ne. }
    rewrite join_ends in L by auto. rewrite Et, last_char_app in L by auto.
    apply last_char_in in L. unfold no_char in Hb. congruence.
  - unfold new_path. unfold pseg_text at 4. cbn [ps_pfx ps_name ps_sel].
    rewrite <- (app_assoc (pfx_text _)). rewrite join_last. rewrite <- Et. now rewrite !app_assoc.
Qed.

Lemma push_render top pre s : no_char ":" top -> Forall pseg_ok pre -> push (render top pre) [pseg_text s] = render top (pre ++ [s]).
Proof. intros H1 H2. unfold render. rewrite push_new; auto. { now rewrite map_app. } now apply psegs_text_ok. Qed.

Lemma pop_push_render top pre s : no_char ":" top -> Forall pseg_ok pre -> pseg_ok s ->
  snd (pop (push (render top pre) [pseg_text s])) = render top pre.
Proof.
  intros H1 H2 H3. rewrite push_render by auto. unfold render. rewrite map_app. cbn [map]. rewrite pop_new; auto.
  apply Forall_app. split; [now apply psegs_text_ok|]. constructor; auto. now apply pseg_text_ok.
Qed.

(* ---- sizes ---- *)
Fixpoint node_size {M} (n : node M) : nat :=
  let 'Node _ _ _ _ l := n in S (fold_right (fun c s => node_size c + s) 0 l).

Lemma size_child {M} (n c : node M) : In c (n_nodes n) -> node_size c < node_size n.
Proof.
  destruct n as [x a m v l]; cbn [n_nodes node_size]. induction l as [|d r IH]; [intros []|].
  intros [->|H]; cbn [fold_right]; [lia|]. specialize (IH H). lia.
Qed.

Section List.
Context {M : Type}.
Variable can : M -> string -> bool.
Variable reg : registry.
Variable sortf : list path_value -> list path_value.
Hypothesis Hsort : sorts sortf.
Notation lp := (list_paths reg sortf).
Notation read := (read can).

Lemma in_sort l x : In x (sortf l) <-> In x l.
Proof.
  destruct (Hsort l) as [P _]. split; intros H; [eapply Permutation_in; eauto|].
  eapply Permutation_in; [apply Permutation_sym; exact P|auto].
Qed.

Lemma has_pv_sort l p v : has_pv (sortf l) p v <-> has_pv l p v.
Proof. unfold has_pv. split; intros (e & H & ?); exists e; split; auto; now apply in_sort. Qed.

Lemma has_pv_app a b p v : has_pv (a ++ b)%list p v <-> has_pv a p v \/ has_pv b p v.
Proof.
  unfold has_pv. split.
  - intros (e & H & ?). apply in_app_or in H as [H|H]; [left|right]; exists e; auto.
  - intros [(e & H & ?)|(e & H & ?)]; exists e; split; auto; apply in_or_app; auto.
Qed.

Lemma has_pv_flat {A} (f : A -> list path_value) l p v : has_pv (flat_map f l) p v <-> exists a, In a l /\ has_pv (f a) p v.
Proof.
  unfold has_pv. split.
  - intros (e & H & ?). apply in_flat_map in H as (a & Ha & He). exists a. eauto.
  - intros (a & Ha & e & He & ?). exists e. split; auto. apply in_flat_map. eauto.
Qed.

Definition item_list (nodes : list (node M)) (p : path) (start : nat) : list path_value :=
  (fix items (i : nat) (l : list (node M)) : list path_value :=
          match l with
          | [] => []
          | li :: r =>
              let walker := append_index (snd (pop p)) (Z.of_nat i) in
              (flat_map (fun v => lp v (push walker [list_name reg v p])) (n_nodes li) ++ items (S i) r)%list
          end) start nodes.

Lemma item_list_in nodes p start q v : has_pv (item_list nodes p start) q v <->
  exists i li c, nth_error nodes i = Some li /\ In c (n_nodes li) /\
    has_pv (lp c (push (append_index (snd (pop p)) (Z.of_nat (start + i))) [list_name reg c p])) q v.
Proof.
  revert start. induction nodes as [|li r IH]; intros start.
  - cbn. split; [intros (e & [] & _)|intros ([|i] & li & c & H & _); discriminate].
  - cbn [item_list]. rewrite has_pv_app, has_pv_flat. fold (item_list r p (S start)). rewrite IH. split.
    + intros [(c & Hc & H)|(i & l & c & H1 & H2 & H3)].
      * exists 0, li, c. rewrite Nat.add_0_r. auto.
      * exists (S i), l, c. rewrite Nat.add_succ_r. auto.
    + intros ([|i] & l & c & H1 & H2 & H3).
      * left. cbn in H1. inversion H1; subst. exists c. rewrite Nat.add_0_r in H3. auto.
      * right. exists i, l, c. rewrite Nat.add_succ_r in H3. auto.
Qed.

Lemma full_name_plain x a m v (l : list (node M)) : x_space x = "" -> full_name reg (Node x a m v l) = x_local x.
Proof. intros H. unfold full_name. cbn. now rewrite H. Qed.

Lemma lp_array (n : node M) p : x_space (n_name n) = "" -> In (x_local (n_name n)) ["rdf:Seq"; "rdf:Bag"] ->
  lp n p = sortf (item_list (n_nodes n) p 0).
Proof.
  destruct n as [x a m v l]; cbn [n_name n_nodes]. intros Hs Hn. cbn [list_paths].
  rewrite full_name_plain by auto.
  replace ((x_local x =? "rdf:Seq") || (x_local x =? "rdf:Bag")) with true; [reflexivity|].
  destruct Hn as [<-|[<-|[]]]; reflexivity.
Qed.

Lemma lp_alt (n : node M) p : x_space (n_name n) = "" -> x_local (n_name n) = "rdf:Alt" ->
  lp n p = sortf (map (fun li => PathValue (append_index_string (snd (pop p)) (list_lang li)) "" (n_value li) 0) (n_nodes n)).
Proof.
  destruct n as [x a m v l]; cbn [n_name n_nodes]. intros Hs Hn. cbn [list_paths].
  rewrite full_name_plain by auto. rewrite Hn. reflexivity.
Qed.

Lemma lp_plain (n : node M) p : x_space (n_name n) = "" -> ~ In (x_local (n_name n)) array_names ->
  lp n p = sortf (list_attrs (n_attrs n) p
        ++ flat_map (fun v => if skip_field (n_name v) then [] else lp v (push p [list_name reg v p])) (n_nodes n)
        ++ (if emptyb (n_value n) then [] else [PathValue p "" (n_value n) 0]))%list.
Proof.
  destruct n as [x a m v l]; cbn [n_name n_nodes n_attrs n_value]. intros Hs Hn. cbn [list_paths].
  rewrite full_name_plain by auto.
  rewrite !(proj2 (eqb_neq _ _)); [reflexivity| | |]; intros E; apply Hn; rewrite E; cbn; auto.
Qed.

Lemma skip_stored x : stored_name x -> skip_field x = true <-> In (x_local x) syntax_names.
Proof.
  intros (Hs & _). unfold skip_field. rewrite Hs. change ("" =? "xmlns") with false. cbn [orb]. rewrite !orb_true_iff, !eqb_eq. cbn. intuition.
Qed.

Lemma list_attrs_in l p q v top : namespace_prefix p = top -> Forall (fun a => stored_name (a_name a)) l ->
  has_pv (list_attrs l p) q v <-> exists a, In a l /\ is_property a /\ v = a_value a /\ q = push p [pseg_text (seg_of top (x_local (a_name a)) SAll)].
Proof.
  intros Hp Hl. unfold list_attrs. rewrite has_pv_flat. rewrite Forall_forall in Hl. split.
  - intros (a & Ha & e & He & E1 & E2). exists a. destruct (skip_field (a_name a)) eqn:Es; [destruct He|].
    destruct He as [<-|[]]. cbn in E1, E2. split; auto. split; [|split; auto].
    + intros Hc. apply skip_stored in Hc; [congruence|auto].
    + rewrite <- E1, Hp, seg_of_text by auto. reflexivity.
  - intros (a & Ha & Hpr & -> & ->). exists a. split; auto.
    destruct (skip_field (a_name a)) eqn:Es. { apply skip_stored in Es; [now apply Hpr in Es|auto]. }
    eexists. split; [now left|]. cbn. rewrite Hp, seg_of_text by auto. auto.
Qed.

(* what is listed for a property c of a structure *)
Definition child_stored (top : string) (c : node M) (sl : selector) (rest : list pseg) (v : string) : Prop :=
  match sl with
  | SAll => stored top c rest v
  | SIdx i => exists arr li, n_nodes c = [arr] /\ In (x_local (n_name arr)) ["rdf:Seq"; "rdf:Bag"] /\
                nth_error (n_nodes arr) i = Some li /\ stored top li rest v
  | SLang l => exists arr li, n_nodes c = [arr] /\ x_local (n_name arr) = "rdf:Alt" /\ In li (n_nodes arr) /\
                item_lang li l /\ rest = [] /\ v = n_value li
  end.

Lemma in_rdf2 s : In s ["rdf:Seq"; "rdf:Bag"] -> In s array_names.
Proof. unfold array_names. cbn. intuition. Qed.

Lemma stored_names_child (n c : node M) : names_ok n -> In c (n_nodes n) -> stored_name (n_name c) /\ ~ In (x_local (n_name c)) syntax_names.
Proof. intros (_ & H & _) Hc. rewrite Forall_forall in H. auto. Qed.

Lemma struct_name_ok (n : node M) : struct_node n -> names_ok n.
Proof. intros H; inversion H; auto. Qed.
Lemma prop_name_ok (n : node M) : prop_node n -> names_ok n.
Proof. intros H; inversion H; auto. now apply struct_name_ok. Qed.
Lemma prop_plain (n : node M) : prop_node n -> ~ In (x_local (n_name n)) array_names /\ x_space (n_name n) = "".
Proof. intros H; inversion H; auto. inversion H0; auto. Qed.
Lemma struct_child_plain (n c : node M) : struct_node n -> In c (n_nodes n) -> ~ In (x_local (n_name c)) array_names.
Proof. intros H Hc. inversion H; subst. now apply prop_plain, H3. Qed.

Lemma length_int64 (arr : node M) i li : (Z.of_nat (List.length (n_nodes arr)) < 2 ^ 63)%Z ->
  nth_error (n_nodes arr) i = Some li -> int64 (Z.of_nat i).
Proof.
  intros H1 H2. assert (i < List.length (n_nodes arr)) by (apply nth_error_Some; congruence).
  unfold int64, int_ok. change (64 - 1)%Z with 63%Z. lia.
Qed.

(* soundness of the listing *)
Theorem listed_stored k : forall n, node_size n <= k ->
  (struct_node n -> forall top pre q v, no_char ":" top -> Forall pseg_ok pre ->
     has_pv (lp n (render top pre)) q v -> exists segs, q = render top (pre ++ segs) /\ stored top n segs v /\ Forall pseg_ok segs) /\
  (prop_node n -> forall top pre q v, no_char ":" top -> Forall pseg_ok pre -> stored_name (n_name n) ->
     has_pv (lp n (push (render top pre) [pseg_text (seg_of top (x_local (n_name n)) SAll)])) q v ->
     exists sl rest, q = render top (pre ++ seg_of top (x_local (n_name n)) sl :: rest) /\ child_stored top n sl rest v
       /\ Forall pseg_ok (seg_of top (x_local (n_name n)) sl :: rest)).
Proof.
  induction k as [|k IH]; intros n Hk.
  { destruct n; cbn in Hk; lia. }
  assert (IHc : forall c, In c (n_nodes n) -> node_size c <= k).
  { intros c Hc. apply size_child in Hc. lia. }
  assert (IH2 : forall arr li c, In arr (n_nodes n) -> In li (n_nodes arr) -> In c (n_nodes li) -> node_size c <= k).
  { intros arr li c H1 H2 H3. apply size_child in H1, H2, H3. lia. }
  assert (Hstruct : struct_node n -> forall top pre q v, no_char ":" top -> Forall pseg_ok pre ->
     has_pv (lp n (render top pre)) q v -> exists segs, q = render top (pre ++ segs) /\ stored top n segs v /\ Forall pseg_ok segs).
  { intros Hs top pre q v Htop Hpre. inversion Hs as [n' Hna Hsp Hok Hch]; subst.
    rewrite lp_plain by auto. rewrite has_pv_sort, !has_pv_app, has_pv_flat.
    rewrite (list_attrs_in _ _ _ _ top) by (try apply Hok; now apply render_prefix).
    intros [(a & Ha & Hp & -> & ->)|[(c & Hc & H)|H]].
    - rewrite push_render by auto. eexists. split; [reflexivity|]. split; [now apply st_attr|].
      constructor; auto. apply seg_of_ok; [|exact I]. destruct Hok as (Hat & _). rewrite Forall_forall in Hat. auto.
    - destruct (skip_field (n_name c)); [destruct H as (e & [] & _)|].
      destruct (stored_names_child n c Hok Hc) as [Hsn Hsy].
      rewrite (list_name_seg reg c top) in H by (auto; now apply render_prefix).
      destruct (proj2 (IH c (IHc c Hc)) (Hch c Hc) top pre q v Htop Hpre Hsn H) as (sl & rest & -> & Hcs & Hf).
      eexists. split; [reflexivity|]. split; [|exact Hf]. destruct sl as [|i|l]; cbn [child_stored] in Hcs.
      + apply st_prop; auto. eapply struct_child_plain; eauto.
      + destruct Hcs as (arr & li & H1 & H2 & H3 & H4). eapply st_item; eauto. eapply struct_child_plain; eauto.
      + destruct Hcs as (arr & li & H1 & H2 & H3 & H4 & -> & ->). eapply st_lang; eauto. eapply struct_child_plain; eauto.
    - destruct (emptyb (n_value n)) eqn:E; [destruct H as (e & [] & _)|].
      destruct H as (e & [<-|[]] & E1 & E2). cbn in E1, E2. subst. exists []. rewrite List.app_nil_r.
      split; auto. split; auto. apply st_value. now apply emptyb_false. }
  split; [exact Hstruct|].
  intros Hpn top pre q v Htop Hpre Hsn Hpv. set (seg := seg_of top (x_local (n_name n)) SAll) in *.
  assert (Hseg : pseg_ok seg) by (apply seg_of_ok; auto).
  rewrite push_render in Hpv by auto.
  assert (Hpre' : Forall pseg_ok (pre ++ [seg])) by (apply Forall_app; split; auto).
  assert (Hsub : struct_node n -> exists sl rest, q = render top (pre ++ seg_of top (x_local (n_name n)) sl :: rest) /\ child_stored top n sl rest v
       /\ Forall pseg_ok (seg_of top (x_local (n_name n)) sl :: rest)).
  { intros Hs. destruct (Hstruct Hs top (pre ++ [seg])%list q v Htop Hpre' Hpv) as (segs & -> & Hst & Hf).
    exists SAll, segs. rewrite <- List.app_assoc. split; auto. }
  destruct (stored_name_local _ Hsn) as [Hnm Hbr].
  inversion Hpn as [n' Hs|n' arr Hna Hsp Hok Hnd Hk2 Hlen Hli|n' arr Hna Hsp Hok Hnd Hk2 Hli Hdup]; subst; auto.
  - (* array *)
    rewrite lp_plain in Hpv by auto. rewrite has_pv_sort, !has_pv_app, has_pv_flat in Hpv.
    rewrite (list_attrs_in _ _ _ _ top) in Hpv by (try apply Hok; now apply render_prefix).
    destruct Hpv as [(a & Ha & Hp & -> & ->)|[(c & Hc & H)|H]].
    + rewrite push_render by auto. exists SAll, [seg_of top (x_local (a_name a)) SAll].
      rewrite <- List.app_assoc. split; [reflexivity|]. split; [now apply st_attr|].
      constructor; auto. constructor; auto. apply seg_of_ok; [|exact I]. destruct Hok as (Hat & _). rewrite Forall_forall in Hat. auto.
    + rewrite Hnd in Hc. destruct Hc as [<-|[]].
      assert (Harr : In arr (n_nodes n)) by (rewrite Hnd; now left).
      destruct (stored_names_child n arr Hok Harr) as [Hsna Hsya].
      destruct (skip_field (n_name arr)); [destruct H as (e & [] & _)|].
      rewrite (list_name_seg reg arr top) in H by (auto; now apply render_prefix).
      assert (Hsega : pseg_ok (seg_of top (x_local (n_name arr)) SAll)) by (apply seg_of_ok; auto).
      rewrite lp_array in H by (auto; apply Hsna). rewrite has_pv_sort, item_list_in in H.
      destruct H as (i & li & c & Hn & Hc & H). cbn [plus] in H.
      rewrite pop_push_render in H by auto.
      assert (Hint : int64 (Z.of_nat i)) by (eapply length_int64; eauto).
      destruct (render_append top pre seg (SIdx i) eq_refl) as [Rs Re]; [apply Hnm|exact Hbr|].
      rewrite append_index_plain in H by auto. change ("[" ++ itoa (Z.of_nat i) ++ "]") with (sel_text (SIdx i)) in H.
      rewrite Re in H. change (PSeg (ps_pfx seg) (ps_name seg) (SIdx i)) with (seg_of top (x_local (n_name n)) (SIdx i)) in H.
      assert (Hli' := Hli li (nth_error_In _ _ Hn)). inversion Hli' as [li' Hna' Hsp' Hok' Hch']; subst.
      destruct (stored_names_child li c Hok' Hc) as [Hsnc Hsyc].
      rewrite push_render in H by auto.
      rewrite (list_name_seg reg c top) in H by (auto; now apply render_prefix).
      assert (Hpre2 : Forall pseg_ok (pre ++ [seg_of top (x_local (n_name n)) (SIdx i)])).
      { apply Forall_app; split; auto. constructor; auto. apply seg_of_ok; auto. }
      destruct (proj2 (IH c (IH2 arr li c Harr (nth_error_In _ _ Hn) Hc)) (Hch' c Hc) top _ q v Htop Hpre2 Hsnc H) as (sl & rest & -> & Hcs & Hf).
      exists (SIdx i), (seg_of top (x_local (n_name c)) sl :: rest). rewrite <- List.app_assoc. split; [reflexivity|].
      split; [|constructor; auto; apply seg_of_ok; auto].
      exists arr, li. repeat split; auto.
      destruct sl as [|j|l]; cbn [child_stored] in Hcs.
      * apply st_prop; auto. eapply struct_child_plain; eauto.
      * destruct Hcs as (arr2 & li2 & H1 & H2 & H3 & H4). eapply st_item; eauto. eapply struct_child_plain; eauto.
      * destruct Hcs as (arr2 & li2 & H1 & H2 & H3 & H4 & -> & ->). eapply st_lang; eauto. eapply struct_child_plain; eauto.
    + destruct (emptyb (n_value n)) eqn:E; [destruct H as (e & [] & _)|].
      destruct H as (e & [<-|[]] & E1 & E2). cbn in E1, E2. subst. exists SAll, [].
      split; auto. split; [|constructor; auto]. apply st_value. now apply emptyb_false.
  - (* language alternative *)
    rewrite lp_plain in Hpv by auto. rewrite has_pv_sort, !has_pv_app, has_pv_flat in Hpv.
    rewrite (list_attrs_in _ _ _ _ top) in Hpv by (try apply Hok; now apply render_prefix).
    destruct Hpv as [(a & Ha & Hp & -> & ->)|[(c & Hc & H)|H]].
    + rewrite push_render by auto. exists SAll, [seg_of top (x_local (a_name a)) SAll].
      rewrite <- List.app_assoc. split; [reflexivity|]. split; [now apply st_attr|].
      constructor; auto. constructor; auto. apply seg_of_ok; [|exact I]. destruct Hok as (Hat & _). rewrite Forall_forall in Hat. auto.
    + rewrite Hnd in Hc. destruct Hc as [<-|[]].
      assert (Harr : In arr (n_nodes n)) by (rewrite Hnd; now left).
      destruct (stored_names_child n arr Hok Harr) as [Hsna Hsya].
      destruct (skip_field (n_name arr)); [destruct H as (e & [] & _)|].
      rewrite (list_name_seg reg arr top) in H by (auto; now apply render_prefix).
      assert (Hsega : pseg_ok (seg_of top (x_local (n_name arr)) SAll)) by (apply seg_of_ok; auto).
      rewrite lp_alt in H by (auto; apply Hsna). rewrite has_pv_sort in H.
      destruct H as (e & He & E1 & E2). apply in_map_iff in He as (li & <- & Hl). cbn in E1, E2.
      rewrite pop_push_render in E1 by auto.
      destruct (Hli li Hl) as (l & Hil & Hlo).
      assert (El : list_lang li = l). { unfold list_lang. apply lang_of_item in Hil. now rewrite Hil. }
      rewrite El in E1. unfold append_index_string in E1.
      destruct (render_append top pre seg (SLang l) eq_refl) as [Rs Re]; [apply Hnm|exact Hbr|].
      rewrite Rs in E1. change ("[" ++ l ++ "]") with (sel_text (SLang l)) in E1. rewrite Re in E1.
      exists (SLang l), []. split; [now rewrite <- E1|]. split; [|constructor; auto; apply seg_of_ok; auto].
      exists arr, li. repeat split; auto.
    + destruct (emptyb (n_value n)) eqn:E; [destruct H as (e & [] & _)|].
      destruct H as (e & [<-|[]] & E1 & E2). cbn in E1, E2. subst. exists SAll, [].
      split; auto. split; [|constructor; auto]. apply st_value. now apply emptyb_false.
Qed.


Lemma items_bare_child (n c : node M) : items_bare n -> In c (n_nodes n) -> items_bare c.
Proof. intros H Hc arr li Ha Hn Hl. apply (H arr li); auto. eapply in_below; eauto. Qed.

Lemma find_node_in (l : list (node M)) c : NoDup (map node_local l) -> (forall x, In x l -> n_model x = None) ->
  In c l -> find_node can l (node_local c) = Some c.
Proof.
  intros Hd Hm Hc. unfold find_node. induction l as [|x r IH]; [destruct Hc|]. cbn [find].
  rewrite matches_none by (apply Hm; now left). cbn in Hd. inversion Hd as [|? ? Hx Hr]; subst.
  destruct Hc as [->|Hc].
  - now rewrite eqb_refl.
  - rewrite (proj2 (eqb_neq _ _)). { apply IH; auto. intros; apply Hm; now right. }
    intros E. apply Hx. rewrite E. now apply in_map.
Qed.

Lemma find_node_absent (l : list (node M)) nm : ~ In nm (map node_local l) -> (forall x, In x l -> n_model x = None) ->
  find_node can l nm = None.
Proof.
  intros Hn Hm. unfold find_node. apply find_all_none. apply Forall_forall. intros x Hx.
  rewrite matches_none by auto. apply eqb_neq. intros E. apply Hn. rewrite <- E. now apply in_map.
Qed.

Lemma get_attr_in (l : list attr) a nm : NoDup (map (fun a => strip_prefix (x_local (a_name a))) l) -> In a l ->
  nm <> "" -> strip_prefix (x_local (a_name a)) = nm -> al_get l "" nm = [a].
Proof.
  intros Hd Ha Hnm En. unfold al_get. rewrite (proj2 (emptyb_false _) Hnm). cbn [emptyb orb andb].
  induction l as [|b r IH]; [destruct Ha|]. cbn [filter]. cbn in Hd. inversion Hd as [|? ? Hb Hr]; subst.
  destruct Ha as [->|Ha].
  - rewrite eqb_refl. f_equal. clear - Hb. induction r as [|c r IH]; cbn [filter]; auto.
    rewrite (proj2 (eqb_neq _ _)). { apply IH. intros H; apply Hb; now right. }
    intros E. apply Hb. left. auto.
  - rewrite (proj2 (eqb_neq _ _)); [now apply IH|]. intros E. apply Hb. rewrite E.
    now apply (in_map (fun a => strip_prefix (x_local (a_name a)))).
Qed.

Lemma NoDup_app_r {A} (a b : list A) : NoDup (a ++ b) -> NoDup b.
Proof. induction a; cbn; auto. intros H. inversion H; auto. Qed.
Lemma NoDup_app_l {A} (a b : list A) : NoDup (a ++ b) -> NoDup a.
Proof. induction a; cbn; intros H; [constructor|]. inversion H; subst. constructor; auto. intros Hi. apply H2. apply in_or_app; auto. Qed.
Lemma NoDup_app_disj {A} (a b : list A) x : NoDup (a ++ b) -> In x a -> ~ In x b.
Proof. induction a; cbn; intros H Hx; [destruct Hx|]. inversion H; subst. destruct Hx as [->|Hx]; auto. intros Hb. apply H2. apply in_or_app; auto. Qed.

Lemma names_find (n c : node M) : raw n -> names_ok n -> In c (n_nodes n) -> find_node can (n_nodes n) (node_local c) = Some c.
Proof.
  intros Hr (_ & _ & Hd) Hc. apply find_node_in; auto.
  - eapply NoDup_app_r; eauto.
  - intros x Hx. apply raw_model. eapply raw_child; eauto.
Qed.

Lemma child_prop (n c : node M) : struct_node n \/ prop_node n -> In c (n_nodes n) -> ~ In (x_local (n_name c)) array_names -> prop_node c.
Proof.
  intros Hsp Hc Hna. destruct Hsp as [Hs|Hs].
  - inversion Hs; subst; auto.
  - inversion Hs as [? H0|? arr ? ? ? E Hk|? arr ? ? ? E Hk]; subst.
    + inversion H0; subst; auto.
    + rewrite E in Hc. destruct Hc as [<-|[]]. exfalso. apply Hna. now apply in_rdf2.
    + rewrite E in Hc. destruct Hc as [<-|[]]. exfalso. apply Hna. rewrite Hk. cbn. auto.
Qed.

Lemma struct_one_array (c arr : node M) : struct_node c -> n_nodes c = [arr] -> ~ In (x_local (n_name arr)) array_names.
Proof. intros Hs E. eapply struct_child_plain; eauto. rewrite E. now left. Qed.

Lemma array_items (c arr : node M) : prop_node c -> n_nodes c = [arr] -> In (x_local (n_name arr)) ["rdf:Seq"; "rdf:Bag"] ->
  (Z.of_nat (List.length (n_nodes arr)) < 2 ^ 63)%Z /\ forall li, In li (n_nodes arr) -> struct_node li.
Proof.
  intros Hp E Hk. inversion Hp as [? H0|? arr' ? ? ? E' Hk'|? arr' ? ? ? E' Hk']; subst.
  - exfalso. eapply struct_one_array; eauto. now apply in_rdf2.
  - rewrite E in E'. inversion E'; subst. auto.
  - rewrite E in E'. inversion E'; subst. rewrite Hk' in Hk. cbn in Hk. intuition discriminate.
Qed.

Lemma alt_items (c arr : node M) : prop_node c -> n_nodes c = [arr] -> x_local (n_name arr) = "rdf:Alt" ->
    (forall li, In li (n_nodes arr) -> exists l, item_lang li l /\ lang_ok l) /\
    (forall i j li lj l, nth_error (n_nodes arr) i = Some li -> nth_error (n_nodes arr) j = Some lj ->
       item_lang li l -> item_lang lj l -> i = j).
Proof.
  intros Hp E Hk. inversion Hp as [? H0|? arr' ? ? ? E' Hk'|? arr' ? ? ? E' Hk']; subst.
  - exfalso. eapply struct_one_array; eauto. rewrite Hk. cbn. auto.
  - rewrite E in E'. inversion E'; subst. rewrite Hk in Hk'. cbn in Hk'. intuition discriminate.
  - rewrite E in E'. inversion E'; subst. auto.
Qed.

Lemma item_lang_fun (li : node M) l1 l2 : item_lang li l1 -> item_lang li l2 -> l1 = l2.
Proof. intros H1 H2. apply lang_of_item in H1, H2. congruence. Qed.

Lemma find_lang (l : list (node M)) li lg :
  (forall i j li lj l0, nth_error l i = Some li -> nth_error l j = Some lj -> item_lang li l0 -> item_lang lj l0 -> i = j) ->
  In li l -> item_lang li lg -> find (has_lang lg) l = Some li.
Proof.
  intros Hd Hi Hl. apply In_nth_error in Hi as [i Hi].
  destruct (find (has_lang lg) l) as [x|] eqn:E.
  - apply find_some in E as [Hx Ex]. apply has_lang_item in Ex. apply In_nth_error in Hx as [j Hj].
    assert (i = j) by (eapply Hd; eauto). subst. congruence.
  - exfalso. pose proof (find_none _ _ E li (nth_error_In _ _ Hi)) as H. apply has_lang_item in Hl. congruence.
Qed.

Theorem stored_read top n segs v : stored top n segs v -> raw n ->
  (struct_node n \/ prop_node n) -> Forall pseg_ok segs /\ read n segs = v.
Proof.
  intros Hst. induction Hst as [n Hne|n a Ha Hp|n c rest v Hc Hna Hst IH|n c arr i li rest v Hc Hna Hnd Hk Hn Hst IH|n c arr li l Hc Hna Hnd Hk Hl Hil];
    intros Hraw Hsp;
    assert (Hok : names_ok n) by (destruct Hsp; [now apply struct_name_ok|now apply prop_name_ok]).
  - split; auto.
  - assert (Hsn : stored_name (a_name a)). { destruct Hok as (H & _). rewrite Forall_forall in H. auto. }
    destruct (stored_name_local _ Hsn) as [Hnm _].
    split. { constructor; auto. now apply seg_of_ok. }
    cbn [NodeFacts.read seg_of ps_name ps_sel]. destruct Hok as (Hat & Hch & Hd).
    rewrite find_node_absent.
    + unfold get_attr. rewrite (get_attr_in _ a); auto; [eapply NoDup_app_l; eauto|apply Hnm].
    + eapply NoDup_app_disj; [exact Hd|]. now apply (in_map (fun a => strip_prefix (x_local (a_name a)))).
    + intros x Hx. apply raw_model. eapply raw_child; eauto.
  - destruct (stored_names_child n c Hok Hc) as [Hsn _].
    assert (Hpc : prop_node c) by (eapply child_prop; eauto).
    destruct IH as [IH1 IH2]; [eapply raw_child; eauto|auto|].
    split. { constructor; auto. now apply seg_of_ok. }
    rewrite (read_cons can n _ rest c) by (now apply names_find). exact IH2.
  - destruct (stored_names_child n c Hok Hc) as [Hsn _].
    assert (Hpc : prop_node c) by (eapply child_prop; eauto).
    destruct (array_items c arr Hpc Hnd Hk) as [Hlen Hli].
    assert (Hrc : raw c) by (eapply raw_child; eauto).
    assert (Hra : raw arr) by (eapply raw_child; [exact Hrc|rewrite Hnd; now left]).
    destruct IH as [IH1 IH2]; [eapply raw_child; [exact Hra|eapply nth_error_In; eauto]|left; apply Hli; eapply nth_error_In; eauto|].
    split. { constructor; auto. apply seg_of_ok; auto. eapply length_int64; eauto. }
    rewrite (read_cons can n _ rest c) by (now apply names_find). cbn [seg_of ps_sel read_sel]. now rewrite Hnd, Hn.
  - destruct (stored_names_child n c Hok Hc) as [Hsn _].
    assert (Hpc : prop_node c) by (eapply child_prop; eauto).
    destruct (alt_items c arr Hpc Hnd Hk) as [Hli Hdup].
    destruct (Hli li Hl) as (l' & Hil' & Hlo). rewrite (item_lang_fun _ _ _ Hil' Hil) in Hlo.
    split. { constructor; auto. now apply seg_of_ok. }
    rewrite (read_cons can n _ [] c) by (now apply names_find). cbn [seg_of ps_sel read_sel]. rewrite Hnd.
    now rewrite (find_lang (n_nodes arr) li l).
Qed.

Lemma bare_stored top (li : node M) rest v : n_value li = "" -> (forall a, In a (n_attrs li) -> ~ is_property a) ->
  stored top li rest v -> exists c sl rest', rest = seg_of top (x_local (n_name c)) sl :: rest' /\ In c (n_nodes li).
Proof.
  intros Hv Ha Hst. inversion Hst; subst; eauto; try congruence. exfalso. eapply Ha; eauto.
Qed.

(* completeness of the listing *)
Theorem stored_listed top (n : node M) segs v : stored top n segs v -> items_bare n -> no_char ":" top ->
  (struct_node n \/ prop_node n) -> forall pre, Forall pseg_ok pre ->
  has_pv (lp n (render top pre)) (render top (pre ++ segs)) v.
Proof.
  intros Hst. induction Hst as [n Hne|n a Ha Hp|n c rest v Hc Hna Hst IH|n c arr i li rest v Hc Hna Hnd Hk Hn Hst IH|n c arr li l Hc Hna Hnd Hk Hl Hil];
    intros Hbare Htop Hsp pre Hpre;
    assert (Hok : names_ok n) by (destruct Hsp; [now apply struct_name_ok|now apply prop_name_ok]);
    assert (Hpl : ~ In (x_local (n_name n)) array_names /\ x_space (n_name n) = "") by
      (destruct Hsp as [Hs|Hs]; [inversion Hs; auto|now apply prop_plain]);
    rewrite lp_plain by tauto; rewrite has_pv_sort, !has_pv_app.
  - right. right. rewrite (proj2 (emptyb_false _) Hne), List.app_nil_r. eexists. split; [now left|]. auto.
  - left. rewrite (list_attrs_in _ _ _ _ top); [|now apply render_prefix|apply Hok].
    exists a. repeat split; auto. now rewrite push_render.
  - right. left. apply has_pv_flat. exists c. split; auto.
    destruct (stored_names_child n c Hok Hc) as [Hsn Hsy].
    destruct (skip_field (n_name c)) eqn:Es. { apply skip_stored in Es; tauto. }
    assert (Hpc : prop_node c) by (eapply child_prop; eauto).
    rewrite (list_name_seg reg c top), push_render by (auto; now apply render_prefix).
    change (seg_of top (x_local (n_name c)) SAll :: rest) with ([seg_of top (x_local (n_name c)) SAll] ++ rest)%list.
    rewrite List.app_assoc. apply IH; auto.
    + eapply items_bare_child; eauto.
    + apply Forall_app. split; auto. constructor; auto. now apply seg_of_ok.
  - right. left. apply has_pv_flat. exists c. split; auto.
    destruct (stored_names_child n c Hok Hc) as [Hsn Hsy].
    destruct (skip_field (n_name c)) eqn:Es. { apply skip_stored in Es; tauto. }
    assert (Hpc : prop_node c) by (eapply child_prop; eauto).
    assert (Hbc : items_bare c) by (eapply items_bare_child; eauto).
    rewrite (list_name_seg reg c top), push_render by (auto; now apply render_prefix).
    set (seg := seg_of top (x_local (n_name c)) SAll).
    assert (Hseg : pseg_ok seg) by now apply seg_of_ok.
    assert (Hpre' : Forall pseg_ok (pre ++ [seg])) by (apply Forall_app; auto).
    destruct (stored_name_local _ Hsn) as [Hnm Hbr].
    rewrite lp_plain by (try apply prop_plain; auto). rewrite has_pv_sort, !has_pv_app. right. left.
    rewrite has_pv_flat. exists arr.
    assert (Harr : In arr (n_nodes c)) by (rewrite Hnd; now left). split; auto.
    destruct (stored_names_child c arr (prop_name_ok c Hpc) Harr) as [Hsna Hsya].
    destruct (skip_field (n_name arr)) eqn:Es2. { apply skip_stored in Es2; tauto. }
    rewrite (list_name_seg reg arr top) by (auto; now apply render_prefix).
    assert (Hsega : pseg_ok (seg_of top (x_local (n_name arr)) SAll)) by (apply seg_of_ok; auto).
    rewrite lp_array by (auto; apply Hsna). rewrite has_pv_sort, item_list_in.
    destruct (Hbare arr li) as [Hbv Hba]; auto.
    { eapply in_below; [exact Hc|]. eapply in_below; [exact Harr|]. constructor. }
    { eapply nth_error_In; eauto. }
    destruct (array_items c arr Hpc Hnd Hk) as [Hlen Hli].
    assert (Hlist := Hli li (nth_error_In _ _ Hn)). inversion Hlist as [li' Hna' Hsp' Hok' Hch']; subst.
    assert (Hbl : items_bare li).
    { eapply items_bare_child; [eapply items_bare_child; eauto|]. eapply nth_error_In; eauto. }
    assert (Hsegi : pseg_ok (seg_of top (x_local (n_name c)) (SIdx i))). { apply seg_of_ok; auto. eapply length_int64; eauto. }
    assert (Hprei : Forall pseg_ok (pre ++ [seg_of top (x_local (n_name c)) (SIdx i)])) by (apply Forall_app; auto).
    specialize (IH Hbl Htop (or_introl Hlist) _ Hprei).
    rewrite lp_plain in IH by auto. rewrite has_pv_sort, !has_pv_app, has_pv_flat in IH.
    rewrite (list_attrs_in _ _ _ _ top) in IH by (try apply Hok'; now apply render_prefix).
    rewrite Hbv in IH. cbn [emptyb] in IH.
    destruct IH as [(a & Ha & Hp & _)|[(x & Hx & IH)|(e & [] & _)]]; [now apply Hba in Hp|].
    destruct (skip_field (n_name x)); [destruct IH as (e & [] & _)|].
    exists i, li, x. split; auto. split; auto. cbn [plus].
    rewrite pop_push_render by auto.
    destruct (render_append top pre seg (SIdx i) eq_refl) as [Rs Re]; [apply Hnm|exact Hbr|].
    rewrite append_index_plain by auto. change ("[" ++ itoa (Z.of_nat i) ++ "]") with (sel_text (SIdx i)).
    rewrite Re. change (PSeg (ps_pfx seg) (ps_name seg) (SIdx i)) with (seg_of top (x_local (n_name c)) (SIdx i)).
    destruct (stored_names_child li x Hok' Hx) as [Hsnx _].
    rewrite (list_name_seg reg x top) in IH by (auto; now apply render_prefix).
    rewrite (list_name_seg reg x top) by (auto; rewrite push_render by auto; now apply render_prefix).
    rewrite <- List.app_assoc in IH. exact IH.
  - right. left. apply has_pv_flat. exists c. split; auto.
    destruct (stored_names_child n c Hok Hc) as [Hsn Hsy].
    destruct (skip_field (n_name c)) eqn:Es. { apply skip_stored in Es; tauto. }
    assert (Hpc : prop_node c) by (eapply child_prop; eauto).
    rewrite (list_name_seg reg c top), push_render by (auto; now apply render_prefix).
    set (seg := seg_of top (x_local (n_name c)) SAll).
    assert (Hseg : pseg_ok seg) by now apply seg_of_ok.
    assert (Hpre' : Forall pseg_ok (pre ++ [seg])) by (apply Forall_app; auto).
    destruct (stored_name_local _ Hsn) as [Hnm Hbr].
    rewrite lp_plain by (try apply prop_plain; auto). rewrite has_pv_sort, !has_pv_app. right. left.
    rewrite has_pv_flat. exists arr.
    assert (Harr : In arr (n_nodes c)) by (rewrite Hnd; now left). split; auto.
    destruct (stored_names_child c arr (prop_name_ok c Hpc) Harr) as [Hsna Hsya].
    destruct (skip_field (n_name arr)) eqn:Es2. { apply skip_stored in Es2; tauto. }
    rewrite (list_name_seg reg arr top) by (auto; now apply render_prefix).
    assert (Hsega : pseg_ok (seg_of top (x_local (n_name arr)) SAll)) by (apply seg_of_ok; auto).
    rewrite lp_alt by (auto; apply Hsna). rewrite has_pv_sort.
    eexists. split; [apply in_map; exact Hl|]. cbn [pv_path pv_value]. split; auto.
    rewrite pop_push_render by auto.
    assert (El : list_lang li = l). { unfold list_lang. apply lang_of_item in Hil. now rewrite Hil. }
    rewrite El. unfold append_index_string.
    destruct (render_append top pre seg (SLang l) eq_refl) as [Rs Re]; [apply Hnm|exact Hbr|].
    rewrite Rs. change ("[" ++ l ++ "]") with (sel_text (SLang l)). exact Re.
Qed.

End List.

Section Z.
Context {M : Type}.
Lemma listed_is_stored reg sortf (n : node M) ns q v :
  sorts sortf -> struct_node n -> no_char ":" ns ->
  has_pv (list_paths reg sortf n (render ns [])) q v ->
  exists segs, q = render ns segs /\ stored ns n segs v.
Proof.
  intros Hs Hn Hns H. destruct (proj1 (listed_stored reg sortf Hs (node_size n) n (le_n _)) Hn ns [] q v Hns (Forall_nil _) H) as (segs & E & S & _).
  eauto.
Qed.
Lemma listed_read can reg sortf (n : node M) ns q v :
  sorts sortf -> raw n -> struct_node n -> no_char ":" ns ->
  has_pv (list_paths reg sortf n (render ns [])) q v -> node_get_path can n q = Ok v.
Proof.
  intros Hs Hr Hn Hns H. destruct (listed_is_stored reg sortf n ns q v Hs Hn Hns H) as (segs & -> & St).
  destruct (stored_read can ns n segs v St Hr (or_introl Hn)) as [Hok <-]. now apply get_path_render.
Qed.
Lemma stored_is_listed reg sortf (n : node M) ns segs v :
  sorts sortf -> struct_node n -> items_bare n -> no_char ":" ns ->
  stored ns n segs v -> has_pv (list_paths reg sortf n (render ns [])) (render ns segs) v.
Proof. intros Hs Hn Hb Hns St. exact (stored_listed reg sortf Hs ns n segs v St Hb Hns (or_introl Hn) [] (Forall_nil _)). Qed.
Lemma list_paths_sorted reg sortf (n : node M) p : sorts sortf -> StronglySorted path_le (list_paths reg sortf n p).
Proof. intros Hs. destruct n. apply Hs. Qed.
End Z.
