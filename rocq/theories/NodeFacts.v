(* Facts about node trees *)
From Coq Require Import List Arith ZArith Bool Ascii String Lia Permutation.
From Verif Require Import GoStr GoStrFacts Names PathM SyncFlags PVList RegistryM NodeM Spec SpecFacts SpecBasic PathFacts SpecNode.
Local Open Scope string_scope.

(* ---- induction over trees ---------------------------------------------------------------- *)
Section Ind.
Context {M : Type}.
Variable P : node M -> Prop.
Hypothesis H : forall x a m v l, Forall P l -> P (Node x a m v l).
Fixpoint node_ind' (n : node M) : P n :=
  match n with
  | Node x a m v l =>
      H x a m v l ((fix go (l : list (node M)) : Forall P l :=
                      match l with [] => Forall_nil P | c :: r => Forall_cons c (node_ind' c) (go r) end) l)
  end.
End Ind.

Lemma node_eta {M} (n : node M) : n = Node (n_name n) (n_attrs n) (n_model n) (n_value n) (n_nodes n).
Proof. now destruct n. Qed.

(* ---- paths ------------------------------------------------------------------------------- *)
Lemma no_char_app c a b : no_char c a -> no_char c b -> no_char c (a ++ b).
Proof. unfold no_char. intros. now rewrite has_char_app, H, H0. Qed.

Lemma sel_text_no_char c s : Ascii.eqb c "[" = false -> Ascii.eqb c "]" = false -> Ascii.eqb c "-" = false ->
  is_digit c = false ->
  match s with SAll => True | SIdx i => True | SLang l => no_char c l end -> no_char c (sel_text s).
Proof.
  intros H1 H2 H3 H4 H. destruct s as [|i|l]; cbn [sel_text]; [reflexivity| |].
  - apply no_char_app; [unfold no_char; cbn; now rewrite H1|].
    apply no_char_app; [now apply itoa_no_char|unfold no_char; cbn; now rewrite H2].
  - apply no_char_app; [unfold no_char; cbn; now rewrite H1|].
    apply no_char_app; [auto|unfold no_char; cbn; now rewrite H2].
Qed.

Lemma pseg_sel_no_char c s : pseg_ok s -> c = "/"%char \/ c = ":"%char -> no_char c (sel_text (ps_sel s)).
Proof.
  intros (_ & _ & Hs) Hc. apply sel_text_no_char; try (destruct Hc; subst; reflexivity).
  destruct (ps_sel s); auto. destruct Hs as (_ & ? & ? & _). destruct Hc; subst; auto.
Qed.

Definition local_text (s : pseg) : string := ps_name s ++ sel_text (ps_sel s).

Lemma local_text_ok s : pseg_ok s -> local_text s <> "" /\ no_char "/" (local_text s) /\ no_char ":" (local_text s).
Proof.
  intros H. destruct H as ((H1 & H2 & H3 & H4) & H5 & H6) eqn:E. clear E. repeat split.
  - unfold local_text. destruct (ps_name s); cbn; congruence.
  - apply no_char_app; auto. apply pseg_sel_no_char; auto.
  - apply no_char_app; auto. apply pseg_sel_no_char; auto.
Qed.

Lemma pseg_text_local s : pseg_text s = seg_text (ps_pfx s, local_text s).
Proof. unfold pseg_text, seg_text, local_text. cbn [fst snd]. destruct (ps_pfx s); cbn [pfx_text]; [now rewrite app_assoc|reflexivity]. Qed.

Lemma pseg_seg_spec s : pseg_ok s -> seg_spec_ok (ps_pfx s, local_text s).
Proof.
  intros H. destruct (local_text_ok s H) as (A & B & C). destruct H as (_ & H & _).
  unfold seg_spec_ok. cbn [fst snd]. repeat split; auto.
  destruct (ps_pfx s); auto. destruct H as (? & ? & ?); auto.
Qed.

Definition next_ns (ns : string) (s : pseg) : string := match ps_pfx s with Some q => q | None => ns end.

Lemma next_ns_ok ns s : no_char ":" ns -> pseg_ok s -> no_char ":" (next_ns ns s).
Proof. intros H (_ & H1 & _). unfold next_ns. destruct (ps_pfx s); auto. now destruct H1 as (_ & _ & ?). Qed.

Lemma pseg_text_ok s : pseg_ok s -> seg_ok (pseg_text s).
Proof. intros H. rewrite pseg_text_local. apply seg_text_ok. now apply pseg_seg_spec. Qed.

Lemma psegs_text_ok l : Forall pseg_ok l -> Forall seg_ok (map pseg_text l).
Proof. intros H. rewrite Forall_map. eapply Forall_impl; [|exact H]. intros; now apply pseg_text_ok. Qed.

(* a head segment with an arbitrary local text *)
Lemma pop_front_head ns q t rest : no_char ":" ns ->
  match q with Some q => pfx_ok q | None => True end ->
  t <> "" -> no_char "/" t -> no_char ":" t ->
  exists rest', pop_front (new_path ns ((pfx_text q ++ t) :: rest)) =
    (t, new_path (match q with Some q => q | None => ns end) rest').
Proof.
  intros Hns Hq Ht Hs Hc.
  assert (Hseg : seg_ok (pfx_text q ++ t)).
  { split.
    - destruct q; cbn [pfx_text]; [|exact Ht]. destruct s; cbn; congruence.
    - apply no_char_app; auto. destruct q; cbn [pfx_text]; [|reflexivity].
      apply no_char_app; [apply Hq|reflexivity]. }
  assert (exists rest', fields (new_path ns ((pfx_text q ++ t) :: rest)) = (pfx_text q ++ t) :: rest') as [rest' Hf].
  { rewrite fields_new_gen by auto. cbv zeta. rewrite trim_prefix_join by auto.
    match goal with |- context[emptyb ?x] => destruct (emptyb x) eqn:E end. { apply emptyb_true in E. exfalso. eapply join_nonempty; [|exact E]. apply Hseg. }
    destruct rest as [|r rest].
    - exists []. cbn [join String.concat]. unfold join. cbn. rewrite split_char_none; [reflexivity|]. apply Hseg.
    - exists (split_char "/" (join "/" (r :: rest))). rewrite join_cons.
      change ("/" ++ join "/" (r :: rest)) with (String "/" (join "/" (r :: rest))).
      apply split_char_app. apply Hseg. }
  exists rest'. unfold pop_front. rewrite Hf.
  destruct q as [q|]; cbn [pfx_text].
  - destruct Hq as (Q1 & Q2 & Q3). rewrite app_assoc.
    rewrite has_prefix_qualified, strip_prefix_qualified, get_prefix_qualified by auto. reflexivity.
  - cbn [append]. rewrite has_prefix_none by auto. rewrite namespace_prefix_new by auto. reflexivity.
Qed.

Lemma pop_front_render ns s rest : no_char ":" ns -> Forall pseg_ok (s :: rest) ->
  pop_front (render ns (s :: rest)) = (local_text s, render (next_ns ns s) rest).
Proof.
  intros Hns H. inversion H as [|? ? H1 H2]; subst.
  unfold pop_front, render. rewrite fields_new by (auto; now apply (psegs_text_ok (s :: rest))).
  cbn [map]. rewrite pseg_text_local.
  destruct (pseg_seg_spec s H1) as (A & B & C). cbn [fst snd] in A, B, C.
  unfold seg_text, next_ns. cbn [fst snd]. destruct (ps_pfx s) as [q|].
  - destruct C as (Q1 & Q2 & Q3).
    rewrite has_prefix_qualified, strip_prefix_qualified, get_prefix_qualified by auto. reflexivity.
  - rewrite has_prefix_none by auto. rewrite namespace_prefix_new by auto. reflexivity.
Qed.

Definition sel_idx (s : selector) : Z := match s with SIdx i => Z.of_nat i | _ => (-1)%Z end.
Definition sel_lang (s : selector) : string := match s with SLang l => l | _ => "" end.

Lemma parse_local s : pseg_ok s -> parse_segment (local_text s) = (ps_name s, sel_idx (ps_sel s), sel_lang (ps_sel s)).
Proof.
  intros ((H1 & H2 & H3 & H4) & _ & Hs). unfold local_text. destruct (ps_sel s) as [|i|l]; cbn [sel_text sel_idx sel_lang].
  - rewrite app_nil_r. now apply parse_segment_plain.
  - rewrite parse_segment_suffix by auto. rewrite (proj2 (emptyb_false _) (itoa_nonempty _)), atoi_itoa by auto. reflexivity.
  - destruct Hs as (A & B & C & D). rewrite parse_segment_suffix by auto.
    rewrite (proj2 (emptyb_false _) A), D. reflexivity.
Qed.

Lemma path_len_render ns l : no_char ":" ns -> Forall pseg_ok l -> path_len (render ns l) = List.length l.
Proof.
  intros H1 H2. rewrite path_len_fields. unfold render. rewrite fields_new, map_length; auto.
  now apply psegs_text_ok.
Qed.

Lemma render_prefix ns l : no_char ":" ns -> namespace_prefix (render ns l) = ns.
Proof. intros. now apply namespace_prefix_new. Qed.

Lemma strip_prefix_none s : no_char ":" s -> strip_prefix s = s.
Proof. intros H. unfold strip_prefix. now rewrite (proj2 (index_char_none _ _) H). Qed.

(* ---- reading and writing along lists of segments ------------------------------------------- *)
Section Ops.
Context {M : Type}.
Variable can : M -> string -> bool.
Variable reg : registry.

Notation matches := (matches can).
Notation find_node := (find_node can).
Notation get_path_f := (get_path_f can).
Notation set_path_f := (set_path_f can reg).

Fixpoint read (n : node M) (l : list pseg) : string :=
  match l with
  | [] => n_value n
  | s :: rest =>
      match find_node (n_nodes n) (ps_name s) with
      | Some c =>
          match ps_sel s with
          | SAll => read c rest
          | SIdx i =>
              match n_nodes c with
              | [] => ""
              | arr :: _ => match nth_error (n_nodes arr) i with Some li => read li rest | None => "" end
              end
          | SLang l =>
              match n_nodes c with
              | [] => ""
              | arr :: _ => match find (has_lang l) (n_nodes arr) with Some li => n_value li | None => "" end
              end
          end
      | None => match get_attr n "" (ps_name s) with a :: _ => a_value a | [] => "" end
      end
  end.

Lemma get_path_f_render fuel : forall n ns l, no_char ":" ns -> Forall pseg_ok l -> List.length l < fuel ->
  get_path_f fuel n (render ns l) = Ok (read n l).
Proof.
  induction fuel as [|f IH]; intros n ns l Hns Hok Hlen; [lia|].
  destruct l as [|s rest].
  - cbn [NodeM.get_path_f]. rewrite pop_front_empty by (now rewrite path_len_render).
    cbn [parse_segment index_char]. cbn. now rewrite path_len_render.
  - assert (Hp := pop_front_render ns s rest Hns Hok).
    inversion Hok as [|? ? H1 H2]; subst. cbn [NodeM.get_path_f]. rewrite Hp, parse_local by auto.
    assert (E1 : (sel_idx (ps_sel s) <? -1)%Z = false).
    { apply Z.ltb_ge. destruct (ps_sel s); cbn [sel_idx]; lia. }
    rewrite E1.
    assert (E2 : emptyb (ps_name s) = false) by (apply emptyb_false; apply H1).
    rewrite E2. cbn [andb]. rewrite strip_prefix_none by apply H1.
    cbn [read]. destruct (find_node (n_nodes n) (ps_name s)) as [c|].
    2:{ destruct (get_attr n "" (ps_name s)); reflexivity. }
    pose proof (next_ns_ok ns s Hns H1) as Hn'.
    destruct (ps_sel s) as [|i|lg] eqn:Es; cbn [sel_idx sel_lang].
    + cbn [emptyb negb]. change (-1 <? -1)%Z with false. cbn iota. apply IH; auto. cbn in Hlen; lia.
    + replace (-1 <? Z.of_nat i)%Z with true by (symmetry; apply Z.ltb_lt; lia).
      rewrite Nat2Z.id. destruct (n_nodes c) as [|arr more]; auto.
      destruct (nth_error (n_nodes arr) i); auto. apply IH; auto. cbn in Hlen; lia.
    + change (-1 <? -1)%Z with false. cbn iota.
      destruct H1 as (_ & _ & Hs). rewrite Es in Hs. rewrite (proj2 (emptyb_false _) (proj1 Hs)). cbn [negb].
      destruct (n_nodes c) as [|arr more]; auto. destruct (find _ _); auto.
Qed.

Lemma get_path_render n ns l : no_char ":" ns -> Forall pseg_ok l ->
  node_get_path can n (render ns l) = Ok (read n l).
Proof. intros. unfold node_get_path. apply get_path_f_render; auto. rewrite path_len_render; auto. Qed.

(* fuel is never exhausted: there is no panic and more fuel changes nothing *)
Lemma get_path_fuel : forall f1 f2 n p, path_len p < f1 -> path_len p < f2 ->
  get_path_f f1 n p = get_path_f f2 n p /\ get_path_f f1 n p <> Panic.
Proof.
  induction f1 as [|f1 IH]; intros f2 n p H1 H2; [lia|]. destruct f2 as [|f2]; [lia|].
  cbn [NodeM.get_path_f]. destruct (pop_front p) as [seg p'] eqn:Ep.
  destruct (parse_segment seg) as [[name idx] lang] eqn:Eseg.
  destruct (Z.ltb idx (-1)); [split; [reflexivity|discriminate]|].
  destruct (Nat.eq_dec (path_len p) 0) as [Hz|Hz].
  - rewrite pop_front_empty in Ep by auto. inversion Ep; subst. cbn in Eseg. inversion Eseg; subst. cbn.
    rewrite Hz. cbn. split; [reflexivity|discriminate].
  - assert (Hd : path_len p' < path_len p).
    { replace p' with (snd (pop_front p)) by now rewrite Ep. apply pop_front_decreases. lia. }
    destruct (emptyb name && (idx =? -1)%Z && emptyb lang).
    { destruct (Nat.eqb (path_len p') 0); [split; [reflexivity|discriminate]|]. apply IH; lia. }
    destruct (find_node _ _) as [c|].
    + destruct (Z.ltb (-1) idx).
      * destruct (n_nodes c); [split; [reflexivity|discriminate]|].
        destruct (nth_error _ _); [apply IH; lia|split; [reflexivity|discriminate]].
      * destruct (negb (emptyb lang)).
        -- destruct (n_nodes c); [split; [reflexivity|discriminate]|].
           destruct (find _ _); (split; [reflexivity|discriminate]).
        -- apply IH; lia.
    + destruct (get_attr _ _ _); (split; [reflexivity|discriminate]).
Qed.

(* writing, with the path already split *)
Fixpoint write (ns : string) (l : list pseg) (value : string) (flags : Z) (n : node M) : node M * result unit :=
  match l with
  | [] => (set_value n value, Ok tt)
  | s :: rest =>
      if negb (Nat.eqb (List.length (get_attr n "" (ps_name s))) 0)
         && ((on flags REPLACE && negb (emptyb value)) || (on flags DELETE && emptyb value))
      then (n, Ok tt)
      else
        let ns' := next_ns ns s in
        let rec li := write ns' rest value flags li in
        let child c := set_child can reg (fun li _ => rec li) c (render ns' rest) (sel_idx (ps_sel s)) (sel_lang (ps_sel s)) value flags in
        match upd_first (matches (ps_name s)) (fun c => let '(c', e) := child c in (Some c', e)) (n_nodes n) with
        | Some (l, e) => (set_nodes n l, e)
        | None =>
            if on flags CREATE && negb (emptyb value) then
              let '(c', e) := child (new_node (new_name (ns' ++ ":" ++ ps_name s))) in (add_node n c', e)
            else (n, Err "CREATE flag required to make node")
        end
  end.

Lemma upd_first_ext t f g (l : list (node M)) : (forall c, In c l -> f c = g c) -> upd_first t f l = upd_first t g l.
Proof.
  induction l as [|v r IH]; intros H; cbn; auto. rewrite (H v) by (left; reflexivity).
  rewrite IH by (intros; apply H; now right). reflexivity.
Qed.
Lemma upd_nth_ext i : forall f g (l : list (node M)), (forall c, f c = g c) -> upd_nth i f l = upd_nth i g l.
Proof. induction i as [|i IH]; intros f g [|v r] H; cbn; auto; [now rewrite H|]. now rewrite (IH f g r H). Qed.

Lemma set_array_ext r1 r2 (c : node M) p' idx value flags :
  (forall li, r1 li p' = r2 li p') -> set_array can r1 c p' idx value flags = set_array can r2 c p' idx value flags.
Proof.
  intros H. unfold set_array.
  assert (E : forall arr, 
    (if Nat.ltb 0 (path_len p') then
      let i := Z.to_nat (if (idx <? 0)%Z then 0%Z else idx) in
      if Nat.leb (List.length (n_nodes arr)) i && negb (on flags (Z.lor CREATE APPEND)) && negb (emptyb value)
      then (Some arr, Err "CREATE flag required to extend array")
      else let '(l, e) := upd_nth i (fun li => r1 li p') (grow i (n_nodes arr)) in
           (Some (set_nodes arr l), e)
    else set_array_end arr idx value flags) =
    (if Nat.ltb 0 (path_len p') then
      let i := Z.to_nat (if (idx <? 0)%Z then 0%Z else idx) in
      if Nat.leb (List.length (n_nodes arr)) i && negb (on flags (Z.lor CREATE APPEND)) && negb (emptyb value)
      then (Some arr, Err "CREATE flag required to extend array")
      else let '(l, e) := upd_nth i (fun li => r2 li p') (grow i (n_nodes arr)) in
           (Some (set_nodes arr l), e)
    else set_array_end arr idx value flags)).
  { intros arr. destruct (Nat.ltb 0 (path_len p')); auto. cbn zeta.
    now rewrite (upd_nth_ext _ (fun li => r1 li p') (fun li => r2 li p')) by (intros; apply H). }
  cbv beta zeta in *.
  rewrite (upd_first_ext _ _ _ (n_nodes c) (fun arr _ => E arr)).
  destruct (upd_first (matches "Seq") _ _) as [[? ?]|]; auto.
  rewrite (upd_first_ext _ _ _ (n_nodes c) (fun arr _ => E arr)).
  destruct (upd_first (matches "Bag") _ _) as [[? ?]|]; auto.
  destruct (negb (on flags CREATE)); auto. now rewrite E.
Qed.

Lemma set_child_ext r1 r2 (c : node M) p' idx lang value flags :
  (forall li, r1 li p' = r2 li p') ->
  set_child can reg r1 c p' idx lang value flags = set_child can reg r2 c p' idx lang value flags.
Proof.
  intros H. unfold set_child. rewrite (set_array_ext r1 r2) by auto.
  destruct (_ || _); auto. destruct (negb (emptyb lang)); auto.
  unfold set_simple. destruct (Nat.ltb _ _); auto.
Qed.

Lemma set_path_f_render fuel : forall n ns l value flags, no_char ":" ns -> Forall pseg_ok l -> List.length l < fuel ->
  set_path_f fuel n (render ns l) value flags = write ns l value flags n.
Proof.
  induction fuel as [|f IH]; intros n ns l value flags Hns Hok Hlen; [lia|].
  destruct l as [|s rest].
  - cbn [NodeM.set_path_f]. rewrite pop_front_empty by (now rewrite path_len_render).
    cbn [parse_segment index_char]. cbn. now rewrite path_len_render.
  - assert (Hp := pop_front_render ns s rest Hns Hok).
    inversion Hok as [|? ? H1 H2]; subst. cbn [NodeM.set_path_f]. rewrite Hp, parse_local by auto.
    assert (E1 : (sel_idx (ps_sel s) <? -1)%Z = false).
    { apply Z.ltb_ge. destruct (ps_sel s); cbn [sel_idx]; lia. }
    rewrite E1.
    assert (E2 : emptyb (ps_name s) = false) by (apply emptyb_false; apply H1).
    rewrite E2. cbn [andb negb]. rewrite strip_prefix_none by apply H1.
    rewrite has_prefix_none by apply H1. cbn [negb].
    pose proof (next_ns_ok ns s Hns H1) as Hn'. rewrite render_prefix by auto.
    cbn [write]. 
    assert (Hrec : forall li, set_path_f f li (render (next_ns ns s) rest) value flags
                              = write (next_ns ns s) rest value flags li).
    { intros. apply IH; auto. cbn in Hlen. lia. }
    rewrite (upd_first_ext _ _ (fun c => let '(c', e) := set_child can reg
         (fun li _ => write (next_ns ns s) rest value flags li) c
         (render (next_ns ns s) rest) (sel_idx (ps_sel s)) (sel_lang (ps_sel s)) value flags in (Some c', e)) (n_nodes n)).
    2:{ intros c _. now rewrite (set_child_ext _ (fun li _ => write (next_ns ns s) rest value flags li)) by (intros; apply Hrec). }
    rewrite (set_child_ext _ (fun li _ => write (next_ns ns s) rest value flags li) (new_node _)) by (intros; apply Hrec).
    reflexivity.
Qed.

Lemma set_path_render n ns l value flags : no_char ":" ns -> Forall pseg_ok l ->
  node_set_path can reg n (render ns l) value flags = write ns l value flags n.
Proof. intros. unfold node_set_path. apply set_path_f_render; auto. rewrite path_len_render; auto. Qed.

End Ops.
