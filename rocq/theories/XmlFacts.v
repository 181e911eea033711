(* Token stream round trip *)
From Coq Require Import List Arith ZArith Bool Ascii String Lia.
From Verif Require Import GoStr GoStrFacts Names NodeM XmlM Spec SpecBasic SpecNode NodeFacts NodePathFacts.
Local Open Scope string_scope.

Section X.
Context {M : Type}.
Notation db := (decode_body (M := M)).

Lemma db_rest f : forall v ns t v' l' r, db f v ns t = Some (v', l', r) -> List.length r < List.length t.
Proof.
  induction f as [|f IH]; intros v ns t v' l' r H; [discriminate|]. cbn [decode_body] in H.
  destruct t as [|[x a|s|] t]; [discriminate| | |].
  - destruct (db f "" [] t) as [[[v1 l1] r1]|] eqn:E; [|discriminate].
    apply IH in E, H. cbn [List.length]. lia.
  - apply IH in H. cbn [List.length]. lia.
  - inversion H; subst. cbn. lia.
Qed.

Lemma db_fuel : forall f1 f2 v ns t, List.length t < f1 -> List.length t < f2 -> db f1 v ns t = db f2 v ns t.
Proof.
  induction f1 as [|f1 IH]; intros f2 v ns t H1 H2; [lia|]. destruct f2 as [|f2]; [lia|]. cbn [decode_body].
  destruct t as [|[x a|s|] t]; cbn [List.length] in *; auto.
  - rewrite (IH f2 "" [] t) by lia. destruct (db f2 "" [] t) as [[[v1 l1] r1]|] eqn:E; auto.
    apply db_rest in E. apply IH; lia.
  - apply IH; lia.
Qed.

Definition dec (v : string) (ns : list (node M)) (t : list token) : option (string * list (node M) * list token) :=
  db (S (List.length t)) v ns t.

Lemma dec_end v ns r : dec v ns (TEnd :: r) = Some (v, ns, r).
Proof. reflexivity. Qed.
Lemma dec_char v ns s r : dec v ns (TChar s :: r) = dec (trim_space s) ns r.
Proof.
  unfold dec. change (db (S (List.length (TChar s :: r))) v ns (TChar s :: r)) with (db (S (List.length r)) (trim_space s) ns r).
  reflexivity.
Qed.
Lemma dec_start v ns x a t : dec v ns (TStart x a :: t) =
  match dec "" [] t with Some (v1, l1, r1) => dec v (ns ++ [Node x a None v1 l1])%list r1 | None => None end.
Proof.
  unfold dec.
  change (db (S (List.length (TStart x a :: t))) v ns (TStart x a :: t)) with
    (match db (S (List.length t)) "" [] t with Some (v1, l1, r1) => db (S (List.length t)) v (ns ++ [Node x a None v1 l1])%list r1 | None => None end).
  destruct (db (S (List.length t)) "" [] t) as [[[v1 l1] r1]|] eqn:E; auto.
  apply db_rest in E. apply db_fuel; lia.
Qed.

Lemma decode_node_dec x a t : decode_node (M := M) (TStart x a :: t) =
  match dec "" [] t with Some (v1, l1, r1) => Some (Node x a None v1 l1, r1) | None => None end.
Proof. reflexivity. Qed.

(* white space *)
Definition blank (s : string) : Prop := trim_space s = "".

Lemma trim_left_blank s : blank s -> trim_left s = "".
Proof.
  unfold blank, trim_space. intros H. destruct (trim_left s) eqn:E; auto.
  pose proof (trim_left_head s) as Hh. rewrite E in Hh. cbn in H. destruct (trim_right s0); [|discriminate]. rewrite Hh in H. discriminate.
Qed.

Lemma trim_right_app_blank s w : trim_right w = "" -> trim_right (s ++ w) = trim_right s.
Proof. intros H. induction s as [|c s IH]; cbn; auto. now rewrite IH. Qed.

Lemma trim_right_blank s : blank s -> trim_right s = "".
Proof.
  intros H. apply trim_left_blank in H. apply trim_right_nil_iff.
  revert H. induction s as [|d s IH]; cbn; intros H c Hc; [discriminate|].
  destruct (is_space d) eqn:E; [|discriminate].
  apply orb_true_iff in Hc as [Hc|Hc]; [apply Ascii.eqb_eq in Hc; now subst|eauto].
Qed.

Lemma trim_left_app_head s w : (match s with "" => False | String c _ => is_space c = false end) -> trim_left (s ++ w) = s ++ w.
Proof. destruct s; cbn; [tauto|]. intros ->. reflexivity. Qed.

Lemma trim_app_blank s w : trim_space s = s -> blank w -> trim_space (s ++ w) = s.
Proof.
  intros Hs Hw. destruct s as [|c s]; [exact Hw|].
  assert (Hc : is_space c = false).
  { destruct (is_space c) eqn:E; auto. exfalso. unfold trim_space in Hs. cbn in Hs. rewrite E in Hs.
    pose proof (trim_left_head s) as Hh.
    destruct (trim_left s) as [|d r] eqn:El; [discriminate|].
    pose proof (trim_right_head (String d r)) as Hr.
    cbn [trim_right] in Hs. destruct (trim_right r) eqn:Er.
    - rewrite Hh in Hs. inversion Hs; subst. congruence.
    - inversion Hs; subst. congruence. }
  unfold trim_space in *. rewrite trim_left_app_head by exact Hc.
  rewrite trim_right_app_blank by now apply trim_right_blank.
  cbn in Hs. rewrite Hc in Hs. exact Hs.
Qed.

Variable sep : nat -> string.
Hypothesis Hsep : forall d, blank (sep d).
Notation enc := (encode_node (M := M) sep).

Definition compact : Prop := forall d, sep d = "".

Definition kids_of (depth : nat) (v : string) : bool -> list (node M) -> list token :=
  fix go (first : bool) (l : list (node M)) : list token :=
                   match l with
                   | [] => []
                   | c :: r =>
                       if emptyb (x_local (n_name c)) then go first r
                       else (chars ((if first then v else "") ++ sep (S depth)) ++ enc (S depth) c ++ go false r)%list
                   end.

Lemma enc_eq depth x a m v l : enc depth (Node x a m v l) =
  if emptyb (x_local x) then [] else
  match kids_of depth v true l with
  | [] => (TStart x a :: chars v ++ [TEnd])%list
  | k => (TStart x a :: k ++ chars (sep depth) ++ [TEnd])%list
  end.
Proof.
  change (enc depth (Node x a m v l)) with (if emptyb (x_local x) then [] else
    let kids := kids_of depth v true l in
    match kids with [] => (TStart x a :: chars v ++ [TEnd])%list | _ => (TStart x a :: kids ++ chars (sep depth) ++ [TEnd])%list end).
  cbv zeta. destruct (kids_of depth v true l); reflexivity.
Qed.

(* every node below is named, has trimmed text, and text only where it survives *)
Definition text_ok (n : node M) : Prop :=
  forall x, in_tree x n -> n_model x = None /\ x_local (n_name x) <> "" /\ trim_space (n_value x) = n_value x /\
    (n_value x = "" \/ n_nodes x = [] \/ compact).

Lemma text_ok_child n c : text_ok n -> In c (n_nodes n) -> text_ok c.
Proof. intros H Hc x Hx. apply H. eapply in_below; eauto. Qed.

Definition round (n : node M) : Prop := text_ok n -> forall depth v ns r,
  dec v ns (enc depth n ++ r)%list = dec v (ns ++ [n])%list r.

Lemma dec_chars_sep v ns d r : (v = "" \/ compact) -> dec v ns (chars (sep d) ++ r)%list = dec v ns r.
Proof.
  intros H. unfold chars. destruct (emptyb (sep d)) eqn:E; [reflexivity|]. cbn [app]. rewrite dec_char, Hsep.
  destruct H as [->|H]; auto. rewrite H in E. discriminate.
Qed.

Lemma kids_round depth v l : Forall round l -> Forall text_ok l -> (v = "" \/ compact) ->
  forall ns r, dec v ns (kids_of depth v false l ++ r)%list = dec v (ns ++ l)%list r.
Proof.
  intros Hr Ht Hc. induction l as [|c l IH]; intros ns r.
  - cbn [kids_of app]. now rewrite List.app_nil_r.
  - inversion Hr as [|? ? R1 R2]; subst. inversion Ht as [|? ? T1 T2]; subst.
    cbn [kids_of]. fold (kids_of depth v). 
    rewrite (proj2 (emptyb_false _)) by (apply (T1 c); constructor).
    cbn [append]. rewrite <- !List.app_assoc, dec_chars_sep by auto. rewrite R1 by auto.
    rewrite IH by auto. now rewrite <- List.app_assoc.
Qed.

Lemma enc_body x a v l depth : text_ok (Node x a None v l) -> Forall round l ->
  exists body, enc depth (Node x a None v l) = TStart x a :: body /\ forall r, dec "" [] (body ++ r)%list = Some (v, l, r).
Proof.
  intros Hok IH. destruct (Hok _ (in_here _)) as (_ & Hx & Htr & Hc). cbn in Hx, Hc. cbn [n_value] in Htr.
  rewrite enc_eq, (proj2 (emptyb_false _) Hx).
  assert (Hto : Forall text_ok l). { apply Forall_forall. intros c Hin. eapply text_ok_child; eauto. }
  destruct l as [|c l].
  - cbn [kids_of]. eexists. split; [reflexivity|]. intros r. unfold chars. destruct (emptyb v) eqn:E.
    + apply emptyb_true in E. subst. reflexivity.
    + cbn [app]. rewrite dec_char, Htr. reflexivity.
  - inversion IH as [|? ? IHc IHl]; subst. inversion Hto as [|? ? Hc1 Hl1]; subst.
    assert (Hcn : emptyb (x_local (n_name c)) = false) by (apply emptyb_false; apply (Hc1 c); constructor).
    cbn [kids_of]. rewrite Hcn. fold (kids_of depth v).
    assert (Hc' : v = "" \/ compact) by (destruct Hc as [?|[?|?]]; auto; discriminate).
    set (k := (chars (v ++ sep (S depth)) ++ enc (S depth) c ++ kids_of depth v false l)%list).
    assert (Hk : forall r1, dec "" [] (k ++ r1)%list = dec v (c :: l) r1).
    { intros r1. unfold k. rewrite <- !List.app_assoc.
      assert (E : forall t, dec "" [] (chars (v ++ sep (S depth)) ++ t)%list = dec v [] t).
      { intros t. unfold chars. destruct (emptyb (v ++ sep (S depth))) eqn:E.
        - apply emptyb_true in E. destruct v; [reflexivity|discriminate].
        - cbn [app]. rewrite dec_char. now rewrite trim_app_blank. }
      rewrite E, IHc by auto. rewrite kids_round by auto. reflexivity. }
    assert (Hne : k <> []).
    { intros Ek. unfold k in Ek. apply app_eq_nil in Ek as [_ Ek]. apply app_eq_nil in Ek as [Ek _].
      destruct c as [x1 a1 m1 v1 l1]. cbn [n_name] in Hcn. rewrite enc_eq, Hcn in Ek. destruct (kids_of (S depth) v1 true l1); discriminate Ek. }
    exists (k ++ chars (sep depth) ++ [TEnd])%list. split; [destruct k; [congruence|reflexivity]|].
    intros r. rewrite <- !List.app_assoc. rewrite Hk, dec_chars_sep by auto. reflexivity.
Qed.

Theorem enc_round n : round n.
Proof.
  induction n as [x a m v l IH] using node_ind'. intros Hok depth v0 ns r.
  destruct (Hok _ (in_here _)) as (Hm & _). cbn in Hm. subst m.
  destruct (enc_body x a v l depth Hok IH) as (body & -> & Hb).
  cbn [app]. now rewrite dec_start, Hb.
Qed.

Theorem round_trip n depth r : text_ok n -> decode_node (enc depth n ++ r)%list = Some (n, r).
Proof.
  intros Hok. destruct n as [x a m v l]. destruct (Hok _ (in_here _)) as (Hm & _). cbn in Hm. subst m.
  destruct (enc_body x a v l depth Hok) as (body & -> & Hb).
  - apply Forall_forall. intros c _. apply enc_round.
  - cbn [app]. now rewrite decode_node_dec, Hb.
Qed.
End X.

Section Y.
Context {M : Type}.
Lemma round_trip_compact (n : node M) depth r :
  (forall x, in_tree x n -> n_model x = None /\ x_local (n_name x) <> "" /\ trim_space (n_value x) = n_value x) ->
  decode_node (encode_node (fun _ => "") depth n ++ r)%list = Some (n, r).
Proof.
  intros H. apply round_trip; [reflexivity|]. intros x Hx. destruct (H x Hx) as (A & B & C).
  repeat split; auto. right. right. intros d. reflexivity.
Qed.
Lemma round_trip_indented (sep : nat -> string) (n : node M) depth r :
  (forall d, trim_space (sep d) = "") ->
  (forall x, in_tree x n -> n_model x = None /\ x_local (n_name x) <> "" /\ trim_space (n_value x) = n_value x /\
     (n_value x = "" \/ n_nodes x = [])) ->
  decode_node (encode_node sep depth n ++ r)%list = Some (n, r).
Proof.
  intros Hs H. apply round_trip; auto. intros x Hx. destruct (H x Hx) as (A & B & C & D).
  repeat split; auto. tauto.
Qed.
End Y.
