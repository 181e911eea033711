(* Deciding the conditions of SpecType.v and SpecTree.v for concrete values, for the examples. *)
From Coq Require Import List Arith ZArith Bool Ascii String Lia.
From Verif Require Import GoStr GoMap Names Semver RegistryM NodeM ArrayM TypeM SpecType SpecJson SpecTree SpecLib TypeFacts.
Import ListNotations.
Local Open Scope string_scope.

Section S.
Context {X : Type}.
Variable ver : version.
Notation gval := (gval X).
Notation ty := (ty X).

Fixpoint veqb (v w : gval) : bool :=
  match v, w with
  | VStr a, VStr b => a =? b
  | VBool a, VBool b => Bool.eqb a b
  | VInt a, VInt b => Z.eqb a b
  | VArr l [], VArr l' [] =>
      (fix go (l l' : list gval) : bool := match l, l' with [], [] => true | x :: r, y :: s => veqb x y && go r s | _, _ => false end) l l'
  | _, _ => false
  end.
Lemma veqb_eq : forall v w, veqb v w = true -> v = w.
Proof.
  fix IH 1. intros v w H.
  destruct v as [a|a|a|a|a|l sp|  |a|a], w as [b|b|b|b|b|l' sp'|  |b|b]; cbn [veqb] in H; try discriminate;
    try (destruct sp; discriminate).
  - apply String.eqb_eq in H. now subst.
  - apply Bool.eqb_prop in H. now subst.
  - apply Z.eqb_eq in H. now subst.
  - destruct sp; [|discriminate]. destruct sp'; [|discriminate].
    assert (E : l = l'); [|now rewrite E].
    revert l' H. induction l as [|x l IHl]; intros [|y l'] H; try discriminate; [reflexivity|].
    apply andb_true_iff in H. destruct H as [H1 H2]. f_equal; [exact (IH x y H1)|exact (IHl l' H2)].
Qed.

Definition text_backb (c : codec X) (z v w : gval) (nil_text : option string) : bool :=
  match c_enc c v with
  | Ok (Some s) => match c_dec c z s with Ok w' => veqb w' w | _ => false end
  | Ok None => match nil_text with Some s => match c_dec c z s with Ok w' => veqb w' w | _ => false end | None => false end
  | _ => false
  end.
Lemma text_backb_ok c z v w n : text_backb c z v w n = true -> text_back c z v w n.
Proof.
  unfold text_backb, text_back. destruct (c_enc c v) as [[s|]|e|]; try discriminate.
  - destruct (c_dec c z s) as [w'|e|]; try discriminate. intros H. apply veqb_eq in H. now subst.
  - destruct n as [s|]; [|discriminate]. destruct (c_dec c z s) as [w'|e|]; try discriminate. intros H. apply veqb_eq in H. now subst.
Qed.
Definition int_okb (b z : Z) : bool := (Z.leb (- 2 ^ (b - 1)) z && Z.ltb z (2 ^ (b - 1)) && Z.ltb 0 b)%Z.
Definition uint_okb (b z : Z) : bool := (Z.leb 0 z && Z.ltb z (2 ^ b))%Z.
Lemma int_okb_ok b z : int_okb b z = true -> int_ok b z /\ (0 < b)%Z.
Proof. unfold int_okb, int_ok. rewrite !andb_true_iff, Z.leb_le, !Z.ltb_lt. tauto. Qed.
Lemma uint_okb_ok b z : uint_okb b z = true -> (0 <= z < 2 ^ b)%Z.
Proof. unfold uint_okb. rewrite !andb_true_iff, Z.leb_le, !Z.ltb_lt. tauto. Qed.
Fixpoint attr_okb (t : ty) (v : gval) : bool :=
  match t, v with
  | (TStr | TBytes), VStr _ => true
  | TBool, VBool _ => true
  | TInt b, VInt z => int_okb b z
  | TUint b, VInt z => uint_okb b z
  | TText c, _ => text_backb c (c_zero c) v v None
  | TArr i t', VArr _ _ => match ar_text i with Some c => text_backb c (VArr [] []) v (norm ver t v) None | None => false end
  | TPtr t', VPtr v' => attr_okb t' v'
  | _, _ => false
  end.
Lemma attr_okb_ok t : forall v, attr_okb t v = true -> attr_ok ver t v.
Proof.
  induction t as [| | | bi | bu | c | m | i t IH | t IH | i fs IH] using ty_nested_ind; intros v H; cbn [attr_okb] in H; cbn [attr_ok];
    try (apply text_backb_ok, H);
    try (destruct v; try discriminate; try exact I; fail).
  - destruct v; try discriminate. now apply int_okb_ok.
  - destruct v; try discriminate. now apply uint_okb_ok.
  - destruct v; try discriminate. destruct (ar_text i); [|discriminate]. now apply text_backb_ok.
  - destruct v; try discriminate. now apply IH.
Qed.
Definition langb (x : alt_item) : bool := negb (ai_default x) && negb (ai_lang x =? "") && negb (ai_lang x =? "x-default").
Lemma langb_ok x : langb x = true -> lang_item x.
Proof.
  unfold langb, lang_item. rewrite !andb_true_iff, !negb_true_iff, !String.eqb_neq. tauto.
Qed.
(* the items before the default, it, and those after it *)
Fixpoint split_default (l : list alt_item) : option (list alt_item * alt_item * list alt_item) :=
  match l with
  | [] => None
  | x :: r => if ai_default x then Some ([], x, r)
              else match split_default r with Some (a, d, b) => Some (x :: a, d, b) | None => None end
  end.
Lemma split_default_ok l : forall a d b, split_default l = Some (a, d, b) -> l = (a ++ d :: b)%list /\ ai_default d = true.
Proof.
  induction l as [|x l IH]; intros a d b H; [discriminate|]. cbn [split_default] in H. destruct (ai_default x) eqn:E.
  - injection H as <- <- <-. auto.
  - destruct (split_default l) as [[[a' d'] b']|]; [|discriminate]. injection H as <- <- <-.
    destruct (IH _ _ _ eq_refl) as [-> K]. auto.
Qed.
Definition differ (d x : alt_item) : bool := negb (trim_space (ai_value x) =? trim_space (ai_value d)).
Definition altb (m : bool) (l : list alt_item) : bool :=
  match l with [] => false | _ => true end &&
  match split_default l with
  | None => forallb langb l
  | Some (a, d, b) =>
      forallb langb a && forallb langb b
      && ((ai_lang d =? "") && (negb m || forallb (differ d) (a ++ b))
          || negb (ai_lang d =? "") && negb (ai_lang d =? "x-default") && m && forallb (differ d) a)
  end.
Lemma langb_all l : forallb langb l = true -> Forall lang_item l.
Proof. rewrite forallb_forall, Forall_forall. intros H x K. apply langb_ok, H, K. Qed.
Lemma differ_all d l : forallb (differ d) l = true -> forall x, In x l -> trim_space (ai_value x) <> trim_space (ai_value d).
Proof. rewrite forallb_forall. intros H x K. specialize (H x K). unfold differ in H. apply negb_true_iff in H. now apply String.eqb_neq. Qed.
Lemma altb_ok m l : altb m l = true -> alt_ok m l.
Proof.
  unfold altb, alt_ok. rewrite andb_true_iff. intros [H1 H2]. split; [intros E; subst; discriminate|].
  destruct (split_default l) as [[[a d] b]|] eqn:E; [right|left; now apply langb_all].
  destruct (split_default_ok _ _ _ _ E) as [-> Hd]. exists a, d, b. rewrite !andb_true_iff in H2. destruct H2 as [[Ha Hb] H].
  split; [reflexivity|]. split; [exact Hd|]. split; [now apply langb_all|]. split; [now apply langb_all|].
  apply orb_true_iff in H. destruct H as [H|H].
  - left. apply andb_true_iff in H. destruct H as [Hl H]. split; [now apply String.eqb_eq|]. intros ->. apply differ_all. exact H.
  - right. rewrite !andb_true_iff, !negb_true_iff, !String.eqb_neq in H. destruct H as [[[H3 H4] H5] H6].
    repeat split; auto. now apply differ_all.
Qed.
Fixpoint storableb (t : ty) (v : gval) : bool :=
  match t, v with
  | (TStr | TBytes), VStr _ => true
  | TBool, VBool _ => true
  | TInt b, VInt z => int_okb b z
  | TUint b, VInt z => uint_okb b z
  | TText c, _ => text_backb c (c_zero c) v v (Some "")
  | TAlt m, VAlt l => altb m l
  | TArr i t', VArr l _ =>
      if ar_xmp i then match l with [] => false | _ => forallb (storableb t') l end
      else match ar_text i with Some c => text_backb c (VArr [] []) v (norm ver t v) (Some "") | None => false end
  | TPtr t', VPtr v' => storableb t' v'
  | TStruct i fs, VStruct vs =>
      (fix all (fs : list (finfo * ty)) (vs : list gval) : bool :=
         match fs, vs with
         | [], [] => true
         | (f, t') :: fs', v' :: vs' =>
             (left_out ver f t' v' || if f_attr f then attr_okb t' v' else storableb t' v') && all fs' vs'
         | _, _ => false
         end) fs vs
  | _, _ => false
  end.
Lemma storableb_ok t : forall v, storableb t v = true -> storable ver t v.
Proof.
  induction t as [| | | bi | bu | c | m | i t IH | t IH | i fs IH] using ty_nested_ind; intros v H; cbn [storableb] in H;
    try (apply text_backb_ok, H);
    try (destruct v; try discriminate; try exact I; fail).
  - destruct v; try discriminate. now apply int_okb_ok.
  - destruct v; try discriminate. now apply uint_okb_ok.
  - destruct v; try discriminate. now apply altb_ok.
  - destruct v as [| | | | |l sp| | |]; try discriminate. cbn [storable]. destruct (ar_xmp i).
    + split; [intros E; subst; discriminate|]. assert (K : forallb (storableb t) l = true) by (destruct l; [reflexivity|exact H]).
      clear H. rewrite forallb_forall in K. revert K. induction l as [|x l IHl]; intros K; [exact I|].
      split; [apply IH, K; now left|apply IHl; intros y Hy; apply K; now right].
    + destruct (ar_text i); [|discriminate]. now apply text_backb_ok.
  - destruct v; try discriminate. exact (IH _ H).
  - destruct v as [| | | | | | | |vs]; try discriminate. rewrite storable_struct. revert vs H. induction IH as [|[f t] fs Hf _ IH2]; intros [|v vs] H; try discriminate; [exact I|].
    apply andb_true_iff in H. destruct H as [H1 H2]. cbn [fields_ok]. split; [|now apply IH2]. intros E. rewrite E in H1. cbn [orb] in H1.
    destruct (f_attr f); [now apply attr_okb_ok|now apply Hf].
Qed.

Definition tightb (c : codec X) (z v : gval) : bool :=
  match c_dec c z (trim_space (text_of c v)), c_dec c z (text_of c v) with
  | Ok a, Ok b => veqb a b
  | _, _ => false
  end.
Lemma tightb_ok c z v : tightb c z v = true -> tight c z v.
Proof.
  unfold tightb, tight. destruct (c_dec c z (trim_space (text_of c v))); try discriminate. destruct (c_dec c z (text_of c v)); try discriminate.
  intros H. apply veqb_eq in H. now subst.
Qed.
Fixpoint snug_attrb (t : ty) (v : gval) : bool :=
  match t, v with
  | TBytes, VStr s => trim_space s =? s
  | TText c, _ => tightb c (c_zero c) v
  | TArr i _, _ => negb (ar_xmp i) && match ar_text i with Some c => tightb c (VArr [] []) v | None => true end
  | TPtr t', VPtr v' => snug_attrb t' v'
  | _, _ => true
  end.
Lemma snug_attrb_ok t : forall v, snug_attrb t v = true -> snug_attr t v.
Proof.
  induction t as [| | | bi | bu | c | m | i t IH | t IH | i fs IH] using ty_nested_ind; intros v H; cbn [snug_attrb] in H; cbn [snug_attr]; try exact I.
  - destruct v; try exact I. now apply String.eqb_eq.
  - now apply tightb_ok.
  - apply andb_true_iff in H. destruct H as [H1 H2]. apply negb_true_iff in H1. split; [exact H1|]. destruct (ar_text i); [now apply tightb_ok|exact I].
  - destruct v; try exact I. now apply IH.
Qed.
Fixpoint snugb (t : ty) (v : gval) : bool :=
  match t, v with
  | TBytes, VStr s => trim_space s =? s
  | TText c, _ => tightb c (c_zero c) v
  | TArr i t', VArr l _ =>
      if ar_xmp i then forallb (snugb t') l
      else match ar_text i with Some c => tightb c (VArr [] []) v | None => true end
  | TPtr t', VPtr v' => snugb t' v'
  | TStruct _ fs, VStruct vs =>
      (fix all (fs : list (finfo * ty)) (vs : list gval) : bool :=
         match fs, vs with
         | (f, t') :: fs', v' :: vs' =>
             (left_out ver f t' v' || if f_attr f then snug_attrb t' v' else snugb t' v') && all fs' vs'
         | _, _ => true
         end) fs vs
  | _, _ => true
  end.
Lemma snugb_ok t : forall v, snugb t v = true -> snug ver t v.
Proof.
  induction t as [| | | bi | bu | c | m | i t IH | t IH | i fs IH] using ty_nested_ind; intros v H; cbn [snugb] in H; try exact I.
  - destruct v; try exact I. now apply String.eqb_eq.
  - now apply tightb_ok.
  - destruct v as [| | | | |l sp| | |]; try exact I. cbn [snug]. destruct (ar_xmp i).
    + rewrite forallb_forall in H. induction l as [|x l IHl]; [exact I|]. split; [apply IH, H; now left|apply IHl; intros y Hy; apply H; now right].
    + destruct (ar_text i); [now apply tightb_ok|exact I].
  - destruct v; try exact I. exact (IH _ H).
  - destruct v as [| | | | | | | |vs]; try exact I. cbn [snug]. revert vs H. induction IH as [|[f t] fs Hf _ IH2]; intros [|v vs] H; try exact I.
    apply andb_true_iff in H. destruct H as [H1 H2]. split; [|now apply IH2]. intros E. rewrite E in H1. cbn [orb] in H1.
    destruct (f_attr f); [now apply snug_attrb_ok|now apply Hf].
Qed.

Definition memb (s : string) (l : list string) : bool := existsb (String.eqb s) l.
Lemma memb_in s l : memb s l = true -> In s l.
Proof. unfold memb. rewrite existsb_exists. intros (x & H & E). apply String.eqb_eq in E. now subst. Qed.
Fixpoint arraysb (T : list string) (t : ty) (v : gval) : bool :=
  match t, v with
  | TArr i t', VArr l _ => negb (ar_xmp i) || memb (ar_type i) T && forallb (arraysb T t') l
  | TPtr t', VPtr v' => arraysb T t' v'
  | TStruct _ fs, VStruct vs =>
      (fix all (fs : list (finfo * ty)) (vs : list gval) : bool :=
         match fs, vs with
         | (f, t') :: fs', v' :: vs' => (left_out ver f t' v' || f_attr f || arraysb T t' v') && all fs' vs'
         | _, _ => true
         end) fs vs
  | _, _ => true
  end.
Lemma arraysb_ok T t : forall v, arraysb T t v = true -> arrays_in ver T t v.
Proof.
  induction t as [| | | bi | bu | c | m | i t IH | t IH | i fs IH] using ty_nested_ind; intros v H; try exact I.
  - destruct v as [| | | | |l sp| | |]; try exact I. cbn [arraysb] in H. intros E. rewrite E in H. cbn [negb orb] in H.
    apply andb_true_iff in H. destruct H as [H1 H2]. split; [now apply memb_in|]. rewrite forallb_forall in H2.
    induction l as [|x l IHl]; [exact I|]. split; [apply IH, H2; now left|apply IHl; intros y Hy; apply H2; now right].
  - destruct v; try exact I. exact (IH _ H).
  - destruct v as [| | | | | | | |vs]; try exact I. cbn [arraysb] in H. cbn [arrays_in]. revert vs H. induction IH as [|[f t] fs Hf _ IH2]; intros [|v vs] H; try exact I.
    apply andb_true_iff in H. destruct H as [H1 H2]. split; [|now apply IH2]. intros E Ea. rewrite E, Ea in H1. now apply Hf.
Qed.
End S.

(* texts by language, as JSON needs them *)
Definition lang_given (i : string * string) : bool := negb (fst i =? "").
Definition no_default (i : string * string) : bool := negb (fst i =? "x-default").
Fixpoint cut_default (l : list (string * string)) : option (list (string * string) * (string * string) * list (string * string)) :=
  match l with
  | [] => None
  | i :: r => if fst i =? "x-default" then Some ([], i, r) else match cut_default r with Some (a, d, b) => Some (i :: a, d, b) | None => None end
  end.
Lemma cut_default_ok l : forall a d b, cut_default l = Some (a, d, b) -> l = (a ++ d :: b)%list /\ fst d = "x-default".
Proof.
  induction l as [|x l IH]; intros a d b H; [discriminate|]. cbn [cut_default] in H. destruct (fst x =? "x-default") eqn:E.
  - injection H as <- <- <-. apply String.eqb_eq in E. auto.
  - destruct (cut_default l) as [[[a' d'] b']|]; [|discriminate]. injection H as <- <- <-. destruct (IH _ _ _ eq_refl) as [-> K]. auto.
Qed.
Definition altsb (l : list (string * string)) : bool :=
  match l with [] => false | _ => true end && forallb lang_given l &&
  (forallb no_default l ||
   match cut_default l with
   | Some (a, d, e :: b) => (snd e =? snd d) && negb (snd d =? "") && no_default e
                            && forallb (fun i => no_default i && negb (snd i =? snd d)) (a ++ b)
   | _ => false
   end).
Lemma altsb_alts l : altsb l = true -> alts_ok l.
Proof.
  unfold altsb, alts_ok. rewrite !andb_true_iff. intros [[H1 H2] H3]. split; [intros ->; discriminate|]. split.
  { apply Forall_forall. intros i K. rewrite forallb_forall in H2. specialize (H2 i K). unfold lang_given in H2. apply negb_true_iff in H2. now apply String.eqb_neq. }
  apply orb_true_iff in H3. destruct H3 as [H3|H3].
  - left. apply Forall_forall. intros i K. rewrite forallb_forall in H3. specialize (H3 i K). unfold no_default in H3. apply negb_true_iff in H3. now apply String.eqb_neq.
  - right. destruct (cut_default l) as [[[a [dl ds]] [|[g s] b]]|] eqn:E; try discriminate. destruct (cut_default_ok _ _ _ _ E) as [-> K]. cbn [fst snd] in *. subst dl.
    rewrite !andb_true_iff in H3. destruct H3 as [[[A1 A2] A3] A4]. apply String.eqb_eq in A1. subst s. exists a, ds, g, b.
    split; [reflexivity|]. split; [apply negb_true_iff in A2; now apply String.eqb_neq|]. split; [unfold no_default in A3; apply negb_true_iff in A3; now apply String.eqb_neq|].
    apply Forall_forall. intros i K. rewrite forallb_forall in A4. specialize (A4 i K). apply andb_true_iff in A4. destruct A4 as [B1 B2].
    unfold no_default in B1. apply negb_true_iff in B1, B2. split; now apply String.eqb_neq.
Qed.
Fixpoint finealts (t : pval) : bool :=
  match t with
  | PLeaf _ => true
  | PRecord fs => (fix all (fs : list (string * pval)) : bool := match fs with [] => true | f :: r => finealts (snd f) && all r end) fs
  | PList l => (fix all (l : list pval) : bool := match l with [] => true | t :: r => finealts t && all r end) l
  | PAlts l => altsb l
  end.
Lemma altsb_ok : forall t, finealts t = true -> alts_fine t.
Proof.
  fix IH 1. intros [s|fs|l|l] H; [exact I| | |].
  - cbn [finealts] in H. cbn [alts_fine]. induction fs as [|f fs IHf]; [exact I|]. apply andb_true_iff in H. destruct H as [H1 H2]. split; [exact (IH _ H1)|exact (IHf H2)].
  - cbn [finealts] in H. cbn [alts_fine]. induction l as [|f fs IHf]; [exact I|]. apply andb_true_iff in H. destruct H as [H1 H2]. split; [exact (IH _ H1)|exact (IHf H2)].
  - now apply altsb_alts.
Qed.
Lemma forallb_Forall_snd (l : list (string * pval)) : forallb (fun f => loud (snd f)) l = true -> Forall (fun f => loud (snd f) = true) l.
Proof. rewrite forallb_forall. apply Forall_forall. Qed.
