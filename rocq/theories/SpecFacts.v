(* Lemmas about Spec *)
From Coq Require Import List Arith ZArith Bool Ascii String Lia.
From Verif Require Import GoStr GoStrFacts Spec.
Local Open Scope string_scope.

Lemma subseq_refl {A} (l : list A) : subseq l l.
Proof. induction l; constructor; auto. Qed.

Lemma subseq_in {A} (l m : list A) x : subseq l m -> In x l -> In x m.
Proof. induction 1; cbn; intuition. Qed.

Lemma subseq_filter {A} f (l : list A) : subseq (filter f l) l.
Proof. induction l as [|a l IH]; cbn; [constructor|]. destruct (f a); constructor; auto. Qed.

Lemma subseq_nil_l {A} (l : list A) : subseq [] l.
Proof. induction l; constructor; auto. Qed.

Lemma subseq_trans {A} (a b c : list A) : subseq a b -> subseq b c -> subseq a c.
Proof.
  intros H1 H2. revert a H1. induction H2; intros a H1.
  - exact H1.
  - inversion H1; subst; constructor; auto.
  - constructor; auto.
Qed.

Lemma subseq_app {A} (a b c d : list A) : subseq a b -> subseq c d -> subseq (a ++ c)%list (b ++ d)%list.
Proof. induction 1; cbn; intros; auto; constructor; auto. Qed.

Lemma subseq_length {A} (l m : list A) : subseq l m -> List.length l <= List.length m.
Proof. induction 1; cbn; lia. Qed.

Lemma subseq_NoDup {A} (l m : list A) : subseq l m -> NoDup m -> NoDup l.
Proof.
  induction 1; intros Hn; [constructor|inversion Hn; subst..]; auto.
  constructor; auto. intros Hi. eapply subseq_in in Hi; eauto.
Qed.

Lemma subseq_map {A B} (f : A -> B) l m : subseq l m -> subseq (map f l) (map f m).
Proof. induction 1; cbn; constructor; auto. Qed.

Lemma first_by_in {A K} (key : A -> K) v l : first_by key v l -> In v l.
Proof. intros (p & q & -> & _). apply in_elt. Qed.

Lemma last_by_in {A K} (key : A -> K) v l : last_by key v l -> In v l.
Proof. intros (p & q & -> & _). apply in_elt. Qed.

Lemma first_by_cons {A K} (key : A -> K) v a l :
  first_by key v (a :: l) <-> (v = a \/ (key a <> key v /\ first_by key v l)).
Proof.
  split.
  - intros (p & q & E & H). destruct p as [|b p]; cbn in E; injection E as E1 E2; [now left|].
    right. inversion H; subst. split; auto. exists p, q; auto.
  - intros [->|[H1 (p & q & -> & H)]].
    + exists [], l; split; [reflexivity|constructor].
    + exists (a :: p), q; split; [reflexivity|constructor; auto].
Qed.

Lemma first_by_find {A} (key : A -> string) v l :
  first_by key v l <-> find (fun w => key w =? key v) l = Some v.
Proof.
  induction l as [|a l IH].
  - split; [intros (p & q & E & _); now destruct p|discriminate].
  - rewrite first_by_cons. cbn [find]. destruct (key a =? key v) eqn:E.
    + apply eqb_eq in E. split; [intros [->|[H _]]; congruence|intros [= ->]; now left].
    + apply eqb_neq in E. rewrite IH. split; [intros [->|[_ H]]; congruence|auto].
Qed.

Lemma lacks_char c s : lacks c s <-> has_char c s = false.
Proof.
  unfold lacks. split.
  - intros H. destruct (has_char c s) eqn:E; [|reflexivity]. exfalso. apply H.
    destruct (index_char c s) as [i|] eqn:Ei.
    + apply index_char_some in Ei as (a & b & -> & _). eauto.
    + apply index_char_none in Ei. congruence.
  - intros H (a & b & ->). rewrite has_char_app in H. cbn in H. rewrite Ascii.eqb_refl in H.
    rewrite orb_true_r in H. discriminate.
Qed.
