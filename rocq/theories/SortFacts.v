(* a sorting function, to show that the hypothesis [sorts] of other theorems can be met *)
From Coq Require Import List Bool Ascii String Sorted Permutation NArith Lia.
From Verif Require Import GoStr PathM PVList Spec SpecBasic SpecNode.
Import ListNotations.
Local Open Scope string_scope.

Lemma ascii_compare_trans a b c : Ascii.compare a b = Lt -> Ascii.compare b c = Lt -> Ascii.compare a c = Lt.
Proof. unfold Ascii.compare. rewrite !N.compare_lt_iff. lia. Qed.
Lemma ascii_compare_refl a : Ascii.compare a a = Eq.
Proof. unfold Ascii.compare. apply N.compare_refl. Qed.

Lemma string_compare_trans a : forall b c, String.compare a b <> Gt -> String.compare b c <> Gt -> String.compare a c <> Gt.
Proof.
  induction a as [|x a IH]; intros [|y b] [|z c]; cbn [String.compare]; try congruence.
  destruct (Ascii.compare x y) eqn:E1; [|destruct (Ascii.compare y z) eqn:E2|congruence].
  - apply Ascii.compare_eq_iff in E1. subst y. destruct (Ascii.compare x z); auto. apply IH.
  - apply Ascii.compare_eq_iff in E2. subst z. now rewrite E1.
  - now rewrite (ascii_compare_trans _ _ _ E1 E2).
  - congruence.
Qed.
Lemma leb_compare a b : String.leb a b = true <-> String.compare a b <> Gt.
Proof. unfold String.leb. destruct (String.compare a b); split; congruence. Qed.
Lemma leb_trans a b c : String.leb a b = true -> String.leb b c = true -> String.leb a c = true.
Proof. rewrite !leb_compare. apply string_compare_trans. Qed.
Lemma leb_other a b : String.leb a b = false -> String.leb b a = true.
Proof. intros H. destruct (String.leb_total a b) as [E|E]; congruence. Qed.

Fixpoint insert_pv (x : path_value) (l : list path_value) : list path_value :=
  match l with
  | [] => [x]
  | y :: r => if String.leb (pv_path x) (pv_path y) then x :: l else y :: insert_pv x r
  end.
Definition isort (l : list path_value) : list path_value := fold_right insert_pv [] l.

Lemma insert_perm x l : Permutation (insert_pv x l) (x :: l).
Proof.
  induction l as [|y l IH]; cbn; auto. destruct (String.leb _ _); auto.
  rewrite IH. constructor.
Qed.
Lemma insert_sorted x l : StronglySorted path_le l -> StronglySorted path_le (insert_pv x l).
Proof.
  induction 1 as [|y l Hs IH Hf]; cbn.
  - repeat constructor.
  - destruct (String.leb (pv_path x) (pv_path y)) eqn:E.
    + constructor; [constructor; auto|]. constructor; [exact E|]. eapply Forall_impl; [|exact Hf]. intros z Hz. eapply leb_trans; eauto.
    + constructor; auto. eapply Permutation_Forall; [symmetry; apply insert_perm|]. constructor; auto. now apply leb_other.
Qed.
Theorem isort_sorts : sorts isort.
Proof.
  intros l. induction l as [|x l [IH1 IH2]]; cbn.
  - split; auto. constructor.
  - split; [rewrite insert_perm; now constructor|now apply insert_sorted].
Qed.
