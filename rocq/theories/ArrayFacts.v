From Coq Require Import List Arith ZArith Bool Ascii String Lia Permutation.
From Verif Require Import GoStr GoStrFacts ArrayM SpecArray.
Import ListNotations.
Local Open Scope string_scope.

Lemma emptyb_iff s : emptyb s = true <-> s = "".
Proof. destruct s; cbn; split; congruence. Qed.
Lemma emptyb_neq s : emptyb s = false <-> s <> "".
Proof. destruct s; cbn; split; congruence. Qed.

(* ---- EnsureDefault ---- *)
Lemma clear_none l : snd (clear_defaults l) = None <-> no_default l.
Proof.
  unfold no_default. induction l as [|x l IH]; cbn.
  - split; auto. intros _ x [].
  - destruct (ai_default x) eqn:E; cbn.
    + split; [discriminate|]. intros H. rewrite H in E by auto. discriminate.
    + destruct (clear_defaults l) as [l' i]. cbn in *. destruct i; cbn; split; try discriminate.
      * intros H. assert (Some n = None) by (apply IH; intros; apply H; auto). discriminate.
      * intros _ y [<-|Hy]; auto. apply IH; auto.
      * auto.
Qed.
Lemma clear_some l : forall l' i, clear_defaults l = (l', Some i) ->
  exists pre x post, l = (pre ++ x :: post)%list /\ List.length pre = i /\ no_default pre /\ ai_default x = true /\
    l' = (pre ++ x :: map (fun y => set_def y false) post)%list.
Proof.
  induction l as [|x l IH]; intros l' i; cbn; [discriminate|].
  destruct (ai_default x) eqn:E.
  - intros H; inversion H; subst. exists [], x, l. repeat split; auto. intros y [].
  - destruct (clear_defaults l) as [l1 [j|]] eqn:Ec; cbn; intros H; inversion H; subst.
    destruct (IH _ _ eq_refl) as (pre & y & post & -> & <- & Hn & Hd & ->).
    exists (x :: pre), y, post. repeat split; auto. intros z [<-|Hz]; auto.
Qed.

Lemma ensure_spec l :
  (exists x, l = [x] /\ ensure_default l = Ok [set_def x true]) \/
  (l = [] /\ ensure_default l = Ok []) \/
  (2 <= List.length l /\ no_default l /\ ensure_default l = Panic) \/
  (exists pre x post l', l = (pre ++ x :: post)%list /\ 2 <= List.length l /\ no_default pre /\ ai_default x = true /\
     ensure_default l = Ok l' /\
     l' = match pre with
          | [] => x :: map (fun y => set_def y false) post
          | y :: r => (x :: r ++ y :: map (fun y => set_def y false) post)%list
          end).
Proof.
  destruct l as [|x [|y l]]; [right; left; auto|left; eauto|].
  set (L := x :: y :: l). assert (HL : 2 <= List.length L) by (unfold L; cbn; lia).
  assert (HE : ensure_default L = match clear_defaults L with (l', Some 0) => Ok l' | (l', Some i) => Ok (swap_first l' i) | (_, None) => Panic end) by reflexivity.
  clearbody L. destruct (clear_defaults L) as [l' [i|]] eqn:E.
  - right; right; right. destruct (clear_some _ _ _ E) as (pre & z & post & E1 & E2 & Hn & Hd & E3).
    exists pre, z, post. destruct pre as [|p pre].
    + cbn in E2. subst i. exists l'. repeat split; auto.
    + cbn in E2. subst i. eexists. repeat split; auto. rewrite HE. f_equal. subst l'. cbn [app swap_first].
      replace (S (List.length pre) - 1) with (List.length pre) by lia.
      rewrite nth_error_app2, Nat.sub_diag by lia. cbn [nth_error].
      rewrite firstn_app, Nat.sub_diag, firstn_all, firstn_O, List.app_nil_r.
      f_equal. f_equal. f_equal. rewrite skipn_app.
      rewrite skipn_all2 by (cbn; lia). cbn [app]. replace (S (List.length pre) - List.length pre) with 1 by lia. reflexivity.
  - right; right; left. repeat split; auto. apply clear_none. now rewrite E.
Qed.

Lemma ensure_panics l : ensure_default l = Panic <-> 2 <= List.length l /\ no_default l.
Proof.
  destruct (ensure_spec l) as [(x & -> & E)|[(-> & E)|[(H1 & H2 & E)|(pre & x & post & l' & E1 & E2 & Hn & Hd & E & _)]]]; rewrite E.
  - split; [discriminate|]. cbn. lia.
  - split; [discriminate|]. cbn. lia.
  - tauto.
  - split; [discriminate|]. intros [_ H]. subst l. rewrite (H x) in Hd; [discriminate|]. apply in_or_app. right. now left.
Qed.
Lemma ensure_one l l' : ensure_default l = Ok l' -> one_default l'.
Proof.
  destruct (ensure_spec l) as [(x & -> & E)|[(-> & E)|[(H1 & H2 & E)|(pre & x & post & l1 & E1 & E2 & Hn & Hd & E & El)]]]; rewrite E; intros H; inversion H; subst.
  - cbn. split; auto. intros y [].
  - exact I.
  - destruct pre as [|y pre]; cbn.
    + split; auto. intros y Hy. apply in_map_iff in Hy as (z & <- & _). reflexivity.
    + split; auto. intros z Hz. apply in_app_or in Hz as [Hz|[<-|Hz]].
      * apply Hn. now right.
      * apply Hn. now left.
      * apply in_map_iff in Hz as (w & <- & _). reflexivity.
Qed.
Lemma ensure_id l : one_default l -> ensure_default l = Ok l.
Proof.
  destruct l as [|x [|y l]]; cbn [one_default]; intros H.
  - reflexivity.
  - destruct H as [H _]. destruct x. cbn in *. now subst.
  - destruct H as [Hx Hr]. unfold ensure_default. cbn [clear_defaults]. rewrite Hx. f_equal. f_equal.
    transitivity (map (fun z => z) (y :: l)); [|apply map_id]. apply map_ext_in. intros z Hz. specialize (Hr z Hz). destruct z. cbn in *. now subst.
Qed.

(* the item contents are only permuted *)
Definition content (x : alt_item) : string * string := (ai_value x, ai_lang x).
Lemma content_def x b : content (set_def x b) = content x.
Proof. reflexivity. Qed.
Lemma map_content_def l : map content (map (fun y => set_def y false) l) = map content l.
Proof. rewrite map_map. apply map_ext. reflexivity. Qed.
Lemma ensure_perm l l' : ensure_default l = Ok l' -> Permutation (map content l) (map content l').
Proof.
  destruct (ensure_spec l) as [(x & -> & E)|[(-> & E)|[(H1 & H2 & E)|(pre & x & post & l1 & -> & E2 & Hn & Hd & E & ->)]]]; rewrite E; intros H; inversion H; subst; auto.
  destruct pre as [|y pre]; cbn [app map].
  - rewrite map_content_def. auto.
  - rewrite !map_app. cbn [map]. rewrite map_content_def. 
    apply Permutation_trans with (content x :: content y :: map content pre ++ map content post)%list.
    + apply Permutation_trans with (content y :: content x :: map content pre ++ map content post)%list; [|apply perm_swap].
      constructor. symmetry. apply Permutation_middle.
    + constructor. apply Permutation_middle.
Qed.

Local Open Scope list_scope.
(* ---- the operations ---- *)
Lemma one_default_app l x : l <> [] -> one_default l -> ai_default x = false -> one_default (l ++ [x]).
Proof.
  destruct l as [|y l]; [congruence|]. intros _ [H1 H2] Hx. cbn. split; auto.
  intros z Hz. apply in_app_or in Hz as [Hz|[<-|[]]]; auto.
Qed.
Lemma alt_add_spec l lang v : one_default l -> v <> "" ->
  alt_add l lang v = Ok (l ++ [AltItem v lang (match l with [] => true | _ => false end)]).
Proof.
  intros H Hv. unfold alt_add. apply emptyb_neq in Hv. rewrite Hv. destruct l as [|x l]; [reflexivity|].
  apply ensure_id. apply one_default_app; auto; discriminate.
Qed.
Lemma alt_index_none l lang : alt_index l lang = None <-> lacks_lang l lang.
Proof.
  unfold lacks_lang. induction l as [|x l IH]; cbn; [split; auto; intros _ x []|].
  destruct (ai_lang x =? lang) eqn:E.
  - apply String.eqb_eq in E. split; [discriminate|]. intros H. now destruct (H x (or_introl eq_refl)).
  - apply String.eqb_neq in E. destruct (alt_index l lang); cbn; split; try discriminate; try tauto.
    + intros H. assert (Some n = None) by (apply IH; intros; apply H; auto). discriminate.
    + intros _ y [<-|Hy]; auto. now apply IH.
Qed.
Lemma alt_index_some l lang : forall i, alt_index l lang = Some i ->
  exists pre x post, l = (pre ++ x :: post) /\ List.length pre = i /\ ai_lang x = lang /\ lacks_lang pre lang.
Proof.
  induction l as [|x l IH]; intros i; cbn; [discriminate|].
  destruct (ai_lang x =? lang) eqn:E.
  - intros H; inversion H; subst. exists [], x, l. repeat split; auto. now apply String.eqb_eq. intros y [].
  - destruct (alt_index l lang) as [j|]; cbn; intros H; inversion H; subst.
    destruct (IH _ eq_refl) as (pre & y & post & -> & <- & Hl & Hn). exists (x :: pre), y, post. repeat split; auto.
    intros z [<-|Hz]; auto. now apply String.eqb_neq.
Qed.
Lemma set_nth_split pre x post v :
  set_nth_value (pre ++ x :: post) (List.length pre) v = (pre ++ AltItem v (ai_lang x) (ai_default x) :: post).
Proof. induction pre as [|y pre IH]; cbn; auto. now rewrite IH. Qed.

Lemma alt_set_spec l lang v : one_default l -> v <> "" ->
  (exists pre x post, l = (pre ++ x :: post) /\ ai_lang x = lang /\ lacks_lang pre lang /\
     alt_set l lang v = Ok (pre ++ AltItem v lang (ai_default x) :: post)) \/
  (lacks_lang l lang /\ alt_set l lang v = Ok (l ++ [AltItem v lang (match l with [] => true | _ => false end)])).
Proof.
  intros H Hv. unfold alt_set. rewrite (proj2 (emptyb_neq v) Hv). destruct (alt_index l lang) as [i|] eqn:E.
  - left. destruct (alt_index_some _ _ _ E) as (pre & x & post & -> & <- & Hl & Hn). exists pre, x, post. repeat split; auto.
    rewrite set_nth_split. now rewrite Hl.
  - right. split; [now apply alt_index_none|]. apply alt_add_spec; auto.
Qed.

Lemma one_default_mid pre x v lang post : one_default (pre ++ x :: post) -> one_default (pre ++ AltItem v lang (ai_default x) :: post).
Proof.
  destruct pre as [|y pre]; cbn; intros [H1 H2]; split; auto. intros z Hz. apply in_app_or in Hz as [Hz|[<-|Hz]].
  - apply H2. apply in_or_app; auto.
  - cbn. apply H2. apply in_or_app. right. now left.
  - apply H2. apply in_or_app. right. now right.
Qed.

Lemma find_app_split {A} (t : A -> bool) a b : find t (a ++ b) = match find t a with Some x => Some x | None => find t b end.
Proof. induction a as [|x a IH]; cbn; auto. destruct (t x); auto. Qed.
Lemma find_lacks l lang : lacks_lang l lang -> find (fun x => ai_lang x =? lang) l = None.
Proof.
  induction l as [|x l IH]; intros H; cbn; auto. rewrite (proj2 (String.eqb_neq _ _)) by (apply H; now left).
  apply IH. intros y Hy. apply H. now right.
Qed.

Lemma get_first pre x post lang : lang <> "" -> lacks_lang pre lang -> ai_lang x = lang -> alt_get (pre ++ x :: post) lang = ai_value x.
Proof.
  intros Hne Hp Hx. unfold alt_get. rewrite (proj2 (emptyb_neq _) Hne). rewrite find_app_split, (find_lacks _ _ Hp). cbn.
  now rewrite Hx, String.eqb_refl.
Qed.
Lemma get_other pre x x' post lang : lang <> "" -> ai_lang x <> lang -> ai_lang x' = ai_lang x ->
  alt_get (pre ++ x' :: post) lang = alt_get (pre ++ x :: post) lang.
Proof.
  intros Hne Hx He. unfold alt_get. rewrite (proj2 (emptyb_neq _) Hne). rewrite !find_app_split. cbn [find]. rewrite He.
  now rewrite (proj2 (String.eqb_neq _ _) Hx).
Qed.
Lemma get_skip pre x post lang : lang <> "" -> ai_lang x <> lang -> alt_get (pre ++ x :: post) lang = alt_get (pre ++ post) lang.
Proof.
  intros Hne Hx. unfold alt_get. rewrite (proj2 (emptyb_neq _) Hne). rewrite !find_app_split. cbn [find].
  now rewrite (proj2 (String.eqb_neq _ _) Hx).
Qed.
Lemma get_map_def l lang : lang <> "" -> alt_get (map (fun y => set_def y false) l) lang = alt_get l lang.
Proof.
  intros Hne. unfold alt_get. rewrite (proj2 (emptyb_neq _) Hne). induction l as [|x l IH]; cbn; auto.
  destruct (ai_lang x =? lang); auto.
Qed.
Lemma default_head x r : ai_default x = true -> alt_default (x :: r) = ai_value x.
Proof. intros H. unfold alt_default. cbn. now rewrite H. Qed.

(* Set *)
Lemma set_get l lang v l' : one_default l -> v <> "" -> alt_set l lang v = Ok l' ->
  one_default l' /\ (lang <> "" -> alt_get l' lang = v) /\
  (forall g, g <> "" -> g <> lang -> alt_get l' g = alt_get l g) /\
  alt_default l' = (match l with [] => v | x :: _ => if ai_lang x =? lang then v else ai_value x end).
Proof.
  intros H Hv. destruct (alt_set_spec l lang v H Hv) as [(pre & x & post & -> & Hx & Hn & E)|[Hn E]]; rewrite E; intros K; inversion K; subst l'; clear K.
  - split; [now apply one_default_mid|]. split; [intros Hl; apply (get_first pre (AltItem v lang (ai_default x))); auto|]. split.
    + intros g Hg Hne. apply get_other; auto. congruence.
    + destruct pre as [|y pre]; cbn [app] in *.
      * destruct H as [Hd _]. rewrite Hd, default_head by auto. cbn. now rewrite Hx, String.eqb_refl.
      * destruct H as [Hd _]. rewrite default_head by auto. now rewrite (proj2 (String.eqb_neq _ _) (Hn y (or_introl eq_refl))).
  - destruct l as [|y l].
    + cbn [app]. split; [split; [reflexivity|intros ? []]|]. split; [|split; [|reflexivity]].
      * intros Hl. apply (get_first []); auto.
      * intros g Hg Hne. change (alt_get ([] ++ AltItem v lang true :: []) g = alt_get [] g). rewrite get_skip; auto.
    + split; [apply one_default_app; auto; discriminate|]. split; [|split].
      * intros Hl. apply get_first; auto.
      * intros g Hg Hne. rewrite get_skip, List.app_nil_r; auto.
      * destruct H as [Hd _]. cbn [app]. rewrite default_head by auto. now rewrite (proj2 (String.eqb_neq _ _) (Hn y (or_introl eq_refl))).
Qed.
Lemma set_empty l lang : alt_set l lang "" = Ok l. Proof. reflexivity. Qed.

(* AddDefault *)
Lemma add_default_get l lang v : v <> "" ->
  one_default (alt_add_default l lang v) /\ (lang <> "" -> alt_get (alt_add_default l lang v) lang = v) /\
  alt_default (alt_add_default l lang v) = v /\
  (forall g, g <> "" -> g <> lang -> alt_get (alt_add_default l lang v) g = alt_get l g).
Proof.
  intros Hv. unfold alt_add_default. rewrite (proj2 (emptyb_neq _) Hv). split; [|split; [|split]].
  - split; auto. intros y Hy. apply in_map_iff in Hy as (z & <- & _). reflexivity.
  - intros Hl. apply (get_first []); auto. intros y [].
  - now apply default_head.
  - intros g Hg Hne. change (alt_get ([] ++ AltItem v lang true :: map (fun y => set_def y false) l) g = alt_get l g).
    rewrite get_skip; auto. now apply get_map_def.
Qed.

(* Add *)
Lemma add_get l lang v l' : one_default l -> v <> "" -> alt_add l lang v = Ok l' ->
  one_default l' /\ (lang <> "" -> lacks_lang l lang -> alt_get l' lang = v) /\
  (forall g, g <> "" -> g <> lang \/ ~ lacks_lang l g -> alt_get l' g = alt_get l g) /\
  (l <> [] -> alt_default l' = alt_default l).
Proof.
  intros H Hv. rewrite alt_add_spec by auto. intros K; inversion K; subst l'; clear K. split; [|split; [|split]].
  - destruct l; [split; [reflexivity|intros ? []]|apply one_default_app; auto; discriminate].
  - intros Hl Hn. apply get_first; auto.
  - intros g Hg Hg2. destruct (String.eqb_spec lang g) as [->|Hne]; [|rewrite get_skip, List.app_nil_r; auto].
    destruct Hg2 as [?|Hg2]; [congruence|]. unfold alt_get. rewrite (proj2 (emptyb_neq _) Hg), find_app_split.
    destruct (find (fun x => ai_lang x =? g) l) eqn:E; auto. destruct Hg2. intros x Hx Hl. apply (find_none _ _ E) in Hx. apply String.eqb_neq in Hx. congruence.
  - intros Hne. destruct l as [|x l]; [congruence|]. destruct H as [Hd _]. cbn [app]. now rewrite !default_head.
Qed.
Lemma add_unique_spec l lang v : one_default l -> v <> "" ->
  alt_add_unique l lang v =
  if alt_index l lang then
    (if existsb (fun x => (ai_lang x =? lang) && (ai_value x =? v)) (firstn 1 (filter (fun x => ai_lang x =? lang) l)) then Ok (l, false)
     else Ok ((l ++ [AltItem v lang (match l with [] => true | _ => false end)]), true))
  else Ok ((l ++ [AltItem v lang (match l with [] => true | _ => false end)]), true).
Proof.
  intros H Hv. unfold alt_add_unique. rewrite (proj2 (emptyb_neq _) Hv). destruct (alt_index l lang) as [i|] eqn:E.
  - destruct (alt_index_some _ _ _ E) as (pre & x & post & El & <- & Hl & Hn). cbn [option_map].
    replace (nth_error l (List.length pre)) with (Some x).
    2:{ subst l. rewrite nth_error_app2, Nat.sub_diag by lia. reflexivity. }
    replace (firstn 1 (filter (fun x => ai_lang x =? lang) l)) with [x].
    2:{ subst l. rewrite filter_app. cbn [filter]. rewrite Hl, String.eqb_refl.
        replace (filter (fun x0 => ai_lang x0 =? lang) pre) with (@nil alt_item); [reflexivity|].
        symmetry. clear -Hn. induction pre as [|y pre IH]; cbn; auto. rewrite (proj2 (String.eqb_neq _ _)) by (apply Hn; now left).
        apply IH. intros z Hz. apply Hn. now right. }
    cbn [existsb]. rewrite Hl, String.eqb_refl. cbn [andb orb]. rewrite orb_false_r. destruct (ai_value x =? v); auto.
    rewrite alt_add_spec by auto. reflexivity.
  - cbn [option_map]. rewrite alt_add_spec by auto. reflexivity.
Qed.

(* RemoveLang *)
Lemma remove_spec l lang :
  (lacks_lang l lang /\ alt_remove_lang l lang = Ok l) \/
  (exists pre x post, l = (pre ++ x :: post) /\ ai_lang x = lang /\ lacks_lang pre lang /\
     alt_remove_lang l lang = ensure_default (pre ++ post)).
Proof.
  unfold alt_remove_lang. destruct (alt_index l lang) as [i|] eqn:E; [|left; split; auto; now apply alt_index_none].
  right. destruct (alt_index_some _ _ _ E) as (pre & x & post & -> & <- & Hl & Hn). exists pre, x, post. repeat split; auto.
  f_equal. rewrite firstn_app, Nat.sub_diag, firstn_all, firstn_O, List.app_nil_r. f_equal.
  rewrite skipn_app, skipn_all2 by lia. replace (S (List.length pre) - List.length pre) with 1 by lia. reflexivity.
Qed.
Lemma remove_one_default l lang l' : alt_remove_lang l lang = Ok l' -> one_default l -> one_default l'.
Proof.
  destruct (remove_spec l lang) as [[_ ->]|(pre & x & post & -> & _ & _ & ->)]; intros H; [now inversion H; subst|]. intros _. eapply ensure_one; eauto.
Qed.
Lemma remove_ok l lang l' : one_default l -> alt_remove_lang l lang = Ok l' ->
  (lacks_lang l lang /\ l' = l) \/
  (exists pre x post, l = (pre ++ x :: post) /\ ai_lang x = lang /\ lacks_lang pre lang /\
     map content l' = map content (pre ++ post)).
Proof.
  intros H. destruct (remove_spec l lang) as [[Hn ->]|(pre & x & post & -> & Hx & Hn & ->)]; intros K; [left; inversion K; subst; auto|].
  right. exists pre, x, post. repeat split; auto. destruct pre as [|y pre].
  - cbn [app] in *. destruct H as [Hd Hr]. destruct post as [|z [|w post]]; cbn in K; inversion K; subst; auto.
    assert (E : ensure_default (z :: w :: post) = Panic).
    { apply ensure_panics. split; [cbn; lia|]. intros q Hq. auto. }
    cbn in E, K. rewrite E in K. discriminate.
  - rewrite ensure_id in K; [inversion K; auto|]. destruct H as [Hd Hr]. cbn. split; auto. intros z Hz. apply Hr. apply in_app_or in Hz as [Hz|Hz]; apply in_or_app; auto. right. now right.
Qed.
Lemma remove_panics l lang : one_default l ->
  (alt_remove_lang l lang = Panic <-> exists x y z post, l = x :: y :: z :: post /\ ai_lang x = lang).
Proof.
  intros H. destruct (remove_spec l lang) as [[Hn ->]|(pre & x & post & -> & Hx & Hn & ->)].
  - split; [discriminate|]. intros (x & y & z & post & -> & Hx). destruct (Hn x (or_introl eq_refl) Hx).
  - rewrite ensure_panics. destruct pre as [|y pre].
    + cbn [app] in *. destruct H as [Hd Hr]. split.
      * intros [HL _]. destruct post as [|b [|c post]]; cbn in HL; try lia. eauto 6.
      * intros (a & b & c & p & E & _). inversion E; subst. split; [cbn; lia|]. exact Hr.
    + cbn [app] in *. split.
      * intros [_ Hno]. destruct H as [Hd _]. rewrite (Hno y) in Hd by now left. discriminate.
      * intros (a & b & c & p & E & Ha). inversion E; subst. destruct (Hn a (or_introl eq_refl) Ha).
Qed.
Lemma get_content l l' lang : lang <> "" -> map content l = map content l' -> alt_get l lang = alt_get l' lang.
Proof.
  intros Hne. unfold alt_get. rewrite (proj2 (emptyb_neq _) Hne). revert l'. induction l as [|x l IH]; intros [|y l'] H; cbn in H; try discriminate; auto.
  inversion H. cbn. rewrite H2. destruct (ai_lang y =? lang); auto.
Qed.
Lemma remove_get l lang l' g : one_default l -> alt_remove_lang l lang = Ok l' -> g <> "" -> g <> lang -> alt_get l' g = alt_get l g.
Proof.
  intros H K Hg Hne. destruct (remove_ok _ _ _ H K) as [[_ ->]|(pre & x & post & -> & Hx & Hn & E)]; auto.
  rewrite (get_content _ _ _ Hg E), get_skip; auto. congruence.
Qed.
Lemma remove_gone l lang l' : one_default l -> NoDup (map ai_lang l) -> alt_remove_lang l lang = Ok l' -> lacks_lang l' lang.
Proof.
  intros H Hd K. destruct (remove_ok _ _ _ H K) as [[Hn ->]|(pre & x & post & -> & Hx & Hn & E)]; auto.
  intros y Hy Hl. assert (In (ai_lang y) (map ai_lang l')) by (apply in_map; auto).
  assert (EL : map ai_lang l' = map ai_lang (pre ++ post)).
  { transitivity (map snd (map content l')); [now rewrite map_map|]. rewrite E. now rewrite map_map. }
  rewrite EL, Hl, <- Hx in H0. rewrite map_app in Hd. cbn [map] in Hd. apply NoDup_remove_2 in Hd. rewrite map_app in H0. contradiction.
Qed.

(* histories *)
Lemma step_one_default l o l' : one_default l -> alt_step l o = Ok l' -> one_default l'.
Proof.
  intros H. destruct o as [g v|g v|g v|g v|g|]; cbn [alt_step].
  - intros K; inversion K; subst. destruct (String.eqb_spec v "") as [->|Hv]; [exact H|]. now apply add_default_get.
  - destruct (String.eqb_spec v "") as [->|Hv]; intros K; [inversion K; now subst|]. eapply add_get; eauto.
  - destruct (String.eqb_spec v "") as [->|Hv]; intros K; [inversion K; now subst|]. rewrite add_unique_spec in K by auto.
    assert (A : one_default (l ++ [AltItem v g (match l with [] => true | _ => false end)])).
    { destruct l; [split; [reflexivity|intros ? []]|apply one_default_app; auto; discriminate]. }
    destruct (alt_index l g); [destruct (existsb _ _)|]; cbn in K; inversion K; subst; auto.
  - destruct (String.eqb_spec v "") as [->|Hv]; intros K; [inversion K; now subst|]. eapply set_get; eauto.
  - intros K. eapply remove_one_default; eauto.
  - intros K. eapply ensure_one; eauto.
Qed.
Lemma run_one_default h : forall l l', one_default l -> alt_run l h = Ok l' -> one_default l'.
Proof.
  induction h as [|o h IH]; intros l l' H; cbn; [intros K; now inversion K; subst|].
  destruct (alt_step l o) as [l1|e|] eqn:E; cbn; try discriminate. intros K. exact (IH _ _ (step_one_default _ _ _ H E) K).
Qed.
Lemma NoDup_snoc {A} (l : list A) x : NoDup l -> ~ In x l -> NoDup (l ++ [x]).
Proof.
  induction l as [|y l IH]; intros H Hx; cbn; [constructor; auto|]. inversion H; subst. constructor.
  - intros K. apply in_app_or in K as [K|[<-|[]]]; auto. apply Hx. now left.
  - apply IH; auto. intros K. apply Hx. now right.
Qed.
Lemma get_lacks l g : g <> "" -> lacks_lang l g -> alt_get l g = "".
Proof. intros Hg H. unfold alt_get. now rewrite (proj2 (emptyb_neq _) Hg), (find_lacks _ _ H). Qed.
Lemma eqb_empty v : (v =? "") = emptyb v.
Proof. destruct v; reflexivity. Qed.

(* one step, for histories of Set and AddDefault *)
Lemma sa_step l o l' : one_default l -> ((exists g v, o = OpSet g v) \/ (exists g v, o = OpAddDefault g v)) -> alt_step l o = Ok l' ->
  forall lang, lang <> "" -> alt_get l' lang = effect lang o (alt_get l lang).
Proof.
  intros H [(g & v & ->)|(g & v & ->)] K lang Hl; cbn [alt_step effect] in *; rewrite eqb_empty.
  - destruct (emptyb v) eqn:Ev.
    + apply emptyb_iff in Ev. subst v. cbn in K. inversion K; subst. now rewrite andb_false_r.
    + apply emptyb_neq in Ev. destruct (set_get l g v l' H Ev K) as (_ & G1 & G2 & _).
      destruct (String.eqb_spec g lang) as [->|Hne]; cbn; auto.
  - inversion K; subst l'; clear K. destruct (emptyb v) eqn:Ev.
    + apply emptyb_iff in Ev. subst v. now rewrite andb_false_r.
    + apply emptyb_neq in Ev. destruct (add_default_get l g v Ev) as (_ & G1 & _ & G2).
      destruct (String.eqb_spec g lang) as [->|Hne]; cbn; auto.
Qed.
Lemma sa_run h lang : lang <> "" -> only_set_and_add_default h -> forall l l', one_default l -> alt_run l h = Ok l' ->
  alt_get l' lang = fold_left (fun acc o => effect lang o acc) h (alt_get l lang).
Proof.
  intros Hl. induction h as [|o h IH]; intros Ho l l' H K; cbn in K; [now inversion K; subst|].
  destruct (alt_step l o) as [l1|e|] eqn:E; cbn in K; try discriminate. cbn [fold_left].
  rewrite <- (sa_step l o l1 H) with (1 := Ho o (or_introl eq_refl)) by auto.
  apply IH; auto.
  - intros o' Ho'. apply Ho. now right.
  - eapply step_one_default; eauto.
Qed.

(* one step, for histories that only add new languages *)
Definition within (l : alt_string) (before : list alt_op) : Prop :=
  forall x, In x l -> exists o, In o before /\ stores o (ai_lang x).
Lemma content_langs l l' : map content l = map content l' -> map ai_lang l = map ai_lang l'.
Proof. intros H. transitivity (map snd (map content l)); [now rewrite map_map|]. rewrite H. now rewrite map_map. Qed.
Lemma langs_in l l' x : map content l' = map content l -> In x l' -> exists y, In y l /\ ai_lang y = ai_lang x.
Proof.
  intros H Hx. apply content_langs in H. apply (in_map ai_lang) in Hx. rewrite H in Hx. apply in_map_iff in Hx as (y & E & Hy). eauto.
Qed.
Lemma nodup_snoc (l : alt_string) x : NoDup (map ai_lang l) -> lacks_lang l (ai_lang x) -> NoDup (map ai_lang (l ++ [x])).
Proof.
  intros H Hn. rewrite map_app. cbn. apply NoDup_snoc; auto.
  intros K. apply in_map_iff in K as (y & E & Hy). exact (Hn y Hy E).
Qed.
Lemma new_step l o l' before : one_default l -> NoDup (map ai_lang l) -> within l before -> adds_new before o -> alt_step l o = Ok l' ->
  NoDup (map ai_lang l') /\ within l' (before ++ [o]) /\ forall lang, lang <> "" -> alt_get l' lang = effect lang o (alt_get l lang).
Proof.
  intros H Hnd Hw Ha K.
  assert (W : within l (before ++ [o])).
  { intros x Hx. destruct (Hw x Hx) as (o' & A & B). exists o'. split; auto. apply in_or_app; auto. }
  assert (Add : forall g v, v <> "" -> lacks_lang l g -> stores o g ->
    (forall lang, effect lang o (alt_get l lang) = if g =? lang then v else alt_get l lang) ->
    l' = l ++ [AltItem v g (match l with [] => true | _ => false end)] ->
    NoDup (map ai_lang l') /\ within l' (before ++ [o]) /\ forall lang, lang <> "" -> alt_get l' lang = effect lang o (alt_get l lang)).
  { intros g v Hv Hn Hs He ->. split; [apply nodup_snoc; auto|]. split.
    - intros x Hx. apply in_app_or in Hx as [Hx|[<-|[]]]; auto. exists o. split; [apply in_or_app; right; now left|exact Hs].
    - intros lang Hl. rewrite He. destruct (String.eqb_spec g lang) as [->|Hne].
      + apply get_first; auto.
      + rewrite get_skip, List.app_nil_r; auto. }
  assert (Lk : forall g, (forall o', In o' before -> ~ stores o' g) -> lacks_lang l g).
  { intros g Hg x Hx Hl. destruct (Hw x Hx) as (o' & A & B). apply (Hg o' A). congruence. }
  destruct o as [g v|g v|g v|g v|g|]; cbn [alt_step adds_new] in *.
  - (* AddDefault *) inversion K; subst l'; clear K. destruct (emptyb v) eqn:Ev.
    + unfold alt_add_default. rewrite Ev. repeat split; auto. intros lang _. cbn. rewrite eqb_empty, Ev. now rewrite andb_false_r.
    + apply emptyb_neq in Ev. destruct (add_default_get l g v Ev) as (_ & G1 & _ & G2). specialize (Lk g Ha).
      unfold alt_add_default in *. rewrite (proj2 (emptyb_neq _) Ev) in *. split; [|split].
      * cbn. rewrite map_map. constructor; auto. intros X. apply in_map_iff in X as (y & E & Hy). exact (Lk y Hy E).
      * intros x [<-|Hx].
        -- exists (OpAddDefault g v). split; [apply in_or_app; right; now left|]. cbn. auto.
        -- apply in_map_iff in Hx as (y & <- & Hy). cbn. auto.
      * intros lang Hl. cbn. rewrite eqb_empty, (proj2 (emptyb_neq _) Ev). destruct (String.eqb_spec g lang) as [->|Hne]; cbn [andb negb]; auto.
  - (* Add *) destruct (emptyb v) eqn:Ev.
    + unfold alt_add in K. rewrite Ev in K. inversion K; subst. repeat split; auto. intros lang _. cbn. rewrite eqb_empty, Ev. now rewrite andb_false_r.
    + apply emptyb_neq in Ev. rewrite alt_add_spec in K by auto. inversion K; subst l'. apply (Add g v); auto; [now split|].
      intros lang. cbn. rewrite eqb_empty, (proj2 (emptyb_neq _) Ev). now rewrite andb_true_r.
  - (* AddUnique *) destruct (emptyb v) eqn:Ev.
    + unfold alt_add_unique in K. rewrite Ev in K. inversion K; subst. repeat split; auto. intros lang _. cbn. rewrite eqb_empty, Ev. now rewrite andb_false_r.
    + apply emptyb_neq in Ev. rewrite add_unique_spec in K by auto. rewrite (proj2 (alt_index_none l g) (Lk g Ha)) in K. cbn in K.
      inversion K; subst l'. apply (Add g v); auto; [now split|].
      intros lang. cbn. rewrite eqb_empty, (proj2 (emptyb_neq _) Ev). now rewrite andb_true_r.
  - (* Set *) split; [|split].
    3:{ intros lang Hl. apply (sa_step l (OpSet g v) l' H); auto. left; eauto. }
    + destruct (emptyb v) eqn:Ev; [unfold alt_set in K; rewrite Ev in K; inversion K; now subst|]. apply emptyb_neq in Ev.
      destruct (alt_set_spec l g v H Ev) as [(pre & x & post & El & Hx & Hn & E)|[Hn E]]; rewrite E in K; inversion K; subst l'.
      * subst l. rewrite map_app in *. cbn in *. now rewrite <- Hx.
      * apply nodup_snoc; auto.
    + destruct (emptyb v) eqn:Ev; [unfold alt_set in K; rewrite Ev in K; inversion K; now subst|]. apply emptyb_neq in Ev.
      assert (S : exists o, In o (before ++ [OpSet g v]) /\ stores o g) by (exists (OpSet g v); split; [apply in_or_app; right; now left|now split]).
      destruct (alt_set_spec l g v H Ev) as [(pre & x & post & El & Hx & Hn & E)|[Hn E]]; rewrite E in K; inversion K; subst l'.
      * subst l. intros y Hy. apply in_app_or in Hy as [Hy|[<-|Hy]]; auto; apply W; apply in_or_app; auto. right. now right.
      * intros y Hy. apply in_app_or in Hy as [Hy|[<-|[]]]; auto.
  - (* RemoveLang *) pose proof (remove_gone l g l' H Hnd K) as Hg.
    destruct (remove_ok _ _ _ H K) as [[Hn ->]|(pre & x & post & El & Hx & Hn & E)].
    + repeat split; auto. intros lang Hl. cbn. destruct (String.eqb_spec g lang) as [->|Hne]; auto. now apply get_lacks.
    + split; [|split].
      * rewrite (content_langs _ _ E). subst l. rewrite map_app in *. cbn in Hnd. now apply NoDup_remove_1 in Hnd.
      * intros y Hy. destruct (langs_in _ _ y E Hy) as (z & Hz & <-). apply W. subst l. apply in_app_or in Hz as [Hz|Hz]; apply in_or_app; auto. right. now right.
      * intros lang Hl. cbn. destruct (String.eqb_spec g lang) as [->|Hne]; [now apply get_lacks|]. eapply remove_get; eauto.
  - rewrite ensure_id in K by auto. inversion K; subst. repeat split; auto.
Qed.
Lemma new_run h lang : lang <> "" -> forall before l l', one_default l -> NoDup (map ai_lang l) -> within l before ->
  (forall b o a, h = b ++ o :: a -> adds_new (before ++ b) o) -> alt_run l h = Ok l' ->
  NoDup (map ai_lang l') /\ alt_get l' lang = fold_left (fun acc o => effect lang o acc) h (alt_get l lang).
Proof.
  intros Hl. induction h as [|o h IH]; intros before l l' H Hnd Hw Ha K; cbn in K; [now inversion K; subst|].
  destruct (alt_step l o) as [l1|e|] eqn:E; cbn in K; try discriminate. cbn [fold_left].
  assert (Ao : adds_new before o) by (rewrite <- (List.app_nil_r before); apply (Ha [] o h eq_refl)).
  destruct (new_step l o l1 before H Hnd Hw Ao E) as (N1 & W1 & G).
  rewrite <- G by auto. apply (IH (before ++ [o])); auto.
  - eapply step_one_default; eauto.
  - intros b o' a ->. rewrite <- List.app_assoc. apply (Ha (o :: b) o' a eq_refl).
Qed.
Lemma step_panics l o : one_default l -> (alt_step l o = Panic <->
  exists g x y z post, o = OpRemoveLang g /\ l = x :: y :: z :: post /\ ai_lang x = g).
Proof.
  intros H. destruct o as [g v|g v|g v|g v|g|]; cbn [alt_step].
  - split; [discriminate|]. now intros (g0 & x & y & z & post & E & _).
  - split; [|now intros (g0 & x & y & z & post & E & _)]. destruct (String.eqb_spec v "") as [->|Hv]; [discriminate|]. rewrite alt_add_spec by auto. discriminate.
  - split; [|now intros (g0 & x & y & z & post & E & _)]. destruct (String.eqb_spec v "") as [->|Hv]; [discriminate|]. rewrite add_unique_spec by auto.
    destruct (alt_index l g); [destruct (existsb _ _)|]; discriminate.
  - split; [|now intros (g0 & x & y & z & post & E & _)]. destruct (String.eqb_spec v "") as [->|Hv]; [discriminate|].
    destruct (alt_set_spec l g v H Hv) as [(pre & x & post & _ & _ & _ & ->)|[_ ->]]; discriminate.
  - rewrite (remove_panics l g H). split.
    + intros (x & y & z & post & E & Hx). exists g, x, y, z, post. auto.
    + intros (g0 & x & y & z & post & E & El & Hx). inversion E; subst. eauto 6.
  - split; [|now intros (g0 & x & y & z & post & E & _)]. rewrite ensure_id by auto. discriminate.
Qed.
(* errors are never returned *)
Lemma step_no_err l o e : alt_step l o <> Err e.
Proof.
  assert (E : forall l, ensure_default l <> Err e).
  { intros l0. destruct (ensure_spec l0) as [(x & -> & E)|[(-> & E)|[(H1 & H2 & E)|(pre & x & post & l1 & -> & E2 & Hn & Hd & E & ->)]]]; rewrite E; discriminate. }
  assert (A : forall g v, alt_add l g v <> Err e).
  { intros g v. unfold alt_add. destruct (emptyb v); [discriminate|]. apply E. }
  destruct o as [g v|g v|g v|g v|g|]; cbn [alt_step]; auto.
  - discriminate.
  - unfold alt_add_unique. destruct (emptyb v); [discriminate|]. specialize (A g v).
    destruct (option_map _ (alt_index l g)) as [[x|]|]; [destruct (ai_value x =? v); [discriminate|]| |]; destruct (alt_add l g v); cbn; congruence.
  - unfold alt_set. destruct (emptyb v); [discriminate|]. destruct (alt_index l g); [discriminate|auto].
  - unfold alt_remove_lang. destruct (alt_index l g); [auto|discriminate].
Qed.

Lemma add_panics l lang v : alt_add l lang v = Panic <-> v <> "" /\ l <> [] /\ no_default l.
Proof.
  unfold alt_add. destruct (String.eqb_spec v "") as [->|Hv]; [cbn; split; [discriminate|tauto]|].
  rewrite (proj2 (emptyb_neq _) Hv), ensure_panics, List.app_length. cbn. split.
  - intros [H1 H2]. split; auto. split; [destruct l; [cbn in H1; lia|discriminate]|]. intros x Hx. apply H2. apply in_or_app; auto.
  - intros (_ & H1 & H2). split; [destruct l; [congruence|cbn; lia]|]. intros x Hx. apply in_app_or in Hx as [Hx|[<-|[]]]; auto.
Qed.
Lemma new_panics args : new_alt_string args = Panic <-> 2 <= List.length (new_alt_items args) /\ no_default (new_alt_items args).
Proof. apply ensure_panics. Qed.

(* ---- string lists ---- *)
Lemma first_index_some l v i : first_index l v = Some i <-> first_pos l v i.
Proof.
  revert i. induction l as [|x l IH]; intros i; cbn.
  - split; [discriminate|]. intros [H _]. destruct i; discriminate.
  - destruct (String.eqb_spec x v) as [->|Hne].
    + split.
      * intros H; inversion H; subst. split; auto. intros j Hj. lia.
      * intros [H1 H2]. destruct i; auto. exfalso. apply (H2 0); [lia|reflexivity].
    + destruct (first_index l v) as [k|] eqn:E; cbn.
      * split.
        -- intros H; inversion H; subst. destruct (proj1 (IH k) eq_refl) as [H1 H2]. split; auto.
           intros [|j] Hj; cbn; [congruence|]. apply H2. lia.
        -- intros [H1 H2]. destruct i as [|i]; cbn in H1; [congruence|]. assert (Some k = Some i); [|congruence]. apply IH. split; auto.
           intros j Hj. apply (H2 (S j)). lia.
      * split; [discriminate|]. intros [H1 H2]. destruct i as [|i]; cbn in H1; [congruence|].
        assert (None = Some i); [|discriminate]. apply IH. split; auto. intros j Hj. apply (H2 (S j)). lia.
Qed.
Lemma first_index_none l v : first_index l v = None <-> ~ In v l.
Proof.
  induction l as [|x l IH]; cbn; [tauto|]. destruct (String.eqb_spec x v) as [->|Hne].
  - split; [discriminate|]. tauto.
  - destruct (first_index l v); cbn; split; try discriminate; try tauto.
    + intros H. destruct IH as [_ IH]. assert (Some n = None) by (apply IH; tauto). discriminate.
Qed.
Lemma sl_index_some l v i : v <> "" -> sl_index l v = Some i <-> first_pos l v i.
Proof. intros H. unfold sl_index. rewrite (proj2 (emptyb_neq _) H). apply first_index_some. Qed.
Lemma sl_contains_iff l v : sl_contains l v = true <-> v <> "" /\ In v l.
Proof.
  unfold sl_contains, sl_index. destruct (String.eqb_spec v "") as [->|Hv]; [cbn; split; [discriminate|tauto]|]. rewrite (proj2 (emptyb_neq _) Hv).
  destruct (first_index l v) eqn:E.
  - split; auto. intros _. split; auto. apply first_index_some in E as [E _]. eapply nth_error_In; eauto.
  - apply first_index_none in E. split; [discriminate|tauto].
Qed.
Lemma sl_add_unique_spec l v : v <> "" -> (In v l -> sl_add_unique l v = l) /\ (~ In v l -> sl_add_unique l v = (l ++ [v])).
Proof.
  intros Hv. unfold sl_add_unique, sl_add. rewrite (proj2 (emptyb_neq _) Hv). split; intros H.
  - rewrite (proj2 (sl_contains_iff l v)); auto.
  - destruct (sl_contains l v) eqn:E; auto. apply sl_contains_iff in E. tauto.
Qed.
Lemma sl_remove_absent l v : v = "" \/ ~ In v l -> sl_remove l v = l.
Proof.
  intros H. unfold sl_remove, sl_index. destruct (emptyb v) eqn:E; auto. destruct (first_index l v) eqn:E2; auto.
  destruct H as [->|H]; [discriminate|]. apply first_index_none in H. congruence.
Qed.
(* what Remove really does *)
Lemma sl_remove_present l v i : v <> "" -> first_pos l v i -> sl_remove l v = (firstn i l ++ firstn i l ++ [v]).
Proof.
  intros Hv H. unfold sl_remove, sl_index. rewrite (proj2 (emptyb_neq _) Hv). rewrite (proj2 (first_index_some l v i) H). f_equal.
  destruct H as [H _]. clear Hv. revert l H. induction i as [|i IH]; intros [|x l] H; cbn in *; try discriminate.
  - now inversion H.
  - f_equal. apply IH. auto.
Qed.
Lemma id_remove_present l v i : first_pos l v i -> id_remove l v = (firstn i l ++ firstn i l ++ [v]).
Proof.
  intros H. unfold id_remove, id_index. rewrite (proj2 (first_index_some l v i) H). f_equal.
  destruct H as [H _]. revert l H. induction i as [|i IH]; intros [|x l] H; cbn in *; try discriminate.
  - now inversion H.
  - f_equal. apply IH. auto.
Qed.
Lemma new_string_list_spec l : new_string_list l = filter (fun s => negb (emptyb s)) l /\ ~ In "" (new_string_list l).
Proof. split; auto. unfold new_string_list. rewrite filter_In. cbn. intros [_ H]; discriminate. Qed.


Local Open Scope string_scope.
(* text *)
Definition no_cr_end (s : string) : Prop := forall t, s <> t ++ String "013" "".
Lemma no_cr_end_tail c s : no_cr_end (String c s) -> no_cr_end s.
Proof. intros H t ->. apply (H (String c t)). reflexivity. Qed.
Lemma crlf_app s r : has_char "010" s = false -> no_cr_end s -> crlf_to_lf (s ++ String "010" r) = s ++ String "010" (crlf_to_lf r).
Proof.
  induction s as [|c s IH]; intros H1 H2; [reflexivity|]. cbn [append].
  cbn [has_char] in H1. apply orb_false_iff in H1 as [Hc H1]. pose proof (no_cr_end_tail _ _ H2) as H3.
  destruct s as [|d s].
  - cbn [append] in *. destruct c as [[][][][][][][][]]; try reflexivity. destruct (H2 ""). reflexivity.
  - rewrite <- IH by auto. cbn [append].
    cbn [has_char] in H1. apply orb_false_iff in H1 as [Hd H1].
    destruct c as [[][][][][][][][]]; try reflexivity; destruct d as [[][][][][][][][]]; try reflexivity; discriminate.
Qed.
Lemma crlf_id s : has_char "010" s = false -> crlf_to_lf s = s.
Proof.
  induction s as [|c s IH]; intros H; [reflexivity|]. cbn [has_char] in H. apply orb_false_iff in H as [Hc H].
  specialize (IH H). destruct s as [|d s].
  - destruct c as [[][][][][][][][]]; reflexivity.
  - rewrite <- IH at 2. cbn [has_char] in H. apply orb_false_iff in H as [Hd H].
    destruct c as [[][][][][][][][]]; try reflexivity; destruct d as [[][][][][][][][]]; try reflexivity; discriminate.
Qed.
Lemma crlf_join l : Forall (fun x => has_char "010" x = false /\ no_cr_end x) l -> crlf_to_lf (join (String "010" "") l) = join (String "010" "") l.
Proof.
  induction l as [|x l IH]; intros H; [reflexivity|]. inversion H as [|? ? [H1 H2] H3]; subst. destruct l as [|y l].
  - cbn. now apply crlf_id.
  - rewrite join_cons. cbn [append]. rewrite crlf_app by auto. now rewrite IH.
Qed.
Lemma sl_text_round_trip l old : l <> [] -> Forall (fun x => has_char "010" x = false /\ no_cr_end x) l ->
  exists s, sl_marshal_text l = Some s /\ sl_unmarshal_text old s = (old ++ l)%list.
Proof.
  intros Hne H. exists (join (String "010" "") l). split; [destruct l; [congruence|reflexivity]|].
  unfold sl_unmarshal_text. rewrite crlf_join by auto. rewrite split_join; auto. eapply Forall_impl; [|exact H]. now intros x [? _].
Qed.
