(* Lemmas about MmM *)
From Coq Require Import List Arith ZArith Bool Ascii String Lia.
From Verif Require Import GoStr GoStrFacts GoMap RegistryFacts CodecM MmM SpecMm.
Import ListNotations.
Local Open Scope string_scope.

Lemma update_nth_len {A} f i (l : list A) : List.length (update_nth f i l) = List.length l.
Proof. revert i. induction l as [|x l IH]; intros [|i]; cbn; auto. Qed.
Lemma nth_update {A} f i (l : list A) j :
  nth_error (update_nth f i l) j = if Nat.eqb i j then option_map f (nth_error l j) else nth_error l j.
Proof. revert i j. induction l as [|x l IH]; intros [|i] [|j]; cbn; auto. now destruct (Nat.eqb i j). Qed.
Lemma update_nth_last {A} f (l : list A) x : update_nth f (List.length l) (l ++ [x])%list = (l ++ [f x])%list.
Proof. induction l as [|y l IH]; cbn; [reflexivity|]. now rewrite IH. Qed.

Lemma run_app agent m h1 h2 : mm_run agent m (h1 ++ h2)%list = bind (mm_run agent m h1) (fun m' => mm_run agent m' h2).
Proof.
  revert m. induction h1 as [|o h1 IH]; intros m; [reflexivity|]. cbn [List.app mm_run].
  destruct (mm_step agent m o) as [m'|e|]; cbn [bind]; auto.
Qed.

(* pointers are valid and different *)
Definition ptrs_ok (m : mm) : Prop :=
  (forall a, In (Some a) (mm_versions m) -> a < List.length (mm_mem m)) /\
  (forall i j a, nth_error (mm_versions m) i = Some (Some a) -> nth_error (mm_versions m) j = Some (Some a) -> i = j).

Lemma rev_last {A} (l : list A) x r : rev l = x :: r -> l = (rev r ++ [x])%list.
Proof. intros H. rewrite <- (rev_involutive l), H. reflexivity. Qed.

Lemma ptrs_new vs a : (forall b, In (Some b) vs -> b < a) ->
  (forall i j b, nth_error vs i = Some (Some b) -> nth_error vs j = Some (Some b) -> i = j) ->
  forall i j b, nth_error (vs ++ [Some a])%list i = Some (Some b) -> nth_error (vs ++ [Some a])%list j = Some (Some b) -> i = j.
Proof.
  intros H D i j b Hi Hj.
  destruct (Nat.lt_ge_cases i (List.length vs)) as [Li|Li]; destruct (Nat.lt_ge_cases j (List.length vs)) as [Lj|Lj].
  - rewrite nth_error_app1 in Hi, Hj by assumption. eapply D; eauto.
  - rewrite nth_error_app1 in Hi by assumption. rewrite nth_error_app2 in Hj by assumption.
    destruct (j - List.length vs) as [|[|k]]; try discriminate. injection Hj as <-.
    apply nth_error_In, H in Hi. lia.
  - rewrite nth_error_app1 in Hj by assumption. rewrite nth_error_app2 in Hi by assumption.
    destruct (i - List.length vs) as [|[|k]]; try discriminate. injection Hi as <-.
    apply nth_error_In, H in Hj. lia.
  - rewrite nth_error_app2 in Hi, Hj by assumption.
    destruct (i - List.length vs) as [|[|k]] eqn:Ei; try discriminate.
    destruct (j - List.length vs) as [|[|k]] eqn:Ej; try discriminate. lia.
Qed.
Lemma ptrs_nil vs : 
  (forall i j b, nth_error vs i = Some (Some b) -> nth_error vs j = Some (Some b) -> i = j) ->
  forall i j b, nth_error (vs ++ [@None nat])%list i = Some (Some b) -> nth_error (vs ++ [None])%list j = Some (Some b) -> i = j.
Proof.
  intros D i j b Hi Hj.
  assert (K : forall k, nth_error (vs ++ [None])%list k = Some (Some b) -> nth_error vs k = Some (Some b)).
  { intros k Hk. destruct (Nat.lt_ge_cases k (List.length vs)) as [L|L]; [now rewrite nth_error_app1 in Hk|].
    rewrite nth_error_app2 in Hk by assumption. destruct (k - List.length vs) as [|[|q]]; discriminate. }
  eapply D; eauto.
Qed.

Lemma alloc_ok m v : ptrs_ok m -> ptrs_ok (let '(m', a) := alloc m v in add_version m' (Some a)).
Proof.
  intros [V D]. cbn. split; cbn.
  - intros a Ha. rewrite List.app_length. cbn. apply in_app_or in Ha. destruct Ha as [Ha|[Ha|[]]].
    + apply V in Ha. lia.
    + injection Ha as <-. lia.
  - apply ptrs_new; [exact V|exact D].
Qed.
Lemma store_ok m a f : ptrs_ok m -> ptrs_ok (store m a f).
Proof. intros [V D]. split; cbn; [|exact D]. intros b Hb. rewrite update_nth_len. auto. Qed.

Lemma append_cases agent m a b c d :
  let fresh := StVersion "" (Event a (new_part_list [c]) (mm_instance m) "" agent d) b d (mm_version_id m) in
  (exists k v, last_version m = Some k /\ nth_error (mm_mem m) k = Some v /\ sv_version v = mm_version_id m /\
     append_version_history agent m a b c d = store m k (add_change c))
  \/ ((forall k v, last_version m = Some k -> nth_error (mm_mem m) k = Some v -> sv_version v <> mm_version_id m) /\
     append_version_history agent m a b c d = (let '(m', p) := alloc m fresh in add_version m' (Some p))).
Proof.
  intros fresh. unfold append_version_history. fold fresh.
  destruct (last_version m) as [k|] eqn:El; [|right; split; [discriminate|reflexivity]].
  destruct (nth_error (mm_mem m) k) as [v|] eqn:Ev.
  - destruct (String.eqb_spec (sv_version v) (mm_version_id m)) as [E|E].
    + left. exists k, v. auto.
    + right. split; [|reflexivity]. intros k' v' H1 H2. injection H1 as <-. rewrite Ev in H2. now injection H2 as <-.
  - right. split; [|reflexivity]. intros k' v' H1 H2. injection H1 as <-. congruence.
Qed.

Lemma step_ok agent m o m' : ptrs_ok m -> (match o with OAddPtr _ => False | _ => True end) ->
  mm_step agent m o = Ok m' -> ptrs_ok m'.
Proof.
  intros P N H. destruct o as [v|v|a b c d|v| |a|v]; cbn [mm_step] in H; try contradiction; try (injection H as <-).
  - exact P.
  - exact P.
  - destruct (append_cases agent m a b c d) as [(k & v & _ & _ & _ & ->)|[_ ->]]; [now apply store_ok|now apply alloc_ok].
  - now apply (alloc_ok m v).
  - destruct P as [V D]. split; cbn; [|now apply ptrs_nil]. intros a Ha. apply in_app_or in Ha. destruct Ha as [Ha|[Ha|[]]]; [auto|discriminate].
  - unfold set_previous_version_id in H. destruct (rev (mm_versions m)) as [|[a|] r]; try discriminate; injection H as <-; [exact P|now apply store_ok].
Qed.
Lemma run_ok agent h : forall m m', ptrs_ok m -> no_shared_pointers h -> mm_run agent m h = Ok m' -> ptrs_ok m'.
Proof.
  induction h as [|o h IH]; intros m m' P N H; [now injection H as <-|].
  apply Forall_cons_iff in N. destruct N as [No N]. cbn [mm_run] in H.
  destruct (mm_step agent m o) as [m1|e|] eqn:E; try discriminate. cbn [bind] in H.
  apply (IH m1 m'); [apply (step_ok agent m o m1 P No E)|exact N|exact H].
Qed.
Lemma empty_ok : ptrs_ok mm_empty.
Proof. split; cbn; [contradiction|]. intros [|i]; discriminate. Qed.

Lemma last_split m k : last_version m = Some k -> exists vs, mm_versions m = (vs ++ [Some k])%list.
Proof.
  unfold last_version. destruct (rev (mm_versions m)) as [|p r] eqn:E; [discriminate|]. intros ->.
  exists (rev r). now apply rev_last.
Qed.

Lemma entries_alloc m v : ptrs_ok m ->
  entries (let '(m', a) := alloc m v in add_version m' (Some a)) = (entries m ++ [Some v])%list.
Proof.
  intros [V _]. unfold entries. cbn. rewrite map_app. f_equal.
  - apply map_ext_in. intros [a|] Ha; [|reflexivity]. cbn. apply V in Ha. now rewrite nth_error_app1.
  - cbn. now rewrite nth_error_app2, Nat.sub_diag by lia.
Qed.
Lemma entries_store m k f vs v : ptrs_ok m -> mm_versions m = (vs ++ [Some k])%list -> nth_error (mm_mem m) k = Some v ->
  entries (store m k f) = (map (deref m) vs ++ [Some (f v)])%list.
Proof.
  intros [_ D] E Ev. unfold entries. cbn. rewrite E, map_app. f_equal.
  - apply map_ext_in. intros [a|] Ha; [|reflexivity]. cbn. rewrite nth_update. destruct (Nat.eqb_spec k a) as [->|]; [|reflexivity].
    exfalso. apply In_nth_error in Ha. destruct Ha as [i Hi].
    assert (i < List.length vs) by (apply nth_error_Some; congruence).
    assert (i = List.length vs); [|lia]. apply (D i (List.length vs) a); rewrite E.
    + now rewrite nth_error_app1.
    + now rewrite nth_error_app2, Nat.sub_diag by lia.
  - cbn. rewrite nth_update, Nat.eqb_refl, Ev. reflexivity.
Qed.

Lemma prefix_slash s : prefix_if_not s "/" = with_slash s.
Proof.
  unfold prefix_if_not, with_slash. destruct s as [|[[] [] [] [] [] [] [] []] s]; try reflexivity; destruct s; reflexivity.
Qed.

(* one recorded change *)
Lemma record_effect agent h m a b c d : no_shared_pointers h -> mm_run agent mm_empty h = Ok m ->
  let m' := append_version_history agent m a b c d in
  (exists pre v e, entries m = (pre ++ [Some v])%list /\ sv_version v = mm_version_id m /\ e = sv_event v /\
     entries m' = (pre ++ [Some (StVersion (sv_comments v)
        (Event (ev_action e) (ev_changed e ++ [at_path c])%list (ev_instance e) (ev_params e) (ev_agent e) (ev_when e))
        (sv_modifier v) (sv_date v) (sv_version v))])%list)
  \/ ((forall pre v, entries m = (pre ++ [Some v])%list -> sv_version v <> mm_version_id m) /\
     entries m' = (entries m ++ [Some (entry_of agent (Call (mm_version_id m) (mm_instance m) a b c d, []))])%list).
Proof.
  intros N R m'. pose proof (run_ok agent h mm_empty m empty_ok N R) as P.
  destruct (append_cases agent m a b c d) as [(k & v & L & Ev & Es & E)|[L E]].
  - left. destruct (last_split m k L) as [vs Evs]. exists (map (deref m) vs), v, (sv_event v).
    split; [unfold entries; rewrite Evs, map_app; cbn; now rewrite Ev|]. split; [exact Es|]. split; [reflexivity|].
    unfold m'. rewrite E. rewrite (entries_store m k (add_change c) vs v P Evs Ev). reflexivity.
  - right. split.
    + intros pre v Ee. destruct (last_version m) as [k|] eqn:El.
      * destruct (last_split m k El) as [vs Evs]. unfold entries in Ee. rewrite Evs, map_app in Ee. cbn in Ee.
        apply app_inj_tail in Ee. destruct Ee as [_ Ee]. eapply L; eauto.
      * exfalso. unfold last_version in El. destruct (rev (mm_versions m)) as [|p r] eqn:Er.
        -- assert (mm_versions m = []) as E0 by (rewrite <- (rev_involutive (mm_versions m)), Er; reflexivity).
           unfold entries in Ee. rewrite E0 in Ee. destruct pre; discriminate.
        -- apply rev_last in Er. unfold entries in Ee. rewrite Er, map_app in Ee. cbn in Ee. apply app_inj_tail in Ee.
           rewrite El in Ee. destruct Ee. discriminate.
    + unfold m'. rewrite E, entries_alloc by exact P. cbn [entry_of c_action c_changed c_instance c_date c_modifier c_version map new_part_list].
      now rewrite prefix_slash.
Qed.

(* ---- the whole log -------------------------------------------------------------------------------- *)

Lemma calls_snoc h o : forall i v, calls i v (h ++ [o])%list = (calls i v h ++
    calls (fold_left (fun x o => match o with OInstance y => y | _ => x end) h i)
          (fold_left (fun x o => match o with OVersion y => y | _ => x end) h v) [o])%list.
Proof.
  induction h as [|x h IH]; intros i v; [reflexivity|]. cbn [List.app fold_left].
  destruct x; cbn [calls]; rewrite IH; reflexivity.
Qed.

Lemma adjacent_snoc runs a r b s :
  adjacent_differ (runs ++ [(a, r)])%list -> c_version a <> c_version b -> adjacent_differ ((runs ++ [(a, r)]) ++ [(b, s)])%list.
Proof.
  induction runs as [|[c t] runs IH]; intros H N; [cbn; auto|].
  cbn [List.app] in *. destruct runs as [|[e u] runs]; cbn [List.app adjacent_differ tl] in *; [tauto|].
  destruct H as [H1 H2]. split; [exact H1|]. apply IH; auto.
Qed.
Lemma adjacent_last runs a r s : adjacent_differ (runs ++ [(a, r)])%list -> adjacent_differ (runs ++ [(a, s)])%list.
Proof.
  induction runs as [|[c t] runs IH]; intros H; [exact I|].
  cbn [List.app] in *. destruct runs as [|[e u] runs]; cbn [List.app adjacent_differ tl] in *; [tauto|].
  destruct H as [H1 H2]. split; [exact H1|]. apply IH; auto.
Qed.

Lemma log agent h : only_records h ->
  exists m runs, mm_run agent mm_empty h = Ok m /\ runs_of (calls "" "" h) runs /\
    entries m = map (fun r => Some (entry_of agent r)) runs /\
    mm_instance m = fold_left (fun x o => match o with OInstance y => y | _ => x end) h "" /\
    mm_version_id m = fold_left (fun x o => match o with OVersion y => y | _ => x end) h "".
Proof.
  induction h as [|o h IH] using rev_ind; intros H.
  - exists mm_empty, []. repeat split; cbn; auto.
  - apply Forall_app in H. destruct H as [H Ho]. apply Forall_cons_iff in Ho. destruct Ho as [Ho _].
    destruct (IH H) as (m & runs & R & (C & S & A) & E & Ei & Ev).
    assert (N : no_shared_pointers h) by (eapply Forall_impl; [|exact H]; intros []; cbn; tauto).
    pose proof (run_ok agent h mm_empty m empty_ok N R) as P.
    rewrite calls_snoc. rewrite !fold_left_app. cbn [fold_left].
    destruct o as [v|v|a b c d| | | |]; try contradiction; cbn [calls].
    + exists (MM (mm_versions m) (mm_instance m) v (mm_mem m)), runs. rewrite run_app, R. rewrite List.app_nil_r. repeat split; auto.
    + exists (MM (mm_versions m) v (mm_version_id m) (mm_mem m)), runs. rewrite run_app, R. rewrite List.app_nil_r. repeat split; auto.
    + rewrite <- Ei, <- Ev. exists (append_version_history agent m a b c d).
      assert (K : mm_instance (append_version_history agent m a b c d) = mm_instance m /\
                  mm_version_id (append_version_history agent m a b c d) = mm_version_id m).
      { destruct (append_cases agent m a b c d) as [(k & v & _ & _ & _ & ->)|[_ ->]]; split; reflexivity. }
      destruct K as [K1 K2]. set (cl := Call (mm_version_id m) (mm_instance m) a b c d).
      assert (RR : mm_run agent mm_empty (h ++ [ORecord a b c d])%list = Ok (append_version_history agent m a b c d))
        by (rewrite run_app, R; reflexivity).
      destruct (record_effect agent h m a b c d N R) as [(pre & v & e & Ee & Es & -> & E')|[Ee E']].
      * destruct runs as [|rn runs'] using rev_ind; [rewrite E in Ee; destruct pre; discriminate|]. clear IHruns'.
        rewrite E, map_app in Ee. cbn in Ee. apply app_inj_tail in Ee. destruct Ee as [Ep Ev']. injection Ev' as Ev'.
        destruct rn as [c0 rest]. exists (runs' ++ [(c0, (rest ++ [cl])%list)])%list. split; [exact RR|].
        assert (V0 : c_version c0 = mm_version_id m) by (rewrite <- Es, <- Ev'; reflexivity).
        split; [split; [|split]|split; [|split; [exact K1|exact K2]]].
        -- rewrite <- C. rewrite !map_app, !concat_app. cbn. rewrite !List.app_nil_r, <- List.app_assoc. reflexivity.
        -- apply Forall_app in S. destruct S as [S1 S2]. apply Forall_app. split; [exact S1|].
           apply Forall_cons_iff in S2. destruct S2 as [S2 _]. constructor; [|constructor]. cbn in *. apply Forall_app. split; [exact S2|].
           constructor; [|constructor]. cbn. now symmetry.
        -- eapply adjacent_last; eauto.
        -- rewrite E', map_app, <- Ep. f_equal. cbn [map]. f_equal. f_equal. rewrite <- Ev'. cbn.
           unfold entry_of. rewrite map_app. reflexivity.
      * exists (runs ++ [(cl, [])])%list. split; [exact RR|]. split; [split; [|split]|split; [|split; [exact K1|exact K2]]].
        -- rewrite map_app, concat_app, C. reflexivity.
        -- apply Forall_app. split; [exact S|]. constructor; [constructor|constructor].
        -- destruct runs as [|[c0 rest] runs' _] using rev_ind; [exact I|]. apply adjacent_snoc; [exact A|].
           rewrite E, map_app in Ee. apply (Ee _ (entry_of agent (c0, rest)) eq_refl).
        -- rewrite E', E, map_app. reflexivity.
Qed.

(* ---- deleting, markers --------------------------------------------------------------------------------- *)

Lemma delete_inside {A} (a b : list A) x : delete_index (a ++ x :: b)%list (Z.of_nat (List.length a)) = Ok (a ++ b)%list.
Proof.
  unfold delete_index. rewrite List.app_length. cbn [List.length].
  replace (Z.of_nat (List.length a) <? 0)%Z with false by (symmetry; apply Z.ltb_ge; lia).
  replace (Z.of_nat (List.length a + S (List.length b)) <? Z.of_nat (List.length a))%Z with false by (symmetry; apply Z.ltb_ge; lia).
  replace (Z.of_nat (List.length a + S (List.length b)) <? Z.of_nat (List.length a) + 1)%Z with false by (symmetry; apply Z.ltb_ge; lia).
  cbn [orb]. rewrite Nat2Z.id. replace (Z.to_nat (Z.of_nat (List.length a) + 1)) with (List.length a + 1) by lia.
  rewrite firstn_app, Nat.sub_diag, firstn_all. cbn [firstn]. rewrite List.app_nil_r.
  rewrite skipn_app, skipn_all2 by lia. replace (List.length a + 1 - List.length a) with 1 by lia. reflexivity.
Qed.

Lemma in_fold_set x : forall (m : gomap bool) v,
  (match map_get (fold_left (fun m v => map_set m v true) x m) v with Some _ => true | None => false end = true <->
   In v x \/ map_get m v <> None).
Proof.
  induction x as [|y x IH]; intros m v; cbn [fold_left].
  - destruct (map_get m v) eqn:E; split; intros H; try reflexivity; try discriminate; [right; discriminate|destruct H as [[]|H]; now elim H].
  - rewrite IH, map_get_set. destruct (String.eqb_spec y v) as [->|N]; cbn [In].
    + split; intros _; [left; now left|right; discriminate].
    + split; intros [H|H]; auto; destruct H as [H|H]; auto; now elim N.
Qed.
Lemma intersect_spec x y v : In v (types_intersect x y) <-> In v x /\ In v y.
Proof.
  unfold types_intersect. rewrite filter_In, in_fold_set. cbn. split; [intros [H [K|K]]; [auto|now elim K]|tauto].
Qed.
Lemma intersect_subset x y : types_intersect x y = filter (types_contains x) y.
Proof.
  unfold types_intersect. apply filter_ext. intros v.
  pose proof (in_fold_set x [] v) as H. destruct (types_contains x v) eqn:E.
  - apply H. left. unfold types_contains in E. apply existsb_exists in E. destruct E as (w & Hw & Ew). apply String.eqb_eq in Ew. now subst.
  - match goal with |- ?b = false => destruct b eqn:Eb end; [|reflexivity]. destruct (proj1 H eq_refl) as [K|K]; [|now elim K].
    assert (types_contains x v = true); [|congruence]. apply existsb_exists. exists v. split; [exact K|apply String.eqb_refl].
Qed.
Lemma contains_spec x t : types_contains x t = true <-> In t x.
Proof.
  unfold types_contains. rewrite existsb_exists. split.
  - intros (w & Hw & E). apply String.eqb_eq in E. now subst.
  - intros H. exists t. split; [exact H|apply String.eqb_refl].
Qed.
Lemma marker_keep types (ts : list string) : Nat.ltb 0 (List.length (types_intersect types ts)) = true <-> exists t, In t types /\ In t ts.
Proof.
  rewrite Nat.ltb_lt. split.
  - intros H. destruct (types_intersect types ts) as [|t r] eqn:E; [cbn in H; lia|]. exists t. apply intersect_spec. rewrite E. now left.
  - intros (t & H1 & H2). assert (I : In t (types_intersect types ts)) by now apply intersect_spec.
    destruct (types_intersect types ts); [contradiction|cbn; lia].
Qed.
