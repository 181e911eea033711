(* C61-C63, C68, C69: version history, reference lists, markers, frame counts *)
From Coq Require Import List Arith ZArith Bool Ascii String Lia.
From Verif Require Import GoStr CodecM MmM SpecMm MmFacts.
Import ListNotations.
Local Open Scope string_scope.

(* ---- C61 ---- *)
(* The whole history: a program that sets the identifiers and records changes ends with one entry per run of
   consecutive changes to the same version, made of the first change and the paths of the others, in order. *)
Theorem C61_log_of_runs : forall agent h, only_records h ->
  exists m runs, mm_run agent mm_empty h = Ok m /\ runs_of (calls "" "" h) runs /\
    entries m = map (fun r => Some (entry_of agent r)) runs.
Proof. intros agent h H. destruct (log agent h H) as (m & runs & R & C & E & _). exists m, runs. auto. Qed.
Print Assumptions C61_log_of_runs.

(* One call, after any program that does not add the same pointer twice (it may add entries of its own, nil
   ones too, and rename the last): either the last entry is of the current version and gets the path, or one
   new entry is appended; all entries before are the same. *)
Theorem C61_one_record : forall agent h m a b c d, no_shared_pointers h -> mm_run agent mm_empty h = Ok m ->
  let m' := append_version_history agent m a b c d in
  (exists pre v e, entries m = (pre ++ [Some v])%list /\ sv_version v = mm_version_id m /\ e = sv_event v /\
     entries m' = (pre ++ [Some (StVersion (sv_comments v)
        (Event (ev_action e) (ev_changed e ++ [at_path c])%list (ev_instance e) (ev_params e) (ev_agent e) (ev_when e))
        (sv_modifier v) (sv_date v) (sv_version v))])%list)
  \/ ((forall pre v, entries m = (pre ++ [Some v])%list -> sv_version v <> mm_version_id m) /\
     entries m' = (entries m ++ [Some (entry_of agent (Call (mm_version_id m) (mm_instance m) a b c d, []))])%list).
Proof. exact record_effect. Qed.
Print Assumptions C61_one_record.

(* afterwards the last entry is of the current version *)
Theorem C61_last_is_current : forall agent h m a b c d, no_shared_pointers h -> mm_run agent mm_empty h = Ok m ->
  last_version_id (append_version_history agent m a b c d) = mm_version_id m.
Proof.
  intros agent h m a b c d N R.
  assert (L : forall m pre v, entries m = (pre ++ [Some v])%list -> last_version_id m = sv_version v).
  { clear. intros m pre v E. unfold last_version_id, last_version. destruct (rev (mm_versions m)) as [|p r] eqn:Er.
    - assert (mm_versions m = []) as E0 by (rewrite <- (rev_involutive (mm_versions m)), Er; reflexivity).
      unfold entries in E. rewrite E0 in E. destruct pre; discriminate.
    - apply rev_last in Er. unfold entries in E. rewrite Er, map_app in E. apply app_inj_tail in E. destruct E as [_ E].
      now rewrite E. }
  destruct (record_effect agent h m a b c d N R) as [(pre & v & e & _ & Es & _ & E)|[_ E]]; apply L in E; rewrite E; [exact Es|reflexivity].
Qed.
Print Assumptions C61_last_is_current.

Definition h61 : list mm_op :=
  [OVersion "1"; ORecord "edited" "ann" "color" "d1"; ORecord "edited" "bob" "/audio" "d2"; OInstance "i2"; OVersion "2";
   ORecord "saved" "ann" "/" "d3"; OVersion "1"; ORecord "saved" "ann" "x" "d4"].
Example C61_hyps : only_records h61 /\
  exists m, mm_run "agent" mm_empty h61 = Ok m /\
    map (option_map (fun v => (sv_version v, sv_modifier v, map p_path (ev_changed (sv_event v))))) (entries m) =
      [Some ("1", "ann", ["/color"; "/audio"]); Some ("2", "ann", ["/"]); Some ("1", "ann", ["/x"])].
Proof. split; [repeat constructor|]. eexists. split; [vm_compute; reflexivity|]. vm_compute. reflexivity. Qed.

(* When the same entry is in the array twice, recording changes an earlier entry too. *)
Definition e0 : st_version := StVersion "" (Event "" [] "" "" "" "") "" "" "1".
Theorem C61_shared_entry_refuted : exists m m',
  mm_run "" mm_empty [OVersion "1"; OAdd e0; OAddPtr 0] = Ok m /\
  mm_run "" mm_empty [OVersion "1"; OAdd e0; OAddPtr 0; ORecord "edited" "ann" "/x" "d"] = Ok m' /\
  nth_error (entries m) 0 <> nth_error (entries m') 0.
Proof. eexists. eexists. split; [vm_compute; reflexivity|]. split; [vm_compute; reflexivity|]. vm_compute. discriminate. Qed.
Print Assumptions C61_shared_entry_refuted.

(* ---- C62 ---- *)
Theorem C62_delete_partial : forall A (l : list A) idx, idx <> Z.of_nat (List.length l) ->
  (forall a x b, l = (a ++ x :: b)%list -> idx = Z.of_nat (List.length a) -> delete_index l idx = Ok (a ++ b)%list) /\
  ((idx < 0)%Z \/ (Z.of_nat (List.length l) < idx)%Z -> delete_index l idx = Ok l).
Proof.
  intros A l idx H. split.
  - intros a x b -> ->. apply delete_inside.
  - intros K. unfold delete_index. replace ((idx <? 0)%Z || (Z.of_nat (List.length l) <? idx)%Z) with true; [reflexivity|].
    symmetry. apply orb_true_iff. rewrite !Z.ltb_lt. exact K.
Qed.
Print Assumptions C62_delete_partial.

(* the index just behind the last element crashes, for every list *)
Theorem C62_index_len_panics_refuted : forall A (l : list A), delete_index l (Z.of_nat (List.length l)) = Panic.
Proof.
  intros A l. unfold delete_index. replace (Z.of_nat (List.length l) <? 0)%Z with false by (symmetry; apply Z.ltb_ge; lia).
  rewrite Z.ltb_irrefl. replace (Z.of_nat (List.length l) <? Z.of_nat (List.length l) + 1)%Z with true by (symmetry; apply Z.ltb_lt; lia). reflexivity.
Qed.
Print Assumptions C62_index_len_panics_refuted.

(* Index and DeleteIndex together: what Index finds is the first reference to the document *)
Theorem C62_index_first : forall l did, Forall (fun d => d <> None) l ->
  (exists a b, l = (a ++ Some did :: b)%list /\ ~ In (Some did) a /\
     ref_index l did = Ok (Z.of_nat (List.length a)) /\ delete_index l (Z.of_nat (List.length a)) = Ok (a ++ b)%list)
  \/ (~ In (Some did) l /\ ref_index l did = Ok (-1)%Z /\ delete_index l (-1)%Z = Ok l).
Proof.
  intros l did H.
  assert (K : forall i, (exists a b, l = (a ++ Some did :: b)%list /\ ~ In (Some did) a /\ ref_index_from i l did = Ok (i + Z.of_nat (List.length a))%Z)
     \/ (~ In (Some did) l /\ ref_index_from i l did = Ok (-1)%Z)).
  { induction l as [|[d|] l IH]; intros i.
    - right. split; [intros []|reflexivity].
    - apply Forall_cons_iff in H. destruct H as [_ H]. cbn [ref_index_from]. destruct (String.eqb_spec d did) as [->|N].
      + left. exists [], l. split; [reflexivity|]. split; [intros []|]. cbn. now rewrite Z.add_0_r.
      + destruct (IH H (i + 1)%Z) as [(a & b & -> & Na & E)|[Nl E]].
        * left. exists (Some d :: a), b. split; [reflexivity|]. split.
          -- intros [E'|E']; [congruence|auto].
          -- rewrite E. f_equal. cbn [List.length]. lia.
        * right. split; [|exact E]. intros [E'|E']; [congruence|auto].
    - apply Forall_cons_iff in H. destruct H as [H _]. now elim H. }
  destruct (K 0%Z) as [(a & b & E & Na & R)|[N R]].
  - left. exists a, b. split; [exact E|]. split; [exact Na|]. split; [exact R|]. rewrite E. apply delete_inside.
  - right. split; [exact N|]. split; [exact R|]. reflexivity.
Qed.
Print Assumptions C62_index_first.

Example C62_hyps : delete_index ["a"; "b"; "c"] 1 = Ok ["a"; "c"] /\ delete_index ["a"; "b"; "c"] 7 = Ok ["a"; "b"; "c"]
  /\ Forall (fun d => d <> None) [Some "x"; Some "y"; Some "x"] /\ ref_index [Some "x"; Some "y"; Some "x"] "y" = Ok 1%Z.
Proof. repeat split; try reflexivity. repeat constructor; discriminate. Qed.

(* ---- C63 ---- *)
Theorem C63_filter : forall A (l : list (marker A)) types,
  exists keep, marker_filter l types = filter keep l /\
    forall m, keep m = true <-> exists t, In t types /\ In t (mk_types m).
Proof. intros A l types. eexists. split; [reflexivity|]. intros m. apply marker_keep. Qed.
Print Assumptions C63_filter.

Theorem C63_intersect_and_contains : forall x y,
  (forall t, In t (types_intersect x y) <-> In t x /\ In t y) /\
  types_intersect x y = filter (types_contains x) y /\
  (forall t, types_contains x t = true <-> In t x).
Proof. intros x y. split; [intros t; apply intersect_spec|]. split; [apply intersect_subset|intros t; apply contains_spec]. Qed.
Print Assumptions C63_intersect_and_contains.

Example C63_hyps : let mk n ts := Marker nat (FC 0 (FR 1 1)) ts n in
  map mk_rest (marker_filter [mk 1 ["Chapter"]; mk 2 []; mk 3 ["Cue"; "Beat"]; mk 4 ["Beat"; "Chapter"]] ["Beat"; "Index"]) = [3; 4]
  /\ types_intersect ["a"; "b"] ["b"; "c"; "b"] = ["b"; "b"].
Proof. split; reflexivity. Qed.

(* ---- C68 ---- *)
(* SetPreviousVersionId changes the last entry, never the one GetPreviousVersionId reads *)
Theorem C68_sets_last_entry_refuted : forall agent h m m' v, no_shared_pointers h -> mm_run agent mm_empty h = Ok m ->
  set_previous_version_id m v = Ok m' -> mm_versions m <> [] ->
  last_version_id m' = v /\ previous_version_id m' = previous_version_id m.
Proof.
  intros agent h m m' v N R E Hn. pose proof (run_ok agent h mm_empty m empty_ok N R) as [V D].
  unfold set_previous_version_id in E. destruct (rev (mm_versions m)) as [|[a|] r] eqn:Er; try discriminate.
  { exfalso. apply Hn. rewrite <- (rev_involutive (mm_versions m)), Er. reflexivity. }
  injection E as <-. apply rev_last in Er. split.
  - unfold last_version_id, last_version. cbn [mm_versions store]. rewrite Er, rev_unit. cbn [deref mm_mem store].
    rewrite nth_update, Nat.eqb_refl. destruct (nth_error (mm_mem m) a) eqn:Ea; [reflexivity|].
    exfalso. apply nth_error_None in Ea. assert (a < List.length (mm_mem m)); [|lia]. apply V. rewrite Er. apply in_or_app. right. now left.
  - unfold previous_version_id, previous_version. cbn [mm_versions store]. destruct (rev (mm_versions m)) as [|x [|p q]] eqn:Ev; try reflexivity.
    destruct p as [b|]; [|reflexivity]. cbn [deref mm_mem store]. rewrite nth_update. destruct (Nat.eqb_spec a b) as [->|]; [|reflexivity].
    exfalso. apply rev_last in Ev. cbn [rev] in Ev. rewrite Ev in Er. apply app_inj_tail in Er. destruct Er as [_ ->].
    rewrite <- List.app_assoc in Ev. assert (E1 : List.length (rev q) = S (List.length (rev q))); [|lia].
    apply (D _ _ b); rewrite Ev; rewrite nth_error_app2 by lia.
    + now rewrite Nat.sub_diag.
    + now replace (S (List.length (rev q)) - List.length (rev q)) with 1 by lia.
Qed.
Print Assumptions C68_sets_last_entry_refuted.
Example C68_hyps : exists m m', mm_run "" mm_empty [OVersion "1"; ORecord "a" "b" "c" "d"; OVersion "2"; ORecord "a" "b" "c" "d"] = Ok m /\
  set_previous_version_id m "7" = Ok m' /\ previous_version_id m' = "1" /\ last_version_id m' = "7".
Proof. eexists. eexists. split; [vm_compute; reflexivity|]. split; [vm_compute; reflexivity|]. split; reflexivity. Qed.

(* GetPreviousVersionId and GetLastVersionId read the last two entries *)
Theorem C68_ids_of_last_two : forall m pre a b v w, mm_versions m = (pre ++ [a; b])%list ->
  deref m a = Some v -> deref m b = Some w -> previous_version_id m = sv_version v /\ last_version_id m = sv_version w.
Proof.
  intros m pre a b v w E Ha Hb. unfold previous_version_id, last_version_id, previous_version, last_version.
  rewrite E, rev_app_distr. cbn [rev List.app]. now rewrite Ha, Hb.
Qed.
Print Assumptions C68_ids_of_last_two.

(* ---- C69 ---- *)
(* with the same positive frame rate the order is that of time *)
Theorem C69_same_rate_partial : forall a b r, (0 < fr_rate r)%Z -> (0 < fr_base r)%Z ->
  is_smaller (FC a r) (FC b r) = true <-> earlier (FC a r) (FC b r).
Proof.
  intros a b r Hr Hb. unfold is_smaller, earlier, fr_num, fr_den. cbn [fc_count fc_rate].
  replace (fr_base r =? 0)%Z with false by (symmetry; apply Z.eqb_neq; lia). rewrite Z.sgn_pos, Z.abs_eq by lia.
  rewrite Z.ltb_lt, Z.mul_1_r, <- !Z.mul_assoc, (Z.mul_comm (fr_base r) (fr_rate r)). reflexivity.
Qed.
Print Assumptions C69_same_rate_partial.

(* with different rates it is not: one second at 25 frames per second comes before half a second at 60 *)
Theorem C69_different_rates_refuted :
  is_smaller (FC 25 (FR 25 1)) (FC 30 (FR 60 1)) = true /\ earlier (FC 30 (FR 60 1)) (FC 25 (FR 25 1)).
Proof. split; [reflexivity|]. unfold earlier. cbn. lia. Qed.
Print Assumptions C69_different_rates_refuted.
Example C69_hyps : earlier (FC 10 (FR 30000 1001)) (FC 12 (FR 30000 1001)) /\ is_smaller (FC 10 (FR 30000 1001)) (FC 12 (FR 30000 1001)) = true.
Proof. split; [unfold earlier; cbn; lia|reflexivity]. Qed.
