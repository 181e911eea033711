(* C145: a reference a document makes to itself *)
From Coq Require Import List Arith Bool Ascii String Lia.
From Verif Require Import GoStr MmM MmFacts SelfRefM.
Import ListNotations.
Local Open Scope string_scope.

(* ---- specification ---- *)
(* v is the value assigned last to field f, empty if none was *)
Definition last_assigned (h : list sr_op) (f : id_field) (v : string) : Prop :=
  (exists h1 h2, h = (h1 ++ SSet f v :: h2)%list /\ forall w, ~ In (SSet f w) h2) \/ (v = "" /\ forall w, ~ In (SSet f w) h).
(* the number of events made *)
Definition made (h : list sr_op) : nat := List.length (filter (fun o => match o with SNew _ => true | _ => false end) h).
(* d is the date event a has: the one it was made with or the one set last *)
Definition event_date (h : list sr_op) (a : nat) (d : string) : Prop :=
  exists h1 e h2, h = (h1 ++ SNew e :: h2)%list /\ made h1 = a /\
    ((d = ev_when e /\ forall w, ~ In (SWhen a w) h2) \/
     (exists h3 h4, h2 = (h3 ++ SWhen a d :: h4)%list /\ forall w, ~ In (SWhen a w) h4)).
(* the program only uses events it has made *)
Definition makes_first (h : list sr_op) : Prop :=
  forall h1 o h2 a, h = (h1 ++ o :: h2)%list -> (o = SAdd (Some a) \/ exists d, o = SWhen a d) -> a < made h1.
(* p was recorded last *)
Definition last_added (h : list sr_op) (p : option nat) : Prop :=
  exists h1 h2, h = (h1 ++ SAdd p :: h2)%list /\ forall q, ~ In (SAdd q) h2.
(* where a reference has the fields of the document *)
Definition ref_field (r : ref) (f : id_field) : string :=
  match f with
  | FOriginal => rf_original r | FDocument => rf_document r | FInstance => rf_instance r | FManager => rf_manager r
  | FVariant => rf_variant r | FManageTo => rf_manage_to r | FManageUI => rf_manage_ui r | FClass => rf_class r
  | FParams => rf_params r
  end.

(* ---- proofs ---- *)
Lemma run_snoc : forall h o, sr_run (h ++ [o])%list = sr_step (sr_run h) o.
Proof. intros. unfold sr_run. now rewrite fold_left_app. Qed.

Lemma snoc_last : forall {A} (h h1 h2 : list A) o x, (h ++ [o])%list = (h1 ++ x :: h2)%list ->
  (h2 = [] /\ h = h1 /\ o = x) \/ exists h3, h2 = (h3 ++ [o])%list /\ h = (h1 ++ x :: h3)%list.
Proof.
  intros A h h1 h2 o x E. destruct h2 as [|y h2 _] using rev_ind.
  - apply app_inj_tail in E. destruct E as [-> ->]. now left.
  - right. exists h2. rewrite app_comm_cons, List.app_assoc in E. apply app_inj_tail in E. destruct E as [-> ->]. now split.
Qed.

Lemma field_step : forall f v m o, (forall w, o <> SSet f w) ->
  ref_field (self_ref (sr_step m o) v) f = ref_field (self_ref m v) f.
Proof.
  intros f v [] o H. destruct o as [g w| | | | |]; try (now destruct f).
  destruct f, g; try reflexivity; exfalso; now apply (H w).
Qed.
Lemma field_set : forall f v m w, ref_field (self_ref (sr_step m (SSet f w)) v) f = w.
Proof. intros f v [] w. now destruct f. Qed.

Lemma set_dec : forall f o, (exists w, o = SSet f w) \/ forall w, o <> SSet f w.
Proof.
  intros f o. destruct o as [g w| | | | |]; try (right; intros ? [=]; fail).
  destruct f, g; try (left; eexists; reflexivity); right; intros ? [=].
Qed.

Theorem C145_identifiers : forall h v f, last_assigned h f (ref_field (self_ref (sr_run h) v) f).
Proof.
  intros h v f. induction h as [|o h IH] using rev_ind.
  - right. split; [now destruct f|intros w []].
  - rewrite run_snoc. destruct (set_dec f o) as [[w ->]|N].
    + left. exists h, []. rewrite field_set. split; [reflexivity|intros ? []].
    + rewrite field_step by exact N. destruct IH as [(h1 & h2 & E & F)|[E F]].
      * left. exists h1, (h2 ++ [o])%list. split; [now rewrite E at 1; rewrite <- List.app_assoc|].
        intros w I. apply in_app_or in I. destruct I as [I|[I|[]]]; [now apply (F w)|now apply (N w)].
      * right. split; [exact E|]. intros w I. apply in_app_or in I. destruct I as [I|[I|[]]]; [now apply (F w)|now apply (N w)].
Qed.
Print Assumptions C145_identifiers.

(* the rest of the reference: the version asked for, no markers masked, nothing else *)
Theorem C145_rest : forall h v, let r := self_ref (sr_run h) v in
  rf_version r = v /\ rf_mask r = "None" /\ rf_paths r = [] /\ rf_file r = "" /\ rf_from r = None /\ rf_mapping r = "" /\ rf_to r = None.
Proof. intros h v. repeat split. Qed.
Print Assumptions C145_rest.

Lemma set_id_lists : forall m f v, sr_history (set_id m f v) = sr_history m /\ sr_events (set_id m f v) = sr_events m /\ sr_refs (set_id m f v) = sr_refs m.
Proof. intros [] f v. destruct f; repeat split. Qed.

Lemma update_len : forall {A} (f : A -> A) i l, List.length (update_nth f i l) = List.length l.
Proof. intros A f i l. revert i. induction l as [|x l IH]; intros [|i]; cbn [update_nth List.length]; auto. Qed.

Lemma made_snoc : forall h o, made (h ++ [o])%list = made h + match o with SNew _ => 1 | _ => 0 end.
Proof. intros h o. unfold made. rewrite filter_app, List.app_length. now destruct o. Qed.

Lemma events_made : forall h, List.length (sr_events (sr_run h)) = made h.
Proof.
  intros h. induction h as [|o h IH] using rev_ind; [reflexivity|]. rewrite run_snoc, made_snoc, <- IH.
  destruct o; cbn [sr_step with_lists add_history sr_events]; try lia.
  - destruct (set_id_lists (sr_run h) f v) as (_ & -> & _). lia.
  - rewrite List.app_length. reflexivity.
  - rewrite update_len. lia.
Qed.

Lemma event_date_snoc : forall h o a d, event_date h a d -> (forall w, o <> SWhen a w) -> event_date (h ++ [o])%list a d.
Proof.
  intros h o a d (h1 & e & h2 & -> & M & C) N. exists h1, e, (h2 ++ [o])%list.
  split; [now rewrite <- List.app_assoc|]. split; [exact M|]. destruct C as [[E F]|(h3 & h4 & -> & F)].
  - left. split; [exact E|]. intros w I. apply in_app_or in I. destruct I as [I|[I|[]]]; [now apply (F w)|now apply (N w)].
  - right. exists h3, (h4 ++ [o])%list. split; [now rewrite <- List.app_assoc|].
    intros w I. apply in_app_or in I. destruct I as [I|[I|[]]]; [now apply (F w)|now apply (N w)].
Qed.

Lemma events_date : forall h a e, nth_error (sr_events (sr_run h)) a = Some e -> event_date h a (ev_when e).
Proof.
  intros h. induction h as [|o h IH] using rev_ind; intros a e E; [destruct a; discriminate|]. rewrite run_snoc in E.
  destruct o as [f v|x|b d|p|v|i v]; cbn [sr_step with_lists add_history sr_events] in E.
  - destruct (set_id_lists (sr_run h) f v) as (_ & E' & _). rewrite E' in E. apply event_date_snoc; [auto|intros w [=]].
  - destruct (Nat.lt_ge_cases a (List.length (sr_events (sr_run h)))) as [L|L].
    + rewrite nth_error_app1 in E by exact L. apply event_date_snoc; [auto|intros w [=]].
    + rewrite nth_error_app2 in E by exact L. destruct (a - List.length (sr_events (sr_run h))) eqn:D.
      * injection E as ->. exists h, e, []. split; [reflexivity|]. split; [rewrite <- events_made; lia|]. left. split; [reflexivity|intros w []].
      * destruct n; discriminate.
  - rewrite nth_update in E. destruct (Nat.eqb_spec b a) as [->|N].
    + destruct (nth_error (sr_events (sr_run h)) a) as [e0|] eqn:E0; [|discriminate]. injection E as <-.
      destruct (IH _ _ E0) as (h1 & e1 & h2 & -> & M & _). exists h1, e1, (h2 ++ [SWhen a d])%list.
      split; [now rewrite <- List.app_assoc|]. split; [exact M|]. right. exists h2, []. split; [reflexivity|intros w []].
    + apply event_date_snoc; [auto|intros w [=]]. congruence.
  - apply event_date_snoc; [auto|intros w [=]].
  - apply event_date_snoc; [auto|intros w [=]].
  - apply event_date_snoc; [auto|intros w [=]].
Qed.

Lemma history_last : forall h p, last_added h p -> get_last_event (sr_run h) = p.
Proof.
  intros h. induction h as [|o h IH] using rev_ind; intros p (h1 & h2 & E & F); [destruct h1; discriminate|].
  rewrite run_snoc. destruct (snoc_last _ _ _ _ _ E) as [(-> & -> & ->)|(h3 & -> & ->)].
  - unfold get_last_event. cbn [sr_step add_history with_lists sr_history]. now rewrite rev_unit.
  - assert (K : get_last_event (sr_run (h1 ++ SAdd p :: h3)) = p).
    { apply IH. exists h1, h3. split; [reflexivity|]. intros q I. apply (F q). apply in_or_app. now left. }
    rewrite <- K at 2. unfold get_last_event.
    destruct o as [f v| | |q| |]; cbn [sr_step with_lists sr_history]; try reflexivity.
    + now destruct (set_id_lists (sr_run (h1 ++ SAdd p :: h3)) f v) as (-> & _).
    + exfalso. apply (F q). apply in_or_app. right. now left.
Qed.
Lemma history_none : forall h, (forall q, ~ In (SAdd q) h) -> sr_history (sr_run h) = [].
Proof.
  intros h. induction h as [|o h IH] using rev_ind; intros F; [reflexivity|]. rewrite run_snoc.
  assert (K : sr_history (sr_run h) = []) by (apply IH; intros q I; apply (F q), in_or_app; now left).
  destruct o as [f v| | |q| |]; cbn [sr_step with_lists sr_history]; try exact K.
  - now destruct (set_id_lists (sr_run h) f v) as (-> & _).
  - exfalso. apply (F q). apply in_or_app. right. now left.
Qed.

(* the date is the one the event recorded last has now, empty when there is none or it is nil *)
Theorem C145_date : forall h v, makes_first h ->
  ((forall p, ~ In (SAdd p) h) -> rf_modified (self_ref (sr_run h) v) = "") /\
  (last_added h None -> rf_modified (self_ref (sr_run h) v) = "") /\
  (forall a, last_added h (Some a) -> event_date h a (rf_modified (self_ref (sr_run h) v))).
Proof.
  intros h v W. split; [|split].
  - intros F. unfold self_ref, get_last_event. rewrite (history_none h F). reflexivity.
  - intros L. unfold self_ref. rewrite (history_last h None L). reflexivity.
  - intros a L. unfold self_ref. rewrite (history_last h (Some a) L). cbn [rf_modified].
    destruct (nth_error (sr_events (sr_run h)) a) as [e|] eqn:E; [now apply events_date|].
    exfalso. apply nth_error_None in E. rewrite events_made in E. destruct L as (h1 & h2 & -> & _).
    assert (a < made h1) by (eapply W; [reflexivity|now left]).
    assert (made h1 <= made (h1 ++ SAdd (Some a) :: h2)); [|lia]. unfold made. rewrite filter_app, List.app_length. lia.
Qed.
Print Assumptions C145_date.

(* A reference is a snapshot: whatever the program does to the document and its events afterwards, reference number i
   stays what SelfResourceRef returned, until the program changes that very reference. *)
Theorem C145_snapshot : forall h v h', (forall w, ~ In (SFile (List.length (sr_refs (sr_run h))) w) h') ->
  nth_error (sr_refs (sr_run (h ++ SSelf v :: h'))) (List.length (sr_refs (sr_run h))) = Some (self_ref (sr_run h) v).
Proof.
  intros h v h'. induction h' as [|o h' IH] using rev_ind; intros F.
  - rewrite run_snoc. cbn [sr_step with_lists sr_refs]. rewrite nth_error_app2, Nat.sub_diag by lia. reflexivity.
  - rewrite app_comm_cons, List.app_assoc, run_snoc.
    assert (K : nth_error (sr_refs (sr_run (h ++ SSelf v :: h'))) (List.length (sr_refs (sr_run h))) = Some (self_ref (sr_run h) v))
      by (apply IH; intros w I; apply (F w), in_or_app; now left).
    destruct o as [f w|e|a d|p|w|i w]; cbn [sr_step with_lists add_history sr_refs]; try exact K.
    + now destruct (set_id_lists (sr_run (h ++ SSelf v :: h')) f w) as (_ & _ & ->).
    + rewrite nth_error_app1; [exact K|]. apply nth_error_Some. rewrite K. discriminate.
    + rewrite nth_update. destruct (Nat.eqb_spec i (List.length (sr_refs (sr_run h)))) as [->|N]; [|exact K].
      exfalso. apply (F w). apply in_or_app. right. now left.
Qed.
Print Assumptions C145_snapshot.

Definition ev145 (d : string) : event := Event "saved" [] "" "" "" d.
Definition h145 : list sr_op :=
  [SSet FDocument "doc"; SNew (ev145 "d1"); SAdd (Some 0); SNew (ev145 "d2"); SSet FDocument "doc2"; SAdd (Some 1); SSelf "1"; SWhen 1 "d3"].
Example C145_hyps : makes_first h145 /\ last_added h145 (Some 1) /\
  rf_document (self_ref (sr_run h145) "2") = "doc2" /\ rf_modified (self_ref (sr_run h145) "2") = "d3" /\
  map rf_modified (sr_refs (sr_run h145)) = ["d2"].
Proof.
  split; [|split; [|repeat split]].
  - intros h1 o h2 a E K. unfold h145 in E.
    do 8 (destruct h1 as [|? h1];
      [cbn [app] in E; injection E as E _; subst o;
       destruct K as [K|[d K]]; try discriminate K; injection K; intros; subst; unfold made; cbn; lia
      |cbn [app] in E; injection E as E0 E; subst]).
    destruct h1; discriminate E.
  - exists (firstn 5 h145), (skipn 6 h145). split; [reflexivity|]. intros q [I|[I|[]]]; discriminate I.
Qed.
