(* Property theorems C10-C12: the namespace registry *)
From Coq Require Import List Arith ZArith Bool Ascii String.
From Verif Require Import GoStr GoStrFacts GoMap Names RegistryM Spec SpecRegistry RegistryFacts.
Local Open Scope string_scope.

(* ---- C10 ---- *)
Theorem C10_get_namespace_is_last_registration h p n :
  get_namespace (registry_of h) p = Ok n <->
  ns_name n = p /\ exists gs, last_by (fun o => ns_name (fst o)) (n, gs) h.
Proof. exact (get_namespace_ok h p n). Qed.
Print Assumptions C10_get_namespace_is_last_registration.

Theorem C10_get_namespace_error_iff_unregistered h p :
  (exists e, get_namespace (registry_of h) p = Err e) <-> ~ exists o, In o h /\ ns_name (fst o) = p.
Proof. exact (get_namespace_err h p). Qed.
Print Assumptions C10_get_namespace_error_iff_unregistered.

Theorem C10_get_prefix_is_last_registration h u :
  (forall n gs, last_by (fun o => ns_uri (fst o)) (n, gs) h -> ns_uri n = u ->
     reg_get_prefix (registry_of h) u = ns_name n)
  /\ ((~ exists o, In o h /\ ns_uri (fst o) = u) -> reg_get_prefix (registry_of h) u = "").
Proof. exact (reg_get_prefix_spec h u). Qed.
Print Assumptions C10_get_prefix_is_last_registration.

Theorem C10_group_lists_registrations_in_order h g :
  get_group_namespaces (registry_of h) g =
  match group_members g h with
  | [] => Err "xmp: unregistered namespace group"
  | l => if emptyb g then Err "xmp: unregistered namespace group" else Ok l
  end.
Proof. exact (get_group_namespaces_spec h g). Qed.
Print Assumptions C10_group_lists_registrations_in_order.

Theorem C10_prefixes_lists_every_prefix_once h :
  NoDup (reg_prefixes (registry_of h)) /\
  forall p, In p (reg_prefixes (registry_of h)) <-> exists o, In o h /\ ns_name (fst o) = p.
Proof. exact (reg_prefixes_spec h). Qed.
Print Assumptions C10_prefixes_lists_every_prefix_once.

Theorem C10_namespaces_lists_last_of_every_uri h n :
  In n (reg_namespaces (registry_of h)) <-> exists gs, last_by (fun o => ns_uri (fst o)) (n, gs) h.
Proof. exact (reg_namespaces_spec h n). Qed.
Print Assumptions C10_namespaces_lists_last_of_every_uri.

Example C10_hyps :
  let h := [(Namespace "a" "u1" None, ["xmp"; "image"]); (Namespace "b" "u2" None, ["xmp"]); (Namespace "a" "u3" None, [])] in
  get_namespace (registry_of h) "a" = Ok (Namespace "a" "u3" None) /\
  get_group_namespaces (registry_of h) "xmp" = Ok [Namespace "a" "u1" None; Namespace "b" "u2" None].
Proof. split; reflexivity. Qed.

(* ---- C11 ---- *)
(* full property restricted to histories that never reuse a prefix or URI for another partner *)
Theorem C11_prefix_of_uri_resolves_partial h :
  injective_history h -> forall u, reg_get_prefix (registry_of h) u <> "" ->
  exists n, get_namespace (registry_of h) (reg_get_prefix (registry_of h) u) = Ok n /\ ns_uri n = u.
Proof. exact (prefix_uri_agree h). Qed.
Print Assumptions C11_prefix_of_uri_resolves_partial.

Theorem C11_uri_of_prefix_resolves_partial h :
  injective_history h -> forall p n, get_namespace (registry_of h) p = Ok n ->
  reg_get_prefix (registry_of h) (ns_uri n) = p.
Proof. exact (uri_prefix_agree h). Qed.
Print Assumptions C11_uri_of_prefix_resolves_partial.

Theorem C11_short_names_resolve_partial h :
  injective_history h -> (forall o, In o h -> has_char ":" (ns_name (fst o)) = false) ->
  forall u name, reg_get_prefix (registry_of h) u <> "" ->
  exists n, get_namespace (registry_of h) (get_prefix (short (registry_of h) u name)) = Ok n /\ ns_uri n = u
    /\ strip_prefix (short (registry_of h) u name) = name.
Proof. exact (short_resolves h). Qed.
Print Assumptions C11_short_names_resolve_partial.

(* registering a prefix again under another URI leaves the old URI mapped to the prefix *)
Theorem C11_prefix_uri_agree_refuted :
  exists h u n, reg_get_prefix (registry_of h) u <> "" /\
    get_namespace (registry_of h) (reg_get_prefix (registry_of h) u) = Ok n /\ ns_uri n <> u.
Proof.
  exists [(Namespace "a" "u1" None, []); (Namespace "a" "u2" None, [])], "u1", (Namespace "a" "u2" None).
  repeat split; discriminate.
Qed.
Print Assumptions C11_prefix_uri_agree_refuted.

Theorem C11_uri_prefix_agree_refuted :
  exists h p n, get_namespace (registry_of h) p = Ok n /\ reg_get_prefix (registry_of h) (ns_uri n) <> p.
Proof.
  exists [(Namespace "a" "u1" None, []); (Namespace "b" "u1" None, [])], "a", (Namespace "a" "u1" None).
  split; [reflexivity|discriminate].
Qed.
Print Assumptions C11_uri_prefix_agree_refuted.

Example C11_hyps : injective_history [(Namespace "a" "u1" None, []); (Namespace "b" "u2" None, ["xmp"]); (Namespace "a" "u1" (Some 3), [])].
Proof.
  intros x y Hx Hy. cbn in Hx, Hy.
  intuition (subst; cbn in *; try discriminate; auto).
Qed.

(* ---- C12 ---- *)
(* Every schedule of any number of goroutines, each with any program of registry calls: there is an
   order of effects (the ELin events of the trace) in which every result is the sequential one, and
   for each goroutine the events are call, effect, return of its calls in program order. *)
Theorem C12_linearizable progs sched :
  let tr := m_trace (mrun (minit progs) sched) in
  legal empty_registry (lin_ops tr) /\
  forall t, exists cs pending rest,
    proj t tr = (completed t cs ++ pending)%list /\
    (pending = [] \/ (exists o, pending = [EInv t o] /\ progs t = (map fst cs ++ o :: rest)%list) \/
     (exists o r, pending = [EInv t o; ELin t o r] /\ progs t = (map fst cs ++ o :: rest)%list)) /\
    (pending = [] -> progs t = (map fst cs ++ rest)%list).
Proof. exact (linearizable progs sched). Qed.
Print Assumptions C12_linearizable.

(* a returned result is the one a sequential registry gives after some prefix of the registrations *)
Theorem C12_result_of_a_registration_prefix progs sched t o r pre post :
  m_trace (mrun (minit progs) sched) = (pre ++ ERet t o r :: post)%list ->
  exists before after,
    lin_ops pre = (before ++ (o, r) :: after)%list /\
    r = snd (seq_op (registry_of (registers before)) o).
Proof. exact (lookup_result progs sched t o r pre post). Qed.
Print Assumptions C12_result_of_a_registration_prefix.

Theorem C12_effect_between_call_and_return progs sched t o r pre post :
  (m_trace (mrun (minit progs) sched) = (pre ++ ELin t o r :: post)%list -> In (EInv t o) pre) /\
  (m_trace (mrun (minit progs) sched) = (pre ++ ERet t o r :: post)%list -> In (ELin t o r) pre).
Proof. exact (conj (call_before_effect progs sched t o r pre post) (effect_before_return progs sched t o r pre post)). Qed.
Print Assumptions C12_effect_between_call_and_return.

Theorem C12_returned_registrations_are_visible progs sched t ns gs pre post :
  m_trace (mrun (minit progs) sched) = (pre ++ ERet t (OReg ns gs) RUnit :: post)%list ->
  In (ns, gs) (registers (lin_ops pre)).
Proof. exact (returned_are_registered progs sched t ns gs pre post). Qed.
Print Assumptions C12_returned_registrations_are_visible.

Theorem C12_no_deadlock progs sched t :
  let m := mrun (minit progs) sched in
  (t_pc (m_threads m t) <> PIdle \/ t_todo (m_threads m t) <> []) ->
  exists u m', mstep m u = Some m'.
Proof. exact (progress progs sched t). Qed.
Print Assumptions C12_no_deadlock.

Theorem C12_readers_do_not_block_readers m t o :
  m_writer m = None -> t_pc (m_threads m t) = PWant o -> is_reg o = false ->
  exists m', mstep m t = Some m' /\ t_pc (m_threads m' t) = PRead o.
Proof. exact (readers_do_not_block m t o). Qed.
Print Assumptions C12_readers_do_not_block_readers.

(* two readers and a writer; the second lookup starts before the registration returns *)
Example C12_hyps :
  let progs t := match t with 0 => [OReg (Namespace "a" "u" None) ["xmp"]] | 1 => [OGet "a"] | 2 => [OGet "a"; OGroup "xmp"] | _ => [] end in
  m_trace (mrun (minit progs) [1; 0; 2; 1; 2; 0; 1; 1; 0; 2; 2; 0; 0; 0; 0; 0; 0; 0; 1; 2; 2; 2; 2; 2; 2; 2]) <> [] /\
  t_pc (m_threads (mrun (minit progs) [1; 0; 2; 1; 2; 0; 1; 1; 0; 2; 2; 0]) 0) = PName (Namespace "a" "u" None) ["xmp"].
Proof. vm_compute. split; [discriminate|reflexivity]. Qed.
