(* The namespace registry: xmp/registry.go, and its concurrent use *)
From Coq Require Import List Arith ZArith Bool Ascii String.
From Verif Require Import GoStr GoMap Names.
Local Open Scope string_scope.

(* xmp/registry.go:41-46 *)
Record registry := Registry {
  r_names : gomap namespace;
  r_uris : gomap namespace;
  r_groups : gomap (list namespace)
}.

(* xmp/registry.go:48-52 *)
Definition empty_registry : registry := Registry [] [] [].

(* one round of the group loop, xmp/registry.go:72-79 *)
Definition reg_group (ns : namespace) (m : gomap (list namespace)) (g : string) : gomap (list namespace) :=
  if emptyb g then m
  else match map_get m g with
       | None => map_set m g [ns]
       | Some l => map_set m g (l ++ [ns])%list
       end.

(* xmp/registry.go:66-81 RegisterNamespace (the body under the lock) *)
Definition register (r : registry) (ns : namespace) (groups : list string) : registry :=
  Registry (map_set (r_names r) (ns_name ns) ns)
           (map_set (r_uris r) (ns_uri ns) ns)
           (fold_left (reg_group ns) groups (r_groups r)).

(* xmp/registry.go:83-92; the returned slice is a copy *)
Definition get_group_namespaces (r : registry) (g : string) : result (list namespace) :=
  match map_get (r_groups r) g with
  | Some l => Ok l
  | None => Err "xmp: unregistered namespace group"
  end.

(* xmp/registry.go:94-101 *)
Definition get_namespace (r : registry) (prefix : string) : result namespace :=
  match map_get (r_names r) prefix with
  | Some ns => Ok ns
  | None => Err "xmp: unregistered namespace"
  end.

(* xmp/registry.go:103-110 Registry.GetPrefix *)
Definition reg_get_prefix (r : registry) (uri : string) : string :=
  match map_get (r_uris r) uri with
  | Some ns => ns_name ns
  | None => ""
  end.

(* xmp/registry.go:112-118 *)
Definition short (r : registry) (uri name : string) : string :=
  let pre := reg_get_prefix r uri in
  if negb (emptyb pre) then join ":" [pre; name] else name.

(* xmp/registry.go:120-128, in iteration order *)
Definition reg_namespaces (r : registry) : list namespace := map snd (r_uris r).

(* xmp/registry.go:130-138, in iteration order *)
Definition reg_prefixes (r : registry) : list string := map fst (r_names r).

(* a history of Register calls: (namespace, groups), oldest first *)
Definition reg_op := (namespace * list string)%type.
Definition registry_of (h : list reg_op) : registry :=
  fold_left (fun r op => register r (fst op) (snd op)) h empty_registry.

(* ---- concurrent use ----------------------------------------------------------------------
   Every method runs under sync.RWMutex (xmp/registry.go:67-68, 84-85, 95-96, 104-105). The machine
   below interleaves any number of goroutines at the granularity of single map accesses.
   sync.RWMutex itself (Go standard library) is modelled as: Lock first announces the writer (after
   which new readers block), then waits for the active readers to leave; RLock enters only when no
   writer is announced. The reader counter is kept as the list of reader ids. *)

Inductive op :=
| OReg (ns : namespace) (groups : list string)    (* RegisterNamespace *)
| OGet (prefix : string)                          (* GetNamespace *)
| OPrefix (uri : string)                          (* GetPrefix *)
| OGroup (g : string)                             (* GetGroupNamespaces *)
| OShort (uri name : string).                     (* Short: GetPrefix, then string work *)

Inductive res :=
| RUnit
| RNs (r : result namespace)
| RStr (s : string)
| RList (r : result (list namespace)).

(* sequential meaning of an operation *)
Definition seq_op (r : registry) (o : op) : registry * res :=
  match o with
  | OReg ns gs => (register r ns gs, RUnit)
  | OGet p => (r, RNs (get_namespace r p))
  | OPrefix u => (r, RStr (reg_get_prefix r u))
  | OGroup g => (r, RList (get_group_namespaces r g))
  | OShort u n => (r, RStr (short r u n))
  end.

(* program counter of a goroutine *)
Inductive pc :=
| PIdle
| PWant (o : op)                                        (* called, lock not yet taken *)
| PWait (ns : namespace) (gs : list string)             (* Lock: announced, waiting for readers *)
| PName (ns : namespace) (gs : list string)             (* holds the lock, before registry.go:69 *)
| PUri (ns : namespace) (gs : list string)              (* before registry.go:70 *)
| PGrp (ns : namespace) (gs : list string) (todo : list string)   (* in the loop registry.go:71-80 *)
| PRead (o : op)                                        (* holds the read lock, before the map read *)
| PGot (o : op) (r : res)                               (* map read done, before RUnlock *)
| PRet (o : op) (r : res).                              (* unlocked, about to return *)

Record thread := Thread { t_pc : pc; t_todo : list op }.

(* EInv/ERet: call and return seen by the caller; ELin: the (ghost) moment the operation takes effect *)
Inductive event :=
| EInv (t : nat) (o : op)
| ELin (t : nat) (o : op) (r : res)
| ERet (t : nat) (o : op) (r : res).

Record machine := Machine {
  m_threads : nat -> thread;
  m_readers : list nat;          (* goroutines holding the read lock *)
  m_writer : option nat;         (* goroutine that announced or holds the write lock *)
  m_reg : registry;
  m_trace : list event           (* oldest first *)
}.

Definition upd (f : nat -> thread) (t : nat) (x : thread) : nat -> thread :=
  fun i => if Nat.eqb i t then x else f i.

Definition is_reg (o : op) : bool := match o with OReg _ _ => true | _ => false end.

(* one step of goroutine t; None if it is blocked or finished *)
Definition mstep (m : machine) (t : nat) : option machine :=
  let th := m_threads m t in
  let go p := upd (m_threads m) t (Thread p (t_todo th)) in
  match t_pc th with
  | PIdle =>
      match t_todo th with
      | [] => None
      | o :: r => Some (Machine (upd (m_threads m) t (Thread (PWant o) r))
                          (m_readers m) (m_writer m) (m_reg m) (m_trace m ++ [EInv t o])%list)
      end
  | PWant (OReg ns gs) =>
      match m_writer m with
      | None => Some (Machine (go (PWait ns gs)) (m_readers m) (Some t) (m_reg m) (m_trace m))
      | Some _ => None
      end
  | PWant o =>
      match m_writer m with
      | None => Some (Machine (go (PRead o)) (t :: m_readers m) None (m_reg m) (m_trace m))
      | Some _ => None
      end
  | PWait ns gs =>
      match m_readers m with
      | [] => Some (Machine (go (PName ns gs)) [] (m_writer m) (m_reg m) (m_trace m))
      | _ => None
      end
  | PName ns gs =>
      Some (Machine (go (PUri ns gs)) (m_readers m) (m_writer m)
              (Registry (map_set (r_names (m_reg m)) (ns_name ns) ns) (r_uris (m_reg m)) (r_groups (m_reg m)))
              (m_trace m))
  | PUri ns gs =>
      Some (Machine (go (PGrp ns gs gs)) (m_readers m) (m_writer m)
              (Registry (r_names (m_reg m)) (map_set (r_uris (m_reg m)) (ns_uri ns) ns) (r_groups (m_reg m)))
              (m_trace m))
  | PGrp ns gs (g :: todo) =>
      Some (Machine (go (PGrp ns gs todo)) (m_readers m) (m_writer m)
              (Registry (r_names (m_reg m)) (r_uris (m_reg m)) (reg_group ns (r_groups (m_reg m)) g))
              (m_trace m))
  | PGrp ns gs [] =>                                          (* deferred Unlock *)
      Some (Machine (go (PRet (OReg ns gs) RUnit)) (m_readers m) None (m_reg m)
              (m_trace m ++ [ELin t (OReg ns gs) RUnit])%list)
  | PRead o =>
      let r := snd (seq_op (m_reg m) o) in
      Some (Machine (go (PGot o r)) (m_readers m) (m_writer m) (m_reg m) (m_trace m ++ [ELin t o r])%list)
  | PGot o r =>                                               (* deferred RUnlock *)
      Some (Machine (go (PRet o r)) (remove Nat.eq_dec t (m_readers m)) (m_writer m) (m_reg m) (m_trace m))
  | PRet o r =>
      Some (Machine (go PIdle) (m_readers m) (m_writer m) (m_reg m) (m_trace m ++ [ERet t o r])%list)
  end.

(* all goroutines idle with their programs, empty registry *)
Definition minit (progs : nat -> list op) : machine :=
  Machine (fun t => Thread PIdle (progs t)) [] None empty_registry [].

(* a schedule is the list of goroutines that get to run; blocked picks are skipped *)
Fixpoint mrun (m : machine) (sched : list nat) : machine :=
  match sched with
  | [] => m
  | t :: s => mrun (match mstep m t with Some m' => m' | None => m end) s
  end.
