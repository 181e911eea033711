(* The cache of type descriptions under concurrent use: xmp/typeinfo.go:107-193.
   What a description contains is a parameter [info] (TagM.v has it: type_info); it depends on the tag
   name space and the type only. Types and tag name spaces are identified by strings.
   Maps are reference values in Go: a goroutine may fill a map that tinfoNsMap no longer (or not yet) holds, so
   maps have identities. An identity is the tag name space a map was made for and a number.
   The description of an embedded struct is asked for by a nested call in which no lock is held
   (typeinfo.go:166); it is part of [info] here.
   sync.RWMutex is modelled as in RegistryM.v. Every step does at most one access to shared memory. *)
From Coq Require Import List Arith Bool Ascii String.
From Verif Require Import GoStr GoMap.
Import ListNotations.
Local Open Scope string_scope.

Section Tinfo.
Context {T : Type}.
Variable info : string -> string -> result T.

Definition mapid := (string * nat)%type.
Definition mapid_eqb (a b : mapid) : bool := (fst a =? fst b) && Nat.eqb (snd a) (snd b).

(* typeinfo.go:129-131 *)
Definition norm_ns (ns : string) : string := if emptyb ns then "xmp" else ns.

Inductive tpc :=
| QIdle
| QWant (ns t : string)                         (* before RLock, typeinfo.go:132 *)
| QLook (ns t : string)                         (* read lock held, before line 133 *)
| QMade (ns t : string) (m : mapid)             (* map made (135), before RUnlock (136) *)
| QLock1 (ns t : string) (m : mapid)            (* before Lock, 137 *)
| QWait1 (ns t : string) (m : mapid)            (* Lock: announced, waiting for the readers *)
| QPut (ns t : string) (m : mapid)              (* write lock held, before 138 *)
| QUn1 (ns t : string) (m : mapid)              (* before Unlock, 139 *)
| QRl (ns t : string) (m : mapid)               (* before RLock, 140 *)
| QRead (ns t : string) (m : mapid)             (* read lock held, before 142 *)
| QGot (ns t : string) (m : mapid) (o : option T)   (* before RUnlock, 143 *)
| QComp (ns t : string) (m : mapid)             (* no lock held, 147-188 *)
| QLock2 (ns t : string) (m : mapid) (i : T)    (* before Lock, 189 *)
| QWait2 (ns t : string) (m : mapid) (i : T)
| QStore (ns t : string) (m : mapid) (i : T)    (* write lock held, before 190 *)
| QUn2 (ns t : string) (i : T)                  (* before Unlock, 191 *)
| QRet (ns t : string) (r : result T).          (* about to return r *)

(* the next step of the goroutine reads (writes) tinfoNsMap or a tinfoMap *)
Definition reading (p : tpc) : bool := match p with QLook _ _ | QRead _ _ _ => true | _ => false end.
Definition writing (p : tpc) : bool := match p with QPut _ _ _ | QStore _ _ _ _ => true | _ => false end.

Record tthread := TThread { q_pc : tpc; q_todo : list (string * string) }.

Record tmachine := TMachine {
  tm_threads : nat -> tthread;
  tm_readers : list nat;
  tm_writer : option nat;
  tm_ns : gomap mapid;                       (* tinfoNsMap *)
  tm_heap : mapid -> gomap T;                (* the contents of the tinfoMaps *)
  tm_next : nat;                             (* maps made so far *)
  tm_trace : list (nat * (string * string) * result T)    (* returned calls, oldest first *)
}.

Definition tupd (f : nat -> tthread) (t : nat) (x : tthread) : nat -> tthread :=
  fun i => if Nat.eqb i t then x else f i.
Definition hupd (h : mapid -> gomap T) (m : mapid) (x : gomap T) : mapid -> gomap T :=
  fun i => if mapid_eqb i m then x else h i.

Definition tstep (s : tmachine) (k : nat) : option tmachine :=
  let th := tm_threads s k in
  let go p := tupd (tm_threads s) k (TThread p (q_todo th)) in
  (* steps that change nothing but the program counter and the lock *)
  let lock p rs w := Some (TMachine (go p) rs w (tm_ns s) (tm_heap s) (tm_next s) (tm_trace s)) in
  let rlock p := match tm_writer s with None => lock p (k :: tm_readers s) None | Some _ => None end in
  let runlock p := lock p (remove Nat.eq_dec k (tm_readers s)) (tm_writer s) in
  let announce p := match tm_writer s with None => lock p (tm_readers s) (Some k) | Some _ => None end in
  let wait p := match tm_readers s with [] => lock p [] (tm_writer s) | _ => None end in
  match q_pc th with
  | QIdle =>
      match q_todo th with
      | [] => None
      | (ns, t) :: r => Some (TMachine (tupd (tm_threads s) k (TThread (QWant (norm_ns ns) t) r))
                                (tm_readers s) (tm_writer s) (tm_ns s) (tm_heap s) (tm_next s) (tm_trace s))
      end
  | QWant ns t => rlock (QLook ns t)
  | QLook ns t =>
      match map_get (tm_ns s) ns with
      | Some m => lock (QRead ns t m) (tm_readers s) (tm_writer s)
      | None => let m := (ns, tm_next s) in
                Some (TMachine (go (QMade ns t m)) (tm_readers s) (tm_writer s) (tm_ns s)
                        (hupd (tm_heap s) m []) (S (tm_next s)) (tm_trace s))
      end
  | QMade ns t m => runlock (QLock1 ns t m)
  | QLock1 ns t m => announce (QWait1 ns t m)
  | QWait1 ns t m => wait (QPut ns t m)
  | QPut ns t m => Some (TMachine (go (QUn1 ns t m)) (tm_readers s) (tm_writer s) (map_set (tm_ns s) ns m)
                           (tm_heap s) (tm_next s) (tm_trace s))
  | QUn1 ns t m => lock (QRl ns t m) (tm_readers s) None
  | QRl ns t m => rlock (QRead ns t m)
  | QRead ns t m => lock (QGot ns t m (map_get (tm_heap s m) t)) (tm_readers s) (tm_writer s)
  | QGot ns t m (Some i) => runlock (QRet ns t (Ok i))
  | QGot ns t m None => runlock (QComp ns t m)
  | QComp ns t m =>
      match info ns t with
      | Ok i => lock (QLock2 ns t m i) (tm_readers s) (tm_writer s)
      | r => lock (QRet ns t r) (tm_readers s) (tm_writer s)
      end
  | QLock2 ns t m i => announce (QWait2 ns t m i)
  | QWait2 ns t m i => wait (QStore ns t m i)
  | QStore ns t m i => Some (TMachine (go (QUn2 ns t i)) (tm_readers s) (tm_writer s) (tm_ns s)
                               (hupd (tm_heap s) m (map_set (tm_heap s m) t i)) (tm_next s) (tm_trace s))
  | QUn2 ns t i => lock (QRet ns t (Ok i)) (tm_readers s) None
  | QRet ns t r => Some (TMachine (go QIdle) (tm_readers s) (tm_writer s) (tm_ns s) (tm_heap s) (tm_next s)
                           (tm_trace s ++ [(k, (ns, t), r)])%list)
  end.

(* package initialization: an empty cache, every goroutine with the calls it is going to make *)
Definition tinit (progs : nat -> list (string * string)) : tmachine :=
  TMachine (fun k => TThread QIdle (progs k)) [] None [] (fun _ => []) 0 [].

Fixpoint trun (s : tmachine) (sched : list nat) : tmachine :=
  match sched with
  | [] => s
  | k :: r => trun (match tstep s k with Some s' => s' | None => s end) r
  end.
End Tinfo.
