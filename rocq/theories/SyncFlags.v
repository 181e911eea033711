(* Sync flags: xmp/sync.go:74-142 *)
From Coq Require Import List Arith ZArith Bool Ascii String.
From Verif Require Import GoStr.
Local Open Scope string_scope.

(* xmp/sync.go:76-87 *)
Definition CREATE : Z := 1.
Definition REPLACE : Z := 2.
Definition DELETE : Z := 4.
Definition APPEND : Z := 8.
Definition UNIQUE : Z := 16.
Definition NOFAIL : Z := 32.
Definition DEFAULT : Z := Z.lor (Z.lor (Z.lor CREATE REPLACE) DELETE) UNIQUE.
Definition MERGE : Z := Z.lor (Z.lor CREATE UNIQUE) NOFAIL.
Definition EXTEND : Z := Z.lor (Z.lor (Z.lor CREATE REPLACE) UNIQUE) NOFAIL.
Definition ADD : Z := Z.lor (Z.lor CREATE UNIQUE) NOFAIL.

(* flags & mask > 0; all masks are non-negative constants *)
Definition on (flags mask : Z) : bool := (0 <? Z.land flags mask)%Z.

(* xmp/sync.go:89-114 ParseSyncFlag *)
Definition parse_sync_flag (s : string) : Z :=
  if s =? "create" then CREATE
  else if s =? "replace" then REPLACE
  else if s =? "delete" then DELETE
  else if s =? "append" then APPEND
  else if s =? "unique" then UNIQUE
  else if s =? "nofail" then NOFAIL
  else if s =? "default" then DEFAULT
  else if s =? "merge" then MERGE
  else if s =? "extend" then EXTEND
  else if s =? "add" then ADD
  else 0.

(* the loop of xmp/sync.go:118-125 *)
Fixpoint parse_sync_flags_loop (l : list string) (flags : Z) : result Z :=
  match l with
  | [] => Ok flags
  | v :: r =>
      let f := parse_sync_flag (to_lower v) in
      if (f =? 0)%Z then Err "invalid xmp sync flag"
      else parse_sync_flags_loop r (Z.lor flags f)
  end.

(* xmp/sync.go:116-127 ParseSyncFlags *)
Definition parse_sync_flags (s : string) : result Z :=
  parse_sync_flags_loop (split_char "," s) 0.

(* xmp/sync.go:129-140 SyncFlags.UnmarshalText: (error, new value of *f) *)
Definition sync_flags_unmarshal_text (f : Z) (data : string) : result Z :=
  if emptyb data then Ok 0%Z else parse_sync_flags data.
