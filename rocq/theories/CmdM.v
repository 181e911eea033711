(* The command line tool cmd/xmpinfo.go and the functions Read and Scan of xmp/reader.go. *)
From Coq Require Import List Arith NArith ZArith Bool Ascii String.
From Verif Require Import GoStr ReaderM.
Import ListNotations.
Local Open Scope string_scope.

(* What the tool uses of the library, for documents of type D: the theorems hold for any such functions. The texts of
   xmp.MarshalIndent and json.MarshalIndent, and the lines DumpStats prints, are values of these functions. *)
Record xmp_lib (D : Type) := XmpLib {
  x_unmarshal : string -> result D;                 (* xmp.Unmarshal *)
  x_marshal : D -> result (string * D);             (* xmp.MarshalIndent: the text, and the document afterwards *)
  x_json : D -> result (string * D);                (* json.MarshalIndent, likewise *)
  x_paths : D -> result (list (string * string));   (* Document.ListPaths: path and value *)
  x_demo : D;                                       (* the document of cmd/xmpinfo.go:128-150 *)
  x_stats : list string                             (* xmp.DumpStats *)
}.
Arguments x_unmarshal {D}. Arguments x_marshal {D}. Arguments x_json {D}. Arguments x_paths {D}.
Arguments x_demo {D}. Arguments x_stats {D}.

(* cmd/xmpinfo.go:32-50 *)
Record flags := Flags {
  f_debug : bool; f_quiet : bool; f_json : bool; f_xmp : bool; f_path : bool; f_orig : bool; f_all : bool
}.

(* The first argument: its name, and the bytes os.Open and reading give. An error while reading a file that could be
   opened is not told from an error of os.Open (both are reported the same way). *)
Record file := File { fi_name : string; fi_bytes : result string }.

(* path/filepath.Ext on Unix: the suffix from the last dot of the last element of the path *)
Fixpoint ext (s : string) : string :=
  match s with
  | "" => ""
  | String c r =>
      match ext r with
      | "" => if (c =? ".")%char && negb (has_char "/" r) then s else ""
      | e => e
      end
  end.

(* how the program ends *)
Inductive ending := Exit (code : Z) | Crash.
Definition outcome : Type := list string * ending.

Section Cmd.
Context {D : Type}.

(* cmd/xmpinfo.go:52-55 *)
Definition fail_line (arg e : string) : string := "Error: " ++ e ++ " in file " ++ arg.
(* cmd/xmpinfo.go:57-62 *)
Definition out (fl : flags) (b : string) : list string := if f_quiet fl then [] else [b].

(* o was printed, then r was computed: go on with its value, fail, or crash *)
Definition step {A} (arg : string) (o : list string) (r : result A) (k : A -> outcome) : outcome :=
  match r with
  | Ok a => let (l, e) := k a in ((o ++ l)%list, e)
  | Err e => ((o ++ [fail_line arg e])%list, Exit 1)
  | Panic => (o, Crash)
  end.

(* cmd/xmpinfo.go:88-90 *)
Definition wants_orig (fl : flags) : bool :=
  f_orig fl || (negb (f_json fl) && negb (f_xmp fl) && negb (f_path fl) && negb (f_orig fl) && negb (f_quiet fl)).

(* cmd/xmpinfo.go:179 *)
Definition path_line (v : string * string) : string := fst v ++ " = " ++ snd v.

(* cmd/xmpinfo.go:155-188 and unmarshal, marshal, lines 64-78 *)
Definition show (l : xmp_lib D) (fl : flags) (arg : string) (b : string) : outcome :=
  step arg (if wants_orig fl then out fl b else []) (x_unmarshal l b) (fun d =>
  step arg [] (if f_json fl then bind (x_json l d) (fun j => Ok (out fl (fst j), snd j)) else Ok ([], d)) (fun r1 =>
  step arg (fst r1) (if f_xmp fl then bind (x_marshal l (snd r1)) (fun x => Ok (out fl (fst x), snd x)) else Ok ([], snd r1)) (fun r2 =>
  step arg (fst r2) (if f_path fl then bind (x_paths l (snd r2)) (fun ps => Ok (map path_line ps)) else Ok []) (fun o3 =>
  ((o3 ++ if f_debug fl then x_stats l else [])%list, Exit 0))))).

(* cmd/xmpinfo.go:80-188; sizes and early: how the file is read, see ReaderM *)
Definition xmpinfo (l : xmp_lib D) (fl : flags) (arg : option file) (sizes : nat -> nat) (early : bool) : outcome :=
  match arg with
  | None => step "" [] (x_marshal l (x_demo l)) (fun x => show l fl "" (fst x))
  | Some f =>
      step (fi_name f) [] (fi_bytes f) (fun b =>
      if ext (fi_name f) =? ".xmp" then show l fl (fi_name f) b
      else match scan_packets b sizes early with
           | Err e => if e =? "EOF" then ([], Exit 0) else step (fi_name f) [] (@Err unit e) (fun _ => ([], Exit 0))
           | Panic => ([], Crash)
           | Ok bb =>
               if wants_orig fl && f_all fl then (List.concat (map (out fl) bb), Exit 0)
               else match bb with p :: _ => show l fl (fi_name f) p | [] => ([], Crash) end
           end)
  end.

(* xmp/reader.go:23-30 Read: the decoder reads all there is *)
Definition read_doc (l : xmp_lib D) (s : string) : result D := x_unmarshal l s.
(* xmp/reader.go:32-42 Scan *)
Definition scan_doc (l : xmp_lib D) (s : string) (sizes : nat -> nat) (early : bool) : result D :=
  bind (scan_packets s sizes early) (fun pp => match pp with p :: _ => x_unmarshal l p | [] => Panic end).
End Cmd.
