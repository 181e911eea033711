(* Logging: xmp/log.go. Arguments of messages are strings. fmt.Sprintf is modelled for formats whose verbs are %s, %v and
   %%; None stands for other formats. The date in front of a line (package log) is left out. *)
From Coq Require Import List Arith ZArith Bool Ascii String.
From Verif Require Import GoStr.
Import ListNotations.
Local Open Scope string_scope.

Definition newline : string := String "010" "".

(* fmt: the arguments left over *)
Fixpoint extra_args (l : list string) : string :=
  match l with
  | [] => ""
  | [a] => "string=" ++ a
  | a :: r => "string=" ++ a ++ ", " ++ extra_args r
  end.
Definition extra (l : list string) : string :=
  match l with [] => "" | _ => "%!(EXTRA " ++ extra_args l ++ ")" end.
(* fmt.Sprintf *)
Fixpoint sprintf (s : string) (l : list string) : option string :=
  match s with
  | "" => Some (extra l)
  | String "%" r =>
      match r with
      | String "%" r' => option_map (String "%") (sprintf r' l)
      | String c r' =>
          if (Ascii.eqb c "s" || Ascii.eqb c "v")%bool then
            match l with
            | a :: l' => option_map (fun t => a ++ t) (sprintf r' l')
            | [] => option_map (fun t => "%!" ++ String c "(MISSING)" ++ t) (sprintf r' [])
            end
          else None
      | "" => None
      end
  | String c r => option_map (String c) (sprintf r l)
  end.
(* log.Printf: a line; package log adds a newline if there is none at the end *)
Definition ends_line (s : string) : bool := has_suffix_str newline s.
Definition log_printf (s : string) (l : list string) : option string :=
  option_map (fun t => if ends_line t then t else t ++ newline) (sprintf s l).

(* xmp/log.go:39-45 *)
Inductive level := Debug | Info | Warning | Error.
Definition level_num (l : level) : Z := match l with Debug => 1 | Info => 2 | Warning => 3 | Error => 4 end%Z.
(* xmp/log.go:47-60 Prefix; other numbers are never logged with *)
Definition level_prefix (l : level) : string :=
  match l with Debug => "Debug:" | Info => "Info:" | Warning => "Warn:" | Error => "Error:" end.

(* xmp/log.go:81-86 *)
Definition default_logger (format : string) (args : list string) : option string :=
  log_printf (if ends_line format then format else format ++ newline) args.
(* xmp/log.go:88-92 *)
Definition output (l : level) (v : list string) : option string := default_logger "%s" (level_prefix l :: v).
(* xmp/log.go:94-99 *)
Definition outputf (l : level) (s : string) (v : list string) : option string := default_logger ("%s " ++ s) (level_prefix l :: v).

(* what a program does with the logger: SetLogLevel (any number), Error(v...) and its like, Errorf(s, v...) and its like *)
Inductive log_op := LSet (n : Z) | LPlain (l : level) (v : list string) | LFormat (l : level) (s : string) (v : list string).
(* xmp/log.go:62-65: the initial level *)
Definition first_level : Z := level_num Warning.
(* xmp/log.go:72-74, 101-155: the new level and the text written, if any *)
Definition log_step (cur : Z) (o : log_op) : Z * list (option string) :=
  match o with
  | LSet n => (n, [])
  | LPlain l v => (cur, if (level_num l <? cur)%Z then [] else [output l v])
  | LFormat l s v => (cur, if (level_num l <? cur)%Z then [] else [outputf l s v])
  end.
Fixpoint log_run (cur : Z) (h : list log_op) : list (option string) :=
  match h with [] => [] | o :: r => let '(c, out) := log_step cur o in (out ++ log_run c r)%list end.
