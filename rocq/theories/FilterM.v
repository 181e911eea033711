(* Filter strings: xmp/filter.go:23-136 (Apply is in DocM) *)
From Coq Require Import List Arith ZArith Bool Ascii String.
From Verif Require Import GoStr GoMap Names RegistryM.
Local Open Scope string_scope.

(* xmp/filter.go:23-26 *)
Record filter_t := Filter { f_include : list namespace; f_exclude : list namespace }.

(* xmp/namespace.go:80-83 NamespaceGroup.Namespaces; nil for an unregistered group *)
Definition group_namespaces (r : registry) (g : string) : list namespace :=
  match get_group_namespaces r g with Ok l => l | _ => [] end.

(* xmp/filter.go:48-57 and 63-72: a group name or a registered namespace *)
Definition resolve_strict (r : registry) (v : string) : option (list namespace) :=
  let g := parse_group v in
  if negb (emptyb g) then Some (group_namespaces r g)
  else match get_namespace r v with Ok ns => Some [ns] | _ => None end.

(* xmp/filter.go:91-100 and 106-115: unknown names become a namespace without URI *)
Definition resolve_lenient (r : registry) (v : string) : list namespace :=
  let g := parse_group v in
  if negb (emptyb g) then group_namespaces r g
  else match get_namespace r v with Ok ns => [ns] | _ => [Namespace v "" None] end.

(* the loop of xmp/filter.go:40-74 *)
Fixpoint parse_strict_loop (r : registry) (parts : list string) (f : filter_t) : result filter_t :=
  match parts with
  | [] => Ok f
  | v :: rest =>
      match v with
      | EmptyString => parse_strict_loop r rest f
      | String c v' =>
          if Ascii.eqb c "-" then
            match resolve_strict r v' with
            | Some l => parse_strict_loop r rest (Filter (f_include f) (f_exclude f ++ l))
            | None => Err "no registered xmp namespace"
            end
          else
            let w := if Ascii.eqb c "+" then v' else v in
            match resolve_strict r w with
            | Some l => parse_strict_loop r rest (Filter (f_include f ++ l) (f_exclude f))
            | None => Err "no registered xmp namespace"
            end
      end
  end.

(* xmp/filter.go:35-76 *)
Definition parse_filter_strict (r : registry) (s : string) : result filter_t :=
  if emptyb s then Ok (Filter [] []) else parse_strict_loop r (split_char "," s) (Filter [] []).

(* the loop of xmp/filter.go:83-117 *)
Fixpoint parse_lenient_loop (r : registry) (parts : list string) (f : filter_t) : filter_t :=
  match parts with
  | [] => f
  | v :: rest =>
      match v with
      | EmptyString => parse_lenient_loop r rest f
      | String c v' =>
          if Ascii.eqb c "-" then
            parse_lenient_loop r rest (Filter (f_include f) (f_exclude f ++ resolve_lenient r v'))
          else
            let w := if Ascii.eqb c "+" || Ascii.eqb c " " then v' else v in
            parse_lenient_loop r rest (Filter (f_include f ++ resolve_lenient r w) (f_exclude f))
      end
  end.

(* xmp/filter.go:78-119 *)
Definition parse_filter (r : registry) (s : string) : filter_t :=
  if emptyb s then Filter [] [] else parse_lenient_loop r (split_char "," s) (Filter [] []).

(* xmp/filter.go:127-136 *)
Definition filter_string (f : filter_t) : string :=
  join "," (map (fun n => append "+" (ns_name n)) (f_include f) ++ map (fun n => append "-" (ns_name n)) (f_exclude f))%list.
