(* Language alternatives and string lists: xmp/array.go. Slices are modelled as lists; an int index with -1 for
   "not found" as option nat. *)
From Coq Require Import List Arith ZArith Bool Ascii String.
From Verif Require Import GoStr.
Local Open Scope string_scope.

(* xmp/array.go:46-50 *)
Record alt_item := AltItem { ai_value : string; ai_lang : string; ai_default : bool }.
Definition alt_string := list alt_item.

Definition set_def (x : alt_item) (b : bool) : alt_item := AltItem (ai_value x) (ai_lang x) b.

(* xmp/array.go:52-57 AltItem.UnmarshalText *)
Definition alt_item_of_text (s : string) : alt_item := AltItem s "" true.

(* xmp/array.go:59-64 AltItem.GetLang *)
Definition alt_item_lang (x : alt_item) : string :=
  if emptyb (ai_lang x) && ai_default x then "x-default" else ai_lang x.

(* the loop of EnsureDefault, xmp/array.go:102-110: only the first default item stays one; its index *)
Fixpoint clear_defaults (l : alt_string) : alt_string * option nat :=
  match l with
  | [] => ([], None)
  | x :: r => if ai_default x then (x :: map (fun y => set_def y false) r, Some 0)
              else let '(r', i) := clear_defaults r in (x :: r', option_map S i)
  end.

(* exchange of the items at 0 and idx > 0 *)
Definition swap_first (l : alt_string) (i : nat) : alt_string :=
  match l with
  | [] => []
  | x :: r => match nth_error r (i - 1) with
              | Some y => (y :: firstn (i - 1) r ++ x :: skipn i r)%list
              | None => l
              end
  end.

(* xmp/array.go:97-117; idx = -1 makes the swap panic *)
Definition ensure_default (l : alt_string) : result alt_string :=
  match l with
  | [] => Ok []
  | [x] => Ok [set_def x true]
  | _ => match clear_defaults l with
         | (l', Some 0) => Ok l'
         | (l', Some i) => Ok (swap_first l' i)
         | (_, None) => Panic
         end
  end.

(* xmp/array.go:72-95; a fmt.Stringer is passed as its string, other types are ignored *)
Inductive alt_arg := ArgItem (x : alt_item) | ArgString (s : string) | ArgOther.
Definition new_alt_items (l : list alt_arg) : alt_string :=
  flat_map (fun v => match v with
                     | ArgItem x => if emptyb (ai_value x) then [] else [x]
                     | ArgString s => if emptyb s then [] else [AltItem s "" false]
                     | ArgOther => []
                     end) l.
Definition new_alt_string (l : list alt_arg) : result alt_string := ensure_default (new_alt_items l).

(* xmp/array.go:119-126 *)
Definition alt_default (l : alt_string) : string :=
  match find ai_default l with Some x => ai_value x | None => "" end.

(* xmp/array.go:128-135 *)
Fixpoint alt_index (l : alt_string) (lang : string) : option nat :=
  match l with
  | [] => None
  | x :: r => if ai_lang x =? lang then Some 0 else option_map S (alt_index r lang)
  end.

(* xmp/array.go:137-147 *)
Definition alt_get (l : alt_string) (lang : string) : string :=
  if emptyb lang then alt_default l
  else match find (fun x => ai_lang x =? lang) l with Some x => ai_value x | None => "" end.

(* xmp/array.go:149-166 *)
Definition alt_add_default (l : alt_string) (lang value : string) : alt_string :=
  if emptyb value then l else AltItem value lang true :: map (fun y => set_def y false) l.

(* xmp/array.go:179-189 *)
Definition alt_add (l : alt_string) (lang value : string) : result alt_string :=
  if emptyb value then Ok l else ensure_default (l ++ [AltItem value lang false])%list.

(* xmp/array.go:168-177 *)
Definition alt_add_unique (l : alt_string) (lang value : string) : result (alt_string * bool) :=
  if emptyb value then Ok (l, false)
  else match option_map (fun i => nth_error l i) (alt_index l lang) with
       | Some (Some x) => if ai_value x =? value then Ok (l, false)
                          else bind (alt_add l lang value) (fun l' => Ok (l', true))
       | _ => bind (alt_add l lang value) (fun l' => Ok (l', true))
       end.

Fixpoint set_nth_value (l : alt_string) (i : nat) (v : string) : alt_string :=
  match l, i with
  | [], _ => []
  | x :: r, 0 => AltItem v (ai_lang x) (ai_default x) :: r
  | x :: r, S j => x :: set_nth_value r j v
  end.
(* xmp/array.go:191-200 *)
Definition alt_set (l : alt_string) (lang value : string) : result alt_string :=
  if emptyb value then Ok l
  else match alt_index l lang with
       | Some i => Ok (set_nth_value l i value)
       | None => alt_add l lang value
       end.

(* xmp/array.go:202-214 *)
Definition alt_remove_lang (l : alt_string) (lang : string) : result alt_string :=
  match alt_index l lang with
  | Some i => ensure_default (firstn i l ++ skipn (S i) l)%list
  | None => Ok l
  end.

(* the exported methods that change an AltString *)
Inductive alt_op :=
| OpAddDefault (lang value : string) | OpAdd (lang value : string) | OpAddUnique (lang value : string)
| OpSet (lang value : string) | OpRemoveLang (lang : string) | OpEnsureDefault.
Definition alt_step (l : alt_string) (o : alt_op) : result alt_string :=
  match o with
  | OpAddDefault g v => Ok (alt_add_default l g v)
  | OpAdd g v => alt_add l g v
  | OpAddUnique g v => bind (alt_add_unique l g v) (fun r => Ok (fst r))
  | OpSet g v => alt_set l g v
  | OpRemoveLang g => alt_remove_lang l g
  | OpEnsureDefault => ensure_default l
  end.
Fixpoint alt_run (l : alt_string) (h : list alt_op) : result alt_string :=
  match h with [] => Ok l | o :: r => bind (alt_step l o) (fun l' => alt_run l' r) end.

(* ---- string lists ------------------------------------------------------------------------ *)
(* StringList, xmp/array.go:353-439, and StringArray, xmp/array.go:443-529, have the same methods *)

(* xmp/array.go:359-365 and 463-469 *)
Definition sl_add (l : list string) (v : string) : list string := if emptyb v then l else (l ++ [v])%list.

Fixpoint first_index (l : list string) (v : string) : option nat :=
  match l with [] => None | x :: r => if x =? v then Some 0 else option_map S (first_index r v) end.
(* xmp/array.go:377-387 and 481-491 *)
Definition sl_index (l : list string) (v : string) : option nat := if emptyb v then None else first_index l v.
(* xmp/array.go:389-391 and 493-495 *)
Definition sl_contains (l : list string) (v : string) : bool :=
  match sl_index l v with Some _ => true | None => false end.
(* xmp/array.go:367-375 and 471-479 *)
Definition sl_add_unique (l : list string) (v : string) : list string :=
  if emptyb v then l else if sl_contains l v then l else sl_add l v.
(* xmp/array.go:393-400 and 497-504: append(x[:idx], x[:idx+1]...). append copies with memmove, so the result
   does not depend on the capacity *)
Definition sl_remove (l : list string) (v : string) : list string :=
  if emptyb v then l
  else match sl_index l v with
       | Some i => (firstn i l ++ firstn (S i) l)%list
       | None => l
       end.
(* xmp/array.go:406-418 and 445-457 *)
Definition new_string_list (l : list string) : list string := filter (fun s => negb (emptyb s)) l.

(* strings.Replace(s, "\r\n", "\n", -1) *)
Fixpoint crlf_to_lf (s : string) : string :=
  match s with
  | String "013" (String "010" r) => String "010" (crlf_to_lf r)
  | String c r => String c (crlf_to_lf r)
  | EmptyString => EmptyString
  end.
(* xmp/array.go:428-432 and 518-522: appends to what is there *)
Definition sl_unmarshal_text (l : list string) (data : string) : list string :=
  (l ++ split_char "010" (crlf_to_lf data))%list.
(* xmp/array.go:434-439 and 524-529; None is nil *)
Definition sl_marshal_text (l : list string) : option string :=
  match l with [] => None | _ => Some (join (String "010" "") l) end.

(* models/xmp_base/types.go:136-155 IdentifierArray, an array of structs with one field *)
Definition id_add (l : list string) (v : string) : list string := (l ++ [v])%list.
Definition id_index (l : list string) (v : string) : option nat := first_index l v.
Definition id_contains (l : list string) (v : string) : bool :=
  match id_index l v with Some _ => true | None => false end.
(* models/xmp_base/types.go:127-132 *)
Definition id_add_unique (l : list string) (v : string) : list string := if id_contains l v then l else id_add l v.
(* models/xmp_base/types.go:151-155 *)
Definition id_remove (l : list string) (v : string) : list string :=
  match id_index l v with
  | Some i => (firstn i l ++ firstn (S i) l)%list
  | None => l
  end.
