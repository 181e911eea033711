(* Node trees as XML token streams: xmp/node.go:339-390. The lexer and printer of encoding/xml are not
   modelled; a token carries the names as the library sees them. *)
From Coq Require Import List Arith ZArith Bool Ascii String.
From Verif Require Import GoStr Names NodeM.
Local Open Scope string_scope.

Inductive token :=
| TStart (x : xname) (a : list attr)
| TChar (s : string)
| TEnd.

(* character data is a token only when there is some *)
Definition chars (s : string) : list token := if emptyb s then [] else [TChar s].

Section X.
Context {M : Type}.
(* white space the encoder writes before an element that is [depth] levels deep: "" without indentation,
   else a line break and the indentation (encoding/xml printer.writeIndent) *)
Variable sep : nat -> string.

(* xmp/node.go:339-365 for nodes without model: the start element with all attributes, the value as
   character data, then the children. Nodes without a name are skipped (340-342). encoding/xml puts the
   separator before each child and before the end tag of an element with children. The text before the
   first child and the separator that follows it form one run of character data. *)
Fixpoint encode_node (depth : nat) (n : node M) : list token :=
  let 'Node x a _ v l := n in
  if emptyb (x_local x) then []
  else
    let kids := (fix go (first : bool) (l : list (node M)) : list token :=
                   match l with
                   | [] => []
                   | c :: r =>
                       if emptyb (x_local (n_name c)) then go first r
                       else (chars ((if first then v else "") ++ sep (S depth)) ++ encode_node (S depth) c ++ go false r)%list
                   end) true l in
    match kids with
    | [] => (TStart x a :: chars v ++ [TEnd])%list
    | _ => (TStart x a :: kids ++ chars (sep depth) ++ [TEnd])%list
    end.

(* the token loop of xmp/node.go:370-385: (value, children, tokens left); None when the tokens end early.
   Errors of child elements are dropped (380) but the next d.Token() of this loop then fails as well.
   Value is overwritten by every run of character data (377). *)
Fixpoint decode_body (fuel : nat) (value : string) (nodes : list (node M)) (t : list token)
  : option (string * list (node M) * list token) :=
  match fuel with
  | 0 => None
  | S f =>
      match t with
      | [] => None
      | TChar s :: r => decode_body f (trim_space s) nodes r
      | TStart x a :: r =>
          match decode_body f "" [] r with
          | Some (v, l, r') => decode_body f value (nodes ++ [Node x a None v l])%list r'
          | None => None
          end
      | TEnd :: r => Some (value, nodes, r)
      end
  end.

(* UnmarshalXML for the element that starts the stream, xmp/node.go:367-390 *)
Definition decode_node (t : list token) : option (node M * list token) :=
  match t with
  | TStart x a :: r =>
      match decode_body (S (List.length r)) "" [] r with
      | Some (v, l, r') => Some (Node x a None v l, r')
      | None => None
      end
  | _ => None
  end.
End X.
