(* Lists in iXML documents: SyncPointList and TrackList (models/ixml/types.go:60-115, 178-232) over the tokens of encoding/xml.
   The two lists have the same code with other names, so the names are parameters here; so are the reading and the writing of one
   entry, which encoding/xml does from the field tags. Simplifications: comments, directives and attributes are left out; the
   decoder is its remaining tokens (it checks itself that tags match, so the name of an end tag does not matter); errors of the
   output are left out. *)
From Coq Require Import List Arith ZArith Bool Ascii String.
From Verif Require Import GoStr.
Import ListNotations.
Local Open Scope nat_scope.
Local Open Scope string_scope.

Inductive tok := TStart (n : string) | TEnd (n : string) | TChar (s : string).

(* the content of the element that has just begun, and the tokens after its end; None if the input ends before *)
Fixpoint element (depth : nat) (l : list tok) : option (list tok * list tok) :=
  match l with
  | [] => None
  | t :: r =>
      match t, depth with
      | TEnd _, 0 => Some ([], r)
      | _, _ =>
          let d := match t with TStart _ => S depth | TEnd _ => pred depth | TChar _ => depth end in
          match element d r with Some (c, rest) => Some (t :: c, rest) | None => None end
      end
  end.
(* Decoder.Skip of encoding/xml *)
Definition skip (l : list tok) : option (list tok) := option_map snd (element 0 l).

Section S.
Context {A : Type}.
Variable item count : string.                     (* SYNC_POINT and SYNC_POINT_COUNT, TRACK and TRACK_COUNT *)
Variable dec : list tok -> result A.              (* Decoder.DecodeElement on the content of an entry *)
Variable enc : A -> list tok.                     (* Encoder.EncodeElement of an entry, without its tags *)

(* UnmarshalXML: models/ixml/types.go:71-96, 188-213. Every step takes a token, so the fuel is the number of tokens. *)
Fixpoint read_list (fuel : nat) (l : list tok) (x : list A) : result (list A * list tok) :=
  match fuel with
  | 0 => Err "EOF"
  | S fuel' =>
      match l with
      | [] => Err "EOF"
      | TStart n :: r =>
          if n =? item then
            match element 0 r with
            | None => Err "EOF"
            | Some (c, rest) => bind (dec c) (fun a => read_list fuel' rest (x ++ [a])%list)
            end
          else match skip r with Some rest => read_list fuel' rest x | None => Err "EOF" end
      | TEnd _ :: r => Ok (x, r)
      | TChar _ :: r => read_list fuel' r x
      end
  end.
Definition list_unxml (l : list tok) (x : list A) : result (list A * list tok) := read_list (S (List.length l)) l x.

(* MarshalXML: models/ixml/types.go:98-115, 215-232; start is the name of the element *)
Definition list_xml (start : string) (x : list A) : list tok :=
  match x with
  | [] => []
  | _ => (TStart start :: TStart count :: TChar (itoa (Z.of_nat (List.length x))) :: TEnd count ::
          flat_map (fun v => TStart item :: enc v ++ [TEnd item]) x ++ [TEnd start])%list
  end.
End S.
