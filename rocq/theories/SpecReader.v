(* What a stream of bytes with XMP packets in it is; independent of the scanner. *)
From Coq Require Import List Arith NArith ZArith Bool Ascii String.
From Verif Require Import GoStr.
Import ListNotations.
Local Open Scope string_scope.

(* [sub] occurs in [s] behind [a], and nowhere earlier *)
Definition first_occ (sub a s : string) : Prop :=
  (exists b, s = a ++ sub ++ b) /\ forall a' b', s = a' ++ sub ++ b' -> String.length a <= String.length a'.
Definition occurs (sub s : string) : Prop := exists a b, s = a ++ sub ++ b.

(* the stream [g ++ p ++ r] starts with the packet [p] behind the gap [g]: the packet begins with the first header and
   ends six bytes behind the first trailer that follows *)
Definition packet_behind (g p r : string) : Prop :=
  first_occ "<?xpacket begin" g (g ++ p ++ r) /\
  exists h t, p = h ++ "<?xpacket end" ++ t /\ String.length t = 6 /\ first_occ "<?xpacket end" h (p ++ r).

(* the gaps and packets of a stream, and what is left behind the last packet *)
Inductive stream_of : string -> list (string * string) -> string -> Prop :=
| so_tail s : (forall g p r, s = g ++ p ++ r -> ~ packet_behind g p r) -> stream_of s [] s
| so_packet g p r segs tail : packet_behind g p r -> stream_of r segs tail ->
    stream_of (g ++ p ++ r) ((g, p) :: segs) tail.

(* the identifier of an XMP packet occurs within the first 51 bytes *)
Definition is_packet (p : string) : bool := contains "W5M0MpCehiHzreSzNTczkc9d" (stake 51 p).

(* every packet has at least 51 bytes; it and the gap in front fit into the buffer of the scanner; the packets are at
   least 15 bytes apart; if a header without trailer follows, what is left fits into the buffer as well *)
Definition fits (segs : list (string * string)) (tail : string) : Prop :=
  Forall (fun gp => 51 <= String.length (snd gp) /\ (Z.of_nat (String.length (fst gp ++ snd gp)) < 65536)%Z) segs /\
  Forall (fun gp => 15 <= String.length (fst gp)) (tl segs) /\
  (occurs "<?xpacket begin" tail -> (Z.of_nat (String.length tail) < 65536)%Z).
