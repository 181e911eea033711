(* Packet scanner: xmp/reader.go:44-91, driven by bufio.Scanner of the Go standard library. *)
From Coq Require Import List Arith NArith ZArith Bool Ascii String.
From Verif Require Import GoStr.
Local Open Scope string_scope.

(* xmp/reader.go:65-67 *)
Definition packet_start : string := "<?xpacket begin".
Definition packet_end : string := "<?xpacket end".
Definition magic : string := "W5M0MpCehiHzreSzNTczkc9d".

(* xmp/reader.go:73-91: (advance, token); the error is always nil *)
Definition split_packet (data : string) (at_eof : bool) : nat * option string :=
  match index packet_start data with
  | None =>
      if Nat.ltb (String.length packet_start) (String.length data)
      then (String.length data - String.length packet_start, None)
      else (String.length data, None)
  | Some start =>
      match index packet_end (sdrop start data) with
      | None => if at_eof then (String.length data, None) else (0, None)
      | Some e =>
          let last := start + e + String.length packet_end + 6 in
          if Nat.ltb (String.length data) last
          then if at_eof then (String.length data, None) else (0, None)
          else (last, Some (stake (last - start) (sdrop start data)))
      end
  end.

(* xmp/reader.go:69-71. b[:51] reslices up to the capacity of b: [beyond] are the bytes of the buffer behind the token *)
Definition is_xmp_packet (b beyond : string) : result bool :=
  if Nat.ltb (String.length (b ++ beyond)) 51 then Panic
  else Ok (contains magic (stake 51 (b ++ beyond))).

(* ---- bufio.Scanner ------------------------------------------------------------------------- *)
(* s.buf is front ++ win ++ tail, s.start = len front, s.end = len (front ++ win); [rest] is what the underlying
   reader has not delivered yet; sc_eof is s.err = io.EOF *)
Record scanner := Scanner { sc_front : string; sc_win : string; sc_tail : string; sc_rest : string; sc_eof : bool }.

Definition sc_buf (s : scanner) : string := sc_front s ++ sc_win s ++ sc_tail s.
Definition start_buf_size : nat := N.to_nat 4096.
Definition max_token_size : nat := N.to_nat 65536.
Fixpoint zeros (n : nat) : string := match n with 0 => "" | S k => String "000" (zeros k) end.

(* s.advance(n) with 0 <= n <= len(window) *)
Definition sc_advance (s : scanner) (n : nat) : scanner :=
  Scanner (sc_front s ++ stake n (sc_win s)) (sdrop n (sc_win s)) (sc_tail s) (sc_rest s) (sc_eof s).

(* the data is moved to the front of the buffer *)
Definition sc_shift (s : scanner) : scanner :=
  let buf := sc_buf s in
  if Nat.ltb 0 (String.length (sc_front s)) &&
     (emptyb (sc_tail s) || Nat.ltb (Nat.div2 (String.length buf)) (String.length (sc_front s)))
  then Scanner "" (sc_win s) (sdrop (String.length (sc_win s)) buf) (sc_rest s) (sc_eof s)
  else s.

(* a full buffer is doubled, up to the maximum; None is ErrTooLong *)
Definition sc_grow (s : scanner) : option scanner :=
  let len := String.length (sc_buf s) in
  if emptyb (sc_tail s) then
    if Nat.leb max_token_size len then None
    else let size := if Nat.eqb len 0 then start_buf_size else Nat.min (len * 2) max_token_size in
         Some (Scanner "" (sc_win s) (zeros (size - String.length (sc_win s))) (sc_rest s) (sc_eof s))
  else Some s.

(* one call of Read that delivers [k] bytes (at least one, at most what fits into the buffer, all of the rest at
   most); [early]: the reader reports the end of file together with the last bytes, otherwise with the next call.
   Reads of 0 bytes without error, which the scanner repeats, and errors other than EOF are not modelled. *)
Definition sc_read (s : scanner) (k : nat) (early : bool) : scanner :=
  match sc_rest s with
  | EmptyString => Scanner (sc_front s) (sc_win s) (sc_tail s) "" true
  | _ =>
      let n := Nat.min (Nat.max 1 k) (Nat.min (String.length (sc_tail s)) (String.length (sc_rest s))) in
      let r := sdrop n (sc_rest s) in
      Scanner (sc_front s) (sc_win s ++ stake n (sc_rest s)) (sdrop n (sc_tail s)) r (early && emptyb r)
  end.

(* the result of a scan: the tokens so far, and how it ended *)
Inductive scan_end := SDone | STooLong | SPanic | SFuel.

(* Scan called in a loop, xmp/reader.go:48-55, with [sizes i] the size of the i-th read; each round of the loop of
   Scan is one step *)
Fixpoint scan (fuel : nat) (sizes : nat -> nat) (early : bool) (i : nat) (s : scanner) (acc : list string)
  : list string * scan_end :=
  match fuel with
  | 0 => (acc, SFuel)
  | S f =>
      let '(adv, tok) := if negb (emptyb (sc_win s)) || sc_eof s then split_packet (sc_win s) (sc_eof s) else (0, None) in
      let s1 := sc_advance s adv in
      match tok with
      | Some t =>
          match is_xmp_packet t (sc_win s1 ++ sc_tail s1) with
          | Ok true => scan f sizes early i s1 (acc ++ [t])%list
          | Ok false => scan f sizes early i s1 acc
          | _ => (acc, SPanic)
          end
      | None =>
          if sc_eof s1 then (acc, SDone)
          else match sc_grow (sc_shift s1) with
               | None => (acc, STooLong)
               | Some s2 => scan f sizes early (S i) (sc_read s2 (sizes i) early) acc
               end
      end
  end.

(* xmp/reader.go:44-63. Every round reads a byte or ends a token or the scan: the fuel suffices (ReaderFacts) *)
Definition scan_packets (stream : string) (sizes : nat -> nat) (early : bool) : result (list string) :=
  match scan (3 + 2 * String.length stream) sizes early 0 (Scanner "" "" "" stream false) [] with
  | (l, SDone) => match l with [] => Err "EOF" | _ => Ok l end
  | (_, STooLong) => Err "bufio.Scanner: token too long"
  | (_, SPanic) => Panic
  | (_, SFuel) => Err "fuel"
  end.
