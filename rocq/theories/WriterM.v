(* The encoder's writer and the framing of a packet: xmp/marshal.go:56-93 and 212-273. The text produced by encoding/xml
   (steps 4.2 and 4.3 of Encode) is a parameter. *)
From Coq Require Import List Arith ZArith Bool Ascii String.
From Verif Require Import GoStr.
Local Open Scope string_scope.

Definition err_overflow : string := "xmp: document exceeds size limit".   (* xmp/marshal.go:54 *)
(* xmp/sdk.go:48-49 *)
Definition packet_header : string :=
  "<?xpacket begin=" ++ String "034" (String "034" " id=") ++ String "034" "W5M0MpCehiHzreSzNTczkc9d" ++ String "034" "?>" ++ String "010" "".
Definition packet_footer : string := String "010" ("<?xpacket end=" ++ String "034" "w" ++ String "034" "?>").

Section Writer.
(* the underlying io.Writer: its Write returns the number of bytes it took and an error *)
Context {W : Type} (uwrite : W -> string -> W * nat * option string).
(* how io.Copy cuts the data into buffers (or the writer's ReadFrom does) *)
Context (cut : string -> list string).

(* io.Copy: stops with the first error or short write *)
Fixpoint copy_all (w : W) (chunks : list string) : W * nat * option string :=
  match chunks with
  | [] => (w, 0, None)
  | c :: r => let '(w', n, e) := uwrite w c in
              match e with
              | Some x => (w', n, Some x)
              | None => if Nat.eqb n (String.length c) then let '(w'', m, e') := copy_all w' r in (w'', n + m, e')
                        else (w', n, Some "short write")
              end
  end.
(* io.CopyN(w, bytes.NewReader(b), k), k <= len(b): no error if all k bytes were taken *)
Definition copy_n (w : W) (b : string) (k : nat) : W * nat * option string :=
  let '(w', n, e) := copy_all w (cut (stake k b)) in
  (w', n, if Nat.eqb n k then None else e).

(* xmp/marshal.go:56-60 *)
Record count_writer := CountWriter { cw_n : Z; cw_limit : Z; cw_w : W }.

(* xmp/marshal.go:73-93 *)
Definition cw_write (c : count_writer) (b : string) : count_writer * nat * option string :=
  if (0 <? cw_limit c)%Z then
    if (cw_limit c <=? cw_n c)%Z then (c, 0, Some err_overflow)
    else let '(w', copied, e) := copy_n (cw_w c) b (Z.to_nat (Z.min (cw_limit c - cw_n c) (Z.of_nat (String.length b)))) in
         let c' := CountWriter (cw_n c + Z.of_nat copied) (cw_limit c) w' in
         match e with
         | Some x => (c', copied, Some x)
         | None => (c', copied, if Nat.ltb copied (String.length b) then Some err_overflow else None)
         end
  else let '(w', n, e) := uwrite (cw_w c) b in
       (CountWriter (cw_n c + Z.of_nat n) (cw_limit c) w', n, e).

(* a sequence of writes, with the results *)
Fixpoint cw_writes (c : count_writer) (bs : list string) : count_writer * list (nat * option string) :=
  match bs with
  | [] => (c, [])
  | b :: r => let '(c', n, e) := cw_write c b in let '(c'', l) := cw_writes c' r in (c'', (n, e) :: l)
  end.

(* writes until the first error, as in Encode and in the bufio.Writer of xml.Encoder *)
Fixpoint write_until (c : count_writer) (bs : list string) : count_writer * option string :=
  match bs with
  | [] => (c, None)
  | b :: r => let '(c', _, e) := cw_write c b in match e with Some x => (c', Some x) | None => write_until c' r end
  end.

(* xmp/marshal.go:253-265 *)
Fixpoint padding (i : Z) (k : nat) : list string :=
  match k with
  | 0 => []
  | S k' => (if (i mod 80 =? 0)%Z then String "010" "" else " ") :: padding (i + 1) k'
  end.

(* xmp/marshal.go:212-273: [xml] is what the XML encoder writes, in the pieces its buffer is flushed in *)
Definition encode_output (xpacket xpadding : bool) (xml : list string) (c : count_writer) : count_writer * option string :=
  let '(c1, e1) := if xpacket then write_until c [packet_header] else (c, None) in
  match e1 with
  | Some x => (c1, Some x)
  | None =>
      let '(c2, e2) := write_until c1 xml in
      match e2 with
      | Some x => (c2, Some x)
      | None =>
          if xpacket then
            let '(c3, e3) := if xpadding && (0 <? cw_limit c2)%Z
                             then write_until c2 (padding 0 (Z.to_nat (cw_limit c2 - cw_n c2 - 20)))
                             else (c2, None) in
            match e3 with
            | Some x => (c3, Some x)
            | None => write_until c3 [packet_footer]
            end
          else (c2, None)
      end
  end.
End Writer.
Arguments CountWriter {W}. Arguments cw_n {W}. Arguments cw_limit {W}. Arguments cw_w {W}.

(* a writer that takes everything, such as a bytes.Buffer *)
Definition buffer_write (w : string) (b : string) : string * nat * option string := (w ++ b, String.length b, None).
