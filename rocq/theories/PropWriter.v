(* C54, C55: size limit and padding *)
From Coq Require Import List Arith ZArith Bool Ascii String Lia.
From Verif Require Import GoStr WriterM WriterFacts.
Import ListNotations.
Local Open Scope string_scope.

(* [uwrite] is the Write method of the underlying writer, [cut] the pieces in which io.Copy hands data to it; [cat] is
   concatenation *)
Definition io_writer {W} (uwrite : W -> string -> W * nat * option string) : Prop :=
  forall w b w' n e, uwrite w b = (w', n, e) -> n <= String.length b /\ (n < String.length b -> e <> None).

(* ---- C54 ---- *)
(* any writer, any sequence of writes (going on after errors): what was taken in total, which is what is counted, never
   exceeds the limit *)
Theorem C54_never_exceeds_the_limit : forall W (uwrite : W -> string -> W * nat * option string) cut,
  io_writer uwrite -> (forall b, cat (cut b) = b) ->
  forall limit w bs c l, (0 < limit)%Z -> cw_writes uwrite cut (CountWriter 0 limit w) bs = (c, l) ->
  cw_n c = Z.of_nat (fold_right (fun r s => (fst r + s)%nat) 0%nat l) /\ (cw_n c <= limit)%Z /\ List.length l = List.length bs.
Proof.
  intros W uwrite cut H1 H2 limit w bs c l Hl H.
  destruct (cw_writes_bound uwrite cut H1 H2 bs (CountWriter 0 limit w) c l) as (_ & A & B & C); auto; cbn [cw_n cw_limit] in *; auto; lia.
Qed.
Print Assumptions C54_never_exceeds_the_limit.
(* the writer keeps the contract of io.Writer itself *)
Theorem C54_is_a_writer : forall W (uwrite : W -> string -> W * nat * option string) cut,
  io_writer uwrite -> (forall b, cat (cut b) = b) ->
  forall c b c' n e, (0 < cw_limit c)%Z -> (0 <= cw_n c <= cw_limit c)%Z -> cw_write uwrite cut c b = (c', n, e) ->
  n <= String.length b /\ (n < String.length b -> e <> None).
Proof. intros W uwrite cut H1 H2 c b c' n e A B E. destruct (cw_write_bound uwrite cut H1 H2 c b c' n e A B E) as (_ & _ & _ & X & Y & _). auto. Qed.
Print Assumptions C54_is_a_writer.
(* into a buffer: what arrives is what was requested, cut at the limit, and its length is counted *)
Theorem C54_output_is_cut_at_the_limit : forall cut, (forall b, cat (cut b) = b) -> forall limit bs, (0 < limit)%Z ->
  let c := fst (cw_writes buffer_write cut (CountWriter 0 limit "") bs) in
  cw_w c = stake (Z.to_nat limit) (cat bs) /\ cw_n c = Z.of_nat (String.length (cw_w c)).
Proof.
  intros cut H limit bs Hl c. unfold c. rewrite (bw_writes cut H bs) by (repeat split; cbn; lia). split; reflexivity.
Qed.
Print Assumptions C54_output_is_cut_at_the_limit.
(* overflow is reported exactly when more was requested (for writes of at least one byte) *)
Theorem C54_overflow_partial : forall cut, (forall b, cat (cut b) = b) -> forall limit bs b, (0 < limit)%Z -> b <> "" ->
  let c := fst (cw_writes buffer_write cut (CountWriter 0 limit "") bs) in
  let '(_, _, e) := cw_write buffer_write cut c b in
  (e = Some err_overflow <-> (limit < Z.of_nat (String.length (cat bs ++ b)))%Z) /\ (e = None \/ e = Some err_overflow).
Proof.
  intros cut H limit bs b Hl Hb c.
  assert (G : good (CountWriter 0 limit "")) by (repeat split; cbn; lia).
  assert (E : c = CountWriter (Z.of_nat (String.length (stake (Z.to_nat limit) (cat bs)))) limit (stake (Z.to_nat limit) (cat bs))) by (unfold c; now rewrite (bw_writes cut H bs)).
  assert (Gc : good c) by (rewrite E; repeat split; cbn [cw_n cw_limit cw_w]; auto; rewrite GoStrFacts.length_stake; lia).
  rewrite (bw_spec cut H c b Gc). assert (Lb : 0 < String.length b) by (destruct b; [congruence|cbn; lia]).
  rewrite E. cbn [cw_n cw_limit cw_w]. rewrite GoStrFacts.length_stake, GoStrFacts.length_app.
  destruct (Z.leb_spec limit (Z.of_nat (Nat.min (Z.to_nat limit) (String.length (cat bs))))); cbn [orb]; [split; auto; split; auto; intros _; lia|].
  destruct (Z.ltb_spec limit (Z.of_nat (Nat.min (Z.to_nat limit) (String.length (cat bs))) + Z.of_nat (String.length b))); (split; [|auto]); (split; [|auto]); intros; try discriminate; lia.
Qed.
Print Assumptions C54_overflow_partial.
(* an empty write at the limit is reported as an overflow too *)
Theorem C54_empty_write_refuted : exists c : count_writer, cw_n c = cw_limit c /\ snd (cw_write buffer_write (fun b => [b]) c "") = Some err_overflow.
Proof. exists (CountWriter 5 5 "12345"). split; reflexivity. Qed.
Print Assumptions C54_empty_write_refuted.

(* ---- C55 ---- *)
(* [xml]: the text of the document, in any non-empty pieces *)
Theorem C55_padded_size : forall cut, (forall b, cat (cut b) = b) -> forall xml limit, (0 < limit)%Z -> Forall (fun b => b <> "") xml ->
  let content := packet_header ++ cat xml in
  let '(c, e) := encode_output buffer_write cut true true xml (CountWriter 0 limit "") in
  ((Z.of_nat (String.length content) + 20 <= limit)%Z ->
     e = None /\ Z.of_nat (String.length (cw_w c)) = limit /\
     exists white, cw_w c = content ++ white ++ packet_footer /\ forall ch, has_char ch white = true -> ch = " "%char \/ ch = "010"%char) /\
  ((limit < Z.of_nat (String.length content) + 20)%Z -> e = Some err_overflow /\ (Z.of_nat (String.length (cw_w c)) <= limit)%Z).
Proof.
  intros cut H xml limit Hl Hx content. pose proof (encode_limit cut H true xml limit Hl Hx) as E. cbv zeta in E. fold content in E.
  destruct (encode_output buffer_write cut true true xml (CountWriter 0 limit "")) as [c e].
  destruct (Z.leb_spec (Z.of_nat (String.length content) + 20) limit) as [L|L]; (split; intros X; [|try lia]); [|lia|exact E].
  destruct E as [-> ->]. split; auto. cbn [pads]. destruct (padding_cat (Z.to_nat (limit - Z.of_nat (String.length content) - 20)) 0) as (P1 & P2 & _).
  split; [|eauto]. rewrite !GoStrFacts.length_app, P1, footer_length. lia.
Qed.
Print Assumptions C55_padded_size.
(* the trailer is a valid one for a writable packet, 20 bytes with its newline *)
Theorem C55_trailer : packet_footer = String "010" ("<?xpacket end=" ++ String "034" ("w" ++ String "034" "?>")) /\ String.length packet_footer = 20.
Proof. split; reflexivity. Qed.
Print Assumptions C55_trailer.
(* without padding the packet is the content and the trailer, if they fit *)
Theorem C55_unpadded : forall cut, (forall b, cat (cut b) = b) -> forall xml limit, (0 < limit)%Z -> Forall (fun b => b <> "") xml ->
  let content := packet_header ++ cat xml in
  let '(c, e) := encode_output buffer_write cut true false xml (CountWriter 0 limit "") in
  ((Z.of_nat (String.length content) + 20 <= limit)%Z -> e = None /\ cw_w c = content ++ packet_footer) /\
  ((limit < Z.of_nat (String.length content) + 20)%Z -> e = Some err_overflow /\ (Z.of_nat (String.length (cw_w c)) <= limit)%Z).
Proof.
  intros cut H xml limit Hl Hx content. pose proof (encode_limit cut H false xml limit Hl Hx) as E. cbv zeta in E. fold content in E.
  destruct (encode_output buffer_write cut true false xml (CountWriter 0 limit "")) as [c e].
  destruct (Z.leb_spec (Z.of_nat (String.length content) + 20) limit) as [L|L]; (split; intros X; [|try lia]); [exact E|lia|exact E].
Qed.
Print Assumptions C55_unpadded.
(* without limit everything is written, and padding has no effect *)
Theorem C55_unlimited : forall cut, (forall b, cat (cut b) = b) -> forall xpacket padded xml limit, (limit <= 0)%Z ->
  let '(c, e) := encode_output buffer_write cut xpacket padded xml (CountWriter 0 limit "") in
  e = None /\ cw_w c = (if xpacket then packet_header ++ cat xml ++ packet_footer else cat xml) /\ cw_n c = Z.of_nat (String.length (cw_w c)).
Proof. intros cut _ xpacket padded xml limit H. exact (encode_unlimited cut xpacket padded xml limit H). Qed.
Print Assumptions C55_unlimited.

Example C54_hyps : io_writer buffer_write /\ (forall b, cat [b] = b) /\
  cw_writes buffer_write (fun b => [b]) (CountWriter 0 5 "") ["abc"; "def"; "g"] = (CountWriter 5 5 "abcde", [(3, None); (2, Some err_overflow); (0, Some err_overflow)]).
Proof.
  split; [|split; [|reflexivity]].
  - intros w b w' n e H. inversion H; subst. split; [lia|]. lia.
  - intros b. cbn. apply GoStrFacts.app_nil_r.
Qed.
Example C55_hyps : let '(c, e) := encode_output buffer_write (fun b => [b]) true true ["<x:xmpmeta>"; "</x:xmpmeta>"] (CountWriter 0 300 "") in
  e = None /\ String.length (cw_w c) = 300.
Proof. vm_compute. split; reflexivity. Qed.
