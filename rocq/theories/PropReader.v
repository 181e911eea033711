(* C52, C53: scanning a stream for packets *)
From Coq Require Import List Arith NArith ZArith Bool Ascii String Lia.
From Verif Require Import GoStr ReaderM SpecReader ReaderFacts.
Import ListNotations.
Local Open Scope string_scope.

(* [sizes i] is what the i-th Read would return at most, [early] whether the end of file is reported together with the
   last bytes *)

(* ---- C53 ---- *)
(* every stream has exactly one decomposition into gaps, packets and a rest without packet *)
Theorem C53_every_stream_decomposes : forall s, exists segs tail, stream_of s segs tail /\
  forall segs' tail', stream_of s segs' tail' -> segs = segs' /\ tail = tail'.
Proof. intros s. destruct (stream_of_exists s) as (segs & tail & H). exists segs, tail. split; auto. intros segs' tail'. exact (stream_of_unique _ _ _ H segs' tail'). Qed.
Print Assumptions C53_every_stream_decomposes.

(* ScanPackets returns its XMP packets, in order and once each *)
Theorem C53_returns_the_packets_partial : forall s segs tail sizes early, stream_of s segs tail -> fits segs tail ->
  (forall i, 16 <= sizes i) ->
  scan_packets s sizes early = match filter is_packet (map snd segs) with [] => Err "EOF" | l => Ok l end.
Proof. exact scan_packets_spec. Qed.
Print Assumptions C53_returns_the_packets_partial.

(* the split function: consumes at most what it is given; a token is the first packet in the data, which is consumed up to
   the end of the packet *)
Theorem C53_split_consumes_what_it_is_given : forall data eof adv tok, split_packet data eof = (adv, tok) ->
  adv <= String.length data /\
  forall t, tok = Some t -> exists g r, data = g ++ t ++ r /\ packet_behind g t r /\ adv = String.length (g ++ t).
Proof.
  intros data eof adv tok H. destruct (split_bounds _ _ _ _ H) as [A B]. split; auto. intros t ->. exact B.
Qed.
Print Assumptions C53_split_consumes_what_it_is_given.
(* it makes progress, or asks for more data; the latter only when data with a header but no complete packet is given and
   more may come *)
Theorem C53_split_makes_progress : forall data eof adv tok, split_packet data eof = (adv, tok) -> data <> "" ->
  0 < adv \/ (adv = 0 /\ tok = None /\ eof = false /\ occurs "<?xpacket begin" data).
Proof.
  intros data eof adv tok H Hne. assert (L : 0 < String.length data) by (destruct data; [congruence|cbn; lia]).
  revert H. unfold split_packet. destruct (index packet_start data) as [i|] eqn:E1.
  - assert (O : occurs packet_start data) by (apply index_some in E1 as (a & [[b X] _] & _); now exists a, b).
    destruct (index packet_end (sdrop i data)) as [j|].
    + destruct (Nat.ltb _ _); [destruct eof|]; intros H; apply (proj1 (pair_equal_spec _ _ _ _)) in H as [<- <-]; try (left; lia). right. auto.
    + destruct eof; intros H; apply (proj1 (pair_equal_spec _ _ _ _)) in H as [<- <-]; [left; lia|right; auto].
  - destruct (Nat.ltb_spec (String.length packet_start) (String.length data)); intros H0; apply (proj1 (pair_equal_spec _ _ _ _)) in H0 as [<- <-]; left; lia.
Qed.
Print Assumptions C53_split_makes_progress.

(* scanning ends, whatever the stream and however it is read: the outcome is never "out of fuel" *)
Theorem C53_scanning_terminates : forall s sizes early, scan_packets s sizes early <> Err "fuel".
Proof.
  intros s sizes early. unfold scan_packets.
  pose proof (scan_terminates sizes early (3 + 2 * String.length s) 0 (Scanner "" "" "" s false) []) as H.
  destruct (scan (3 + 2 * String.length s) sizes early 0 (Scanner "" "" "" s false) []) as [l []]; cbn [snd] in H; try discriminate.
  - destruct l; discriminate.
  - exfalso. apply H; auto; [unfold measure; cbn [sc_rest sc_win sc_eof append]; lia|left; reflexivity|discriminate].
Qed.
Print Assumptions C53_scanning_terminates.

(* a packet of more than 64 KiB makes the whole scan fail *)
Fixpoint spaces (n : nat) : string := match n with 0 => "" | S k => String " " (spaces k) end.
Definition header : string := "<?xpacket begin=" ++ String "034" (String "034" " id=") ++ String "034" "W5M0MpCehiHzreSzNTczkc9d" ++ String "034" "?>".
Definition trailer : string := "<?xpacket end=" ++ String "034" "w" ++ String "034" "?>".
Definition packet (body : string) : string := header ++ body ++ trailer.
Theorem C53_long_packet_refuted : exists s, scan_packets s (fun _ => N.to_nat 70000) false = Err "bufio.Scanner: token too long" /\
  exists body, s = packet body.
Proof. exists (packet (spaces (N.to_nat 66000))). split; [vm_compute; reflexivity|eauto]. Qed.
Print Assumptions C53_long_packet_refuted.
(* a header and trailer less than 51 bytes in front of the end of the buffer make ScanPackets panic *)
Theorem C53_short_packet_panics_refuted : exists s, scan_packets s (fun _ => N.to_nat 4096) false = Panic.
Proof. exists (spaces (N.to_nat 4062) ++ "<?xpacket begin" ++ trailer). vm_compute. reflexivity. Qed.
Print Assumptions C53_short_packet_panics_refuted.

(* ---- C52 ---- *)
(* the result does not depend on how the stream is read, when every read returns 16 bytes or more (or what is left) *)
Theorem C52_read_boundaries_partial : forall s segs tail sizes early sizes' early', stream_of s segs tail -> fits segs tail ->
  (forall i, 16 <= sizes i) -> (forall i, 16 <= sizes' i) ->
  scan_packets s sizes early = scan_packets s sizes' early'.
Proof.
  intros s segs tail sizes early sizes' early' So F H1 H2.
  rewrite (scan_packets_spec s segs tail sizes early), (scan_packets_spec s segs tail sizes' early'); auto.
Qed.
Print Assumptions C52_read_boundaries_partial.

(* with reads of one byte packets are lost *)
Theorem C52_small_reads_lose_packets_refuted : exists s,
  scan_packets s (fun _ => 1) false = Err "EOF" /\ scan_packets s (fun _ => 100) false = Ok [s].
Proof. exists (packet "<x/>"). split; vm_compute; reflexivity. Qed.
Print Assumptions C52_small_reads_lose_packets_refuted.
(* a packet right behind another one is lost when a read ends within its header *)
Theorem C52_adjacent_packets_refuted : exists p sizes, (forall i, 16 <= sizes i) /\
  scan_packets (p ++ p) sizes false = Ok [p] /\ scan_packets (p ++ p) (fun _ => 1000) false = Ok [p; p].
Proof.
  exists (packet "<x/>"), (fun i => if Nat.eqb i 0 then String.length (packet "<x/>") + 5 else 1000). split; [|split; vm_compute; reflexivity].
  intros i. destruct (Nat.eqb i 0); vm_compute; lia.
Qed.
Print Assumptions C52_adjacent_packets_refuted.

(* a stream with two packets, and the result *)
Definition some_stream : string := "some jpeg" ++ packet "<x/>" ++ "more than fifteen bytes" ++ packet "<y/>" ++ "the rest".
Lemma some_packet g b r : index "<?xpacket begin" (g ++ packet b ++ r) = Some (String.length g) ->
  index "<?xpacket end" (packet b ++ r) = Some (String.length (header ++ b)) -> packet_behind g (packet b) r.
Proof.
  intros H1 H2. apply index_some in H1 as (a & F & L). apply index_some in H2 as (h & F2 & L2).
  assert (a = g). { destruct F as [[c E] _]. apply app_eq_len in E; [symmetry; tauto|auto]. }
  assert (h = header ++ b).
  { destruct F2 as [[c E] _]. assert (E' : (header ++ b) ++ (trailer ++ r) = h ++ "<?xpacket end" ++ c).
    { rewrite <- E. unfold packet. now rewrite !GoStrFacts.app_assoc. }
    apply app_eq_len in E'; [symmetry; tauto|auto]. }
  subst. split; auto. exists (header ++ b), ("=" ++ String "034" "w" ++ String "034" "?>"). split; [|split; [reflexivity|auto]].
  unfold packet. now rewrite GoStrFacts.app_assoc.
Qed.
Example C53_hyps :
  let segs := [("some jpeg", packet "<x/>"); ("more than fifteen bytes", packet "<y/>")] in
  stream_of some_stream segs "the rest" /\ fits segs "the rest" /\
  scan_packets some_stream (fun i => 16 + i) true = Ok [packet "<x/>"; packet "<y/>"].
Proof.
  cbv zeta. split; [|split; [|vm_compute; reflexivity]].
  - unfold some_stream. apply so_packet; [apply some_packet; vm_compute; reflexivity|]. apply so_packet; [apply some_packet; vm_compute; reflexivity|].
    apply so_tail. intros g p r E P. destruct P as [[[b H] _] _]. assert (O : occurs "<?xpacket begin" "the rest") by (rewrite E, H; now exists g, b).
    apply (proj1 (index_none "<?xpacket begin" "the rest")) in O; [auto|vm_compute; reflexivity].
  - split; [|split].
    + repeat constructor; vm_compute; try reflexivity; lia.
    + repeat constructor.
    + intros _. vm_compute. reflexivity.
Qed.
