(* C115 and C116: the time code of an iXML file *)
From Coq Require Import List Arith ZArith QArith Qabs Lqa Bool Ascii String Lia.
From Verif Require Import GoStr CodecM SpecCodec SpeedM CodecFacts2.
Import ListNotations.
Local Open Scope string_scope.

(* ---- C115: the clock ------------------------------------------------------------------------------------ *)

(* the samples since midnight, in two words of 32 bits *)
Definition samples (x : speed) (n : Z) : Prop := (0 <= sp_hi x /\ 0 <= sp_lo x < 2 ^ 32 /\ n = sp_hi x * 2 ^ 32 + sp_lo x)%Z.
(* numbers of a usual size: nothing overflows *)
Definition usual (x : speed) (n : Z) : Prop := (0 < sp_rate x /\ sp_rate x * 1000 < 2 ^ 63 /\ n * 1000 < 2 ^ 63 /\ 0 <= n)%Z.

Lemma samples_land hi lo : (0 <= lo < 2 ^ 32 -> Z.land (hi * 2 ^ 32) lo = 0)%Z.
Proof.
  intros L. apply Z.bits_inj'. intros k K. rewrite Z.land_spec, Z.bits_0. destruct (Z.ltb_spec k 32) as [B|B].
  - rewrite Z.mul_pow2_bits_low by lia. reflexivity.
  - replace (Z.testbit lo k) with false; [apply andb_false_r|]. symmetry.
    destruct (Z.eq_dec lo 0) as [->|]; [apply Z.bits_0|]. apply Z.bits_above_log2; [lia|]. apply Z.log2_lt_pow2; [lia|].
    apply Z.lt_le_trans with (2 ^ 32)%Z; [lia|]. apply Z.pow_le_mono_r; lia.
Qed.
Lemma samples_lor hi lo : (0 <= lo < 2 ^ 32 -> Z.lor (hi * 2 ^ 32) lo = hi * 2 ^ 32 + lo)%Z.
Proof. intros L. rewrite <- Z.lxor_lor by now apply samples_land. symmetry. apply Z.add_nocarry_lxor. now apply samples_land. Qed.

(* the result in terms of the samples *)
Lemma timecode_of x n : samples x n -> usual x n -> exists tc, xmp_timecode x = Ok tc
  /\ to_h tc = (n / sp_rate x / 3600)%Z /\ to_m tc = (n / sp_rate x mod 3600 / 60)%Z /\ to_s tc = (n / sp_rate x mod 60)%Z
  /\ to_f tc = Z.quot (wrap64 (Z.quot (wrap64 (1000 * (n mod sp_rate x) * sp_num x)) (1000 * sp_rate x))) 1000
  /\ to_drop tc = sp_drop x /\ to_format tc = parse_timecode_format (rat_value (sp_num x) (sp_den x)) (sp_drop x).
Proof.
  intros (H & L & N) (R & R2 & N2 & N3). unfold xmp_timecode.
  assert (W : wrap64 (sp_hi x * 2 ^ 32) = (sp_hi x * 2 ^ 32)%Z) by (apply wrap64_small; unfold word64; lia).
  rewrite W, samples_lor, <- N by exact L. rewrite (wrap64_small (n * 1000)) by (unfold word64; lia).
  rewrite (wrap64_small (sp_rate x * 1000)) by (unfold word64; lia).
  assert (Z0 : (sp_rate x * 1000 =? 0)%Z = false) by (apply Z.eqb_neq; lia). cbv zeta. rewrite !Z0.
  assert (Q : Z.quot (n * 1000) (sp_rate x * 1000) = (n / sp_rate x)%Z).
  { rewrite Z.quot_div_nonneg by lia. rewrite Z.div_mul_cancel_r by lia. reflexivity. }
  assert (M : Z.rem (n * 1000) (sp_rate x * 1000) = (1000 * (n mod sp_rate x))%Z).
  { rewrite Z.rem_mod_nonneg by lia. rewrite Z.mul_mod_distr_r by lia. lia. }
  rewrite Q, M. set (q := (n / sp_rate x)%Z). assert (Hq : (0 <= q <= n)%Z).
  { unfold q. split; [apply Z.div_pos; lia|]. apply Z.div_le_upper_bound; [lia|nia]. }
  rewrite (wrap64_small q) by (unfold word64; lia).
  rewrite (Z.quot_div_nonneg q 3600) by lia. pose proof (Z.div_mod q 3600 ltac:(lia)) as DM. pose proof (Z.mod_pos_bound q 3600 ltac:(lia)) as B.
  rewrite (wrap64_small (q / 3600 * 3600)) by (unfold word64; lia).
  replace (q - q / 3600 * 3600)%Z with (q mod 3600)%Z by lia. rewrite (wrap64_small (q mod 3600)) by (unfold word64; lia).
  rewrite (Z.quot_div_nonneg (q mod 3600) 60) by lia. pose proof (Z.div_mod (q mod 3600) 60 ltac:(lia)) as DM2. pose proof (Z.mod_pos_bound (q mod 3600) 60 ltac:(lia)) as B2.
  assert (B3 : (0 <= q mod 3600 / 60)%Z) by (apply Z.div_pos; lia).
  rewrite (wrap64_small (q mod 3600 / 60 * 60)) by (unfold word64; lia).
  replace (q mod 3600 - q mod 3600 / 60 * 60)%Z with (q mod 3600 mod 60)%Z by lia.
  rewrite (wrap64_small (q mod 3600 mod 60)) by (unfold word64; lia).
  eexists. split; [reflexivity|]. cbn [to_h to_m to_s to_f to_drop to_format]. split; [reflexivity|]. split; [reflexivity|]. split.
  - replace 3600%Z with (60 * 60)%Z by reflexivity. rewrite Z.rem_mul_r by lia. rewrite Z.add_mod by lia. rewrite (Z.mul_comm 60 (_ mod 60)), Z.mod_mul by lia.
    rewrite Z.add_0_r, !Z.mod_mod by lia. reflexivity.
  - split; [f_equal; f_equal; f_equal; lia|split; reflexivity].
Qed.

(* hours, minutes and seconds are those of the time the samples take *)
Theorem C115_clock_partial x n : samples x n -> usual x n ->
  exists tc, xmp_timecode x = Ok tc
    /\ (to_h tc * 3600 + to_m tc * 60 + to_s tc = n / sp_rate x /\ 0 <= to_h tc /\ 0 <= to_m tc < 60 /\ 0 <= to_s tc < 60)%Z
    /\ to_drop tc = sp_drop x.
Proof.
  intros S U. pose proof U as (R & R2 & N2 & N3). destruct (timecode_of x n S U) as (tc & E & H & M & Sc & _ & D & _). exists tc. split; [exact E|]. split; [|exact D].
  rewrite H, M, Sc. set (q := (n / sp_rate x)%Z). assert (Hq : (0 <= q)%Z) by (apply Z.div_pos; lia).
  pose proof (Z.div_mod q 3600 ltac:(lia)) as D1. pose proof (Z.mod_pos_bound q 3600 ltac:(lia)) as B1.
  pose proof (Z.div_mod (q mod 3600) 60 ltac:(lia)) as D2. pose proof (Z.mod_pos_bound (q mod 3600) 60 ltac:(lia)) as B2.
  assert (E2 : (q mod 3600 mod 60 = q mod 60)%Z).
  { replace 3600%Z with (60 * 60)%Z by reflexivity. rewrite Z.rem_mul_r by lia. rewrite Z.add_mod by lia. rewrite (Z.mul_comm 60 (_ mod 60)), Z.mod_mul by lia.
    rewrite Z.add_0_r, !Z.mod_mod by lia. reflexivity. }
  assert (0 <= q mod 3600 / 60 < 60)%Z by (split; [apply Z.div_pos; lia|apply Z.div_lt_upper_bound; lia]).
  assert (0 <= q / 3600)%Z by (apply Z.div_pos; lia). lia.
Qed.
Print Assumptions C115_clock_partial.

(* with a rate of fps * 1000 over any denominator (1001, or 1000) the frame is that of fps frames per second *)
Theorem C115_frames_partial x n fps : samples x n -> usual x n -> sp_num x = (1000 * fps)%Z -> (0 < fps)%Z -> (sp_rate x * 1000 * sp_num x < 2 ^ 63)%Z ->
  exists tc, xmp_timecode x = Ok tc /\ to_f tc = ((n mod sp_rate x) * fps / sp_rate x)%Z /\ (0 <= to_f tc < fps)%Z.
Proof.
  intros S U F P O. pose proof U as (R & R2 & N2 & N3). destruct (timecode_of x n S U) as (tc & E & _ & _ & _ & Fr & _). exists tc. split; [exact E|].
  pose proof (Z.mod_pos_bound n (sp_rate x) R) as B. set (k := (n mod sp_rate x)%Z) in *. set (r := sp_rate x) in *.
  assert (P2 : (0 <= k * fps)%Z) by (apply Z.mul_nonneg_nonneg; lia). assert (P3 : (k * fps < r * fps)%Z) by (apply Z.mul_lt_mono_pos_r; lia).
  rewrite F in O. assert (K : (0 <= 1000 * k * (1000 * fps) < 2 ^ 63)%Z) by (clear - P2 P3 O; lia). clearbody k r. clear S U.
  assert (T : to_f tc = (k * fps / r)%Z).
  { rewrite Fr, F. rewrite (wrap64_small (1000 * k * (1000 * fps))) by (unfold word64; clear - K; lia).
    rewrite (Z.quot_div_nonneg (1000 * k * (1000 * fps))) by (clear - K R; lia).
    assert (D : (0 <= 1000 * k * (1000 * fps) / (1000 * r) <= 1000 * k * (1000 * fps))%Z).
    { set (u := (1000 * k * (1000 * fps))%Z) in *. clearbody u. clear - K R.
      split; [apply Z.div_pos; lia|]. apply Z.div_le_upper_bound; [lia|]. rewrite <- (Z.mul_1_l u) at 1. apply Z.mul_le_mono_nonneg_r; lia. }
    rewrite (wrap64_small (1000 * k * (1000 * fps) / (1000 * r))) by (unfold word64; clear - K D; lia).
    rewrite Z.quot_div_nonneg by (clear - D; lia). rewrite Z.div_div by (clear - R; lia).
    replace (1000 * k * (1000 * fps))%Z with (k * fps * (1000 * 1000))%Z by (clear; lia). replace (1000 * r * 1000)%Z with (r * (1000 * 1000))%Z by (clear; lia).
    apply Z.div_mul_cancel_r; clear - R; lia. }
  split; [exact T|]. rewrite T. split; [apply Z.div_pos; [exact P2|exact R]|apply Z.div_lt_upper_bound; [exact R|exact P3]].
Qed.
Print Assumptions C115_frames_partial.

(* ten hours, one minute, five seconds and twelve frames of 24000/1001 at 48 kHz *)
Definition c115_x : speed := Speed 24000 1001 false 0 (36065 * 48000 + 24000) 48000.
Example C115_hyps : samples c115_x (36065 * 48000 + 24000) /\ usual c115_x (36065 * 48000 + 24000)
  /\ xmp_timecode c115_x = Ok (TcOut "23976Timecode" 10 1 5 12 false).
Proof. split; [vm_compute; repeat split; congruence|]. split; [vm_compute; repeat split; congruence|]. vm_compute. reflexivity. Qed.

(* With a whole rate such as 25/1 there is always frame 0. *)
Theorem C115_frames_refuted x n : samples x n -> usual x n -> (0 <= sp_num x <= 1000)%Z -> (sp_rate x * 1000 * 1000 < 2 ^ 63)%Z ->
  exists tc, xmp_timecode x = Ok tc /\ to_f tc = 0%Z.
Proof.
  intros S U F O. pose proof U as (R & R2 & N2 & N3). destruct (timecode_of x n S U) as (tc & E & _ & _ & _ & Fr & _). exists tc. split; [exact E|].
  pose proof (Z.mod_pos_bound n (sp_rate x) R) as B. set (k := (n mod sp_rate x)%Z) in *. set (r := sp_rate x) in *.
  assert (P2 : (0 <= k * sp_num x)%Z) by (apply Z.mul_nonneg_nonneg; lia). assert (P3 : (k * sp_num x <= k * 1000)%Z) by (apply Z.mul_le_mono_nonneg_l; lia).
  assert (0 <= 1000 * k * sp_num x < 1000 * r * 1000)%Z by lia. clear S U.
  rewrite Fr. rewrite (wrap64_small (1000 * k * sp_num x)) by (unfold word64; lia).
  rewrite (Z.quot_div_nonneg (1000 * k * sp_num x)) by lia.
  assert (0 <= 1000 * k * sp_num x / (1000 * r) < 1000)%Z by (split; [apply Z.div_pos; lia|apply Z.div_lt_upper_bound; lia]).
  rewrite wrap64_small by (unfold word64; lia). apply Z.quot_small. lia.
Qed.
Print Assumptions C115_frames_refuted.
Example C115_frames_hyps : xmp_timecode (Speed 25 1 false 0 (36065 * 48000 + 24000) 48000) = Ok (TcOut "25Timecode" 10 1 5 0 false).
Proof. vm_compute. reflexivity. Qed.

(* A file without a sample rate and with time code rate 0/1 makes the program crash. *)
Theorem C115_no_rate_refuted x : sp_rate x = 0%Z -> sp_num x = 0%Z -> sp_den x <> 0%Z -> xmp_timecode x = Panic.
Proof.
  intros R N D. unfold xmp_timecode. rewrite R, N. cbn [Z.mul]. change (wrap64 0 =? 0)%Z with true. cbv iota zeta.
  unfold rat_value. destruct (Z.eqb_spec (sp_den x) 0) as [|_]; [contradiction|]. unfold qtrunc, Qmult. cbn [Qnum Qden Z.mul].
  rewrite Z.quot_0_l by discriminate. reflexivity.
Qed.
Print Assumptions C115_no_rate_refuted.

(* ---- C116: the format ----------------------------------------------------------------------------------- *)

(* the formats of the XMP specification, with their rates and what the drop frame flag must be *)
Definition formats : list (string * Q * option bool) :=
  [("24Timecode", 24%Q, None); ("25Timecode", 25%Q, None); ("30Timecode", 30%Q, None); ("50Timecode", 50%Q, None); ("60Timecode", 60%Q, None);
   ("23976Timecode", 24000 # 1001, None); ("2997DropTimecode", 30000 # 1001, Some true); ("2997NonDropTimecode", 30000 # 1001, Some false);
   ("5994DropTimecode", 60000 # 1001, Some true); ("5994NonDropTimecode", 60000 # 1001, Some false)].

Lemma qlt_true a b : qlt a b = true <-> (a < b)%Q.
Proof.
  unfold qlt. rewrite negb_true_iff. split; intros H.
  - apply Qnot_le_lt. intros L. apply Qle_bool_iff in L. congruence.
  - apply not_true_iff_false. intros L. apply Qle_bool_iff in L. lra.
Qed.
Ltac qstep := match goal with |- context [if ?c then _ else _] => let H := fresh "Q" in destruct c eqn:H; [|clear H] end.

Lemma parse_same f r drop : (f == r)%Q -> parse_timecode_format f drop = parse_timecode_format r drop.
Proof. intros E. unfold parse_timecode_format, qlt. rewrite !E. reflexivity. Qed.

(* every rate of the specification gets its format, however the fraction is written *)
Theorem C116_exact_partial name r d f drop : In (name, r, d) formats -> name <> "5994NonDropTimecode" -> (f == r)%Q -> (d = None \/ d = Some drop) ->
  parse_timecode_format f drop = name.
Proof.
  intros I N E D. rewrite (parse_same f r drop E).
  repeat (destruct I as [I|I]; [injection I as <- <- <-; destruct D as [D|D]; try discriminate D; try injection D as <-; try contradiction;
    first [vm_compute; reflexivity|destruct drop; vm_compute; reflexivity]|]). destruct I.
Qed.
Print Assumptions C116_exact_partial.
Example C116_hyps : In ("2997DropTimecode", 30000 # 1001, Some true) formats /\ (rat_value (-60000) (-2002) == 30000 # 1001)%Q.
Proof. split; [do 6 right; now left|reflexivity]. Qed.

(* a format is given only to a rate near its own *)
Theorem C116_near f drop name : parse_timecode_format f drop = name -> name <> "" ->
  exists r d, In (name, r, d) formats /\ (Qabs (f - r) <= 21 # 1000)%Q.
Proof.
  unfold parse_timecode_format. intros <- N.
  assert (A : forall r, (r - (21 # 1000) <= f <= r + (21 # 1000))%Q -> (Qabs (f - r) <= 21 # 1000)%Q) by (intros r H; apply Qabs_Qle_condition; lra).
  revert N. repeat qstep; intros N; try congruence;
  repeat match goal with H : _ && _ = true |- _ => apply andb_true_iff in H as [? ?] end;
  repeat match goal with H : Qle_bool _ _ = true |- _ => apply Qle_bool_iff in H | H : qlt _ _ = true |- _ => apply qlt_true in H | H : Qeq_bool _ _ = true |- _ => apply Qeq_bool_iff in H end;
  first [ exists 24%Q, None; split; [do 0 right; now left|apply A; lra]
        | exists 25%Q, None; split; [do 1 right; now left|apply A; lra]
        | exists 30%Q, None; split; [do 2 right; now left|apply A; lra]
        | exists 50%Q, None; split; [do 3 right; now left|apply A; lra]
        | exists 60%Q, None; split; [do 4 right; now left|apply A; lra]
        | exists (24000 # 1001), None; split; [do 5 right; now left|apply A; lra]
        | exists (30000 # 1001), (Some true); split; [do 6 right; now left|apply A; lra]
        | exists (30000 # 1001), (Some false); split; [do 7 right; now left|apply A; lra]
        | exists (60000 # 1001), (Some true); split; [do 8 right; now left|apply A; lra] ].
Qed.
Print Assumptions C116_near.

(* 59.94 frames per second without drop frames get the drop frame format; the other one is never given. *)
Theorem C116_non_drop_refuted : parse_timecode_format (60000 # 1001) false = "5994DropTimecode"
  /\ forall f drop, parse_timecode_format f drop <> "5994NonDropTimecode".
Proof. split; [vm_compute; reflexivity|]. intros f drop. unfold parse_timecode_format. repeat qstep; discriminate. Qed.
Print Assumptions C116_non_drop_refuted.
