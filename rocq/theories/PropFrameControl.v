(** PropFrameControl.v -- property theorems C01-C04 (frame_control.rs, repr/frame_control.rs). *)
From Verif Require Import Base Spec SpecFrame FrameControl FrameControlProofs.

(** C01. On any buffer of at least two octets [new] succeeds and the getters return
    the unique representation [r] encoded (Figure 7-1) by the little-endian value of
    the first two octets, whatever the rest of the buffer is. *)
Theorem C01_getters : forall b0 b1 rest, octet b0 -> octet b1 ->
  fc_new (b0 :: b1 :: rest) = Ok (b0 :: b1 :: rest) /\
  exists r, fc_encodes (b0 + 256 * b1) r /\
  let b := b0 :: b1 :: rest in
  fc_frame_type b = Done (fr_frame_type r) /\
  fc_security_enabled b = Done (fr_security_enabled r) /\
  fc_frame_pending b = Done (fr_frame_pending r) /\
  fc_ack_request b = Done (fr_ack_request r) /\
  fc_pan_id_compression b = Done (fr_pan_id_compression r) /\
  fc_sequence_number_suppression b = Done (fr_sequence_number_suppression r) /\
  fc_information_elements_present b = Done (fr_information_elements_present r) /\
  fc_dst_addressing_mode b = Done (fr_dst_addressing_mode r) /\
  fc_src_addressing_mode b = Done (fr_src_addressing_mode r) /\
  fc_frame_version b = Done (fr_frame_version r).
Proof. exact c01_getters. Qed.
Print Assumptions C01_getters.

Theorem C01_short_buffer_rejected : forall b, length b < 2 -> fc_new b = Err.
Proof. exact c01_short. Qed.
Print Assumptions C01_short_buffer_rejected.

(** The encoding determines the representation, so C01_getters pins every getter. *)
Theorem C01_encoding_unique : forall v r1 r2, fc_encodes v r1 -> fc_encodes v r2 -> r1 = r2.
Proof. exact fc_encodes_unique. Qed.
Print Assumptions C01_encoding_unique.

Example C01_example :
  fc_frame_type [41; 170; 7]%N = Done FtData /\ fc_security_enabled [41; 170; 7]%N = Done true /\
  fc_frame_version [41; 170; 7]%N = Done V2020 /\ fc_dst_addressing_mode [41; 170; 7]%N = Done AmShort.
Proof. repeat split. Qed.

(** C02. Multi-bit setters. [only_bits_changed lo n b0 b1 rest b'] (SpecFrame.v):
    b' = c0 :: c1 :: rest with c0, c1 octets, and every bit outside lo..lo+n-1 of the
    16-bit control field is as before. *)
Theorem C02_set_frame_type : forall b0 b1 rest t, octet b0 -> octet b1 -> t <> FtUnknown ->
  exists b', fc_set_frame_type t (b0 :: b1 :: rest) = Done b' /\
    fc_frame_type b' = Done t /\ only_bits_changed 0 3 b0 b1 rest b'.
Proof. exact c02_type. Qed.
Print Assumptions C02_set_frame_type.

Theorem C02_set_frame_version : forall b0 b1 rest v, octet b0 -> octet b1 ->
  exists b', fc_set_frame_version v (b0 :: b1 :: rest) = Done b' /\
    fc_frame_version b' = Done v /\ only_bits_changed 12 2 b0 b1 rest b'.
Proof. exact c02_version. Qed.
Print Assumptions C02_set_frame_version.

Theorem C02_set_dst_addressing_mode : forall b0 b1 rest m, octet b0 -> octet b1 -> m <> AmUnknown ->
  exists b', fc_set_dst_addressing_mode m (b0 :: b1 :: rest) = Done b' /\
    fc_dst_addressing_mode b' = Done m /\ only_bits_changed 10 2 b0 b1 rest b'.
Proof. exact c02_dst. Qed.
Print Assumptions C02_set_dst_addressing_mode.

Theorem C02_set_src_addressing_mode : forall b0 b1 rest m, octet b0 -> octet b1 -> m <> AmUnknown ->
  exists b', fc_set_src_addressing_mode m (b0 :: b1 :: rest) = Done b' /\
    fc_src_addressing_mode b' = Done m /\ only_bits_changed 14 2 b0 b1 rest b'.
Proof. exact c02_src. Qed.
Print Assumptions C02_set_src_addressing_mode.

(** The values [Unknown] of a frame type and of an addressing mode have no code of their own: the setters keep the low bits of
    their discriminant, and so write another value, into the same bits. *)
Theorem C02_unknown : forall b0 b1 rest, octet b0 -> octet b1 ->
  (exists b', fc_set_frame_type FtUnknown (b0 :: b1 :: rest) = Done b' /\
    fc_frame_type b' = Done FtBeacon /\ only_bits_changed 0 3 b0 b1 rest b') /\
  (exists b', fc_set_dst_addressing_mode AmUnknown (b0 :: b1 :: rest) = Done b' /\
    fc_dst_addressing_mode b' = Done AmAbsent /\ only_bits_changed 10 2 b0 b1 rest b') /\
  (exists b', fc_set_src_addressing_mode AmUnknown (b0 :: b1 :: rest) = Done b' /\
    fc_src_addressing_mode b' = Done AmAbsent /\ only_bits_changed 14 2 b0 b1 rest b').
Proof.
  intros b0 b1 rest H0 H1. split; [|split].
  - apply (c02_type b0 b1 rest FtBeacon H0 H1). discriminate.
  - apply (c02_dst b0 b1 rest AmAbsent H0 H1). discriminate.
  - apply (c02_src b0 b1 rest AmAbsent H0 H1). discriminate.
Qed.
Print Assumptions C02_unknown.

Example C02_example : fc_set_frame_type FtMacCommand [255; 255; 9]%N = Done [251; 255; 9]%N.
Proof. reflexivity. Qed.

(** C03, full statement: for every flag f, value x and buffer, set then get returns x and
    nothing else changes. *)
Definition C03_statement : Prop :=
  forall f x b0 b1 rest, octet b0 -> octet b1 ->
  exists b', flag_set f x (b0 :: b1 :: rest) = Done b' /\
    flag_get f b' = Done x /\ only_bits_changed (flag_bit f) 1 b0 b1 rest b'.

(** The code violates it: the setters use [|=], so clearing never clears. *)
Theorem C03_clear_refuted : ~ C03_statement.
Proof.
  intros H. destruct (H FlAck false 33%N 216%N []) as (b' & HS & HG & _); [reflexivity|reflexivity|].
  vm_compute in HS. injection HS as <-. vm_compute in HG. discriminate.
Qed.
Print Assumptions C03_clear_refuted.

(** What holds: setting to true always works; [set_x(x)] works when the flag is currently clear. *)
Theorem C03_set_flag_partial : forall f x b0 b1 rest, octet b0 -> octet b1 ->
  (x = true \/ flag_get f (b0 :: b1 :: rest) = Done false) ->
  exists b', flag_set f x (b0 :: b1 :: rest) = Done b' /\
    flag_get f b' = Done x /\ only_bits_changed (flag_bit f) 1 b0 b1 rest b'.
Proof. exact c03_set. Qed.
Print Assumptions C03_set_flag_partial.

(** ... and set_x(false) is the identity on the buffer. *)
Theorem C03_clear_is_noop : forall f b0 b1 rest, octet b0 -> octet b1 ->
  flag_set f false (b0 :: b1 :: rest) = Done (b0 :: b1 :: rest).
Proof. exact c03_clear. Qed.
Print Assumptions C03_clear_is_noop.

Example C03_example : flag_get FlAck [1; 216]%N = Done false /\
  flag_set FlAck true [1; 216]%N = Done [33; 216]%N /\ flag_get FlAck [33; 216]%N = Done true.
Proof. repeat split. Qed.

(** C04. Representation round-trips. *)
Theorem C04_emit_parse : forall r rest, fcr_known r ->
  exists b, fcr_emit r (0%N :: 0%N :: rest) = Done b /\ octets (firstn 2 b) /\
    skipn 2 b = rest /\ fcr_parse b = Done (Ok r).
Proof. exact c04_emit_parse. Qed.
Print Assumptions C04_emit_parse.

Theorem C04_parse_emit : forall b0 b1 rest r, octet b0 -> octet b1 ->
  fcr_parse (b0 :: b1 :: rest) = Done (Ok r) -> fcr_known r ->
  fcr_emit r [0; 0]%N = Done [(b0 - 128 * N_of_bool (bit 7 b0))%N; b1].
Proof. exact c04_parse_emit. Qed.
Print Assumptions C04_parse_emit.

(** buffer_len() is the exact size: that many octets suffice, one less panics, and nothing behind them is touched. *)
Theorem C04_buffer_len : forall r b,
  (fcr_buffer_len r <= length b -> exists b', fcr_emit r b = Done b' /\ length b' = length b /\ skipn (fcr_buffer_len r) b' = skipn (fcr_buffer_len r) b) /\
  (length b < fcr_buffer_len r -> fcr_emit r b = Panic).
Proof.
  intros r b. unfold fcr_buffer_len.
  assert (U : forall f x y l, exists x' y', fc_update f (x :: y :: l) = Done (x' :: y' :: l)) by (intros; eexists; eexists; reflexivity).
  split.
  - destruct b as [|x [|y l]]; cbn [length]; [lia|lia|]. intros _. unfold fcr_emit.
    assert (S10 : exists x' y', fcr_emit r (x :: y :: l) = Done (x' :: y' :: l)).
    { unfold fcr_emit, fc_set_frame_type, fc_set_security_enabled, fc_set_frame_pending, fc_set_ack_request, fc_set_pan_id_compression,
        fc_set_sequence_number_suppression, fc_set_information_elements_present, fc_set_dst_addressing_mode, fc_set_src_addressing_mode, fc_set_frame_version.
      do 9 (match goal with |- context [fc_update ?f (?u :: ?v :: l)] => destruct (U f u v l) as (? & ? & ->) end; cbn [bind]). apply U. }
    destruct S10 as (x' & y' & E). exists (x' :: y' :: l). split; [exact E|]. split; reflexivity.
  - intros H. destruct b as [|x [|y l]]; cbn [length] in H; [reflexivity|reflexivity|lia].
Qed.
Print Assumptions C04_buffer_len.

Example C04_example : exists r, fcr_parse [65; 216]%N = Done (Ok r) /\ fcr_known r /\
  fcr_emit r [0; 0]%N = Done [65; 216]%N.
Proof. eexists; repeat split; discriminate. Qed.
