(** PropCsma.v -- C38, C39, C40, C42, C43: what the CSMA device decides about received frames and changes in
    frames to be sent. Vocabulary: SpecCsma.v. *)
From Verif Require Import Base BaseProofs Spec SpecFrame FrameControl Addressing SpecAddressing Frames SpecFrames FramesProofs
  Repr PhyConfig Csma SpecCsma CsmaProofs AddressingProofs AddressingProofs2.

(** ** C38 *)
(** All acknowledgements are built in one buffer, zeroed once: [acks dv ss t] builds those of [ss] one after the other. *)
Fixpoint acks (dv : Device) (ss : list N) (t : list N) : outcome (list N) :=
  match ss with [] => Done t | s :: ss => let* t := build_ack dv s t in acks dv ss t end.

Lemma acks_ok dv ss : octets ss -> forall t, length t = 128 -> ack_buffer_ok dv t ->
  exists t', acks dv ss t = Done t' /\ ack_buffer_ok dv t' /\ length t' = 128.
Proof.
  induction 1 as [|s ss HS HSS IH]; intros t HL HT; [exists t; auto|].
  cbn [acks]. destruct (build_ack dv s t) as [t1|] eqn:E; [|rewrite build_ack_ok in E by assumption; discriminate].
  destruct (build_ack_again dv s t t1 HS HT E) as [HT1 HL1]. cbn [bind]. apply IH; [congruence|exact HT1].
Qed.

Lemma zeros_window k n m : window (repeat 0%N (k + n + m)) k n = repeat 0%N n.
Proof.
  unfold window. rewrite !repeat_app, <- app_assoc. rewrite skipn_app, skipn_all2, repeat_length, Nat.sub_diag by (rewrite repeat_length; lia).
  cbn [app skipn]. rewrite firstn_app, repeat_length, Nat.sub_diag, firstn_O, app_nil_r, firstn_all2 by (rewrite repeat_length; lia). reflexivity.
Qed.

(** Whatever was acknowledged before, the ACK for [s] is the octets 02 10 s behind the device's header, and building it
    does not panic (the header must leave room for three octets in the 128-octet buffer). *)
Theorem C38_ack_octets : forall dv ss s, octets ss -> octet s -> length (dev_header dv 3) + 3 <= 128 ->
  exists t t' rest, acks dv ss (repeat 0%N 128) = Done t /\ build_ack dv s t = Done t' /\
    t' = dev_header dv 3 ++ [2; 16; s]%N ++ rest /\ length t' = 128.
Proof.
  intros dv ss s HSS HS HL.
  assert (H0 : ack_buffer_ok dv (repeat 0%N 128)).
  { split; [rewrite repeat_length; exact HL|]. left.
    replace 128 with (length (dev_header dv 3) + 3 + (125 - length (dev_header dv 3))) by lia. apply (zeros_window _ 3). }
  destruct (acks_ok dv ss HSS (repeat 0%N 128) (repeat_length _ _) H0) as (t & E & HT & HLt).
  exists t. destruct (build_ack dv s t) as [t'|] eqn:E'; [|rewrite build_ack_ok in E' by assumption; discriminate].
  destruct (build_ack_again dv s t t' HS HT E') as [_ HL'].
  rewrite build_ack_ok in E' by assumption. injection E' as <-. eexists. eexists.
  split; [exact E|]. split; [reflexivity|]. split; [reflexivity|]. rewrite HL'. exact HLt.
Qed.
Print Assumptions C38_ack_octets.

(** The octets 02 10 s are a frame of type Ack with sequence number s. *)
Theorem C38_ack_is_frame : forall s, octet s ->
  data_new [2; 16; s]%N = Done (Ok [2; 16; s]%N) /\ ack_new [2; 16; s]%N = Ok [2; 16; s]%N /\
  (exists r, acceptable [2; 16; s]%N r /\ fr_frame_type r = FtAck /\ fr_frame_version r = V2006 /\ sequence_number r [2; 16; s]%N = Some s) /\
  data_sequence_number [2; 16; s]%N = Done (Some s) /\ ack_sequence_number [2; 16; s]%N = Done s.
Proof.
  intros s HS. assert (HA := imm_ack_acceptable s HS). split; [exact (data_new_accepts _ _ HA)|].
  split; [reflexivity|]. split; [exists imm_ack_control; auto|]. split; reflexivity.
Qed.
Print Assumptions C38_ack_is_frame.

(** A received buffer is taken for the acknowledgement of [q] exactly when it holds an acceptable frame of type Ack
    with sequence number [q]; in particular a buffer holding 02 10 s is one for [s] and for no other number. *)
Theorem C38_recognised : forall dv q buf, dev_ok dv -> octets buf ->
  exists x, is_ack_for dv q buf = Done x /\
    (x = true <-> exists o b r, holds dv buf o b /\ acceptable b r /\ fr_frame_type r = FtAck /\ sequence_number r b = Some q).
Proof. exact is_ack_for_spec. Qed.
Print Assumptions C38_recognised.
Theorem C38_own_ack_recognised : forall dv buf o s q, dev_ok dv -> octets buf -> octet s -> holds dv buf o [2; 16; s]%N ->
  is_ack_for dv q buf = Done (s =? q)%N.
Proof.
  intros dv buf o s q HDV HO HS HH. destruct (is_ack_for_spec dv q buf HDV HO) as (x & -> & HX). f_equal.
  assert (HA := imm_ack_acceptable s HS).
  destruct (N.eqb_spec s q) as [->|HN].
  - apply HX. exists o, [2; 16; q]%N, imm_ack_control. auto.
  - destruct x; [|reflexivity]. destruct (proj1 HX eq_refl) as (o' & b' & r' & HH' & HA' & _ & HQ).
    destruct (holds_fun _ _ _ _ _ _ HH HH') as [_ <-]. rewrite (acceptable_fun _ _ _ HA' HA) in HQ. injection HQ as ->. contradiction.
Qed.
Print Assumptions C38_own_ack_recognised.

(** A device with a length octet, whose buffer ended up holding an ACK, recognises it. *)
Definition acked_buffer : list N := [3; 2; 16; 77]%N ++ repeat 0%N 124.
Example C38_length_device :
  dev_ok length_device /\ acks length_device [1; 2]%N (repeat 0%N 128) = Done ([3; 2; 16; 2]%N ++ repeat 0%N 124) /\
  build_ack length_device 77 ([3; 2; 16; 2]%N ++ repeat 0%N 124) = Done acked_buffer /\
  holds length_device acked_buffer 1 [2; 16; 77]%N /\
  is_ack_for length_device 77 acked_buffer = Done true /\ is_ack_for length_device 78 acked_buffer = Done false.
Proof.
  split. { intros b o n H. destruct b as [|k rest]; [discriminate|]. cbn [length_device dev_data] in H.
           destruct (N.leb_spec k (N.of_nat (length rest))); [|discriminate]. injection H as <- <-. cbn [length]. lia. }
  split; [reflexivity|]. split; [reflexivity|]. split; [exists 3; split; reflexivity|]. split; reflexivity.
Qed.

(** The device of the crate's tests shows the first 127 octets of its buffer, so an ACK has trailing zeros there. *)
Example C38_test_device :
  dev_ok test_device /\ (forall b, length b = 128 -> dev_data test_device b = Some (0, 127)) /\ (forall b, length b < 127 -> dev_data test_device b = None) /\
  acks test_device [1; 77]%N (repeat 0%N 128) = Done ([2; 16; 77]%N ++ repeat 0%N 125) /\
  holds test_device ([2; 16; 77]%N ++ repeat 0%N 125) 0 ([2; 16; 77]%N ++ repeat 0%N 124) /\
  is_ack_for test_device 77 ([2; 16; 77]%N ++ repeat 0%N 125) = Done true.
Proof.
  split. { intros b o n H. cbn [test_device dev_data] in H. destruct (Nat.ltb_spec (length b) 127); [discriminate|]. injection H as <- <-. lia. }
  split. { intros b H. cbn [test_device dev_data]. rewrite H. reflexivity. }
  split. { intros b H. cbn [test_device dev_data]. destruct (Nat.ltb_spec (length b) 127); [reflexivity|lia]. }
  split; [vm_compute; reflexivity|]. split; [exists 127; split; vm_compute; reflexivity|vm_compute; reflexivity].
Qed.

(** ** C39 *)
Theorem C39_for_us : forall P hw b r, octets b -> length hw = 8 -> acceptable b r ->
  exists x, is_package_for_us P hw b = Done x /\ (x = true <-> for_us P hw r b).
Proof. intros P hw b r. exact (for_us_spec P hw b r). Qed.
Print Assumptions C39_for_us.
(** Every frame the decision is made about is acceptable, and its destination is determined. *)
Theorem C39_hypotheses_cover : forall b, octets b -> data_new b = Done (Ok b) -> exists r, acceptable b r /\
  exists d, destination r b d /\ forall d', destination r b d' -> d' = d.
Proof.
  intros b HO E. destruct (data_new_result b HO) as [[_ (r & HA)]|[E' _]]; [|congruence].
  exists r. split; [exact HA|]. destruct (dst_view b r HA) as (d & HD & _). exists d. split; [exact HD|].
  intros d' HD'. eapply destination_fun; eassumption.
Qed.
Print Assumptions C39_hypotheses_cover.

(** The frame of the crate's tests: data, short destination ff ff, PAN abcd, from c7:d9:b5:14:00:4b:12:00 *)
Definition broadcast_frame : list N :=
  [0x41; 0xd8; 0x01; 0xcd; 0xab; 0xff; 0xff; 0xc7; 0xd9; 0xb5; 0x14; 0x00; 0x4b; 0x12; 0x00; 0x2b; 0x00; 0x00; 0x00]%N.
Definition my_address : list N := [1; 2; 3; 4; 5; 6; 7; 8]%N.
Definition pan_abcd : Params := mkParams 0 8 16 320 3 1000 1000 0xabcd false.
(** the same to the short address 07:08 (transmitted 08 07), acknowledgement requested *)
Definition unicast_frame : list N :=
  [0x61; 0xd8; 0x01; 0xcd; 0xab; 0x08; 0x07; 0xc7; 0xd9; 0xb5; 0x14; 0x00; 0x4b; 0x12; 0x00; 0x2b; 0x00; 0x00; 0x00]%N.
Example C39_examples :
  is_package_for_us pan_abcd my_address broadcast_frame = Done true /\
  is_package_for_us pan_abcd my_address unicast_frame = Done true /\
  is_package_for_us pan_abcd [1; 2; 3; 4; 5; 6; 8; 7]%N unicast_frame = Done false /\
  (* with the default PAN ID (ffff) frames of other PANs are filtered *)
  is_package_for_us default_params my_address unicast_frame = Done false.
Proof. repeat split. Qed.
Example C39_hypotheses : exists r, octets unicast_frame /\ acceptable unicast_frame r /\ for_us pan_abcd my_address r unicast_frame.
Proof.
  assert (HO : octets unicast_frame) by (repeat (constructor; [reflexivity|]); constructor).
  destruct (C39_hypotheses_cover unicast_frame HO eq_refl) as (r & HA & _). exists r. split; [exact HO|]. split; [exact HA|].
  destruct (C39_for_us pan_abcd my_address unicast_frame r HO eq_refl HA) as (x & E & HX). apply HX.
  assert (E' : is_package_for_us pan_abcd my_address unicast_frame = Done true) by reflexivity. congruence.
Qed.
(** An address that is absent (but decodable) is never for us, not even with implicit broadcast: only undecodable
    addressing counts. *)
Theorem C39_absent_destination : forall P hw b r pan, octets b -> length hw = 8 -> acceptable b r ->
  destination r b (Some (pan, AAbsent)) -> is_package_for_us P hw b = Done false.
Proof.
  intros P hw b r pan HO HW HA HD. destruct (for_us_spec P hw b r HO HW HA) as ([] & -> & H); [|reflexivity].
  destruct (proj1 H eq_refl) as [(p & a & HD' & _ & HX)|[HD' _]].
  - assert (E := destination_fun _ _ _ _ HD HD'). injection E as <- <-. destruct HX as [|[|]]; discriminate.
  - assert (E := destination_fun _ _ _ _ HD HD'). discriminate.
Qed.
Print Assumptions C39_absent_destination.

(** ** C40: the decision about a filled buffer. [Some (ack, s)]: hand the buffer to the upper layer, and acknowledge it if
    [ack] and [s] is a number. The effects (what is handed over, what is sent) are in PropTasks.v. *)
Theorem C40_decision : forall P cfg dv hw buf, dev_ok dv -> octets buf -> length hw = 8 ->
  (forall o b r, holds dv buf o b -> delivered P cfg hw r b ->
     exists ack, rx_decide P cfg dv hw buf = Done (Some (ack, sequence_number r b)) /\ (ack = true <-> ack_wanted cfg r b)) /\
  (~ (exists o b r, holds dv buf o b /\ delivered P cfg hw r b) -> rx_decide P cfg dv hw buf = Done None).
Proof.
  intros P cfg dv hw buf HDV HO HW. split.
  - intros o b r HH HD. exact (proj1 (rx_decide_accepts P cfg dv hw buf o b r HDV HO HW HH (proj1 HD)) HD).
  - intros HN. destruct (holds_cases dv buf HO) as [(o & b & r & HH & HA)|HX].
    + apply (proj2 (rx_decide_accepts P cfg dv hw buf o b r HDV HO HW HH HA)). intros HD. apply HN. exists o, b, r. auto.
    + apply rx_decide_rejects; assumption.
Qed.
Print Assumptions C40_decision.
Definition in_length_device (b : list N) : list N := N.of_nat (length b) :: b ++ repeat 0%N (127 - length b).
Example C40_examples :
  rx_decide pan_abcd config_default length_device my_address (in_length_device unicast_frame) = Done (Some (true, Some 1%N)) /\
  rx_decide pan_abcd config_default length_device my_address (in_length_device broadcast_frame) = Done (Some (false, Some 1%N)) /\
  rx_decide default_params config_default length_device my_address (in_length_device unicast_frame) = Done None /\
  rx_decide pan_abcd config_default length_device my_address (in_length_device [2; 16; 7]%N) = Done None.
Proof. repeat split. Qed.

(** ** C42 *)
(** The frame in the buffer is valid and [want] says whether an acknowledgement is to be requested: then exactly the AR
    flag is set to [want], and the sequence number is awaited iff [want] and it is present. *)
Definition C42_statement : Prop := forall cfg dv buf o b r want, dev_ok dv -> octets buf -> holds dv buf o b -> acceptable b r ->
  (want = true <-> ack_requestable cfg r b) ->
  exists buf' aw, set_ack_request_if_possible cfg dv buf = Done (TxOk aw, buf') /\
    only_ar_changed buf buf' o want /\
    match aw with Some (s, _) => want = true /\ sequence_number r b = Some s | None => want = false \/ sequence_number r b = None end.
(** False: the flag of a frame that should not be acknowledged is not cleared (a flag already set by the upper layer
    stays). Here: a broadcast data frame with AR set, default configuration. *)
Definition ar_broadcast : list N := in_length_device [0x61; 0x88; 9; 0xcd; 0xab; 0xff; 0xff; 0x02; 0x01; 5]%N.
Definition ar_control : FrameControlRepr :=
  {| fr_frame_type := FtData; fr_security_enabled := false; fr_frame_pending := false; fr_ack_request := true;
     fr_pan_id_compression := true; fr_sequence_number_suppression := false; fr_information_elements_present := false;
     fr_dst_addressing_mode := AmShort; fr_src_addressing_mode := AmShort; fr_frame_version := V2003 |}.
Lemma ar_broadcast_ok : octets ar_broadcast /\ holds length_device ar_broadcast 1 [0x61; 0x88; 9; 0xcd; 0xab; 0xff; 0xff; 0x02; 0x01; 5]%N /\
  acceptable [0x61; 0x88; 9; 0xcd; 0xab; 0xff; 0xff; 0x02; 0x01; 5]%N ar_control /\
  ~ ack_requestable config_default ar_control [0x61; 0x88; 9; 0xcd; 0xab; 0xff; 0xff; 0x02; 0x01; 5]%N.
Proof.
  split. { repeat (constructor; [reflexivity|]). constructor. }
  split. { exists 10. split; reflexivity. }
  assert (HA : acceptable [0x61; 0x88; 9; 0xcd; 0xab; 0xff; 0xff; 0x02; 0x01; 5]%N ar_control).
  { split. { eexists _, _, _. split; [reflexivity|]. split; [reflexivity|]. split; [reflexivity|]. split; reflexivity. }
    split; [unfold mhr_size; cbn; lia|]. split; [reflexivity|]. repeat split; discriminate. }
  split; [exact HA|]. intros (_ & pan & a & HD & H).
  destruct (dst_view _ _ HA) as (d & HD' & E & _). assert (X := destination_fun _ _ _ _ HD HD'). subst d.
  vm_compute in E. injection E as <-. destruct H as [[_ H]|[H _]]; [discriminate|]. apply H. reflexivity.
Qed.
Theorem C42_flag_not_cleared_refuted : ~ C42_statement.
Proof.
  intros H. destruct ar_broadcast_ok as (HO & HH & HA & HN).
  destruct (H config_default length_device ar_broadcast 1 _ ar_control false (proj1 C38_length_device) HO HH HA) as (buf' & aw & E & (_ & _ & _ & HB) & _).
  { split; [discriminate|contradiction]. }
  vm_compute in E. injection E as <- <-. specialize (HB 5%N eq_refl). vm_compute in HB. discriminate.
Qed.
Print Assumptions C42_flag_not_cleared_refuted.
(** What the code does: frames to be acknowledged get the flag, and nothing else changes; all other frames are left
    exactly as they are; the number awaited is the frame's. Missing for C42: clearing. *)
Theorem C42_ack_request_partial : forall cfg dv buf o b r, dev_ok dv -> octets buf -> holds dv buf o b -> acceptable b r ->
  (ack_requestable cfg r b -> exists buf',
     set_ack_request_if_possible cfg dv buf =
       Done (TxOk (match sequence_number r b with Some s => Some (s, N.of_nat (length b)) | None => None end), buf') /\
     only_ar_changed buf buf' o true) /\
  (~ ack_requestable cfg r b -> set_ack_request_if_possible cfg dv buf = Done (TxOk None, buf)).
Proof. exact set_ack_accepts. Qed.
Print Assumptions C42_ack_request_partial.
(** If the upper layer hands over frames without the flag, C42 holds in full. *)
Theorem C42_without_flag : forall cfg dv buf o b r want, dev_ok dv -> octets buf -> holds dv buf o b -> acceptable b r ->
  fr_ack_request r = false -> (want = true <-> ack_requestable cfg r b) ->
  exists buf' aw, set_ack_request_if_possible cfg dv buf = Done (TxOk aw, buf') /\
    only_ar_changed buf buf' o want /\
    match aw with Some (s, _) => want = true /\ sequence_number r b = Some s | None => want = false \/ sequence_number r b = None end.
Proof.
  intros cfg dv buf o b r want HDV HO HH HA HF HW.
  destruct (set_ack_accepts cfg dv buf o b r HDV HO HH HA) as [H1 H2].
  destruct (ack_requestable_dec cfg b r HA) as [HR|HR].
  - destruct (H1 HR) as (buf' & E & HC). apply HW in HR. subst want. eexists. eexists. split; [exact E|]. split; [exact HC|].
    destruct (sequence_number r b); auto.
  - assert (W : want = false) by (destruct want; [exfalso; apply HR, HW; reflexivity|reflexivity]). subst want.
    exists buf, None. split; [exact (H2 HR)|]. split; [|auto].
    destruct HH as (n & E & ->). assert (HR' := HDV _ _ _ E).
    destruct HA as ((b0 & b1 & rest & Eb & O0 & O1 & HE) & _).
    assert (N0 : nth o buf 0%N = b0).
    { rewrite (split_window buf o n HR'), app_nth2 by (rewrite firstn_length; lia). rewrite firstn_length.
      replace (o - Nat.min o (length buf)) with 0 by lia. rewrite Eb. reflexivity. }
    unfold only_ar_changed. rewrite N0. repeat split; auto.
    intros j Hj. destruct (N.eqb_spec j 5) as [->|]; [|reflexivity].
    destruct HE as [_ _ _ Hack _ _ _ _ _ _]. rewrite HF in Hack. unfold octet in *.
    rewrite !BitProofs.bit_testbit in *. rewrite <- Hack. symmetry.
    change 256%N with (2 ^ 8)%N. rewrite (N.mul_comm (2 ^ 8)), <- N.shiftl_mul_pow2.
    rewrite N.add_nocarry_lxor.
    + rewrite N.lxor_spec, N.shiftl_spec_low by lia. apply xorb_false_r.
    + apply N.bits_inj. intros i. rewrite N.land_spec, N.bits_0. destruct (N.lt_ge_cases i 8).
      * rewrite (N.shiftl_spec_low b1) by assumption. apply andb_false_r.
      * rewrite (BitProofs.testbit_high8 b0) by assumption. reflexivity.
Qed.
Print Assumptions C42_without_flag.
(** Invalid buffers are left unchanged and reported. *)
Theorem C42_invalid_reported : forall cfg dv buf, dev_ok dv -> octets buf ->
  (dev_data dv buf = None -> set_ack_request_if_possible cfg dv buf = Done (TxErr InvalidDeviceFrame, buf)) /\
  (forall o b, holds dv buf o b -> ~ (exists r, acceptable b r) ->
     set_ack_request_if_possible cfg dv buf = Done (TxErr InvalidIEEEFrame, buf)).
Proof. exact set_ack_rejects. Qed.
Print Assumptions C42_invalid_reported.
Example C42_unicast_gets_flag :
  set_ack_request_if_possible config_default length_device (in_length_device [0x41; 0x88; 9; 0xcd; 0xab; 0x07; 0x08; 0x02; 0x01; 5]%N) =
    Done (TxOk (Some (9, 10)), in_length_device [0x61; 0x88; 9; 0xcd; 0xab; 0x07; 0x08; 0x02; 0x01; 5])%N /\
  set_ack_request_if_possible config_default length_device ar_broadcast = Done (TxOk None, ar_broadcast) /\
  set_ack_request_if_possible config_default length_device (in_length_device [0x41]%N) = Done (TxErr InvalidIEEEFrame, in_length_device [0x41]%N).
Proof. repeat split. Qed.

(** ** C43 *)
(** [patch c off pan buf] (SpecCsma.v) is [buf] with the little-endian PAN ID written at [off] if [c]. The PAN IDs of the
    layout are replaced where configured and present, whatever they were; all other octets stay. *)
Theorem C43_overwrite : forall P cfg dv buf o b r, (p_pan_id P < 65536)%N -> dev_ok dv -> octets buf ->
  holds dv buf o b -> acceptable b r ->
  (forall dp sp, layout r dp sp -> mhr_size r + layout_size r dp sp <= length b ->
     overwrite_pan_id P cfg dv buf = Done (TxOk tt,
       patch (overwrite_dst_pan_id cfg && dp) (o + mhr_size r) (p_pan_id P)
       (patch (overwrite_src_pan_id cfg && sp) (o + mhr_size r + pan_size dp + addr_size (fr_dst_addressing_mode r)) (p_pan_id P) buf))) /\
  (no_addressing r b -> overwrite_pan_id P cfg dv buf = Done (TxOk tt, buf)).
Proof. exact overwrite_accepts. Qed.
Print Assumptions C43_overwrite.
Theorem C43_invalid_unchanged : forall P cfg dv buf, dev_ok dv -> octets buf ->
  (dev_data dv buf = None -> overwrite_pan_id P cfg dv buf = Done (TxErr InvalidDeviceFrame, buf)) /\
  (forall o b, holds dv buf o b -> ~ (exists r, acceptable b r) ->
     overwrite_pan_id P cfg dv buf = Done (TxErr InvalidIEEEFrame, buf)).
Proof. exact overwrite_rejects. Qed.
Print Assumptions C43_invalid_unchanged.
(** A PAN ID that is replaced: both, one octet pair each, of a frame with two PAN IDs. *)
Example C43_both :
  overwrite_pan_id pan_abcd (mkConfig true false true false Ch26 true true) length_device
    (in_length_device [0x01; 0x88; 9; 0x11; 0x22; 0x07; 0x08; 0x33; 0x44; 0x02; 0x01; 5]%N) =
    Done (TxOk tt, in_length_device [0x01; 0x88; 9; 0xcd; 0xab; 0x07; 0x08; 0xcd; 0xab; 0x02; 0x01; 5]%N).
Proof. reflexivity. Qed.
Example C43_source_only :
  overwrite_pan_id pan_abcd config_default length_device
    (in_length_device [0x01; 0x88; 9; 0x11; 0x22; 0x07; 0x08; 0x33; 0x44; 0x02; 0x01; 5]%N) =
    Done (TxOk tt, in_length_device [0x01; 0x88; 9; 0x11; 0x22; 0x07; 0x08; 0xcd; 0xab; 0x02; 0x01; 5]%N).
Proof. reflexivity. Qed.
(** The edits keep the buffer's length and stay octets, so they never make the buffer malformed. *)
Theorem C43_patch_length : forall c off pan buf, off + 2 <= length buf -> length (patch c off pan buf) = length buf.
Proof.
  intros [|] off pan buf H; [|reflexivity]. unfold patch. rewrite app_length, firstn_length. cbn [app length]. rewrite skipn_length. lia.
Qed.
Print Assumptions C43_patch_length.
