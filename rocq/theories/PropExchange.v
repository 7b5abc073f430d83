(** PropExchange.v -- C84: what two CSMA devices do to one frame. Vocabulary: SpecCsma.v, SpecExchange.v. *)
From Verif Require Import Base BaseProofs Spec SpecFrame FrameControl FrameControlProofs Addressing SpecAddressing Frames SpecFrames FramesProofs
  Repr PhyConfig Csma SpecCsma CsmaProofs AddressingProofs AddressingProofs2 PropCsma SpecExchange ExchangeProofs.

(** ** What is sent: the frame of the upper layer with its AR flag set (never cleared) and its PAN IDs replaced *)
Theorem C84_sent : forall P cfg dv buf o b r, (p_pan_id P < 65536)%N -> dev_ok dv -> steady dv -> octets buf -> holds dv buf o b -> acceptable b r ->
  exists w buf1 buf2 b' ar, set_ack_request_if_possible cfg dv buf = Done (TxOk w, buf1) /\ overwrite_pan_id P cfg dv buf1 = Done (TxOk tt, buf2) /\
    octets buf2 /\ length buf2 = length buf /\ holds dv buf2 o b' /\ acceptable b' (with_ack_request ar r) /\ sent_as P cfg r b b' /\
    (ack_requestable cfg r b -> ar = true /\ w = match sequence_number r b with Some s => Some (s, N.of_nat (length b)) | None => None end) /\
    (~ ack_requestable cfg r b -> ar = fr_ack_request r /\ w = None).
Proof. exact sent. Qed.
Print Assumptions C84_sent.

(** the destination the receiver sees *)
Lemma sent_destination P cfg r b b' ar pan a : sent_as P cfg r b b' -> destination r b (Some (pan, a)) ->
  destination (with_ack_request ar r) b' (Some (replaced (overwrite_dst_pan_id cfg) (p_pan_id P) pan, a)).
Proof.
  intros (L & _ & F & _) H. inversion H as [dp sp HL HF E1|]; subst pan a. destruct (F dp sp HL HF) as (E1 & E2 & _). rewrite <- E1, <- E2.
  rewrite <- L in HF. exact (dest_fields (with_ack_request ar r) b' dp sp HL HF).
Qed.
Lemma sent_sequence P cfg r b b' ar : sent_as P cfg r b b' -> sequence_number (with_ack_request ar r) b' = sequence_number r b.
Proof. intros (_ & E & _). unfold sequence_number. change (seq_octets (with_ack_request ar r) b') with (seq_octets r b'). rewrite E. reflexivity. Qed.

(** ** What another device does with it, in terms of the frame the sender was given: [pan] and [a] are its destination. *)
Theorem C84_received : forall PA cfgA r b b' ar PB cfgB dvB hwB bufB oB pan a,
  acceptable b r -> sent_as PA cfgA r b b' -> acceptable b' (with_ack_request ar r) -> destination r b (Some (pan, a)) ->
  dev_ok dvB -> octets bufB -> length hwB = 8 -> holds dvB bufB oB b' ->
  let arrives := ignore_not_for_us cfgB = false \/ reaches (replaced (overwrite_dst_pan_id cfgA) (p_pan_id PA) pan) a (p_pan_id PB) hwB in
  (arrives -> fr_frame_type r <> FtAck -> exists ack, rx_decide PB cfgB dvB hwB bufB = Done (Some (ack, sequence_number r b)) /\
     (ack = true <-> ack_everything cfgB = true \/ (ar = true /\ acks_class cfgB a))) /\
  (~ arrives \/ fr_frame_type r = FtAck -> rx_decide PB cfgB dvB hwB bufB = Done None).
Proof.
  intros PA cfgA r b b' ar PB cfgB dvB hwB bufB oB pan a HA HS HA' HD HDV HO HW HH. cbn zeta.
  set (pan' := replaced (overwrite_dst_pan_id cfgA) (p_pan_id PA) pan). assert (HD' := sent_destination _ _ _ _ _ ar _ _ HS HD). fold pan' in HD'.
  assert (US : for_us PB hwB (with_ack_request ar r) b' <-> reaches pan' a (p_pan_id PB) hwB).
  { split.
    - intros [(p & x & K & K1 & K2)|[K _]]; pose proof (destination_fun _ _ _ _ HD' K) as E; [|discriminate]. injection E as <- <-. split; assumption.
    - intros [K1 K2]. left. exists pan', a. auto. }
  destruct (rx_decide_accepts PB cfgB dvB hwB bufB oB b' _ HDV HO HW HH HA') as [R1 R2]. split.
  - intros H HT. destruct R1 as (ack & E & K). { split; [exact HA'|]. split; [rewrite US; exact H|exact HT]. }
    exists ack. rewrite E, (sent_sequence _ _ _ _ _ ar HS). split; [reflexivity|]. rewrite K. unfold ack_wanted. cbn [with_ack_request fr_ack_request]. split.
    + intros [Q|(Q & p & x & Q1 & Q2)]; [left; exact Q|right]. pose proof (destination_fun _ _ _ _ HD' Q1) as E'. injection E' as <- <-. split; assumption.
    + intros [Q|(Q & Q1)]; [left; exact Q|right]. split; [exact Q|]. exists pan', a. split; assumption.
  - intros H. apply R2. intros (_ & K1 & K2). destruct H as [H|H]; [apply H; rewrite <- US; exact K1|exact (K2 H)].
Qed.
Print Assumptions C84_received.

(** ** The acknowledgement: whatever the receiver acknowledged before, the frame it sends is taken by the sender for the
    acknowledgement of [s] and of no other number. *)
Lemma ack_shown dv s ss : shows_written dv -> octets ss -> octet s -> length (dev_header dv 3) + 3 <= 128 ->
  exists t t' rest, acks dv ss (repeat 0%N 128) = Done t /\ build_ack dv s t = Done t' /\
    holds dv t' (length (dev_header dv 3)) ([2; 16; s]%N ++ rest) /\ length ([2; 16; s]%N ++ rest) <= 127.
Proof.
  intros HW HSS HS HL. destruct (C38_ack_octets dv ss s HSS HS HL) as (t & t' & rest & E & E' & ET & LT). exists t, t'.
  destruct (HW 3 [2; 16; s]%N rest ltac:(lia) eq_refl) as (m & EM & HM); [rewrite <- ET; exact LT|]. rewrite <- ET in EM.
  exists (firstn (m - 3) rest). split; [exact E|]. split; [exact E'|]. split.
  - exists m. split; [exact EM|]. rewrite ET. unfold window. rewrite skipn_app, skipn_all, Nat.sub_diag. cbn [app skipn].
    destruct m as [|[|[|m]]]; try lia. cbn [firstn Nat.sub]. rewrite Nat.sub_0_r. reflexivity.
  - rewrite app_length, firstn_length. cbn [length]. lia.
Qed.
Lemma ack_acceptable s rest : octet s -> length ([2; 16; s]%N ++ rest) <= 127 -> acceptable ([2; 16; s]%N ++ rest) imm_ack_control.
Proof.
  intros HS HL. destruct (imm_ack_acceptable s HS) as (HF & HM & K). split; [apply (fc_is_app [2; 16; s]%N); [reflexivity|exact HF]|]. split; [|exact K].
  split; [|exact HL]. rewrite app_length. cbn [length]. unfold mhr_size in *. cbn in *. lia.
Qed.
Theorem C84_acknowledged : forall dvA dvB s ss, dev_ok dvA -> shows_written dvB -> octets ss -> octet s -> length (dev_header dvB 3) + 3 <= 128 ->
  exists t t' ob f, acks dvB ss (repeat 0%N 128) = Done t /\ build_ack dvB s t = Done t' /\ holds dvB t' ob f /\
    forall bufA oA q, octets bufA -> holds dvA bufA oA f -> is_ack_for dvA q bufA = Done (s =? q)%N.
Proof.
  intros dvA dvB s ss HDV HW HSS HS HL. destruct (ack_shown dvB s ss HW HSS HS HL) as (t & t' & rest & E & E' & HH & HL').
  exists t, t', (length (dev_header dvB 3)), ([2; 16; s]%N ++ rest). split; [exact E|]. split; [exact E'|]. split; [exact HH|].
  intros bufA oA q HO HHA. destruct (is_ack_for_spec dvA q bufA HDV HO) as (x & -> & HX). f_equal.
  assert (HA := ack_acceptable s rest HS HL'). destruct (N.eqb_spec s q) as [->|HN].
  - apply HX. exists oA, ([2; 16; q]%N ++ rest), imm_ack_control. split; [exact HHA|]. split; [exact HA|]. split; reflexivity.
  - destruct x; [|reflexivity]. destruct (proj1 HX eq_refl) as (o' & b' & r' & HH' & HA' & _ & HQ).
    destruct (holds_fun _ _ _ _ _ _ HHA HH') as [_ <-]. rewrite (acceptable_fun _ _ _ HA' HA) in HQ. injection HQ as ->. contradiction.
Qed.
Print Assumptions C84_acknowledged.

(** ** The whole exchange: a data frame or MAC command to device B, with a sequence number, both configured to acknowledge such
    frames: A waits for the acknowledgement of [s], B hands the frame to its upper layer and acknowledges [s], and what B sends is
    what A waits for; any other device drops it. *)
Theorem C84_exchange : forall PA cfgA dvA bufA oA b r pan a s PB cfgB dvB hwB,
  (p_pan_id PA < 65536)%N -> dev_ok dvA -> steady dvA -> octets bufA -> holds dvA bufA oA b -> acceptable b r ->
  dev_ok dvB -> shows_written dvB -> length (dev_header dvB 3) + 3 <= 128 -> length hwB = 8 ->
  fr_frame_type r = FtData \/ fr_frame_type r = FtMacCommand -> sequence_number r b = Some s ->
  destination r b (Some (pan, a)) -> reaches (replaced (overwrite_dst_pan_id cfgA) (p_pan_id PA) pan) a (p_pan_id PB) hwB ->
  acks_class cfgA a -> acks_class cfgB a ->
  exists len buf1 buf2 b',
    set_ack_request_if_possible cfgA dvA bufA = Done (TxOk (Some (s, len)), buf1) /\ overwrite_pan_id PA cfgA dvA buf1 = Done (TxOk tt, buf2) /\
    holds dvA buf2 oA b' /\ sent_as PA cfgA r b b' /\
    (forall bufB oB, octets bufB -> holds dvB bufB oB b' -> rx_decide PB cfgB dvB hwB bufB = Done (Some (true, Some s))) /\
    (forall ss, octets ss -> exists t t' ob f, acks dvB ss (repeat 0%N 128) = Done t /\ build_ack dvB s t = Done t' /\ holds dvB t' ob f /\
       forall bufA' oA' q, octets bufA' -> holds dvA bufA' oA' f -> is_ack_for dvA q bufA' = Done (s =? q)%N) /\
    (forall PC cfgC dvC hwC bufC oC, dev_ok dvC -> octets bufC -> length hwC = 8 -> holds dvC bufC oC b' -> ignore_not_for_us cfgC = true ->
       ~ reaches (replaced (overwrite_dst_pan_id cfgA) (p_pan_id PA) pan) a (p_pan_id PC) hwC -> rx_decide PC cfgC dvC hwC bufC = Done None).
Proof.
  intros PA cfgA dvA bufA oA b r pan a s PB cfgB dvB hwB HPAN HDA HST HOA HHA HA HDB HSW HHL HWB HT HSN HD HR HCA HCB.
  destruct (sent PA cfgA dvA bufA oA b r HPAN HDA HST HOA HHA HA) as (w & buf1 & buf2 & b' & ar & E1 & E2 & HO2 & L2 & HH2 & HA2 & HS2 & HY & _).
  destruct HY as [-> ->]. { split; [exact HT|]. exists pan, a. split; [exact HD|exact HCA]. }
  rewrite HSN in E1. exists (N.of_nat (length b)), buf1, buf2, b'. split; [exact E1|]. split; [exact E2|]. split; [exact HH2|]. split; [exact HS2|].
  assert (OS : octet s).
  { assert (HOb : octets b) by (destruct HHA as (n & _ & ->); apply window_octets, HOA). unfold sequence_number, seq_octets in HSN.
    destruct (fr_sequence_number_suppression r); [discriminate|]. apply nth_error_In in HSN.
    assert (K : octets (firstn 1 (skipn 2 b))) by apply octets_firstn, octets_skipn, HOb. unfold octets in K. rewrite Forall_forall in K. exact (K _ HSN). }
  assert (NA : fr_frame_type r <> FtAck) by (destruct HT as [-> | ->]; discriminate).
  split; [|split].
  - intros bufB oB HOB HHB. destruct (C84_received PA cfgA r b b' true PB cfgB dvB hwB bufB oB pan a HA HS2 HA2 HD HDB HOB HWB HHB) as [K _].
    destruct (K (or_intror HR) NA) as (ack & E & Q). rewrite E, HSN. destruct ack; [reflexivity|]. exfalso. assert (F : false = true) by (apply Q; right; split; [reflexivity|exact HCB]). discriminate.
  - intros ss HSS. exact (C84_acknowledged dvA dvB s ss HDA HSW HSS OS HHL).
  - intros PC cfgC dvC hwC bufC oC HDC HOC HWC HHC HI HN. apply (C84_received PA cfgA r b b' true PC cfgC dvC hwC bufC oC pan a HA HS2 HA2 HD HDC HOC HWC HHC).
    left. intros [K|K]; [congruence|contradiction].
Qed.
Print Assumptions C84_exchange.

(** ** The two device formats of Csma.v meet the hypotheses *)
Lemma length_device_ok : dev_ok length_device /\ steady length_device /\ shows_written length_device.
Proof.
  split; [apply C38_length_device|]. split.
  - intros buf buf' o n E L F _. destruct buf as [|k rest]; [discriminate|]. cbn [length_device dev_data] in E.
    destruct (N.leb_spec k (N.of_nat (length rest))) as [K|K]; [|discriminate]. injection E as <- <-. destruct buf' as [|k' rest']; [discriminate|].
    cbn [firstn] in F. injection F as ->. cbn [length_device dev_data]. injection L as ->. apply N.leb_le in K. rewrite K. reflexivity.
  - intros n w rest Hn L LT. cbn [length_device dev_header] in *. cbn [app length] in *. rewrite app_length in LT. exists n. cbn [length_device dev_data].
    rewrite app_length, Nat2N.id. destruct (N.leb_spec (N.of_nat n) (N.of_nat (length w + length rest))); [split; [reflexivity|lia]|lia].
Qed.
Lemma test_device_ok : dev_ok test_device /\ steady test_device /\ shows_written test_device.
Proof.
  split; [apply C38_test_device|]. split.
  - intros buf buf' o n E L _ _. cbn [test_device dev_data] in *. rewrite L. exact E.
  - intros n w rest Hn L LT. cbn [test_device dev_header dev_data app length] in *. rewrite LT. exists 127. split; [reflexivity|lia].
Qed.
(** [length_device] devices A (address 01..08) and B (address 11 .. 18, PAN abcd): A sends a data frame with PAN ID 2211 to B's
    short address 1718, with the destination PAN ID overwritten. *)
Definition exchange_config : CsmaConfig := mkConfig true false true false Ch26 true true.
Definition to_b : list N := [0x41; 0x88; 9; 0x11; 0x22; 0x18; 0x17; 0x02; 0x01; 5]%N.
Definition address_b : list N := [0x11; 0x12; 0x13; 0x14; 0x15; 0x16; 0x17; 0x18]%N.
Example C84_hypotheses : exists r, holds length_device (in_length_device to_b) 1%nat to_b /\ acceptable to_b r /\ fr_frame_type r = FtData /\ sequence_number r to_b = Some 9%N /\
  destination r to_b (Some (Some 0x2211%N, AShort [0x17; 0x18]%N)) /\
  reaches (replaced (overwrite_dst_pan_id exchange_config) (p_pan_id pan_abcd) (Some 0x2211%N)) (AShort [0x17; 0x18]%N) (p_pan_id pan_abcd) address_b /\
  acks_class exchange_config (AShort [0x17; 0x18]%N).
Proof.
  assert (HO : octets to_b) by (repeat (constructor; [reflexivity|]); constructor).
  exists (fcr_of 0x8841). assert (HA : acceptable to_b (fcr_of 0x8841)).
  { destruct (C39_hypotheses_cover to_b HO eq_refl) as (r & HA & _). destruct HA as (HF & HA). destruct HF as (x & y & l & E & Ox & Oy & HE). injection E as <- <- <-.
    change (fcr_of 0x8841) with (fcr_of (0x41 + 256 * 0x88)). rewrite <- (fc_encodes_unique _ _ _ HE (fcr_of_encodes _)). split; [exists 0x41%N, 0x88%N, (skipn 2 to_b); repeat split; (exact Ox || exact Oy || exact HE || apply HE)|exact HA]. }
  split; [exists 10; split; reflexivity|]. split; [exact HA|]. split; [reflexivity|]. split; [reflexivity|]. split.
  - destruct (dst_view to_b _ HA) as (d & HD & EA & EP). destruct d as [[p x]|]; [|vm_compute in EA; discriminate]. vm_compute in EA, EP. injection EA as <-. injection EP as <-. exact HD.
  - split; [split; [right; right; reflexivity|right; left; reflexivity]|]. right. split; [discriminate|reflexivity].
Qed.
Example C84_run :
  set_ack_request_if_possible exchange_config length_device (in_length_device to_b) =
    Done (TxOk (Some (9, 10)%N), in_length_device [0x61; 0x88; 9; 0x11; 0x22; 0x18; 0x17; 0x02; 0x01; 5]%N) /\
  overwrite_pan_id pan_abcd exchange_config length_device (in_length_device [0x61; 0x88; 9; 0x11; 0x22; 0x18; 0x17; 0x02; 0x01; 5]%N) =
    Done (TxOk tt, in_length_device [0x61; 0x88; 9; 0xcd; 0xab; 0x18; 0x17; 0x02; 0x01; 5]%N) /\
  rx_decide pan_abcd exchange_config length_device address_b (in_length_device [0x61; 0x88; 9; 0xcd; 0xab; 0x18; 0x17; 0x02; 0x01; 5]%N) = Done (Some (true, Some 9%N)) /\
  rx_decide pan_abcd exchange_config length_device my_address (in_length_device [0x61; 0x88; 9; 0xcd; 0xab; 0x18; 0x17; 0x02; 0x01; 5]%N) = Done None.
Proof. repeat split. Qed.
