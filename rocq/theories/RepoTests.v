(** RepoTests.v -- the unit tests of dot15d4-frame and dot15d4-cat, replayed on the model. These are tests of the model, not
    proofs of properties: they show that the model computes what the project itself asserts of the code. Each Example cites its
    test and states the assertions of that test in its order. [tests] of dot15d4 (the MAC): RepoTestsMac.v. *)
From Coq Require Import String Ascii.
From Verif Require Import Base FrameControl Addressing AddressText Time Ie IeContent ReprIe Frames Repr Macro Beacon Fcs Display Cat CatText.
Open Scope string_scope.
Open Scope list_scope.
Open Scope N_scope.

Ltac run := intros; repeat split; vm_compute; reflexivity.

(** ** dot15d4-frame/src/tests/mod.rs: emission *)
(** [buffer_len], a zeroed buffer of this length, [emit] *)
Definition emitted (r : result FrameRepr) : outcome (list N) :=
  let* f := unwrap (ok r) in let* n := frame_buffer_len f in frame_emit f (repeat 0 n).
(** 49-57 *)
Example emit_imm_ack : emitted (b_finalize (new_imm_ack 1)) = Done [0x02; 0x10; 0x01].
Proof. run. Qed.
(** 59-86 *)
Example emit_ack_frame :
  (let* f := b_add_header (HTimeCorrection (-31) true)
     (b_set_dst_address (AExtended [0; 2; 0; 2; 0; 2; 0; 2]) (b_set_dst_pan_id 0xabcd (b_set_sequence_number 55 new_ack))) in
   emitted (b_finalize f)) = Done [0x02; 0x2e; 0x37; 0xcd; 0xab; 0x02; 0x00; 0x02; 0x00; 0x02; 0x00; 0x02; 0x00; 0x02; 0x0f; 0xe1; 0x8f].
Proof. run. Qed.
(** 88-112 *)
Example emit_data_frame :
  emitted (b_finalize (b_set_src_address (AExtended [0x00; 0x12; 0x4b; 0x00; 0x14; 0xb5; 0xd9; 0xc7]) (b_set_src_pan_id 0xabcd
    (b_set_dst_address ABroadcast (b_set_dst_pan_id 0xabcd (b_set_sequence_number 1 (new_data [0x2b; 0x00; 0x00; 0x00]))))))) =
  Done [0x41; 0xd8; 0x01; 0xcd; 0xab; 0xff; 0xff; 0xc7; 0xd9; 0xb5; 0x14; 0x00; 0x4b; 0x12; 0x00; 0x2b; 0x00; 0x00; 0x00].
Proof. run. Qed.
(** 114-197; link options are the bits of the bitflags type: Tx = 1, Rx = 2, Shared = 4 *)
Example emit_enhanced_beacon :
  emitted (Ok (mkFrame (mkFcRepr FtBeacon false false false true true true AmShort AmExtended V2020) None
    (Some (mkAfRepr (Some 0xabcd) (Some ABroadcast) None (Some (AExtended [0; 1; 0; 1; 0; 1; 0; 1]))))
    (Some (mkIes [] [PMlme [NTschSync 17 0; NTimeslotCustom (timings_new 1 2200); NChannelHopping 0;
       NSlotframes [mkSfR 0 17 [mkLinkR 0 1 (2 + 4); mkLinkR 1 2 (1 + 2 + 4)]]]])) None)) =
  Done [0x40; 0xeb; 0xcd; 0xab; 0xff; 0xff; 0x01; 0x00; 0x01; 0x00; 0x01; 0x00; 0x01; 0x00; 0x00; 0x3f; 0x37; 0x88; 0x06; 0x1a; 0x11; 0x00; 0x00; 0x00; 0x00; 0x00; 0x19; 0x1c; 0x01; 0x08; 0x07; 0x80; 0x00; 0x48; 0x08; 0xfc; 0x03; 0x20; 0x03; 0xe8; 0x03; 0x98; 0x08; 0x90; 0x01; 0xc0; 0x00; 0x60; 0x09; 0xa0; 0x10; 0x10; 0x27; 0x01; 0xc8; 0x00; 0x0f; 0x1b; 0x01; 0x00; 0x11; 0x00; 0x02; 0x00; 0x00; 0x01; 0x00; 0x06; 0x01; 0x00; 0x02; 0x00; 0x07].
Proof. run. Qed.
(** 202-219: this emission does not panic (the test prints the octets) *)
Example issue29 : exists b,
  emitted (b_finalize (b_set_src_address (AExtended [0x00; 0x12; 0x4b; 0x00; 0x14; 0xb5; 0xd9; 0xc7]) (b_set_src_pan_id 0xabcd
    (b_set_dst_address (AShort [0x02; 0x04]) (b_set_dst_pan_id 0xabce (b_set_sequence_number 1 (new_data [0x2b; 0x00; 0x00; 0x00]))))))) = Done b.
Proof. eexists. vm_compute. reflexivity. Qed.

(** ** dot15d4-frame/src/tests/parsing *)
(** ack.rs:6-23 *)
Example parse_imm_ack : let b := [0x02; 0x10; 0x01] in ack_new b = Ok b /\ exists fc, ack_frame_control b = Done fc /\
  fc_frame_type fc = Done FtAck /\
  fc_security_enabled fc = Done false /\
  fc_frame_pending fc = Done false /\
  fc_ack_request fc = Done false /\
  fc_pan_id_compression fc = Done false /\
  fc_sequence_number_suppression fc = Done false /\
  fc_information_elements_present fc = Done false /\
  fc_dst_addressing_mode fc = Done AmAbsent /\
  fc_frame_version fc = Done V2006 /\
  fc_src_addressing_mode fc = Done AmAbsent /\
  ack_sequence_number b = Done 1.
Proof. intros b. split; [reflexivity|]. eexists. run. Qed.
(** ack.rs:26-72 *)
Example parse_enhanced_ack : let b := [0x02; 0x2e; 0x37; 0xcd; 0xab; 0x02; 0x00; 0x02; 0x00; 0x02; 0x00; 0x02; 0x00; 0x02; 0x0f; 0xe1; 0x8f] in ea_new b = Ok b /\ exists fc af i, ea_frame_control b = Done fc /\
  fc_frame_type fc = Done FtAck /\
  fc_security_enabled fc = Done false /\
  fc_frame_pending fc = Done false /\
  fc_ack_request fc = Done false /\
  fc_pan_id_compression fc = Done false /\
  fc_sequence_number_suppression fc = Done false /\
  fc_information_elements_present fc = Done true /\
  fc_dst_addressing_mode fc = Done AmExtended /\
  fc_frame_version fc = Done V2020 /\
  fc_src_addressing_mode fc = Done AmAbsent /\
  ea_sequence_number b = Done (Some 55) /\ ea_addressing b = Done (Some af) /\
  af_dst_pan_id af = Done (Some 0xabcd) /\ af_dst_address af = Done (Some (AExtended [0; 2; 0; 2; 0; 2; 0; 2])) /\
  af_src_pan_id af = Done None /\ af_src_address af = Done (Some AAbsent) /\ ea_aux b = Done None /\
  ea_ies b = Done (Some i) /\ exists e st c, hie_next (ies_header_iter i) = Done (Some e, st) /\ hie_element_id e = Done HeTimeCorrection /\
    hie_content e = Done c /\ tc_new c = Ok c /\ length c = 2%nat /\ tc_time_correction c = Done (-31)%Z /\ tc_nack c = Done true.
Proof. intros b. split; [reflexivity|]. do 3 eexists. repeat (split; [vm_compute; reflexivity|]). do 3 eexists. run. Qed.
(** data.rs:4-30 *)
Example parse_data_frame : let b := [0x41; 0xd8; 0x01; 0xcd; 0xab; 0xff; 0xff; 0xc7; 0xd9; 0xb5; 0x14; 0x00; 0x4b; 0x12; 0x00; 0x2b; 0x00; 0x00; 0x00] in data_new b = Done (Ok b) /\ exists fc af, data_frame_control b = Done fc /\
  fc_frame_type fc = Done FtData /\
  fc_security_enabled fc = Done false /\
  fc_frame_pending fc = Done false /\
  fc_ack_request fc = Done false /\
  fc_pan_id_compression fc = Done true /\
  fc_sequence_number_suppression fc = Done false /\
  fc_information_elements_present fc = Done false /\
  fc_dst_addressing_mode fc = Done AmShort /\
  fc_frame_version fc = Done V2006 /\
  fc_src_addressing_mode fc = Done AmExtended /\
  data_sequence_number b = Done (Some 1) /\ data_addressing b = Done (Some af) /\
  af_dst_pan_id af = Done (Some 0xabcd) /\ af_dst_address af = Done (Some ABroadcast) /\
  af_src_pan_id af = Done None /\ af_src_address af = Done (Some (AExtended [0x00; 0x12; 0x4b; 0x00; 0x14; 0xb5; 0xd9; 0xc7])) /\
  data_ies b = Done None /\ data_payload b = Done (Some [0x2b; 0x00; 0x00; 0x00]).
Proof. intros b. split; [reflexivity|]. do 2 eexists. run. Qed.
(** beacon.rs:6-18; orders: 15 is OnDemand / Inactive *)
Example superframe_specification : let b := [0xff; 0x0f] in rec_new SuperframeSpecification b = Ok b /\
  beacon_order b = Done None /\ superframe_order b = Done None /\ get SuperframeSpecification 2 b = Done (VNum 0x0f) /\
  get SuperframeSpecification 3 b = Done (VBool false) /\ get SuperframeSpecification 5 b = Done (VBool false) /\
  get SuperframeSpecification 6 b = Done (VBool false).
Proof. run. Qed.
(** beacon.rs:21-66; true is GtsDirection::Transmit *)
Example gts_specification :
  (let b := [0] in rec_new GtsSpecification b = Ok b /\ get GtsSpecification 2 b = Done (VBool false) /\ gts_count b = Done 0%nat) /\
  (let b := [0x80] in rec_new GtsSpecification b = Ok b /\ get GtsSpecification 2 b = Done (VBool true) /\ gts_count b = Done 0%nat /\ gts_slots b = Done []) /\
  (let b := [0x82; 0x01; 0x34; 0x12; 0x11; 0x78; 0x56; 0x14] in rec_new GtsSpecification b = Ok b /\
   get GtsSpecification 2 b = Done (VBool true) /\ gts_count b = Done 2%nat /\
   exists s0 d0 s1 d1, gts_slots b = Done [(s0, d0); (s1, d1)] /\
     slot_short_address s0 = Done (AShort [0x34; 0x12]) /\ slot_starting_slot s0 = Done 1 /\ slot_length s0 = Done 1 /\
     slot_short_address s1 = Done (AShort [0x78; 0x56]) /\ slot_starting_slot s1 = Done 4 /\ slot_length s1 = Done 1 /\ d0 = true /\ d1 = false).
Proof.
  split; [run|]. split; [run|]. intros b. split; [reflexivity|]. split; [reflexivity|]. split; [reflexivity|].
  do 4 eexists. repeat (split; [vm_compute; reflexivity|]). vm_compute. reflexivity.
Qed.
(** beacon.rs:69-80 *)
Example gts_slot : let b := [0xab; 0xcd; 0x5a] in rec_new GtsSlot b = Ok b /\
  slot_short_address b = Done (AShort [0xab; 0xcd]) /\ slot_starting_slot b = Done 10 /\ slot_length b = Done 5.
Proof. run. Qed.
(** beacon.rs:83-190 *)
Example parse_enhanced_beacon : let b := [0x40; 0xeb; 0xcd; 0xab; 0xff; 0xff; 0x01; 0x00; 0x01; 0x00; 0x01; 0x00; 0x01; 0x00; 0x00; 0x3f; 0x11; 0x88; 0x06; 0x1a; 0x0e; 0x00; 0x00; 0x00; 0x00; 0x00; 0x01; 0x1c; 0x00; 0x01; 0xc8; 0x00; 0x01; 0x1b; 0x00] in eb_new b = Done (Ok b) /\ exists fc af i, eb_frame_control b = Done fc /\
  fc_frame_type fc = Done FtBeacon /\
  fc_security_enabled fc = Done false /\
  fc_frame_pending fc = Done false /\
  fc_ack_request fc = Done false /\
  fc_pan_id_compression fc = Done true /\
  fc_sequence_number_suppression fc = Done true /\
  fc_information_elements_present fc = Done true /\
  fc_dst_addressing_mode fc = Done AmShort /\
  fc_frame_version fc = Done V2020 /\
  fc_src_addressing_mode fc = Done AmExtended /\
  eb_sequence_number b = Done None /\ eb_addressing b = Done (Some af) /\
  af_dst_pan_id af = Done (Some 0xabcd) /\ af_dst_address af = Done (Some ABroadcast) /\
  af_src_pan_id af = Done None /\ af_src_address af = Done (Some (AExtended [0; 1; 0; 1; 0; 1; 0; 1])) /\
  eb_ies b = Done (Some i) /\
  (exists t st, ies_headers i = Done ([t], st) /\ hie_element_id t = Done HeTermination1 /\ hie_len t = Done 0%nat) /\
  (exists m st mc, ies_payloads i = Done ([m], st) /\ pie_group_id m = Done PgMlme /\ pie_length m = Done 17%nat /\ pie_content m = Done mc /\
   exists n1 n2 n3 n4 c1 c2 c3 c4, pie_nested m = Done [n1; n2; n3; n4] /\
     nie_sub_id n1 = Done (SubShort NsTschSynchronization) /\ nie_content n1 = Done c1 /\ sync_new c1 = Ok c1 /\
     sync_asn c1 = Done 14 /\ sync_join_metric c1 = Done 0 /\
     nie_sub_id n2 = Done (SubShort NsTschTimeslot) /\ nie_content n2 = Done c2 /\ ts_new c2 = Done (Ok c2) /\ ts_id c2 = Done 0 /\
     nie_sub_id n3 = Done (SubLong NlChannelHopping) /\ nie_content n3 = Done c3 /\ ch_new c3 = Ok c3 /\ ch_id c3 = Done 0 /\
     nie_sub_id n4 = Done (SubShort NsTschSlotframeAndLink) /\ nie_content n4 = Done c4 /\ sl_new c4 = Done (Ok c4) /\ sl_number c4 = Done 0) /\
  eb_payload b = Done None.
Proof.
  intros b. split; [reflexivity|]. do 3 eexists. repeat (split; [vm_compute; reflexivity|]). split; [do 2 eexists; run|]. split; [|reflexivity].
  do 3 eexists. repeat (split; [vm_compute; reflexivity|]). do 8 eexists. run.
Qed.

(** ** dot15d4-frame/src/frames/mod.rs *)
(** 278-296 *)
Definition parsed (s : string) : outcome (result Frame) := let* b := unwrap (ok (hex_decode (txt s))) in frame_new b.
Example high_level_parsing :
  (exists b, parsed "021001" = Done (Ok (FAck b))) /\
  (exists b, parsed "022e37cdab02000200020002000200020fe18f" = Done (Ok (FEnhancedAck b))) /\
  (exists b, parsed "40ebcdabffff0100010001000100003f1188061a0e0000000000011c0001c800011b00" = Done (Ok (FEnhancedBeacon b))) /\
  (exists b, parsed "41d801cdabffffc7d9b514004b12002b000000" = Done (Ok (FData b))).
Proof. repeat split; eexists; vm_compute; reflexivity. Qed.
(** 298-325 *)
Example fcs :
  (let b := [0x40; 0xeb; 0xcd; 0xab; 0xff; 0xff; 0x01; 0x00; 0x01; 0x00; 0x01; 0x00; 0x01; 0x00; 0x00; 0x3f; 0x32; 0x88; 0x06; 0x1a; 0x11; 0x00; 0x00; 0x00; 0x00; 0x00; 0x19; 0x1c; 0x01; 0x08; 0x07; 0x80; 0x00; 0x48; 0x08; 0xfc; 0x03; 0x20; 0x03; 0xe8; 0x03; 0x98; 0x08; 0x90; 0x01; 0xc0; 0x00; 0x60; 0x09; 0xa0; 0x10; 0x10; 0x27; 0x01; 0xc8; 0x00; 0x0a; 0x1b; 0x01; 0x00; 0x11; 0x00; 0x01; 0x00; 0x00; 0x00; 0x00; 0x07; 0x12; 0x16]%N in fcs_new b = Done (Ok b)) /\
  (let b := [0x41; 0xe9; 0xcd; 0xab; 0xff; 0xff; 0x01; 0x00; 0x01; 0x00; 0x01; 0x00; 0x01; 0x00; 0x7a; 0x3b; 0x3a; 0x1a; 0x9b; 0x01; 0x01; 0x21; 0x00; 0xf0; 0x00; 0x80; 0x08; 0xf0; 0x00; 0x00; 0xfd; 0x00; 0x00; 0x00; 0x00; 0x00; 0x00; 0x00; 0x02; 0x01; 0x00; 0x01; 0x00; 0x01; 0x00; 0x01; 0x04; 0x0e; 0x00; 0x08; 0x0c; 0x00; 0x04; 0x00; 0x00; 0x80; 0x00; 0x01; 0x00; 0x1e; 0x00; 0x3c; 0x08; 0x1e; 0x40; 0x40; 0xff; 0xff; 0xff; 0xff; 0xff; 0xff; 0xff; 0xff; 0x00; 0x00; 0x00; 0x00; 0xfd; 0x00; 0x00; 0x00; 0x00; 0x00; 0x00; 0x00; 0x00; 0x00; 0x00; 0x00; 0x00; 0x00; 0x00; 0x00; 0x18; 0xbc]%N in fcs_new b = Done (Ok b)) /\
  (let b := [0x02; 0x2e; 0x8d; 0xcd; 0xab; 0x02; 0x00; 0x02; 0x00; 0x02; 0x00; 0x02; 0x00; 0x02; 0x0f; 0x00; 0x00; 0x7d; 0xd4]%N in fcs_new b = Done (Ok b)).
Proof. run. Qed.

(** ** dot15d4-frame/src/addressing.rs *)
(** 507-524 *)
Example address_type :
  (is_absent AAbsent = true /\ is_short AAbsent = false /\ is_extended AAbsent = false) /\
  (let a := AShort [0xff; 0xff] in is_absent a = false /\ is_short a = true /\ is_extended a = false) /\
  (let a := AExtended (repeat 0xff 8) in is_absent a = false /\ is_short a = false /\ is_extended a = true) /\
  address_len AAbsent = 0%nat /\ address_len (AShort [0xff; 0xff]) = 2%nat /\ address_len (AExtended (repeat 0xff 8)) = 8%nat.
Proof. run. Qed.
(** 526-537 *)
Example addressing_mode :
  AddressingMode_from 0 = AmAbsent /\ AddressingMode_from 2 = AmShort /\ AddressingMode_from 3 = AmExtended /\ AddressingMode_from 1 = AmUnknown /\
  AddressingMode_size AmUnknown = 0%nat /\ AddressingMode_size AmAbsent = 0%nat /\ AddressingMode_size AmShort = 2%nat /\ AddressingMode_size AmExtended = 8%nat.
Proof. run. Qed.
(** 539-548 *)
Example broadcast_test :
  is_broadcast ABroadcast = true /\ is_broadcast (AShort [0xff; 0xff]) = true /\ is_broadcast (AShort [0xff; 0xfe]) = false /\
  is_unicast ABroadcast = false /\ is_unicast (AShort [0xff; 0xff]) = false /\ is_unicast (AShort [0xff; 0xfe]) = true.
Proof. run. Qed.
(** 550-558 *)
Example as_bytes_test :
  as_bytes ABroadcast = [0xff; 0xff] /\ as_bytes (AShort [0xff; 0xff]) = [0xff; 0xff] /\ as_bytes (AShort [0xff; 0xfe]) = [0xff; 0xfe] /\
  as_bytes (AExtended (repeat 0xff 8)) = repeat 0xff 8 /\ as_bytes (AExtended (repeat 0x01 8)) = repeat 0x01 8 /\ as_bytes AAbsent = [].
Proof. run. Qed.
(** 560-573; the last one should panic *)
Example from_bytes :
  address_from [0xff; 0xff] = Done (AShort [0xff; 0xff]) /\ address_from [0xff; 0xfe] = Done (AShort [0xff; 0xfe]) /\
  address_from (repeat 0xff 8) = Done (AExtended (repeat 0xff 8)) /\ address_from (repeat 0x01 8) = Done (AExtended (repeat 0x01 8)) /\
  address_from [] = Done AAbsent /\ address_from [0xff; 0xff; 0xff] = Panic.
Proof. run. Qed.
(** 575-650 *)
Example address_present_flags_test :
  address_present_flags V2003 AmShort AmShort false = Some (true, AmShort, true, AmShort) /\
  address_present_flags V2003 AmShort AmShort true = Some (true, AmShort, false, AmShort) /\
  address_present_flags V2003 AmExtended AmExtended false = Some (true, AmExtended, true, AmExtended) /\
  address_present_flags V2003 AmExtended AmExtended true = Some (true, AmExtended, false, AmExtended) /\
  address_present_flags V2003 AmShort AmExtended false = Some (true, AmShort, true, AmExtended) /\
  address_present_flags V2003 AmShort AmExtended true = Some (true, AmShort, false, AmExtended) /\
  address_present_flags V2003 AmExtended AmShort false = Some (true, AmExtended, true, AmShort) /\
  address_present_flags V2003 AmExtended AmShort true = Some (true, AmExtended, false, AmShort) /\
  address_present_flags V2003 AmAbsent AmShort false = Some (false, AmAbsent, true, AmShort) /\
  address_present_flags V2003 AmAbsent AmExtended false = Some (false, AmAbsent, true, AmExtended) /\
  address_present_flags V2003 AmShort AmAbsent false = Some (true, AmShort, false, AmAbsent) /\
  address_present_flags V2003 AmExtended AmAbsent false = Some (true, AmExtended, false, AmAbsent) /\
  address_present_flags V2003 AmAbsent AmShort true = None /\
  address_present_flags V2003 AmAbsent AmExtended true = None /\
  address_present_flags V2003 AmShort AmAbsent true = None /\
  address_present_flags V2003 AmExtended AmAbsent true = None /\
  address_present_flags V2003 AmAbsent AmAbsent false = None /\
  address_present_flags V2003 AmAbsent AmAbsent true = None /\
  address_present_flags V2006 AmShort AmShort false = Some (true, AmShort, true, AmShort) /\
  address_present_flags V2006 AmShort AmShort true = Some (true, AmShort, false, AmShort) /\
  address_present_flags V2006 AmExtended AmExtended false = Some (true, AmExtended, true, AmExtended) /\
  address_present_flags V2006 AmExtended AmExtended true = Some (true, AmExtended, false, AmExtended) /\
  address_present_flags V2006 AmShort AmExtended false = Some (true, AmShort, true, AmExtended) /\
  address_present_flags V2006 AmShort AmExtended true = Some (true, AmShort, false, AmExtended) /\
  address_present_flags V2006 AmExtended AmShort false = Some (true, AmExtended, true, AmShort) /\
  address_present_flags V2006 AmExtended AmShort true = Some (true, AmExtended, false, AmShort) /\
  address_present_flags V2006 AmAbsent AmShort false = Some (false, AmAbsent, true, AmShort) /\
  address_present_flags V2006 AmAbsent AmExtended false = Some (false, AmAbsent, true, AmExtended) /\
  address_present_flags V2006 AmShort AmAbsent false = Some (true, AmShort, false, AmAbsent) /\
  address_present_flags V2006 AmExtended AmAbsent false = Some (true, AmExtended, false, AmAbsent) /\
  address_present_flags V2006 AmAbsent AmShort true = None /\
  address_present_flags V2006 AmAbsent AmExtended true = None /\
  address_present_flags V2006 AmShort AmAbsent true = None /\
  address_present_flags V2006 AmExtended AmAbsent true = None /\
  address_present_flags V2006 AmAbsent AmAbsent false = None /\
  address_present_flags V2006 AmAbsent AmAbsent true = None /\
  address_present_flags V2020 AmShort AmShort false = Some (true, AmShort, true, AmShort) /\
  address_present_flags V2020 AmShort AmShort true = Some (true, AmShort, false, AmShort) /\
  address_present_flags V2020 AmExtended AmExtended false = Some (true, AmExtended, false, AmExtended) /\
  address_present_flags V2020 AmExtended AmExtended true = Some (false, AmExtended, false, AmExtended) /\
  address_present_flags V2020 AmShort AmExtended false = Some (true, AmShort, true, AmExtended) /\
  address_present_flags V2020 AmShort AmExtended true = Some (true, AmShort, false, AmExtended) /\
  address_present_flags V2020 AmExtended AmShort false = Some (true, AmExtended, true, AmShort) /\
  address_present_flags V2020 AmExtended AmShort true = Some (true, AmExtended, false, AmShort) /\
  address_present_flags V2020 AmAbsent AmShort false = Some (false, AmAbsent, true, AmShort) /\
  address_present_flags V2020 AmAbsent AmExtended false = Some (false, AmAbsent, true, AmExtended) /\
  address_present_flags V2020 AmShort AmAbsent false = Some (true, AmShort, false, AmAbsent) /\
  address_present_flags V2020 AmExtended AmAbsent false = Some (true, AmExtended, false, AmAbsent) /\
  address_present_flags V2020 AmAbsent AmShort true = Some (false, AmAbsent, false, AmShort) /\
  address_present_flags V2020 AmAbsent AmExtended true = Some (false, AmAbsent, false, AmExtended) /\
  address_present_flags V2020 AmShort AmAbsent true = Some (false, AmShort, false, AmAbsent) /\
  address_present_flags V2020 AmExtended AmAbsent true = Some (false, AmExtended, false, AmAbsent) /\
  address_present_flags V2020 AmAbsent AmAbsent false = Some (false, AmAbsent, false, AmAbsent) /\
  address_present_flags V2020 AmAbsent AmAbsent true = Some (true, AmAbsent, false, AmAbsent).
Proof. run. Qed.
(** 652-670 *)
Example address_parse_test :
  address_parse (txt "") = Done (Ok AAbsent) /\ address_parse (txt "ff:ff") = Done (Ok (AShort [0xff; 0xff])) /\
  address_parse (txt "ff:fe") = Done (Ok (AShort [0xff; 0xfe])) /\
  address_parse (txt "ff:ff:ff:ff:ff:ff:ff:ff") = Done (Ok (AExtended (repeat 0xff 8))) /\
  address_parse (txt "01:01:01:01:01:01:01:01") = Done (Ok (AExtended (repeat 0x01 8))) /\
  address_parse (txt "00:00:00:00:00:00:00:00") = Done (Ok (AExtended (repeat 0x00 8))) /\
  address_parse (txt "00:00:00:00:00:00:00:01") = Done (Ok (AExtended [0; 0; 0; 0; 0; 0; 0; 1])).
Proof. run. Qed.

(** ** dot15d4-frame/src/ie/headers.rs:565-616 *)
Example header_information_element_id :
  HeaderElementId_from 0x00 = 0x00 /\
  HeaderElementId_from 0x1a = 0x1a /\
  HeaderElementId_from 0x1b = 0x1b /\
  HeaderElementId_from 0x1c = 0x1c /\
  HeaderElementId_from 0x1d = 0x1d /\
  HeaderElementId_from 0x1e = 0x1e /\
  HeaderElementId_from 0x21 = 0x21 /\
  HeaderElementId_from 0x22 = 0x22 /\
  HeaderElementId_from 0x23 = 0x23 /\
  HeaderElementId_from 0x24 = 0x24 /\
  HeaderElementId_from 0x25 = 0x25 /\
  HeaderElementId_from 0x26 = 0x26 /\
  HeaderElementId_from 0x27 = 0x27 /\
  HeaderElementId_from 0x28 = 0x28 /\
  HeaderElementId_from 0x29 = 0x29 /\
  HeaderElementId_from 0x2b = 0x2b /\
  HeaderElementId_from 0x7e = 0x7e /\
  HeaderElementId_from 0x7f = 0x7f /\
  HeaderElementId_from 0x80 = HeUnknown.
Proof. run. Qed.

(** ** dot15d4-frame/src/frame_control.rs *)
(** 290-294 *)
Example bad_length : fc_new [0] = Err.
Proof. run. Qed.
(** 296-323 *)
Example get_fields :
  (let fc := [0; 0] in fc_new fc = Ok fc /\
  fc_frame_type fc = Done FtBeacon /\
  fc_security_enabled fc = Done false /\
  fc_frame_pending fc = Done false /\
  fc_ack_request fc = Done false /\
  fc_pan_id_compression fc = Done false /\
  fc_sequence_number_suppression fc = Done false /\
  fc_information_elements_present fc = Done false /\
  fc_dst_addressing_mode fc = Done AmAbsent /\
  fc_frame_version fc = Done V2003 /\
  fc_src_addressing_mode fc = Done AmAbsent) /\
  (let fc := [0x29; 0xaa] in fc_new fc = Ok fc /\
  fc_frame_type fc = Done FtData /\
  fc_security_enabled fc = Done true /\
  fc_frame_pending fc = Done false /\
  fc_ack_request fc = Done true /\
  fc_pan_id_compression fc = Done false /\
  fc_sequence_number_suppression fc = Done false /\
  fc_information_elements_present fc = Done true /\
  fc_dst_addressing_mode fc = Done AmShort /\
  fc_frame_version fc = Done V2020 /\
  fc_src_addressing_mode fc = Done AmShort).
Proof. run. Qed.
(** 325-354 *)
Definition set_all (t : FrameType) (s p a c sn ie : bool) (d sr : AddressingMode) (v : FrameVersion) (b : list N) : outcome (list N) :=
  let* b := fc_set_frame_type t b in let* b := fc_set_security_enabled s b in let* b := fc_set_frame_pending p b in
  let* b := fc_set_ack_request a b in let* b := fc_set_pan_id_compression c b in let* b := fc_set_sequence_number_suppression sn b in
  let* b := fc_set_information_elements_present ie b in let* b := fc_set_dst_addressing_mode d b in
  let* b := fc_set_src_addressing_mode sr b in fc_set_frame_version v b.
Example set_fields :
  set_all FtBeacon false false false false false false AmAbsent AmAbsent V2003 [0; 0] = Done [0; 0] /\
  set_all FtData true false true false false true AmShort AmShort V2020 [0; 0] = Done [0x29; 0xaa].
Proof. run. Qed.
(** 356-374 *)
Example frame_type : map FrameType_from [0; 1; 2; 3; 5; 6; 7; 4] =
  [FtBeacon; FtData; FtAck; FtMacCommand; FtMultipurpose; FtFragmentOrFrak; FtExtended; FtUnknown].
Proof. run. Qed.
Example frame_version : map FrameVersion_from [0; 1; 2; 3] = [V2003; V2006; V2020; VUnknown].
Proof. run. Qed.
(** 376-395 *)
Example formatting : fc_display [0x29; 0xaa] = Done (txt
"Frame Control
  type: Data
  security enabled: 1
  frame pending: 0
  ack request: 1
  pan id compression: 0
  sequence number suppression: 0
  information elements present: 1
  dst addressing mode: Short
  src addressing mode: Short
  frame version: Ieee802154_2020
").
Proof. run. Qed.

(** ** dot15d4-frame/src/time.rs:114-153 and dot15d4/src/time.rs:100-132 (the same assertions) *)
Example time_operations : forall p,
  instant_sub p 100 50 = Done 50%Z /\ instant_sub_duration p 100 50 = Done 50%Z /\ instant_add_duration p 100 50 = Done 150%Z /\
  duration_sub p 100 50 = Done 50%Z /\ duration_mul p 100 2 = Done 200%Z /\ duration_div p 100 2 = Done 50%Z /\ duration_add p 100 50 = Done 150%Z.
Proof. destruct p; run. Qed.
Example time_formatting : forall tie, us_display tie 100 = txt "0.10ms".
Proof. run. Qed.

(** ** dot15d4-cat/tests/parser.rs. The test strips the escape sequences of the coloured output: with the colours switched off
    the model prints the text without them (C83_colour). *)
(** dot15d4-cat/tests/parser.rs:6 [enhanced_beacon] *)
Example cat_enhanced_beacon : forall tie, cat_text_hex false tie (txt "40ebcdabffff0100010001000100003f1188061a0e0000000000011c0001c800011b00") = Done (txt
"Frame Control
  frame type: Enhanced Beacon
  security: 0
  frame pending: 0
  ack request: 0
  pan id compression: 1
  sequence number suppression: 1
  information elements present: 1
  dst addressing mode: Short
  src addressing mode: Extended
  frame version: 2 (Ieee802154_2020)
Addressing
  dst pan id: abcd
  dst addr: ff:ff (broadcast)
  src addr: 00:01:00:01:00:01:00:01
Information Elements
  Header Information Elements
    HeaderTermination1
  Payload Information Elements
    MLME
      TschSynchronization
        ASN: 14, join metric: 0
      TschTimeslot
        slot ID: 0
      ChannelHopping
        sequence ID: 0
      TschSlotframeAndLink
        #slotframes: 0
").
Proof. intros tie. vm_compute. reflexivity. Qed.

(** dot15d4-cat/tests/parser.rs:44 [enhanced_beacon_with_slotframes] *)
Example cat_enhanced_beacon_with_slotframes : forall tie, cat_text_hex false tie (txt "40ebcdabffff0100010001000100003f3788061a110000000000191c01080780004808fc032003e80398089001c0006009a010102701c8000f1b010011000200000100060100020007") = Done (txt
"Frame Control
  frame type: Enhanced Beacon
  security: 0
  frame pending: 0
  ack request: 0
  pan id compression: 1
  sequence number suppression: 1
  information elements present: 1
  dst addressing mode: Short
  src addressing mode: Extended
  frame version: 2 (Ieee802154_2020)
Addressing
  dst pan id: abcd
  dst addr: ff:ff (broadcast)
  src addr: 00:01:00:01:00:01:00:01
Information Elements
  Header Information Elements
    HeaderTermination1
  Payload Information Elements
    MLME
      TschSynchronization
        ASN: 17, join metric: 0
      TschTimeslot
        slot ID: 1
        cca_offset: 1.80ms
        cca: 0.13ms
        tx offset: 2.12ms
        rx offset: 1.02ms
        tx ack delay: 1.00ms
        rx ack delay: 0.80ms
        rx wait: 2.20ms
        ack wait: 0.40ms
        rx/tx: 0.19ms
        max ack: 2.40ms
        max tx: 4.26ms
        timeslot length: 10.00ms
      ChannelHopping
        sequence ID: 0
      TschSlotframeAndLink
        #slotframes: 1
        Slotframe Handle: 0, #links: 2
          Timeslot: 0, Channel Offset: 1, Link Options: Rx | Shared
          Timeslot: 1, Channel Offset: 2, Link Options: Tx | Rx | Shared
").
Proof. intros tie. vm_compute. reflexivity. Qed.

(** dot15d4-cat/tests/parser.rs:97 [enhanced_ack] *)
Example cat_enhanced_ack : forall tie, cat_text_hex false tie (txt "022e37cdab0200020002000200020fe18f") = Done (txt
"Frame Control
  frame type: Enhanced Ack
  security: 0
  frame pending: 0
  ack request: 0
  pan id compression: 0
  sequence number suppression: 0
  information elements present: 1
  dst addressing mode: Extended
  src addressing mode: Absent
  frame version: 2 (Ieee802154_2020)
Sequence Number
  sequence number: 55
Addressing
  dst pan id: abcd
  dst addr: 00:02:00:02:00:02:00:02
  src addr: absent
Information Elements
  Header Information Elements
    TimeCorrection
      -0.03ms, nack: 1
Payload
  []
").
Proof. intros tie. vm_compute. reflexivity. Qed.

(** dot15d4-cat/tests/parser.rs:130 [data_frame] *)
Example cat_data_frame : forall tie, cat_text_hex false tie (txt "41d801cdabffffc7d9b514004b12002b000000") = Done (txt
"Frame Control
  frame type: Data
  security: 0
  frame pending: 0
  ack request: 0
  pan id compression: 1
  sequence number suppression: 0
  information elements present: 0
  dst addressing mode: Short
  src addressing mode: Extended
  frame version: 1 (Ieee802154_2006)
Sequence Number
  sequence number: 1
Addressing
  dst pan id: abcd
  dst addr: ff:ff (broadcast)
  src addr: 00:12:4b:00:14:b5:d9:c7
Payload
  [2b, 0, 0, 0]
").
Proof. intros tie. vm_compute. reflexivity. Qed.
