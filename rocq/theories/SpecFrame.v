(** SpecFrame.v -- specification vocabulary for MAC frames: the encodings of
    IEEE 802.15.4-2020 section 7.2.2 (Frame Control field). Uses only the names of
    the enums of the public API. *)
From Verif Require Import Base Spec FrameControl.

(** Table 7-1 "Values of the Frame Type field"; 0b100 is reserved. *)
Definition type_code (t : FrameType) : N :=
  match t with
  | FtBeacon => 0 | FtData => 1 | FtAck => 2 | FtMacCommand => 3
  | FtUnknown => 4
  | FtMultipurpose => 5 | FtFragmentOrFrak => 6 | FtExtended => 7
  end%N.
(** Table 7-3 "Frame Version field values"; 0b11 is reserved. *)
Definition version_code (v : FrameVersion) : N :=
  match v with V2003 => 0 | V2006 => 1 | V2020 => 2 | VUnknown => 3 end%N.
(** Table 7-3 "Addressing mode values"; 0b01 is reserved. *)
Definition mode_code (m : AddressingMode) : N :=
  match m with AmAbsent => 0 | AmUnknown => 1 | AmShort => 2 | AmExtended => 3 end%N.

(** The Frame Control value [v] (16 bits) carries exactly the fields of [r]
    (Figure 7-1 of the standard). *)
Record fc_encodes (v : N) (r : FrameControlRepr) : Prop := {
  enc_type : field 0 3 v = type_code (fr_frame_type r);
  enc_security : bit 3 v = fr_security_enabled r;
  enc_pending : bit 4 v = fr_frame_pending r;
  enc_ack : bit 5 v = fr_ack_request r;
  enc_comp : bit 6 v = fr_pan_id_compression r;
  enc_sns : bit 8 v = fr_sequence_number_suppression r;
  enc_ie : bit 9 v = fr_information_elements_present r;
  enc_dst : field 10 2 v = mode_code (fr_dst_addressing_mode r);
  enc_version : field 12 2 v = version_code (fr_frame_version r);
  enc_src : field 14 2 v = mode_code (fr_src_addressing_mode r) }.

(** No field holds a reserved value. *)
Definition fcr_known (r : FrameControlRepr) : Prop :=
  fr_frame_type r <> FtUnknown /\ fr_frame_version r <> VUnknown /\
  fr_dst_addressing_mode r <> AmUnknown /\ fr_src_addressing_mode r <> AmUnknown.

(** "the octets [c0 c1 rest'] are [b0 b1 rest] with only bits lo..lo+n-1 of the
    control field changed" *)
Definition only_bits_changed (lo n : N) (b0 b1 : N) (rest : list N) (b' : list N) : Prop :=
  exists c0 c1, b' = c0 :: c1 :: rest /\ octet c0 /\ octet c1 /\
    forall j, ~ (lo <= j < lo + n)%N -> bit j (c0 + 256 * c1) = bit j (b0 + 256 * b1).


(** the six flag setters with their getter and bit number *)
Inductive fc_flag := FlSecurity | FlPending | FlAck | FlComp | FlSns | FlIe.
Definition flag_bit (f : fc_flag) : N :=
  match f with FlSecurity => 3 | FlPending => 4 | FlAck => 5 | FlComp => 6 | FlSns => 8 | FlIe => 9 end%N.
Definition flag_get (f : fc_flag) : list N -> outcome bool :=
  match f with
  | FlSecurity => fc_security_enabled | FlPending => fc_frame_pending | FlAck => fc_ack_request
  | FlComp => fc_pan_id_compression | FlSns => fc_sequence_number_suppression
  | FlIe => fc_information_elements_present end.
Definition flag_set (f : fc_flag) : bool -> list N -> outcome (list N) :=
  match f with
  | FlSecurity => fc_set_security_enabled | FlPending => fc_set_frame_pending | FlAck => fc_set_ack_request
  | FlComp => fc_set_pan_id_compression | FlSns => fc_set_sequence_number_suppression
  | FlIe => fc_set_information_elements_present end.


(** The buffer [b] starts with a Frame Control field that encodes [r]. *)
Definition fc_is (b : list N) (r : FrameControlRepr) : Prop :=
  exists b0 b1 rest, b = b0 :: b1 :: rest /\ octet b0 /\ octet b1 /\ fc_encodes (b0 + 256 * b1) r.
