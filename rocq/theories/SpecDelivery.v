(** SpecDelivery.v -- a frame representation as it arrives: AR flag and PAN IDs as the sending device leaves them. *)
From Verif Require Import Base Spec SpecFrame FrameControl Addressing SpecAddressing Ie IeContent ReprIe SpecIe SpecIeContent Frames SpecFrames Repr SpecRepr
  Csma SpecCsma SpecExchange.

Definition arriving_addresses (P : Params) (cfg : CsmaConfig) (a : AddressingFieldsRepr) : AddressingFieldsRepr :=
  mkAfRepr (replaced (overwrite_dst_pan_id cfg) (p_pan_id P) (ar_dst_pan_id a)) (ar_dst_address a)
           (replaced (overwrite_src_pan_id cfg) (p_pan_id P) (ar_src_pan_id a)) (ar_src_address a).
Definition arriving (P : Params) (cfg : CsmaConfig) (ar : bool) (f : FrameRepr) : FrameRepr :=
  mkFrame (with_ack_request ar (f_control f)) (f_sequence_number f) (option_map (arriving_addresses P cfg) (f_addressing f)) (f_ies f) (f_payload f).
(** [f] is a frame of a class for which [cfg] requests acknowledgements, to address [a] *)
Definition asks_ack (cfg : CsmaConfig) (f : FrameRepr) (a : AddressingFieldsRepr) : Prop :=
  (fr_frame_type (f_control f) = FtData \/ fr_frame_type (f_control f) = FtMacCommand) /\ acks_class cfg (normal_addr (ar_dst_address a)).
(** information elements that read back unchanged (C33): header elements only *)
Definition plain_ies (f : FrameRepr) : Prop :=
  match f_ies f with Some i => f_payload f = None /\ ir_payload i = [] /\ ies_exact i | None => True end.
