(** SpecExchange.v -- vocabulary for what two CSMA devices do to one frame: what the receiver sees of a frame the sender
    edited before sending it. *)
From Verif Require Import Base Spec SpecFrame FrameControl Addressing SpecAddressing SpecFrames Csma SpecCsma.

(** What is assumed of a device format (phy/radio/mod.rs:65-90), besides [dev_ok]. Where the frame lies in the buffer does
    not depend on the octets of the frame itself: *)
Definition steady (dv : Device) : Prop := forall buf buf' o n, dev_data dv buf = Some (o, n) ->
  length buf' = length buf -> firstn o buf' = firstn o buf -> skipn (o + n) buf' = skipn (o + n) buf -> dev_data dv buf' = Some (o, n).
(** and a frame written through a transmit token is shown, from its first octet, by the frame view (which may show more, as the
    radio of the crate's tests does): *)
Definition shows_written (dv : Device) : Prop := forall n w rest, n <= 127 -> length w = n -> length (dev_header dv n ++ w ++ rest) = 128 ->
  exists m, dev_data dv (dev_header dv n ++ w ++ rest) = Some (length (dev_header dv n), m) /\ n <= m <= 127.

(** The frame control field [r] with its AR flag set to [ar]. *)
Definition with_ack_request (ar : bool) (r : FrameControlRepr) : FrameControlRepr :=
  mkFcRepr (fr_frame_type r) (fr_security_enabled r) (fr_frame_pending r) ar (fr_pan_id_compression r)
    (fr_sequence_number_suppression r) (fr_information_elements_present r) (fr_dst_addressing_mode r) (fr_src_addressing_mode r)
    (fr_frame_version r).
(** A PAN ID that is replaced where it is present. *)
Definition replaced (c : bool) (pan : N) (o : option N) : option N :=
  match o with Some p => Some (if c then pan else p) | None => None end.

(** [b'] is the frame [b], with header fields [r], behind the frame control field: the same sequence number, addresses and all
    that follows, PAN IDs replaced as configured; and the reserved bit of the frame control field is the same. *)
Definition sent_as (P : Params) (cfg : CsmaConfig) (r : FrameControlRepr) (b b' : list N) : Prop :=
  length b' = length b /\ seq_octets r b' = seq_octets r b /\
  (forall dp sp, layout r dp sp -> mhr_size r + layout_size r dp sp <= length b ->
     let d := mhr_size r in let s := d + pan_size dp + addr_size (fr_dst_addressing_mode r) in
     pan_at dp b' d = replaced (overwrite_dst_pan_id cfg) (p_pan_id P) (pan_at dp b d) /\
     addr_at (fr_dst_addressing_mode r) b' (d + pan_size dp) = addr_at (fr_dst_addressing_mode r) b (d + pan_size dp) /\
     pan_at sp b' s = replaced (overwrite_src_pan_id cfg) (p_pan_id P) (pan_at sp b s) /\
     addr_at (fr_src_addressing_mode r) b' (s + pan_size sp) = addr_at (fr_src_addressing_mode r) b (s + pan_size sp) /\
     skipn (d + layout_size r dp sp) b' = skipn (d + layout_size r dp sp) b) /\
  (no_addressing r b -> skipn 2 b' = skipn 2 b) /\
  bit 7 (nth 0 b' 0%N) = bit 7 (nth 0 b 0%N).

(** A frame with destination [pan], [a] reaches the device with PAN ID [mine] and hardware address [hw]. *)
Definition reaches (pan : option N) (a : Address) (mine : N) (hw : list N) : Prop :=
  (pan = None \/ pan = Some 65535%N \/ pan = Some mine) /\ (a = short_broadcast \/ a = AShort (skipn 6 hw) \/ a = AExtended hw).
(** The configuration acknowledges frames to this kind of address (unicast or broadcast). *)
Definition acks_class (cfg : CsmaConfig) (a : Address) : Prop :=
  (a = short_broadcast /\ ack_broadcast cfg = true) \/ (a <> short_broadcast /\ ack_unicast cfg = true).
