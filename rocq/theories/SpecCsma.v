(** SpecCsma.v -- what the CSMA device should decide about a received frame and change in a sent one,
    in terms of the frame's fields (SpecFrames.v, SpecAddressing.v). Uses from Csma.v only the configuration records. *)
From Verif Require Import Base Spec SpecFrame FrameControl Addressing SpecAddressing SpecFrames Csma.

(** The buffer [buf] holds, by the device's format, the frame octets [b] starting at [o]. *)
Definition holds (dv : Device) (buf : list N) (o : nat) (b : list N) : Prop :=
  exists n, dev_data dv buf = Some (o, n) /\ b = window buf o n.

(** The destination fields of a header: PAN ID (if present) and address; None when the header's addressing fields
    are not decodable (a combination the standard does not define, or cut short). *)
Inductive destination (r : FrameControlRepr) (b : list N) : option (option N * Address) -> Prop :=
| dest_fields dp sp : layout r dp sp -> mhr_size r + layout_size r dp sp <= length b ->
    destination r b (Some (pan_at dp b (mhr_size r), addr_at (fr_dst_addressing_mode r) b (mhr_size r + pan_size dp)))
| dest_none : no_addressing r b -> destination r b None.

Definition short_broadcast : Address := AShort [255; 255]%N.

(** Addressed to the device with hardware address [hw]. *)
Definition for_us (P : Params) (hw : list N) (r : FrameControlRepr) (b : list N) : Prop :=
  (exists pan a, destination r b (Some (pan, a)) /\
     (pan = None \/ pan = Some 65535%N \/ pan = Some (p_pan_id P)) /\
     (a = short_broadcast \/ a = AShort (skipn 6 hw) \/ a = AExtended hw)) \/
  (destination r b None /\ p_implicit_broadcast P = true).

(** The frame goes to the upper layer. *)
Definition delivered (P : Params) (cfg : CsmaConfig) (hw : list N) (r : FrameControlRepr) (b : list N) : Prop :=
  acceptable b r /\ (ignore_not_for_us cfg = false \/ for_us P hw r b) /\ fr_frame_type r <> FtAck.

(** The configuration asks for an acknowledgement of the frame. *)
Definition ack_wanted (cfg : CsmaConfig) (r : FrameControlRepr) (b : list N) : Prop :=
  ack_everything cfg = true \/
  (fr_ack_request r = true /\ exists pan a, destination r b (Some (pan, a)) /\
     ((a = short_broadcast /\ ack_broadcast cfg = true) \/ (a <> short_broadcast /\ ack_unicast cfg = true))).

(** The sequence number of a frame. *)
Definition sequence_number (r : FrameControlRepr) (b : list N) : option N := nth_error (seq_octets r b) 0.

(** An outgoing frame for which an acknowledgement is to be requested. *)
Definition ack_requestable (cfg : CsmaConfig) (r : FrameControlRepr) (b : list N) : Prop :=
  (fr_frame_type r = FtData \/ fr_frame_type r = FtMacCommand) /\
  exists pan a, destination r b (Some (pan, a)) /\
    ((a = short_broadcast /\ ack_broadcast cfg = true) \/ (a <> short_broadcast /\ ack_unicast cfg = true)).

(** [buf'] is [buf] except, possibly, for bit 5 (the AR flag) of octet [o]. *)
Definition only_ar_changed (buf buf' : list N) (o : nat) (ar : bool) : Prop :=
  length buf' = length buf /\
  (forall i, i <> o -> nth i buf' 0%N = nth i buf 0%N) /\
  octet (nth o buf' 0%N) /\
  (forall j, (j < 8)%N -> bit j (nth o buf' 0%N) = if (j =? 5)%N then ar else bit j (nth o buf 0%N)).

(** Replace the PAN ID at [off] if [c]. *)
Definition patch (c : bool) (off : nat) (pan : N) (buf : list N) : list N :=
  if c then firstn off buf ++ [pan mod 256; pan / 256]%N ++ skipn (off + 2) buf else buf.
