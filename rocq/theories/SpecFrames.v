(** SpecFrames.v -- what a MAC frame looks like: which buffers are acceptable data frames and how their
    octets are divided into fields. Independent of Frames.v. *)
From Verif Require Import Base Spec SpecFrame FrameControl Addressing SpecAddressing SpecIe.

(** Frame control and sequence number (absent when suppressed). *)
Definition mhr_size (r : FrameControlRepr) : nat := if fr_sequence_number_suppression r then 2 else 3.

(** The acceptable unsecured frames: 2..127 octets, room for the sequence number, no reserved value. *)
Definition acceptable (b : list N) (r : FrameControlRepr) : Prop :=
  fc_is b r /\ mhr_size r <= length b <= 127 /\ fr_security_enabled r = false /\ fcr_known r.

(** [n] octets of information elements at the start of [d]: the header list, then the payload list
    (sizes as this code base computes them, see C19/C20/C22), inside the data. *)
Definition ies_fit (d : list N) (n : nat) : Prop :=
  exists hs hn ps pn, walk code_header_size std_header_stop d hs hn /\
    walk code_payload_size never (skipn hn d) ps pn /\ n = hn + pn /\ n <= length d.

(** Sequence number field. *)
Definition seq_octets (r : FrameControlRepr) (b : list N) : list N :=
  if fr_sequence_number_suppression r then [] else firstn 1 (skipn 2 b).

(** The addressing fields that fit behind the sequence number, if any. *)
Definition addressing_fits (r : FrameControlRepr) (b : list N) (n : nat) : Prop :=
  exists dp sp, layout r dp sp /\ n = layout_size r dp sp /\ mhr_size r + n <= length b.
Definition no_addressing (r : FrameControlRepr) (b : list N) : Prop :=
  forall dp sp, layout r dp sp -> length b < mhr_size r + layout_size r dp sp.

(** Which frame a buffer starts: the reader variant the (type, version) pair calls for. *)
Inductive kind := KAck | KEnhancedAck | KBeacon | KEnhancedBeacon | KData.
Definition kind_of (r : FrameControlRepr) : option kind :=
  match fr_frame_type r, fr_frame_version r with
  | FtAck, (V2003 | V2006) => Some KAck
  | FtAck, V2020 => Some KEnhancedAck
  | FtBeacon, (V2003 | V2006) => Some KBeacon
  | FtBeacon, V2020 => Some KEnhancedBeacon
  | FtData, _ => Some KData
  | _, _ => None
  end.
