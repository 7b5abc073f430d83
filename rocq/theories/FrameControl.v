(** FrameControl.v -- model of dot15d4-frame/src/frame_control.rs,
    the AddressingMode enum of addressing.rs and repr/frame_control.rs. *)
From Verif Require Import Base.

(** frame_control.rs:7-26 [FrameType]. *)
Inductive FrameType :=
| FtBeacon | FtData | FtAck | FtMacCommand | FtMultipurpose | FtFragmentOrFrak | FtExtended
| FtUnknown.

(** frame_control.rs:11-25: the discriminants ([frame_type as u8]);
    Unknown is implicitly 0b111 + 1 = 8. *)
Definition FrameType_as_u8 (t : FrameType) : N :=
  match t with
  | FtBeacon => 0 | FtData => 1 | FtAck => 2 | FtMacCommand => 3
  | FtMultipurpose => 5 | FtFragmentOrFrak => 6 | FtExtended => 7 | FtUnknown => 8
  end%N.

(** frame_control.rs:28-41 [From<u8> for FrameType]. *)
Definition FrameType_from (v : N) : FrameType :=
  match v with
  | 0 => FtBeacon | 1 => FtData | 2 => FtAck | 3 => FtMacCommand
  | 5 => FtMultipurpose | 6 => FtFragmentOrFrak | 7 => FtExtended | _ => FtUnknown
  end%N.

(** frame_control.rs:43-55 [FrameVersion]; Unknown is implicitly 3. *)
Inductive FrameVersion := V2003 | V2006 | V2020 | VUnknown.

Definition FrameVersion_as_u8 (v : FrameVersion) : N :=
  match v with V2003 => 0 | V2006 => 1 | V2020 => 2 | VUnknown => 3 end%N.

(** frame_control.rs:57-66. *)
Definition FrameVersion_from (v : N) : FrameVersion :=
  match v with 0 => V2003 | 1 => V2006 | 2 => V2020 | _ => VUnknown end%N.

(** addressing.rs:159-171 [AddressingMode]; Unknown is implicitly 4. *)
Inductive AddressingMode := AmAbsent | AmShort | AmExtended | AmUnknown.

Definition AddressingMode_as_u8 (m : AddressingMode) : N :=
  match m with AmAbsent => 0 | AmShort => 2 | AmExtended => 3 | AmUnknown => 4 end%N.

(** addressing.rs:185-194. *)
Definition AddressingMode_from (v : N) : AddressingMode :=
  match v with 0 => AmAbsent | 2 => AmShort | 3 => AmExtended | _ => AmUnknown end%N.

(** addressing.rs:173-183 [AddressingMode::size]. *)
Definition AddressingMode_size (m : AddressingMode) : nat :=
  match m with AmAbsent => 0 | AmShort => 2 | AmExtended => 8 | AmUnknown => 0 end.

(** frame_control.rs:80-94 [FrameControl::new] / [check_len].
    A [FrameControl<T>] is just its buffer. *)
Definition fc_new (b : list N) : result (list N) :=
  if 2 <=? length b then Ok b else Err.

(** The expression [u16::from_le_bytes([b[0], b[1]])] with [b = &buffer[..2]]
    that starts every getter and setter, frame_control.rs:109-110 and passim. *)
Definition fc_raw (b : list N) : outcome N :=
  let* s := slice_to b 2 in
  let* b0 := idx s 0 in
  let* b1 := idx s 1 in
  Done (from_le [b0; b1]).

(** [((raw >> k) & 0b1) == 1] *)
Definition flag_at (k : N) (raw : N) : bool := (N.land (N.shiftr raw k) 1 =? 1)%N.

(** frame_control.rs:108-111 *)
Definition fc_frame_type (b : list N) : outcome FrameType :=
  let* raw := fc_raw b in Done (FrameType_from (N.land raw 7)).
(** frame_control.rs:114-117 *)
Definition fc_security_enabled (b : list N) : outcome bool :=
  let* raw := fc_raw b in Done (flag_at 3 raw).
(** frame_control.rs:120-123 *)
Definition fc_frame_pending (b : list N) : outcome bool :=
  let* raw := fc_raw b in Done (flag_at 4 raw).
(** frame_control.rs:126-129 *)
Definition fc_ack_request (b : list N) : outcome bool :=
  let* raw := fc_raw b in Done (flag_at 5 raw).
(** frame_control.rs:132-135 *)
Definition fc_pan_id_compression (b : list N) : outcome bool :=
  let* raw := fc_raw b in Done (flag_at 6 raw).
(** frame_control.rs:138-141 *)
Definition fc_sequence_number_suppression (b : list N) : outcome bool :=
  let* raw := fc_raw b in Done (flag_at 8 raw).
(** frame_control.rs:144-147 *)
Definition fc_information_elements_present (b : list N) : outcome bool :=
  let* raw := fc_raw b in Done (flag_at 9 raw).
(** frame_control.rs:150-154 *)
Definition fc_dst_addressing_mode (b : list N) : outcome AddressingMode :=
  let* raw := fc_raw b in Done (AddressingMode_from (N.land (N.shiftr raw 10) 3)).
(** frame_control.rs:157-161 *)
Definition fc_src_addressing_mode (b : list N) : outcome AddressingMode :=
  let* raw := fc_raw b in Done (AddressingMode_from (N.land (N.shiftr raw 14) 3)).
(** frame_control.rs:164-168 *)
Definition fc_frame_version (b : list N) : outcome FrameVersion :=
  let* raw := fc_raw b in Done (FrameVersion_from (N.land (N.shiftr raw 12) 3)).

(** [!m] on u16 *)
Definition u16_not (m : N) : N := N.lxor 65535 m.
(** [raw << k] on u16 *)
Definition u16_shl (x k : N) : N := N.land (N.shiftl x k) 65535.
Definition N_of_bool (x : bool) : N := if x then 1%N else 0%N.

(** The common read-modify-write of all setters, frame_control.rs:174-177 and passim. *)
Definition fc_update (f : N -> N) (b : list N) : outcome (list N) :=
  let* raw := fc_raw b in write_at b 0 (to_le 2 (f raw)).

(** [raw |= (x as u16) << k] *)
Definition or_flag (k : N) (x : bool) (raw : N) : N := N.lor raw (u16_shl (N_of_bool x) k).
(** [(raw & !(mask << k)) | ((v & mask) << k)] *)
Definition put_field (k mask v raw : N) : N :=
  N.lor (N.land raw (u16_not (u16_shl mask k))) (u16_shl (N.land v mask) k).

(** frame_control.rs:173-178 *)
Definition fc_set_frame_type (t : FrameType) := fc_update (put_field 0 7 (FrameType_as_u8 t)).
(** frame_control.rs:181-186: note [|=], the flag is never cleared. *)
Definition fc_set_security_enabled (x : bool) := fc_update (or_flag 3 x).
(** frame_control.rs:189-194 *)
Definition fc_set_frame_pending (x : bool) := fc_update (or_flag 4 x).
(** frame_control.rs:197-202 *)
Definition fc_set_ack_request (x : bool) := fc_update (or_flag 5 x).
(** frame_control.rs:205-210 *)
Definition fc_set_pan_id_compression (x : bool) := fc_update (or_flag 6 x).
(** frame_control.rs:213-218 *)
Definition fc_set_sequence_number_suppression (x : bool) := fc_update (or_flag 8 x).
(** frame_control.rs:221-226 *)
Definition fc_set_information_elements_present (x : bool) := fc_update (or_flag 9 x).
(** frame_control.rs:229-234 *)
Definition fc_set_dst_addressing_mode (m : AddressingMode) := fc_update (put_field 10 3 (AddressingMode_as_u8 m)).
(** frame_control.rs:237-242 *)
Definition fc_set_src_addressing_mode (m : AddressingMode) := fc_update (put_field 14 3 (AddressingMode_as_u8 m)).
(** frame_control.rs:245-250 *)
Definition fc_set_frame_version (v : FrameVersion) := fc_update (put_field 12 3 (FrameVersion_as_u8 v)).

(** repr/frame_control.rs:4-28 [FrameControlRepr]. *)
Record FrameControlRepr := mkFcRepr {
  fr_frame_type : FrameType;
  fr_security_enabled : bool;
  fr_frame_pending : bool;
  fr_ack_request : bool;
  fr_pan_id_compression : bool;
  fr_sequence_number_suppression : bool;
  fr_information_elements_present : bool;
  fr_dst_addressing_mode : AddressingMode;
  fr_src_addressing_mode : AddressingMode;
  fr_frame_version : FrameVersion }.

(** repr/frame_control.rs:32-45 [FrameControlRepr::parse] (always Ok). *)
Definition fcr_parse (b : list N) : outcome (result FrameControlRepr) :=
  let* t := fc_frame_type b in
  let* se := fc_security_enabled b in
  let* fp := fc_frame_pending b in
  let* ar := fc_ack_request b in
  let* pc := fc_pan_id_compression b in
  let* ss := fc_sequence_number_suppression b in
  let* ie := fc_information_elements_present b in
  let* dm := fc_dst_addressing_mode b in
  let* sm := fc_src_addressing_mode b in
  let* v := fc_frame_version b in
  Done (Ok (mkFcRepr t se fp ar pc ss ie dm sm v)).

(** repr/frame_control.rs:48-50. *)
Definition fcr_buffer_len (_ : FrameControlRepr) : nat := 2.

(** repr/frame_control.rs:53-64 [FrameControlRepr::emit]. *)
Definition fcr_emit (r : FrameControlRepr) (b : list N) : outcome (list N) :=
  let* b := fc_set_frame_type (fr_frame_type r) b in
  let* b := fc_set_security_enabled (fr_security_enabled r) b in
  let* b := fc_set_frame_pending (fr_frame_pending r) b in
  let* b := fc_set_ack_request (fr_ack_request r) b in
  let* b := fc_set_pan_id_compression (fr_pan_id_compression r) b in
  let* b := fc_set_sequence_number_suppression (fr_sequence_number_suppression r) b in
  let* b := fc_set_information_elements_present (fr_information_elements_present r) b in
  let* b := fc_set_dst_addressing_mode (fr_dst_addressing_mode r) b in
  let* b := fc_set_src_addressing_mode (fr_src_addressing_mode r) b in
  fc_set_frame_version (fr_frame_version r) b.
