(** AuxSec.v -- model of dot15d4-frame/src/aux_sec_header.rs. *)
From Verif Require Import Base.

(** aux_sec_header.rs:103-112 *)
Inductive SecurityAttributes :=
| SaNone | SaMic32 | SaMic64 | SaMic128 | SaEncMic32 | SaEncMic64 | SaEncMic128 | SaUnknown.
(** aux_sec_header.rs:134-138 *)
Inductive KeyIdentifierMode := KiImplicit | KiExplicit | KiUnknown.

(** aux_sec_header.rs:23-25; [new] (13-15) performs no check, so index 0 may be out of range. *)
Definition aux_security_control (b : list N) : outcome N := idx b 0.
(** aux_sec_header.rs:39-41: the SecurityLevel wraps the low three bits. *)
Definition sc_security_level (c : N) : N := N.land c 7.
(** aux_sec_header.rs:44-46 and 124-130 *)
Definition sc_key_identifier_mode (c : N) : KeyIdentifierMode :=
  match N.land (N.shiftr c 3) 3 with 0%N => KiImplicit | 1%N => KiExplicit | _ => KiUnknown end.
(** aux_sec_header.rs:49-51 *)
Definition sc_frame_counter_suppression (c : N) : bool := (N.land (N.shiftr c 5) 1 =? 1)%N.
(** aux_sec_header.rs:54-56 *)
Definition sc_asn_in_nonce (c : N) : bool := (N.land (N.shiftr c 6) 1 =? 1)%N.
(** aux_sec_header.rs:70-81 *)
Definition sl_attributes (l : N) : SecurityAttributes :=
  match l with
  | 0 => SaNone | 1 => SaMic32 | 2 => SaMic64 | 3 => SaMic128
  | 5 => SaEncMic32 | 6 => SaEncMic64 | 7 => SaEncMic128 | _ => SaUnknown
  end%N.
(** aux_sec_header.rs:84-86 *)
Definition sl_data_confidentiality (l : N) : bool := (N.land (N.shiftr l 3) 1 =? 1)%N.
(** aux_sec_header.rs:89-91 *)
Definition sl_data_authenticity (l : N) : bool := negb (l =? 0)%N.
(** aux_sec_header.rs:94-101 *)
Definition sl_mic_length (l : N) : nat :=
  match sl_attributes l with
  | SaMic32 | SaEncMic32 => 4
  | SaMic64 | SaEncMic64 => 8
  | SaMic128 | SaEncMic128 => 16
  | _ => 0
  end.
(** aux_sec_header.rs:18-21 [len]. *)
Definition aux_len (b : list N) : outcome nat :=
  let* c := aux_security_control b in
  Done (1 + sl_mic_length (sc_security_level c)).
