(** Fcs.v -- model of FrameWithFcs (dot15d4-frame/src/frames/mod.rs:16-91), including the CRC routine of the
    external crate crc 3.2.1 that it calls (Crc::<u16>::new, the 256-entry table implementation, refin and
    refout true), modelled from its documented algorithm because the crate is not part of /repo. *)
From Verif Require Import Base FrameControl Frames.

(** mod.rs:52-61: poly 0x1021; the crate reverses it to 0x8408 when [refin] is set. *)
Definition CRC_POLY : N := 0x1021%N.
Definition CRC_INIT : N := 0%N.
Definition CRC_XOROUT : N := 0%N.
(** [u16::reverse_bits] *)
Definition reverse_bits16 (v : N) : N :=
  fold_left (fun acc i => N.lor (N.shiftl acc 1) (N.land (N.shiftr v i) 1))
    [0; 1; 2; 3; 4; 5; 6; 7; 8; 9; 10; 11; 12; 13; 14; 15]%N 0%N.
(** crate: one step of the table generator, [(value >> 1) ^ ((value & 1) * poly)] *)
Definition crc_shift (value : N) : N :=
  N.lxor (N.shiftr value 1) (N.land value 1 * reverse_bits16 CRC_POLY).
(** crate: table entry i = eight steps from i *)
Definition crc_table (i : N) : N :=
  crc_shift (crc_shift (crc_shift (crc_shift (crc_shift (crc_shift (crc_shift (crc_shift i))))))).
(** crate: [table[((crc ^ byte) & 0xFF)] ^ (crc >> 8)] *)
Definition crc_byte (crc byte : N) : N :=
  N.lxor (crc_table (N.land (N.lxor crc byte) 0xFF)) (N.shiftr crc 8).
(** crate: [checksum]; init is bit-reversed (refin), no final reversal (refin = refout), xorout. *)
Definition checksum (bytes : list N) : N :=
  N.lxor (fold_left crc_byte bytes (reverse_bits16 CRC_INIT)) CRC_XOROUT.

(** [a - b] on usize: underflow panics (debug) *)
Definition usub (a b : nat) : outcome nat := if b <=? a then Done (a - b) else Panic.

(** mod.rs:77-79 [content] *)
Definition fcs_content (b : list N) : outcome (list N) := let* n := usub (length b) 2 in slice_to b n.
(** mod.rs:82-85 [fcs] *)
Definition fcs_fcs (b : list N) : outcome N :=
  let* i := usub (length b) 2 in let* x := idx b i in
  let* j := usub (length b) 1 in let* y := idx b j in
  Done (from_le [x; y]).
(** mod.rs:47-63 [calculate_fcs] *)
Definition fcs_calculate (b : list N) : outcome N := let* c := fcs_content b in Done (checksum c).
(** mod.rs:36-42 [check_len] *)
Definition fcs_check_len (b : list N) : bool := negb (length b <? 2).
(** mod.rs:66-69 [check_fcs] *)
Definition fcs_check (b : list N) : outcome bool :=
  let* c := fcs_calculate b in let* f := fcs_fcs b in Done (c =? f)%N.
(** mod.rs:21-33 [FrameWithFcs::new] *)
Definition fcs_new (b : list N) : outcome (result (list N)) :=
  if negb (fcs_check_len b) then Done Err
  else let* c := fcs_check b in if negb c then Done Err else Done (Ok b).
(** mod.rs:88-90 [frame] *)
Definition fcs_frame (b : list N) : outcome (result Frame) := let* c := fcs_content b in frame_new c.
