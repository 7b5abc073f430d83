(** SpecForward.v -- passing on a received frame: parse it, emit the representation into a fresh buffer (C89). *)
From Verif Require Import Base Frames Repr.

(** The octets of [b] with the reserved bit of the frame control (bit 7 of the first octet) zero. *)
Definition cleared (b : list N) : list N := match b with b0 :: rest => (b0 mod 128)%N :: rest | [] => [] end.
(** Parse [b], emit the result into a buffer of zeros of the size it asks for. [Done None]: not accepted or not parsed. *)
Definition forward (b : list N) : outcome (option (list N)) :=
  let* v := data_new b in
  match v with
  | Err => Done None
  | Ok b => let* p := frame_parse b in
      match p with
      | Err => Done None
      | Ok r => let* n := frame_buffer_len r in let* b' := frame_emit r (repeat 0%N n) in Done (Some b')
      end
  end.
