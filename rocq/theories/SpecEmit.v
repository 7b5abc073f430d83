(** SpecEmit.v -- where the emitter puts the payload of a frame without information elements (C34). *)
From Verif Require Import Base FrameControl Addressing SpecAddressing Frames SpecFrames.

(** In a buffer of [n] octets, the addressing fields announced by the frame control [c] take [m] octets: what their layout takes if it
    fits, nothing if it does not (or if there is no layout). *)
Definition addressing_takes (c : FrameControlRepr) (n m : nat) : Prop :=
  (exists dp sp, layout c dp sp /\ m = layout_size c dp sp /\ mhr_size c + m <= n) \/
  (m = 0 /\ forall dp sp, layout c dp sp -> n < mhr_size c + layout_size c dp sp).
(** The values have the sizes of their Rust types. *)
Definition addresses_typed (a : AddressingFieldsRepr) : Prop :=
  (forall x, ar_dst_address a = Some x \/ ar_src_address a = Some x -> address_wf x).
