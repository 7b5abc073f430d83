(** Spec.v -- small, model-independent vocabulary in which properties are stated.
    Bit fields are given arithmetically (div/mod), tables are copied from
    IEEE 802.15.4, nothing here mentions the model's functions. *)
From Verif Require Import Base.

(** The [n]-bit field of [v] starting at bit [lo] (bit 0 = least significant). *)
Definition field (lo n v : N) : N := ((v / 2 ^ lo) mod 2 ^ n)%N.
(** Bit [k] of [v]. *)
Definition bit (k v : N) : bool := N.odd (v / 2 ^ k).

(** [l2] differs from [l1] at most at positions [i] with [keep i = false]. *)
Definition unchanged_except (changed : nat -> Prop) (l1 l2 : list N) : Prop :=
  length l1 = length l2 /\ forall i, ~ changed i -> nth_error l1 i = nth_error l2 i.
