(** SpecIe.v -- information elements according to IEEE 802.15.4-2020 section 7.4, and what it means
    to walk over a list of them. *)
From Verif Require Import Base Spec.

(** The ids this code base names (tables 7-7, 7-15, 7-16 and 7-17 of the standard, those used here), by number:
    header IEs, payload IE groups, short and long nested IEs. *)
Definition known_header_ids : list N :=
  [ 0x00 (* vendor specific *); 0x1a (* CSL *); 0x1b (* RIT *); 0x1c (* DSME PAN descriptor *); 0x1d (* rendezvous time *);
    0x1e (* time correction *); 0x21 (* extended DSME PAN descriptor *); 0x22 (* FSCD *); 0x23 (* superframe *);
    0x24 (* GTS *); 0x25 (* LECIM *); 0x26 (* TRLE *); 0x27 (* RCC *); 0x28 (* RCCN *); 0x29 (* global time *);
    0x2b (* DA *); 0x7e; 0x7f (* header termination 1 and 2 *) ]%N.
Definition known_group_ids : list N :=
  [ 0x00 (* ESDU *); 0x01 (* MLME *); 0x02 (* vendor specific *); 0x0f (* payload termination *) ]%N.
Definition known_short_ids : list N :=
  [ 0x1a (* TSCH synchronization *); 0x1b (* TSCH slotframe and link *); 0x1c (* TSCH timeslot *); 0x1d (* hopping timing *);
    0x1e; 0x1f; 0x20; 0x21; 0x22; 0x23; 0x24; 0x25; 0x26; 0x27; 0x28; 0x29; 0x2b; 0x2c; 0x2d; 0x2e; 0x2f; 0x30; 0x31; 0x32;
    0x33; 0x34; 0x35; 0x36; 0x37; 0x38; 0x39; 0x40 (* vendor specific *); 0x46 (* SRM *) ]%N.
Definition known_long_ids : list N := [ 0x08 (* vendor specific *); 0x09 (* channel hopping *) ]%N.
(** An id that is not known is read as "unknown", which has its own number. *)
Definition read_as (known : list N) (unknown id : N) : N := if existsb (N.eqb id) known then id else unknown.

(** The 16-bit descriptor at the start of [r]. *)
Definition desc (r : list N) : N := (nth 0 r 0 + 256 * nth 1 r 0)%N.

(** 7.4.2.1: header IE = length bits 0-6, element id bits 7-14, type bit 15 = 0. *)
Definition std_header_size (r : list N) : nat := 2 + N.to_nat (field 0 7 (desc r)).
Definition std_header_stop (r : list N) : bool :=
  (field 7 8 (desc r) =? 0x7e)%N || (field 7 8 (desc r) =? 0x7f)%N.
(** 7.4.3.1: payload IE = length bits 0-10, group id bits 11-14, type bit 15 = 1. *)
Definition std_payload_size (r : list N) : nat := 2 + N.to_nat (field 0 11 (desc r)).
Definition std_payload_stop (r : list N) : bool := (field 11 4 (desc r) =? 0xf)%N.
(** 7.4.4.1: nested IE, short (bit 15 = 0): length bits 0-7, sub-ID bits 8-14;
    long (bit 15 = 1): length bits 0-10, sub-ID bits 11-14. *)
Definition std_nested_size (r : list N) : nat :=
  2 + N.to_nat (if bit 15 (desc r) then field 0 11 (desc r) else field 0 8 (desc r)).

(** The sizes as this code base computes them (field widths differ from the standard, see C23-C25). *)
Definition code_header_size (r : list N) : nat := 2 + N.to_nat (2 * field 1 7 (desc r)).
Definition code_payload_size (r : list N) : nat := 2 + N.to_nat (field 0 10 (desc r)).
Definition code_nested_size (r : list N) : nat :=
  2 + N.to_nat (if bit 15 (desc r) then field 0 10 (desc r) else field 0 7 (desc r)).
Definition never (_ : list N) : bool := false.

(** [walk size stop r es n]: starting at the octets [r], elements are visited one after the other,
    each starting where the previous one ended; [es] are the octets from the start of each visited
    element on, [n] is the sum of the sizes of the visited elements. The walk ends when fewer than two
    octets remain, after a stopping element, or after an element that reaches (or runs over) the end. *)
Inductive walk (size : list N -> nat) (stop : list N -> bool) : list N -> list (list N) -> nat -> Prop :=
| walk_end r : length r < 2 -> walk size stop r [] 0
| walk_last r : 2 <= length r -> stop r = true \/ length r <= size r -> walk size stop r [r] (size r)
| walk_next r es n : 2 <= length r -> stop r = false -> size r < length r ->
    walk size stop (skipn (size r) r) es n -> walk size stop r (r :: es) (size r + n).

(** [chop size r es]: [es] are the consecutive elements of [r], cut to their own octets, up to the
    first that does not fit. *)
Inductive chop (size : list N -> nat) : list N -> list (list N) -> Prop :=
| chop_end r : length r < 2 \/ length r < size r -> chop size r []
| chop_next r es : 2 <= length r -> size r <= length r ->
    chop size (skipn (size r) r) es -> chop size r (firstn (size r) r :: es).

(** [d'] is [d] with at most bits [lo .. lo+n-1] of the descriptor changed. *)
Definition keeps (lo n : N) (d d' : list N) : Prop :=
  skipn 2 d' = skipn 2 d /\ octets (firstn 2 d') /\
  forall k, (k < lo \/ lo + n <= k)%N -> bit k (desc d') = bit k (desc d).
