(** SpecSetters.v -- vocabulary for views with fields of whole octets (C88): what a setter may change, what a getter depends on. *)
From Verif Require Import Base.

(** The octets outside [off .. off+n) are those of before. *)
Definition changed_only (off n : nat) (d d' : list N) : Prop :=
  length d' = length d /\ firstn off d' = firstn off d /\ skipn (off + n) d' = skipn (off + n) d.
(** [set] writes values below [bound] into the [n] octets at [off], where [get] finds them, and nothing else, whatever was there
    before; it panics exactly if the buffer ends before. *)
Definition sets (set : N -> list N -> outcome (list N)) (get : list N -> outcome N) (off n : nat) (bound : N) : Prop :=
  forall v d, (v < bound)%N ->
    (length d < off + n -> set v d = Panic) /\
    (off + n <= length d -> exists d', set v d = Done d' /\ get d' = Done v /\ changed_only off n d d').
(** The result of [get] depends on the octets [off .. off+n) only. *)
Definition gets (get : list N -> outcome N) (off n : nat) : Prop :=
  forall d d', length d = length d' -> firstn n (skipn off d) = firstn n (skipn off d') -> get d = get d'.
(** [set] leaves what [get] reads unchanged. *)
Definition independent (set : N -> list N -> outcome (list N)) (get : list N -> outcome N) (bound : N) : Prop :=
  forall v d d', (v < bound)%N -> set v d = Done d' -> get d' = get d.
