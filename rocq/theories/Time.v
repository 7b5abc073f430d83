(** Model of Duration and Instant (dot15d4/src/time.rs 1-94; dot15d4-frame/src/time.rs 1-96 is the same code,
    plus Duration::ZERO and Display, which are not modelled). Values are integers of microseconds. *)
From Coq Require Import ZArith Lia.
From Verif Require Import Base.
Local Open Scope Z_scope.

(** How the crate is compiled: overflow checks (debug) or wrapping arithmetic (release). *)
Inductive Profile := Checked | Wrapping.
Definition i64_ok (z : Z) : bool := (- 2 ^ 63 <=? z) && (z <? 2 ^ 63).
(** two's complement of 64 bits *)
Definition wrap64 (z : Z) : Z := (z + 2 ^ 63) mod 2 ^ 64 - 2 ^ 63.
(** the result of +, - and * on i64 *)
Definition arith (p : Profile) (z : Z) : outcome Z :=
  if i64_ok z then Done z else match p with Checked => Panic | Wrapping => Done (wrap64 z) end.

(** dot15d4/src/time.rs 8-22, 26-38: from_us and as_us are the identity: an Instant or Duration is its i64 *)
(** time.rs 40-46: Instant - Instant (an Instant) *)
Definition instant_sub (p : Profile) (a b : Z) : outcome Z := arith p (a - b).
(** time.rs 48-54: Instant - Duration *)
Definition instant_sub_duration (p : Profile) (a d : Z) : outcome Z := arith p (a - d).
(** time.rs 56-62: Duration - Duration *)
Definition duration_sub (p : Profile) (a b : Z) : outcome Z := arith p (a - b).
(** time.rs 64-70: Duration * usize: [rhs as i64] keeps the low 64 bits *)
Definition duration_mul (p : Profile) (a n : Z) : outcome Z := arith p (a * wrap64 n).
(** time.rs 72-78: Instant + Duration *)
Definition instant_add_duration (p : Profile) (a d : Z) : outcome Z := arith p (a + d).
(** time.rs 80-86: Duration / usize: panics on zero and on i64::MIN / -1 in both profiles *)
Definition duration_div (p : Profile) (a n : Z) : outcome Z :=
  let m := wrap64 n in
  if (m =? 0) || ((a =? - 2 ^ 63) && (m =? -1)) then Panic else Done (Z.quot a m).
(** time.rs 88-94: Duration + Duration *)
Definition duration_add (p : Profile) (a b : Z) : outcome Z := arith p (a + b).
(** derived Ord: max of two durations (used in csma/mod.rs 543) *)
Definition duration_max (a b : Z) : Z := Z.max a b.
