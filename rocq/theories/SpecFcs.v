(** SpecFcs.v -- polynomials over GF(2) and the CRC of IEEE 802.15.4-2020 section 7.2.11. *)
From Verif Require Import Base Spec.

(** A polynomial over GF(2) is the number whose bit i is the coefficient of x^i: addition is [N.lxor],
    multiplication by x^k is [N.shiftl _ k]. *)
Fixpoint pmul (p : positive) (g : N) : N :=
  match p with
  | xH => g
  | xO p => N.double (pmul p g)
  | xI p => N.lxor g (N.double (pmul p g))
  end.
Definition gmul (q g : N) : N := match q with N0 => 0%N | Npos p => pmul p g end.
Definition divides (g m : N) : Prop := exists q, m = gmul q g.
(** [r] is the remainder of [m] modulo [g]. *)
Definition is_remainder (g m r : N) : Prop := exists q, m = N.lxor (gmul q g) r /\ (r < 2 ^ N.log2 g)%N.

(** G(x) = x^16 + x^12 + x^5 + 1 *)
Definition G16 : N := (2 ^ 16 + 2 ^ 12 + 2 ^ 5 + 1)%N.

(** The bits of an octet in order of transmission (least significant first), and of a buffer. *)
Definition octet_bits (x : N) : list bool := [bit 0 x; bit 1 x; bit 2 x; bit 3 x; bit 4 x; bit 5 x; bit 6 x; bit 7 x].
Definition stream (b : list N) : list bool := flat_map octet_bits b.
(** The polynomial of a bit stream: the first transmitted bit is the coefficient of the highest degree. *)
Definition poly (l : list bool) : N := fold_left (fun m (x : bool) => 2 * m + if x then 1 else 0)%N l 0%N.

(** Two streams of equal length differ only inside the [w] bits starting at position [k]. *)
Definition differ_within (k w : nat) (l l' : list bool) : Prop :=
  length l = length l' /\ forall i, nth i l false <> nth i l' false -> k <= i < k + w.
Definition differences (l l' : list bool) : nat := list_sum (map (fun p => if xorb (fst p) (snd p) then 1 else 0) (combine l l')).
