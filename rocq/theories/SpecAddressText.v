(** SpecAddressText.v -- the grammar of textual addresses. *)
From Verif Require Import Base Addressing.

(** [digit_value c d]: the ASCII character [c] is the hexadecimal digit of value [d]. *)
Inductive digit_value : N -> N -> Prop :=
| dv_dec d : (d < 10)%N -> digit_value (48 + d) d             (* '0'..'9' *)
| dv_low d : (10 <= d < 16)%N -> digit_value (97 + (d - 10)) d  (* 'a'..'f' *)
| dv_up d : (10 <= d < 16)%N -> digit_value (65 + (d - 10)) d.  (* 'A'..'F' *)

(** a non-empty digit string and its value in base 16 *)
Inductive hex_number : list N -> N -> Prop :=
| hn_one c d : digit_value c d -> hex_number [c] d
| hn_snoc s v c d : hex_number s v -> digit_value c d -> hex_number (s ++ [c]) (16 * v + d).

(** one group of an address: an octet in hexadecimal, optionally preceded by '+' *)
Definition group (s : list N) (v : N) : Prop :=
  (v < 256)%N /\ (hex_number s v \/ exists s', s = 43%N :: s' /\ hex_number s' v).

(** groups separated by ':' *)
Inductive groups : list N -> list N -> Prop :=
| g_one s v : group s v -> groups s [v]
| g_cons s v r vs : group s v -> groups r vs -> groups (s ++ 58%N :: r) (v :: vs).

Definition address_text (s : list N) (a : Address) : Prop :=
  match a with
  | AAbsent => s = []
  | AShort v => length v = 2 /\ groups s v
  | AExtended v => length v = 8 /\ groups s v
  end.

(** The text an address is shown as: two lower-case hexadecimal digits per octet, separated by ':'. *)
Definition low_digit (c d : N) : Prop := (d < 10 /\ c = 48 + d)%N \/ (10 <= d < 16 /\ c = 97 + (d - 10))%N.
Inductive shown_octets : list N -> list N -> Prop :=
| so_one c1 c2 h l : low_digit c1 h -> low_digit c2 l -> shown_octets [c1; c2] [16 * h + l]%N
| so_cons c1 c2 h l s vs : low_digit c1 h -> low_digit c2 l -> shown_octets s vs ->
    shown_octets (c1 :: c2 :: 58%N :: s) (16 * h + l :: vs)%N.
