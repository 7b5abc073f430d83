(** AddressText.v -- model of [Address::parse] and [Display for Address]
    (dot15d4-frame/src/addressing.rs:107-132, 145-157). A [&str] is the list of its
    UTF-8 octets; splitting at the character ':' is splitting at the octet 58, because no
    other UTF-8 sequence contains that octet. *)
From Verif Require Import Base Addressing.

Definition ch_colon : N := 58%N.
Definition ch_plus : N := 43%N.

(** core [char::to_digit(16)] on one octet (non-ASCII octets are never digits). *)
Definition hex_digit (c : N) : option N :=
  if (48 <=? c)%N && (c <=? 57)%N then Some (c - 48)%N
  else if (97 <=? c)%N && (c <=? 102)%N then Some (c - 87)%N
  else if (65 <=? c)%N && (c <=? 70)%N then Some (c - 55)%N
  else None.

(** core [u8::from_str_radix]'s digit loop: checked multiplication and addition. *)
Fixpoint parse_digits (l : list N) (acc : N) : result N :=
  match l with
  | [] => Ok acc
  | c :: r =>
      match hex_digit c with
      | None => Err
      | Some d =>
          if (acc * 16 <=? 255)%N then
            if (acc * 16 + d <=? 255)%N then parse_digits r (acc * 16 + d)%N else Err
          else Err
      end
  end.

(** core [u8::from_str_radix(s, 16)] (library function, from its documentation and source:
    empty is an error, a lone sign is an error, one leading '+' is skipped, '-' is an
    invalid digit for an unsigned type, overflow is an error). *)
Definition from_str_radix16 (s : list N) : result N :=
  match s with
  | [] => Err
  | [c] => if (c =? ch_plus)%N || (c =? 45)%N then Err else parse_digits [c] 0
  | c :: r => if (c =? ch_plus)%N then parse_digits r 0 else parse_digits s 0
  end.

(** core [str::split(':')]: always at least one part. *)
Fixpoint split_colon (s : list N) : list (list N) :=
  match s with
  | [] => [[]]
  | c :: r =>
      if (c =? ch_colon)%N then [] :: split_colon r
      else match split_colon r with
           | [] => [[c]]
           | p :: ps => (c :: p) :: ps
           end
  end.

(** The loops addressing.rs:116-119 and 122-126: [unwrap()] panics on the first bad part. *)
Fixpoint parse_parts (ps : list (list N)) : outcome (list N) :=
  match ps with
  | [] => Done []
  | p :: r => match from_str_radix16 p with
              | Err => Panic
              | Ok v => let* vs := parse_parts r in Done (v :: vs)
              end
  end.

(** addressing.rs:109-132 [Address::parse] *)
Definition address_parse (s : list N) : outcome (result Address) :=
  match s with
  | [] => Done (Ok AAbsent)
  | _ =>
      let parts := split_colon s in
      if length parts =? 2 then let* v := parse_parts parts in Done (Ok (AShort v))
      else if length parts =? 8 then let* v := parse_parts parts in Done (Ok (AExtended v))
      else Done Err
  end.

(** core formatting [{:02x}] of a u8. *)
Definition hex_char (d : N) : N := if (d <? 10)%N then (48 + d)%N else (87 + d)%N.
Definition fmt_02x (v : N) : list N := [hex_char (v / 16); hex_char (v mod 16)]%N.

Fixpoint join_colon (l : list (list N)) : list N :=
  match l with
  | [] => []
  | [p] => p
  | p :: r => p ++ ch_colon :: join_colon r
  end.

(** addressing.rs:145-157 [Display::fmt]; "absent" in ASCII. *)
Definition address_display (a : Address) : list N :=
  match a with
  | AAbsent => [97; 98; 115; 101; 110; 116]%N
  | AShort v | AExtended v => join_colon (map fmt_02x v)
  end.
