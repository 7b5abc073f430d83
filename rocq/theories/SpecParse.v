(** SpecParse.v -- the two kinds of nested information elements on which parsing panics. *)
From Verif Require Import Base Spec SpecIe SpecIeContent.

(** [e]: a nested IE of the short format. A TSCH timeslot IE (sub-ID 0x1c) whose content has a non-zero
    timeslot id and 26 octets; or a TSCH slotframe and link IE (sub-ID 0x1b) one of whose slotframe descriptors
    announces no links. (The code reads six bits of the sub-ID, see C25.) *)
Definition bad_nested (e : list N) : Prop :=
  bit 15 (desc e) = false /\
  let c := skipn 2 e in
  (field 8 6 (desc e) = 0x1c%N /\ length c = 26 /\ nth 0 c 0%N <> 0%N \/
   field 8 6 (desc e) = 0x1b%N /\ 1 <= length c /\
     exists ds s, descriptors (N.to_nat (nth 0 c 0%N)) (skipn 1 c) ds /\ In s ds /\ nth 3 s 0%N = 0%N).

(** [d] holds information elements among whose payload IEs there is an MLME IE (group id 1) with such a nested
    element. (The code reads three bits of the group id, see C24.) *)
Definition bad_ies (d : list N) : Prop :=
  exists hs hn ps pn e ns x, walk code_header_size std_header_stop d hs hn /\
    walk code_payload_size never (skipn hn d) ps pn /\ In e ps /\ field 11 3 (desc e) = 1%N /\
    chop code_nested_size (firstn (code_payload_size e - 2) (skipn 2 e)) ns /\ In x ns /\ bad_nested x.
