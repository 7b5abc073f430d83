(** SpecIeContent.v -- the octets of the information element contents according to IEEE 802.15.4-2020
    sections 7.4.2.7 (time correction), 7.4.4.2-7.4.4.4 and 7.4.4.31, written as plain concatenations.
    From the model only the data types of the representations are used. *)
From Verif Require Import Base Spec IeContent ReprIe.

(** value of [n] octets, least significant first *)
Fixpoint le (n : nat) (v : N) : list N :=
  match n with O => [] | S k => (v mod 256)%N :: le k (v / 256)%N end.

(** two's complement of a 12-bit field *)
Definition signed12 (v : N) : Z := if (v <? 2048)%N then Z.of_N v else (Z.of_N v - 4096)%Z.

(** 7.4.2.7: time sync info: bits 0-11 the correction, bit 15 the NACK flag *)
Definition time_correction_octets (us : Z) (nack : bool) : list N :=
  le 2 (Z.to_N (us mod 4096) + (if nack then 32768 else 0))%N.

(** 7.4.4.2: ASN (5 octets), join metric *)
Definition sync_octets (asn jm : N) : list N := le 5 asn ++ [jm].

(** 7.4.4.4: timeslot id and the twelve durations *)
Definition timeslot_octets (id : N) (ten : list N) (last : nat) (max_tx len : N) : list N :=
  [id] ++ concat (map (le 2) ten) ++ le last max_tx ++ le last len.

(** little-endian number of [n] octets at [off] *)
Fixpoint num (c : list N) (off n : nat) : N :=
  match n with O => 0%N | S n => (nth off c 0 + 256 * num c (S off) n)%N end.

(** Reading: timeslot id 0 stands for the default timings of the 2.4 GHz O-QPSK PHY (table 8-99: offsets and
    durations in microseconds); otherwise ten 16-bit values, then two of 16 or (content not 25 octets) 24 bits. *)
Definition default_timings : timings :=
  mkTimings 0 (* CCA offset *) 1800 (* CCA *) 128 (* tx offset *) 2120 (* rx offset *) 1020 (* rx ack delay *) 800
    (* tx ack delay *) 1000 (* rx wait *) 2200 (* ack wait *) 400 (* rx-tx *) 192 (* max ack *) 2400 (* max tx *) 4256
    (* timeslot length *) 10000.
Definition timings_at (c : list N) : timings :=
  let n := if length c =? 25 then 2 else 3 in
  let z k := Z.of_N (num c k 2) in
  if (nth 0 c 0 =? 0)%N then default_timings
  else mkTimings (nth 0 c 0%N) (z 1) (z 3) (z 5) (z 7) (z 9) (z 11) (z 13) (z 15) (z 17) (z 19)
         (Z.of_N (num c 21 n)) (Z.of_N (num c (21 + n) n)).

(** 7.4.4.3: slotframes with their links *)
Definition link_octets (l : LinkRepr) : list N :=
  le 2 (lr_timeslot l) ++ le 2 (lr_channel_offset l) ++ [lr_options l].
Definition slotframe_octets (s : SlotframeRepr) : list N :=
  [sr_handle s] ++ le 2 (sr_size s) ++ [N.of_nat (length (sr_links s))] ++ concat (map link_octets (sr_links s)).
Definition slotframes_octets (l : list SlotframeRepr) : list N :=
  [N.of_nat (length l)] ++ concat (map slotframe_octets l).

(** Reading slotframe descriptors from arbitrary octets: at most [n] consecutive descriptors (size
    4 + 5 * links), as long as they fit; [es] are the octets from the start of each descriptor on. *)
Definition slotframe_size (r : list N) : nat := 4 + 5 * N.to_nat (nth 3 r 0%N).
Inductive descriptors : nat -> list N -> list (list N) -> Prop :=
| descs_end n r : n = 0 \/ length r < 4 \/ length r < slotframe_size r -> descriptors n r []
| descs_next n r es : 4 <= length r -> slotframe_size r <= length r ->
    descriptors n (skipn (slotframe_size r) r) es -> descriptors (S n) r (r :: es).

(** What the Rust types guarantee (u8, u16, u64, i64 fields, vector capacities). *)
Definition u16 (v : N) : Prop := (v < 65536)%N.
Definition i64 (z : Z) : Prop := (-(2 ^ 63) <= z < 2 ^ 63)%Z.
Definition link_typed (l : LinkRepr) : Prop := u16 (lr_timeslot l) /\ u16 (lr_channel_offset l) /\ (lr_options l < 32)%N.
Definition slotframe_typed (s : SlotframeRepr) : Prop :=
  octet (sr_handle s) /\ u16 (sr_size s) /\ length (sr_links s) <= 4 /\ Forall link_typed (sr_links s).
Definition nested_typed (n : NestedIE) : Prop :=
  match n with
  | NTschSync asn jm => (asn < 2 ^ 64)%N /\ octet jm
  | NTimeslotDefault id => octet id
  | NTimeslotCustom t => octet (tt_id t)
  | NSlotframes l => length l <= 3 /\ Forall slotframe_typed l
  | NChannelHopping id => octet id
  end.
Definition payload_typed (p : PayloadIE) : Prop :=
  match p with PMlme l => length l <= 16 /\ Forall nested_typed l | PTermination => True end.
Definition ies_typed (r : IesRepr) : Prop :=
  length (ir_header r) <= 16 /\ length (ir_payload r) <= 16 /\ Forall payload_typed (ir_payload r).

(** The encodings of 7.4.2-7.4.4 *)
Definition header_octets (h : HeaderIE) : list N :=
  match h with
  | HTimeCorrection us n => le 2 (2 + 128 * 0x1e) ++ time_correction_octets us n
  | HTermination1 => le 2 (128 * 0x7e)
  | HTermination2 => le 2 (128 * 0x7f)
  end.
Definition short_ie (id : N) (c : list N) : list N := le 2 (N.of_nat (length c) + 256 * id) ++ c.
Definition long_ie (id : N) (c : list N) : list N := le 2 (N.of_nat (length c) + 2048 * id + 32768) ++ c.
Definition u16_of (z : Z) : N := Z.to_N (z mod 65536).
Definition u32_of (z : Z) : N := Z.to_N (z mod 4294967296).
Definition timings_octets (t : timings) : list N :=
  let mx := u32_of (tt_max_tx t) in
  let tl := u32_of (tt_timeslot_length t) in
  timeslot_octets (tt_id t)
    (map u16_of [tt_cca_offset t; tt_cca t; tt_tx_offset t; tt_rx_offset t; tt_rx_ack_delay t; tt_tx_ack_delay t;
                 tt_rx_wait t; tt_ack_wait t; tt_rx_tx t; tt_max_ack t])
    (if ((65535 <? mx) || (65535 <? tl))%N then 3 else 2) mx tl.
Definition nested_octets (n : NestedIE) : list N :=
  match n with
  | NTschSync asn jm => short_ie 0x1a (sync_octets asn jm)
  | NTimeslotDefault id => short_ie 0x1c [id]
  | NTimeslotCustom t => short_ie 0x1c (timings_octets t)
  | NSlotframes l => short_ie 0x1b (slotframes_octets l)
  | NChannelHopping id => long_ie 9 [id]
  end.
Definition mlme_octets (l : list NestedIE) : list N := long_ie 1 (concat (map nested_octets l)).

(** 7.4.1, table 7-6: the whole list. HT1 separates header IEs from payload IEs, HT2 ends header IEs that
    are followed by payload data, and a payload termination ends payload IEs followed by data. *)
Definition payload_octets (p : PayloadIE) : list N :=
  match p with PMlme l => mlme_octets l | PTermination => le 2 (2048 * 0xf + 32768) end.
Definition some_in {A} (l : list A) : bool := match l with [] => false | _ => true end.
Definition header_end (r : IesRepr) (data : bool) : list HeaderIE :=
  if some_in (ir_payload r) then [HTermination1]
  else if some_in (ir_header r) && data then [HTermination2] else [].
Definition payload_end (r : IesRepr) (data : bool) : list PayloadIE :=
  if some_in (ir_payload r) && data then [PTermination] else [].
Definition ies_octets (r : IesRepr) (data : bool) : list N :=
  concat (map header_octets (ir_header r ++ header_end r data))
  ++ concat (map payload_octets (ir_payload r ++ payload_end r data)).

(** ** Representations whose values survive the wire format (range of the wire fields) *)
(** timings that fit the wire format *)
Definition fits16 (z : Z) : Prop := (0 <= z < 65536)%Z.
Definition fits24 (z : Z) : Prop := (0 <= z < 16777216)%Z.
Definition timings_fit (t : timings) : Prop :=
  octet (tt_id t) /\ Forall fits16 [tt_cca_offset t; tt_cca t; tt_tx_offset t; tt_rx_offset t; tt_rx_ack_delay t; tt_tx_ack_delay t;
              tt_rx_wait t; tt_ack_wait t; tt_rx_tx t; tt_max_ack t] /\ fits24 (tt_max_tx t) /\ fits24 (tt_timeslot_length t).

Definition header_exact (h : HeaderIE) : Prop :=
  match h with HTimeCorrection us _ => (-2048 <= us <= 2047)%Z | _ => True end.

(** representations whose values survive the wire format *)
Definition nested_exact (n : NestedIE) : Prop :=
  match n with
  | NTschSync asn _ => (asn < 2 ^ 40)%N
  | NTimeslotDefault id => id = 0%N
  | NTimeslotCustom t => timings_fit t /\ tt_id t <> 0%N
  | NSlotframes l => Forall (fun s => sr_links s <> []) l
  | NChannelHopping _ => True
  end.

Definition not_termination (h : HeaderIE) : Prop := match h with HTimeCorrection _ _ => True | _ => False end.

(** representations whose values survive *)
Definition payload_exact (p : PayloadIE) : Prop :=
  match p with PMlme l => Forall nested_exact l /\ length (concat (map nested_octets l)) < 1024 | PTermination => False end.
Definition ies_exact (r : IesRepr) : Prop :=
  Forall (fun h => not_termination h /\ header_exact h) (ir_header r) /\ Forall payload_exact (ir_payload r).

