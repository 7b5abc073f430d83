(** IeContent.v -- model of the contents of the individual information elements:
    dot15d4-frame/src/ie/headers.rs:338-410 (TimeCorrection) and
    dot15d4-frame/src/ie/nested.rs:365-1291 (TschSynchronization, TschTimeslot,
    TschSlotframeAndLink, SlotframeDescriptor, LinkInformation, ChannelHopping).
    A reader/writer is its data; a [Duration] (dot15d4-frame/src/time.rs:24-41) is its number of
    microseconds, a [Z] in the range of i64. *)
From Verif Require Import Base FrameControl Ie.

(** ** Casts *)
(** [x as u16], [x as u32] of an i64: the low bits. *)
Definition as_u16 (z : Z) : N := Z.to_N (z mod 65536).
Definition as_u32 (z : Z) : N := Z.to_N (z mod 4294967296).
(** [x as i16] of an i64 and of a u16: the low 16 bits as two's complement. *)
Definition as_i16 (z : Z) : Z := ((z + 32768) mod 65536 - 32768)%Z.

(** [u16::from_le_bytes([b[0], b[1]])] with [b = &data[off..][..2]] (and the 3-octet reads of u32). *)
Definition rd_le (d : list N) (off n : nat) : outcome N :=
  let* s := slice_from d off in
  let* t := slice_to s n in
  Done (from_le t).

(** ** Time Correction (headers.rs:340-410) *)
(** headers.rs:350-364 [new] *)
Definition tc_new (d : list N) : result (list N) := if 2 <=? length d then Ok d else Err.
(** headers.rs:379-383 [time_correction] *)
Definition tc_time_correction (d : list N) : outcome Z :=
  let* raw := ie_raw d in
  let time := as_i16 (Z.of_N (u16_shl (N.land raw 0xfff) 4)) in
  Done (Z.shiftr time 4).
(** headers.rs:386-389 [nack] *)
Definition tc_nack (d : list N) : outcome bool :=
  let* raw := ie_raw d in Done (negb (N.land raw 0x8000 =? 0)%N).
(** headers.rs:394-398 [set_time_correction] *)
Definition tc_set_time_correction (us : Z) (d : list N) : outcome (list N) :=
  let time := Z.land (Z.shiftr (as_i16 (Z.shiftl (as_i16 us) 4)) 4) 0xfff in
  write_at d 0 (to_le 2 (as_u16 time)).
(** headers.rs:401-409 [set_nack] *)
Definition tc_set_nack (nack : bool) (d : list N) : outcome (list N) :=
  let* raw := ie_raw d in
  write_at d 0 (to_le 2 (if nack then N.lor raw 0x8000 else N.land raw 0x7fff)).

(** ** TSCH Synchronization (nested.rs:372-435) *)
(** nested.rs:380-394 [new] *)
Definition sync_new (d : list N) : result (list N) := if 6 <=? length d then Ok d else Err.
(** nested.rs:403-411 [absolute_slot_number] *)
Definition sync_asn (d : list N) : outcome N :=
  let* b0 := idx d 0 in let* b1 := idx d 1 in let* b2 := idx d 2 in let* b3 := idx d 3 in let* b4 := idx d 4 in
  Done (b0 + N.shiftl b1 8 + N.shiftl b2 16 + N.shiftl b3 24 + N.shiftl b4 32)%N.
(** nested.rs:414-416 [join_metric] *)
Definition sync_join_metric (d : list N) : outcome N := idx d 5.
(** nested.rs:421-428 [set_absolute_slot_number] *)
Definition sync_set_asn (asn : N) (d : list N) : outcome (list N) :=
  let* d := set_idx d 0 (N.land asn 0xff) in
  let* d := set_idx d 1 (N.land (N.shiftr asn 8) 0xff) in
  let* d := set_idx d 2 (N.land (N.shiftr asn 16) 0xff) in
  let* d := set_idx d 3 (N.land (N.shiftr asn 24) 0xff) in
  set_idx d 4 (N.land (N.shiftr asn 32) 0xff).
(** nested.rs:431-433 [set_join_metric] *)
Definition sync_set_join_metric (jm : N) (d : list N) : outcome (list N) := set_idx d 5 jm.

(** ** TSCH timeslot (nested.rs:455-693) *)
(** nested.rs:628-662 [TschTimeslotTimings] (fields in the order of the wire format) *)
Record timings := mkTimings {
  tt_id : N; tt_cca_offset : Z; tt_cca : Z; tt_tx_offset : Z; tt_rx_offset : Z; tt_rx_ack_delay : Z;
  tt_tx_ack_delay : Z; tt_rx_wait : Z; tt_ack_wait : Z; tt_rx_tx : Z; tt_max_ack : Z; tt_max_tx : Z;
  tt_timeslot_length : Z }.
(** nested.rs:675-692 [TschTimeslotTimings::new]; i64 subtraction does not overflow for the guard times used. *)
Definition timings_new (id : N) (guard : Z) : timings :=
  mkTimings id 1800 128 2120 (2120 - Z.quot guard 2) 800 1000 guard 400 192 2400 4256 10000.
(** nested.rs:664-673 [default] *)
Definition timings_default : timings := timings_new 0 2200.

(** nested.rs:497-499 [id] *)
Definition ts_id (d : list N) : outcome N := idx d 0.
(** nested.rs:464-488 [new], [check_len] *)
Definition ts_new (d : list N) : outcome (result (list N)) :=
  if length d <? 1 then Done Err
  else let* id := ts_id d in
       if (id =? 0)%N then Done (if 1 <=? length d then Ok d else Err)
       else Done (if 25 <=? length d then Ok d else Err).
(** nested.rs:502-571 [timeslot_timings]: fields are evaluated in this order *)
Definition ts_timings (d : list N) : outcome timings :=
  let* id := ts_id d in
  if (id =? 0)%N then Done timings_default
  else
    let n := if length d =? 25 then 2 else 3 in
    let* id := ts_id d in
    let* a1 := rd_le d 1 2 in let* a2 := rd_le d 3 2 in let* a3 := rd_le d 5 2 in let* a4 := rd_le d 7 2 in
    let* a5 := rd_le d 9 2 in let* a6 := rd_le d 11 2 in let* a7 := rd_le d 13 2 in let* a8 := rd_le d 15 2 in
    let* a9 := rd_le d 17 2 in let* a10 := rd_le d 19 2 in
    let* a11 := rd_le d 21 n in
    let* a12 := rd_le d (21 + n) n in
    Done (mkTimings id (Z.of_N a1) (Z.of_N a2) (Z.of_N a3) (Z.of_N a4) (Z.of_N a5) (Z.of_N a6) (Z.of_N a7)
            (Z.of_N a8) (Z.of_N a9) (Z.of_N a10) (Z.of_N a11) (Z.of_N a12)).
(** nested.rs:574-576 [has_timeslot_timings] *)
Definition ts_has_timings (d : list N) : bool := 1 <? length d.
(** nested.rs:581-583 [set_timeslot_id] *)
Definition ts_set_id (id : N) (d : list N) : outcome (list N) := set_idx d 0 id.
(** the choice made in nested.rs:600-602 and in repr/ie/nested.rs (TschTimeslotRepr::buffer_len) *)
Definition tt_long (t : timings) : bool :=
  (65535 <? as_u32 (tt_max_tx t))%N || (65535 <? as_u32 (tt_timeslot_length t))%N.
(** nested.rs:586-609 [set_timeslot_timings]; [to_le_bytes()[..3]] of a u32 *)
Definition ts_set_timings (t : timings) (d : list N) : outcome (list N) :=
  let* d := set_idx d 0 (tt_id t) in
  let* d := write_at d 1 (to_le 2 (as_u16 (tt_cca_offset t))) in
  let* d := write_at d 3 (to_le 2 (as_u16 (tt_cca t))) in
  let* d := write_at d 5 (to_le 2 (as_u16 (tt_tx_offset t))) in
  let* d := write_at d 7 (to_le 2 (as_u16 (tt_rx_offset t))) in
  let* d := write_at d 9 (to_le 2 (as_u16 (tt_rx_ack_delay t))) in
  let* d := write_at d 11 (to_le 2 (as_u16 (tt_tx_ack_delay t))) in
  let* d := write_at d 13 (to_le 2 (as_u16 (tt_rx_wait t))) in
  let* d := write_at d 15 (to_le 2 (as_u16 (tt_ack_wait t))) in
  let* d := write_at d 17 (to_le 2 (as_u16 (tt_rx_tx t))) in
  let* d := write_at d 19 (to_le 2 (as_u16 (tt_max_ack t))) in
  let mx := as_u32 (tt_max_tx t) in
  let tl := as_u32 (tt_timeslot_length t) in
  if tt_long t
  then let* d := write_at d 21 (firstn 3 (to_le 4 mx)) in write_at d 24 (firstn 3 (to_le 4 tl))
  else let* d := write_at d 21 (to_le 2 (mx mod 65536)) in write_at d 23 (to_le 2 (tl mod 65536)).

(** ** Link Information (nested.rs:1102-1156) *)
Definition link_len : nat := 5.
(** nested.rs:1124-1127, 1130-1133, 1136-1138 *)
Definition link_timeslot (d : list N) : outcome N := rd_le d 0 2.
Definition link_channel_offset (d : list N) : outcome N := rd_le d 2 2.
(** [from_bits_truncate] with the five flags of [TschLinkOption] (nested.rs:1218-1237) *)
Definition link_options (d : list N) : outcome N := let* b := idx d 4 in Done (N.land b 0x1f).
(** nested.rs:1143-1155 *)
Definition link_set_timeslot (v : N) (d : list N) : outcome (list N) := write_at d 0 (to_le 2 v).
Definition link_set_channel_offset (v : N) (d : list N) : outcome (list N) := write_at d 2 (to_le 2 v).
Definition link_set_options (v : N) (d : list N) : outcome (list N) := set_idx d 4 v.

(** ** Slotframe Descriptor (nested.rs:943-1034) *)
(** nested.rs:984-997 *)
Definition sd_handle (d : list N) : outcome N := idx d 0.
Definition sd_size (d : list N) : outcome N := rd_le d 1 2.
Definition sd_links (d : list N) : outcome N := idx d 3.
(** nested.rs:979-981 [len] *)
Definition sd_len (d : list N) : outcome nat := let* l := sd_links d in Done (4 + N.to_nat l * 5).
(** nested.rs:949-969 [new], [check_len] *)
Definition sd_new (d : list N) : outcome (result (list N)) :=
  if length d <? 4 then Done Err
  else let* l := sd_links d in Done (if 4 + N.to_nat l * link_len <=? length d then Ok d else Err).
(** nested.rs:1014-1026 *)
Definition sd_set_handle (v : N) (d : list N) : outcome (list N) := set_idx d 0 v.
Definition sd_set_size (v : N) (d : list N) : outcome (list N) := write_at d 1 (to_le 2 v).
Definition sd_set_links (v : N) (d : list N) : outcome (list N) := set_idx d 3 v.

(** Draining an iterator with an arbitrary state; running out of fuel is [Panic] (cf. Ie.v, [drain]). *)
Fixpoint drainS {S E : Type} (next : S -> outcome (option E * S)) (fuel : nat) (st : S) : outcome (list E) :=
  match fuel with
  | O => Panic
  | Datatypes.S f =>
      let* (x, st') := next st in
      match x with
      | None => Done []
      | Some e => let* es := drainS next f st' in Done (e :: es)
      end
  end.

(** nested.rs:1171-1207 [LinkInformationIterator]: data, offset, terminated *)
Definition link_next (st : ie_iter) : outcome (option (list N) * ie_iter) :=
  if it_terminated st then Done (None, st)
  else
    let* s := slice_from (it_data st) (it_offset st) in
    let off := it_offset st + link_len in
    Done (Some s, mkIt (it_data st) off (length (it_data st) <=? off)).
(** nested.rs:1000-1004 [link_informations]; not terminated even when the data is empty *)
Definition sd_link_iter (d : list N) : outcome ie_iter :=
  let* l := sd_links d in
  let* s := slice_from d 4 in
  let* t := slice_to s (N.to_nat l * link_len) in
  Done (mkIt t 0 false).
Definition sd_link_informations (d : list N) : outcome (list (list N)) :=
  let* it := sd_link_iter d in drainS link_next (S (S (length (it_data it)))) it.

(** ** TSCH Slotframe and Link (nested.rs:850-928) *)
(** nested.rs:889-891 [number_of_slotframes] *)
Definition sl_number (d : list N) : outcome N := idx d 0.
(** nested.rs:1048-1069 [SlotframeDescriptorIterator] *)
Record sd_iter := mkSd { sdi_data : list N; sdi_offset : nat; sdi_terminated : bool; sdi_slotframes : nat; sdi_count : nat }.
Definition sdi_new (n : nat) (d : list N) : sd_iter := mkSd d 0 (n =? 0) n 0.
(** nested.rs:1071-1093 [next] *)
Definition sdi_next (st : sd_iter) : outcome (option (list N) * sd_iter) :=
  if sdi_terminated st then Done (None, st)
  else
    let* s := slice_from (sdi_data st) (sdi_offset st) in
    let* r := sd_new s in
    match r with
    | Err => Done (None, mkSd (sdi_data st) (sdi_offset st) true (sdi_slotframes st) (sdi_count st))
    | Ok ds =>
        let* n := sd_len ds in
        let off := sdi_offset st + n in
        let c := sdi_count st + 1 in
        Done (Some ds, mkSd (sdi_data st) off ((length (sdi_data st) <=? off) || (sdi_slotframes st <=? c))
                (sdi_slotframes st) c)
    end.
(** nested.rs:894-899 [slotframe_descriptors] *)
Definition sl_iter (d : list N) : outcome sd_iter :=
  let* n := sl_number d in
  let* s := slice_from d 1 in
  Done (sdi_new (N.to_nat n) s).
Definition sl_descriptors (d : list N) : outcome (list (list N)) :=
  let* it := sl_iter d in drainS sdi_next (S (length d)) it.
Fixpoint sum_sd (l : list (list N)) : outcome nat :=
  match l with [] => Done 0 | e :: r => let* n := sd_len e in let* m := sum_sd r in Done (n + m) end.
(** nested.rs:856-880 [new], [check_len] *)
Definition sl_new (d : list N) : outcome (result (list N)) :=
  if length d <? 1 then Done Err
  else
    let* _ := sl_number d in
    let* ds := sl_descriptors d in
    let* n := sum_sd ds in
    Done (if n <? length d then Ok d else Err).
(** nested.rs:903-907 [len] *)
Definition sl_len (d : list N) : outcome nat :=
  let* ds := sl_descriptors d in let* n := sum_sd ds in Done (1 + n).
(** nested.rs:910-913 [content] *)
Definition sl_content (d : list N) : outcome (list N) := let* n := sl_len d in slice d 1 n.
(** nested.rs:918-920 [set_number_of_slotframes] *)
Definition sl_set_number (v : N) (d : list N) : outcome (list N) := set_idx d 0 v.

(** ** Channel Hopping (nested.rs:1252-1291) *)
Definition ch_new (d : list N) : result (list N) := if length d =? 0 then Err else Ok d.
Definition ch_id (d : list N) : outcome N := idx d 0.
Definition ch_set_id (v : N) (d : list N) : outcome (list N) := set_idx d 0 v.
