(** ReprIe.v -- model of dot15d4-frame/src/repr/ie/{headers,nested,payloads,mod}.rs: parsing, length and
    emission of the high-level information element representations. The code is modelled with the
    default features: with feature "panic" the Err results on unsupported elements become panics.
    [heapless::Vec<_, n>] is a list; the capacity enters where [push] can fail. *)
From Verif Require Import Base FrameControl Ie IeContent.

(** ** Helpers for [&mut buffer[off..][..n]] and [&mut buffer[off..]] passed to a writer. *)
Definition with_slice (b : list N) (off n : nat) (f : list N -> outcome (list N)) : outcome (list N) :=
  if off + n <=? length b
  then let* m := f (firstn n (skipn off b)) in Done (firstn off b ++ m ++ skipn (off + n) b)
  else Panic.
Definition with_from (b : list N) (off : nat) (f : list N -> outcome (list N)) : outcome (list N) :=
  if off <=? length b then let* m := f (skipn off b) in Done (firstn off b ++ m) else Panic.
(** [buffer.fill(0)] (ie/headers.rs:70-72, ie/payloads.rs:73-75, ie/nested.rs:101-103) *)
Definition zeroed (b : list N) : list N := repeat 0%N (length b).
(** [?] on a result inside a function returning Result *)
Definition try {A B} (m : outcome (result A)) (k : A -> outcome (result B)) : outcome (result B) :=
  let* r := m in match r with Ok a => k a | Err => Done Err end.

(** ** Header IEs (repr/ie/headers.rs) *)
(** headers.rs:9-16, 84-89 *)
Inductive HeaderIE := HTimeCorrection (us : Z) (nack : bool) | HTermination1 | HTermination2.
(** headers.rs:70-79 *)
Definition header_id (h : HeaderIE) : N :=
  match h with HTimeCorrection _ _ => HeTimeCorrection | HTermination1 => HeTermination1 | HTermination2 => HeTermination2 end.
(** headers.rs:20-36 [parse], 93-98 *)
Definition header_parse (d : list N) : outcome (result HeaderIE) :=
  let* id := hie_element_id d in
  if (id =? HeTimeCorrection)%N then
    let* c := hie_content d in
    match tc_new c with
    | Err => Done Err
    | Ok c => let* us := tc_time_correction c in let* n := tc_nack c in Done (Ok (HTimeCorrection us n))
    end
  else if (id =? HeTermination1)%N then Done (Ok HTermination1)
  else if (id =? HeTermination2)%N then Done (Ok HTermination2)
  else Done Err.
(** headers.rs:45-51 [inner_len] *)
Definition header_inner_len (h : HeaderIE) : nat := match h with HTimeCorrection _ _ => 2 | _ => 0 end.
(** headers.rs:39-41 [buffer_len] *)
Definition header_buffer_len (h : HeaderIE) : nat := 2 + header_inner_len h.
(** headers.rs:54-67 [emit], 107-110 *)
Definition header_emit (h : HeaderIE) (b : list N) : outcome (list N) :=
  let w := zeroed b in
  let* w := hie_set_length (N.of_nat (header_inner_len h)) w in
  let* w := hie_set_element_id (header_id h) w in
  match h with
  | HTimeCorrection us n =>
      with_from w 2 (fun c => let* c := tc_set_time_correction us c in tc_set_nack n c)
  | _ => Done w
  end.

(** ** Nested IEs (repr/ie/nested.rs) *)
(** nested.rs:309-316 [LinkInformationRepr], 227-236 [SlotframeDescriptorRepr] *)
Record LinkRepr := mkLinkR { lr_timeslot : N; lr_channel_offset : N; lr_options : N }.
Record SlotframeRepr := mkSfR { sr_handle : N; sr_size : N; sr_links : list LinkRepr }.
(** nested.rs:15-24, 119-124, 151-155, 359-364, 439-442 *)
Inductive NestedIE :=
| NTschSync (asn jm : N)
| NTimeslotDefault (id : N)
| NTimeslotCustom (t : timings)
| NSlotframes (l : list SlotframeRepr)
| NChannelHopping (id : N).

(** nested.rs:320-326 [LinkInformationRepr::parse] *)
Definition link_parse (d : list N) : outcome (result LinkRepr) :=
  let* t := link_timeslot d in let* c := link_channel_offset d in let* o := link_options d in
  Done (Ok (mkLinkR t c o)).
(** [for x in iter { if vec.push(parse(x)?).is_err() { return Err } }] with a vector of capacity [cap];
    the push that fails comes after the parse. [acc] is the current length. *)
Fixpoint parse_push {A} (parse : list N -> outcome (result A)) (cap len : nat) (l : list (list N))
  : outcome (result (list A)) :=
  match l with
  | [] => Done (Ok [])
  | e :: r => try (parse e) (fun x =>
      if len <? cap then try (parse_push parse cap (S len) r) (fun xs => Done (Ok (x :: xs))) else Done Err)
  end.
(** the same with [break] instead of [return Err] *)
Fixpoint parse_push_break {A} (parse : list N -> outcome (result A)) (cap len : nat) (l : list (list N))
  : outcome (result (list A)) :=
  match l with
  | [] => Done (Ok [])
  | e :: r => try (parse e) (fun x =>
      if len <? cap then try (parse_push_break parse cap (S len) r) (fun xs => Done (Ok (x :: xs))) else Done (Ok []))
  end.
(** nested.rs:241-262 [SlotframeDescriptorRepr::parse]; the iterator yields lazily, but yielding never
    panics on its own here except where [sd_link_informations] does. *)
Definition slotframe_parse (d : list N) : outcome (result SlotframeRepr) :=
  let* ls := sd_link_informations d in
  try (parse_push link_parse 4 0 ls) (fun links =>
    let* h := sd_handle d in let* s := sd_size d in Done (Ok (mkSfR h s links))).
(** nested.rs:159-178 [TschSlotframeAndLinkRepr::parse] *)
Definition slotframes_parse (d : list N) : outcome (result (list SlotframeRepr)) :=
  let* ds := sl_descriptors d in parse_push slotframe_parse 3 0 ds.
(** nested.rs:368-374 [TschTimeslotRepr::parse] *)
Definition timeslot_parse (d : list N) : outcome (result NestedIE) :=
  if ts_has_timings d then let* t := ts_timings d in Done (Ok (NTimeslotCustom t))
  else let* id := ts_id d in Done (Ok (NTimeslotDefault id)).
(** nested.rs:28-53 [NestedInformationElementRepr::parse] *)
Definition nested_parse (d : list N) : outcome (result NestedIE) :=
  let* id := nie_sub_id d in
  match id with
  | SubShort i =>
      if (i =? NsTschSynchronization)%N then
        let* c := nie_content d in
        match sync_new c with
        | Err => Done Err
        | Ok c => let* a := sync_asn c in let* j := sync_join_metric c in Done (Ok (NTschSync a j))
        end
      else if (i =? NsTschTimeslot)%N then
        let* c := nie_content d in try (ts_new c) (fun c => timeslot_parse c)
      else if (i =? NsTschSlotframeAndLink)%N then
        let* c := nie_content d in
        try (sl_new c) (fun c => try (slotframes_parse c) (fun l => Done (Ok (NSlotframes l))))
      else Done Err
  | SubLong i =>
      if (i =? NlChannelHopping)%N then
        let* c := nie_content d in
        match ch_new c with
        | Err => Done Err
        | Ok c => let* h := ch_id c in Done (Ok (NChannelHopping h))
        end
      else Done Err
  end.

(** nested.rs:266-268 [SlotframeDescriptorRepr::buffer_len] *)
Definition slotframe_buffer_len (s : SlotframeRepr) : nat := 4 + length (sr_links s) * 5.
(** nested.rs:182-188 [TschSlotframeAndLinkRepr::buffer_len] *)
Definition slotframes_buffer_len (l : list SlotframeRepr) : nat := 1 + list_sum (map slotframe_buffer_len l).
(** nested.rs:56-69 [buffer_len], [inner_len], 137-139, 378-391, 454-456 *)
Definition nested_inner_len (n : NestedIE) : nat :=
  match n with
  | NTschSync _ _ => 6
  | NTimeslotDefault _ => 1
  | NTimeslotCustom t => if tt_long t then 27 else 25
  | NSlotframes l => slotframes_buffer_len l
  | NChannelHopping _ => 1
  end.
Definition nested_buffer_len (n : NestedIE) : nat := 2 + nested_inner_len n.
(** nested.rs:96-112 *)
Definition nested_id (n : NestedIE) : NestedSubId :=
  match n with
  | NTschSync _ _ => SubShort NsTschSynchronization
  | NTimeslotDefault _ | NTimeslotCustom _ => SubShort NsTschTimeslot
  | NSlotframes _ => SubShort NsTschSlotframeAndLink
  | NChannelHopping _ => SubLong NlChannelHopping
  end.
(** nested.rs:334-338 [LinkInformationRepr::emit] *)
Definition link_emit (l : LinkRepr) (b : list N) : outcome (list N) :=
  let* b := link_set_timeslot (lr_timeslot l) b in
  let* b := link_set_channel_offset (lr_channel_offset l) b in
  link_set_options (lr_options l) b.
(** the emit loops [for x in .. { x.emit(&mut buffer[offset..][..x.buffer_len()]); offset += x.buffer_len() }] *)
Fixpoint emit_seq {A} (blen : A -> nat) (emit : A -> list N -> outcome (list N)) (l : list A) (off : nat) (b : list N)
  : outcome (list N) :=
  match l with
  | [] => Done b
  | x :: r => let* b := with_slice b off (blen x) (emit x) in emit_seq blen emit r (off + blen x) b
  end.
(** nested.rs:271-282 [SlotframeDescriptorRepr::emit]; [as u8] *)
Definition slotframe_emit (s : SlotframeRepr) (b : list N) : outcome (list N) :=
  let* b := sd_set_handle (sr_handle s) b in
  let* b := sd_set_size (sr_size s) b in
  let* b := sd_set_links (N.of_nat (length (sr_links s)) mod 256)%N b in
  emit_seq (fun _ => 5) (fun l => link_emit l) (sr_links s) 4 b.
(** nested.rs:191-204 [TschSlotframeAndLinkRepr::emit]; offsets relative to content_mut() = [1..] *)
Definition slotframes_emit (l : list SlotframeRepr) (b : list N) : outcome (list N) :=
  let* b := sl_set_number (N.of_nat (length l) mod 256)%N b in
  with_from b 1 (fun c => emit_seq slotframe_buffer_len slotframe_emit l 0 c).
(** nested.rs:72-93 [emit], 142-145, 394-403, 459-461 *)
Definition nested_emit (n : NestedIE) (b : list N) : outcome (list N) :=
  let id := nested_id n in
  let w := zeroed b in
  let* w := nie_set_length (N.of_nat (nested_inner_len n) mod 65536)%N id w in
  let* w := nie_set_sub_id id w in
  with_from w 2 (fun c =>
    match n with
    | NTschSync a j => let* c := sync_set_asn a c in sync_set_join_metric j c
    | NTimeslotDefault i => ts_set_id i c
    | NTimeslotCustom t => ts_set_timings t c
    | NSlotframes l => slotframes_emit l c
    | NChannelHopping i => ch_set_id i c
    end).

(** ** Payload IEs (repr/ie/payloads.rs) *)
(** payloads.rs:11-16 *)
Inductive PayloadIE := PMlme (l : list NestedIE) | PTermination.
(** payloads.rs:40-58 [parse] *)
Definition payload_parse (d : list N) : outcome (result PayloadIE) :=
  let* g := pie_group_id d in
  if (g =? PgMlme)%N then
    let* es := pie_nested d in
    try (parse_push_break nested_parse 16 0 es) (fun l => Done (Ok (PMlme l)))
  else Done Err.
(** payloads.rs:61-80 [buffer_len], [inner_len] *)
Definition payload_inner_len (p : PayloadIE) : nat :=
  match p with PMlme l => list_sum (map nested_buffer_len l) | PTermination => 0 end.
Definition payload_buffer_len (p : PayloadIE) : nat := 2 + payload_inner_len p.
(** payloads.rs:104-112 *)
Definition payload_id (p : PayloadIE) : N := match p with PMlme _ => PgMlme | PTermination => PgTermination end.
(** payloads.rs:83-102 [emit]: [todo!()] for the termination *)
Definition payload_emit (p : PayloadIE) (b : list N) : outcome (list N) :=
  let w := zeroed b in
  let* w := pie_set_length (N.of_nat (payload_inner_len p) mod 65536)%N w in
  let* w := pie_set_group_id (payload_id p) w in
  with_from w 2 (fun c =>
    match p with
    | PMlme l => emit_seq nested_buffer_len nested_emit l 0 c
    | PTermination => Panic
    end).

(** ** InformationElementsRepr (repr/ie/mod.rs) *)
(** mod.rs:17-22 *)
Record IesRepr := mkIes { ir_header : list HeaderIE; ir_payload : list PayloadIE }.
(** mod.rs:51-77 [parse] *)
Definition ies_parse (d : list N) : outcome (result IesRepr) :=
  let* (hs, _) := ies_headers d in
  try (parse_push_break header_parse 16 0 hs) (fun h =>
  let* (ps, _) := ies_payloads d in
  try (parse_push_break payload_parse 16 0 ps) (fun p => Done (Ok (mkIes h p)))).
(** mod.rs:82-109 [header_terminations] *)
Definition header_terminations (r : IesRepr) (contains_payload : bool) : bool * bool * bool :=
  match negb (length (ir_header r) =? 0), negb (length (ir_payload r) =? 0), contains_payload with
  | false, false, false => (false, false, false)
  | true, false, false => (false, false, false)
  | false, true, false => (true, false, false)
  | true, true, false => (true, false, false)
  | false, false, true => (false, false, false)
  | true, false, true => (false, true, false)
  | false, true, true => (true, false, true)
  | true, true, true => (true, false, true)
  end.
(** mod.rs:112-138 [buffer_len] *)
Definition ies_buffer_len (r : IesRepr) (cp : bool) : nat :=
  let '(ht1, ht2, pt) := header_terminations r cp in
  list_sum (map header_buffer_len (ir_header r))
  + (if ht1 then header_buffer_len HTermination1 else 0)
  + (if ht2 then header_buffer_len HTermination1 else 0)
  + list_sum (map payload_buffer_len (ir_payload r))
  + (if pt then payload_buffer_len PTermination else 0).
(** mod.rs:141-173 [emit] *)
Definition ies_emit (r : IesRepr) (cp : bool) (b : list N) : outcome (list N) :=
  let '(ht1, ht2, pt) := header_terminations r cp in
  let off := 0 in
  let* b := emit_seq header_buffer_len header_emit (ir_header r) off b in
  let off := off + list_sum (map header_buffer_len (ir_header r)) in
  let* b := if ht1 then with_slice b off 2 (header_emit HTermination1) else Done b in
  let off := if ht1 then off + 2 else off in
  let* b := if ht2 then with_slice b off 2 (header_emit HTermination2) else Done b in
  let off := if ht2 then off + 2 else off in
  let* b := emit_seq payload_buffer_len payload_emit (ir_payload r) off b in
  let off := off + list_sum (map payload_buffer_len (ir_payload r)) in
  if pt then with_slice b off 2 (payload_emit PTermination) else Done b.
