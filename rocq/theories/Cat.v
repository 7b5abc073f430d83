(** Cat.v -- model of dot15d4-cat/src/lib.rs: [FrameParser::parse] and [parse_hex].
    The text is modelled as the list of its lines, each with its indentation and the values it shows
    ([line]): the escape sequences of the [colored] crate, the labels and the number formatting are modelled in
    CatText.v, which turns these lines into the text. The [Display] implementations used (ie/headers.rs:412-421, ie/nested.rs:436-445, 611-616, 819-840,
    930-934, 1035-1044, 1157-1167, 1291-1295) read the shown values through the accessors of IeContent.v; they
    have no other effect. *)
From Verif Require Import Base FrameControl Addressing AddressText Ie IeContent Frames.

Inductive heading := HFrameControl | HSequenceNumber | HAddressing | HAuxiliary | HInformationElements
| HHeaderIes | HPayloadIes | HPayload.
Inductive flag := FSecurity | FPending | FAckRequest | FCompression | FSuppression | FIePresent.
Inductive line :=
| LHeading (h : heading)
| LFrameType (enhanced : bool) (t : FrameType)
| LFlag (f : flag) (v : bool)
| LDstMode (m : AddressingMode) | LSrcMode (m : AddressingMode)
| LVersion (v : FrameVersion)
| LSeq (n : N)
| LDstPan (p : N) | LDstAddr (a : Address) (broadcast : bool)
| LSrcPan (p : N) | LSrcAddr (a : Address) (broadcast : bool)
| LAuxUnimplemented | LUnimplemented | LInvalid
| LHeaderId (id : N)
| LTimeCorrection (us : Z) (nack : bool)
| LMlme | LGroupUnimplemented (id : N)
| LSubId (id : NestedSubId)
| LSync (asn jm : N)
| LTimeslot (id : N) | LTimings (t : timings)
| LSlotframes (n : N) | LSlotframe (handle links : N) | LLink (timeslot channel options : N)
| LHopping (id : N)
| LOctets (l : list N).

(** cat/src/lib.rs:4-7; the buffer is the lines written so far, oldest first *)
Record writer := mkW { w_indent : nat; w_lines : list (nat * line) }.
(** cat/src/lib.rs:10-12 *)
Definition w_new : writer := mkW 0 [].
(** cat/src/lib.rs:14-16 *)
Definition increase_indent (w : writer) : writer := mkW (w_indent w + 2) (w_lines w).
(** cat/src/lib.rs:18-20: usize subtraction *)
Definition decrease_indent (w : writer) : outcome writer :=
  if w_indent w <? 2 then Panic else Done (mkW (w_indent w - 2) (w_lines w)).
(** cat/src/lib.rs:22-30 [write], [writeln] *)
Definition writeln (x : line) (w : writer) : writer := mkW (w_indent w) (w_lines w ++ [(w_indent w, x)]).

(** [for x in l { .. }] *)
Fixpoint for_each {A} (f : A -> writer -> outcome writer) (l : list A) (w : writer) : outcome writer :=
  match l with [] => Done w | x :: r => let* w := f x w in for_each f r w end.

(** cat/src/lib.rs:49-116 *)
Definition cat_frame_control (fc : list N) (w : writer) : outcome writer :=
  let w := writeln (LHeading HFrameControl) w in
  let w := increase_indent w in
  let* v := fc_frame_version fc in
  let* t := fc_frame_type fc in
  let enhanced := match v, t with V2020, (FtBeacon | FtAck) => true | _, _ => false end in
  let w := writeln (LFrameType enhanced t) w in
  let* x := fc_security_enabled fc in let w := writeln (LFlag FSecurity x) w in
  let* x := fc_frame_pending fc in let w := writeln (LFlag FPending x) w in
  let* x := fc_ack_request fc in let w := writeln (LFlag FAckRequest x) w in
  let* x := fc_pan_id_compression fc in let w := writeln (LFlag FCompression x) w in
  let* x := fc_sequence_number_suppression fc in let w := writeln (LFlag FSuppression x) w in
  let* x := fc_information_elements_present fc in let w := writeln (LFlag FIePresent x) w in
  let* x := fc_dst_addressing_mode fc in let w := writeln (LDstMode x) w in
  let* x := fc_src_addressing_mode fc in let w := writeln (LSrcMode x) w in
  let* x := fc_frame_version fc in let w := writeln (LVersion x) w in
  decrease_indent w.

(** cat/src/lib.rs:121-126 *)
Definition cat_sequence_number (s : option N) (w : writer) : outcome writer :=
  match s with
  | Some n => decrease_indent (writeln (LSeq n) (increase_indent (writeln (LHeading HSequenceNumber) w)))
  | None => Done w
  end.

(** [if let Some(x) = o { w.writeln(..) }] *)
Definition write_some {A} (f : A -> line) (o : option A) (w : writer) : writer :=
  match o with Some x => writeln (f x) w | None => w end.

(** cat/src/lib.rs:131-169 *)
Definition cat_addressing (o : option AddressingFields) (w : writer) : outcome writer :=
  match o with
  | None => Done w
  | Some af =>
      let w := increase_indent (writeln (LHeading HAddressing) w) in
      let* p := af_dst_pan_id af in
      let w := write_some LDstPan p w in
      let* a := af_dst_address af in
      let w := write_some (fun a => LDstAddr a (is_broadcast a)) a w in
      let* p := af_src_pan_id af in
      let w := write_some LSrcPan p w in
      let* a := af_src_address af in
      let w := write_some (fun a => LSrcAddr a (is_broadcast a)) a w in
      decrease_indent w
  end.

(** cat/src/lib.rs:174-182 *)
Definition cat_aux (o : option (list N)) (w : writer) : outcome writer :=
  match o with
  | Some _ => decrease_indent (writeln LAuxUnimplemented (increase_indent (writeln (LHeading HAuxiliary) w)))
  | None => Done w
  end.

(** cat/src/lib.rs:199-224: one header IE *)
Definition cat_header (e : list N) (w : writer) : outcome writer :=
  let w := increase_indent w in
  let* id := hie_element_id e in
  let* w := (if (id =? HeTermination1)%N || (id =? HeTermination2)%N then
      let* i := hie_element_id e in Done (writeln (LHeaderId i) w)
    else
      let* i := hie_element_id e in
      let w := increase_indent (writeln (LHeaderId i) w) in
      let* w := (if (id =? HeTimeCorrection)%N then
          let* c := hie_content e in
          match tc_new c with
          | Ok tc => let* t := tc_time_correction tc in let* n := tc_nack tc in Done (writeln (LTimeCorrection t n) w)
          | Err => Done (writeln LInvalid w)
          end
        else Done (writeln LUnimplemented w)) in
      decrease_indent w) in
  decrease_indent w.

(** cat/src/lib.rs:290-294 *)
Definition cat_link (l : list N) (w : writer) : outcome writer :=
  let* t := link_timeslot l in let* c := link_channel_offset l in let* o := link_options l in
  Done (writeln (LLink t c o) w).
(** cat/src/lib.rs:282-296 *)
Definition cat_slotframe (s : list N) (w : writer) : outcome writer :=
  let* h := sd_handle s in let* n := sd_links s in
  let w := increase_indent (writeln (LSlotframe h n) w) in
  let* ls := sd_link_informations s in
  let* w := for_each cat_link ls w in
  decrease_indent w.

(** cat/src/lib.rs:254-311: the content of a nested IE *)
Definition cat_nested_content (id : NestedSubId) (e : list N) (w : writer) : outcome writer :=
  match id with
  | SubShort i =>
      if (i =? NsTschSynchronization)%N then
        let* c := nie_content e in
        match sync_new c with
        | Ok s => let* a := sync_asn s in let* j := sync_join_metric s in Done (writeln (LSync a j) w)
        | Err => Done (writeln LInvalid w)
        end
      else if (i =? NsTschTimeslot)%N then
        let* c := nie_content e in
        let* r := ts_new c in
        match r with
        | Ok s =>
            let* i := ts_id s in
            let w := writeln (LTimeslot i) w in
            if ts_has_timings s then let* t := ts_timings s in Done (writeln (LTimings t) w) else Done w
        | Err => Done (writeln LInvalid w)
        end
      else if (i =? NsTschSlotframeAndLink)%N then
        let* c := nie_content e in
        let* r := sl_new c in
        match r with
        | Ok s =>
            let* n := sl_number s in
            let w := writeln (LSlotframes n) w in
            let* ds := sl_descriptors s in
            for_each cat_slotframe ds w
        | Err => Done (writeln LInvalid w)
        end
      else Done (writeln LUnimplemented w)
  | SubLong i =>
      if (i =? NlChannelHopping)%N then
        let* c := nie_content e in
        match ch_new c with
        | Ok s => let* i := ch_id s in Done (writeln (LHopping i) w)
        | Err => Done (writeln LInvalid w)
        end
      else Done (writeln LUnimplemented w)
  end.
(** cat/src/lib.rs:243-314: one nested IE *)
Definition cat_nested (e : list N) (w : writer) : outcome writer :=
  let w := increase_indent w in
  let* id := nie_sub_id e in
  let w := increase_indent (writeln (LSubId id) w) in
  let* id := nie_sub_id e in
  let* w := cat_nested_content id e w in
  let* w := decrease_indent w in
  decrease_indent w.

(** cat/src/lib.rs:237-320: one payload IE *)
Definition cat_payload_ie (e : list N) (w : writer) : outcome writer :=
  let w := increase_indent w in
  let* g := pie_group_id e in
  let* w := (if (g =? PgMlme)%N then
      let w := writeln LMlme w in
      let* ns := pie_nested e in
      for_each cat_nested ns w
    else Done (writeln (LGroupUnimplemented g) w)) in
  decrease_indent w.

(** [if !l.is_empty() { heading; for x in l { .. } }] of lines 195-226 and 233-323 *)
Definition cat_list (h : heading) (f : list N -> writer -> outcome writer) (l : list (list N)) (w : writer) : outcome writer :=
  match l with
  | [] => Done w
  | _ => let* w := for_each f l (writeln (LHeading h) (increase_indent w)) in decrease_indent w
  end.

(** cat/src/lib.rs:187-324 *)
Definition cat_ies (o : option (list N)) (w : writer) : outcome writer :=
  match o with
  | None => Done w
  | Some d =>
      let w := writeln (LHeading HInformationElements) w in
      let* (hs, _) := ies_headers d in
      let* w := cat_list HHeaderIes cat_header hs w in
      let* (ps, _) := ies_payloads d in
      cat_list HPayloadIes cat_payload_ie ps w
  end.

(** cat/src/lib.rs:329-333 *)
Definition cat_payload (o : option (list N)) (w : writer) : writer :=
  match o with
  | Some p => writeln (LOctets p) (increase_indent (writeln (LHeading HPayload) w))
  | None => w
  end.

(** cat/src/lib.rs:41-336 [FrameParser::parse]: never returns [Err] *)
Definition cat_parse (b : list N) : outcome (list (nat * line)) :=
  let* r := frame_new b in
  let* frame := unwrap (ok r) in
  let* fc := frame_frame_control frame in
  let* w := cat_frame_control fc w_new in
  let* s := frame_sequence_number frame in
  let* w := cat_sequence_number s w in
  let* a := frame_addressing frame in
  let* w := cat_addressing a w in
  let* x := frame_aux frame in
  let* w := cat_aux x w in
  let* i := frame_ies frame in
  let* w := cat_ies i w in
  let* p := frame_payload frame in
  Done (w_lines (cat_payload p w)).

(** the [hex] crate's [decode] (library function): an even number of hexadecimal digits *)
Fixpoint hex_decode (s : list N) : result (list N) :=
  match s with
  | [] => Ok []
  | [_] => Err
  | a :: c :: r =>
      match hex_digit a, hex_digit c with
      | Some x, Some y => match hex_decode r with Ok l => Ok ((16 * x + y)%N :: l) | Err => Err end
      | _, _ => Err
      end
  end.
(** cat/src/lib.rs:36-39 [parse_hex]; the string is its list of UTF-8 octets *)
Definition cat_parse_hex (s : list N) : outcome (list (nat * line)) :=
  let* d := unwrap (ok (hex_decode s)) in cat_parse d.
