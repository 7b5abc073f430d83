(** Display.v -- model of the [Display] implementations (and of the [Debug] texts they use):
    frame_control.rs:253-285, addressing.rs:425-447, ie/headers.rs:101-123, 196-203, 412-421, ie/payloads.rs:101-115,
    ie/nested.rs:143-175, 325-334, 357-364, 436-445, 612-616, 819-842, 930-934, 1036-1045, 1158-1168, 1240-1250, 1291-1295,
    time.rs:98-108. A text is the list of its octets. Formatters write to an infallible sink (a String): the error
    result of [write!] is left out. *)
From Coq Require Import String Ascii.
From Verif Require Import Base FrameControl Addressing AddressText Macro Ie IeContent.
Local Open Scope string_scope.
Local Open Scope list_scope.
Local Open Scope N_scope.

Fixpoint txt (s : string) : list N :=
  match s with EmptyString => [] | String a r => N_of_ascii a :: txt r end.
Definition nl : list N := [10].

(** ** core::fmt of integers (library functions, from their documentation) *)
(** the digits of [n] in base [base], most significant first, without leading zeros; running out of fuel is impossible
    with the fuel given below *)
Fixpoint digits (base : N) (fuel : nat) (n : N) : list N :=
  match fuel with
  | O => []
  | S f => if n <? base then [hex_char n] else digits base f (n / base) ++ [hex_char (n mod base)]
  end.
Definition fuel_for (n : N) : nat := S (N.to_nat (N.log2 n)).
(** [{}] and [{:?}] of an unsigned integer *)
Definition dec (n : N) : list N := digits 10 (fuel_for n) n.
(** [{:0x}]: the flag 0 has no effect without a width *)
Definition hex (n : N) : list N := digits 16 (fuel_for n) n.
(** [{}] of [b as usize] *)
Definition dec_bool (b : bool) : list N := dec (N_of_bool b).
(** [{:?}] and [{:0x?}] of a byte slice: "[1, a, ff]" *)
Fixpoint commas (l : list (list N)) : list N :=
  match l with [] => [] | [p] => p | p :: r => p ++ txt ", " ++ commas r end.
Definition dbg_slice (l : list N) : list N := txt "[" ++ commas (map dec l) ++ txt "]".
Definition dbg_slice_hex (l : list N) : list N := txt "[" ++ commas (map hex l) ++ txt "]".

(** ** time.rs:98-108: [write!(f, "{:.2}ms", self.as_us() as f32 / 1000.0)] *)
(** nearest integer to p/q, q > 0; [tie d] says whether a tie between d and d + 1 is rounded up *)
Definition nearest (tie : Z -> bool) (p q : Z) : Z :=
  let d := (p / q)%Z in let r := (p mod q)%Z in
  if (2 * r <? q)%Z then d else if (q <? 2 * r)%Z then (d + 1)%Z else if tie d then (d + 1)%Z else d.
(** An f32 value as a quotient of integers with positive denominator. [f32_round p q] is the f32 nearest to p/q (24
    significant bits, ties to even). Simplification: subnormal numbers and overflow are left out, because the values
    computed here are 0 or lie between 2^-10 and 2^63 in absolute value. *)
Definition f32_round (p q : Z) : Z * Z :=
  if (p =? 0)%Z then (0, 1)%Z else
  let a := Z.abs p in
  let k0 := (Z.log2 a - Z.log2 q)%Z in
  let k := if (a * 2 ^ Z.max 0 (- k0) <? q * 2 ^ Z.max 0 k0)%Z then (k0 - 1)%Z else k0 in
  let e := (k - 23)%Z in
  let m := nearest Z.odd (a * 2 ^ Z.max 0 (- e)) (q * 2 ^ Z.max 0 e) in
  (Z.sgn p * m * 2 ^ Z.max 0 e, 2 ^ Z.max 0 (- e))%Z.
(** [{:.2}] of an f32 (the sign of a negative number is kept even when it rounds to zero); the library's choice for an
    exact tie is the parameter [tie] *)
Definition fmt_2 (tie : Z -> bool) (x : Z * Z) : list N :=
  let h := Z.to_N (nearest tie (100 * Z.abs (fst x)) (snd x)) in
  (if (fst x <? 0)%Z then txt "-" else []) ++ dec (h / 100) ++ txt "." ++ [hex_char (h / 10 mod 10); hex_char (h mod 10)].
(** Display for Duration and for Instant, of [us] microseconds *)
Definition us_display (tie : Z -> bool) (us : Z) : list N :=
  let x := f32_round us 1 in
  fmt_2 tie (f32_round (fst x) (snd x * 1000)) ++ txt "ms".

(** ** Frame control (frame_control.rs:253-285) *)
(** Debug names of the variants, frame_control.rs:9-26, 44-55, addressing.rs:161-171 *)
Definition FrameType_name (t : FrameType) : string :=
  match t with FtBeacon => "Beacon" | FtData => "Data" | FtAck => "Ack" | FtMacCommand => "MacCommand"
  | FtMultipurpose => "Multipurpose" | FtFragmentOrFrak => "FragmentOrFrak" | FtExtended => "Extended" | FtUnknown => "Unknown" end.
Definition FrameVersion_name (v : FrameVersion) : string :=
  match v with V2003 => "Ieee802154_2003" | V2006 => "Ieee802154_2006" | V2020 => "Ieee802154_2020" | VUnknown => "Unknown" end.
Definition AddressingMode_name (m : AddressingMode) : string :=
  match m with AmAbsent => "Absent" | AmShort => "Short" | AmExtended => "Extended" | AmUnknown => "Unknown" end.
Definition fc_display (b : list N) : outcome (list N) :=
  let* t := fc_frame_type b in
  let* se := fc_security_enabled b in
  let* fp := fc_frame_pending b in
  let* ar := fc_ack_request b in
  let* pc := fc_pan_id_compression b in
  let* ss := fc_sequence_number_suppression b in
  let* ie := fc_information_elements_present b in
  let* dm := fc_dst_addressing_mode b in
  let* sm := fc_src_addressing_mode b in
  let* v := fc_frame_version b in
  Done (txt "Frame Control" ++ nl ++
        txt "  type: " ++ txt (FrameType_name t) ++ nl ++
        txt "  security enabled: " ++ dec_bool se ++ nl ++
        txt "  frame pending: " ++ dec_bool fp ++ nl ++
        txt "  ack request: " ++ dec_bool ar ++ nl ++
        txt "  pan id compression: " ++ dec_bool pc ++ nl ++
        txt "  sequence number suppression: " ++ dec_bool ss ++ nl ++
        txt "  information elements present: " ++ dec_bool ie ++ nl ++
        txt "  dst addressing mode: " ++ txt (AddressingMode_name dm) ++ nl ++
        txt "  src addressing mode: " ++ txt (AddressingMode_name sm) ++ nl ++
        txt "  frame version: " ++ txt (FrameVersion_name v) ++ nl).

(** ** Addressing fields (addressing.rs:425-447) *)
Definition opt_line {A} (label : string) (f : A -> list N) (o : option A) : list N :=
  match o with Some x => txt label ++ f x ++ nl | None => [] end.
Definition af_display (af : AddressingFields) : outcome (list N) :=
  let* dp := af_dst_pan_id af in
  let* da := af_dst_address af in
  let* sp := af_src_pan_id af in
  let* sa := af_src_address af in
  Done (txt "Addressing Fields" ++ nl ++
        opt_line "  dst pan id: " hex dp ++
        opt_line "  dst address: " address_display da ++
        opt_line "  src pan id: " hex sp ++
        opt_line "  src address: " address_display sa).

(** ** Header information elements *)
(** Debug names by discriminant *)
Fixpoint name_in (l : list (N * string)) (other : string) (id : N) : string :=
  match l with [] => other | (i, s) :: r => if id =? i then s else name_in r other id end.
(** headers.rs:126-167 *)
Definition header_names : list (N * string) :=
  [(0x00, "VendorSpecificHeader"); (0x1a, "Csl"); (0x1b, "Rit");
   (0x1c, "DsmePanDescriptor"); (0x1d, "RendezvousTime"); (0x1e, "TimeCorrection");
   (0x21, "ExtendedDsmePanDescriptor"); (0x22, "FragmentSequenceContextDescription"); (0x23, "SimplifiedSuperframeSpecification");
   (0x24, "SimplifiedGtsSpecification"); (0x25, "LecimCapabilities"); (0x26, "TrleDescriptor");
   (0x27, "RccCapabilities"); (0x28, "RccnDescriptor"); (0x29, "GlobalTime");
   (0x2b, "Da"); (0x7e, "HeaderTermination1"); (0x7f, "HeaderTermination2")].
Definition header_name (id : N) : list N := txt (name_in header_names "Unkown" id).
(** headers.rs:196-203 [Display for HeaderElementId] *)
Definition header_label (id : N) : list N := if id =? HeTimeCorrection then txt "Time Correction" else header_name id.
(** headers.rs:412-421 [Display for TimeCorrection] *)
Definition tc_display (tie : Z -> bool) (d : list N) : outcome (list N) :=
  let* us := tc_time_correction d in
  let* n := tc_nack d in
  Done (us_display tie us ++ txt ", nack: " ++ dec_bool n).
(** [{:?}] of Result<SimplifiedSuperframeSpecification<&[u8]>>: the derived Debug of the struct generated by the macro
    (lib.rs:32-38: one member [buffer]) and of [Error] (lib.rs:214-215) *)
Definition dbg_superframe (r : result (list N)) : list N :=
  match r with
  | Ok b => txt "Ok(SimplifiedSuperframeSpecification { buffer: " ++ dbg_slice b ++ txt " })"
  | Err => txt "Err(Error)"
  end.
Definition HeSimplifiedSuperframe : N := 0x23.
(** headers.rs:101-123 *)
Definition hie_display (tie : Z -> bool) (d : list N) : outcome (list N) :=
  let* id := hie_element_id d in
  if (id =? HeTermination1) || (id =? HeTermination2) then Done (header_name id)
  else if id =? HeSimplifiedSuperframe then
    let* c := hie_content d in
    Done (header_label id ++ txt " " ++ dbg_superframe (rec_new SimplifiedSuperframeSpecification c))
  else
    let* c := hie_content d in
    let plain := header_name id ++ txt "(" ++ dbg_slice_hex c ++ txt ")" in
    if id =? HeTimeCorrection then
      match tc_new c with
      | Err => Done plain
      | Ok tc => let* t := tc_display tie tc in Done (header_label id ++ txt " " ++ t)
      end
    else Done plain.

(** ** Nested information elements *)
(** nested.rs:216-285 *)
Definition nested_short_names : list (N * string) :=
  [(0x1a, "TschSynchronization"); (0x1b, "TschSlotframeAndLink"); (0x1c, "TschTimeslot");
   (0x1d, "HoppingTiming"); (0x1e, "EnhancedBeaconFilter"); (0x1f, "MacMetrics");
   (0x20, "AllMacMetrics"); (0x21, "CoexistenceSpecification"); (0x22, "SunDeviceCapabilities");
   (0x23, "SunFskGenericPhy"); (0x24, "ModeSwitchParameter"); (0x25, "PhyParameterChange");
   (0x26, "OQpskPhyMode"); (0x27, "PcaAllocation"); (0x28, "LecimDsssOperatingMode");
   (0x29, "LecimFskOperatingMode"); (0x2b, "TvwsPhyOperatingMode"); (0x2c, "TvwsDeviceCapabilities");
   (0x2d, "TvwsDeviceCategory"); (0x2e, "TvwsDeviceIdentification"); (0x2f, "TvwsDeviceLocation");
   (0x30, "TvwsChannelInformationQuery"); (0x31, "TvwsChannelInformationSource"); (0x32, "Ctm");
   (0x33, "Timestamp"); (0x34, "TimestampDifference"); (0x35, "TmctpSpecification");
   (0x36, "RccPhyOperatingMode"); (0x37, "LinkMargin"); (0x38, "RsGfskDeviceCapabilities");
   (0x39, "MultiPhy"); (0x40, "VendorSpecific"); (0x46, "Srm")].
(** nested.rs:338-345 *)
Definition nested_long_names : list (N * string) := [(0x08, "VendorSpecificNested"); (0x09, "ChannelHopping")].
Definition short_name (id : N) : list N := txt (name_in nested_short_names "Unkown" id).
Definition long_name (id : N) : list N := txt (name_in nested_long_names "Unkown" id).
(** nested.rs:325-334 *)
Definition short_label (id : N) : list N :=
  if id =? NsTschTimeslot then txt "TSCH Timeslot"
  else if id =? NsTschSlotframeAndLink then txt "TSCH Slotframe and Link"
  else if id =? NsTschSynchronization then txt "TSCH Synchronization"
  else short_name id.
(** nested.rs:357-364 *)
Definition long_label (id : N) : list N := if id =? NlChannelHopping then txt "Channel Hopping" else long_name id.
(** nested.rs:436-445 *)
Definition sync_display (d : list N) : outcome (list N) :=
  let* a := sync_asn d in let* j := sync_join_metric d in
  Done (txt "ASN: " ++ dec a ++ txt ", join metric: " ++ dec j).
(** nested.rs:612-616 *)
Definition ts_display (d : list N) : outcome (list N) := let* i := ts_id d in Done (txt "slot ID: " ++ dec i).
(** nested.rs:930-934 *)
Definition sl_display (d : list N) : outcome (list N) := let* n := sl_number d in Done (txt "#slotframes: " ++ dec n).
(** nested.rs:1291-1295 *)
Definition ch_display (d : list N) : outcome (list N) := let* n := ch_id d in Done (txt "sequence ID: " ++ dec n).
(** nested.rs:1036-1045 *)
Definition sd_display (d : list N) : outcome (list N) :=
  let* h := sd_handle d in let* l := sd_links d in
  Done (txt "Slotframe Handle: " ++ dec h ++ txt ", #links: " ++ dec l).
(** nested.rs:1240-1250: bitflags::parser::to_writer of the options (library function, from its documentation): the
    names of the set flags in declaration order, separated by " | "; [from_bits_truncate] leaves no other bits *)
Definition option_names : list (N * string) := [(0, "Tx"); (1, "Rx"); (2, "Shared"); (3, "TimeKeeping"); (4, "Priority")].
Fixpoint bars (l : list (list N)) : list N :=
  match l with [] => [] | [p] => p | p :: r => p ++ txt " | " ++ bars r end.
Definition options_display (o : N) : list N :=
  bars (map (fun p => txt (snd p)) (filter (fun p => N.testbit o (fst p)) option_names)).
(** nested.rs:1158-1168 *)
Definition link_display (d : list N) : outcome (list N) :=
  let* t := link_timeslot d in let* c := link_channel_offset d in let* o := link_options d in
  Done (txt "Timeslot: " ++ dec t ++ txt ", Channel Offset: " ++ dec c ++ txt ", Link Options: " ++ options_display o).
(** nested.rs:819-842, [indent] = f.width().unwrap_or(0) *)
Definition timings_display (tie : Z -> bool) (indent : nat) (t : timings) : list N :=
  let row (label : string) (us : Z) := repeat 32 indent ++ txt label ++ us_display tie us ++ nl in
  txt "cca_offset: " ++ us_display tie (tt_cca_offset t) ++ nl ++
  row "cca: " (tt_cca t) ++ row "tx offset: " (tt_tx_offset t) ++ row "rx offset: " (tt_rx_offset t) ++
  row "tx ack delay: " (tt_tx_ack_delay t) ++ row "rx ack delay: " (tt_rx_ack_delay t) ++ row "rx wait: " (tt_rx_wait t) ++
  row "ack wait: " (tt_ack_wait t) ++ row "rx/tx: " (tt_rx_tx t) ++ row "max ack: " (tt_max_ack t) ++
  row "max tx: " (tt_max_tx t) ++ row "timeslot length: " (tt_timeslot_length t).
(** nested.rs:143-175; [show r f] is the let-else pattern of its four arms *)
Definition show (label : list N) (r : result (list N)) (f : list N -> outcome (list N)) : outcome (list N) :=
  match r with
  | Err => Done (txt "  " ++ label)
  | Ok x => let* t := f x in Done (txt "  " ++ label ++ txt " " ++ t)
  end.
Definition nie_display (d : list N) : outcome (list N) :=
  let* s := nie_sub_id d in
  match s with
  | SubShort id =>
      let* c := nie_content d in
      if id =? NsTschSynchronization then show (short_label id) (sync_new c) sync_display
      else if id =? NsTschTimeslot then let* r := ts_new c in show (short_label id) r ts_display
      else if id =? NsTschSlotframeAndLink then let* r := sl_new c in show (short_label id) r sl_display
      else Done (txt "  " ++ short_name id ++ txt "(" ++ dbg_slice_hex c ++ txt ")")
  | SubLong id =>
      let* c := nie_content d in
      if id =? NlChannelHopping then show (long_label id) (ch_new c) ch_display
      else Done (txt "  " ++ long_name id ++ txt "(" ++ dbg_slice_hex c ++ txt ")")
  end.

(** ** Payload information elements (payloads.rs:101-115) *)
(** payloads.rs:118-130 *)
Definition payload_names : list (N * string) :=
  [(0x00, "Esdu"); (0x01, "Mlme"); (0x02, "VendorSpecific"); (0x0f, "PayloadTermination")].
Definition payload_name (id : N) : list N := txt (name_in payload_names "Unknown" id).
Fixpoint nested_lines (l : list (list N)) : outcome (list N) :=
  match l with
  | [] => Done []
  | e :: r => let* t := nie_display e in let* ts := nested_lines r in Done (txt "  " ++ t ++ nl ++ ts)
  end.
Definition pie_display (d : list N) : outcome (list N) :=
  let* id := pie_group_id d in
  if id =? PgMlme then
    let* es := pie_nested d in
    let* ts := nested_lines es in
    Done (payload_name id ++ nl ++ ts)
  else
    let* c := pie_content d in
    Done (payload_name id ++ txt "(" ++ dbg_slice_hex c ++ txt ")").
