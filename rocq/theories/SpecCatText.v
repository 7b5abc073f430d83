(** SpecCatText.v -- how a line of dot15d4-cat's output reads. Independent of CatText.v. *)
From Coq Require Import String.
From Verif Require Import Base FrameControl Addressing Ie IeContent SpecAddressText Display SpecDisplay Cat.
Local Open Scope string_scope.
Local Open Scope list_scope.

Definition heading_words (h : heading) : string :=
  match h with
  | HFrameControl => "Frame Control" | HSequenceNumber => "Sequence Number" | HAddressing => "Addressing"
  | HAuxiliary => "Auxiliary Security Header" | HInformationElements => "Information Elements"
  | HHeaderIes => "Header Information Elements" | HPayloadIes => "Payload Information Elements" | HPayload => "Payload"
  end.
Definition flag_words (f : flag) : string :=
  match f with
  | FSecurity => "security: " | FPending => "frame pending: " | FAckRequest => "ack request: " | FCompression => "pan id compression: "
  | FSuppression => "sequence number suppression: " | FIePresent => "information elements present: "
  end.
Definition type_words (t : FrameType) : string :=
  match t with
  | FtBeacon => "Beacon" | FtData => "Data" | FtAck => "Ack" | FtMacCommand => "MacCommand" | FtMultipurpose => "Multipurpose"
  | FtFragmentOrFrak => "FragmentOrFrak" | FtExtended => "Extended" | FtUnknown => "Unknown"
  end.
Definition version_words (v : FrameVersion) : string :=
  match v with
  | V2003 => "0 (Ieee802154_2003)" | V2006 => "1 (Ieee802154_2006)" | V2020 => "2 (Ieee802154_2020)" | VUnknown => "3 (Unknown)"
  end.
Definition mode_words (m : AddressingMode) : string :=
  match m with AmAbsent => "Absent" | AmShort => "Short" | AmExtended => "Extended" | AmUnknown => "Unknown" end.
(** an address: its octets in hexadecimal with colons, or "absent" *)
Definition shown_address (a : Address) (t : list N) : Prop :=
  match a with AAbsent => t = txt "absent" | AShort v | AExtended v => shown_octets t v end.
(** a name from a table, or the name for all other ids *)
Definition named (table : list (N * string)) (other : string) (id : N) (n : string) : Prop :=
  In (id, n) table \/ (~ In id (map fst table) /\ n = other).

(** the text of one line, without indentation and newline *)
Inductive shown_value : line -> list N -> Prop :=
| sv_heading h : shown_value (LHeading h) (txt (heading_words h))
| sv_type (e : bool) t : shown_value (LFrameType e t) (txt "frame type: " ++ txt (if e then "Enhanced " else "") ++ txt (type_words t))
| sv_flag f (v : bool) : shown_value (LFlag f v) (txt (flag_words f) ++ txt (if v then "1" else "0"))
| sv_dmode m : shown_value (LDstMode m) (txt "dst addressing mode: " ++ txt (mode_words m))
| sv_smode m : shown_value (LSrcMode m) (txt "src addressing mode: " ++ txt (mode_words m))
| sv_version v : shown_value (LVersion v) (txt "frame version: " ++ txt (version_words v))
| sv_seq n t : numeral 10 t n -> shown_value (LSeq n) (txt "sequence number: " ++ t)
| sv_dpan n t : numeral 16 t n -> shown_value (LDstPan n) (txt "dst pan id: " ++ t)
| sv_daddr a (bc : bool) t : shown_address a t -> shown_value (LDstAddr a bc) (txt "dst addr: " ++ t ++ txt (if bc then " (broadcast)" else ""))
| sv_span n t : numeral 16 t n -> shown_value (LSrcPan n) (txt "src pan id: " ++ t)
| sv_saddr a (bc : bool) t : shown_address a t -> shown_value (LSrcAddr a bc) (txt "src addr: " ++ t ++ txt (if bc then " (broadcast)" else ""))
| sv_aux : shown_value LAuxUnimplemented (txt "unimplementec")
| sv_unimplemented : shown_value LUnimplemented (txt "unimplemented")
| sv_invalid : shown_value LInvalid (txt "invalid")
| sv_header id n : named header_table "Unkown" id n -> shown_value (LHeaderId id) (txt n)
| sv_correction us (nack : bool) t : shows_time us t -> shown_value (LTimeCorrection us nack) (t ++ txt ", nack: " ++ txt (if nack then "1" else "0"))
| sv_mlme : shown_value LMlme (txt "MLME")
| sv_group id n : named payload_table "Unknown" id n -> shown_value (LGroupUnimplemented id) (txt n ++ txt ": unimplemented")
| sv_short id n : named nested_short_table "Unkown" id n -> shown_value (LSubId (SubShort id)) (txt n)
| sv_long id n : named nested_long_table "Unkown" id n -> shown_value (LSubId (SubLong id)) (txt n)
| sv_sync a j s t : numeral 10 s a -> numeral 10 t j -> shown_value (LSync a j) (txt "ASN: " ++ s ++ txt ", join metric: " ++ t)
| sv_timeslot n t : numeral 10 t n -> shown_value (LTimeslot n) (txt "slot ID: " ++ t)
| sv_slotframes n t : numeral 10 t n -> shown_value (LSlotframes n) (txt "#slotframes: " ++ t)
| sv_slotframe h n s t : numeral 10 s h -> numeral 10 t n -> shown_value (LSlotframe h n) (txt "Slotframe Handle: " ++ s ++ txt ", #links: " ++ t)
| sv_link n c o s t u : numeral 10 s n -> numeral 10 t c -> barred (flags_of o) u ->
    shown_value (LLink n c o) (txt "Timeslot: " ++ s ++ txt ", Channel Offset: " ++ t ++ txt ", Link Options: " ++ u)
| sv_hopping n t : numeral 10 t n -> shown_value (LHopping n) (txt "sequence ID: " ++ t)
| sv_octets l t : shown_slice 16 t l -> shown_value (LOctets l) t.

(** the twelve timings of a timeslot and their labels *)
Definition timing_rows (x : timings) : list (string * Z) :=
  [("cca_offset: ", tt_cca_offset x); ("cca: ", tt_cca x); ("tx offset: ", tt_tx_offset x); ("rx offset: ", tt_rx_offset x);
   ("tx ack delay: ", tt_tx_ack_delay x); ("rx ack delay: ", tt_rx_ack_delay x); ("rx wait: ", tt_rx_wait x); ("ack wait: ", tt_ack_wait x);
   ("rx/tx: ", tt_rx_tx x); ("max ack: ", tt_max_ack x); ("max tx: ", tt_max_tx x); ("timeslot length: ", tt_timeslot_length x)].
Definition indented (k : nat) (t : list N) : list N := repeat 32%N k ++ t ++ [10%N].
(** a line with its indentation and newline; the timings take twelve lines of text *)
Inductive shown_line : nat * line -> list N -> Prop :=
| shl_one k x t : shown_value x t -> shown_line (k, x) (indented k t)
| shl_timings k x ts : Forall2 (fun r t => exists s, t = txt (fst r) ++ s /\ shows_time (snd r) s) (timing_rows x) ts ->
    shown_line (k, LTimings x) (concat (map (indented k) ts)).

(** what two lines that read the same have in common: everything, but for times, which are rounded to hundredths of a
    millisecond, and for the kind (short or long) of a nested element whose id has no name *)
Definition near (a b : Z) : Prop := (Z.abs (a - b) <= 10)%Z.
Definition same_line (x y : line) : Prop :=
  match x, y with
  | LTimeCorrection a n, LTimeCorrection b m => near a b /\ n = m
  | LTimings a, LTimings b => Forall2 near (map snd (timing_rows a)) (map snd (timing_rows b))
  | LSubId (SubShort a), LSubId (SubLong b) | LSubId (SubLong b), LSubId (SubShort a) =>
      ~ In a (map fst nested_short_table) /\ ~ In b (map fst nested_long_table)
  | _, _ => x = y
  end.

(** removing escape sequences: ESC, "[", anything without "m", "m" *)
Inductive uncoloured : list N -> list N -> Prop :=
| uc_nil : uncoloured [] []
| uc_char c t u : c <> 27%N -> uncoloured t u -> uncoloured (c :: t) (c :: u)
| uc_escape code t u : ~ In 109%N code -> uncoloured t u -> uncoloured (27%N :: 91%N :: code ++ 109%N :: t) u.
