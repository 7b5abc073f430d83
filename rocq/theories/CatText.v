(** CatText.v -- model of the text dot15d4-cat writes: dot15d4-cat/src/lib.rs:4-336, from the lines of Cat.v (which values are
    written, in which order, at which indentation) to characters. A text is the list of its octets. *)
From Coq Require Import String Ascii.
From Verif Require Import Base FrameControl Addressing AddressText Ie IeContent Display Cat.
Local Open Scope string_scope.
Local Open Scope list_scope.
Local Open Scope N_scope.

(** ** The [colored] crate (library, from its documentation): [.bold()] etc. write an escape sequence before and one after the
    text, or nothing when colours are off (environment or output device; [colour] below). Simplification: none of the texts
    written here contains an escape sequence of its own, so the crate's treatment of nested ones is left out. *)
Inductive style := SUnderlineBold | SBold | SItalic | SBrightBlue.
Definition style_code (s : style) : list N :=
  match s with SUnderlineBold => txt "1;4" | SBold => txt "1" | SItalic => txt "3" | SBrightBlue => txt "94" end.
(** a piece of text, with or without a style *)
Definition span : Type := option style * list N.
Definition plain (t : list N) : span := (None, t).
Definition paint (colour : bool) (p : span) : list N :=
  match p with
  | (Some s, t) => if colour then [27] ++ txt "[" ++ style_code s ++ txt "m" ++ t ++ [27] ++ txt "[0m" else t
  | (None, t) => t
  end.

(** ** What is written on each line *)
(** lib.rs:52, 122, 132, 175-178, 188, 197, 235, 330 *)
Definition heading_span (h : heading) : span :=
  match h with
  | HFrameControl => (Some SUnderlineBold, txt "Frame Control")
  | HSequenceNumber => (Some SUnderlineBold, txt "Sequence Number")
  | HAddressing => (Some SUnderlineBold, txt "Addressing")
  | HAuxiliary => (Some SUnderlineBold, txt "Auxiliary Security Header")
  | HInformationElements => (Some SUnderlineBold, txt "Information Elements")
  | HHeaderIes => (Some SItalic, txt "Header Information Elements")
  | HPayloadIes => (Some SItalic, txt "Payload Information Elements")
  | HPayload => (Some SUnderlineBold, txt "Payload")
  end.
(** lib.rs:70-99 *)
Definition flag_label (f : flag) : string :=
  match f with
  | FSecurity => "security" | FPending => "frame pending" | FAckRequest => "ack request" | FCompression => "pan id compression"
  | FSuppression => "sequence number suppression" | FIePresent => "information elements present"
  end.
(** lib.rs:113: [fc.frame_version() as usize], discriminants of frame_control.rs:46-55 *)
Definition version_number (v : FrameVersion) : N := match v with V2003 => 0 | V2006 => 1 | V2020 => 2 | VUnknown => 3 end.
(** [format!("{}: {}", label.bold(), value)] *)
Definition labelled (label : string) (value : list N) : list span := [(Some SBold, txt label); plain (txt ": "); plain value].
(** lib.rs:139-150, 156-167 *)
Definition addr_value (a : Address) (broadcast : bool) : list N :=
  address_display a ++ (if broadcast then txt " (broadcast)" else []).
(** the text of one [writeln], without indentation and newline. [{x}] of a time correction, synchronization, .. is its
    [Display], written here from the values it shows (Display.v: tc_display, sync_display, ts_display, sl_display, sd_display,
    link_display, ch_display, each one these same getters followed by the same text) *)
Definition line_spans (tie : Z -> bool) (indent : nat) (x : line) : list span :=
  match x with
  | LHeading h => [heading_span h]
  | LFrameType e t => (* 54-69 *)
      [(Some SBold, txt "frame type"); plain (txt ": "); (Some SBrightBlue, (if e then txt "Enhanced " else []) ++ txt (FrameType_name t))]
  | LFlag f v => labelled (flag_label f) (dec_bool v)
  | LDstMode m => (* 100-104 *) labelled "dst addressing mode" (txt (AddressingMode_name m))
  | LSrcMode m => (* 105-109 *) labelled "src addressing mode" (txt (AddressingMode_name m))
  | LVersion v => (* 110-115 *) labelled "frame version" (dec (version_number v) ++ txt " (" ++ txt (FrameVersion_name v) ++ txt ")")
  | LSeq n => (* 124 *) labelled "sequence number" (dec n)
  | LDstPan p => (* 136 *) labelled "dst pan id" (hex p)
  | LDstAddr a bc => labelled "dst addr" (addr_value a bc)
  | LSrcPan p => (* 153 *) labelled "src pan id" (hex p)
  | LSrcAddr a bc => labelled "src addr" (addr_value a bc)
  | LAuxUnimplemented => (* 180 *) [plain (txt "unimplementec")]
  | LUnimplemented => (* 219, 310 *) [plain (txt "unimplemented")]
  | LInvalid => (* 216, 260, 274, 298, 307 *) [plain (txt "invalid")]
  | LHeaderId id => (* 206, 208 *) [(Some SBold, header_name id)]
  | LTimeCorrection us nack => (* 214 *) [plain (us_display tie us ++ txt ", nack: " ++ dec_bool nack)]
  | LMlme => (* 241 *) [plain (txt "MLME")]
  | LGroupUnimplemented id => (* 316 *) [(Some SBold, payload_name id); plain (txt ": unimplemented")]
  | LSubId (SubShort id) => (* 248 *) [(Some SBold, short_name id)]
  | LSubId (SubLong id) => (* 249 *) [(Some SBold, long_name id)]
  | LSync asn jm => (* 258 *) [plain (txt "ASN: " ++ dec asn ++ txt ", join metric: " ++ dec jm)]
  | LTimeslot id => (* 265 *) [plain (txt "slot ID: " ++ dec id)]
  | LTimings t => (* 267-271 *) [plain (timings_display tie indent t)]
  | LSlotframes n => (* 281 *) [plain (txt "#slotframes: " ++ dec n)]
  | LSlotframe h n => (* 285-288 *) [(Some SItalic, txt "Slotframe Handle: " ++ dec h ++ txt ", #links: " ++ dec n)]
  | LLink t c o => (* 293 *)
      [plain (txt "Timeslot: " ++ dec t ++ txt ", Channel Offset: " ++ dec c ++ txt ", Link Options: " ++ options_display o)]
  | LHopping id => (* 305 *) [plain (txt "sequence ID: " ++ dec id)]
  | LOctets l => (* 332 *) [plain (dbg_slice_hex l)]
  end.
(** lib.rs:22-30: [write] for the timings (267), whose text ends with a newline of its own, [writeln] for all others *)
Definition line_end (x : line) : list N := match x with LTimings _ => [] | _ => nl end.
Definition line_text (colour : bool) (tie : Z -> bool) (p : nat * line) : list N :=
  repeat 32 (fst p) ++ concat (map (paint colour) (line_spans tie (fst p) (snd p))) ++ line_end (snd p).
(** lib.rs:41-336 [FrameParser::parse] *)
Definition cat_text (colour : bool) (tie : Z -> bool) (b : list N) : outcome (list N) :=
  let* l := cat_parse b in Done (concat (map (line_text colour tie) l)).
(** lib.rs:36-39 [FrameParser::parse_hex] *)
Definition cat_text_hex (colour : bool) (tie : Z -> bool) (s : list N) : outcome (list N) :=
  let* d := unwrap (ok (hex_decode s)) in cat_text colour tie d.
