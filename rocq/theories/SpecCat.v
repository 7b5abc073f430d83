(** SpecCat.v -- what dot15d4-cat should print for a data frame or an enhanced beacon: the lines (with their
    indentation) as a function of the octets of the frame. Independent of Cat.v's functions; only its type of
    lines is used. *)
From Verif Require Import Base Spec SpecFrame FrameControl Addressing SpecAddressing Ie IeContent SpecIe SpecIeContent SpecFrames SpecParse SpecAddressText Cat.


(** ** Frame control: heading, then the ten fields in the order type, security, pending, ack request, compression,
    suppression, IE present, destination mode, source mode, version *)
Definition fc_lines (r : FrameControlRepr) : list (nat * line) :=
  (0, LHeading HFrameControl) :: map (pair 2)
   [ LFrameType (match fr_frame_version r, fr_frame_type r with V2020, (FtBeacon | FtAck) => true | _, _ => false end) (fr_frame_type r);
     LFlag FSecurity (fr_security_enabled r); LFlag FPending (fr_frame_pending r); LFlag FAckRequest (fr_ack_request r);
     LFlag FCompression (fr_pan_id_compression r); LFlag FSuppression (fr_sequence_number_suppression r);
     LFlag FIePresent (fr_information_elements_present r);
     LDstMode (fr_dst_addressing_mode r); LSrcMode (fr_src_addressing_mode r); LVersion (fr_frame_version r) ].

(** ** Sequence number, unless suppressed *)
Definition seq_lines (r : FrameControlRepr) (b : list N) : list (nat * line) :=
  if fr_sequence_number_suppression r then [] else [(0, LHeading HSequenceNumber); (2, LSeq (nth 2 b 0%N))].

(** ** Addressing: the PAN IDs that are present and both addresses (absent ones are shown too), where [dp] and [sp]
    tell which PAN IDs are present and [f] is the octets from the addressing fields on *)
Definition opt_line {A} (g : A -> line) (o : option A) : list (nat * line) :=
  match o with Some x => [(2, g x)] | None => [] end.
Definition addr_lines (r : FrameControlRepr) (dp sp : bool) (f : list N) : list (nat * line) :=
  let d := addr_at (fr_dst_addressing_mode r) f (pan_size dp) in
  let o := pan_size dp + addr_size (fr_dst_addressing_mode r) in
  let s := addr_at (fr_src_addressing_mode r) f (o + pan_size sp) in
  (0, LHeading HAddressing) :: opt_line LDstPan (pan_at dp f 0) ++ [(2, LDstAddr d (is_broadcast d))]
    ++ opt_line LSrcPan (pan_at sp f o) ++ [(2, LSrcAddr s (is_broadcast s))].
(** the addressing lines and the number of octets of the addressing fields *)
Definition addr_shown (r : FrameControlRepr) (b : list N) (n : nat) (L : list (nat * line)) : Prop :=
  (exists dp sp, layout r dp sp /\ n = layout_size r dp sp /\ mhr_size r + n <= length b /\
     L = addr_lines r dp sp (skipn (mhr_size r) b)) \/
  (no_addressing r b /\ n = 0 /\ L = []).

(** ** A header IE; [e]: the octets from its descriptor on *)
Definition header_lines (e : list N) : list (nat * line) :=
  let id := read_as known_header_ids 0x80 (field 7 8 (desc e)) in
  let c := firstn (code_header_size e - 2) (skipn 2 e) in
  (4, LHeaderId id) ::
  (if (id =? 0x7e)%N || (id =? 0x7f)%N then []
   else [(6, if (id =? 0x1e)%N then
               if 2 <=? length c then LTimeCorrection (signed12 (field 0 12 (desc c))) (bit 15 (desc c)) else LInvalid
             else LUnimplemented)]).

(** ** A nested IE of an MLME IE; [e]: its octets, exactly *)
(** the links of the slotframe descriptor that starts with [s]; five octets each, after the first four *)
Definition slotframe_lines (s : list N) : list (nat * line) :=
  (8, LSlotframe (nth 0 s 0%N) (nth 3 s 0%N)) ::
  map (fun i => (10, LLink (num s (4 + 5 * i) 2) (num s (6 + 5 * i) 2) (field 0 5 (nth (8 + 5 * i) s 0%N))))
      (seq 0 (N.to_nat (nth 3 s 0%N))).
Definition nested_id (e : list N) : NestedSubId :=
  if bit 15 (desc e) then SubLong (read_as known_long_ids 0x0a (field 11 4 (desc e)))
  else SubShort (read_as known_short_ids 0x47 (field 8 6 (desc e))).
Definition nested_shown (e : list N) (L : list (nat * line)) : Prop :=
  let c := skipn 2 e in
  exists L', L = (6, LSubId (nested_id e)) :: L' /\
  if bit 15 (desc e) then
    L' = [(8, if (field 11 4 (desc e) =? 9)%N then if length c =? 0 then LInvalid else LHopping (nth 0 c 0%N) else LUnimplemented)]
  else if (field 8 6 (desc e) =? 0x1a)%N then
    L' = [(8, if 6 <=? length c then LSync (num c 0 5) (nth 5 c 0%N) else LInvalid)]
  else if (field 8 6 (desc e) =? 0x1c)%N then
    ((length c = 0 \/ nth 0 c 0%N <> 0%N /\ length c < 25) /\ L' = [(8, LInvalid)]) \/
    (length c = 1 /\ nth 0 c 0%N = 0%N /\ L' = [(8, LTimeslot 0)]) \/
    ((nth 0 c 0%N = 0%N /\ 2 <= length c \/ nth 0 c 0%N <> 0%N /\ 25 <= length c /\ length c <> 26) /\
      L' = [(8, LTimeslot (nth 0 c 0%N)); (8, LTimings (timings_at c))])
  else if (field 8 6 (desc e) =? 0x1b)%N then
    (length c = 0 /\ L' = [(8, LInvalid)]) \/
    (1 <= length c /\ exists ds, descriptors (N.to_nat (nth 0 c 0%N)) (skipn 1 c) ds /\
       Forall (fun s => nth 3 s 0%N <> 0%N) ds /\ L' = (8, LSlotframes (nth 0 c 0%N)) :: concat (map slotframe_lines ds))
  else L' = [(8, LUnimplemented)].

(** ** A payload IE; [e]: the octets from its descriptor on *)
Definition payload_shown (e : list N) (L : list (nat * line)) : Prop :=
  if (field 11 3 (desc e) =? 1)%N then
    exists ns Ls, chop code_nested_size (firstn (code_payload_size e - 2) (skipn 2 e)) ns /\ Forall2 nested_shown ns Ls /\
      L = (4, LMlme) :: concat Ls
  else L = [(4, LGroupUnimplemented (read_as known_group_ids 0x10 (field 11 3 (desc e))))].

(** ** The information elements at the start of [d] and the number of their octets *)
Definition section (h : heading) (Ls : list (list (nat * line))) : list (nat * line) :=
  match Ls with [] => [] | _ => (2, LHeading h) :: concat Ls end.
Definition ies_shown (d : list N) (n : nat) (L : list (nat * line)) : Prop :=
  exists hs hn ps pn Ps, walk code_header_size std_header_stop d hs hn /\
    walk code_payload_size never (skipn hn d) ps pn /\ n = hn + pn /\ n <= length d /\
    Forall2 payload_shown ps Ps /\
    L = (0, LHeading HInformationElements) :: section HHeaderIes (map header_lines hs) ++ section HPayloadIes Ps.

(** ** The whole frame. [always]: an empty payload is shown too (enhanced acknowledgements) *)
Definition payload_lines (always : bool) (p : list N) : list (nat * line) :=
  match p, always with [], false => [] | _, _ => [(0, LHeading HPayload); (2, LOctets p)] end.
Definition frame_shown (always : bool) (r : FrameControlRepr) (b : list N) (L : list (nat * line)) : Prop :=
  exists n A m I, addr_shown r b n A /\
    (fr_information_elements_present r = true /\ ies_shown (skipn (mhr_size r + n) b) m I \/
     (fr_information_elements_present r = false \/ ~ exists k, ies_fit (skipn (mhr_size r + n) b) k) /\ m = 0 /\ I = []) /\
    L = fc_lines r ++ seq_lines r b ++ A ++ I ++ payload_lines always (skipn (mhr_size r + n + m) b).

(** ** When it panics instead: the information elements are decodable and contain a bad element *)
Definition frame_bad (r : FrameControlRepr) (b : list N) : Prop :=
  exists n, (addressing_fits r b n \/ no_addressing r b /\ n = 0) /\ fr_information_elements_present r = true /\
    (exists k, ies_fit (skipn (mhr_size r + n) b) k) /\ bad_ies (skipn (mhr_size r + n) b).

(** ** Octets written as hexadecimal text: two digits each, the first one the more significant *)
Inductive hex_text : list N -> list N -> Prop :=
| hex_text_nil : hex_text [] []
| hex_text_cons a c s x y l : digit_value a x -> digit_value c y -> hex_text s l -> hex_text (a :: c :: s) ((16 * x + y)%N :: l).
