{"id": "C01", "title": "Frame Control fields are read from exactly their bits", "statement": "For a buffer of at least two octets, FrameControl::new succeeds and every getter (frame type, security, pending, ack request, PAN-ID compression, sequence-number suppression, IE present, destination mode, version, source mode) returns the value encoded in its own bit range of the first two octets read little-endian, independently of every other bit and of the rest of the buffer; reserved encodings (type 4, version 3, mode 1) read as Unknown; with fewer than two octets new returns Err.", "quantifier": "all octet buffers of any length, all 65536 values of the field", "why_tests_cant": "65536 values times arbitrary trailing bytes; a test samples a handful of patterns", "anchors": ["dot15d4-frame/src/frame_control.rs: FrameControl::new, frame_type .. frame_version", "dot15d4-frame/src/addressing.rs: AddressingMode::from"]}
{"id": "C02", "title": "Frame Control multi-bit setters write their field and nothing else", "statement": "set_frame_type, set_frame_version, set_dst_addressing_mode and set_src_addressing_mode make the matching getter return the value that was set and leave every other getter, the reserved bit and every octet after the second unchanged. The frame type Unknown and the addressing mode Unknown have no code on the wire: setting them writes Beacon, or Absent, and again nothing else changes.", "quantifier": "all buffers of >= 2 octets and all field values", "why_tests_cant": "needs every prior bit pattern", "anchors": ["dot15d4-frame/src/frame_control.rs: set_frame_type, set_frame_version, set_dst_addressing_mode, set_src_addressing_mode"]}
{"id": "C03", "title": "Frame Control flag setters set and clear their flag", "statement": "For each of the six flags, set_x(b) followed by x() returns b, for both values of b, and changes no other field.", "quantifier": "all buffers of >= 2 octets, all six flags, b in {true,false}", "why_tests_cant": "the failing half (clearing a flag that is already set) depends on the earlier contents of the buffer", "anchors": ["dot15d4-frame/src/frame_control.rs: set_security_enabled .. set_information_elements_present"]}
{"id": "C04", "title": "Frame Control representation round-trips", "statement": "Emitting a FrameControlRepr without Unknown fields into two zeroed octets and parsing the result returns the same repr; conversely parsing any Frame Control without reserved encodings and emitting it into zeroed octets reproduces the original octets except for reserved bit 7, which becomes 0.", "quantifier": "all FrameControlRepr values; all 16-bit values", "why_tests_cant": "product of all field values", "anchors": ["dot15d4-frame/src/repr/frame_control.rs: FrameControlRepr::parse, emit"]}
{"id": "C05", "title": "Address value laws", "statement": "Address::from(bytes) yields Absent/Short/Extended for exactly 0/2/8 octets with as_bytes() returning those octets and len() their number (any other length panics); exactly Short(ff:ff) is broadcast, is_unicast is the negation of is_broadcast, exactly one of is_absent/is_short/is_extended holds, and the addressing mode derived from an address has size() = len().", "quantifier": "all addresses and all byte slices", "why_tests_cant": "2^64 addresses, every slice length", "anchors": ["dot15d4-frame/src/addressing.rs: Address::{from,as_bytes,len,is_broadcast,is_unicast,is_absent,is_short,is_extended,to_short}"]}
{"id": "C06", "title": "Address text form round-trips and parsing rejects malformed text", "statement": "For every address, Address::parse(address.to_string()) returns the same address; for every text that is not a well-formed address parse returns Err rather than panicking.", "quantifier": "all addresses, all strings", "why_tests_cant": "unbounded strings, 2^64 addresses", "anchors": ["dot15d4-frame/src/addressing.rs: Address::parse, Display for Address"]}
{"id": "C07", "title": "Addressing-field presence follows the IEEE 802.15.4 tables", "statement": "Which of destination PAN ID, destination address, source PAN ID, source address are present in the MAC header is a function of version, destination mode, source mode and PAN-ID compression that agrees with IEEE 802.15.4-2006 section 7.2.1.1.5 for versions 0 and 1, and with table 7-2 of 802.15.4-2020 for version 2; combinations the standard does not define are rejected.", "quantifier": "all versions x modes x modes x compression", "why_tests_cant": "the whole table has to be right; a wrong row mis-parses all frames using it", "anchors": ["dot15d4-frame/src/addressing.rs: AddressingFields::address_present_flags"]}
{"id": "C08", "title": "Accepted addressing fields are in bounds and have a defined length", "statement": "AddressingFields::new succeeds exactly when the combination is defined and the buffer holds all present fields; then every getter returns without panicking, reads only the first len() octets, and len() is the sum of the sizes of the present fields (it never reaches an unreachable!()).", "quantifier": "all buffers and all frame controls", "why_tests_cant": "all lengths times all header combinations", "anchors": ["dot15d4-frame/src/addressing.rs: AddressingFields::{new,check_len,len,dst_address,src_address,dst_pan_id,src_pan_id}"]}
{"id": "C09", "title": "Addressing fields write/read round-trip", "statement": "Writing an addressing representation whose presence pattern matches the frame control into a large enough buffer and reading it back returns exactly the same PAN IDs and addresses, in the octet order of the standard (PAN IDs little-endian, addresses reversed), and leaves octets after the addressing fields unchanged.", "quantifier": "all addresses, PAN IDs, frame controls and buffer contents", "why_tests_cant": "2^160 field values", "anchors": ["dot15d4-frame/src/addressing.rs: write_fields", "dot15d4-frame/src/repr/addressing.rs: AddressingFieldsRepr::{parse,emit}"]}
{"id": "C10", "title": "Auxiliary security header decoding", "statement": "For an accepted auxiliary security header, security level, key identifier mode and length follow table 9-6 of the standard: levels 4-7 encrypt (data_confidentiality), levels 1-3 and 5-7 authenticate with a 4/8/16-octet MIC; every accessor is in bounds.", "quantifier": "all octet buffers", "why_tests_cant": "all 256 security-control octets times all lengths", "anchors": ["dot15d4-frame/src/aux_sec_header.rs"]}
{"id": "C11", "title": "DataFrame::new accepts exactly well-formed unsecured frames", "statement": "DataFrame::new succeeds iff the buffer has 2..=127 octets (at least 3 when the sequence number is not suppressed), security is not enabled, and type, version and both addressing modes are not Unknown; otherwise it returns Err; it never panics.", "quantifier": "all octet buffers of any length", "why_tests_cant": "unbounded inputs", "anchors": ["dot15d4-frame/src/frames/data.rs: DataFrame::{new,check_len}"]}
{"id": "C12", "title": "No accessor of an accepted data frame panics", "statement": "For every buffer accepted by DataFrame::new, frame_control, sequence_number, addressing (and its getters), information_elements (and its iterators) and payload return without panicking.", "quantifier": "all octet buffers accepted by new", "why_tests_cant": "adversarial radio input: every truncation at every offset", "anchors": ["dot15d4-frame/src/frames/data.rs", "dot15d4-frame/src/ie/mod.rs", "dot15d4-frame/src/addressing.rs"]}
{"id": "C13", "title": "Data frame fields partition the buffer", "statement": "For an accepted data frame whose addressing is defined, the buffer is exactly frame control ++ sequence number (if not suppressed) ++ addressing fields ++ information elements (if present and decodable) ++ payload; payload() is exactly the remaining octets and is None iff nothing remains.", "quantifier": "all accepted buffers", "why_tests_cant": "every combination of header options", "anchors": ["dot15d4-frame/src/frames/data.rs: payload, information_elements, addressing"]}
{"id": "C14", "title": "Frame::new dispatches by type and version and never panics", "statement": "For every octet buffer Frame::new returns, without panicking, Err for fewer than two octets or an unsupported type/version, otherwise the variant matching the frame type and version.", "quantifier": "all octet buffers", "why_tests_cant": "adversarial radio input", "anchors": ["dot15d4-frame/src/frames/mod.rs: Frame::new", "dot15d4-frame/src/frames/beacon.rs: Beacon::new"]}
{"id": "C15", "title": "Enhanced acknowledgement accessors never panic after new", "statement": "For every buffer accepted by EnhancedAck::new every accessor returns without panicking, and for well-formed enhanced ACKs (2020) the fields partition the buffer.", "quantifier": "all octet buffers", "why_tests_cant": "adversarial input", "anchors": ["dot15d4-frame/src/frames/ack.rs: EnhancedAck"]}
{"id": "C16", "title": "Enhanced beacon accessors never panic and partition the buffer", "statement": "For every buffer accepted by EnhancedBeacon::new, every accessor returns without panicking and the fields partition the buffer as for data frames.", "quantifier": "all octet buffers", "why_tests_cant": "adversarial input", "anchors": ["dot15d4-frame/src/frames/beacon.rs: EnhancedBeacon"]}
{"id": "C17", "title": "Frame check sequence is the ITU-T CRC-16", "statement": "FrameWithFcs::new succeeds iff the buffer has at least two octets and its last two octets (little-endian) equal the reflected CRC-16 (polynomial x^16+x^12+x^5+1, initial value 0) of the preceding octets, i.e. the remainder of the message polynomial times x^16; appending that CRC to any content yields a frame that is accepted and whose content()/fcs() are the originals.", "quantifier": "all contents of any length", "why_tests_cant": "unbounded messages", "anchors": ["dot15d4-frame/src/frames/mod.rs: FrameWithFcs"]}
{"id": "C18", "title": "FCS detects every single-bit error and every burst of at most 16 bits", "statement": "If two distinct frames of equal length with valid FCS differ, their difference spans more than 16 bits: flipping any one bit, or any non-empty set of bits inside a window of 16 consecutive bits, of an accepted frame of any length makes FrameWithFcs::new return Err.", "quantifier": "all accepted frames of any length, all bursts", "why_tests_cant": "all messages x all error patterns", "anchors": ["dot15d4-frame/src/frames/mod.rs: FrameWithFcs::new"]}
{"id": "C19", "title": "Header IE iteration is in bounds and terminates", "statement": "Iterating header information elements over any octets yields finitely many elements, each a contiguous slice starting where the previous ended, each of declared length + 2 octets, all inside the buffer; iteration stops at a termination IE, at the end of the data or at the first element that does not fit; nothing panics.", "quantifier": "all octet buffers", "why_tests_cant": "adversarial input of any length", "anchors": ["dot15d4-frame/src/ie/headers.rs: HeaderInformationElementsIterator, HeaderInformationElement::new"]}
{"id": "C20", "title": "Payload IE iteration is in bounds and terminates", "statement": "Same for payload information elements, stopping at payload termination.", "quantifier": "all octet buffers", "why_tests_cant": "adversarial input of any length", "anchors": ["dot15d4-frame/src/ie/payloads.rs: PayloadInformationElementsIterator"]}
{"id": "C21", "title": "Nested IE iteration is in bounds and terminates", "statement": "Same for nested (MLME) information elements.", "quantifier": "all octet buffers", "why_tests_cant": "adversarial input of any length", "anchors": ["dot15d4-frame/src/ie/nested.rs: NestedInformationElementsIterator"]}
{"id": "C22", "title": "InformationElements::new accepts exactly decodable lists and len() covers them", "statement": "InformationElements::new(data) never panics; when it succeeds len() <= data length, header elements occupy the first octets, payload elements start right after the last header element, and len() is the total size of both lists.", "quantifier": "all octet buffers", "why_tests_cant": "adversarial input", "anchors": ["dot15d4-frame/src/ie/mod.rs: InformationElements"]}
{"id": "C23", "title": "Header IE descriptor write/read round-trip", "statement": "Writing element id and length (0..=127) into a header IE descriptor and reading them back returns the same id and length; the descriptor of any header IE decodes to the 7-bit length in bits 0-6 and the 8-bit element id in bits 7-14.", "quantifier": "all ids and lengths", "why_tests_cant": "256 x 128 combinations; the failing ones are those the tests do not use", "anchors": ["dot15d4-frame/src/ie/headers.rs: HeaderInformationElement"]}
{"id": "C24", "title": "Payload IE descriptor write/read round-trip", "statement": "Writing group id and length (0..=2047) into a payload IE descriptor and reading them back returns the same values (11-bit length in bits 0-10, 4-bit group id in bits 11-14, type bit 15 = 1).", "quantifier": "all group ids and lengths", "why_tests_cant": "16 x 2048 combinations", "anchors": ["dot15d4-frame/src/ie/payloads.rs: PayloadInformationElement"]}
{"id": "C25", "title": "Nested IE descriptor write/read round-trip", "statement": "Writing a short (8-bit length, 7-bit id) or long (11-bit length, 4-bit id) nested descriptor and reading it back returns the same kind, id and length.", "quantifier": "all ids and lengths", "why_tests_cant": "product of ids and lengths", "anchors": ["dot15d4-frame/src/ie/nested.rs: NestedInformationElement"]}
{"id": "C26", "title": "Time Correction IE round-trip", "statement": "Setting time correction us and the NACK flag and reading them back returns the same values for every us in the 12-bit signed range -2048..=2047; every 2-octet content decodes to the sign-extended 12 low bits and bit 15.", "quantifier": "all 16-bit contents, all representable corrections", "why_tests_cant": "sign extension at every value", "anchors": ["dot15d4-frame/src/ie/headers.rs: TimeCorrection"]}
{"id": "C27", "title": "TSCH Synchronization IE round-trip", "statement": "An absolute slot number below 2^40 and a join metric written to the IE are read back unchanged, little-endian, six octets.", "quantifier": "all ASN < 2^40, all join metrics", "why_tests_cant": "2^48 values", "anchors": ["dot15d4-frame/src/ie/nested.rs: TschSynchronization", "dot15d4-frame/src/repr/ie/nested.rs: TschSynchronizationRepr"]}
{"id": "C28", "title": "TSCH Timeslot IE round-trip and safety", "statement": "Timeslot timings whose values fit their wire fields (16-bit, last two 16 or 24-bit) written to the IE are read back unchanged; TschTimeslot::new followed by any accessor never panics for any octets.", "quantifier": "all timings, all octet buffers", "why_tests_cant": "12 fields of 2^16..2^24 values; every length", "anchors": ["dot15d4-frame/src/ie/nested.rs: TschTimeslot, TschTimeslotTimings"]}
{"id": "C29", "title": "TSCH Slotframe and Link IE round-trip and safety", "statement": "A list of slotframe descriptors (handle, size, links of timeslot/channel offset/options) written to the IE is read back unchanged and in order; iteration over arbitrary octets is in bounds and never panics.", "quantifier": "all descriptor lists, all octet buffers", "why_tests_cant": "unbounded lists", "anchors": ["dot15d4-frame/src/ie/nested.rs: TschSlotframeAndLink, SlotframeDescriptor, LinkInformation and iterators"]}
{"id": "C30", "title": "Fixed-layout records decode their fields at the standard's offsets", "statement": "Records declared with the #[frame] attribute (CSL, RIT, rendezvous time, channel hopping, vendor specific, simplified superframe, ...) read each field from its own octets: distinct fields come from distinct octets, and a buffer accepted by new is long enough for all getters.", "quantifier": "all octet buffers", "why_tests_cant": "all buffers; a wrong offset is invisible when octets coincide", "anchors": ["dot15d4-macros/src/lib.rs: frame", "dot15d4-frame/src/ie/headers.rs", "dot15d4-frame/src/ie/nested.rs"]}
{"id": "C31", "title": "Declared buffer length equals emitted length", "statement": "For every valid frame representation, emit writes a frame of exactly buffer_len() octets: emitting into a buffer of that size does not panic and every octet is determined by the representation.", "quantifier": "all FrameRepr values accepted by validate", "why_tests_cant": "all combinations of header options, IEs and payload lengths", "anchors": ["dot15d4-frame/src/repr/mod.rs: FrameRepr::{buffer_len,emit}", "dot15d4-frame/src/repr/ie/*.rs", "dot15d4-frame/src/repr/addressing.rs"]}
{"id": "C32", "title": "Frames built without IEs round-trip", "statement": "A frame built with FrameBuilder (imm-ack, data, enhanced beacon/ack without IEs) with present addresses and emitted into a zeroed buffer is accepted by DataFrame::new and parses to the same representation (control, sequence number, addresses, payload).", "quantifier": "all sequence numbers, PAN IDs, addresses and payloads", "why_tests_cant": "2^160 header values times payloads", "anchors": ["dot15d4-frame/src/repr/builder.rs", "dot15d4-frame/src/repr/mod.rs: FrameRepr::{parse,emit}"]}
{"id": "C33", "title": "Frames with IEs round-trip", "statement": "A valid frame representation with header and payload IEs, emitted and parsed again, yields the same information elements.", "quantifier": "all IE lists within capacity", "why_tests_cant": "unbounded combinations of IEs", "anchors": ["dot15d4-frame/src/repr/ie/mod.rs", "dot15d4-frame/src/repr/ie/headers.rs", "dot15d4-frame/src/repr/ie/payloads.rs", "dot15d4-frame/src/repr/ie/nested.rs"]}
{"id": "C34", "title": "validate implies emit does not panic", "statement": "For every FrameRepr for which validate() returns Ok, emit into a buffer of buffer_len() octets does not panic (the fuzz target repr.rs).", "quantifier": "all FrameRepr values", "why_tests_cant": "the type is infinite", "anchors": ["dot15d4-frame/src/repr/mod.rs: FrameRepr::validate", "fuzz/fuzz_targets/repr.rs"]}
{"id": "C35", "title": "Parsing an accepted frame never panics", "statement": "For every buffer accepted by DataFrame::new, FrameRepr::parse returns without panicking (the fuzz target frame.rs).", "quantifier": "all octet buffers", "why_tests_cant": "adversarial radio input", "anchors": ["dot15d4-frame/src/repr/mod.rs: FrameRepr::parse", "fuzz/fuzz_targets/frame.rs"]}
{"id": "C36", "title": "The builder produces consistent frame control and addressing", "statement": "When FrameBuilder::finalize succeeds, the frame control's modes, PAN-ID compression, sequence suppression and IE-present flags describe exactly the fields present in the frame, so that the header is decodable; identical PAN IDs are compressed; otherwise it returns Err.", "quantifier": "all builder states", "why_tests_cant": "all combinations of optional fields", "anchors": ["dot15d4-frame/src/repr/builder.rs: finalize"]}
{"id": "C37", "title": "Header termination IEs are inserted by the rules of the standard", "statement": "When emitting information elements, a termination is inserted after header IEs exactly as table 7-6 requires: HT1 when payload IEs follow, HT2 when header IEs are followed by payload data, payload termination when payload IEs are followed by data, none otherwise.", "quantifier": "all IE lists and payload presence", "why_tests_cant": "all combinations", "anchors": ["dot15d4-frame/src/repr/ie/mod.rs: header_information_elements_terminations"]}
{"id": "C38", "title": "Immediate acknowledgements are well-formed and recognised", "statement": "The immediate ACK built for sequence number s is the three octets 02 10 s; it is accepted by DataFrame::new and Ack::new, has type Ack and sequence number s, and is recognised as a valid ACK for s and for no other sequence number.", "quantifier": "all sequence numbers", "why_tests_cant": "exhaustive over peers and numbers", "anchors": ["dot15d4-frame/src/repr/builder.rs: new_imm_ack", "dot15d4/src/csma/mod.rs: wait_for_valid_ack, receive_frame_task"]}
{"id": "C39", "title": "Frame filtering delivers exactly frames addressed to us", "statement": "A frame is considered addressed to this device iff its destination PAN (broadcast PAN if absent) is ours or broadcast, and its destination is the broadcast address, our short address (last two octets of the hardware address) or our extended address (absent destination counts as broadcast only with implicit broadcast and undecodable addressing).", "quantifier": "all hardware addresses, PAN IDs and frames", "why_tests_cant": "2^64 addresses", "anchors": ["dot15d4/src/csma/mod.rs: is_package_for_us"]}
{"id": "C40", "title": "Reception decision", "statement": "A received buffer is delivered to the upper layer iff it is a valid radio frame and DataFrame, is for us (or filtering is off) and is not an ACK; it is acknowledged iff delivered, has a sequence number, and ack_everything is set or it requests an ACK and the config allows ACKs for its destination class; the delivered octets are exactly the received ones and the ACK carries the frame's sequence number.", "quantifier": "all buffers and configurations", "why_tests_cant": "all frames x configs", "anchors": ["dot15d4/src/csma/mod.rs: receive_frame_task"]}
{"id": "C41", "title": "Delivered frames reach the upper layer exactly once and in order", "statement": "Over any sequence of radio receptions, the sequence of frames handed to Driver::received is exactly the accepted subsequence of received frames, in order, without duplication or loss.", "quantifier": "all sequences of receptions and cancellations", "why_tests_cant": "all schedules", "anchors": ["dot15d4/src/csma/mod.rs: receive_frame_task"]}
{"id": "C42", "title": "Acknowledgement request flag of outgoing frames", "statement": "Before transmission the ack-request flag of a valid Data/MAC-command frame is set iff its destination class is configured to be acknowledged, and cleared otherwise; no other octet changes; the sequence number is awaited iff the flag was set and the number is present; invalid frames are left unchanged and reported.", "quantifier": "all buffers and configs", "why_tests_cant": "all frames x configs", "anchors": ["dot15d4/src/csma/mod.rs: set_ack_request_if_possible"]}
{"id": "C43", "title": "PAN ID overwriting touches only PAN IDs", "statement": "Overwriting PAN IDs replaces a present source (destination) PAN ID by the configured one when enabled, leaving all other octets of the frame unchanged; never panics.", "quantifier": "all buffers and configs", "why_tests_cant": "all frames", "anchors": ["dot15d4/src/csma/mod.rs: overwrite_pan_id"]}
{"id": "C44", "title": "CSMA-CA attempts are bounded and reported", "statement": "transmit_cca performs at most macMaxCsmaBackoffs CCA transmissions; it returns Ok iff one of them succeeded, after which no more are made, reporting CcaBackoff(1),...,CcaBackoff(k-1) for the k-1 failures before; after macMaxCsmaBackoffs failures it returns CcaError.", "quantifier": "all CCA outcome sequences, all limits >= 1", "why_tests_cant": "all outcome histories", "anchors": ["dot15d4/src/csma/transmission.rs: transmit_cca"]}
{"id": "C45", "title": "Retransmissions are bounded and each frame ends in exactly one outcome", "statement": "For every frame handed to transmit_package_task, the frame is sent at most macMaxFrameRetries times (each with its own CSMA attempts); it ends in exactly one of: success (no ACK expected, or ACK received), CcaFailed, or AckFailed preceded by AckRetry(1..n-1).", "quantifier": "all outcomes of CCA and ACK reception, all limits >= 1", "why_tests_cant": "all histories", "anchors": ["dot15d4/src/csma/mod.rs: transmit_package_task"]}
{"id": "C46", "title": "Only a matching acknowledgement ends the wait", "statement": "wait_for_valid_ack returns exactly when a successfully received, valid frame is an Ack frame with the awaited sequence number; any other reception is ignored.", "quantifier": "all reception histories", "why_tests_cant": "all histories", "anchors": ["dot15d4/src/csma/mod.rs: wait_for_valid_ack"]}
{"id": "C47", "title": "Backoff delay bounds", "statement": "The n-th backoff waits a whole number of unit backoff periods in 0..=2^BE-1 with BE = min(minBE+n, maxBE); BE never exceeds maxBE (when minBE <= maxBE) and no arithmetic overflows for the shipped constants.", "quantifier": "all random values, all n", "why_tests_cant": "all rng outputs", "anchors": ["dot15d4/src/csma/transmission.rs: CCABackoffStrategy::perform_backoff"]}
{"id": "C48", "title": "The radio is used only while its lock is held and the lock is always released", "statement": "Every radio operation by the transmit and receive paths happens while the task holds the radio guard; after the transmit path finished a frame or backs off it does not hold the guard.", "quantifier": "all schedules", "why_tests_cant": "all interleavings", "anchors": ["dot15d4/src/csma/mod.rs", "dot15d4/src/csma/utils.rs: acquire_lock", "dot15d4/src/csma/transmission.rs"]}
{"id": "C49", "title": "Mutex mutual exclusion", "statement": "At any time at most one MutexGuard of a Mutex exists; try_lock returns a guard iff none exists; a lock future completes only when none exists.", "quantifier": "all sequences of lock polls, try_locks, guard drops and future cancellations by any number of tasks", "why_tests_cant": "all interleavings", "anchors": ["dot15d4/src/sync/mutex.rs"]}
{"id": "C50", "title": "Mutex wakeups are never lost", "statement": "Whenever a task is waiting on lock() and the mutex becomes free, some waiting task has been woken and not polled since; each displaced waiter is woken; so no set of waiters can sleep forever on a free mutex.", "quantifier": "all interleavings including cancellation", "why_tests_cant": "all interleavings", "anchors": ["dot15d4/src/sync/mutex.rs: LockFuture, MutexGuard::drop"]}
{"id": "C51", "title": "Channel delivers the latest message at most once", "statement": "receive() returns exactly the most recently sent message since the last receive, each message is received at most once, send returns true iff it replaced an unread message, and no uninitialised or stale message is ever read.", "quantifier": "all operation sequences", "why_tests_cant": "all histories", "anchors": ["dot15d4/src/sync/channel.rs: Sender::send, Receiver::receive"]}
{"id": "C52", "title": "send_async never overwrites", "statement": "A message is sent by send_async only when the channel is empty, so with senders using only send_async, the sequence of received messages is exactly the sequence of sent messages.", "quantifier": "all interleavings of one sender and one receiver", "why_tests_cant": "all interleavings", "anchors": ["dot15d4/src/sync/channel.rs: Sender::send_async"]}
{"id": "C53", "title": "Channel wakeups are never lost", "statement": "With one sender task and one receiver task, whenever the receiver waits and a message is present, or the sender waits and the channel is empty, that task has been woken since it was last polled.", "quantifier": "all interleavings", "why_tests_cant": "all interleavings", "anchors": ["dot15d4/src/sync/channel.rs"]}
{"id": "C54", "title": "Every unread message is dropped exactly once", "statement": "Every message value passed to send is either returned by receive or dropped, exactly once (replaced messages are dropped by the replacing send; a message pending when the channel is dropped or split is dropped too).", "quantifier": "all histories", "why_tests_cant": "all histories", "anchors": ["dot15d4/src/sync/channel.rs: Channel::split, send, receive"]}
{"id": "C55", "title": "select is biased, returns the first ready result and polls fairly otherwise", "statement": "Each poll of select polls the first future, then the second only if the first is pending; it returns the first ready one's value, First if both are ready; it never polls a future after completion.", "quantifier": "all behaviours of both futures", "why_tests_cant": "all poll histories", "anchors": ["dot15d4/src/sync/select.rs"]}
{"id": "C56", "title": "join returns both results and never polls a completed future", "statement": "join becomes ready exactly when both futures have completed, returns both their values, and polls each future until its completion and never after.", "quantifier": "all behaviours of both futures", "why_tests_cant": "all poll histories", "anchors": ["dot15d4/src/sync/join.rs"]}
{"id": "C57", "title": "yield_now yields exactly once", "statement": "yield_now is pending exactly on its first poll, having woken its own waker, and ready on the second.", "quantifier": "all poll sequences", "why_tests_cant": "trivial but schedule-dependent", "anchors": ["dot15d4/src/sync/yield_now.rs"]}
{"id": "C58", "title": "Radio operations are cancelled exactly when abandoned", "statement": "If the transmit/receive future is dropped after its first poll and before completion, cancel_current_operation is called exactly once; if it completes or was never polled, it is never called.", "quantifier": "all poll/drop schedules and radio behaviours", "why_tests_cant": "all schedules", "anchors": ["dot15d4/src/phy/radio/futures.rs"]}
{"id": "C59", "title": "Channel numbers round-trip", "statement": "Channel::try_from(n) succeeds iff 11 <= n <= 26 and u8::from is its inverse.", "quantifier": "all i32", "why_tests_cant": "2^32 values", "anchors": ["dot15d4/src/phy/config.rs"]}
{"id": "C60", "title": "Duration and Instant arithmetic", "statement": "Duration/Instant add, sub, mul, div agree with integer arithmetic on microseconds whenever the mathematical result fits in i64 (division truncating; division by zero panics).", "quantifier": "all i64 values", "why_tests_cant": "overflow boundaries", "anchors": ["dot15d4/src/time.rs", "dot15d4-frame/src/time.rs"]}
{"id": "C61", "title": "Beacon superframe, GTS and pending-address fields", "statement": "SuperframeSpecification, GtsSpecification, GTS descriptors and pending address lists decode their fields from the standard's bit positions; iterators yield exactly the declared number of entries in order and stay inside the accepted buffer.", "quantifier": "all octet buffers", "why_tests_cant": "adversarial input", "anchors": ["dot15d4-frame/src/frames/beacon.rs"]}
{"id": "C62", "title": "The frame printer shows what the octets say and does not panic", "statement": "dot15d4-cat's FrameParser::parse never panics: it returns Err for input that is not a valid frame (or not hexadecimal, parse_hex), and for an accepted frame it prints exactly the decoded frame control, sequence number, addressing fields, header and payload information elements (time correction, TSCH synchronization, timeslot, slotframes and links, channel hopping) and payload, properly indented.", "quantifier": "all octet strings", "why_tests_cant": "adversarial input", "anchors": ["dot15d4-cat/src/lib.rs: FrameParser::parse"]}
{"id": "C63", "title": "Radio hand-over between receive and transmit tasks makes progress", "statement": "When the transmit task wants the radio while the receive task is idle or listening, the device wakes itself, the receive task gives up the radio, and the transmit task obtains it within two polls of the device, unless a frame is received in the first of them or a received frame is still being handed to the upper layer or acknowledged. The receive task waits for the radio only while the transmit task has it, is woken when it is released, and obtains it in its next poll unless the transmit task has it again.", "quantifier": "all channel/mutex states and poll schedules of the two tasks", "why_tests_cant": "all interleavings", "anchors": ["dot15d4/src/csma/mod.rs: run", "dot15d4/src/csma/utils.rs: acquire_lock"]}
{"id": "C64", "title": "The CSMA device never panics and never gets stuck", "statement": "Running the device with any radio, driver, timer, random numbers and poll schedule never panics (unwrap on a missing guard, arithmetic overflow, slice index) and never ends; every operation it performs can be answered by the environment.", "quantifier": "all environments and histories, all constants in range", "why_tests_cant": "all histories", "anchors": ["dot15d4/src/csma/mod.rs: run", "dot15d4/src/csma/transmission.rs"]}
{"id": "C65", "title": "Radio configuration of operations", "statement": "Every reception and transmission uses the configured channel; frames are sent with clear channel assessment, acknowledgements without.", "quantifier": "all runs", "why_tests_cant": "all histories", "anchors": ["dot15d4/src/csma/mod.rs", "dot15d4/src/csma/transmission.rs: transmit_cca", "dot15d4/src/phy/config.rs"]}
{"id": "C66", "title": "Builder calls do what they say", "statement": "After any sequence of FrameBuilder calls the builder holds exactly the frame asked for: for each of sequence number, PAN IDs, addresses and payload the value of the last call that set it (or what the constructor gave), all information elements in the order they were added, and a frame control that states these; no call changes anything else. The only panic is adding more than 16 header or more than 16 payload information elements.", "quantifier": "all constructors and all finite sequences of builder calls with any arguments", "why_tests_cant": "call sequences are unbounded", "anchors": ["dot15d4-frame/src/repr/builder.rs: FrameBuilder"]}
{"id": "C67", "title": "What FrameRepr::validate accepts", "statement": "validate() returns Ok exactly for frames whose payload, if present, is not empty and which, if they are data frames, have a payload and at least one addressing field; it never panics. Every frame finalized by the builder with a non-empty (or no) payload validates.", "quantifier": "all FrameRepr values; all builder call sequences", "why_tests_cant": "infinite type", "anchors": ["dot15d4-frame/src/repr/mod.rs: FrameRepr::validate", "dot15d4-frame/src/repr/addressing.rs: AddressingFieldsRepr::validate"]}
{"id": "C68", "title": "Sections of a beacon frame", "statement": "For every well-formed 2003/2006 beacon (frame control, sequence number, addressing fields, security header if enabled, superframe specification, GTS fields, pending addresses, payload), the accessors of a Beacon reader return exactly these sections.", "quantifier": "all beacons of any length and content", "why_tests_cant": "infinitely many frames; the section offsets depend on the content of all earlier sections", "anchors": ["dot15d4-frame/src/frames/beacon.rs: Beacon"]}
{"id": "C69", "title": "A waiting transmit task is not starved", "statement": "There is a number of polls after which a transmit task that waits for the radio has obtained it, whatever the radio receives and however long the upper layer takes to accept received frames.", "quantifier": "all device configurations, receptions, driver behaviours and poll schedules", "why_tests_cant": "starvation is a property of unbounded executions; every finite test run is compatible with it", "anchors": ["dot15d4/src/csma/mod.rs: receive_frame_task", "dot15d4/src/csma/utils.rs: acquire_lock"]}
{"id": "C70", "title": "Build-time configuration", "statement": "For every environment, a successful build defines each configurable constant exactly once, with its declared type and the text of the corresponding DOT15D4_ variable if that is set, else the default; without variables the device parameters are the tested ones; a misspelt variable fails the build; every variable documented in the README can be set.", "quantifier": "all environments (any variables, values, order)", "why_tests_cant": "the generated file depends on the whole environment and on the iteration order of a hash map; the unit tests do not even use the generated file (cfg(test) replaces it)", "anchors": ["dot15d4/build.rs", "dot15d4/src/csma/user_configurable_constants.rs", "README.md"]}
{"id": "C71", "title": "A poll of the device does bounded work", "statement": "For every device there is a number of operations (calls and polls of the radio, driver, timer, locks, signal and random number generator) that no single poll of its future exceeds, whatever these answer; in particular every poll ends.", "quantifier": "all configurations, histories of polls and answers of the environment", "why_tests_cant": "a poll that does not return needs an environment that keeps answering at once; a test has to pick answers and stops after finitely many", "anchors": ["dot15d4/src/csma/mod.rs: run, wait_for_valid_ack, transmit_package_task", "dot15d4/src/csma/transmission.rs", "dot15d4/src/csma/utils.rs"]}
{"id": "C72", "title": "The radio is enabled first, and once", "statement": "In every execution of the device's future, nothing is done with radio, driver, timer, locks or random numbers before the radio has been enabled, and it is not enabled again afterwards.", "quantifier": "all configurations, answers of the environment and schedules of polls, at every moment", "why_tests_cant": "the enabling may take any number of polls and the run is unbounded; a test sees finitely many prefixes", "anchors": ["dot15d4/src/csma/mod.rs: run, receive_frame_task, transmit_package_task", "dot15d4/src/csma/utils.rs: acquire_lock", "dot15d4/src/phy/radio/mod.rs: Radio::enable"]}
{"id": "C73", "title": "Handing a frame over does not block the radio", "statement": "Whenever the device is suspended while a received frame is being handed to the upper layer, the receive task holds the radio only if that frame is to be acknowledged; otherwise the transmit task can use it, however slow the upper layer is.", "quantifier": "all configurations, frames, answers and schedules, at every suspension", "why_tests_cant": "the time the upper layer takes and what the radio delivered are arbitrary", "anchors": ["dot15d4/src/csma/mod.rs: run, receive_frame_task, transmit_package_task", "dot15d4/src/csma/utils.rs: acquire_lock"]}
{"id": "C74", "title": "Nothing comes between a frame and its acknowledgement", "statement": "From the end of the transmission of a frame until the device stops listening for its acknowledgement, the receive task does not operate the radio; from the reception of a frame that is to be acknowledged until the acknowledgement is transmitted, the transmit task does not.", "quantifier": "all configurations, frames, interleavings of the two tasks and suspension points", "why_tests_cant": "an interleaving of the two tasks at any suspension point could break it", "anchors": ["dot15d4/src/csma/mod.rs: run, receive_frame_task, transmit_package_task", "dot15d4/src/csma/utils.rs: acquire_lock", "dot15d4/src/csma/mod.rs: wait_for_valid_ack"]}
{"id": "C75", "title": "Receptions are given up only for a transmission", "statement": "A reception is given up only while the transmit task wants the radio.", "quantifier": "all configurations, answers and schedules", "why_tests_cant": "the signal between the tasks can be sent, overwritten and received in any order with the polls", "anchors": ["dot15d4/src/csma/mod.rs: run, receive_frame_task, transmit_package_task", "dot15d4/src/csma/utils.rs: acquire_lock", "dot15d4/src/phy/radio/futures.rs", "dot15d4/src/sync/channel.rs"]}
{"id": "C76", "title": "No busy waiting", "statement": "The device wakes itself at most once at the start, once for each completed or given-up reception and once for each frame taken; so with nothing to receive or transmit it wakes itself only finitely often.", "quantifier": "all configurations, answers and schedules, at every moment", "why_tests_cant": "busy waiting shows only in unbounded runs", "anchors": ["dot15d4/src/csma/mod.rs: run, receive_frame_task, transmit_package_task", "dot15d4/src/csma/utils.rs: acquire_lock", "dot15d4/src/sync/yield_now.rs"]}
{"id": "C77", "title": "Nothing awaited is left unpolled", "statement": "Whenever the device is polled, everything it was waiting for (a frame to send, an operation of the radio, a lock, the signal, room for it, Driver::error, Driver::received, a timer) is polled or dropped before it suspends again, and everything it begins to wait for is polled at least once before it suspends: no event can be missed for lack of a registered waker.", "quantifier": "all configurations, answers and schedules, every poll", "why_tests_cant": "an unpolled future loses a wake-up only in particular interleavings of the two tasks and their inner futures", "anchors": ["dot15d4/src/csma/mod.rs: run, receive_frame_task, transmit_package_task, wait_for_valid_ack", "dot15d4/src/csma/transmission.rs: transmit_cca, perform_backoff", "dot15d4/src/csma/utils.rs: acquire_lock", "dot15d4/src/sync/select.rs", "dot15d4/src/sync/join.rs"]}
{"id": "C78", "title": "Time-critical steps are begun at once", "statement": "Within the same poll: after the reception of a frame to be acknowledged the delay before the acknowledgement starts; when it is over the transmission of the acknowledgement starts; after a frame was sent the radio is released or both the timeout and the reception of the acknowledgement start; after a busy channel the radio is released and this is reported, and the backoff delay starts without waiting for the upper layer.", "quantifier": "all configurations, answers and schedules, every occurrence in every history", "why_tests_cant": "an extra suspension delays a step by an unbounded time only under particular executors", "anchors": ["dot15d4/src/csma/mod.rs: run, receive_frame_task, transmit_package_task, wait_for_valid_ack", "dot15d4/src/csma/transmission.rs: transmit_cca, perform_backoff", "dot15d4/src/csma/utils.rs: acquire_lock", "dot15d4/src/sync/select.rs", "dot15d4/src/sync/join.rs"]}
{"id": "C79", "title": "The random number generator is never contended", "statement": "Locking the random number generator always succeeds at once, exactly one number is drawn under each lock, numbers are drawn only under the lock, and it is never locked while the device is suspended.", "quantifier": "all configurations, answers and schedules, every occurrence in every history", "why_tests_cant": "contention would show only in particular interleavings", "anchors": ["dot15d4/src/csma/mod.rs: run, receive_frame_task, transmit_package_task, wait_for_valid_ack", "dot15d4/src/csma/transmission.rs: transmit_cca, perform_backoff", "dot15d4/src/sync/mutex.rs"]}
{"id": "C80", "title": "Nothing else is ever transmitted", "statement": "Whatever the device hands to the radio for transmission is either exactly what the frame most recently taken from the upper layer becomes (acknowledgement request decided, PAN IDs overwritten; a function of the octets taken), or exactly the acknowledgement of the frame most recently received, which is one that asked for it.", "quantifier": "all configurations, answers of radio, driver, timer and random number generator, and schedules; every occurrence in every history", "why_tests_cant": "stale, mixed-up or foreign octets on the air would appear only in particular interleavings of the two tasks", "anchors": ["dot15d4/src/csma/mod.rs: receive_frame_task, transmit_package_task, set_ack_request_if_possible, overwrite_pan_id", "dot15d4/src/csma/transmission.rs: transmit_cca"]}
{"id": "C81", "title": "What is printed is what was received", "statement": "Formatting an accepted frame control field, addressing fields, header, payload or nested information element, slotframe descriptor, link or timing set shows each of its fields under its name, with the value the accessors return: numbers as numerals without leading zeros, contents as the list of their octets, set link options by name, timings in milliseconds. Frame controls or addressing fields with different fields have different texts, and so do header elements with different id or content unless they are terminations, time corrections or too-short superframe specifications. Formatting the elements of an accepted list never panics.", "quantifier": "all buffers accepted by the readers, all values of the fields, all element ids and contents", "why_tests_cant": "a test compares the texts of a few frames; that no two different values print alike, and that no accepted octets panic, is a statement about all of them", "anchors": ["dot15d4-frame/src/frame_control.rs: Display for FrameControl", "dot15d4-frame/src/addressing.rs: Display for AddressingFields, Address", "dot15d4-frame/src/ie/headers.rs: Display for HeaderInformationElement, HeaderElementId, TimeCorrection", "dot15d4-frame/src/ie/payloads.rs: Display for PayloadInformationElement", "dot15d4-frame/src/ie/nested.rs: Display for NestedInformationElement, TschSynchronization, TschTimeslot, TschTimeslotTimings, TschSlotframeAndLink, SlotframeDescriptor, LinkInformation, TschLinkOption, ChannelHopping"]}
{"id": "C82", "title": "Printed durations are rounded, not wrong", "statement": "A duration or instant is printed in milliseconds with two decimals, with a minus sign exactly if it is negative, and the printed value is within 5 microseconds of the true one (half of the last digit).", "quantifier": "all 64-bit microsecond counts; any choice of the formatter for exact ties", "why_tests_cant": "the value goes through two roundings of a 24-bit float before the decimal rounding; only a proof covers all values", "anchors": ["dot15d4-frame/src/time.rs: Display for Instant, Duration"]}
{"id": "C83", "title": "The text of the frame printer can be read back", "statement": "FrameParser::parse prints each item of a frame on its own line: the indentation, the item's label and its value (numbers in decimal, PAN IDs in hexadecimal, addresses as hexadecimal octets separated by colons with \"(broadcast)\" for the broadcast address, names for types, modes, versions and known element ids, times in milliseconds with two decimals, the payload as a list of hexadecimal octets). The text is unambiguous: two inputs with the same text have the same items, but for times less than 10 microseconds apart and for nested elements without a name; two accepted data frames or enhanced beacons with the same text have the same frame control fields, the same octets up to the end of the addressing fields and the same payload, and if they have no information elements they are equal but for reserved bits. Colours add escape sequences only, which can be removed in exactly one way, and colouring never changes whether it panics.", "quantifier": "all octet strings; colours on and off; any choice of the formatter for exact ties", "why_tests_cant": "unambiguity is a statement about all pairs of inputs", "anchors": ["dot15d4-cat/src/lib.rs: FrameParser::parse, write, writeln", "dot15d4-frame/src/ie: Display impls"]}
{"id": "C84", "title": "Two devices complete an acknowledged exchange", "statement": "If a device is given a valid Data or MAC-command frame with sequence number s for a destination class it requests acknowledgements for, the frame it sends has the same type, sequence number, addresses and contents as the one it was given, only with the ack-request flag set and PAN IDs replaced as configured, and it waits for the acknowledgement of s. A device that receives this frame hands it to its upper layer exactly if the (replaced) destination PAN and the address are its own or broadcast (or filtering is off), and, if it acknowledges that class, answers with a frame that the sender takes for the acknowledgement of s and of no other number, whatever was acknowledged before; any other filtering device drops the frame.", "quantifier": "all frames, configurations, constants, addresses, device formats and previous acknowledgements", "why_tests_cant": "composition of two independently configured devices over all frames", "anchors": ["dot15d4/src/csma/mod.rs: set_ack_request_if_possible, overwrite_pan_id, receive_frame_task, wait_for_valid_ack"]}
{"id": "C85", "title": "Callbacks may use the primitive they are called from", "statement": "If the waker that an operation of Mutex or Channel wakes, or the destructor of a message it overwrites, itself performs operations on the same mutex or channel (as an executor that runs a task inside wake may), the outcome is that of the operation followed by the callback's operations: no panic, no access to a message that is not there, no task left waiting without having been woken.", "quantifier": "all operations with any tree of callbacks, all states of the primitive between operations", "why_tests_cant": "arbitrarily nested re-entry at each point where foreign code is called", "anchors": ["dot15d4/src/sync/mutex.rs: MutexGuard::drop, LockFuture::poll, try_lock", "dot15d4/src/sync/channel.rs: Sender::send, Sender::send_async, Receiver::receive"]}
{"id": "C86", "title": "What is built and sent on one device is parsed on another", "statement": "A frame built with FrameBuilder (any kind but acknowledgements, present addresses, any payload, header IEs), emitted and handed to a device for transmission, arrives at every device it reaches as a frame that FrameRepr::parse reads back as the same frame: control, sequence number, addresses, information elements and payload are equal, except that the ack-request flag is set if the sender requests acknowledgements for it, and PAN IDs are replaced as the sender is configured; other filtering devices drop it.", "quantifier": "all frames the builder can make, configurations of both devices, device formats", "why_tests_cant": "composition of builder, emission, transmit-side edits, filtering and parsing over all frames", "anchors": ["dot15d4-frame/src/repr/builder.rs", "dot15d4-frame/src/repr/mod.rs: FrameRepr::{parse,emit}", "dot15d4/src/csma/mod.rs: set_ack_request_if_possible, overwrite_pan_id, receive_frame_task"]}
{"id": "C87", "title": "Delivery over a lossy link", "statement": "Two running devices A and B hear each other over a medium that loses frames but neither invents, alters nor reorders them. The frames handed to B's upper layer are copies of frames A sent, in the order in which A sent them, and at most macMaxFrameRetries for each frame A's upper layer submitted. If A requests an acknowledgement for a frame and does not report that it was given up, B's upper layer was given this frame. B's upper layer is given each frame at most once, and is not given a frame that A reports as not acknowledged.", "quantifier": "all pairs of configurations and device formats, all schedules of both devices, all behaviours of both upper layers, radios and timers, all losses", "why_tests_cant": "joint behaviour of two concurrent state machines under arbitrary losses, delays and schedules", "anchors": ["dot15d4/src/csma/mod.rs: CsmaDevice::run, receive_frame_task, transmit_package_task, wait_for_valid_ack"]}
{"id": "C88", "title": "Setters of information element contents write exactly their field", "statement": "In the views of the synchronization, TSCH link, slotframe descriptor, slotframe-and-link, channel hopping and timeslot contents, each setter of a field makes the matching getter return the value, changes no octet outside that field - so that the getters of the other fields return what they returned before - and panics exactly if the buffer ends before the field does, whatever the buffer held before. Setting all timings of a timeslot writes exactly its 25 octets, or 27 if the timings need the long form.", "quantifier": "all prior contents and lengths of the buffer, all values of the field", "why_tests_cant": "quantifies over all prior contents of the buffer and all values", "anchors": ["dot15d4-frame/src/ie/nested.rs: TschSynchronization::set_absolute_slot_number, set_join_metric; TschLink::set_timeslot, set_channel_offset, set_link_options; SlotframeDescriptor::set_handle, set_size, set_number_of_links; TschSlotframeAndLink::set_number_of_slotframes; ChannelHopping::set_hopping_sequence_id; TschTimeslot::set_timeslot_id, set_timeslot_timings"]}
{"id": "C89", "title": "A received frame can be passed on", "statement": "Parsing a received frame and emitting the representation into a zeroed buffer of the size it asks for never panics and gives the same octets, apart from the reserved bit of the frame control, so that every receiver further on sees the same frame.", "quantifier": "all octet strings accepted as a data frame and parsed", "why_tests_cant": "quantifies over all received octet strings, including malformed ones an attacker sends", "anchors": ["dot15d4-frame/src/repr/mod.rs: FrameRepr::parse, buffer_len, emit", "dot15d4-frame/src/lib.rs: DataFrame::new, set_payload", "dot15d4-frame/src/repr/ie/mod.rs: InformationElementsRepr::parse, emit"]}
{"id": "C90", "title": "Rewriting a frame in place", "statement": "On every frame DataFrame::new accepts, set_frame_control, set_sequence_number, set_addressing_fields and set_payload make the matching reader return the new value and leave what all other readers return as it was; set_payload panics exactly if the length is not that of the old payload, and set_information_elements writes the elements behind the addressing fields and nothing else.", "quantifier": "all accepted frames, whatever they carry, and all new values", "why_tests_cant": "quantifies over all received frames and all new values; where a setter writes depends on the frame control, the addressing modes and the elements of the frame", "anchors": ["dot15d4-frame/src/frames/data.rs: DataFrame::set_frame_control, set_sequence_number, set_addressing_fields, set_information_elements, set_payload"]}
{"id": "C91", "title": "The value inside a mutex", "statement": "A value in a Mutex is only read and written by whoever is alone with it: at every access through a guard that guard is the only one in existence, and get_mut is only reached when there is none. Every read returns the value written last, by whatever guard or through get_mut; locking, unlocking, failed attempts, cancelled waits and wake-ups do not change it. What a guard has read stays the value until that guard writes or is dropped, however often its task awaits in between, so no update is lost: if every write is f of what its guard read, the value is f applied once per write to the initial value.", "quantifier": "every value type, initial value and update function; any number of tasks, lock futures and guards, every interleaving of polls, try_lock, reads, writes, cancellations and drops", "why_tests_cant": "The tests run two tasks a hundred times with one schedule; a lost update needs an interleaving between a read and a write, of which there are unboundedly many.", "anchors": ["dot15d4/src/sync/mutex.rs: Mutex::lock, Mutex::try_lock, Mutex::get_mut, MutexGuard (Deref, DerefMut, Drop)"]}
