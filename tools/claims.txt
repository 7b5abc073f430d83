C01|proved|all getters, for every buffer
C02|proved|all four multi-bit setters, every value; Unknown frame types and modes are written as Beacon and Absent (C02_unknown)
C03|partial|refuted in full (clearing is a no-op in the code); setting to true, and any value on a clear flag, proved
C04|proved|both directions
C05|proved|
C07|partial|refuted for reserved addressing modes; proved for all others
C08|partial|len() refuted for reserved addressing modes (exact condition proved); everything else proved
C09|proved|exact octets, frame rule and read-back
C06|partial|refuted for the absent address (its text does not parse) and for malformed texts with 1 or 7 colons (panic); exact grammar, round-trip of short and extended, exact panic condition proved
C10|partial|data_confidentiality refuted (always false), authenticity of level 4 refuted; levels, MIC lengths, key modes and lengths proved
C19|partial|refuted against the standard (odd ids/lengths misread, overrunning element is yielded); code walk for all inputs, standard walk for even ids and lengths, contents in bounds for accepted lists proved
C20|partial|refuted (payload termination never recognised, lengths >= 1024 truncated); code walk for all inputs and standard walk otherwise proved
C21|partial|refuted for lengths >= 128 (short) / 1024 (long); in bounds, termination and content for all inputs proved
C22|proved|exact acceptance condition, len(), positions of both lists
C23|partial|refuted for odd ids or odd lengths; even ones proved
C24|partial|refuted for lengths >= 1024 and payload termination; the rest proved
C25|partial|refuted for short lengths >= 128, ids >= 64 and non-cleared descriptors, long lengths >= 1024; the rest proved
C26|partial|Decoding proved for all octets; round-trip proved for the order time correction, then NACK. In the other order set_time_correction clears NACK (refuted).
C27|proved|Setters, getters and the whole nested IE, for every ASN below 2^40.
C28|partial|Round-trip proved for timeslot id <> 0 (refuted for id 0: read back as the defaults). An accepted IE panics exactly when its length is 26 and id <> 0 (safety refuted, exact characterisation proved).
C29|partial|Refuted for descriptors without links (one bogus empty link is yielded, its accessors panic). Bounds, order, contents and round-trip proved for everything else.
C37|partial|HT1/HT2 insertion and octets proved for every representation; payload termination panics (todo!()), refuted, with the panic characterised.
C30|partial|The macro is modelled; every record whose fields carry matching #[bytes]/#[bits] attributes is proved to be read as declared (6 records). Refuted for the other records (overlapping fields, too small size(), wrong OUI), for which C30_exact_partial gives the size asked by new and the result of every getter on every buffer.
C61|partial|Superframe specification, GTS slots and pending addresses proved for buffers that hold the declared entries. Refuted: slots() panics on short accepted buffers and always through GtsInfo, GtsInfo::length omits the directions octet, Beacon::new is todo!().
C11|proved|acceptance characterised for every octet buffer
C12|proved|includes the addressing getters, both IE iterators, all element contents and nested elements
C13|proved|also the undefined-addressing case
C14|partial|refuted for 2003/2006 beacons (todo!() panic); every other buffer proved
C15|partial|refuted: EnhancedAck::new checks nothing; partition and absence of panics proved for well-formed frames (including secured ones); the exact condition under which each accessor panics is proved, for every buffer of two octets or more and every addressing mode, reserved ones included
C16|proved|
C17|proved|
C18|proved|bursts up to 16 bits, odd-weight errors, two-bit errors and any one to three flipped bits (Hamming distance 4, shown exact); the burst bound is shown sharp
C31|partial|refuted for non-zeroed buffers and for frames with both IEs and payload; exact length and octets proved for every consistent emittable frame on a zeroed buffer
C32|proved|every frame the builder can produce without IEs, up to 127 octets
C33|partial|refuted: HT1 is read back as an additional header IE; exact read-back characterised for all emittable frames
C34|partial|refuted: IEs + payload panics although valid; exact panic characterisation for consistent frames (C34_emit_panics_iff_partial) and for every frame without information elements, security and reserved values, consistent or not (C34_plain_panics_iff_partial); a frame with a payload that announces security, consistent otherwise, always panics (C34_secured_panics)
C35|partial|refuted: zero-link slotframe and 26-octet timeslot IE; proved that these are the only causes
C36|partial|refuted for Address::Absent and immediate ACKs with addresses; otherwise proved, with preservation, compression and error characterisation
C49|proved|any number of tasks, futures, cancellations
C50|proved|
C51|proved|
C52|proved|
C53|proved|any number of sender tasks; the one-receiver restriction of the property is shown necessary (C53_two_receiver_tasks_lost)
C54|partial|refuted: a message pending at split()/drop of the channel is leaked; otherwise every message accounted for exactly once
C59|proved|
C60|partial|refuted for usize factors >= 2^63 (cast to i64); proved for all other operands, on both overflow profiles
C38|proved|for every device format, every sequence of earlier ACKs in the reused buffer and every sequence number
C39|proved|exact characterisation for all PAN IDs, hardware addresses and frames; an absent but decodable destination is never ours, even with implicit broadcast
C40|proved|decision characterised exactly for all buffers and configurations (C40_decision), and every run of the device performs exactly it (C40_receptions). In one corner the statement's wording is ambiguous: a delivered frame without sequence number whose ack is wanted is not acknowledged.
C42|partial|refuted as stated: the AR flag of frames not to be acknowledged is never cleared (C42_flag_not_cleared_refuted); everything else proved, and C42 in full for frames handed over without the flag
C43|proved|exact result for all buffers and configurations
C55|proved|One poll of select in every case (iff), and whole lives of a select over arbitrary futures, worlds and environments.
C56|proved|One poll of join in every case (iff), and whole lives: each child polled until it finishes, never after; ready exactly when both finished.
C57|proved|
C58|proved|Over every schedule of polls and drops of the radio futures; RefCell not modelled (see RadioFutures.v).
C41|proved|for every run of the device, at every suspension (and in between up to the last reception)
C44|proved|for all outcomes and all limits from 1 to 65534; for the limit 0 transmit_cca returns Ok without sending (C44_zero_limit)
C45|proved|for all runs and limits from 1 to 65534; with limit 0 frames are dropped silently (C45_zero_limit)
C46|proved|for all histories of the future polled on its own in any environment
C47|proved|for all runs and parameters whose longest backoff fits 2^32 us (holds for the shipped constants); overflow-freedom is C64
C48|proved|for all runs, including dropping the device at any suspension
C63|proved|hand-over within two polls unless a frame is received or still being handed over, self-waking, no lost wakeup for the receive task. That the exceptions are real, and that they can last forever, is C69
C64|proved|under setup_ok (conditions on constants and the radio's format)
C65|proved|for all runs
C62|partial|refuted: panics on everything Frame::new rejects, on non-hexadecimal text and on accepted frames with a zero-link slotframe or a 26-octet timeslot IE. Proved: exact output for all accepted frames (data frames, enhanced beacons, immediate ACKs, enhanced ACKs secured or not and with any addressing mode), and exactly when the printer panics on them: those two kinds of elements, or an enhanced ACK that cannot be read (C15). The characters of each line: C83.
C66|proved|the frame asked for is SpecRepr.asked (last call of each kind, all information elements in order); C66_builds restates it for the builds relation used by C31-C37
C67|proved|exact characterisation, totality, and every finalized frame with a non-empty payload validates
C68|partial|refuted: with GTS descriptors present pending_address() starts one octet too early (GtsInfo::length omits the directions octet), hence payload() is wrong too. Proved: all sections up to the GTS fields always, and everything for beacons without GTS descriptors; the exact wrong view otherwise.
C69|partial|false as stated (C69_refuted): a slow Driver::received keeps the transmit task waiting for any number of polls although the lock is free (C69_slow_driver), and so do frames that keep arriving (C69_receptions). Proved: these are the only two reasons (C69_why_partial)
C70|partial|everything but the last clause proved for all environments; the last is refuted: the documented DOT15D4_MAC_MAX_FRAME_RETRIES makes build.rs panic (it only knows MAC_MAX_FRAME_RETIES). Proved for all other documented variables. Values are kept as text; only literal texts are interpreted
C71|partial|false as stated (C71_refuted, C71_statement_refuted): while the transmit task waits for an acknowledgement, every other frame the radio delivers keeps it in the same poll, and the timeout is not looked at. Proved for every setup: at most poll_bound operations (and internal steps) per such frame, and once more; so this is the only way
C72|proved|at every reachable state of every execution of the device
C73|proved|stated at suspensions (Pend), where the other task can be polled
C74|proved|both directions; operations of the radio are the polls and cancellations of receive, transmit and CCA futures
C75|partial|false as stated (C75_refuted): acquire_lock sends its signal once more after the receive task reacted, and this stale signal cancels a later reception. Proved: given-up receptions <= signals <= 2*acquisitions+2, and unwanted ones <= acquisitions; signals are sent only while the radio is wanted
C76|proved|two bounds on the self-wakes
C77|proved|for each kind of awaited future; what drops one counts as attending to it
C78|proved|five steps; 'at once' = before the device suspends again
C79|proved|the mutex of the random number generator in the world of CsmaWorld.v is the model of Sync.v
C80|proved|all hand-overs to the radio, also repeated polls of one preparation; the octets of a frame are unique by C45_prepared_determined
C81|partial|texts and no-panic for all readers; the text of a header element determines id and content only for whole elements (refuted for time corrections, which are rounded); an element accepted on its own may be truncated and then panics (refuted); core::fmt of integers, slices, derived Debug names and bitflags::to_writer are modelled from their documentation
C82|partial|refuted beyond the 24 significant bits of an f32 (8589935092 us prints 8589935.00ms); proved up to 2^24 us, which covers every duration read from a frame (C81_timings_read); f32 conversion, division and {:.2} are modelled from IEEE 754 and the documentation
C83|proved|the colored crate's escape sequences and core::fmt are modelled from their documentation; times are the rounded ones of C82 (within 10 us of each other when they read the same)
C84|proved|for any two device formats that keep the frame's place when its octets change and show what a token wrote (proved for the radio of the crate's tests and for one with a length octet); the air delivers a frame unchanged or not at all
C85|partial|refuted: a waker woken by a guard's drop or by a competing lock poll that uses the mutex panics (exactly these, C85_mutex_partial); a destructor of an overwritten message that sends makes send drop twice (UB), a waiting sender replaced while the old waker receives is lost; proved for every operation whose callbacks are harmless, and memory safety for every one whose destructors do not use the channel; re-entry from Waker::clone/will_wake/drop not modelled
C86|proved|for frames with header elements only (payload elements: C33); for device formats as in C84; the air delivers a frame unchanged or not at all
C87|partial|order and number of copies proved as stated; 'not reported as given up means delivered' refuted (a late acknowledgement of an earlier frame with the same sequence number is taken for it) and proved when no earlier frame of A has this number and B's upper layer does not send acknowledgements itself (C87_success_partial); 'at most once' and 'not acknowledged means not delivered' refuted by runs of two devices in which acknowledgements are lost; exactly two devices, device formats as in C84
C88|proved|the setters of time correction are in C26, of element headers in C23-C25; whole timings as in C28
C89|partial|proved for every frame without information elements (the reserved bit of the frame control is the only change, addresses that do not fit travel on as payload) and for frames with header elements only; refuted for payload elements (every such frame comes out two octets longer with a second header termination, cannot be decoded and makes the next hop panic), for frames that only claim to carry elements (emit panics, in general) and for 17 header elements (the last is dropped)
C90|partial|addressing fields, payload and elements proved for every accepted frame; refuted for the sequence number of a frame that suppresses it (an addressing octet is overwritten and the frame still has no number) and for clearing flags of the frame control; exact effect of both setters on every frame proved. Reading back rewritten elements is C33.
C91|proved|MutexValue.v adds the UnsafeCell to Sync.v; references are modelled by the accesses made through them; unsafe Mutex::read (unused) is outside
