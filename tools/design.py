import json,re,subprocess
m=json.load(open('/verif/MANIFEST.json'))
st={c['property']:c for c in m['claims']}
props=[json.loads(l) for l in open('/verif/properties.jsonl')]
doc=open('/verif/DESIGN.md').read()
head=r'''# Formal model of dot15d4 in Rocq (Coq 8.16.1)

## Method

* The model is written as computable Gallina functions, one per Rust function, under `rocq/theories/`. Every
  definition has a comment citing the Rust file and lines, and says where it simplifies. Model files contain only
  definitions: `Base FrameControl Addressing AddressText AuxSec Ie IeContent ReprIe Macro Beacon Frames Fcs Repr Sync MutexValue
  Time PhyConfig Csma Async RadioFutures CsmaTasks CsmaWorld Cat Build`.
* Specifications are written from the English property and the standard, not from the model: `Spec*.v`.
* `Prop*.v` contain the property theorems `Cnn_...`, their `Print Assumptions`, and `Example`s: concrete cases that
  meet the hypotheses. `RepoTests*.v` replay the project's unit tests (see Trusted base). All other files are proofs.
* Octets are `N`; a buffer is `list N` (well-formed: every element < 256). `usize` lengths/offsets are `nat` or `N`.
* A Rust panic (index out of range, `unwrap` on `None`, `unreachable!()`, `todo!()`, `expect`, failed
  `assert!`, `copy_from_slice` length mismatch, overflow in a debug build) is the explicit value `Panic` of the
  `outcome` monad; Rust `Result`/`Option` remain data. "Never panics" is `<> Panic`, "returns v" is `= Done v`.
* A function mutating through `&mut` returns the new buffer.
* `unsafe` code of the channel: an explicit memory cell (`Sync.v`: uninitialised, initialised, moved out); reading
  or dropping it in the wrong state is `UB`.
* `async` code: a future is a coinductive program (`Async.v`) that performs operations and suspends; a suspension lists
  the destructors that run if the future is dropped there. select, join, yield_now, the radio's futures and the tasks
  of the CSMA device are written with it. Mutex and channel are state machines over any number of tasks, with wakers
  as numbers. The environment (radio, driver, timer, random numbers, executor) answers arbitrarily (`CsmaWorld.v`).
* Where a property is false of the code, the full statement is kept (in properties.jsonl and, where it is one formula,
  as a Definition), refuted by a theorem `..._refuted` giving a witness, and the strongest true part is proved as
  `..._partial`, usually with an exact characterisation of when it fails.

## What is modelled for each property, and how it is proved

| Property | Status | Model | Proof |
|---|---|---|---|
'''
rows=[
(['C01','C02','C03','C04'],'FrameControl.v: getters/setters on buffers; repr/frame_control.rs','bit lemmas (testbit) and sweeps over the 65536 values lifted to all by `forallb_forall`'),
(['C05'],'Addressing.v','case analysis'),
(['C06'],'AddressText.v: Address::parse and Display on lists of characters','sweep over octets for hex digits; induction over split'),
(['C07','C08','C09'],'Addressing.v: presence flags, readers, writer','case analysis on the presence pattern against an independent table (SpecAddressing.v)'),
(['C10'],'AuxSec.v','sweep over the control octet'),
(['C11','C12','C13','C14','C15','C16'],'Frames.v: DataFrame, acknowledgements, EnhancedBeacon, Frame','case analysis against the declarative frame layout of SpecFrames.v; IE lemmas of C19-C22'),
(['C17','C18'],'Fcs.v: the table CRC of the crc crate','polynomials over GF(2) (SpecFcs.v): remainder, linearity, order of x'),
(['C19','C20','C21','C22'],'Ie.v: descriptors and iterators','induction on the buffer'),
(['C23','C24','C25'],'Ie.v: descriptor setters','masked updates, bit lemmas'),
(['C26','C27','C28','C29'],'IeContent.v, ReprIe.v','arithmetic on little-endian fields; induction on lists'),
(['C30'],'Macro.v: what #[frame] generates from a declaration, and the declarations','generic lemma: layout without gaps => reads as declared; evaluation for the others'),
(['C31','C32','C33','C34','C35','C36','C37','C66','C67'],'Repr.v, ReprIe.v: FrameRepr and FrameBuilder','composition of the round-trips above; invariants of the builder state over all sequences of calls'),
(['C38','C39','C42','C43'],'Csma.v: decisions of the device over buffers','case analysis against SpecCsma.v'),
(['C40','C41','C44','C45','C46','C47','C48','C63','C64','C65'],'CsmaTasks.v in CsmaWorld.v','automata over events (TxAutomaton, RxAutomaton), step-indexed simulation (TaskLogic) for all reachable states, then induction over accepted histories'),
(['C49','C50','C51','C52','C53','C54'],'Sync.v','inductive invariants over all reachable states; ownership ledger'),
(['C55','C56','C57','C58'],'Async.v, RadioFutures.v','coinductive unfolding, induction on the steps of a poll and on lives (lists of polls)'),
(['C59','C60'],'PhyConfig.v, Time.v','finite sweep; arithmetic with the i64 range explicit, both overflow profiles'),
(['C61','C68'],'Beacon.v','bit lemmas, induction; declared layout of the beacon sections'),
(['C62'],'Cat.v: the text as a list of (indentation, structured line)','lemmas per element and a loop lemma; output = `frame_shown` (SpecCat.v); every octet string: C62_output (PropEack.v)'),
(['C69'],'CsmaTasks.v','two families of runs of any length (StarveRuns.v); the only reasons: HandOver.v'),
(['C70'],'Build.v: build.rs as a function of the environment and of the iteration order of the hash map','permutations; string lemmas; evaluation of the default file'),
(['C71'],'CsmaTasks.v','a step-indexed budget logic (Brief.v) bounds each task between suspensions; a family of runs (PollRuns.v) refutes the unbounded claim'),
(['C72','C73','C74'],'CsmaTasks.v','the global protocol of histories (CsmaWorld.v, HandOver.v): every accepted history satisfies the ordering (AirFacts.v)'),
(['C75','C76'],'CsmaTasks.v','counting invariants over accepted histories (AirCounts.v, WakeProofs.v); a run (TaskRuns.v) refutes C75 as stated'),
(['C77','C78','C79'],'CsmaTasks.v','two further step-indexed logics over futures: obligations to poll (Attend.v, AttendTasks.v) and event monitors (Monitor.v) with one automaton for each claim (RngFacts.v, PromptFacts.v, ListenFacts.v)'),
(['C80'],'CsmaTasks.v','invariant over the automata: the octets carried by a state belong to the last frame taken or received (SourceFacts.v)'),
(['C84'],'Csma.v: two devices, composed through the frames their buffers hold','C42/C43 on the frame instead of the buffer (ExchangeProofs.v), then C40 and C38 on the result'),
(['C86'],'Repr.v and Csma.v composed','C31/C36 (emission), C84 (the edits of a device), C32/C33 (parsing), on octets computed field by field (PropDelivery.v)'),
(['C87'],'two histories of CsmaWorld.v interleaved, and a relation for the medium (SpecLink.v)','each history accepted by the automata of TxAutomaton.v/RxAutomaton.v; an acknowledgement traced back to the frame it answers, the frame to the submission (LinkFacts.v, C80); counterexamples are concrete runs of two devices (LinkRuns.v)'),
(['C88'],'the field setters of IeContent.v','one lemma per shape of field (octet, little-endian number, absolute slot number), disjoint windows are independent (PropSetters.v)'),
(['C89'],'frame_parse, frame_buffer_len and frame_emit in one function forward','what the parser read is what the emitter writes, part by part, on arbitrary octets; for elements re-parse of the written octets via C33 (PropForward.v)'),
(['C90'],'the five setters of DataFrame (Frames.v) on any accepted buffer; everything the readers return is one record (SpecRewrite.v)','every reader is a function of the frame control and of the tail behind the sequence number; each setter replaces one part of it; walk over elements depends on their own octets only (PropRewrite.v)'),
(['C91'],'Sync.v with the value (MutexValue.v); histories with reads and writes through guards and through get_mut (SpecMutexValue.v)','projection to the mutex histories of C49; invariant: what a live guard has read is the value (PropMutexValue.v)'),
(['C85'],'Reentrant.v: the steps around a call of foreign code are separate, the RefCell has its borrow flag; operations are trees of callbacks','induction over trees, compared with operation-then-callbacks (SpecReentrant.v) on top of Sync.v'),
(['C83'],'CatText.v: each line of Cat.v as characters, with or without escape sequences','each line shown as SpecCatText.v says; a line and the whole text read back uniquely (CatTextProofs.v); escape sequences removed uniquely; what frames with the same text have in common: PropCatText.v, PropCatAck.v'),
(['C81','C82'],'Display.v','the texts computed by the formatters, read back by an independent numeral/line grammar (SpecDisplay.v, DisplayProofs.v)'),
]
seen=set()
out=head
for ids,mod,pr in rows:
    for i in ids: seen.add(i)
    out+='| %s | %s | %s | %s |\n'%(', '.join(ids), ', '.join('%s %s'%(i,st[i]['status']) if len(set(st[j]['status'] for j in ids))>1 else st[i]['status'] for i in (ids if len(set(st[j]['status'] for j in ids))>1 else ids[:1])), mod, pr)
assert seen==set(p['id'] for p in props),(set(p['id'] for p in props)-seen)
out+='''
The theorems of each property are listed in MANIFEST.json, with a note on what is missing where the status is partial.
In every partial case the missing part is false of the code and refuted by a theorem, except where "What is not modelled"
below says otherwise.

## What is modelled, file by file

| File (/repo) | Modelled | Not modelled |
|---|---|---|
| dot15d4-frame/src/frame_control.rs, repr/frame_control.rs | everything, with Display | derived Debug of the structs |
| addressing.rs, repr/addressing.rs | everything, with Address::parse and Display | derived Debug; `arbitrary` (fuzzing) |
| aux_sec_header.rs | everything (repr/aux_sec_header.rs is empty) | - |
| ie/mod.rs, headers.rs, payloads.rs, nested.rs | descriptors, iterators, all element contents with accessors and setters, records of `#[frame]`, Display (Display.v) | derived Debug of the structs where Display does not use it |
| repr/ie/*.rs | parse, buffer_len, emit of every element and list | `arbitrary` |
| repr/mod.rs, repr/builder.rs | everything | - |
| frames/mod.rs, data.rs, ack.rs, beacon.rs | everything | derived Debug; the `fuzz` feature |
| dot15d4-frame/src/lib.rs | - (re-exports, documentation, Error) | |
| dot15d4-frame/src/time.rs, dot15d4/src/time.rs | all arithmetic, both overflow profiles, Display with its f32 rounding (Display.v; the tie rule of `{:.2}` is a parameter) | derived Debug |
| dot15d4-macros/src/lib.rs | the accessors it generates: names of types, offsets, bit positions, size(), new() | the syntax-tree plumbing (syn/quote); compile errors |
| dot15d4/src/sync/mutex.rs | everything: lock, try_lock, guard drop, wakers (Sync.v), the value with deref and get_mut (MutexValue.v) | in Sync.v the RefCell borrow flag and re-entrant callbacks (they are in Reentrant.v); re-entry from Waker::clone, will_wake, drop |
| sync/channel.rs | everything incl. MaybeUninit slot, split, drop | as above |
| sync/select.rs, join.rs, yield_now.rs | everything | sync/tests.rs |
| phy/config.rs, phy/radio/mod.rs | channels, configs, RadioFrame default methods used by csma | TestRadio and other cfg(test) code |
| phy/radio/futures.rs | everything | the RefCell around the radio (see RadioFutures.v) |
| phy/driver.rs | Error, FrameBuffer, the trait as an unconstrained environment | TestDriver |
| csma/mod.rs, transmission.rs, utils.rs | everything | cfg(test) code, logging |
| csma/constants.rs, user_configurable_constants.rs, build.rs | everything; values other than literals stay text | rustc's evaluation of arbitrary value texts |
| utils/log.rs | - | macros for log/defmt: no effect on results |
| dot15d4-cat/src/lib.rs | FrameParser::parse, parse_hex: structure and values (Cat.v), and the text, with or without colours (CatText.v) | main.rs; when the colored crate decides to colour (a parameter) |
| fuzz/, ensure-no-std/ | - | test harnesses |

Simplifications that matter for the claims: panics end the program (no unwinding, so destructors do not run on a panic);
`Radio`, `Driver`, timer and random numbers may answer anything (buffers are 128 octets, next_u32 < 2^32), but the radio does
not write to the buffer it transmits from; both tasks of the device share one waker because they live in one future; memory
is sequentially consistent because the code is single-threaded (`!Sync` primitives, `Cell`/`RefCell`).

## Trusted base

* Coq's kernel (coqc 8.16.1), no flags changed, no plugins, no functors or module types, no axioms, no Admitted.
* `Print Assumptions` prints "Closed under the global context" for every theorem named in MANIFEST.json (each `Prop*.v` runs
  it for each of its theorems): no axiom of the standard library or any other library is used. (vcheck lists 7 parameters of
  `Coq.ssr.ssrunder` as library_axioms: they are module-type fields of the installed library that gets loaded, not
  dependencies of a theorem.)
* The reading of the Rust code: the model was written by hand, from the text; the code was never run. The specification
  files were written from the English properties and IEEE 802.15.4-2020.
* To check that reading, the project's own unit tests are replayed on the model: `RepoTests.v` (dot15d4-frame, dot15d4-cat,
  time.rs), `RepoTestsSync.v` (sync: an executor that only polls again when woken), `RepoTestsMac.v` (csma: the device against a
  transcription of TestRadio, TestDriver and Delay). All of them pass. They are tests, not proofs of properties. Not replayed:
  the compile-time assertions, the fuzz targets, and `test_std_delay_future` (real time).
* `seeded/LOG.jsonl`: wrong programs (edits of the model) and the theorems that reject them. For each, `False` was derived from
  the theorem's statement on the edited model, so the statement, not only its proof, is at odds with the edit.

## Findings in the code

Each is a theorem (`..._refuted` unless noted).

1. Clearing a frame-control flag is a no-op, stale bits survive (C03, C31); the AR flag of frames that are not to be acknowledged is never cleared (C42).
2. Reserved addressing modes: presence of PAN IDs contradicts the addresses (C07), len() hits unreachable!() (C08, C34).
3. Address::parse panics on some malformed texts; the text of Absent does not parse (C06).
4. Auxiliary security: data_confidentiality is always false, level 4 claims authenticity (C10).
5. IE descriptors: odd header IE ids/lengths are misread, lengths >= 128 resp. 1024 truncated, payload termination never recognised (C19-C21, C23-C25); overrunning elements are yielded (C19).
6. set_time_correction clears NACK (C26); timeslot IE with id 0 and explicit timings is read back as the defaults, 26-octet timeslot IEs panic (C28); slotframes without links yield a bogus link (C29); parse panics on both kinds (C35), and so does dot15d4-cat (C62).
7. Records with wrong #[bytes]/#[bits]: overlapping fields, too small size() (C30). GTS fields panic or are one octet short (C61), hence Beacon::pending_address and payload are off by one (C68); Beacon::new is todo!() (C14).
8. EnhancedAck::new checks nothing (C15).
9. Builder/representation: IEs with payload panic (C34, C37), and so does a payload in a frame that announces security (C34_secured_panics), HT1 is read back as a header IE (C33), finalize accepts Some(Absent) and immediate acks with addresses (C36).
10. The channel leaks a pending message on split and drop (C54); two receiver tasks lose wakeups (C53_two_receiver_tasks_lost).
11. Duration * and / with usize >= 2^63 (C60).
12. CSMA: an absent but decodable destination is never "for us", even with implicit broadcast (C39); zero limits transmit nothing yet report success (C44_zero_limit, C45_zero_limit); a slow Driver::received or steady receptions starve transmission (C69); a stream of frames that are not the awaited ACK keeps one poll busy and disables the timeout (C71); a stale signal of acquire_lock cancels a reception after the transmit task is done (C75).
13. The documented variable DOT15D4_MAC_MAX_FRAME_RETRIES breaks the build (C70).
14. dot15d4-cat panics on every frame Frame::new rejects (C62); secured enhanced acknowledgements with different security headers print the same text (C83_security_lost).
15. Re-entry (C85): a waker that uses the mutex from inside wake() panics (the RefCell is still borrowed); a message destructor that sends on the channel makes send drop the message twice; a sender whose old waker receives from inside wake() is never woken.
'''
open('/verif/DESIGN.md','w').write(out)
