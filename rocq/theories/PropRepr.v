(** PropRepr.v -- C31..C36: frame representations and the frame builder. *)
From Verif Require Import Base BaseProofs Spec SpecFrame FrameControl FrameControlProofs Addressing SpecAddressing AddressingProofs Ie SpecIe IeContent ReprIe
  SpecIeContent IesProofs Frames SpecFrames FramesProofs Repr SpecRepr ReprProofs BuilderProofs SpecParse ParseProofs PropFrames.

(** Sample frames, built with the builder. *)
Definition build (s : start) (cs : list call) : outcome FrameRepr :=
  fold_left (fun m c => let* f := m in perform c f) cs (Done (begin s)).
(** the data frame of the crate's test suite (tests/mod.rs) *)
Definition data_calls : list call :=
  [CSequence 1; CDstPan 0xabcd; CSrcPan 0xabcd; CDst (AShort [0xff; 0xff]); CSrc (AExtended [0x00; 0x12; 0x4b; 0x00; 0x14; 0xb5; 0xd9; 0xc7])]%N.
Definition data_frame : FrameRepr := Eval vm_compute in
  match build (SData [0x2b; 0; 0; 0]%N) data_calls with Done f => match b_finalize f with Ok f => f | Err => f end | Panic => new_ack end.
Definition header_frame : FrameRepr := Eval vm_compute in
  match build (SData [0x2b; 0; 0; 0]%N) (data_calls ++ [CHeader (HTimeCorrection (-31) true)]) with Done f => match b_finalize f with Ok f => f | Err => f end | Panic => new_ack end.
(** enhanced ACK of the test suite *)
Definition eack_calls : list call :=
  [CSequence 0x37; CDstPan 0xabcd; CDst (AExtended [0; 2; 0; 2; 0; 2; 0; 2]); CHeader (HTimeCorrection (-31) true)]%N.
Definition eack_frame : FrameRepr := Eval vm_compute in
  match build SAck eack_calls with Done f => match b_finalize f with Ok f => f | Err => f end | Panic => new_ack end.
Definition eb_calls : list call :=
  [CDstPan 0xabcd; CDst (AShort [0xff; 0xff]); CSrc (AExtended [0; 1; 0; 1; 0; 1; 0; 1]);
   CPayloadIe (PMlme [NTschSync 14 0; NTimeslotDefault 0; NChannelHopping 0; NSlotframes []])]%N.
Definition eb_frame : FrameRepr := Eval vm_compute in
  match build SEnhancedBeacon eb_calls with Done f => match b_finalize f with Ok f => f | Err => f end | Panic => new_ack end.

Definition zeros (n : nat) : list N := repeat 0%N n.

Ltac con := constructor; cbn; try reflexivity; try (split; [reflexivity|]); try (repeat split; discriminate).

Lemma builds_of s cs : forall f, start_typed s -> Forall call_typed cs -> build s cs = Done f -> builds s cs f.
Proof.
  unfold build. induction cs as [|c cs IH] using rev_ind; intros f HS HC HF.
  - cbn in HF. injection HF as <-. constructor. exact HS.
  - rewrite fold_left_app in HF. cbn [fold_left] in HF. apply Forall_app in HC. destruct HC as [HC1 HC2].
    destruct (fold_left (fun m c => let* f := m in perform c f) cs (Done (begin s))) as [g|] eqn:E; [|discriminate].
    apply (builds_call s cs g c f); [apply IH; auto|apply (Forall_inv HC2)|exact HF].
Qed.

Ltac typed := repeat (apply Forall_cons || apply Forall_nil || split); cbn; try lia; try reflexivity; try exact I.
Lemma data_builds : exists f, builds (SData [0x2b; 0; 0; 0]%N) data_calls f /\ b_finalize f = Ok data_frame.
Proof. eexists. split; [apply builds_of; [typed|typed|vm_compute; reflexivity]|reflexivity]. Qed.
Lemma header_builds : exists f, builds (SData [0x2b; 0; 0; 0]%N) (data_calls ++ [CHeader (HTimeCorrection (-31) true)]) f /\ b_finalize f = Ok header_frame.
Proof. eexists. split; [apply builds_of; [typed|typed|vm_compute; reflexivity]|reflexivity]. Qed.
Lemma eack_builds : exists f, builds SAck eack_calls f /\ b_finalize f = Ok eack_frame.
Proof. eexists. split; [apply builds_of; [typed|typed|vm_compute; reflexivity]|reflexivity]. Qed.
Lemma eb_builds : exists f, builds SEnhancedBeacon eb_calls f /\ b_finalize f = Ok eb_frame.
Proof. eexists. split; [apply builds_of; [typed|typed|vm_compute; reflexivity]|reflexivity]. Qed.

Ltac present := split; intros K; cbn in K; repeat (destruct K as [K|K]; [discriminate|]); exact K.
Lemma data_consistent : consistent data_frame.
Proof. destruct data_builds as (f & HB & HF). eapply finalize_consistent; [exact HB|present|intros (x & K); discriminate|exact HF]. Qed.
Lemma eack_consistent : consistent eack_frame.
Proof. destruct eack_builds as (f & HB & HF). eapply finalize_consistent; [exact HB|present|intros (x & K); discriminate|exact HF]. Qed.
Lemma header_consistent : consistent header_frame.
Proof. destruct header_builds as (f & HB & HF). eapply finalize_consistent; [exact HB|present|intros (x & K); discriminate|exact HF]. Qed.
Lemma eb_consistent : consistent eb_frame.
Proof. destruct eb_builds as (f & HB & HF). eapply finalize_consistent; [exact HB|present|intros (x & K); discriminate|exact HF]. Qed.

(** ** C31 Declared length = emitted length *)
Definition C31_statement : Prop := forall r n b, frame_validate r = Ok tt -> frame_buffer_len r = Done n -> length b = n ->
  exists b', frame_emit r b = Done b' /\ length b' = n /\ forall b2, length b2 = n -> frame_emit r b2 = Done b'.
(** stale bits of a non-zeroed buffer survive in the frame control field *)
Theorem C31_stale_bits_refuted : ~ C31_statement.
Proof.
  intros H. destruct (H (new_imm_ack 1) 3 [0; 0; 0]%N eq_refl eq_refl eq_refl) as (b' & E & _ & K).
  vm_compute in E. injection E as <-. specialize (K [0x08; 0; 0]%N eq_refl). vm_compute in K. discriminate.
Qed.
Print Assumptions C31_stale_bits_refuted.
(** Emission of a consistent frame into a buffer of the announced length whose frame control octets are zero:
    no panic; the octets are exactly the standard's encoding, whatever else the buffer held. *)
Theorem C31_emit_partial : forall r, consistent r -> emittable r ->
  exists n b, frame_buffer_len r = Done n /\ length b = n /\ frame_octets r b /\
    forall rest, 2 + length rest = n -> frame_emit r (0%N :: 0%N :: rest) = Done b.
Proof. exact emit_ok. Qed.
Print Assumptions C31_emit_partial.

(** the test vectors of the crate *)
Example C31_data : consistent data_frame /\ emittable data_frame /\
  frame_emit data_frame (zeros 19) = Done [0x41; 0xd8; 0x01; 0xcd; 0xab; 0xff; 0xff; 0xc7; 0xd9; 0xb5; 0x14; 0x00; 0x4b; 0x12; 0x00; 0x2b; 0x00; 0x00; 0x00]%N.
Proof. split; [exact data_consistent|]. split; [exact I|]. vm_compute. reflexivity. Qed.
Example C31_eack : consistent eack_frame /\ emittable eack_frame /\
  frame_emit eack_frame (zeros 17) = Done [0x02; 0x2e; 0x37; 0xcd; 0xab; 0x02; 0x00; 0x02; 0x00; 0x02; 0x00; 0x02; 0x00; 0x02; 0x0f; 0xe1; 0x8f]%N.
Proof. split; [exact eack_consistent|]. split; [split; [reflexivity|intros []]|]. vm_compute. reflexivity. Qed.

(** ** C34 validate implies that emit does not panic *)
Definition C34_statement : Prop := forall r n b, frame_validate r = Ok tt -> frame_buffer_len r = Done n -> length b = n ->
  frame_emit r b <> Panic.
(** a data frame with a Time Correction header IE, built with the builder, valid: emit panics *)
Theorem C34_header_ie_refuted : ~ C34_statement.
Proof.
  intros H. apply (H header_frame 25 (zeros 25)); [reflexivity|vm_compute; reflexivity|reflexivity|].
  vm_compute. reflexivity.
Qed.
Print Assumptions C34_header_ie_refuted.
(** so does buffer_len itself, on a reserved addressing mode that validate accepts *)
Theorem C34_buffer_len_refuted : exists r, frame_validate r = Ok tt /\ frame_buffer_len r = Panic.
Proof.
  exists (mkFrame (with_dst AmUnknown (start_control FtBeacon V2006 true)) None (Some (mkAfRepr None None None None)) None None).
  split; reflexivity.
Qed.
Print Assumptions C34_buffer_len_refuted.
Definition is_termination (p : PayloadIE) : bool := match p with PTermination => true | _ => false end.
Lemma termination_dec l : {In PTermination l} + {~ In PTermination l}.
Proof.
  destruct (existsb is_termination l) eqn:E; [left|right].
  - apply existsb_exists in E. destruct E as ([|] & H & K); [discriminate|exact H].
  - intros H. assert (existsb is_termination l = true) by (apply existsb_exists; exists PTermination; auto). congruence.
Qed.
(** Exactly which consistent frames cannot be emitted (zeroed frame control octets): those with a payload
    termination IE, and those with both information elements and payload data. (Header lists that contain
    terminations of their own, and present but empty lists in front of payload data, are left out: for them
    it depends on what the buffer held before.) *)
Theorem C34_emit_panics_iff_partial : forall r n rest, consistent r -> frame_buffer_len r = Done n -> 2 + length rest = n ->
  (forall i, f_ies r = Some i -> Forall not_termination (ir_header i) /\ (ir_header i <> [] \/ ir_payload i <> [])) ->
  (frame_emit r (0%N :: 0%N :: rest) = Panic <->
     exists i, f_ies r = Some i /\ (In PTermination (ir_payload i) \/ f_payload r <> None)).
Proof.
  intros r n rest C Hn HL HI. split.
  - intros HP.
    assert (NE : ~ emittable r).
    { intros HE. destruct (emit_ok r C HE) as (m & b & Hm & _ & _ & HK). rewrite Hn in Hm. injection Hm as <-.
      rewrite (HK rest HL) in HP. discriminate. }
    unfold emittable in NE. destruct (f_ies r) as [i|]; [|destruct (NE I)]. exists i. split; [reflexivity|].
    destruct (termination_dec (ir_payload i)) as [T|T]; [left; exact T|right]. intros K. apply NE. auto.
  - intros (i & Ei & HB). destruct (HI i Ei) as [H1 H2].
    apply (emit_panics r rest i n C Ei Hn HL H1). destruct HB; [left; assumption|right; auto].
Qed.
Print Assumptions C34_emit_panics_iff_partial.
Example C34_ex : consistent header_frame /\ frame_buffer_len header_frame = Done 25 /\
  exists i, f_ies header_frame = Some i /\ Forall not_termination (ir_header i) /\ ir_header i <> [].
Proof.
  split; [exact header_consistent|]. split; [vm_compute; reflexivity|]. eexists. split; [reflexivity|]. split; [repeat constructor|discriminate].
Qed.

(** ** C32 Frames without information elements round-trip *)
(** Every frame the builder can produce without IE calls and without setting [Address::Absent] (for immediate
    ACKs: without addresses), up to 127 octets: it fits the announced buffer, is accepted, and reads back. *)
Theorem C32_roundtrip : forall s cs f f' n, builds s cs f -> present_addresses cs -> no_ies cs ->
  ((exists x, s = SImmAck x) -> no_addresses cs) ->
  b_finalize f = Ok f' -> frame_buffer_len f' = Done n -> n <= 127 ->
  exists b r', frame_emit f' (zeros n) = Done b /\ length b = n /\ data_new b = Done (Ok b) /\
    frame_parse b = Done (Ok r') /\ same_frame f' r'.
Proof.
  intros s cs f f' n HB HP HN HA HF HL H127.
  assert (I := builder_ok _ _ _ HB).
  assert (C : consistent f') by (eapply finalize_consistent; eauto).
  assert (NI : f_ies f' = None).
  { pose proof (bi_noies _ _ _ I HN) as N1. clear - HF N1. unfold b_finalize in HF.
    repeat match type of HF with context [match ?x with _ => _ end] => destruct x; try discriminate HF end; injection HF as <-; exact N1. }
  assert (EM : emittable f') by (unfold emittable; rewrite NI; exact Logic.I).
  destruct (emit_ok f' C EM) as (m & b & Hm & Lb & FO & HE). rewrite HL in Hm. injection Hm as <-.
  assert (H2 : 2 <= n) by (rewrite (buffer_len_ok f' C) in HL; injection HL as <-; lia).
  destruct (parse_emitted f' b C EM) as (ACC & a & FA & PE); [rewrite NI; discriminate|exact FO|lia|].
  exists b. eexists. split.
  - destruct n as [|[|n]]; try lia. unfold zeros. cbn [repeat]. apply HE. rewrite repeat_length. lia.
  - split; [exact Lb|]. split; [exact ACC|]. split; [exact PE|].
    unfold same_frame. cbn [f_control f_sequence_number f_addressing f_ies f_payload]. rewrite NI.
    split; [reflexivity|]. split; [reflexivity|]. split; [symmetry; exact FA|]. split; [reflexivity|].
    unfold payload_part. cbn [f_payload]. destruct (f_payload f') as [p|]; [|split; [reflexivity|congruence]].
    destruct p as [|x p]; [split; [reflexivity|congruence]|]. split; reflexivity.
Qed.
Print Assumptions C32_roundtrip.
(** an immediate ACK on which addresses were set: they are dropped, and the frame still reads back *)
Theorem C32_imm_ack_with_addresses : forall x cs f f', builds (SImmAck x) cs f -> no_ies cs -> f_payload f = None ->
  b_finalize f = Ok f' -> exists b y, f_sequence_number f = Some y /\ frame_buffer_len f' = Done 3 /\
    frame_emit f' (zeros 3) = Done b /\ length b = 3 /\ data_new b = Done (Ok b) /\ data_sequence_number b = Done (Some y) /\
    exists af, frame_parse b = Done (Ok (mkFrame (f_control f') (Some y) af None None)).
Proof.
  intros x cs f f' HB HN HP HF. assert (I := builder_ok _ _ _ HB).
  pose proof (bi_noies _ _ _ I HN) as NI. pose proof (bi_version _ _ _ I) as V. rewrite NI in V. cbn in V.
  pose proof (bi_type _ _ _ I) as T. cbn in T. unfold b_finalize in HF. rewrite V, T in HF.
  pose proof (bi_seq _ _ _ I) as S. destruct (f_sequence_number f) as [y|] eqn:ES; [|discriminate]. injection HF as <-.
  destruct S as [Oy S].
  assert (K : fcr_known (f_control f)).
  { split; [rewrite T; discriminate|]. split; [rewrite V; discriminate|]. rewrite (bi_dst _ _ _ I), (bi_src _ _ _ I). split; apply mode_known. }
  destruct (fcr_emit_encodes (f_control f) [] K) as (c0 & c1 & O0 & O1 & EE & HE & _).
  exists [c0; c1; y], y. split; [reflexivity|].
  unfold with_addressing, frame_buffer_len. cbn [f_control f_sequence_number f_addressing f_ies f_payload]. rewrite ES, NI, HP.
  split; [reflexivity|]. split.
  { unfold frame_emit. cbn [f_control f_sequence_number f_addressing f_ies f_payload].
    unfold zeros. cbn [repeat]. rewrite (set_control_ok _ c0 c1 _ EE). cbn [bind]. rewrite set_seq_ok by assumption. reflexivity. }
  split; [reflexivity|].
  assert (HF := fc_is_cons c0 c1 [y] (f_control f) O0 O1 HE).
  assert (AC : acceptable [c0; c1; y] (f_control f)).
  { split; [exact HF|]. split; [unfold mhr_size; rewrite S; cbn; lia|]. split; [apply (bi_sec _ _ _ I)|exact K]. }
  split; [exact (data_new_accepts _ _ AC)|].
  destruct (data_accessors _ _ AC) as (E1 & E2 & _ & o & n & i & m & EA & VA & EI & VI & HL & EP).
  unfold seq_octets in E2. rewrite S in E2. cbn [skipn firstn nth_error] in E2. split; [exact E2|].
  assert (PI : i = None) by (destruct VI as [(Q & _)|(_ & _ & ->)]; [pose proof (bi_ies _ _ _ I) as W; rewrite NI in W; congruence|reflexivity]).
  unfold mhr_size in HL, EP. rewrite S in HL, EP. cbn [length] in HL, EP.
  assert (n = 0 /\ m = 0) as [-> ->] by lia. cbn [Nat.add Nat.eqb] in EP.
  assert (PA : exists a, match o with Some af => some (afr_parse af) | None => Done None end = Done a).
  { destruct o as [af|]; [|eauto]. destruct (view_safe _ _ _ _ HF VA af eq_refl) as (_ & S1 & S2 & S3 & S4). unfold some, afr_parse.
    destruct (af_dst_pan_id af); [|congruence]. destruct (af_dst_address af); [|congruence].
    destruct (af_src_pan_id af); [|congruence]. destruct (af_src_address af); [|congruence]. cbn [bind]. eauto. }
  destruct PA as (a & PA). exists a. unfold frame_parse. rewrite E1. cbn [bind].
  assert (FP : fcr_parse (firstn 2 [c0; c1; y]) = Done (Ok (f_control f))).
  { assert (HF2 := fc_is_firstn _ _ HF). getters HF2. unfold fcr_parse. rewrite Gt, Gs, Gp, Ga, Gc, Gn, Gi, Gd, Gsrc, Gv. cbn [bind].
    destruct (f_control f); reflexivity. }
  unfold try at 1. rewrite FP. cbn [bind]. rewrite EA. cbn [bind]. rewrite PA. cbn [bind]. rewrite EI, PI. cbn [bind]. unfold try. cbn [parse_ies bind].
  rewrite E2. cbn [bind]. rewrite EP. reflexivity.
Qed.
Print Assumptions C32_imm_ack_with_addresses.

Example C32_ex : exists f, builds (SData [0x2b; 0; 0; 0]%N) data_calls f /\ present_addresses data_calls /\ no_ies data_calls /\
  b_finalize f = Ok data_frame /\ frame_buffer_len data_frame = Done 19.
Proof.
  destruct data_builds as (f & HB & HF). exists f. split; [exact HB|]. split; [present|]. split.
  - split; intros h K; cbn in K; repeat (destruct K as [K|K]; [discriminate|]); exact K.
  - split; [exact HF|vm_compute; reflexivity].
Qed.

(** ** C33 Frames with information elements round-trip *)
Definition C33_statement : Prop := forall r i, consistent r -> emittable r -> f_ies r = Some i -> ies_exact i ->
  forall n b, frame_buffer_len r = Done n -> n <= 127 -> frame_emit r (zeros n) = Done b ->
  exists r', frame_parse b = Done (Ok r') /\ f_ies r' = Some i.
(** an enhanced beacon with an MLME payload IE: the HT1 the emitter inserts reads back as an additional header IE *)
Theorem C33_ht1_refuted : ~ C33_statement.
Proof.
  intros H. edestruct (H eb_frame) as (r' & E & K).
  - exact eb_consistent.
  - split; [reflexivity|]. intros [Q|[]]; discriminate.
  - reflexivity.
  - split; [constructor|]. repeat constructor; cbn; lia.
  - vm_compute; reflexivity.
  - lia.
  - vm_compute; reflexivity.
  - vm_compute in E. injection E as <-. discriminate.
Qed.
Print Assumptions C33_ht1_refuted.
(** What does read back, for every frame that can be emitted: the same payload IEs, and the same header IEs,
    followed by a Header Termination 1 when there are payload IEs (as far as the 16 places of the list go). *)
Theorem C33_readback_partial : forall r i n, consistent r -> emittable r -> f_ies r = Some i -> ies_exact i ->
  frame_buffer_len r = Done n -> n <= 127 ->
  exists b r', frame_emit r (zeros n) = Done b /\ data_new b = Done (Ok b) /\ frame_parse b = Done (Ok r') /\
    f_control r' = f_control r /\ f_sequence_number r' = f_sequence_number r /\
    fields_of (f_addressing r') = fields_of (f_addressing r) /\ f_payload r' = None /\
    f_ies r' = Some (mkIes (firstn 16 (ir_header i ++ (match ir_payload i with [] => [] | _ => [HTermination1] end))) (ir_payload i)).
Proof.
  intros r i n C EM Ei HX HL H127.
  destruct (emit_ok r C EM) as (m & b & Hm & Lb & FO & HE). rewrite HL in Hm. injection Hm as <-.
  assert (H2 : 2 <= n) by (rewrite (buffer_len_ok r C) in HL; injection HL as <-; lia).
  destruct (parse_emitted r b C EM) as (ACC & a & FA & PE); [congruence|exact FO|lia|].
  exists b. eexists. split.
  - destruct n as [|[|n]]; try lia. unfold zeros. cbn [repeat]. apply HE. rewrite repeat_length. lia.
  - split; [exact ACC|]. split; [exact PE|]. cbn [f_control f_sequence_number f_addressing f_ies f_payload]. rewrite Ei.
    split; [reflexivity|]. split; [reflexivity|]. split; [exact FA|]. unfold emittable in EM. rewrite Ei in EM. destruct EM as [EP _].
    unfold payload_part. rewrite EP. split; [reflexivity|]. cbn [option_map]. unfold read_back, header_end. rewrite andb_false_r.
    destruct (ir_payload i); reflexivity.
Qed.
Print Assumptions C33_readback_partial.
(** in particular without payload IEs the elements are the same *)
Theorem C33_headers_only : forall r i n, consistent r -> f_payload r = None -> f_ies r = Some i -> ir_payload i = [] -> ies_exact i ->
  frame_buffer_len r = Done n -> n <= 127 ->
  exists b r', frame_emit r (zeros n) = Done b /\ frame_parse b = Done (Ok r') /\ f_ies r' = Some i.
Proof.
  intros r i n C EP Ei PN HX HL H127.
  destruct (C33_readback_partial r i n C) as (b & r' & E1 & _ & E3 & _ & _ & _ & _ & E4); try assumption.
  { unfold emittable. rewrite Ei, PN. auto. }
  exists b, r'. split; [exact E1|]. split; [exact E3|]. rewrite E4, PN, app_nil_r.
  pose proof (con_ies r C) as CI. rewrite Ei in CI. destruct CI as (_ & L & _). rewrite firstn_all2 by exact L.
  destruct i; cbn in *; subst; reflexivity.
Qed.
Print Assumptions C33_headers_only.
Example C33_ex : consistent eack_frame /\ f_payload eack_frame = None /\
  (exists i, f_ies eack_frame = Some i /\ ir_payload i = [] /\ ies_exact i) /\ frame_buffer_len eack_frame = Done 17.
Proof.
  split; [exact eack_consistent|]. split; [reflexivity|]. split; [|vm_compute; reflexivity].
  eexists. split; [reflexivity|]. split; [reflexivity|]. split; [|constructor]. repeat constructor; cbn; lia.
Qed.

(** ** C35 Parsing an accepted frame never panics *)
Definition C35_statement : Prop := forall b, octets b -> data_new b = Done (Ok b) -> frame_parse b <> Panic.
(** an enhanced beacon with a slotframe descriptor that announces no links *)
Definition zero_link_frame : list N :=
  [0x00; 0x22; 0x00; 0x00; 0x3f; 0x07; 0x88; 0x05; 0x1b; 0x01; 0x00; 0x00; 0x00; 0x00]%N.
Theorem C35_zero_links_refuted : ~ C35_statement.
Proof.
  intros H. apply (H zero_link_frame).
  - repeat constructor.
  - vm_compute. reflexivity.
  - vm_compute. reflexivity.
Qed.
Print Assumptions C35_zero_links_refuted.
(** ... and with a timeslot IE of 26 octets *)
Theorem C35_timeslot_refuted : exists b, octets b /\ data_new b = Done (Ok b) /\ frame_parse b = Panic.
Proof.
  exists ([0x00; 0x22; 0x00; 0x00; 0x3f; 0x1c; 0x88; 0x1a; 0x1c; 0x01]%N ++ repeat 0%N 25).
  split; [repeat constructor|]. split; vm_compute; reflexivity.
Qed.
Print Assumptions C35_timeslot_refuted.
(** These two are the only causes: if parsing an accepted frame panics, its information elements contain a
    nested TSCH slotframe IE with a descriptor without links or a nested 26-octet TSCH timeslot IE. *)
Theorem C35_parse_partial : forall b, octets b -> data_new b = Done (Ok b) -> frame_parse b = Panic ->
  exists d, data_ies b = Done (Some d) /\ bad_ies d.
Proof.
  intros b HO HN HP. destruct (data_new_result b HO) as [[_ (r & AC)]|[E _]]; [|rewrite HN in E; discriminate].
  destruct (data_accessors b r AC) as (E1 & E2 & _ & o & n & i & m & EA & VA & EI & VI & HL & EP).
  destruct AC as (HF & _).
  assert (PA : exists a, match o with Some af => some (afr_parse af) | None => Done None end = Done a).
  { destruct o as [af|]; [|eauto]. destruct (view_safe _ _ _ _ HF VA af eq_refl) as (_ & S1 & S2 & S3 & S4). unfold some, afr_parse.
    destruct (af_dst_pan_id af); [|congruence]. destruct (af_dst_address af); [|congruence].
    destruct (af_src_pan_id af); [|congruence]. destruct (af_src_address af); [|congruence]. cbn [bind]. eauto. }
  destruct PA as (a & PA). unfold frame_parse in HP. rewrite E1 in HP. cbn [bind] in HP.
  assert (FP : fcr_parse (firstn 2 b) = Done (Ok r)).
  { assert (HF2 := fc_is_firstn _ _ HF). getters HF2. unfold fcr_parse. rewrite Gt, Gs, Gp, Ga, Gc, Gn, Gi, Gd, Gsrc, Gv. cbn [bind].
    destruct r; reflexivity. }
  unfold try in HP at 1. rewrite FP in HP. cbn [bind] in HP. rewrite EA in HP. cbn [bind] in HP. rewrite PA in HP. cbn [bind] in HP.
  rewrite EI in HP. cbn [bind] in HP.
  destruct i as [d|]; [|unfold try in HP; cbn [parse_ies bind] in HP; rewrite E2, EP in HP; discriminate].
  exists d. split; [exact EI|].
  unfold parse_ies, try in HP. destruct (ies_parse d) as [[x|]|] eqn:ED; cbn [bind] in HP; [rewrite E2 in HP; cbn [bind] in HP; rewrite EP in HP; discriminate|discriminate|].
  apply ies_parse_panic; [|exact ED]. destruct VI as [(_ & HFit & Ed)|(_ & _ & Q)]; [|discriminate]. injection Ed as ->.
  apply (ies_fit_new _ _ HFit).
Qed.
Print Assumptions C35_parse_partial.
Example C35_ex : data_new eb_sample = Done (Ok eb_sample) /\ exists r, frame_parse eb_sample = Done (Ok r).
Proof. split; [vm_compute; reflexivity|]. eexists. vm_compute. reflexivity. Qed.

(** ** C36 The builder *)
Definition C36_statement : Prop := forall s cs f f', builds s cs f -> b_finalize f = Ok f' -> consistent f'.
(** setting an address to Address::Absent is accepted, and the PAN ID is then written although the frame
    control announces none *)
Theorem C36_absent_refuted : ~ C36_statement.
Proof.
  intros H. pose (cs := [CDst AAbsent; CDstPan 0xabcd%N]).
  assert (B : exists f f', builds (SData [1%N]) cs f /\ b_finalize f = Ok f' /\
     f_addressing f' = Some (mkAfRepr (Some 0xabcd%N) (Some AAbsent) None None) /\
     fr_dst_addressing_mode (f_control f') = AmAbsent /\ fr_src_addressing_mode (f_control f') = AmAbsent /\ fr_frame_version (f_control f') = V2006).
  { eexists. eexists. split; [apply builds_of; [typed|unfold cs; typed|vm_compute; reflexivity]|]. split; [reflexivity|]. repeat split. }
  destruct B as (f & f' & B1 & B2 & B3 & B4 & B5 & B6). pose proof (con_addr f' (H _ _ _ _ B1 B2)) as K. rewrite B3 in K.
  destruct K as (dp & sp & HL & _). apply layout_by_flags in HL; [|congruence..].
  rewrite B4, B5, B6 in HL. discriminate.
Qed.
Print Assumptions C36_absent_refuted.
(** an immediate ACK keeps the addressing modes of addresses that were set, but not the addresses *)
Theorem C36_ack_refuted : exists s cs f f', builds s cs f /\ present_addresses cs /\ b_finalize f = Ok f' /\ ~ consistent f'.
Proof.
  exists (SImmAck 7%N), [CDst (AShort [1; 2]%N)].
  eexists. eexists. split; [apply builds_of; [typed|typed|vm_compute; reflexivity]|]. split; [present|]. split; [reflexivity|].
  intros C. pose proof (con_addr _ C) as K. cbn [f_addressing with_addressing] in K.
  specialize (K true false). assert (layout_size (with_dst AmShort (start_control FtAck V2006 false)) true false = 0); [apply K|discriminate].
  apply layout_by_flags; [discriminate..|reflexivity].
Qed.
Print Assumptions C36_ack_refuted.
(** With these two excluded, every finalized frame describes itself consistently. *)
Theorem C36_consistent_partial : forall s cs f f', builds s cs f -> present_addresses cs ->
  ((exists x, s = SImmAck x) -> f_ies f = None -> no_addresses cs) ->
  b_finalize f = Ok f' -> consistent f'.
Proof. exact finalize_consistent. Qed.
Print Assumptions C36_consistent_partial.

(** finalize changes nothing but PAN ID compression and PAN IDs (and drops the addressing of immediate ACKs) *)
Theorem C36_preserves : forall f f', b_finalize f = Ok f' ->
  f_control f' = with_comp (fr_pan_id_compression (f_control f')) (f_control f) /\
  f_sequence_number f' = f_sequence_number f /\ f_ies f' = f_ies f /\ f_payload f' = f_payload f /\
  (fr_frame_type (f_control f) <> FtAck \/ fr_frame_version (f_control f) = V2020 ->
   exists a a', f_addressing f = Some a /\ f_addressing f' = Some a' /\
     ar_dst_address a' = ar_dst_address a /\ ar_src_address a' = ar_src_address a /\
     (ar_dst_pan_id a' = ar_dst_pan_id a \/ (ar_dst_pan_id a' = None /\ ar_dst_address a = None)) /\
     (ar_src_pan_id a' = ar_src_pan_id a \/
        (ar_src_pan_id a' = None /\ (ar_src_address a = None \/ (fr_pan_id_compression (f_control f') = true /\ ar_src_pan_id a = ar_dst_pan_id a))))).
Proof.
  intros f f' H. destruct f as [[t sec pend ack comp sns ie d s v] sq af ies pl]. unfold b_finalize in H. proj.
  destruct v; destruct t; try (destruct sq; [|discriminate H]); destruct af as [[dp da sp sa]|]; proj; try discriminate H;
    repeat match type of H with context [(?x =? ?y)%N] => destruct (N.eqb_spec x y); subst
      | context [match ?x with _ => _ end] => destruct x; try discriminate H end;
    injection H as <-; proj; (repeat (split; [reflexivity|]));
    intros [K|K]; try congruence; eexists; eexists; (repeat (split; [reflexivity|])); proj; auto 6.
Qed.
Print Assumptions C36_preserves.

(** identical PAN IDs are compressed: both addresses present, equal PAN IDs (in the 2020 format: not both extended) *)
Theorem C36_identical_pans : forall f a d s p, f_addressing f = Some a ->
  ar_dst_address a = Some d -> ar_src_address a = Some s -> d <> AAbsent -> s <> AAbsent ->
  ar_dst_pan_id a = Some p -> ar_src_pan_id a = Some p ->
  (fr_frame_version (f_control f) = V2020 -> is_extended d && is_extended s = false) ->
  (fr_frame_version (f_control f) <> V2020 -> fr_frame_type (f_control f) <> FtAck) ->
  exists f', b_finalize f = Ok f' /\ fr_pan_id_compression (f_control f') = true /\
    f_addressing f' = Some (mkAfRepr (Some p) (Some d) None (Some s)).
Proof.
  intros f [dp da sp sa] d s p Ea Hd Hs Nd Ns Hdp Hsp HV HT. proj. subst. unfold b_finalize. rewrite Ea. proj. rewrite N.eqb_refl.
  destruct (fr_frame_version (f_control f)).
  3:{ specialize (HV eq_refl). destruct d, s; try congruence; try discriminate; eexists; (split; [reflexivity|]); auto. }
  all: assert (T : fr_frame_type (f_control f) <> FtAck) by (apply HT; discriminate);
    destruct (fr_frame_type (f_control f)); try congruence; eexists; (split; [reflexivity|]); auto.
Qed.
Print Assumptions C36_identical_pans.
(** different PAN IDs are both kept, uncompressed *)
Theorem C36_different_pans : forall st cs f a d s p q, builds st cs f -> f_addressing f = Some a ->
  ar_dst_address a = Some d -> ar_src_address a = Some s -> d <> AAbsent -> s <> AAbsent ->
  ar_dst_pan_id a = Some p -> ar_src_pan_id a = Some q -> p <> q ->
  (fr_frame_version (f_control f) = V2020 -> is_extended d && is_extended s = false) ->
  (fr_frame_version (f_control f) <> V2020 -> fr_frame_type (f_control f) <> FtAck) ->
  exists f', b_finalize f = Ok f' /\ fr_pan_id_compression (f_control f') = false /\ f_addressing f' = Some a.
Proof.
  intros st cs f [dp da sp sa] d s p q B Ea Hd Hs Nd Ns Hdp Hsp Hpq HV HT. assert (CF := bi_comp _ _ _ (builder_ok _ _ _ B)).
  proj. subst. unfold b_finalize. rewrite Ea. proj. apply N.eqb_neq in Hpq. rewrite Hpq.
  destruct (fr_frame_version (f_control f)).
  3:{ specialize (HV eq_refl). destruct d, s; try congruence; try discriminate; eexists; (split; [reflexivity|]); auto. }
  all: assert (T : fr_frame_type (f_control f) <> FtAck) by (apply HT; discriminate);
    destruct (fr_frame_type (f_control f)); try congruence; eexists; (split; [reflexivity|]); auto.
Qed.
Print Assumptions C36_different_pans.
(** Err is returned only for fields no setting of the compression bit can describe, except for two layouts the
    standard knows: (2020) only a destination address and no PAN ID, (2006) both addresses and only the destination PAN ID. *)
Theorem C36_errors : forall st cs f a, builds st cs f -> present_addresses cs -> f_addressing f = Some a ->
  b_finalize f = Err -> forall comp, consistent (with_addressing (Some a) (with_comp comp (f_control f)) f) ->
  (fr_frame_version (f_control f) = V2020 /\ ar_dst_address a <> None /\ ar_src_address a = None /\ ar_dst_pan_id a = None /\ ar_src_pan_id a = None) \/
  (fr_frame_version (f_control f) = V2006 /\ ar_dst_address a <> None /\ ar_src_address a <> None /\ ar_dst_pan_id a <> None /\ ar_src_pan_id a = None).
Proof.
  intros st cs f a B P Ea HE comp C. assert (I := builder_ok _ _ _ B).
  pose proof (con_addr _ C) as K. cbn [f_addressing with_addressing] in K. destruct K as (dp & sp & HL & _ & HD & HS).
  apply layout_by_flags in HL; [|proj; rewrite ?(bi_dst _ _ _ I), ?(bi_src _ _ _ I); apply mode_known..].
  proj. rewrite (bi_dst _ _ _ I), (bi_src _ _ _ I), Ea in HL. proj.
  destruct (bi_present _ _ _ I P) as [P1 P2]. rewrite Ea in P1, P2. proj.
  unfold b_finalize in HE. rewrite Ea in HE.
  destruct (fr_frame_version (f_control f)) eqn:EV.
  1:{ pose proof (bi_version _ _ _ I) as V. rewrite EV in V. destruct (has _), st; discriminate. }
  3:{ pose proof (bi_version _ _ _ I) as V. rewrite EV in V. destruct (has _), st; discriminate. }
  - right. split; [reflexivity|].
    assert (NA : fr_frame_type (f_control f) <> FtAck).
    { intros T. rewrite T in HE. destruct (f_sequence_number f) eqn:ES; [discriminate|].
      pose proof (bi_type _ _ _ I) as T'. rewrite T in T'. destruct st; try discriminate; [apply (bi_ack_seq _ _ _ I); eauto|].
      pose proof (bi_version _ _ _ I) as V. rewrite EV in V. destruct (has _); discriminate. }
    clear - NA HE HL P1 P2 HD HS. destruct a as [p [[|x|x]|] q [[|y|y]|]]; proj; try congruence; cbn in HL; destruct comp; try discriminate HL; injection HL as <- <-;
      destruct (fr_frame_type (f_control f)); try congruence; cbn in HD, HS;
      try (destruct HD as (? & -> & _)); try (destruct HS as (? & -> & _)); subst; try discriminate HE;
      try (destruct (_ =? _)%N in HE; discriminate HE); repeat split; congruence.
  - left. split; [reflexivity|]. clear - HE HL P1 P2 HD HS.
    destruct a as [p [[|x|x]|] q [[|y|y]|]]; proj; try congruence; cbn in HL; destruct comp; try discriminate HL; injection HL as <- <-;
      cbn in HD, HS; try (destruct HD as (? & -> & _)); try (destruct HS as (? & -> & _)); subst; try discriminate HE;
      try (destruct (_ =? _)%N in HE; discriminate HE); repeat split; congruence.
Qed.
Print Assumptions C36_errors.
Example C36_ex : exists f a, builds (SData [0x2b; 0; 0; 0]%N) data_calls f /\ present_addresses data_calls /\ f_addressing f = Some a /\
  ar_dst_pan_id a = ar_src_pan_id a /\ b_finalize f = Ok data_frame /\ fr_pan_id_compression (f_control data_frame) = true.
Proof.
  eexists. eexists. split; [apply builds_of; [typed|typed|vm_compute; reflexivity]|]. split; [present|]. repeat split; reflexivity.
Qed.

(** ** C66 Builder calls *)
Definition perform_all (cs : list call) (f : FrameRepr) : outcome FrameRepr := fold_left (fun m c => let* f := m in perform c f) cs (Done f).
Lemma last_of_app {A} (pick : call -> option A) cs c :
  last_of pick (cs ++ [c]) = or_else (pick c) (last_of pick cs).
Proof.
  induction cs as [|d cs IH]; cbn; [destruct (pick c); reflexivity|]. rewrite IH. destruct (pick c); cbn; [reflexivity|].
  destruct (last_of pick cs); reflexivity.
Qed.
Lemma all_of_app {A} (pick : call -> option A) cs c :
  all_of pick (cs ++ [c]) = all_of pick cs ++ match pick c with Some x => [x] | None => [] end.
Proof.
  induction cs as [|d cs IH]; cbn; [destruct (pick c); reflexivity|]. rewrite IH. destruct (pick d); reflexivity.
Qed.
Lemma no_af_calls cs : existsb is_addressing_call cs = false ->
  last_of dst_pan_call cs = None /\ last_of dst_call cs = None /\ last_of src_pan_call cs = None /\ last_of src_call cs = None.
Proof.
  induction cs as [|c cs IH]; cbn; [auto|]. intros H. apply orb_false_iff in H. destruct H as [H1 H2].
  destruct (IH H2) as (-> & -> & -> & ->). destruct c; try discriminate H1; auto.
Qed.
Lemma no_ie_calls cs : existsb is_ie_call cs = false -> all_of header_call cs = [] /\ all_of payload_ie_call cs = [].
Proof.
  induction cs as [|c cs IH]; cbn; [auto|]. intros H. apply orb_false_iff in H. destruct H as [H1 H2].
  destruct (IH H2) as (-> & ->). destruct c; try discriminate H1; auto.
Qed.
Lemma asked_af s cs : af_or_default (f_addressing (asked s cs)) =
  mkAfRepr (last_of dst_pan_call cs) (last_of dst_call cs) (last_of src_pan_call cs) (last_of src_call cs).
Proof.
  cbn. destruct (existsb is_addressing_call cs) eqn:E; [reflexivity|]. destruct (no_af_calls cs E) as (-> & -> & -> & ->). reflexivity.
Qed.
Lemma asked_ies s cs : ies_or_default (f_ies (asked s cs)) = mkIes (all_of header_call cs) (all_of payload_ie_call cs).
Proof.
  cbn. destruct (existsb is_ie_call cs) eqn:E; [reflexivity|]. destruct (no_ie_calls cs E) as (-> & ->). reflexivity.
Qed.
Lemma perform_asked s cs c : perform c (asked s cs) =
  if match c with CHeader _ => length (all_of header_call cs) <? 16 | CPayloadIe _ => length (all_of payload_ie_call cs) <? 16 | _ => true end
  then Done (asked s (cs ++ [c])) else Panic.
Proof.
  assert (A : forall l, existsb is_addressing_call (cs ++ [l]) = existsb is_addressing_call cs || is_addressing_call l).
  { intros l. rewrite existsb_app. cbn. rewrite orb_false_r. reflexivity. }
  assert (I : forall l, existsb is_ie_call (cs ++ [l]) = existsb is_ie_call cs || is_ie_call l).
  { intros l. rewrite existsb_app. cbn. rewrite orb_false_r. reflexivity. }
  destruct c; cbn [perform];
    unfold b_set_dst_pan_id, b_set_src_pan_id, b_set_dst_address, b_set_src_address, b_add_header, b_add_payload;
    rewrite ?asked_af, ?asked_ies; cbn [ir_header ir_payload];
    try match goal with |- context [?x <? 16] => destruct (x <? 16) end; try reflexivity; f_equal;
    unfold asked; rewrite ?A, ?I, ?last_of_app, ?all_of_app;
    cbn [is_addressing_call is_ie_call seq_call dst_pan_call src_pan_call dst_call src_call header_call payload_ie_call payload_call or_else];
    rewrite ?orb_false_r, ?orb_true_r, ?app_nil_r; try reflexivity; try (destruct a; reflexivity).
Qed.
(** After any sequence of calls the builder holds exactly the frame asked for; only a seventeenth header or
    payload information element makes it panic. *)
Theorem C66_builder_calls : forall s cs,
  perform_all cs (begin s) =
    if (length (all_of header_call cs) <=? 16) && (length (all_of payload_ie_call cs) <=? 16) then Done (asked s cs) else Panic.
Proof.
  intros s. induction cs as [|c cs IH] using rev_ind; [destruct s; reflexivity|].
  unfold perform_all in *. rewrite fold_left_app. cbn [fold_left]. rewrite IH, !all_of_app, !app_length.
  destruct (length (all_of header_call cs) <=? 16) eqn:E1; cbn [andb].
  - destruct (length (all_of payload_ie_call cs) <=? 16) eqn:E2; cbn [andb bind].
    + rewrite perform_asked. apply Nat.leb_le in E1, E2.
      destruct c; cbn [header_call payload_ie_call length]; rewrite ?Nat.add_0_r;
        repeat match goal with |- context [?x <=? ?y] => destruct (Nat.leb_spec x y) end;
        repeat match goal with |- context [?x <? ?y] => destruct (Nat.ltb_spec x y) end; cbn [andb]; try reflexivity; lia.
    + apply Nat.leb_gt in E2. destruct (Nat.leb_spec (length (all_of payload_ie_call cs) + length (match payload_ie_call c with Some x => [x] | None => [] end)) 16); [lia|].
      rewrite andb_false_r. reflexivity.
  - apply Nat.leb_gt in E1. destruct (Nat.leb_spec (length (all_of header_call cs) + length (match header_call c with Some x => [x] | None => [] end)) 16); [lia|].
    reflexivity.
Qed.
Print Assumptions C66_builder_calls.
(** so the frames the API can build are these *)
Theorem C66_builds : forall s cs f, builds s cs f -> f = asked s cs.
Proof.
  intros s cs f H. induction H as [s HS|s cs f c f' H IH HT HP]; [destruct s; reflexivity|].
  subst f. rewrite perform_asked in HP.
  match type of HP with (if ?x then _ else _) = _ => destruct x end; [injection HP as <-; reflexivity|discriminate].
Qed.
Print Assumptions C66_builds.
Example C66_ex : perform_all (eack_calls ++ [CSequence 5; CSrc (AShort [1; 2])])%N (begin SAck) =
  Done (mkFrame {| fr_frame_type := FtAck; fr_security_enabled := false; fr_frame_pending := false; fr_ack_request := false;
     fr_pan_id_compression := false; fr_sequence_number_suppression := false; fr_information_elements_present := true;
     fr_dst_addressing_mode := AmExtended; fr_src_addressing_mode := AmShort; fr_frame_version := V2020 |}
   (Some 5%N) (Some (mkAfRepr (Some 0xabcd%N) (Some (AExtended [0; 2; 0; 2; 0; 2; 0; 2]%N)) None (Some (AShort [1; 2]%N))))
   (Some (mkIes [HTimeCorrection (-31) true] [])) None).
Proof. vm_compute. reflexivity. Qed.

(** ** C67 What validate checks *)
(** [FrameRepr::validate] accepts exactly the frames with a non-empty payload if any and, for data frames, a payload
    and some addressing information. *)
Theorem C67_validate : forall r,
  frame_validate r = Ok tt <->
    f_payload r <> Some [] /\
    (fr_frame_type (f_control r) = FtData -> f_payload r <> None /\
       exists a, f_addressing r = Some a /\
         (ar_dst_pan_id a <> None \/ ar_dst_address a <> None \/ ar_src_pan_id a <> None \/ ar_src_address a <> None)).
Proof.
  intros r. unfold frame_validate, afr_validate. destruct r as [c q af i p]. cbn [f_control f_payload f_addressing].
  assert (D : fr_frame_type c = FtData \/ fr_frame_type c <> FtData) by (destruct (fr_frame_type c); first [left; reflexivity|right; discriminate]).
  destruct D as [D|D].
  - rewrite D. cbn [andb]. split.
    + intros H. destruct af as [a|]; [|discriminate H]. cbn [negb] in H. destruct p as [p|]; [|discriminate H]. cbn [negb] in H.
      split; [intros K; injection K as ->; destruct a as [[|] [|] [|] [|]]; discriminate H|].
      intros _. split; [discriminate|]. exists a. split; [reflexivity|].
      destruct a as [[|] [|] [|] [|]]; cbn; try (discriminate H); intuition discriminate.
    + intros [H1 H2]. destruct (H2 eq_refl) as (H3 & a & -> & H4). destruct p as [[|x p]|]; try congruence. cbn [negb].
      destruct a as [[|] [|] [|] [|]]; cbn in H4; try reflexivity. intuition congruence.
  - assert (E : (match fr_frame_type c with FtData => true | _ => false end) = false) by (destruct (fr_frame_type c); congruence).
    rewrite E. cbn [andb].
    assert (E' : (match af with Some a => match fr_frame_type c, a with FtData, mkAfRepr None None None None => Err | _, _ => Ok tt end | None => Ok tt end) = Ok tt)
      by (destruct af; [|reflexivity]; destruct (fr_frame_type c); congruence).
    rewrite E'. split.
    + intros H. split; [intros ->; discriminate H|intros K; congruence].
    + intros [H _]. destruct p as [[|]|]; congruence.
Qed.
Print Assumptions C67_validate.
(** the other result is Err; there is no panic *)
Theorem C67_total : forall r, frame_validate r = Ok tt \/ frame_validate r = Err.
Proof. intros r. destruct (frame_validate r) as [[]|]; auto. Qed.
Print Assumptions C67_total.
(** every frame the builder finalizes with a non-empty payload validates *)
Theorem C67_finalized : forall s cs f f', builds s cs f -> b_finalize f = Ok f' -> f_payload f <> Some [] -> frame_validate f' = Ok tt.
Proof.
  intros s cs f f' HB HF HP. apply C67_validate. destruct (C36_preserves f f' HF) as (EC & _ & _ & EP & HA). rewrite EP.
  split; [exact HP|]. intros HD. assert (HD' : fr_frame_type (f_control f) = FtData) by (rewrite EC in HD; exact HD).
  pose proof (C66_builds s cs f HB) as EA. split.
  - rewrite EA in HD' |- *. destruct s; try discriminate HD'. cbn. destruct (last_of payload_call cs); discriminate.
  - destruct HA as (a & a' & E1 & E2 & E3 & E4 & _); [left; congruence|]. exists a'. split; [exact E2|].
    rewrite E3, E4. unfold b_finalize in HF. rewrite HD', E1 in HF.
    destruct (ar_dst_address a) as [d|] eqn:X1; [right; left; discriminate|]. destruct (ar_src_address a) as [x|] eqn:X2; [right; right; right; discriminate|].
    destruct (fr_frame_version (f_control f)); try (destruct (ar_dst_pan_id a); discriminate HF).
    destruct (ar_dst_pan_id a) as [q|] eqn:Q.
    + destruct (ar_src_pan_id a); [discriminate HF|]. injection HF as <-. cbn in E2. injection E2 as <-. left. congruence.
    + destruct (ar_src_pan_id a) eqn:Q2; [discriminate HF|]. exfalso. clear - EA E1 Q Q2 X1 X2.
      rewrite EA in E1. cbn in E1. destruct (existsb is_addressing_call cs) eqn:E; [|discriminate E1]. injection E1 as <-. cbn in *.
      clear EA. induction cs as [|c cs IH]; [discriminate E|]. cbn in *.
      destruct (last_of dst_pan_call cs); [discriminate|]. destruct (last_of src_pan_call cs); [discriminate|].
      destruct (last_of dst_call cs); [discriminate|]. destruct (last_of src_call cs); [discriminate|].
      destruct c; try discriminate; cbn in E; exact (IH Q Q2 X1 X2 E).
Qed.
Print Assumptions C67_finalized.
Example C67_ex : frame_validate data_frame = Ok tt /\ frame_validate (new_data []) = Err /\ frame_validate new_ack = Ok tt.
Proof. repeat split; reflexivity. Qed.
