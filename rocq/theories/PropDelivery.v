(** PropDelivery.v -- C86: a frame representation emitted on one device is parsed to the same representation on another. *)
From Verif Require Import Base BaseProofs Spec SpecFrame BitProofs FrameControl FrameControlProofs Addressing SpecAddressing Ie IeContent ReprIe SpecIe SpecIeContent
  Frames SpecFrames FramesProofs Repr SpecRepr ReprProofs PhyConfig Csma SpecCsma CsmaProofs AddressingProofs AddressingProofs2 PropCsma SpecExchange ExchangeProofs PropExchange
  BuilderProofs PropRepr SpecDelivery.

(** ** Octets of fields *)
Lemma pan_octets_at (p : bool) (b : list N) o : octets b -> o + pan_size p <= length b -> window b o (pan_size p) = pan_octets (pan_at p b o).
Proof.
  intros HO HL. destruct p; cbn [pan_size pan_at pan_octets] in *; [|reflexivity].
  apply list_same; [rewrite window_length by exact HL; reflexivity|]. intros i Hi. rewrite window_length in Hi by exact HL. rewrite window_nth by exact Hi.
  assert (O0 : octet (nth o b 0%N)) by (apply (proj1 (Forall_forall _ _) HO), nth_In; lia).
  destruct i as [|[|i]]; [| |lia]; cbn [nth].
  - rewrite Nat.add_0_r, N.mul_comm, N.mod_add by discriminate. symmetry. apply N.mod_small, O0.
  - rewrite N.mul_comm, N.div_add by discriminate. rewrite N.div_small by exact O0. reflexivity.
Qed.
Lemma addr_octets_at m b o : window b o (addr_size m) = addr_octets (Some (addr_at m b o)).
Proof. destruct m; cbn [addr_at addr_octets addr_size]; rewrite ?rev_involutive; reflexivity. Qed.
Lemma pan_at_of (p : bool) (b : list N) o (q : option N) : (if p then exists v, q = Some v /\ (v < 65536)%N else q = None) ->
  window b o (pan_size p) = pan_octets q -> pan_at p b o = q.
Proof.
  destruct p; [|intros -> _; reflexivity]. intros (v & -> & Hv). cbn [pan_size pan_octets pan_at]. intros HW. f_equal.
  assert (E0 : nth o b 0%N = (v mod 256)%N) by (rewrite <- (Nat.add_0_r o), <- (window_nth b o 2 0), HW by lia; reflexivity).
  assert (E1 : nth (o + 1) b 0%N = (v / 256)%N) by (rewrite <- (window_nth b o 2 1), HW by lia; reflexivity).
  rewrite E0, E1. apply pan_split.
Qed.
Lemma addr_at_of m b o a : mode_of_address a = m -> window b o (addr_size m) = addr_octets (Some a) -> addr_at m b o = a.
Proof. intros <-. destruct a as [|v|v]; cbn [mode_of_address addr_size addr_octets addr_at]; intros HW; rewrite ?HW, ?rev_involutive; reflexivity. Qed.
Lemma window_here (pre w post : list N) n : length w = n -> window (pre ++ w ++ post) (length pre) n = w.
Proof. intros <-. apply window_app. Qed.
Lemma five (b : list N) d n1 n2 n3 n4 : d + (n1 + n2 + n3 + n4) <= length b ->
  b = firstn d b ++ window b d n1 ++ window b (d + n1) n2 ++ window b (d + n1 + n2) n3 ++ window b (d + n1 + n2 + n3) n4 ++ skipn (d + (n1 + n2 + n3 + n4)) b.
Proof.
  intros _. unfold window. rewrite <- (firstn_skipn d b) at 1. f_equal. rewrite <- (firstn_skipn n1 (skipn d b)) at 1. f_equal.
  rewrite skipn_skipn'. rewrite <- (firstn_skipn n2 (skipn (d + n1) b)) at 1. f_equal. rewrite skipn_skipn'.
  rewrite <- (firstn_skipn n3 (skipn (d + n1 + n2) b)) at 1. f_equal. rewrite skipn_skipn'.
  rewrite <- (firstn_skipn n4 (skipn (d + n1 + n2 + n3) b)) at 1. f_equal. rewrite skipn_skipn'. f_equal. lia.
Qed.

(** the fields of a frame, read off its octets *)
Lemma fields_at f b a dp sp : consistent f -> frame_octets f b -> f_addressing f = Some a -> layout (f_control f) dp sp ->
  repr_matches (normal a) (fr_dst_addressing_mode (f_control f)) (fr_src_addressing_mode (f_control f)) dp sp ->
  let r := f_control f in let d := mhr_size r in let s := d + pan_size dp + addr_size (fr_dst_addressing_mode r) in
  d + layout_size r dp sp <= length b /\
  pan_at dp b d = ar_dst_pan_id a /\ addr_at (fr_dst_addressing_mode r) b (d + pan_size dp) = normal_addr (ar_dst_address a) /\
  pan_at sp b s = ar_src_pan_id a /\ addr_at (fr_src_addressing_mode r) b (s + pan_size sp) = normal_addr (ar_src_address a) /\
  skipn (d + layout_size r dp sp) b = ies_part f ++ payload_part f.
Proof.
  intros C (c0 & c1 & O0 & O1 & HE & _ & EB) EA HL HM. cbn zeta. set (r := f_control f) in *.
  pose proof (repr_matches_len _ _ _ _ _ HM) as (L1 & L2 & L3 & L4). destruct HM as ((da & sa & E1 & E2 & M1 & M2 & W1 & W2) & P1 & P2).
  cbn [normal ar_dst_pan_id ar_dst_address ar_src_pan_id ar_src_address] in *. injection E1 as <-. injection E2 as <-.
  assert (LS := seq_part_length f C). fold r in LS. unfold addr_part in EB. rewrite EA, <- addressing_octets_normal in EB. unfold addressing_octets in EB.
  cbn [normal ar_dst_pan_id ar_dst_address ar_src_pan_id ar_src_address] in EB. set (h := c0 :: c1 :: seq_part f). assert (LH : length h = mhr_size r) by exact LS.
  set (x1 := pan_octets (ar_dst_pan_id a)) in *. set (x2 := addr_octets (Some (normal_addr (ar_dst_address a)))) in *.
  set (x3 := pan_octets (ar_src_pan_id a)) in *. set (x4 := addr_octets (Some (normal_addr (ar_src_address a)))) in *. set (t := ies_part f ++ payload_part f) in *.
  assert (EB1 : b = h ++ x1 ++ x2 ++ x3 ++ x4 ++ t) by (rewrite EB; subst h; cbn [app]; rewrite !app_assoc; reflexivity).
  assert (EB2 : b = (h ++ x1) ++ x2 ++ x3 ++ x4 ++ t) by (rewrite EB1, !app_assoc; reflexivity).
  assert (EB3 : b = (h ++ x1 ++ x2) ++ x3 ++ x4 ++ t) by (rewrite EB1, !app_assoc; reflexivity).
  assert (EB4 : b = (h ++ x1 ++ x2 ++ x3) ++ x4 ++ t) by (rewrite EB1, !app_assoc; reflexivity).
  assert (EB5 : b = (h ++ x1 ++ x2 ++ x3 ++ x4) ++ t) by (rewrite EB1, !app_assoc; reflexivity).
  rewrite <- LH. split; [rewrite EB1, !app_length; unfold layout_size; lia|]. split; [|split; [|split; [|split]]].
  - apply pan_at_of; [exact P1|]. rewrite EB1. apply window_here, L1.
  - apply addr_at_of; [exact M1|]. replace (length h + pan_size dp) with (length (h ++ x1)) by (rewrite app_length; lia). rewrite EB2. apply window_here, L2.
  - apply pan_at_of; [exact P2|]. replace (length h + pan_size dp + addr_size (fr_dst_addressing_mode r)) with (length (h ++ x1 ++ x2)) by (rewrite !app_length; lia).
    rewrite EB3. apply window_here, L3.
  - apply addr_at_of; [exact M2|]. replace (length h + pan_size dp + addr_size (fr_dst_addressing_mode r) + pan_size sp) with (length (h ++ x1 ++ x2 ++ x3)) by (rewrite !app_length; lia).
    rewrite EB4. apply window_here, L4.
  - replace (length h + layout_size r dp sp) with (length (h ++ x1 ++ x2 ++ x3 ++ x4)) by (rewrite !app_length; unfold layout_size; lia).
    rewrite EB5, skipn_app, skipn_all, Nat.sub_diag. reflexivity.
Qed.

Lemma seq_at f b : consistent f -> frame_octets f b -> seq_octets (f_control f) b = seq_part f.
Proof.
  intros C (c0 & c1 & _ & _ & _ & _ & ->). pose proof (con_seq f C) as K. unfold seq_octets, seq_part. destruct (f_sequence_number f) as [x|].
  - destruct K as [_ ->]. reflexivity.
  - rewrite K. reflexivity.
Qed.
Lemma head_at r b c0 c1 rest : b = c0 :: c1 :: rest -> mhr_size r <= length b -> firstn (mhr_size r) b = c0 :: c1 :: seq_octets r b.
Proof. intros ->. unfold mhr_size, seq_octets. destruct (fr_sequence_number_suppression r); reflexivity. Qed.
Lemma frame_acceptable f b : consistent f -> frame_octets f b -> length b <= 127 -> acceptable b (f_control f).
Proof.
  intros C (c0 & c1 & O0 & O1 & HE & _ & EB) HL. split; [rewrite EB; exists c0, c1; eexists; repeat split; assumption || apply HE|].
  split; [|split; [apply (con_plain f C)|apply (con_known f C)]]. split; [|exact HL]. rewrite <- (seq_part_length f C), EB. cbn [length]. rewrite app_length. lia.
Qed.
Lemma replaced_pan (p c : bool) pan (q : option N) : (pan < 65536)%N -> (if p then exists v, q = Some v /\ (v < 65536)%N else q = None) ->
  (if p then exists v, replaced c pan q = Some v /\ (v < 65536)%N else replaced c pan q = None).
Proof. intros HP. destruct p; [|intros ->; reflexivity]. intros (v & -> & Hv). cbn [replaced]. destruct c; eauto. Qed.

(** the representation that arrives describes itself consistently *)
Lemma arriving_consistent P cfg ar f : (p_pan_id P < 65536)%N -> consistent f -> consistent (arriving P cfg ar f).
Proof.
  intros HP [K1 K2 K3 K4 K5 K6]. constructor; try assumption.
  cbn [arriving f_addressing f_control]. destruct (f_addressing f) as [a|]; [|exact K4]. cbn [option_map].
  destruct K4 as (dp & sp & HL & HM & HD & HS). exists dp, sp. split; [exact HL|]. split; [exact HM|].
  split; cbn [normal arriving_addresses ar_dst_pan_id ar_src_pan_id]; apply replaced_pan; assumption.
Qed.

(** what is sent of the octets of [f] are the octets of [arriving f] *)
Lemma arriving_octets P cfg ar f b b' : consistent f -> frame_octets f b -> length b <= 127 -> octets b' ->
  acceptable b' (with_ack_request ar (f_control f)) -> sent_as P cfg (f_control f) b b' -> frame_octets (arriving P cfg ar f) b'.
Proof.
  intros C HF HL HO' HA' (L & ES & ED & EN & E7). set (r := f_control f) in *. assert (HA := frame_acceptable f b C HF HL). fold r in HA.
  destruct HA' as (HFC & [HM _] & _). change (mhr_size (with_ack_request ar r)) with (mhr_size r) in HM. destruct HFC as (c0 & c1 & rest & Eb' & O0 & O1 & HE).
  assert (SQ := seq_at f b C HF). fold r in SQ. assert (B7 : bit 7 (c0 + 256 * c1) = false).
  { rewrite Eb' in E7. cbn [nth] in E7. destruct HF as (x0 & x1 & X0 & X1 & _ & HB & Eb). rewrite Eb in E7. cbn [nth] in E7.
    rewrite bit_testbit in *. rewrite testbit_pair in * by assumption. rewrite !bit_testbit in E7. cbn in *. congruence. }
  exists c0, c1. split; [exact O0|]. split; [exact O1|]. split; [exact HE|]. split; [exact B7|].
  assert (HH := head_at r b' c0 c1 rest Eb' HM). rewrite ES, SQ in HH.
  change (seq_part (arriving P cfg ar f)) with (seq_part f). change (ies_part (arriving P cfg ar f)) with (ies_part f). change (payload_part (arriving P cfg ar f)) with (payload_part f).
  change (c0 :: c1 :: seq_part f ++ addr_part (arriving P cfg ar f) ++ ies_part f ++ payload_part f) with ((c0 :: c1 :: seq_part f) ++ addr_part (arriving P cfg ar f) ++ ies_part f ++ payload_part f).
  rewrite <- HH. pose proof (con_addr f C) as K. unfold addr_part. cbn [arriving f_addressing]. destruct (f_addressing f) as [a|] eqn:EA; cbn [option_map].
  - destruct K as (dp & sp & HLay & HMt). destruct (fields_at f b a dp sp C HF EA HLay HMt) as (F0 & F1 & F2 & F3 & F4 & F5). cbn zeta in *. fold r in F0, F1, F2, F3, F4, F5, HLay.
    destruct (ED dp sp HLay F0) as (G1 & G2 & G3 & G4 & G5). rewrite F1 in G1. rewrite F2 in G2. rewrite F3 in G3. rewrite F4 in G4. rewrite F5 in G5.
    rewrite <- L in F0. unfold layout_size in F0, G5. rewrite (five b' (mhr_size r) _ _ _ _ F0) at 1. rewrite G5.
    rewrite (pan_octets_at dp b' (mhr_size r)), (pan_octets_at sp b'), !addr_octets_at, G1, G2, G3, G4 by (exact HO' || lia).
    rewrite <- addressing_octets_normal. unfold addressing_octets. cbn [normal arriving_addresses ar_dst_pan_id ar_dst_address ar_src_pan_id ar_src_address].
    rewrite <- !app_assoc. reflexivity.
  - fold r in K. rewrite <- (firstn_skipn (mhr_size r) b') at 1. f_equal. cbn [app].
    assert (T : skipn (mhr_size r) b = ies_part f ++ payload_part f).
    { destruct HF as (x0 & x1 & _ & _ & _ & _ & Eb). unfold addr_part in Eb. rewrite EA in Eb. cbn [app] in Eb.
      assert (LS := seq_part_length f C). fold r in LS. rewrite <- LS. change (b = (x0 :: x1 :: seq_part f) ++ ies_part f ++ payload_part f) in Eb. rewrite Eb.
      change (2 + length (seq_part f)) with (length (x0 :: x1 :: seq_part f)). rewrite skipn_app, skipn_all, Nat.sub_diag. reflexivity. }
    rewrite <- T. destruct (dst_view b r HA) as (d & HD & _). inversion HD as [dp sp HLay HFit|HNA]; subst d.
    + destruct (ED dp sp HLay HFit) as (_ & _ & _ & _ & G5). rewrite (K dp sp HLay), Nat.add_0_r in G5. exact G5.
    + specialize (EN HNA). assert (M2 : mhr_size r = 2 + (mhr_size r - 2)) by (unfold mhr_size; destruct (fr_sequence_number_suppression r); reflexivity).
      rewrite M2, <- !skipn_skipn', EN. reflexivity.
Qed.

Lemma asks_requestable cfg f a b : consistent f -> frame_octets f b -> f_addressing f = Some a -> ack_requestable cfg (f_control f) b <-> asks_ack cfg f a.
Proof.
  intros C HF EA. pose proof (con_addr f C) as K. rewrite EA in K. destruct K as (dp & sp & HLay & HMt).
  destruct (fields_at f b a dp sp C HF EA HLay HMt) as (F0 & F1 & F2 & _). cbn zeta in *.
  assert (HD := dest_fields (f_control f) b dp sp HLay F0). rewrite F1, F2 in HD. unfold ack_requestable, asks_ack, acks_class. split.
  - intros (HT & pan & x & HD' & HX). pose proof (destination_fun _ _ _ _ HD HD') as E. injection E as <- <-. auto.
  - intros (HT & HX). split; [exact HT|]. eauto.
Qed.

(** ** On the air: the octets a device sends for the frame [f] are those of [f] with the AR flag and the PAN IDs as configured. *)
Theorem C86_sent : forall P cfg dv buf o f b a, (p_pan_id P < 65536)%N -> dev_ok dv -> steady dv -> octets buf ->
  consistent f -> frame_octets f b -> length b <= 127 -> f_addressing f = Some a -> holds dv buf o b ->
  exists w buf1 buf2 b' ar, set_ack_request_if_possible cfg dv buf = Done (TxOk w, buf1) /\ overwrite_pan_id P cfg dv buf1 = Done (TxOk tt, buf2) /\
    octets buf2 /\ holds dv buf2 o b' /\ consistent (arriving P cfg ar f) /\ frame_octets (arriving P cfg ar f) b' /\
    (asks_ack cfg f a -> ar = true /\ option_map fst w = f_sequence_number f) /\ (~ asks_ack cfg f a -> ar = fr_ack_request (f_control f) /\ w = None).
Proof.
  intros P cfg dv buf o f b a HP HDV HST HO C HF HL EA HH. assert (HA := frame_acceptable f b C HF HL).
  destruct (sent P cfg dv buf o b _ HP HDV HST HO HH HA) as (w & buf1 & buf2 & b' & ar & E1 & E2 & HO2 & _ & HH2 & HA2 & HS & HY & HN).
  exists w, buf1, buf2, b', ar. split; [exact E1|]. split; [exact E2|]. split; [exact HO2|]. split; [exact HH2|]. split; [apply arriving_consistent; assumption|].
  assert (HO' : octets b') by (destruct HH2 as (n & _ & ->); apply window_octets, HO2).
  split; [exact (arriving_octets P cfg ar f b b' C HF HL HO' HA2 HS)|]. assert (Q := asks_requestable cfg f a b C HF EA). split.
  - intros K. destruct (HY (proj2 Q K)) as [-> ->]. split; [reflexivity|]. unfold sequence_number. rewrite (seq_at f b C HF). unfold seq_part.
    destruct (f_sequence_number f); reflexivity.
  - intros K. apply HN. rewrite Q. exact K.
Qed.
Print Assumptions C86_sent.

(** ** What the upper layer of the receiver reads: the same frame. *)
Lemma read_frame g b : consistent g -> frame_octets g b -> plain_ies g -> length b <= 127 ->
  data_new b = Done (Ok b) /\ exists g', frame_parse b = Done (Ok g') /\ same_frame g g'.
Proof.
  intros C HF HP HL.
  assert (EM : emittable g) by (unfold emittable, plain_ies in *; destruct (f_ies g) as [i|]; [destruct HP as (E & -> & _); split; [exact E|intros []]|exact I]).
  destruct (parse_emitted g b C EM) as (A & a & FA & E); [|exact HF|exact HL|].
  { intros i Ei. unfold plain_ies in HP. rewrite Ei in HP. apply HP. }
  split; [exact A|]. eexists. split; [exact E|]. unfold same_frame. cbn [f_control f_sequence_number f_addressing f_ies f_payload].
  split; [reflexivity|]. split; [reflexivity|]. split; [symmetry; exact FA|]. split.
  - pose proof (con_ies g C) as CI. unfold plain_ies in HP. destruct (f_ies g) as [i|]; [|reflexivity]. cbn [option_map]. destruct HP as (_ & EP & _), CI as (_ & LH & _).
    unfold read_back, header_end. rewrite EP, andb_false_r. cbn [app]. rewrite app_nil_r, firstn_all2 by exact LH. destruct i as [h p]. cbn in *. subst p. reflexivity.
  - unfold payload_part. cbn [f_payload]. destruct (f_payload g) as [p|]; [|split; [reflexivity|congruence]].
    destruct p as [|x p]; [split; [reflexivity|congruence]|]. split; reflexivity.
Qed.
(** A frame [f] emitted on device A and sent; any device B that receives what A sent hands it to its upper layer exactly if it is addressed
    to B (or B does not filter), and the upper layer then parses the frame [f], with the AR flag and the PAN IDs as A left them. *)
Theorem C86_delivered : forall PA cfgA dvA bufA oA f b a PB cfgB dvB hwB,
  (p_pan_id PA < 65536)%N -> dev_ok dvA -> steady dvA -> octets bufA -> holds dvA bufA oA b ->
  consistent f -> frame_octets f b -> plain_ies f -> length b <= 127 -> f_addressing f = Some a -> fr_frame_type (f_control f) <> FtAck ->
  dev_ok dvB -> length hwB = 8 ->
  let arrives := ignore_not_for_us cfgB = false \/
    reaches (replaced (overwrite_dst_pan_id cfgA) (p_pan_id PA) (ar_dst_pan_id a)) (normal_addr (ar_dst_address a)) (p_pan_id PB) hwB in
  exists w buf1 buf2 b' ar g,
    set_ack_request_if_possible cfgA dvA bufA = Done (TxOk w, buf1) /\ overwrite_pan_id PA cfgA dvA buf1 = Done (TxOk tt, buf2) /\ holds dvA buf2 oA b' /\
    data_new b' = Done (Ok b') /\ frame_parse b' = Done (Ok g) /\ same_frame (arriving PA cfgA ar f) g /\
    (asks_ack cfgA f a -> ar = true /\ option_map fst w = f_sequence_number f) /\ (~ asks_ack cfgA f a -> ar = fr_ack_request (f_control f) /\ w = None) /\
    forall bufB oB, octets bufB -> holds dvB bufB oB b' ->
      (arrives -> exists ack, rx_decide PB cfgB dvB hwB bufB = Done (Some (ack, f_sequence_number f)) /\
         (ack = true <-> ack_everything cfgB = true \/ (ar = true /\ acks_class cfgB (normal_addr (ar_dst_address a))))) /\
      (~ arrives -> rx_decide PB cfgB dvB hwB bufB = Done None).
Proof.
  intros PA cfgA dvA bufA oA f b a PB cfgB dvB hwB HP HDA HST HO HH C HF HI HL EA HT HDB HW. cbn zeta.
  assert (HA := frame_acceptable f b C HF HL).
  destruct (sent PA cfgA dvA bufA oA b _ HP HDA HST HO HH HA) as (w & buf1 & buf2 & b' & ar & E1 & E2 & HO2 & _ & HH2 & HA2 & HS & HY & HN).
  assert (HO' : octets b') by (destruct HH2 as (n & _ & ->); apply window_octets, HO2).
  assert (HG := arriving_octets PA cfgA ar f b b' C HF HL HO' HA2 HS).
  destruct (read_frame (arriving PA cfgA ar f) b') as (A & g & EG & SG); [apply arriving_consistent; assumption|exact HG|exact HI|rewrite (proj1 HS); exact HL|].
  exists w, buf1, buf2, b', ar, g. split; [exact E1|]. split; [exact E2|]. split; [exact HH2|]. split; [exact A|]. split; [exact EG|]. split; [exact SG|].
  assert (Q := asks_requestable cfgA f a b C HF EA).
  assert (SN : sequence_number (f_control f) b = f_sequence_number f).
  { unfold sequence_number. rewrite (seq_at f b C HF). unfold seq_part. destruct (f_sequence_number f); reflexivity. }
  split; [|split].
  - intros K. destruct (HY (proj2 Q K)) as [-> ->]. split; [reflexivity|]. rewrite SN. destruct (f_sequence_number f); reflexivity.
  - intros K. apply HN. rewrite Q. exact K.
  - intros bufB oB HOB HHB. pose proof (con_addr f C) as K. rewrite EA in K. destruct K as (dp & sp & HLay & HMt).
    destruct (fields_at f b a dp sp C HF EA HLay HMt) as (F0 & F1 & F2 & _). cbn zeta in *.
    assert (HD := dest_fields (f_control f) b dp sp HLay F0). rewrite F1, F2 in HD.
    destruct (C84_received PA cfgA (f_control f) b b' ar PB cfgB dvB hwB bufB oB _ _ HA HS HA2 HD HDB HOB HW HHB) as [R1 R2]. split.
    + intros K. destruct (R1 K HT) as (ack & -> & R). exists ack. rewrite SN. split; [reflexivity|exact R].
    + intros K. apply R2. left. exact K.
Qed.
Print Assumptions C86_delivered.

(** ** From the builder: any frame but an acknowledgement, with present addresses and header elements only, emitted as the builder finished it. *)
Theorem C86_built : forall s cs f0 f n PA cfgA dvA bufA oA b a PB cfgB dvB hwB,
  builds s cs f0 -> present_addresses cs -> (forall x, s <> SImmAck x) -> s <> SAck -> b_finalize f0 = Ok f -> plain_ies f -> f_addressing f = Some a ->
  frame_buffer_len f = Done n -> n <= 127 -> frame_emit f (zeros n) = Done b ->
  (p_pan_id PA < 65536)%N -> dev_ok dvA -> steady dvA -> octets bufA -> holds dvA bufA oA b -> dev_ok dvB -> length hwB = 8 ->
  reaches (replaced (overwrite_dst_pan_id cfgA) (p_pan_id PA) (ar_dst_pan_id a)) (normal_addr (ar_dst_address a)) (p_pan_id PB) hwB ->
  exists w buf1 buf2 b' ar g,
    set_ack_request_if_possible cfgA dvA bufA = Done (TxOk w, buf1) /\ overwrite_pan_id PA cfgA dvA buf1 = Done (TxOk tt, buf2) /\ holds dvA buf2 oA b' /\
    (forall bufB oB, octets bufB -> holds dvB bufB oB b' -> exists ack, rx_decide PB cfgB dvB hwB bufB = Done (Some (ack, f_sequence_number f))) /\
    frame_parse b' = Done (Ok g) /\ same_frame (arriving PA cfgA ar f) g.
Proof.
  intros s cs f0 f n PA cfgA dvA bufA oA b a PB cfgB dvB hwB HB HPA HNI HNA HFin HI EA HLn H127 HEm HP HDA HST HO HH HDB HW HR.
  assert (C : consistent f). { eapply finalize_consistent; [exact HB|exact HPA| |exact HFin]. intros [x E]. destruct (HNI x E). }
  assert (EM : emittable f) by (unfold emittable, plain_ies in *; destruct (f_ies f) as [i|]; [destruct HI as (E & -> & _); split; [exact E|intros []]|exact I]).
  destruct (emit_ok f C EM) as (m & b1 & Hm & Lb & HF & HE). rewrite HLn in Hm. injection Hm as <-.
  assert (H2 : 2 <= n) by (rewrite (buffer_len_ok f C) in HLn; injection HLn as <-; lia).
  assert (Eb : b1 = b). { destruct n as [|[|n]]; try lia. unfold zeros in HEm. cbn [repeat] in HEm. rewrite HE in HEm by (rewrite repeat_length; lia). injection HEm as ->. reflexivity. }
  subst b1.
  assert (HT : fr_frame_type (f_control f) <> FtAck).
  { assert (K := bi_type _ _ _ (builder_ok _ _ _ HB)). destruct (C36_preserves f0 f HFin) as [EC _]. rewrite EC. cbn [with_comp fr_frame_type]. intros E. rewrite E in K. destruct s; cbn in K; try discriminate; [exact (HNI _ eq_refl)|exact (HNA eq_refl)]. }
  destruct (C86_delivered PA cfgA dvA bufA oA f b a PB cfgB dvB hwB) as (w & buf1 & buf2 & b' & ar & g & E1 & E2 & HH2 & A & EG & SG & _ & _ & R);
    try assumption; [lia|].
  exists w, buf1, buf2, b', ar, g. split; [exact E1|]. split; [exact E2|]. split; [exact HH2|]. split; [|split; assumption].
  intros bufB oB HOB HHB. destruct (R bufB oB HOB HHB) as [R1 _]. destruct (R1 (or_intror HR)) as (ack & E & _). eauto.
Qed.
Print Assumptions C86_built.

(** A data frame from A (extended address) to B's short address 1718, built, emitted, sent with both PAN IDs overwritten, and parsed. *)
Definition hello_calls : list call :=
  [CSequence 9; CDstPan 0x2211; CDst (AShort [0x17; 0x18]); CSrcPan 0x3344; CSrc (AExtended [1; 2; 3; 4; 5; 6; 7; 8])]%N.
Definition hello_octets : list N :=
  [0x01; 0xd8; 9; 0x11; 0x22; 0x18; 0x17; 0x44; 0x33; 8; 7; 6; 5; 4; 3; 2; 1; 0xca; 0xfe]%N.
Example C86_example : exists f0 f a, builds (SData [0xca; 0xfe]%N) hello_calls f0 /\ present_addresses hello_calls /\ b_finalize f0 = Ok f /\ plain_ies f /\
  f_addressing f = Some a /\ frame_buffer_len f = Done 19 /\ frame_emit f (zeros 19) = Done hello_octets /\
  holds length_device (in_length_device hello_octets) 1%nat hello_octets /\
  reaches (replaced (overwrite_dst_pan_id exchange_config) (p_pan_id pan_abcd) (ar_dst_pan_id a)) (normal_addr (ar_dst_address a)) (p_pan_id pan_abcd) address_b /\
  frame_parse ([0x21; 0xd8; 9; 0xcd; 0xab; 0x18; 0x17; 0xcd; 0xab]%N ++ skipn 9 hello_octets) = Done (Ok (arriving pan_abcd exchange_config true f)).
Proof.
  eexists. eexists. eexists. split; [apply builds_of; [typed|typed|vm_compute; reflexivity]|]. split; [present|]. split; [vm_compute; reflexivity|].
  split; [exact I|]. split; [reflexivity|]. split; [vm_compute; reflexivity|]. split; [vm_compute; reflexivity|].
  split; [exists 19; split; vm_compute; reflexivity|]. split; [split; [right; right; reflexivity|right; left; reflexivity]|]. vm_compute. reflexivity.
Qed.
