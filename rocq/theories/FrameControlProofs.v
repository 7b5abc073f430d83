(** FrameControlProofs.v -- proofs about FrameControl.v. *)
From Verif Require Import Base BaseProofs FrameControl Spec SpecFrame BitProofs.
From Coq Require Import ZifyBool ZifyNat ZifyN.

Lemma fc_raw_cons b0 b1 rest : fc_raw (b0 :: b1 :: rest) = Done (b0 + 256 * b1)%N.
Proof.
  unfold fc_raw, slice_to. cbn [length Nat.leb firstn bind idx nth_error from_le].
  f_equal. lia.
Qed.

Lemma fc_raw_short b : length b < 2 -> fc_raw b = Panic.
Proof. intros H. unfold fc_raw. rewrite slice_to_panic by exact H. reflexivity. Qed.

Lemma fc_raw_done b v : fc_raw b = Done v -> exists b0 b1 rest, b = b0 :: b1 :: rest /\ v = (b0 + 256 * b1)%N.
Proof.
  destruct b as [|b0 [|b1 rest]]; [discriminate|discriminate|]. rewrite fc_raw_cons.
  intros H; injection H as <-. eauto.
Qed.

(** lo/hi octets of a u16 *)
Lemma to_le_2 v : to_le 2 v = [(v mod 256)%N; (v / 256 mod 256)%N].
Proof. reflexivity. Qed.

Lemma le16_split v : (v < 65536)%N -> (v mod 256 + 256 * (v / 256 mod 256))%N = v.
Proof.
  intros H. rewrite (N.mod_small (v / 256)) by (apply N.div_lt_upper_bound; lia).
  rewrite N.add_comm. symmetry. apply N.div_mod. lia.
Qed.

Lemma fc_update_cons f b0 b1 rest :
  fc_update f (b0 :: b1 :: rest) =
  Done ((f (b0 + 256 * b1) mod 256)%N :: (f (b0 + 256 * b1) / 256 mod 256)%N :: rest).
Proof.
  unfold fc_update. rewrite fc_raw_cons. cbn [bind]. unfold write_at. cbn [to_le length Nat.add Nat.leb].
  reflexivity.
Qed.

(** the abstract view of an update *)
Lemma fc_update_view f b0 b1 rest : octet b0 -> octet b1 ->
  (f (b0 + 256 * b1) < 65536)%N ->
  exists c0 c1, octet c0 /\ octet c1 /\
    fc_update f (b0 :: b1 :: rest) = Done (c0 :: c1 :: rest) /\
    (c0 + 256 * c1 = f (b0 + 256 * b1))%N.
Proof.
  intros H0 H1 Hf. rewrite fc_update_cons.
  exists (f (b0 + 256 * b1) mod 256)%N, (f (b0 + 256 * b1) / 256 mod 256)%N.
  repeat split; try (apply N.mod_lt; lia). apply le16_split, Hf.
Qed.

(** ** C01: getters *)
Lemma FrameType_from_code c : (c < 8)%N -> type_code (FrameType_from c) = c.
Proof.
  intros H. apply N.eqb_eq. revert c H.
  apply (sweep 8 (fun c => type_code (FrameType_from c) =? c)%N). vm_compute. reflexivity.
Qed.
Lemma FrameVersion_from_code c : (c < 4)%N -> version_code (FrameVersion_from c) = c.
Proof.
  intros H. apply N.eqb_eq. revert c H.
  apply (sweep 4 (fun c => version_code (FrameVersion_from c) =? c)%N). vm_compute. reflexivity.
Qed.
Lemma AddressingMode_from_code c : (c < 4)%N -> mode_code (AddressingMode_from c) = c.
Proof.
  intros H. apply N.eqb_eq. revert c H.
  apply (sweep 4 (fun c => mode_code (AddressingMode_from c) =? c)%N). vm_compute. reflexivity.
Qed.

(** the view of a control field value *)
Definition fcr_of (v : N) : FrameControlRepr :=
  mkFcRepr (FrameType_from (field 0 3 v)) (bit 3 v) (bit 4 v) (bit 5 v) (bit 6 v) (bit 8 v) (bit 9 v)
    (AddressingMode_from (field 10 2 v)) (AddressingMode_from (field 14 2 v))
    (FrameVersion_from (field 12 2 v)).

Lemma fc_getters b v : fc_raw b = Done v ->
  fc_frame_type b = Done (fr_frame_type (fcr_of v)) /\
  fc_security_enabled b = Done (fr_security_enabled (fcr_of v)) /\
  fc_frame_pending b = Done (fr_frame_pending (fcr_of v)) /\
  fc_ack_request b = Done (fr_ack_request (fcr_of v)) /\
  fc_pan_id_compression b = Done (fr_pan_id_compression (fcr_of v)) /\
  fc_sequence_number_suppression b = Done (fr_sequence_number_suppression (fcr_of v)) /\
  fc_information_elements_present b = Done (fr_information_elements_present (fcr_of v)) /\
  fc_dst_addressing_mode b = Done (fr_dst_addressing_mode (fcr_of v)) /\
  fc_src_addressing_mode b = Done (fr_src_addressing_mode (fcr_of v)) /\
  fc_frame_version b = Done (fr_frame_version (fcr_of v)).
Proof.
  intros H.
  unfold fc_frame_type, fc_security_enabled, fc_frame_pending, fc_ack_request, fc_pan_id_compression,
    fc_sequence_number_suppression, fc_information_elements_present, fc_dst_addressing_mode,
    fc_src_addressing_mode, fc_frame_version, fcr_of.
  rewrite H. cbn [bind fr_frame_type fr_security_enabled fr_frame_pending fr_ack_request
    fr_pan_id_compression fr_sequence_number_suppression fr_information_elements_present
    fr_dst_addressing_mode fr_src_addressing_mode fr_frame_version].
  rewrite <- !flag_at_bit, <- !field_land.
  change (N.ones 2) with 3%N. change (N.ones 3) with 7%N. rewrite N.shiftr_0_r.
  repeat split; reflexivity.
Qed.

Lemma fcr_of_encodes v : fc_encodes v (fcr_of v).
Proof.
  constructor; cbn [fcr_of fr_frame_type fr_security_enabled fr_frame_pending fr_ack_request
    fr_pan_id_compression fr_sequence_number_suppression fr_information_elements_present
    fr_dst_addressing_mode fr_src_addressing_mode fr_frame_version]; try reflexivity; symmetry.
  - apply FrameType_from_code. apply field_lt.
  - apply AddressingMode_from_code. apply field_lt.
  - apply FrameVersion_from_code. apply field_lt.
  - apply AddressingMode_from_code. apply field_lt.
Qed.

Lemma type_code_inj t1 t2 : type_code t1 = type_code t2 -> t1 = t2.
Proof. destruct t1, t2; simpl; congruence. Qed.
Lemma version_code_inj t1 t2 : version_code t1 = version_code t2 -> t1 = t2.
Proof. destruct t1, t2; simpl; congruence. Qed.
Lemma mode_code_inj t1 t2 : mode_code t1 = mode_code t2 -> t1 = t2.
Proof. destruct t1, t2; simpl; congruence. Qed.

Lemma fc_encodes_unique v r1 r2 : fc_encodes v r1 -> fc_encodes v r2 -> r1 = r2.
Proof.
  intros [] []. destruct r1, r2; simpl in *.
  f_equal; try congruence;
    first [apply type_code_inj|apply version_code_inj|apply mode_code_inj]; congruence.
Qed.

Lemma fcr_parse_done b v : fc_raw b = Done v -> fcr_parse b = Done (Ok (fcr_of v)).
Proof.
  intros H. destruct (fc_getters b v H) as (h1 & h2 & h3 & h4 & h5 & h6 & h7 & h8 & h9 & h10).
  unfold fcr_parse. rewrite h1, h2, h3, h4, h5, h6, h7, h8, h9, h10. reflexivity.
Qed.

(** ** C02/C03: setters *)
Lemma fc_put_field_view k n mask code b0 b1 rest :
  mask = N.ones n -> (k + n <= 16)%N -> octet b0 -> octet b1 -> (code < 2 ^ n)%N ->
  exists c0 c1, octet c0 /\ octet c1 /\
    fc_update (put_field k mask code) (b0 :: b1 :: rest) = Done (c0 :: c1 :: rest) /\
    field k n (c0 + 256 * c1) = code /\
    (forall j, ~ (k <= j < k + n)%N -> bit j (c0 + 256 * c1) = bit j (b0 + 256 * b1)).
Proof.
  intros -> Hk H0 H1 Hc.
  assert (Hraw : (b0 + 256 * b1 < 65536)%N) by (apply octet_pair_lt; assumption).
  destruct (fc_update_view (put_field k (N.ones n) code) b0 b1 rest H0 H1)
    as (c0 & c1 & O0 & O1 & HU & HV).
  { apply put_field_lt; assumption. }
  exists c0, c1. repeat split; auto.
  - rewrite HV. apply field_put_field; assumption.
  - intros j Hj. rewrite HV, !bit_testbit, testbit_put_field by assumption.
    destruct (N.leb_spec k j); destruct (N.ltb_spec j (k + n)); simpl; try reflexivity; lia.
Qed.

Lemma fc_or_flag_view k x b0 b1 rest :
  (k < 16)%N -> octet b0 -> octet b1 ->
  exists c0 c1, octet c0 /\ octet c1 /\
    fc_update (or_flag k x) (b0 :: b1 :: rest) = Done (c0 :: c1 :: rest) /\
    bit k (c0 + 256 * c1) = bit k (b0 + 256 * b1) || x /\
    (forall j, j <> k -> bit j (c0 + 256 * c1) = bit j (b0 + 256 * b1)).
Proof.
  intros Hk H0 H1.
  assert (Hraw : (b0 + 256 * b1 < 65536)%N) by (apply octet_pair_lt; assumption).
  destruct (fc_update_view (or_flag k x) b0 b1 rest H0 H1) as (c0 & c1 & O0 & O1 & HU & HV).
  { apply or_flag_lt; assumption. }
  exists c0, c1. repeat split; auto.
  - rewrite HV, !bit_testbit, testbit_or_flag by assumption. rewrite N.eqb_refl, andb_true_r. reflexivity.
  - intros j Hj. rewrite HV, !bit_testbit, testbit_or_flag by assumption.
    apply N.eqb_neq in Hj. rewrite Hj, andb_false_r, orb_false_r. reflexivity.
Qed.

(** clearing a flag leaves the whole buffer as it is *)
Lemma or_flag_false k raw : or_flag k false raw = raw.
Proof. unfold or_flag. simpl. unfold u16_shl. rewrite N.shiftl_0_l. simpl. apply N.lor_0_r. Qed.

Lemma fc_or_flag_false k b0 b1 rest : octet b0 -> octet b1 ->
  fc_update (or_flag k false) (b0 :: b1 :: rest) = Done (b0 :: b1 :: rest).
Proof.
  intros H0 H1. rewrite fc_update_cons, or_flag_false. unfold octet in *.
  assert (E0 : ((b0 + 256 * b1) mod 256 = b0)%N).
  { rewrite (N.mul_comm 256), N.mod_add by lia. apply N.mod_small. exact H0. }
  assert (E1 : ((b0 + 256 * b1) / 256 = b1)%N).
  { rewrite (N.mul_comm 256), N.div_add, N.div_small by lia. reflexivity. }
  rewrite E0, E1, (N.mod_small b1) by exact H1. reflexivity.
Qed.

Lemma fc_update_short f b : length b < 2 -> fc_update f b = Panic.
Proof. intros H. unfold fc_update. rewrite fc_raw_short by exact H. reflexivity. Qed.

(** ** C04: representation *)
Lemma fcr_emit_view r b0 b1 rest : octet b0 -> octet b1 -> fcr_known r ->
  exists c0 c1, octet c0 /\ octet c1 /\
    fcr_emit r (b0 :: b1 :: rest) = Done (c0 :: c1 :: rest) /\
    let v := (c0 + 256 * c1)%N in let w := (b0 + 256 * b1)%N in
    field 0 3 v = type_code (fr_frame_type r) /\
    bit 3 v = bit 3 w || fr_security_enabled r /\
    bit 4 v = bit 4 w || fr_frame_pending r /\
    bit 5 v = bit 5 w || fr_ack_request r /\
    bit 6 v = bit 6 w || fr_pan_id_compression r /\
    bit 7 v = bit 7 w /\
    bit 8 v = bit 8 w || fr_sequence_number_suppression r /\
    bit 9 v = bit 9 w || fr_information_elements_present r /\
    field 10 2 v = mode_code (fr_dst_addressing_mode r) /\
    field 14 2 v = mode_code (fr_src_addressing_mode r) /\
    field 12 2 v = version_code (fr_frame_version r).
Proof.
  intros H0 H1 (Ht & Hv & Hd & Hs).
  unfold fcr_emit, fc_set_frame_type, fc_set_security_enabled, fc_set_frame_pending, fc_set_ack_request,
    fc_set_pan_id_compression, fc_set_sequence_number_suppression, fc_set_information_elements_present,
    fc_set_dst_addressing_mode, fc_set_src_addressing_mode, fc_set_frame_version.
  assert (Et : FrameType_as_u8 (fr_frame_type r) = type_code (fr_frame_type r))
    by (destruct (fr_frame_type r); try reflexivity; congruence).
  assert (Ev : FrameVersion_as_u8 (fr_frame_version r) = version_code (fr_frame_version r))
    by (destruct (fr_frame_version r); try reflexivity; congruence).
  assert (Ed : AddressingMode_as_u8 (fr_dst_addressing_mode r) = mode_code (fr_dst_addressing_mode r))
    by (destruct (fr_dst_addressing_mode r); try reflexivity; congruence).
  assert (Es : AddressingMode_as_u8 (fr_src_addressing_mode r) = mode_code (fr_src_addressing_mode r))
    by (destruct (fr_src_addressing_mode r); try reflexivity; congruence).
  rewrite Et, Ev, Ed, Es. clear Et Ev Ed Es.
  destruct (fc_put_field_view 0 3 7 (type_code (fr_frame_type r)) b0 b1 rest) as (x0 & x1 & X0 & X1 & -> & XF & XB);
    [reflexivity|discriminate|assumption|assumption|destruct (fr_frame_type r); reflexivity|]. cbn [bind].
  destruct (fc_or_flag_view 3 (fr_security_enabled r) x0 x1 rest) as (a0 & a1 & A0 & A1 & -> & AF & AB); [reflexivity|assumption|assumption|]. cbn [bind].
  destruct (fc_or_flag_view 4 (fr_frame_pending r) a0 a1 rest) as (d0 & d1 & D0 & D1 & -> & DF & DB); [reflexivity|assumption|assumption|]. cbn [bind].
  destruct (fc_or_flag_view 5 (fr_ack_request r) d0 d1 rest) as (e0 & e1 & E0 & E1 & -> & EF & EB); [reflexivity|assumption|assumption|]. cbn [bind].
  destruct (fc_or_flag_view 6 (fr_pan_id_compression r) e0 e1 rest) as (f0 & f1 & F0 & F1 & -> & FF & FB); [reflexivity|assumption|assumption|]. cbn [bind].
  destruct (fc_or_flag_view 8 (fr_sequence_number_suppression r) f0 f1 rest) as (g0 & g1 & G0 & G1 & -> & GF & GB); [reflexivity|assumption|assumption|]. cbn [bind].
  destruct (fc_or_flag_view 9 (fr_information_elements_present r) g0 g1 rest) as (h0 & h1 & O0 & O1 & -> & HF & HB); [reflexivity|assumption|assumption|]. cbn [bind].
  destruct (fc_put_field_view 10 2 3 (mode_code (fr_dst_addressing_mode r)) h0 h1 rest) as (i0 & i1 & I0 & I1 & -> & IF' & IB);
    [reflexivity|discriminate|assumption|assumption|destruct (fr_dst_addressing_mode r); reflexivity|]. cbn [bind].
  destruct (fc_put_field_view 14 2 3 (mode_code (fr_src_addressing_mode r)) i0 i1 rest) as (j0 & j1 & J0 & J1 & -> & JF & JB);
    [reflexivity|discriminate|assumption|assumption|destruct (fr_src_addressing_mode r); reflexivity|]. cbn [bind].
  destruct (fc_put_field_view 12 2 3 (version_code (fr_frame_version r)) j0 j1 rest) as (k0 & k1 & K0 & K1 & -> & KF & KB);
    [reflexivity|discriminate|assumption|assumption|destruct (fr_frame_version r); reflexivity|].
  exists k0, k1. split; [exact K0|]. split; [exact K1|]. split; [reflexivity|].
  cbv zeta.
  assert (Hup : forall j, (j < 10)%N -> bit j (k0 + 256 * k1) = bit j (h0 + 256 * h1)).
  { intros j Hj. rewrite KB, JB, IB by (clear - Hj; lia). reflexivity. }
  split. { rewrite <- XF. apply field_ext. intros j Hj. rewrite <- !bit_testbit, Hup by (clear - Hj; lia).
           rewrite HB, GB, FB, EB, DB, AB by (clear - Hj; lia). reflexivity. }
  split. { rewrite Hup, HB, GB, FB, EB, DB, AF, XB by (clear; lia). reflexivity. }
  split. { rewrite Hup, HB, GB, FB, EB, DF, AB, XB by (clear; lia). reflexivity. }
  split. { rewrite Hup, HB, GB, FB, EF, DB, AB, XB by (clear; lia). reflexivity. }
  split. { rewrite Hup, HB, GB, FF, EB, DB, AB, XB by (clear; lia). reflexivity. }
  split. { rewrite Hup, HB, GB, FB, EB, DB, AB, XB by (clear; lia). reflexivity. }
  split. { rewrite Hup, HB, GF, FB, EB, DB, AB, XB by (clear; lia). reflexivity. }
  split. { rewrite Hup, HF, GB, FB, EB, DB, AB, XB by (clear; lia). reflexivity. }
  split. { rewrite <- IF'. apply field_ext. intros j Hj. rewrite <- !bit_testbit.
           rewrite KB, JB by (clear - Hj; lia). reflexivity. }
  split. { rewrite <- JF. apply field_ext. intros j Hj. rewrite <- !bit_testbit.
           rewrite KB by (clear - Hj; lia). reflexivity. }
  exact KF.
Qed.

Lemma fcr_emit_encodes r rest : fcr_known r ->
  exists c0 c1, octet c0 /\ octet c1 /\
    fcr_emit r (0%N :: 0%N :: rest) = Done (c0 :: c1 :: rest) /\
    fc_encodes (c0 + 256 * c1) r /\ bit 7 (c0 + 256 * c1) = false.
Proof.
  intros Hk. destruct (fcr_emit_view r 0 0 rest) as (c0 & c1 & O0 & O1 & HE & HV); [unfold octet; lia..|exact Hk|].
  cbv zeta in HV. exists c0, c1. repeat (split; [assumption|]).
  destruct HV as (h1 & h2 & h3 & h4 & h5 & h6 & h7 & h8 & h9 & h10 & h11).
  split; [|exact h6]. constructor; assumption.
Qed.

(** equal fields have equal bits *)
Lemma field_eq_bits v w lo n : field lo n v = field lo n w ->
  forall j, (lo <= j < lo + n)%N -> N.testbit v j = N.testbit w j.
Proof.
  intros H i Hi.
  assert (Hb : N.testbit (field lo n v) (i - lo) = N.testbit (field lo n w) (i - lo))
    by (rewrite H; reflexivity).
  rewrite !testbit_field in Hb. assert (Hlt : (i - lo <? n)%N = true) by (apply N.ltb_lt; clear - Hi; lia).
  rewrite Hlt in Hb. cbn [andb] in Hb.
  replace (lo + (i - lo))%N with i in Hb by (clear - Hi; lia). exact Hb.
Qed.

(** the field values and bit 7 determine the 16-bit value *)
Lemma fc_encodes_ext v w r : (v < 65536)%N -> (w < 65536)%N ->
  fc_encodes v r -> fc_encodes w r -> bit 7 v = bit 7 w -> v = w.
Proof.
  intros Hv Hw [V1 V2 V3 V4 V5 V6 V7 V8 V9 V10] [W1 W2 W3 W4 W5 W6 W7 W8 W9 W10] H7.
  rewrite <- W1 in V1. rewrite <- W2 in V2. rewrite <- W3 in V3. rewrite <- W4 in V4. rewrite <- W5 in V5.
  rewrite <- W6 in V6. rewrite <- W7 in V7. rewrite <- W8 in V8. rewrite <- W9 in V9. rewrite <- W10 in V10.
  clear W1 W2 W3 W4 W5 W6 W7 W8 W9 W10.
  rewrite !bit_testbit in *. apply N.bits_inj. intros j.
  destruct (N.lt_ge_cases j 3) as [L3|L3]; [apply (field_eq_bits _ _ _ _ V1); clear - L3; lia|].
  destruct (N.eq_dec j 3) as [->|N3]; [exact V2|]. destruct (N.eq_dec j 4) as [->|N4]; [exact V3|].
  destruct (N.eq_dec j 5) as [->|N5]; [exact V4|]. destruct (N.eq_dec j 6) as [->|N6]; [exact V5|].
  destruct (N.eq_dec j 7) as [->|N7]; [exact H7|]. destruct (N.eq_dec j 8) as [->|N8]; [exact V6|].
  destruct (N.eq_dec j 9) as [->|N9]; [exact V7|].
  clear V1 V2 V3 V4 V5 V6 V7 H7.
  destruct (N.lt_ge_cases j 12) as [L12|L12]; [apply (field_eq_bits _ _ _ _ V8); clear - L3 L12 N3 N4 N5 N6 N7 N8 N9; lia|].
  destruct (N.lt_ge_cases j 14) as [L14|L14]; [apply (field_eq_bits _ _ _ _ V9); clear - L12 L14; lia|].
  destruct (N.lt_ge_cases j 16) as [L16|L16]; [apply (field_eq_bits _ _ _ _ V10); clear - L14 L16; lia|].
  rewrite (testbit_high16 v), (testbit_high16 w) by assumption. reflexivity.
Qed.

(** ** Statements used by PropFrameControl.v *)
Lemma c01_getters b0 b1 rest : octet b0 -> octet b1 ->
  fc_new (b0 :: b1 :: rest) = Ok (b0 :: b1 :: rest) /\
  exists r, fc_encodes (b0 + 256 * b1) r /\
  let b := b0 :: b1 :: rest in
  fc_frame_type b = Done (fr_frame_type r) /\
  fc_security_enabled b = Done (fr_security_enabled r) /\
  fc_frame_pending b = Done (fr_frame_pending r) /\
  fc_ack_request b = Done (fr_ack_request r) /\
  fc_pan_id_compression b = Done (fr_pan_id_compression r) /\
  fc_sequence_number_suppression b = Done (fr_sequence_number_suppression r) /\
  fc_information_elements_present b = Done (fr_information_elements_present r) /\
  fc_dst_addressing_mode b = Done (fr_dst_addressing_mode r) /\
  fc_src_addressing_mode b = Done (fr_src_addressing_mode r) /\
  fc_frame_version b = Done (fr_frame_version r).
Proof.
  intros H0 H1. split; [reflexivity|]. exists (fcr_of (b0 + 256 * b1)).
  split; [apply fcr_of_encodes|]. apply fc_getters, fc_raw_cons.
Qed.

Lemma c01_short b : length b < 2 -> fc_new b = Err.
Proof. destruct b as [|x [|y r]]; simpl; intros; [reflexivity|reflexivity|lia]. Qed.

Lemma field_type_get c0 c1 rest t : field 0 3 (c0 + 256 * c1) = type_code t ->
  fc_frame_type (c0 :: c1 :: rest) = Done t.
Proof.
  intros H. destruct (fc_getters _ _ (fc_raw_cons c0 c1 rest)) as (-> & _). f_equal.
  apply type_code_inj. rewrite <- (enc_type _ _ (fcr_of_encodes (c0 + 256 * c1))). exact H.
Qed.
Lemma field_version_get c0 c1 rest t : field 12 2 (c0 + 256 * c1) = version_code t ->
  fc_frame_version (c0 :: c1 :: rest) = Done t.
Proof.
  intros H. destruct (fc_getters _ _ (fc_raw_cons c0 c1 rest)) as (_ & _ & _ & _ & _ & _ & _ & _ & _ & ->). f_equal.
  apply version_code_inj. rewrite <- (enc_version _ _ (fcr_of_encodes (c0 + 256 * c1))). exact H.
Qed.
Lemma field_dst_get c0 c1 rest t : field 10 2 (c0 + 256 * c1) = mode_code t ->
  fc_dst_addressing_mode (c0 :: c1 :: rest) = Done t.
Proof.
  intros H. destruct (fc_getters _ _ (fc_raw_cons c0 c1 rest)) as (_ & _ & _ & _ & _ & _ & _ & -> & _ & _). f_equal.
  apply mode_code_inj. rewrite <- (enc_dst _ _ (fcr_of_encodes (c0 + 256 * c1))). exact H.
Qed.
Lemma field_src_get c0 c1 rest t : field 14 2 (c0 + 256 * c1) = mode_code t ->
  fc_src_addressing_mode (c0 :: c1 :: rest) = Done t.
Proof.
  intros H. destruct (fc_getters _ _ (fc_raw_cons c0 c1 rest)) as (_ & _ & _ & _ & _ & _ & _ & _ & -> & _). f_equal.
  apply mode_code_inj. rewrite <- (enc_src _ _ (fcr_of_encodes (c0 + 256 * c1))). exact H.
Qed.

Lemma c02_type b0 b1 rest t : octet b0 -> octet b1 -> t <> FtUnknown ->
  exists b', fc_set_frame_type t (b0 :: b1 :: rest) = Done b' /\
    fc_frame_type b' = Done t /\ only_bits_changed 0 3 b0 b1 rest b'.
Proof.
  intros H0 H1 Ht. unfold fc_set_frame_type.
  destruct (fc_put_field_view 0 3 7 (FrameType_as_u8 t) b0 b1 rest) as (c0 & c1 & O0 & O1 & -> & HF & HB);
    [reflexivity|discriminate|assumption|assumption|destruct t; try reflexivity; congruence|].
  exists (c0 :: c1 :: rest). split; [reflexivity|]. split.
  - apply field_type_get. rewrite HF. destruct t; try reflexivity; congruence.
  - exists c0, c1. auto.
Qed.
Lemma c02_version b0 b1 rest t : octet b0 -> octet b1 ->
  exists b', fc_set_frame_version t (b0 :: b1 :: rest) = Done b' /\
    fc_frame_version b' = Done t /\ only_bits_changed 12 2 b0 b1 rest b'.
Proof.
  intros H0 H1. unfold fc_set_frame_version.
  destruct (fc_put_field_view 12 2 3 (FrameVersion_as_u8 t) b0 b1 rest) as (c0 & c1 & O0 & O1 & -> & HF & HB);
    [reflexivity|discriminate|assumption|assumption|destruct t; reflexivity|].
  exists (c0 :: c1 :: rest). split; [reflexivity|]. split.
  - apply field_version_get. rewrite HF. destruct t; reflexivity.
  - exists c0, c1. auto.
Qed.
Lemma c02_dst b0 b1 rest t : octet b0 -> octet b1 -> t <> AmUnknown ->
  exists b', fc_set_dst_addressing_mode t (b0 :: b1 :: rest) = Done b' /\
    fc_dst_addressing_mode b' = Done t /\ only_bits_changed 10 2 b0 b1 rest b'.
Proof.
  intros H0 H1 Ht. unfold fc_set_dst_addressing_mode.
  destruct (fc_put_field_view 10 2 3 (AddressingMode_as_u8 t) b0 b1 rest) as (c0 & c1 & O0 & O1 & -> & HF & HB);
    [reflexivity|discriminate|assumption|assumption|destruct t; try reflexivity; congruence|].
  exists (c0 :: c1 :: rest). split; [reflexivity|]. split.
  - apply field_dst_get. rewrite HF. destruct t; try reflexivity; congruence.
  - exists c0, c1. auto.
Qed.
Lemma c02_src b0 b1 rest t : octet b0 -> octet b1 -> t <> AmUnknown ->
  exists b', fc_set_src_addressing_mode t (b0 :: b1 :: rest) = Done b' /\
    fc_src_addressing_mode b' = Done t /\ only_bits_changed 14 2 b0 b1 rest b'.
Proof.
  intros H0 H1 Ht. unfold fc_set_src_addressing_mode.
  destruct (fc_put_field_view 14 2 3 (AddressingMode_as_u8 t) b0 b1 rest) as (c0 & c1 & O0 & O1 & -> & HF & HB);
    [reflexivity|discriminate|assumption|assumption|destruct t; try reflexivity; congruence|].
  exists (c0 :: c1 :: rest). split; [reflexivity|]. split.
  - apply field_src_get. rewrite HF. destruct t; try reflexivity; congruence.
  - exists c0, c1. auto.
Qed.

Lemma flag_get_bit f c0 c1 rest : flag_get f (c0 :: c1 :: rest) = Done (bit (flag_bit f) (c0 + 256 * c1)).
Proof.
  destruct (fc_getters _ _ (fc_raw_cons c0 c1 rest)) as (_ & h2 & h3 & h4 & h5 & h6 & h7 & _).
  destruct f; assumption.
Qed.

Lemma flag_set_or f : flag_set f = fun x => fc_update (or_flag (flag_bit f) x).
Proof. destruct f; reflexivity. Qed.

Lemma c03_set f x b0 b1 rest : octet b0 -> octet b1 ->
  (x = true \/ flag_get f (b0 :: b1 :: rest) = Done false) ->
  exists b', flag_set f x (b0 :: b1 :: rest) = Done b' /\
    flag_get f b' = Done x /\ only_bits_changed (flag_bit f) 1 b0 b1 rest b'.
Proof.
  intros H0 H1 Hx. rewrite flag_set_or.
  destruct (fc_or_flag_view (flag_bit f) x b0 b1 rest) as (c0 & c1 & O0 & O1 & -> & HF & HB);
    [destruct f; reflexivity|assumption|assumption|].
  exists (c0 :: c1 :: rest). split; [reflexivity|]. split.
  - rewrite flag_get_bit, HF. rewrite flag_get_bit in Hx.
    destruct Hx as [->|Hx]; [rewrite orb_true_r; reflexivity|].
    assert (E : bit (flag_bit f) (b0 + 256 * b1) = false) by congruence. rewrite E. reflexivity.
  - exists c0, c1. repeat (split; [reflexivity || assumption|]). intros j Hj. apply HB.
    intros ->. apply Hj. clear. lia.
Qed.

Lemma c03_clear f b0 b1 rest : octet b0 -> octet b1 ->
  flag_set f false (b0 :: b1 :: rest) = Done (b0 :: b1 :: rest).
Proof. intros H0 H1. rewrite flag_set_or. apply fc_or_flag_false; assumption. Qed.

Lemma c04_emit_parse r rest : fcr_known r ->
  exists b, fcr_emit r (0%N :: 0%N :: rest) = Done b /\ octets (firstn 2 b) /\
    skipn 2 b = rest /\ fcr_parse b = Done (Ok r).
Proof.
  intros Hk. destruct (fcr_emit_encodes r rest Hk) as (c0 & c1 & O0 & O1 & HE & HV & _).
  exists (c0 :: c1 :: rest). split; [exact HE|]. split; [repeat constructor; assumption|].
  split; [reflexivity|]. rewrite (fcr_parse_done _ _ (fc_raw_cons c0 c1 rest)). do 2 f_equal.
  eapply fc_encodes_unique; [apply fcr_of_encodes|exact HV].
Qed.

(** clearing bit 7 of octet 0 *)
Lemma bit_clear7 b0 j : octet b0 -> bit j (b0 - 128 * N_of_bool (bit 7 b0))%N = bit j b0 && negb (j =? 7)%N.
Proof.
  intros H0. unfold octet in H0.
  assert (Hs : forall x, (x < 256)%N -> all_below 8 (fun j =>
      Bool.eqb (bit j (x - 128 * N_of_bool (bit 7 x))) (bit j x && negb (j =? 7)%N)) = true).
  { apply (sweep 256). vm_compute. reflexivity. }
  destruct (N.lt_ge_cases j 8) as [Hj|Hj].
  - apply Bool.eqb_prop. exact (sweep _ _ (Hs b0 H0) j Hj).
  - rewrite !bit_testbit. rewrite (testbit_high8 b0 j) by assumption.
    rewrite testbit_high8; [reflexivity| |exact Hj]. clear Hs. lia.
Qed.

Lemma testbit_pair c0 c1 j : octet c0 -> N.testbit (c0 + 256 * c1) j =
  if (j <? 8)%N then N.testbit c0 j else N.testbit c1 (j - 8).
Proof.
  intros H0. unfold octet in H0.
  replace (c0 + 256 * c1)%N with (N.lor c0 (N.shiftl c1 8)).
  - rewrite N.lor_spec. destruct (N.ltb_spec j 8) as [Hj|Hj].
    + rewrite N.shiftl_spec_low by exact Hj. apply orb_false_r.
    + rewrite N.shiftl_spec_high' by exact Hj. rewrite (testbit_high8 c0) by assumption. reflexivity.
  - rewrite N.shiftl_mul_pow2. change (2 ^ 8)%N with 256%N.
    assert (Hd : N.land c0 (c1 * 256) = 0%N).
    { apply N.bits_inj. intros i. rewrite N.land_spec, N.bits_0. change 256%N with (2 ^ 8)%N.
      rewrite <- N.shiftl_mul_pow2. destruct (N.lt_ge_cases i 8) as [Hi|Hi].
      - rewrite N.shiftl_spec_low by exact Hi. apply andb_false_r.
      - rewrite (testbit_high8 c0) by assumption. reflexivity. }
    rewrite <- N.lxor_lor by exact Hd. rewrite <- N.add_nocarry_lxor by exact Hd. apply (f_equal (N.add c0)). apply N.mul_comm.
Qed.

Lemma c04_parse_emit b0 b1 rest r : octet b0 -> octet b1 ->
  fcr_parse (b0 :: b1 :: rest) = Done (Ok r) -> fcr_known r ->
  fcr_emit r [0; 0]%N = Done [(b0 - 128 * N_of_bool (bit 7 b0))%N; b1].
Proof.
  intros H0 H1 HP Hk. rewrite (fcr_parse_done _ _ (fc_raw_cons b0 b1 rest)) in HP.
  injection HP as HP.
  destruct (fcr_emit_encodes r [] Hk) as (c0 & c1 & O0 & O1 & HE & HV & H7).
  assert (Hclr : octet (b0 - 128 * N_of_bool (bit 7 b0))%N) by (unfold octet in *; clear - H0; lia).
  assert (Hval : (c0 + 256 * c1)%N = (b0 - 128 * N_of_bool (bit 7 b0) + 256 * b1)%N).
  { apply fc_encodes_ext with (r := r); try (apply octet_pair_lt; assumption).
    - exact HV.
    - assert (Hbits : forall j, j <> 7%N ->
        N.testbit (b0 - 128 * N_of_bool (bit 7 b0) + 256 * b1) j = N.testbit (b0 + 256 * b1) j).
      { intros j Hj. rewrite !testbit_pair by assumption.
        destruct (j <? 8)%N; [|reflexivity]. rewrite <- (bit_testbit j (b0 - _)), bit_clear7 by assumption.
        apply N.eqb_neq in Hj. rewrite Hj, andb_true_r. apply bit_testbit. }
      pose proof (fcr_of_encodes (b0 + 256 * b1)) as [h1 h2 h3 h4 h5 h6 h7 h8 h9 h10]. rewrite HP in *.
      rewrite !bit_testbit in *.
      constructor; rewrite ?bit_testbit;
        try (rewrite Hbits by discriminate; assumption);
        match goal with |- field ?lo ?n _ = _ =>
          rewrite (field_ext lo n _ (b0 + 256 * b1)); [assumption|intros j Hj; apply Hbits; clear - Hj; lia] end.
    - rewrite H7, bit_testbit, testbit_pair by assumption. change (7 <? 8)%N with true. cbv iota.
      rewrite <- bit_testbit, bit_clear7 by assumption. symmetry. apply andb_false_r. }
  rewrite HE. f_equal. unfold octet in *.
  assert (c0 = b0 - 128 * N_of_bool (bit 7 b0) /\ c1 = b1)%N as [-> ->]; [|reflexivity].
  set (q := (b0 - 128 * N_of_bool (bit 7 b0))%N) in *. clearbody q. clear - Hval O0 Hclr. lia.
Qed.

(** ** [fc_is] *)
Lemma fc_is_getters b r : fc_is b r ->
  fc_frame_type b = Done (fr_frame_type r) /\
  fc_security_enabled b = Done (fr_security_enabled r) /\
  fc_frame_pending b = Done (fr_frame_pending r) /\
  fc_ack_request b = Done (fr_ack_request r) /\
  fc_pan_id_compression b = Done (fr_pan_id_compression r) /\
  fc_sequence_number_suppression b = Done (fr_sequence_number_suppression r) /\
  fc_information_elements_present b = Done (fr_information_elements_present r) /\
  fc_dst_addressing_mode b = Done (fr_dst_addressing_mode r) /\
  fc_src_addressing_mode b = Done (fr_src_addressing_mode r) /\
  fc_frame_version b = Done (fr_frame_version r).
Proof.
  intros (b0 & b1 & rest & -> & H0 & H1 & HE).
  destruct (c01_getters b0 b1 rest H0 H1) as (_ & r' & HE' & HG).
  rewrite (fc_encodes_unique _ _ _ HE HE'). exact HG.
Qed.

Lemma fc_is_exists b : octets b -> 2 <= length b -> exists r, fc_is b r.
Proof.
  intros HO HL. destruct b as [|b0 [|b1 rest]]; simpl in HL; try lia.
  inversion_clear HO as [|? ? O0 HO']. inversion_clear HO' as [|? ? O1 _].
  exists (fcr_of (b0 + 256 * b1)). exists b0, b1, rest. split; [reflexivity|].
  split; [exact O0|]. split; [exact O1|]. apply fcr_of_encodes.
Qed.

Lemma fc_is_fun b r1 r2 : fc_is b r1 -> fc_is b r2 -> r1 = r2.
Proof.
  intros (b0 & b1 & rest & -> & _ & _ & H1) (c0 & c1 & rest' & E & _ & _ & H2).
  injection E as <- <- <-. exact (fc_encodes_unique _ _ _ H1 H2).
Qed.

Lemma fc_is_app b b' r : firstn 2 b = firstn 2 b' -> fc_is b r -> fc_is b' r.
Proof.
  intros E (b0 & b1 & rest & -> & O0 & O1 & H).
  destruct b' as [|c0 [|c1 rest']]; simpl in E; try discriminate. injection E as <- <-.
  exists b0, b1, rest'. auto.
Qed.

Lemma fc_is_len b r : fc_is b r -> 2 <= length b.
Proof. intros (b0 & b1 & rest & -> & _). simpl. lia. Qed.
