(** PropEmit.v -- C34 for every frame without information elements and security, consistent or not: exactly when emitting panics. *)
From Coq Require Import Lia.
From Verif Require Import Base BaseProofs Spec SpecFrame BitProofs FrameControl FrameControlProofs PropFrameControl Addressing SpecAddressing
  AddressingProofs AddressingProofs2 AuxSec Ie SpecIe IeProofs IeContent ReprIe SpecIeContent IeContentProofs SlotframeProofs
  ReprIeProofs IesProofs Frames SpecFrames FramesProofs Repr SpecRepr ReprProofs PropRepr SpecEmit.

Lemma write_pan_cases b o p : (o + length (pan_octets p) <= length b /\ exists b', write_pan b o p = Done (b', o + length (pan_octets p)) /\ length b' = length b) \/
  (length b < o + length (pan_octets p) /\ (o <= length b -> write_pan b o p = Panic)).
Proof.
  destruct p as [v|]; cbn [write_pan pan_octets length].
  - destruct (Nat.le_gt_cases (o + 2) (length b)) as [L|L].
    + left. split; [exact L|]. rewrite write_at_ok by exact L. cbn [bind]. eexists. split; [reflexivity|].
      rewrite !app_length, firstn_length, skipn_length. change (length (to_le 2 v)) with 2. lia.
    + right. split; [exact L|]. intros _. rewrite write_at_panic by exact L. reflexivity.
  - destruct (Nat.le_gt_cases (o + 0) (length b)) as [L|L]; [left|right].
    + split; [exact L|]. exists b. rewrite Nat.add_0_r. auto.
    + split; [exact L|]. lia.
Qed.
Lemma write_address_cases b o a : (forall x, a = Some x -> address_wf x) ->
  (o + length (addr_octets a) <= length b /\ exists b', write_address b o a = Done (b', o + length (addr_octets a)) /\ length b' = length b) \/
  (length b < o + length (addr_octets a) /\ (o <= length b -> write_address b o a = Panic)).
Proof.
  intros HW. destruct a as [x|].
  - specialize (HW x eq_refl). assert (EA : addr_octets (Some x) = rev (as_bytes x)) by (destruct x; reflexivity). rewrite EA.
    assert (LA : address_len x = length (rev (as_bytes x))) by (rewrite rev_length; destruct x; cbn in *; [reflexivity|symmetry; apply HW|symmetry; apply HW]).
    unfold write_address. destruct (Nat.le_gt_cases (o + length (rev (as_bytes x))) (length b)) as [L|L].
    + left. split; [exact L|]. rewrite write_at_ok by exact L. cbn [bind]. rewrite LA. eexists. split; [reflexivity|].
      rewrite !app_length, firstn_length, skipn_length. lia.
    + right. split; [exact L|]. intros _. rewrite write_at_panic by exact L. reflexivity.
  - cbn [addr_octets length write_address]. destruct (Nat.le_gt_cases (o + 0) (length b)) as [L|L]; [left|right].
    + split; [exact L|]. exists b. rewrite Nat.add_0_r. auto.
    + split; [exact L|]. lia.
Qed.
Lemma write_fields_cases b a : addresses_typed a ->
  (length (addressing_octets a) <= length b /\ exists b', af_write_fields b a = Done b' /\ length b' = length b) \/
  (length b < length (addressing_octets a) /\ af_write_fields b a = Panic).
Proof.
  intros HT. unfold addressing_octets. rewrite !app_length. unfold af_write_fields.
  destruct (write_pan_cases b 0 (ar_dst_pan_id a)) as [(L1 & b1 & E1 & N1)|(L1 & E1)]; [|right; split; [lia|]; rewrite E1 by lia; reflexivity].
  rewrite E1. cbn [bind]. set (o1 := 0 + length (pan_octets (ar_dst_pan_id a))) in *.
  destruct (write_address_cases b1 o1 (ar_dst_address a)) as [(L2 & b2 & E2 & N2)|(L2 & E2)]; [intros x Hx; apply HT; auto| |right; split; [unfold o1 in *; lia|]; rewrite E2 by lia; reflexivity].
  rewrite E2. cbn [bind]. set (o2 := o1 + length (addr_octets (ar_dst_address a))) in *.
  destruct (write_pan_cases b2 o2 (ar_src_pan_id a)) as [(L3 & b3 & E3 & N3)|(L3 & E3)]; [|right; split; [unfold o2, o1 in *; lia|]; rewrite E3 by lia; reflexivity].
  rewrite E3. cbn [bind]. set (o3 := o2 + length (pan_octets (ar_src_pan_id a))) in *.
  destruct (write_address_cases b3 o3 (ar_src_address a)) as [(L4 & b4 & E4 & N4)|(L4 & E4)]; [intros x Hx; apply HT; auto| |right; split; [unfold o3, o2, o1 in *; lia|]; rewrite E4 by lia; reflexivity].
  rewrite E4. cbn [bind]. left. split; [unfold o3, o2, o1 in *; lia|]. exists b4. split; [reflexivity|]. lia.
Qed.

Lemma buffer_len_ge r n : frame_buffer_len r = Done n -> 2 + (if f_sequence_number r then 1 else 0) <= n.
Proof.
  unfold frame_buffer_len. intros H.
  assert (E : match f_sequence_number r with Some _ => 2 + 1 | None => 2 end = 2 + (if f_sequence_number r then 1 else 0)) by (destruct (f_sequence_number r); reflexivity).
  cbv zeta in H. rewrite E in H. set (k := 2 + (if f_sequence_number r then 1 else 0)) in *. clearbody k. clear E.
  destruct (f_addressing r) as [a|]; cbn [bind] in H.
  - destruct (afr_buffer_len a (f_control r)) as [m|]; [|discriminate H]. cbn [bind] in H. injection H as <-. destruct (f_ies r), (f_payload r); lia.
  - injection H as <-. destruct (f_ies r), (f_payload r); lia.
Qed.
Lemma set_payload_cases b c p : fc_is b c -> fcr_known c -> fr_security_enabled c = false -> fr_information_elements_present c = false ->
  (data_set_payload p b = Panic <-> ~ exists m, addressing_takes c (length b) m /\ length b = mhr_size c + m + length p).
Proof.
  intros HF (_ & _ & Kd & Ks) HS HI. unfold data_set_payload. rewrite (data_fc_ok b c HF). cbn [bind]. getters (fc_is_firstn _ _ HF). rewrite Gn. cbn [bind].
  destruct (Nat.le_gt_cases (mhr_size c) (length b)) as [L|L].
  - destruct (data_addressing_view b c HF L Kd Ks) as (o & m & EA & VA & KA & LA). rewrite EA. cbn [bind]. rewrite KA. cbn [bind].
    rewrite Gs, HS. cbn [bind]. rewrite Gi, HI. cbn [bind]. rewrite <- mhr_seq. rewrite slice_to_ok, slice_from_ok by exact LA. cbn [bind]. rewrite skipn_length.
    assert (TK : addressing_takes c (length b) m).
    { destruct VA as [[(dp & sp & HL' & Hn' & HLL) _]|(HNo & -> & _)]; [left; exists dp, sp; split; [exact HL'|split; [exact Hn'|lia]]|right; split; [reflexivity|]].
      intros dp sp HL'. exact (HNo dp sp HL'). }
    assert (UQ : forall m', addressing_takes c (length b) m' -> m' = m).
    { intros m' T'. destruct T' as [(dp & sp & HL' & -> & HLL)|(-> & HNo)], TK as [(dp2 & sp2 & HL2 & -> & HLL2)|(-> & HNo2)].
      - destruct (c07_unique _ _ _ _ _ HL' HL2) as [<- <-]. reflexivity.
      - specialize (HNo2 dp sp HL'). lia.
      - specialize (HNo dp2 sp2 HL2). lia.
      - reflexivity. }
    destruct (Nat.eqb_spec (length b - (mhr_size c + m)) (length p)) as [E|E].
    + split; [discriminate|]. intros K. exfalso. apply K. exists m. split; [exact TK|lia].
    + split; [|reflexivity]. intros _ (m' & T' & E'). rewrite (UQ m' T') in E'. lia.
  - split; [|intros _].
    + intros _ (m & _ & E). lia.
    + unfold data_addressing. rewrite (data_fc_ok b c HF). cbn [bind]. rewrite Gn. cbn [bind]. unfold mhr_size in L.
      destruct (fr_sequence_number_suppression c); unfold slice_from.
      * destruct (Nat.leb_spec 2 (length b)) as [L'|L']; [lia|reflexivity].
      * destruct (Nat.leb_spec 3 (length b)) as [L'|L']; [lia|reflexivity].
Qed.

(** Exactly which frames without information elements (security off, zeroed frame control octets) cannot be emitted into a buffer of
    the size they ask for: those whose addresses do not fit behind the space of the sequence number, and those whose payload does not
    fill what is left behind the addressing fields the frame control announces. *)
Theorem C34_plain_panics_iff_partial : forall r n rest, fcr_known (f_control r) -> fr_security_enabled (f_control r) = false ->
  fr_information_elements_present (f_control r) = false -> f_ies r = None -> (forall a, f_addressing r = Some a -> addresses_typed a) ->
  frame_buffer_len r = Done n -> 2 + length rest = n ->
  (frame_emit r (0%N :: 0%N :: rest) = Panic <->
     (exists a, f_addressing r = Some a /\ n < mhr_size (f_control r) + length (addressing_octets a)) \/
     (exists p, f_payload r = Some p /\ ~ exists m, addressing_takes (f_control r) n m /\ n = mhr_size (f_control r) + m + length p)).
Proof.
  intros r n rest HK HS HI HN HT HB HL. set (c := f_control r) in *.
  destruct (fcr_emit_encodes c [] HK) as (c0 & c1 & O0 & O1 & EE & HE & _).
  unfold frame_emit. fold c. rewrite (set_control_ok c c0 c1 rest EE). cbn [bind]. rewrite HN.
  assert (LG := buffer_len_ge r n HB).
  assert (SQ : exists d, match f_sequence_number r with Some x => data_set_sequence_number x (c0 :: c1 :: rest) | None => Done (c0 :: c1 :: rest) end = Done (c0 :: c1 :: d) /\ 2 + length d = n).
  { destruct (f_sequence_number r) as [x|]; [|exists rest; auto]. destruct rest as [|y rest]; [cbn [length] in HL; lia|]. exists (x :: rest). split; [apply set_seq_ok; assumption|exact HL]. }
  destruct SQ as (d & SQ & LD). rewrite SQ. cbn [bind].
  set (w := c0 :: c1 :: d). assert (LW : length w = n) by exact LD.
  assert (AD : (exists w', match f_addressing r with Some a => data_set_addressing_fields a w | None => Done w end = Done w' /\ length w' = n /\ fc_is w' c /\
                  ~ (exists a, f_addressing r = Some a /\ n < mhr_size c + length (addressing_octets a))) \/
               (match f_addressing r with Some a => data_set_addressing_fields a w | None => Done w end = Panic /\
                  exists a, f_addressing r = Some a /\ n < mhr_size c + length (addressing_octets a))).
  { destruct (f_addressing r) as [a|] eqn:EA.
    - unfold data_set_addressing_fields. destruct (head_fc c0 c1 d c O0 O1 HE) as (E1 & E2 & _). fold w in E1. rewrite E1. cbn [bind]. rewrite E2. cbn [bind]. cbv zeta. rewrite <- mhr_seq.
      destruct (Nat.le_gt_cases (mhr_size c) n) as [L|L].
      + rewrite slice_to_ok, slice_from_ok by lia. cbn [bind]. destruct (write_fields_cases (skipn (mhr_size c) w) a (HT a eq_refl)) as [(L2 & b' & E & N2)|(L2 & E)]; rewrite E; cbn [bind]; rewrite skipn_length in L2.
        * left. eexists. split; [reflexivity|]. split; [rewrite app_length, firstn_length, N2, skipn_length; lia|]. split.
          { assert (M2 : exists k, mhr_size c = S (S k)) by (unfold mhr_size; destruct (fr_sequence_number_suppression c); eauto). destruct M2 as (k & M2). rewrite M2. unfold w. cbn [firstn app]. apply fc_is_cons; assumption. }
          intros (a' & Ea & K). injection Ea as <-. lia.
        * right. split; [reflexivity|]. exists a. split; [reflexivity|lia].
      + right. split; [|exists a; split; [reflexivity|lia]]. unfold slice_to. destruct (Nat.leb_spec (mhr_size c) (length w)) as [L'|L']; [lia|reflexivity].
    - left. exists w. split; [reflexivity|]. split; [exact LW|]. split; [apply fc_is_cons; assumption|]. intros (a & K & _). discriminate K. }
  destruct AD as [(w' & EW & LW' & FW & NA)|(EW & A)]; rewrite EW; cbn [bind].
  - destruct (f_payload r) as [p|].
    + rewrite (set_payload_cases w' c p FW HK HS HI), LW'. split; [intros K; right; exists p; auto|]. intros [K|(p' & Ep & K)]; [destruct (NA K)|]. injection Ep as <-. exact K.
    + split; [discriminate|]. intros [K|(p' & Ep & _)]; [destruct (NA K)|discriminate Ep].
  - split; [intros _; left; exact A|reflexivity].
Qed.
Print Assumptions C34_plain_panics_iff_partial.

(** A validated data frame whose control says "no sequence number" although it has one: the payload does not fit, emit panics. *)
Definition numbered : FrameRepr :=
  mkFrame (mkFcRepr FtData false false false true true false AmShort AmShort V2006) (Some 7%N)
    (Some (mkAfRepr (Some 0xabcd%N) (Some (AShort [1; 2]%N)) None (Some (AShort [3; 4]%N)))) None (Some [5]%N).
Example C34_plain_ex : fcr_known (f_control numbered) /\ frame_validate numbered = Ok tt /\ frame_buffer_len numbered = Done 10 /\
  frame_emit numbered (zeros 10) = Panic /\ mhr_size (f_control numbered) = 2.
Proof. repeat split; try discriminate; vm_compute; reflexivity. Qed.
(** The same frame with the control telling the truth is emitted. *)
Definition told : FrameRepr :=
  mkFrame (mkFcRepr FtData false false false true false false AmShort AmShort V2006) (Some 7%N)
    (Some (mkAfRepr (Some 0xabcd%N) (Some (AShort [1; 2]%N)) None (Some (AShort [3; 4]%N)))) None (Some [5]%N).
Example C34_plain_ex2 : frame_buffer_len told = Done 10 /\ exists b, frame_emit told (zeros 10) = Done b.
Proof. split; [reflexivity|]. eexists. vm_compute. reflexivity. Qed.
