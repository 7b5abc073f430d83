(** PropEmitSec.v -- C34 for frames whose frame control announces security: no space is reserved for the security header. *)
From Coq Require Import Lia.
From Verif Require Import Base BaseProofs Spec SpecFrame BitProofs FrameControl FrameControlProofs PropFrameControl Addressing SpecAddressing
  AddressingProofs AddressingProofs2 AuxSec Ie SpecIe IeProofs IeContent ReprIe SpecIeContent IeContentProofs SlotframeProofs
  ReprIeProofs IesProofs Frames SpecFrames FramesProofs Repr SpecRepr ReprProofs PropRepr SpecEmit PropEmit.

Lemma set_payload_secured b c p m : fc_is b c -> fcr_known c -> fr_security_enabled c = true -> addressing_takes c (length b) m ->
  length b <= mhr_size c + m + length p -> data_set_payload p b = Panic.
Proof.
  intros HF (_ & _ & Kd & Ks) HS TK HL. unfold data_set_payload. rewrite (data_fc_ok b c HF). cbn [bind]. getters (fc_is_firstn _ _ HF). rewrite Gn. cbn [bind].
  destruct (Nat.le_gt_cases (mhr_size c) (length b)) as [L|L].
  - destruct (data_addressing_view b c HF L Kd Ks) as (o & m' & EA & VA & KA & LA). rewrite EA. cbn [bind]. rewrite KA. cbn [bind].
    assert (m' = m) as ->.
    { destruct VA as [[(dp & sp & HL' & -> & HLL) _]|(HNo & -> & _)], TK as [(dp2 & sp2 & HL2 & -> & HLL2)|(-> & HNo2)].
      - destruct (c07_unique _ _ _ _ _ HL' HL2) as [<- <-]. reflexivity.
      - specialize (HNo2 dp sp HL'). lia.
      - specialize (HNo dp2 sp2 HL2). lia.
      - reflexivity. }
    unfold data_aux. rewrite (data_fc_ok b c HF), EA. cbn [bind]. rewrite Gn, Gs. cbn [bind]. rewrite HS, KA. cbn [bind]. rewrite <- mhr_seq, slice_from_ok by exact LA. cbn [bind unwrap].
    unfold aux_len. destruct (aux_security_control (skipn (mhr_size c + m) b)) as [x|]; cbn [bind]; [|reflexivity].
    rewrite Gi. cbn [bind]. set (k := 1 + _). assert (K : 1 <= k) by (subst k; lia). clearbody k.
    assert (T : forall off, mhr_size c + m + 1 <= off ->
      (let* hd := slice_to b off in let* tl := slice_from b off in if length tl =? length p then Done (hd ++ p) else Panic) = Panic).
    { intros off Hoff. destruct (Nat.le_gt_cases off (length b)) as [L2|L2].
      - rewrite slice_to_ok, slice_from_ok by exact L2. cbn [bind]. rewrite skipn_length. destruct (Nat.eqb_spec (length b - off) (length p)); [lia|reflexivity].
      - unfold slice_to. destruct (Nat.leb_spec off (length b)); [lia|reflexivity]. }
    destruct (fr_information_elements_present c); cbn [bind]; [|apply T; lia].
    destruct (data_ies b) as [i|]; cbn [bind]; [|reflexivity]. destruct (unwrap i) as [i'|]; cbn [bind]; [|reflexivity].
    destruct (ies_len i') as [q|]; cbn [bind]; [|reflexivity]. apply T. lia.
  - unfold data_addressing. rewrite (data_fc_ok b c HF). cbn [bind]. rewrite Gn. cbn [bind]. unfold mhr_size in L.
    destruct (fr_sequence_number_suppression c); unfold slice_from.
    * destruct (Nat.leb_spec 2 (length b)) as [L'|L']; [lia|reflexivity].
    * destruct (Nat.leb_spec 3 (length b)) as [L'|L']; [lia|reflexivity].
Qed.

Lemma done_inj {A} (x y : A) : Done x = Done y -> x = y.
Proof. intros H. injection H. auto. Qed.
Lemma write_at_length b o v b' : write_at b o v = Done b' -> length b' = length b.
Proof.
  intros H. destruct (Nat.le_gt_cases (o + length v) (length b)) as [L|L].
  - rewrite write_at_ok in H by exact L. apply done_inj in H. subst b'. rewrite !app_length, firstn_length, skipn_length. lia.
  - rewrite write_at_panic in H by exact L. discriminate.
Qed.
Lemma write_pan_length b o p b' o' : write_pan b o p = Done (b', o') -> length b' = length b.
Proof.
  destruct p as [v|]; cbn [write_pan]; [|congruence]. destruct (write_at _ _ _) as [x|] eqn:E; cbn [bind]; [|discriminate].
  intros H. apply write_at_length in E. congruence.
Qed.
Lemma write_address_length b o a b' o' : write_address b o a = Done (b', o') -> length b' = length b.
Proof.
  destruct a as [x|]; cbn [write_address]; [|congruence]. destruct (write_at _ _ _) as [y|] eqn:E; cbn [bind]; [|discriminate].
  intros H. apply write_at_length in E. congruence.
Qed.
Lemma write_fields_length b a b' : af_write_fields b a = Done b' -> length b' = length b.
Proof.
  unfold af_write_fields. destruct (write_pan b _ _) as [[b1 o1]|] eqn:E1; cbn [bind]; [|discriminate].
  destruct (write_address b1 _ _) as [[b2 o2]|] eqn:E2; cbn [bind]; [|discriminate].
  destruct (write_pan b2 _ _) as [[b3 o3]|] eqn:E3; cbn [bind]; [|discriminate].
  destruct (write_address b3 _ _) as [[b4 o4]|] eqn:E4; cbn [bind]; [|discriminate].
  intros H. apply done_inj in H. apply write_pan_length in E1, E3. apply write_address_length in E2, E4. congruence.
Qed.

(** The same frame without the security flag *)
Definition unsecured (r : FrameRepr) : FrameRepr :=
  let c := f_control r in
  mkFrame (mkFcRepr (fr_frame_type c) false (fr_frame_pending c) (fr_ack_request c) (fr_pan_id_compression c) (fr_sequence_number_suppression c)
    (fr_information_elements_present c) (fr_dst_addressing_mode c) (fr_src_addressing_mode c) (fr_frame_version c))
    (f_sequence_number r) (f_addressing r) (f_ies r) (f_payload r).

(** A frame with a payload and without information elements that announces security and is consistent otherwise cannot be
    emitted into a buffer of the size it asks for, whatever the octets of the buffer behind the frame control. *)
Theorem C34_secured_panics : forall r n rest p, consistent (unsecured r) -> fr_security_enabled (f_control r) = true ->
  f_ies r = None -> f_payload r = Some p -> frame_buffer_len r = Done n -> 2 + length rest = n ->
  frame_emit r (0%N :: 0%N :: rest) = Panic.
Proof.
  intros r n rest p C HS HN HP HB HL. set (c := f_control r) in *.
  assert (HB' : frame_buffer_len (unsecured r) = Done n) by (rewrite <- HB; destruct r as [c0 s a i q]; destruct c0; reflexivity).
  rewrite (buffer_len_ok _ C) in HB'. assert (HB2 : 2 + length (seq_part (unsecured r)) + length (addr_part (unsecured r)) + length (ies_part (unsecured r)) + length (payload_part (unsecured r)) = n) by congruence.
  clear HB'. unfold seq_part, addr_part, ies_part, payload_part in HB2. cbn [unsecured f_sequence_number f_addressing f_ies f_payload] in HB2. rewrite HN, HP in HB2. cbn [length] in HB2.
  destruct C as [CK _ CS CA _ _]. cbn [unsecured f_control f_sequence_number f_addressing] in CS, CA. cbn [fr_sequence_number_suppression fr_dst_addressing_mode fr_src_addressing_mode] in CS, CA.
  assert (HK : fcr_known c) by (destruct CK as (K1 & K2 & K3 & K4); repeat split; assumption).
  assert (LY : forall dp sp, layout (f_control (unsecured r)) dp sp <-> layout c dp sp) by (intros; reflexivity).
  assert (LZ : forall dp sp, layout_size (f_control (unsecured r)) dp sp = layout_size c dp sp) by reflexivity.
  destruct (fcr_emit_encodes c [] HK) as (c0 & c1 & O0 & O1 & EE & HE & _).
  unfold frame_emit. fold c. rewrite (set_control_ok c c0 c1 rest EE). cbn [bind]. rewrite HN, HP.
  assert (MS : mhr_size c = 2 + length (match f_sequence_number r with Some x => [x] | None => [] end)).
  { unfold mhr_size. fold c in CS. destruct (f_sequence_number r); [destruct CS as [_ ->]|rewrite CS]; reflexivity. }
  assert (SQ : exists d, match f_sequence_number r with Some x => data_set_sequence_number x (c0 :: c1 :: rest) | None => Done (c0 :: c1 :: rest) end = Done (c0 :: c1 :: d) /\ 2 + length d = n).
  { destruct (f_sequence_number r) as [x|]; [|exists rest; auto]. destruct rest as [|y rest]; [cbn [length] in *; lia|]. exists (x :: rest). split; [apply set_seq_ok; assumption|exact HL]. }
  destruct SQ as (d & SQ & LD). rewrite SQ. cbn [bind].
  set (w := c0 :: c1 :: d). assert (LW : length w = n) by exact LD.
  set (addr := match f_addressing r with Some a => addressing_octets a | None => [] end) in *.
  assert (TK : addressing_takes c n (length addr)).
  { fold c in CA. destruct (f_addressing r) as [a|].
    - left. destruct CA as (dp & sp & H1 & H2). exists dp, sp. split; [exact H1|].
      assert (E : length addr = layout_size c dp sp).
      { subst addr. destruct H2 as ((da & sa & D1 & D2 & D3 & D4 & W1 & W2) & P1 & P2). cbn [normal ar_dst_address ar_src_address ar_dst_pan_id ar_src_pan_id] in *.
        assert (PO : forall (q : bool) o, (if q then exists v, o = Some v /\ (v < 65536)%N else o = None) -> length (pan_octets o) = pan_size q) by (intros [] o; [intros (v & -> & _); reflexivity|intros ->; reflexivity]).
        assert (AO : forall o x, Some (normal_addr o) = Some x -> address_wf x -> length (addr_octets o) = addr_size (mode_of_address x)).
        { intros o x K W. injection K as <-. destruct o as [[|v|v]|]; cbn in *; rewrite ?rev_length; try reflexivity; apply W. }
        unfold addressing_octets, layout_size. rewrite !app_length. rewrite (PO dp _ P1), (PO sp _ P2), (AO _ _ D1 W1), (AO _ _ D2 W2). unfold c in *. rewrite <- D3, <- D4. lia. }
      split; [exact E|]. rewrite MS. lia.
    - destruct (layout_or_not c (proj1 (proj2 (proj2 HK))) (proj2 (proj2 (proj2 HK)))) as [(dp & sp & HLy)|HNo].
      + left. exists dp, sp. split; [exact HLy|]. split; [symmetry; exact (CA dp sp HLy)|]. rewrite MS. subst addr. cbn [length] in *. lia.
      + right. split; [reflexivity|]. intros dp sp K. destruct (HNo dp sp K). }
  assert (LE : n <= mhr_size c + length addr + length p) by (rewrite MS; clear - HB2; lia). clear HB2 CA.
  assert (AD : (exists w', match f_addressing r with Some a => data_set_addressing_fields a w | None => Done w end = Done w' /\ length w' = n /\ fc_is w' c) \/
               match f_addressing r with Some a => data_set_addressing_fields a w | None => Done w end = Panic).
  { destruct (f_addressing r) as [a|].
    - destruct (data_set_addressing_fields a w) as [w'|] eqn:EW; [left|right; reflexivity]. exists w'. split; [reflexivity|].
      unfold data_set_addressing_fields in EW. destruct (head_fc c0 c1 d c O0 O1 HE) as (E1 & E2 & _). fold w in E1. rewrite E1 in EW. cbn [bind] in EW. rewrite E2 in EW. cbn [bind] in EW. cbv zeta in EW. rewrite <- mhr_seq in EW.
      destruct (Nat.le_gt_cases (mhr_size c) n) as [L|L].
      + rewrite slice_to_ok, slice_from_ok in EW by lia. cbn [bind] in EW.
        destruct (af_write_fields (skipn (mhr_size c) w) a) as [b'|] eqn:EB; cbn [bind] in EW; [|discriminate]. apply done_inj in EW. subst w'.
        pose proof (write_fields_length _ _ _ EB) as N2. split; [rewrite app_length, firstn_length, N2, skipn_length; lia|].
        assert (M2 : exists k, mhr_size c = S (S k)) by (unfold mhr_size; destruct (fr_sequence_number_suppression c); eauto). destruct M2 as (k & M2). rewrite M2. unfold w. cbn [firstn app]. apply fc_is_cons; assumption.
      + exfalso. unfold slice_to in EW. destruct (Nat.leb_spec (mhr_size c) (length w)) as [L'|L']; [lia|discriminate].
    - left. exists w. split; [reflexivity|]. split; [exact LW|]. apply fc_is_cons; assumption. }
  destruct AD as [(w' & EW & LW' & FW)|EW]; rewrite EW; cbn [bind]; [|reflexivity].
  apply (set_payload_secured w' c p (length addr) FW HK HS); rewrite LW'; assumption.
Qed.
Print Assumptions C34_secured_panics.
(** validated, asks for 10 octets, and panics *)
Definition secured_frame : FrameRepr :=
  mkFrame (mkFcRepr FtData true false false true false false AmShort AmShort V2006) (Some 7%N)
    (Some (mkAfRepr (Some 0xabcd%N) (Some (AShort [1; 2]%N)) None (Some (AShort [3; 4]%N)))) None (Some [5]%N).
Example C34_secured_ex : unsecured secured_frame = told /\ frame_validate secured_frame = Ok tt /\ frame_buffer_len secured_frame = Done 10 /\ frame_emit secured_frame (zeros 10) = Panic /\
  consistent (unsecured secured_frame).
Proof.
  split; [reflexivity|]. split; [reflexivity|]. split; [reflexivity|]. split; [vm_compute; reflexivity|].
  split; cbn; try reflexivity; try (repeat split; discriminate); try (split; [|reflexivity]; lia).
  - exists true, false. split; [split; [discriminate|split; [discriminate|vm_compute; intuition congruence]]|]. split; [exists (AShort [1; 2]%N), (AShort [3; 4]%N); repeat split; repeat constructor|]. split; [exists 0xabcd%N; split; [reflexivity|lia]|reflexivity].
  - repeat constructor.
Qed.
