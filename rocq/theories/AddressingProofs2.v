(** AddressingProofs2.v -- proofs of C05, C07, C08 statements. *)
From Verif Require Import Base BaseProofs Spec SpecFrame FrameControl FrameControlProofs
  Addressing SpecAddressing AddressingProofs.

Lemma c05_from l : octets l ->
  match address_from l with
  | Done a => (length l = 0 \/ length l = 2 \/ length l = 8) /\ address_wf a /\
              as_bytes a = l /\ address_len a = length l
  | Panic => length l <> 0 /\ length l <> 2 /\ length l <> 8
  end.
Proof.
  intros H. unfold address_from.
  destruct (Nat.eqb_spec (length l) 0) as [E0|E0].
  { apply length_zero_iff_nil in E0. subst l. simpl. auto. }
  destruct (Nat.eqb_spec (length l) 2) as [E2|E2]; [simpl; auto|].
  destruct (Nat.eqb_spec (length l) 8) as [E8|E8]; [simpl; auto|].
  auto.
Qed.

Lemma c05_as_bytes a : address_wf a ->
  address_from (as_bytes a) = Done a /\ length (as_bytes a) = address_len a /\ octets (as_bytes a).
Proof.
  intros W. destruct a as [|v|v]; simpl in *.
  - repeat split. constructor.
  - destruct W as [HL HO]. unfold address_from. rewrite HL. auto.
  - destruct W as [HL HO]. unfold address_from. rewrite HL. auto.
Qed.

Lemma c05_kinds a :
  (is_broadcast a = true <-> a = AShort [255; 255]%N) /\
  is_unicast a = negb (is_broadcast a) /\
  AddressingMode_size (mode_of_address a) = address_len a /\
  ((is_absent a = true /\ is_short a = false /\ is_extended a = false /\ address_len a = 0) \/
   (is_absent a = false /\ is_short a = true /\ is_extended a = false /\ address_len a = 2) \/
   (is_absent a = false /\ is_short a = false /\ is_extended a = true /\ address_len a = 8)).
Proof.
  split; [apply is_broadcast_spec|]. split; [reflexivity|].
  destruct a; simpl; intuition auto.
Qed.

Lemma c05_to_short a :
  match a with
  | AAbsent => to_short a = None
  | AShort v => to_short a = Some a
  | AExtended v => address_wf a -> exists x y r, v = x :: y :: r /\ to_short a = Some (AShort [x; y])
  end.
Proof.
  destruct a as [|v|v]; try reflexivity. simpl. intros [HL _].
  destruct v as [|x [|y r]]; try discriminate HL. exists x, y, r. auto.
Qed.

Definition fcr_reserved : FrameControlRepr :=
  mkFcRepr FtData false false false false false false AmUnknown AmAbsent V2020.

Lemma fcr_reserved_is : fc_is [1; 36]%N fcr_reserved.
Proof. exists 1%N, 36%N, []. repeat split. Qed.

Lemma c07_unique r dp sp dp' sp' : layout r dp sp -> layout r dp' sp' -> dp = dp' /\ sp = sp'.
Proof. apply ieee_presence_fun. Qed.

Lemma layout_or_not r : fr_dst_addressing_mode r <> AmUnknown -> fr_src_addressing_mode r <> AmUnknown ->
  (exists dp sp, layout r dp sp) \/ (forall dp sp, ~ layout r dp sp).
Proof.
  intros Hd Hs. destruct (flags_total (fr_frame_version r) _ _ (fr_pan_id_compression r) Hd Hs) as [(dp & sp & H)|[_ H]].
  - left. exists dp, sp. apply flags_spec; assumption.
  - right. exact H.
Qed.

Lemma layout_size_le r dp sp : layout_size r dp sp <= 20.
Proof. unfold layout_size. destruct dp, sp, (fr_dst_addressing_mode r), (fr_src_addressing_mode r); simpl; lia. Qed.

Lemma addr_at_mode m b off : m <> AmUnknown -> mode_of_address (addr_at m b off) = m.
Proof. destruct m; simpl; congruence. Qed.

Lemma c07_presence fc r b : fc_is fc r -> 20 <= length b ->
  fr_dst_addressing_mode r <> AmUnknown -> fr_src_addressing_mode r <> AmUnknown ->
  (af_new b fc = Done (Ok (mkAf b fc)) /\
   exists dp sp p1 a1 p2 a2, layout r dp sp /\
     af_dst_pan_id (mkAf b fc) = Done p1 /\ (p1 <> None <-> dp = true) /\
     af_dst_address (mkAf b fc) = Done (Some a1) /\ mode_of_address a1 = fr_dst_addressing_mode r /\
     af_src_pan_id (mkAf b fc) = Done p2 /\ (p2 <> None <-> sp = true) /\
     af_src_address (mkAf b fc) = Done (Some a2) /\ mode_of_address a2 = fr_src_addressing_mode r) \/
  (af_new b fc = Done Err /\ forall dp sp, ~ layout r dp sp).
Proof.
  intros HF HL Hd Hs. destruct (layout_or_not r Hd Hs) as [(dp & sp & HP)|HN].
  - left. destruct (c08_accepted fc r b dp sp HF HP) as (h0 & _ & h1 & h2 & h3 & h4).
    { etransitivity; [apply layout_size_le|exact HL]. }
    split; [exact h0|]. do 6 eexists. split; [exact HP|]. split; [exact h1|].
    split; [destruct dp; simpl; split; congruence|].
    split; [exact h2|]. split; [apply addr_at_mode; exact Hd|].
    split; [exact h3|]. split; [destruct sp; simpl; split; congruence|].
    split; [exact h4|apply addr_at_mode; exact Hs].
  - right. split; [|exact HN]. apply (c08_rejected fc r b HF Hd Hs). intros dp sp HP. destruct (HN dp sp HP).
Qed.

Lemma c07_refuted : ~ (forall fc r b, fc_is fc r -> 20 <= length b ->
  (af_new b fc = Done (Ok (mkAf b fc)) /\
   exists dp sp p1 a1 p2 a2, layout r dp sp /\
     af_dst_pan_id (mkAf b fc) = Done p1 /\ (p1 <> None <-> dp = true) /\
     af_dst_address (mkAf b fc) = Done (Some a1) /\ mode_of_address a1 = fr_dst_addressing_mode r /\
     af_src_pan_id (mkAf b fc) = Done p2 /\ (p2 <> None <-> sp = true) /\
     af_src_address (mkAf b fc) = Done (Some a2) /\ mode_of_address a2 = fr_src_addressing_mode r) \/
  (af_new b fc = Done Err /\ forall dp sp, ~ layout r dp sp)).
Proof.
  intros H. destruct (H _ _ (repeat 0%N 20) fcr_reserved_is) as [(_ & dp & sp & _ & _ & _ & _ & HP & _)|[HE _]].
  - simpl. lia.
  - destruct HP as (HP & _). apply HP. reflexivity.
  - vm_compute in HE. discriminate.
Qed.

Lemma c08_len_refuted : ~ (forall fc b af, octets fc -> octets b -> 2 <= length fc ->
  af_new b fc = Done (Ok af) -> af_len af <> Panic).
Proof.
  intros H. apply (H [1; 36]%N [0; 0]%N (mkAf [0; 0]%N [1; 36]%N)); try reflexivity; repeat constructor.
Qed.

(** Unknown modes: read_address returns None without touching the buffer *)
Lemma read_address_no_panic b m off : off + AddressingMode_size m <= length b -> af_read_address b m off <> Panic.
Proof.
  intros H. destruct m; simpl in *; try discriminate; rewrite slice_ok by lia; discriminate.
Qed.

Lemma af_getters_no_panic b fc v d s c : fc_view fc v d s c -> af_new b fc = Done (Ok (mkAf b fc)) ->
  af_dst_pan_id (mkAf b fc) <> Panic /\ af_dst_address (mkAf b fc) <> Panic /\
  af_src_pan_id (mkAf b fc) <> Panic /\ af_src_address (mkAf b fc) <> Panic.
Proof.
  intros HV. unfold af_new, af_check_len.
  unfold af_dst_pan_id, af_dst_address, af_src_pan_id, af_src_address.
  rewrite (af_flags_view b fc v d s c HV). cbn [bind].
  destruct (address_present_flags v d s c) as [[[[dp d'] sp] s']|]; cbn [bind af_buffer]; [|intros; discriminate].
  destruct (Nat.leb_spec (two_if dp + AddressingMode_size d' + two_if sp + AddressingMode_size s') (length b)) as [HL|]; [|discriminate].
  intros _.
  assert (P1 : two_if dp = 2 -> (let* s := slice_to b 2 in let* x := idx s 0 in let* y := idx s 1 in
       Done (Some (from_le [x; y]))) <> Panic).
  { intros E. rewrite read_pan0_ok by lia. discriminate. }
  split; [destruct dp; [apply P1; reflexivity|discriminate]|].
  split; [apply read_address_no_panic; lia|]. split.
  - destruct sp; [|discriminate]. rewrite read_pan_ok by (simpl in HL; lia). discriminate.
  - apply read_address_no_panic. lia.
Qed.

Lemma af_new_same b fc af : af_new b fc = Done (Ok af) -> af = mkAf b fc.
Proof.
  unfold af_new. destruct (af_check_len (mkAf b fc)) as [[]|]; cbn [bind]; try discriminate.
  intros E. injection E as <-. reflexivity.
Qed.

Lemma c08_no_panic fc b : octets fc -> 2 <= length fc ->
  af_new b fc <> Panic /\ forall af, af_new b fc = Done (Ok af) -> afr_parse af <> Panic.
Proof.
  intros HO HL. split; [apply af_new_no_panic; exact HL|].
  intros af HN. assert (Eaf := af_new_same _ _ _ HN). subst af.
  destruct (fc_view_exists fc HL) as (v & d & s & c & HV).
  destruct (af_getters_no_panic b fc v d s c HV HN) as (h1 & h2 & h3 & h4).
  unfold afr_parse.
  destruct (af_dst_pan_id _); [|congruence]. destruct (af_dst_address _); [|congruence].
  destruct (af_src_pan_id _); [|congruence]. destruct (af_src_address _); [|congruence].
  cbn [bind]. discriminate.
Qed.

Lemma c08_len_panics_iff fc r b af : fc_is fc r -> af_new b fc = Done (Ok af) ->
  (af_len af = Panic <-> fr_dst_addressing_mode r = AmUnknown \/ fr_src_addressing_mode r = AmUnknown).
Proof.
  intros HF HN. assert (Eaf := af_new_same _ _ _ HN). subst af. assert (HV := fc_is_view fc r HF).
  destruct (af_getters_no_panic _ _ _ _ _ _ HV HN) as (h1 & _ & h3 & _).
  unfold af_len. cbn [af_fc]. destruct HV as (_ & -> & -> & _).
  destruct (af_dst_pan_id _); [|congruence]. destruct (af_src_pan_id _); [|congruence]. cbn [bind].
  destruct (fr_dst_addressing_mode r), (fr_src_addressing_mode r); cbn [mode_len bind]; split; intros H;
    try discriminate; try (destruct H; discriminate); auto.
Qed.
