(** PropBeaconFrame.v -- C68: the readers of a (2003/2006) beacon frame. *)
From Verif Require Import Base BaseProofs Spec SpecFrame FrameControl FrameControlProofs Addressing SpecAddressing
  AddressingProofs AddressingProofs2 AuxSec PropAuxSec Macro Beacon PropBeacon FramesProofs.

(** A beacon, cut into its sections: frame control, sequence number, addressing fields, security header (as this code
    base computes its size, see C10), superframe specification, GTS fields, pending addresses, payload. [std_gts_size]
    and [std_pa_size] (PropBeacon.v) are the standard's sizes. *)
Record beacon_sections (r : FrameControlRepr) (b fc : list N) (seq : N) (af sec sf gts pa pl : list N) : Prop := {
  bs_all : b = fc ++ [seq] ++ af ++ sec ++ sf ++ gts ++ pa ++ pl;
  bs_octets : octets b;
  bs_fc : length fc = 2 /\ fc_is fc r;
  bs_af : exists dp sp, layout r dp sp /\ length af = layout_size r dp sp;
  bs_sec : if fr_security_enabled r
           then exists c rest enc mic, sec = c :: rest /\ table_9_6 (field 0 3 c) = Some (enc, mic) /\ length sec = 1 + mic
           else sec = [];
  bs_sf : length sf = 2;
  bs_gts : 1 <= length gts /\ length gts = std_gts_size gts;
  bs_pa : 1 <= length pa /\ length pa = std_pa_size pa }.

Definition C68_statement : Prop := forall r b fc seq af sec sf gts pa pl,
  beacon_sections r b fc seq af sec sf gts pa pl ->
  beacon_frame_control b = Done fc /\ beacon_sequence_number b = Done seq /\
  beacon_addressing b = Done (mkAf (af ++ sec ++ sf ++ gts ++ pa ++ pl) fc) /\
  beacon_aux b = Done (if fr_security_enabled r then Some (sec ++ sf ++ gts ++ pa ++ pl) else None) /\
  beacon_superframe b = Done sf /\
  beacon_gts_info b = Done (gts ++ pa ++ pl) /\
  beacon_pending b = Done (pa ++ pl) /\
  beacon_payload b = Done pl.

(** Everything up to the GTS fields is right; what follows them only if there is no GTS descriptor: otherwise the
    pending addresses are read from the last octet of the GTS fields on. *)
Theorem C68_partial : forall r b fc seq af sec sf gts pa pl,
  beacon_sections r b fc seq af sec sf gts pa pl ->
  beacon_frame_control b = Done fc /\ beacon_sequence_number b = Done seq /\
  beacon_addressing b = Done (mkAf (af ++ sec ++ sf ++ gts ++ pa ++ pl) fc) /\
  af_len (mkAf (af ++ sec ++ sf ++ gts ++ pa ++ pl) fc) = Done (length af) /\
  beacon_aux b = Done (if fr_security_enabled r then Some (sec ++ sf ++ gts ++ pa ++ pl) else None) /\
  beacon_superframe b = Done sf /\
  beacon_gts_info b = Done (gts ++ pa ++ pl) /\
  (std_gts_count gts = 0 -> beacon_pending b = Done (pa ++ pl) /\ beacon_payload b = Done pl) /\
  (std_gts_count gts <> 0 -> exists front last, gts = front ++ [last] /\ beacon_pending b = Done (last :: pa ++ pl)).
Proof.
  intros r b fc seq af sec sf gts pa pl [EB HO [LF HF] (dp & sp & HL & LA) HS LS [LG1 LG] [LP1 LP]].
  set (tl := sf ++ gts ++ pa ++ pl) in *.
  assert (OT : octets (gts ++ pa ++ pl)) by (rewrite EB in HO; unfold tl, octets in HO; rewrite !Forall_app in HO; unfold octets; rewrite !Forall_app; tauto).
  assert (FCE : beacon_frame_control b = Done fc).
  { unfold beacon_frame_control. rewrite EB. rewrite slice_to_ok by (rewrite app_length; lia). rewrite <- LF, firstn_app, Nat.sub_diag, firstn_all. cbn [firstn]. rewrite app_nil_r. reflexivity. }
  assert (SK : forall k (l : list N), length l = k -> forall m, skipn k (l ++ m) = m).
  { intros k l <- m. rewrite skipn_app, skipn_all, Nat.sub_diag. reflexivity. }
  assert (E3 : b = (fc ++ [seq]) ++ af ++ sec ++ tl) by (rewrite EB, <- app_assoc; reflexivity).
  assert (L3 : length (fc ++ [seq]) = 3) by (rewrite app_length, LF; reflexivity).
  assert (LB : length b = 3 + (length af + (length sec + length tl))) by (rewrite E3, !app_length, LF; simpl; lia).
  assert (AE : beacon_addressing b = Done (mkAf (af ++ sec ++ tl) fc)).
  { unfold beacon_addressing. rewrite slice_from_ok by lia. cbn [bind]. rewrite FCE. cbn [bind]. rewrite E3, (SK 3 _ L3). reflexivity. }
  destruct (c08_accepted fc r (af ++ sec ++ tl) dp sp HF HL) as (_ & AL & _); [rewrite !app_length; lia|]. rewrite <- LA in AL.
  getters HF.
  assert (E4 : b = ((fc ++ [seq]) ++ af) ++ sec ++ tl) by (rewrite E3, <- !app_assoc; reflexivity).
  assert (L4 : length ((fc ++ [seq]) ++ af) = 3 + length af) by (rewrite app_length, L3; reflexivity).
  assert (XE : beacon_aux b = Done (if fr_security_enabled r then Some (sec ++ tl) else None)).
  { unfold beacon_aux. rewrite FCE. cbn [bind]. rewrite Gs. cbn [bind]. destruct (fr_security_enabled r); [|reflexivity].
    rewrite AE. cbn [bind]. rewrite AL. cbn [bind]. rewrite slice_from_ok by lia. cbn [bind]. rewrite E4, (SK _ _ L4). reflexivity. }
  assert (OE : beacon_offset b = Done (3 + length af + length sec)).
  { unfold beacon_offset. rewrite AE. cbn [bind]. rewrite AL. cbn [bind]. rewrite FCE. cbn [bind]. rewrite Gs. cbn [bind].
    destruct (fr_security_enabled r).
    - rewrite XE. cbn [bind unwrap]. destruct HS as (c & rest & enc & mic & -> & HT & LX).
      assert (OC : octet c).
      { rewrite E4 in HO. unfold octets in HO. rewrite !Forall_app in HO. destruct HO as (_ & HO & _). inversion HO; assumption. }
      destruct (C10_fields_partial c (rest ++ tl) OC) as (enc' & mic' & HT' & _ & _ & _ & _ & _ & _ & _ & _ & EL).
      rewrite HT in HT'. injection HT' as <- <-. change ((c :: rest) ++ tl) with (c :: rest ++ tl). rewrite EL. cbn [bind]. do 2 f_equal. lia.
    - subst sec. cbn [length]. f_equal. lia. }
  assert (E5 : b = (((fc ++ [seq]) ++ af) ++ sec) ++ tl) by (rewrite E3, <- !app_assoc; reflexivity).
  assert (L5 : length (((fc ++ [seq]) ++ af) ++ sec) = 3 + length af + length sec) by (rewrite app_length, L4; reflexivity).
  assert (E6 : b = ((((fc ++ [seq]) ++ af) ++ sec) ++ sf) ++ gts ++ pa ++ pl) by (rewrite E5 at 1; unfold tl; rewrite <- !app_assoc; reflexivity).
  assert (L6 : length ((((fc ++ [seq]) ++ af) ++ sec) ++ sf) = 3 + length af + length sec + 2) by (rewrite app_length, L5, LS; reflexivity).
  assert (LT : length tl = 2 + (length gts + (length pa + length pl))) by (unfold tl; rewrite !app_length; lia).
  assert (SE : beacon_superframe b = Done sf).
  { unfold beacon_superframe. rewrite OE. cbn [bind]. rewrite slice_from_ok by lia. cbn [bind]. rewrite E5 at 1. rewrite (SK _ _ L5).
    rewrite slice_to_ok by lia. unfold tl. rewrite <- LS, firstn_app, Nat.sub_diag, firstn_all. cbn [firstn]. rewrite app_nil_r. reflexivity. }
  assert (GE : beacon_gts_info b = Done (gts ++ pa ++ pl)).
  { unfold beacon_gts_info. rewrite OE. cbn [bind]. rewrite slice_from_ok by lia. rewrite E6 at 1. rewrite (SK _ _ L6). reflexivity. }
  assert (GC : std_gts_count (gts ++ pa ++ pl) = std_gts_count gts).
  { unfold std_gts_count. rewrite app_nth1 by lia. reflexivity. }
  destruct (C61_gts_partial (gts ++ pa ++ pl) OT) as (_ & _ & GL & _); [rewrite app_length; lia|]. rewrite GC in GL.
  split; [exact FCE|]. split.
  { unfold beacon_sequence_number. rewrite idx_ok by lia. rewrite EB. rewrite app_nth2 by lia. rewrite LF. reflexivity. }
  split; [exact AE|]. split; [exact AL|]. split; [exact XE|]. split; [exact SE|]. split; [exact GE|]. split.
  - intros Z. unfold std_gts_size in LG. rewrite Z in *. cbn [Nat.eqb] in LG.
    assert (E7 : b = (((((fc ++ [seq]) ++ af) ++ sec) ++ sf) ++ gts) ++ pa ++ pl) by (rewrite E6 at 1; rewrite <- !app_assoc; reflexivity).
    assert (L7 : length (((((fc ++ [seq]) ++ af) ++ sec) ++ sf) ++ gts) = 3 + length af + length sec + 2 + (1 + 3 * 0)) by (rewrite app_length, L6; lia).
    assert (PE : beacon_pending b = Done (pa ++ pl)).
    { unfold beacon_pending. rewrite OE. cbn [bind]. rewrite GE. cbn [bind]. rewrite GL. cbn [bind]. rewrite slice_from_ok by lia.
      rewrite E7 at 1. rewrite (SK _ _ L7). reflexivity. }
    split; [exact PE|]. unfold beacon_payload. rewrite OE. cbn [bind]. rewrite GE. cbn [bind]. rewrite GL. cbn [bind]. rewrite PE. cbn [bind].
    assert (OP : octets (pa ++ pl)) by (unfold octets in OT |- *; rewrite !Forall_app in OT; rewrite Forall_app; tauto).
    destruct (C61_pending_partial (pa ++ pl) OP) as (PL & _); [rewrite app_length; lia|]. rewrite PL. cbn [bind].
    assert (SP : std_pa_size (pa ++ pl) = length pa).
    { rewrite LP. unfold std_pa_size, std_pa_short, std_pa_ext. rewrite app_nth1 by lia. reflexivity. }
    rewrite SP. rewrite slice_from_ok by lia. f_equal.
    assert (E8 : b = ((((((fc ++ [seq]) ++ af) ++ sec) ++ sf) ++ gts) ++ pa) ++ pl) by (rewrite E7 at 1; rewrite <- !app_assoc; reflexivity).
    rewrite E8 at 1. apply SK. rewrite app_length, L7. lia.
  - intros Z. unfold std_gts_size in LG. destruct (Nat.eqb_spec (std_gts_count gts) 0); [contradiction|].
    destruct (exists_last (l := gts)) as (front & last & EG). { intros ->. simpl in LG1. lia. }
    exists front, last. split; [exact EG|].
    unfold beacon_pending. rewrite OE. cbn [bind]. rewrite GE. cbn [bind]. rewrite GL. cbn [bind]. rewrite slice_from_ok by lia.
    assert (E7 : b = (((((fc ++ [seq]) ++ af) ++ sec) ++ sf) ++ front) ++ last :: pa ++ pl).
    { rewrite E6 at 1. rewrite EG at 1. rewrite <- !app_assoc. reflexivity. }
    f_equal. rewrite E7 at 1. apply SK. rewrite app_length, L6. assert (LE : length gts = length front + 1) by (rewrite EG, app_length; reflexivity). lia.
Qed.

(** A beacon from a short address with one GTS descriptor and one pending address. *)
Definition beacon_sample : list N :=
  [0x00; 0x80; 0x07; 0x34; 0x12; 0x78; 0x56; 0xff; 0xcf; 0x81; 0x01; 0xaa; 0xbb; 0x11; 0x01; 0xcd; 0xab; 0xee]%N.
Definition beacon_fcr : FrameControlRepr := fcr_of 0x8000.
Lemma beacon_sample_sections : beacon_sections beacon_fcr beacon_sample [0x00; 0x80]%N 0x07 [0x34; 0x12; 0x78; 0x56]%N []
  [0xff; 0xcf]%N [0x81; 0x01; 0xaa; 0xbb; 0x11]%N [0x01; 0xcd; 0xab]%N [0xee]%N.
Proof.
  constructor.
  - reflexivity.
  - unfold octets, beacon_sample. repeat constructor.
  - split; [reflexivity|]. exists 0x00%N, 0x80%N, []. split; [reflexivity|]. split; [reflexivity|]. split; [reflexivity|]. apply (fcr_of_encodes 0x8000).
  - exists false, true. split; [|reflexivity]. unfold layout, ieee_presence. vm_compute. repeat split; congruence.
  - reflexivity.
  - reflexivity.
  - split; [vm_compute; lia|reflexivity].
  - split; [vm_compute; lia|reflexivity].
Qed.
Theorem C68_refuted : ~ C68_statement.
Proof.
  intros H. destruct (H _ _ _ _ _ _ _ _ _ _ beacon_sample_sections) as (_ & _ & _ & _ & _ & _ & K & _). vm_compute in K. discriminate.
Qed.
(** a case of the first kind: no descriptors, two short pending addresses, a secured frame *)
Definition beacon_sample2 : list N :=
  [0x08; 0x80; 0x07; 0x34; 0x12; 0x78; 0x56; 0x05; 1; 2; 3; 4; 0xff; 0xcf; 0x00; 0x02; 0xcd; 0xab; 0xce; 0xab; 0xee; 0xef]%N.
Example C68_sections2 : beacon_sections (fcr_of 0x8008) beacon_sample2 [0x08; 0x80]%N 0x07 [0x34; 0x12; 0x78; 0x56]%N [0x05; 1; 2; 3; 4]%N
  [0xff; 0xcf]%N [0x00]%N [0x02; 0xcd; 0xab; 0xce; 0xab]%N [0xee; 0xef]%N /\ std_gts_count [0x00]%N = 0.
Proof.
  split; [|reflexivity]. constructor.
  - reflexivity.
  - unfold octets, beacon_sample2. repeat constructor.
  - split; [reflexivity|]. exists 0x08%N, 0x80%N, []. split; [reflexivity|]. split; [reflexivity|]. split; [reflexivity|]. apply (fcr_of_encodes 0x8008).
  - exists false, true. split; [|reflexivity]. unfold layout, ieee_presence. vm_compute. repeat split; congruence.
  - cbn. exists 0x05%N, [1; 2; 3; 4]%N, true, 4. repeat split.
  - reflexivity.
  - split; [vm_compute; lia|reflexivity].
  - split; [vm_compute; lia|reflexivity].
Qed.
Print Assumptions C68_partial.
Print Assumptions C68_refuted.
