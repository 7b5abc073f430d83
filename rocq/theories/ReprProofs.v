(** ReprProofs.v -- lemmas about FrameRepr: emission, acceptance and parsing. *)
From Verif Require Import Base BaseProofs Spec SpecFrame BitProofs FrameControl FrameControlProofs Addressing SpecAddressing
  AddressingProofs AddressingProofs2 AuxSec Ie SpecIe IeProofs IeContent ReprIe SpecIeContent IeContentProofs SlotframeProofs
  ReprIeProofs IesProofs Frames SpecFrames FramesProofs Repr SpecRepr.

Lemma addressing_octets_normal a : addressing_octets (normal a) = addressing_octets a.
Proof. destruct a as [[p|] [[| |]|] [q|] [[| |]|]]; reflexivity. Qed.

Lemma normal_wf a : afr_wf (normal a) -> afr_wf a.
Proof.
  intros (H1 & H2 & H3 & H4). destruct a as [p x q y]. unfold normal, afr_wf in *.
  cbn [ar_dst_pan_id ar_dst_address ar_src_pan_id ar_src_address] in *.
  split; [exact H1|]. split; [exact H2|]. split; intros v E; subst.
  - apply H3. reflexivity.
  - apply H4. reflexivity.
Qed.

Lemma layout_known r dp sp : layout r dp sp -> fr_dst_addressing_mode r <> AmUnknown /\ fr_src_addressing_mode r <> AmUnknown.
Proof. intros (H1 & H2 & _). auto. Qed.

Lemma seq_part_length r : consistent r -> 2 + length (seq_part r) = mhr_size (f_control r).
Proof.
  intros C. destruct C as [_ _ H _ _ _]. unfold seq_part, mhr_size. destruct (f_sequence_number r).
  - destruct H as [_ ->]. reflexivity.
  - rewrite H. reflexivity.
Qed.

(** where the addressing fields of a consistent frame end *)
Lemma addr_end r b : consistent r -> fc_is b (f_control r) -> mhr_size (f_control r) + length (addr_part r) <= length b ->
  exists o, data_addressing b = Done o /\ (forall k, add_af_len o k = Done (k + length (addr_part r))).
Proof.
  intros C HF HL.
  destruct (con_known r C) as (_ & _ & Kd & Ks).
  destruct (data_addressing_view b (f_control r) HF ltac:(lia) Kd Ks) as (o & n & E & HV & HA & HN).
  exists o. split; [exact E|]. replace (length (addr_part r)) with n; [exact HA|].
  pose proof (con_addr r C) as CA. unfold addr_part in *. destruct (f_addressing r) as [a|].
  - destruct CA as (dp & sp & HLay & HM).
    assert (LA : length (addressing_octets a) = layout_size (f_control r) dp sp).
    { destruct (c09_roundtrip (firstn 2 b) (f_control r) (normal a) (skipn (mhr_size (f_control r)) b ++ repeat 0%N 100) dp sp) as (L & _).
      - apply fc_is_firstn, HF.
      - exact HLay.
      - exact HM.
      - rewrite app_length, repeat_length. unfold layout_size. destruct dp, sp, (fr_dst_addressing_mode (f_control r)), (fr_src_addressing_mode (f_control r)); cbn [pan_size addr_size]; lia.
      - rewrite addressing_octets_normal in L. exact L. }
    destruct HV as [[(dp' & sp' & HL' & -> & _) _]|(HNo & _ & _)].
    + destruct (c07_unique _ _ _ _ _ HLay HL') as [<- <-]. symmetry. exact LA.
    + specialize (HNo dp sp HLay). lia.
  - cbn [length]. destruct HV as [[(dp' & sp' & HL' & -> & _) _]|(_ & -> & _)]; [|reflexivity].
    apply CA. exact HL'.
Qed.

Lemma fc_is_cons c0 c1 rest r : octet c0 -> octet c1 -> fc_encodes (c0 + 256 * c1) r -> fc_is (c0 :: c1 :: rest) r.
Proof. intros. exists c0, c1, rest. auto. Qed.

Lemma set_control_ok r c0 c1 rest : fcr_emit r [0%N; 0%N] = Done [c0; c1] ->
  data_set_frame_control r (0%N :: 0%N :: rest) = Done (c0 :: c1 :: rest).
Proof.
  intros H. unfold data_set_frame_control, on_control.
  rewrite slice_to_ok by (cbn [length]; lia). cbn [bind firstn]. rewrite H. reflexivity.
Qed.

Lemma set_seq_ok c0 c1 x y rest : octet c0 -> octet c1 ->
  data_set_sequence_number x (c0 :: c1 :: y :: rest) = Done (c0 :: c1 :: x :: rest).
Proof.
  intros H0 H1. unfold data_set_sequence_number, on_control.
  rewrite slice_to_ok by (cbn [length]; lia). cbn [bind firstn].
  pose proof (c03_clear FlSns c0 c1 [] H0 H1) as E. cbn [flag_set] in E. rewrite E. reflexivity.
Qed.

Lemma slices_app (hd tl : list N) n : n = length hd ->
  slice_to (hd ++ tl) n = Done hd /\ slice_from (hd ++ tl) n = Done tl.
Proof.
  intros ->. rewrite slice_to_ok by (rewrite app_length; lia). rewrite slice_from_ok by (rewrite app_length; lia).
  rewrite firstn_app, firstn_all, Nat.sub_diag, skipn_app, skipn_all, Nat.sub_diag. cbn. rewrite app_nil_r. auto.
Qed.

Lemma head_fc c0 c1 rest r : octet c0 -> octet c1 -> fc_encodes (c0 + 256 * c1) r ->
  data_frame_control (c0 :: c1 :: rest) = Done [c0; c1] /\ fc_sequence_number_suppression [c0; c1] = Done (fr_sequence_number_suppression r) /\
  fc_security_enabled [c0; c1] = Done (fr_security_enabled r) /\ fc_information_elements_present [c0; c1] = Done (fr_information_elements_present r).
Proof.
  intros H0 H1 HE. assert (HF := fc_is_cons c0 c1 [] r H0 H1 HE). getters HF.
  unfold data_frame_control. rewrite slice_to_ok by (cbn [length]; lia). auto.
Qed.

Definition head (c0 c1 : N) (r : FrameRepr) : list N := c0 :: c1 :: seq_part r.

Lemma set_addr_ok r c0 c1 a' rest : consistent r -> octet c0 -> octet c1 -> fc_encodes (c0 + 256 * c1) (f_control r) ->
  length a' = length (addr_part r) ->
  match f_addressing r with Some a => data_set_addressing_fields a (head c0 c1 r ++ a' ++ rest) | None => Done (head c0 c1 r ++ a' ++ rest) end
  = Done (head c0 c1 r ++ addr_part r ++ rest).
Proof.
  intros C H0 H1 HE HL. pose proof (con_addr r C) as CA. unfold addr_part in *. destruct (f_addressing r) as [a|].
  - destruct CA as (dp & sp & _ & HM). apply repr_matches_wf, normal_wf in HM.
    unfold data_set_addressing_fields. destruct (head_fc c0 c1 (seq_part r ++ a' ++ rest) _ H0 H1 HE) as (E1 & E2 & _).
    unfold head at 1 2 3. cbn [app]. rewrite E1. cbn [bind]. rewrite E2. cbn [bind]. cbv zeta. rewrite <- mhr_seq, <- (seq_part_length r C).
    change (c0 :: c1 :: seq_part r ++ a' ++ rest) with ((c0 :: c1 :: seq_part r) ++ a' ++ rest).
    destruct (slices_app (c0 :: c1 :: seq_part r) (a' ++ rest) (2 + length (seq_part r)) eq_refl) as [S1 S2].
    rewrite S1, S2. cbn [bind]. rewrite af_write_fields_ok by (try assumption; rewrite app_length; lia). cbn [bind].
    rewrite skipn_app, skipn_all2, <- HL, Nat.sub_diag by lia. reflexivity.
  - destruct a'; [reflexivity|discriminate].
Qed.

(** the offset behind the addressing fields *)
Lemma offset_ok r c0 c1 d : consistent r -> octet c0 -> octet c1 -> fc_encodes (c0 + 256 * c1) (f_control r) ->
  exists o, data_addressing (head c0 c1 r ++ addr_part r ++ d) = Done o /\
    (forall k, add_af_len o k = Done (k + length (addr_part r))) /\
    mhr_size (f_control r) + length (addr_part r) = length (head c0 c1 r ++ addr_part r).
Proof.
  intros C H0 H1 HE. assert (L := seq_part_length r C).
  destruct (addr_end r (head c0 c1 r ++ addr_part r ++ d) C) as (o & E & HA).
  - apply fc_is_cons; assumption.
  - rewrite !app_length. unfold head. cbn [length]. lia.
  - exists o. split; [exact E|]. split; [exact HA|]. rewrite app_length. unfold head. cbn [length]. lia.
Qed.

Lemma set_ies_eq r c0 c1 i cp d : consistent r -> octet c0 -> octet c1 -> fc_encodes (c0 + 256 * c1) (f_control r) ->
  data_set_ies i cp (head c0 c1 r ++ addr_part r ++ d) =
  let* d' := ies_emit i cp d in Done (head c0 c1 r ++ addr_part r ++ d').
Proof.
  intros C H0 H1 HE. destruct (offset_ok r c0 c1 d C H0 H1 HE) as (o & EA & HA & HO).
  unfold data_set_ies. destruct (head_fc c0 c1 (seq_part r ++ addr_part r ++ d) _ H0 H1 HE) as (E1 & E2 & _).
  change (head c0 c1 r ++ addr_part r ++ d) with (c0 :: c1 :: seq_part r ++ addr_part r ++ d) in *.
  rewrite E1. cbn [bind]. rewrite E2. cbn [bind]. rewrite EA. cbn [bind]. rewrite <- mhr_seq, HA. cbn [bind].
  change (c0 :: c1 :: seq_part r ++ addr_part r ++ d) with (head c0 c1 r ++ addr_part r ++ d).
  rewrite app_assoc. destruct (slices_app (head c0 c1 r ++ addr_part r) d _ HO) as [S1 S2]. rewrite S1, S2. cbn [bind].
  destruct (ies_emit i cp d); [|reflexivity]. cbn [bind]. rewrite <- app_assoc. reflexivity.
Qed.

(** [set_payload] behind the addressing fields: [d] is what follows them *)
Lemma set_payload_eq r c0 c1 p d : consistent r -> octet c0 -> octet c1 -> fc_encodes (c0 + 256 * c1) (f_control r) ->
  data_set_payload p (head c0 c1 r ++ addr_part r ++ d) =
  if fr_information_elements_present (f_control r) then
    let* i := ies_new d in let* i := unwrap (ok i) in let* n := ies_len i in
    let* hd := slice_to d n in let* tl := slice_from d n in
    if length tl =? length p then Done (head c0 c1 r ++ addr_part r ++ hd ++ p) else Panic
  else if length d =? length p then Done (head c0 c1 r ++ addr_part r ++ p) else Panic.
Proof.
  intros C H0 H1 HE. destruct (offset_ok r c0 c1 d C H0 H1 HE) as (o & EA & HA & HO).
  unfold data_set_payload. destruct (head_fc c0 c1 (seq_part r ++ addr_part r ++ d) _ H0 H1 HE) as (E1 & E2 & E3 & E4).
  assert (EI : data_ies (head c0 c1 r ++ addr_part r ++ d) =
     if fr_information_elements_present (f_control r) then let* i := ies_new d in Done (ok i) else Done None).
  { unfold data_ies. change (head c0 c1 r ++ addr_part r ++ d) with (c0 :: c1 :: seq_part r ++ addr_part r ++ d) in *.
    rewrite E1. cbn [bind]. rewrite E4. cbn [bind]. destruct (fr_information_elements_present (f_control r)); [|reflexivity].
    rewrite E2. cbn [bind]. rewrite EA. cbn [bind]. rewrite <- mhr_seq, HA. cbn [bind].
    change (c0 :: c1 :: seq_part r ++ addr_part r ++ d) with (head c0 c1 r ++ addr_part r ++ d).
    rewrite app_assoc. destruct (slices_app (head c0 c1 r ++ addr_part r) d _ HO) as [_ S2]. rewrite S2. reflexivity. }
  rewrite EI. clear EI.
  change (head c0 c1 r ++ addr_part r ++ d) with (c0 :: c1 :: seq_part r ++ addr_part r ++ d) in *.
  rewrite E1. cbn [bind]. rewrite E2. cbn [bind]. rewrite EA. cbn [bind]. rewrite <- mhr_seq, HA. cbn [bind].
  rewrite E3, (con_plain r C). cbn [bind]. rewrite E4. cbn [bind].
  change (c0 :: c1 :: seq_part r ++ addr_part r ++ d) with (head c0 c1 r ++ addr_part r ++ d).
  destruct (fr_information_elements_present (f_control r)).
  - destruct (ies_new d) as [i|]; [|reflexivity]. cbn [bind]. destruct (unwrap (ok i)) as [x|]; [|reflexivity]. cbn [bind].
    destruct (ies_len x) as [n|]; [|reflexivity]. cbn [bind]. rewrite HO, app_assoc.
    destruct (Nat.le_gt_cases n (length d)) as [L|L].
    + rewrite !slice_to_ok, !slice_from_ok by (rewrite ?app_length; lia). cbn [bind].
      rewrite firstn_app, skipn_app, firstn_all2, skipn_all2 by lia.
      replace (length (head c0 c1 r ++ addr_part r) + n - length (head c0 c1 r ++ addr_part r)) with n by lia. cbn [app].
      rewrite <- !app_assoc. reflexivity.
    + unfold slice_to, slice_from.
      destruct (Nat.leb_spec (length (head c0 c1 r ++ addr_part r) + n) (length ((head c0 c1 r ++ addr_part r) ++ d))) as [K|K]; [rewrite (app_length (head c0 c1 r ++ addr_part r) d) in K; lia|].
      destruct (Nat.leb_spec n (length d)); [lia|]. reflexivity.
  - cbn [bind]. rewrite app_assoc. destruct (slices_app (head c0 c1 r ++ addr_part r) d _ HO) as [S1 S2]. rewrite S1, S2. cbn [bind].
    rewrite <- app_assoc. reflexivity.
Qed.

(** the first two steps, then the rest; [d] is the area behind the addressing fields *)
Lemma emit_front r rest : consistent r -> 2 + length rest >= mhr_size (f_control r) + length (addr_part r) ->
  exists c0 c1, octet c0 /\ octet c1 /\ fc_encodes (c0 + 256 * c1) (f_control r) /\ bit 7 (c0 + 256 * c1) = false /\
   fcr_emit (f_control r) [0%N; 0%N] = Done [c0; c1] /\
   frame_emit r (0%N :: 0%N :: rest) =
   let d := skipn (length (seq_part r) + length (addr_part r)) rest in
   let* b := match f_ies r with Some i => data_set_ies i (has (f_payload r)) (head c0 c1 r ++ addr_part r ++ d)
             | None => Done (head c0 c1 r ++ addr_part r ++ d) end in
   match f_payload r with Some p => data_set_payload p b | None => Done b end.
Proof.
  intros C HL. destruct (fcr_emit_encodes (f_control r) [] (con_known r C)) as (c0 & c1 & O0 & O1 & EE & HE & HB).
  exists c0, c1. repeat (split; [assumption|]). cbv zeta.
  set (d := skipn _ rest). rewrite <- (seq_part_length r C) in HL.
  assert (ER : exists s a, length s = length (seq_part r) /\ length a = length (addr_part r) /\ rest = s ++ a ++ d).
  { exists (firstn (length (seq_part r)) rest), (firstn (length (addr_part r)) (skipn (length (seq_part r)) rest)).
    rewrite !firstn_length, skipn_length. split; [lia|]. split; [lia|]. unfold d. rewrite <- AddressingProofs.skipn_skipn', !firstn_skipn. reflexivity. }
  destruct ER as (s & a & Ls & La & ER). clearbody d. subst rest. clear HL.
  unfold frame_emit. rewrite (set_control_ok _ c0 c1 _ EE). cbn [bind].
  assert (ES : match f_sequence_number r with Some x => data_set_sequence_number x (c0 :: c1 :: s ++ a ++ d)
     | None => Done (c0 :: c1 :: s ++ a ++ d) end = Done (head c0 c1 r ++ a ++ d)).
  { unfold head, seq_part in *. destruct (f_sequence_number r) as [x|].
    - destruct s as [|y [|? ?]]; try discriminate. cbn [app]. apply set_seq_ok; assumption.
    - destruct s; [reflexivity|discriminate]. }
  rewrite ES. cbn [bind]. rewrite (set_addr_ok r c0 c1 a d C O0 O1 HE La). cbn [bind].
  unfold has. reflexivity.
Qed.

Lemma afr_buffer_len_ok r a : consistent r -> f_addressing r = Some a ->
  afr_buffer_len a (f_control r) = Done (length (addressing_octets a)).
Proof.
  intros C Ha. pose proof (con_addr r C) as CA. rewrite Ha in CA. destruct CA as (dp & sp & _ & HM & HD & HS).
  destruct HM as (da & sa & E1 & E2 & M1 & M2 & W1 & W2). destruct a as [p x q y]. cbn in E1, E2, HD, HS.
  injection E1 as <-. injection E2 as <-. unfold afr_buffer_len. rewrite <- M1, <- M2.
  unfold addressing_octets. rewrite !app_length. cbn [ar_dst_pan_id ar_dst_address ar_src_pan_id ar_src_address].
  assert (LP : forall o : option N, length (pan_octets o) = len_if_some o) by (intros [?|]; reflexivity).
  assert (LA : forall o, address_wf (normal_addr o) -> mode_len (mode_of_address (normal_addr o)) = Done (length (addr_octets o))).
  { intros [[|v|v]|]; cbn; try reflexivity; intros [L _]; rewrite rev_length, L; reflexivity. }
  rewrite !LA, !LP by assumption. cbn [bind]. f_equal. lia.
Qed.

Lemma buffer_len_ok r : consistent r ->
  frame_buffer_len r = Done (2 + length (seq_part r) + length (addr_part r) + length (ies_part r) + length (payload_part r)).
Proof.
  intros C. unfold frame_buffer_len, seq_part, addr_part, ies_part, payload_part.
  assert (E : match f_addressing r with
     | Some a => let* n := afr_buffer_len a (f_control r) in Done (match f_sequence_number r with Some _ => 2 + 1 | None => 2 end + n)
     | None => Done (match f_sequence_number r with Some _ => 2 + 1 | None => 2 end) end =
     Done (match f_sequence_number r with Some _ => 2 + 1 | None => 2 end + length (addr_part r))).
  { unfold addr_part. destruct (f_addressing r) as [a|] eqn:Ha; [rewrite (afr_buffer_len_ok r a C Ha); reflexivity|].
    cbn [length]. rewrite Nat.add_0_r. reflexivity. }
  cbv zeta. rewrite E. cbn [bind]. clear E. unfold addr_part, has. f_equal.
  destruct (f_sequence_number r), (f_ies r), (f_payload r); rewrite ?ies_octets_length; cbn [length]; lia.
Qed.

Lemma emit_ok r : consistent r -> emittable r ->
  exists n b, frame_buffer_len r = Done n /\ length b = n /\ frame_octets r b /\
    forall rest, 2 + length rest = n -> frame_emit r (0%N :: 0%N :: rest) = Done b.
Proof.
  intros C HM. eexists. destruct (fcr_emit_encodes (f_control r) [] (con_known r C)) as (c0 & c1 & O0 & O1 & EE & HE & HB).
  exists (c0 :: c1 :: seq_part r ++ addr_part r ++ ies_part r ++ payload_part r).
  split; [apply buffer_len_ok, C|]. split; [cbn [length]; rewrite !app_length; lia|].
  split; [exists c0, c1; auto|].
  intros rest HL. destruct (emit_front r rest C) as (c0' & c1' & _ & _ & _ & _ & EE' & E).
  { pose proof (seq_part_length r C). lia. }
  rewrite EE in EE'. injection EE' as <- <-. rewrite E. clear E EE. cbv zeta.
  set (d := skipn (length (seq_part r) + length (addr_part r)) rest).
  assert (LD : length d = length (ies_part r) + length (payload_part r)) by (unfold d; rewrite skipn_length; lia).
  change (c0 :: c1 :: seq_part r ++ addr_part r ++ ies_part r ++ payload_part r)
    with (head c0 c1 r ++ addr_part r ++ ies_part r ++ payload_part r).
  pose proof (con_ies r C) as CI. unfold ies_part, payload_part, emittable in *. destruct (f_ies r) as [i|].
  - destruct HM as [HP HT]. rewrite HP in *. destruct CI as [_ TI]. rewrite set_ies_eq by assumption.
    cbn [has length] in *. rewrite (ies_emit_ok i false d TI HT); [|apply andb_false_r|rewrite <- ies_octets_length; lia].
    cbn [bind]. rewrite app_nil_r. reflexivity.
  - cbn [bind app length] in *. destruct (f_payload r) as [p|].
    + rewrite set_payload_eq by assumption. rewrite CI, LD. cbn [Nat.add]. rewrite Nat.eqb_refl. reflexivity.
    + destruct d; [reflexivity|discriminate].
Qed.

(** ** Reading emitted frames *)
Lemma addr_view_len r b o n : consistent r -> fc_is b (f_control r) -> mhr_size (f_control r) + length (addr_part r) <= length b ->
  data_addressing b = Done o -> af_view (f_control r) b o n -> (forall k, add_af_len o k = Done (k + n)) -> n = length (addr_part r).
Proof.
  intros C HF HL E HV HA. destruct (addr_end r b C HF HL) as (o' & E' & HA'). rewrite E in E'. injection E' as <-.
  specialize (HA 0). specialize (HA' 0). rewrite HA in HA'. injection HA' as ->. reflexivity.
Qed.

(** the header lists in [r] read back: the inserted HT1 is read as an element *)
Definition read_back (i : IesRepr) : IesRepr := mkIes (firstn 16 (ir_header i ++ header_end i false)) (ir_payload i).

Lemma add_len_view r b o n : fc_is b r -> af_view r b o n -> forall k, add_af_len o k = Done (k + n).
Proof.
  intros HF [[HN ->]|(_ & -> & ->)] k; cbn [add_af_len].
  - destruct (af_at_fits r b n HF HN) as [_ ->]. reflexivity.
  - rewrite Nat.add_0_r. reflexivity.
Qed.

Lemma parse_emitted r b : consistent r -> emittable r -> (forall i, f_ies r = Some i -> ies_exact i) ->
  frame_octets r b -> length b <= 127 ->
  data_new b = Done (Ok b) /\
  exists a, fields_of a = fields_of (f_addressing r) /\
    frame_parse b = Done (Ok (mkFrame (f_control r) (f_sequence_number r) a (option_map read_back (f_ies r))
                      (match payload_part r with [] => None | p => Some p end))).
Proof.
  intros C HM HX (c0 & c1 & O0 & O1 & HE & _ & EB) H127.
  assert (HF : fc_is b (f_control r)) by (rewrite EB; apply fc_is_cons; assumption).
  assert (LS := seq_part_length r C).
  assert (LB : length b = 2 + length (seq_part r) + length (addr_part r) + length (ies_part r) + length (payload_part r)).
  { rewrite EB. cbn [length]. rewrite !app_length. lia. }
  assert (AC : acceptable b (f_control r)).
  { split; [exact HF|]. split; [lia|]. split; [apply (con_plain r C)|apply (con_known r C)]. }
  split; [exact (data_new_accepts b _ AC)|].
  destruct (data_accessors b _ AC) as (E1 & E2 & _ & o & n & i & m & EA & VA & EI & VI & HL & EP).
  pose proof (add_len_view _ _ _ _ HF VA) as HK.
  assert (Hn : n = length (addr_part r)) by (apply (addr_view_len r b o n C HF); [lia|assumption..]).
  assert (ED : skipn (mhr_size (f_control r)) b = addr_part r ++ ies_part r ++ payload_part r).
  { rewrite EB, <- LS. change (c0 :: c1 :: seq_part r ++ addr_part r ++ ies_part r ++ payload_part r) with
      ((c0 :: c1 :: seq_part r) ++ addr_part r ++ ies_part r ++ payload_part r).
    rewrite skipn_app, skipn_all2, Nat.sub_diag by (cbn [length]; lia). reflexivity. }
  assert (ED2 : skipn (mhr_size (f_control r) + n) b = ies_part r ++ payload_part r).
  { rewrite <- AddressingProofs.skipn_skipn', ED, Hn, skipn_app, skipn_all, Nat.sub_diag. reflexivity. }
  assert (PA : exists a, fields_of a = fields_of (f_addressing r) /\
     match o with Some af => some (afr_parse af) | None => Done None end = Done a).
  { pose proof (con_addr r C) as CA. unfold addr_part in *. destruct (f_addressing r) as [a|].
    - destruct CA as (dp & sp & HLay & HMt).
      destruct VA as [[(dp' & sp' & HL' & Hn' & HLL) ->]|(HNo & Hn0 & _)].
      + destruct (c07_unique _ _ _ _ _ HLay HL') as [<- <-].
        destruct (c09_roundtrip (firstn 2 b) (f_control r) (normal a) (skipn (mhr_size (f_control r)) b) dp sp) as (L1 & _ & L3).
        { apply fc_is_firstn, HF. } { exact HLay. } { exact HMt. } { rewrite skipn_length. lia. }
        rewrite addressing_octets_normal in *.
        exists (Some (normal a)). split; [reflexivity|]. unfold some.
        replace (skipn (mhr_size (f_control r)) b) with
          (addressing_octets a ++ skipn (layout_size (f_control r) dp sp) (skipn (mhr_size (f_control r)) b)).
        { rewrite L3. reflexivity. }
        rewrite ED, <- L1, skipn_app, skipn_all, Nat.sub_diag. reflexivity.
      + exfalso. specialize (HNo dp sp HLay).
        assert (LA : length (addressing_octets a) = layout_size (f_control r) dp sp).
        { destruct (c09_roundtrip (firstn 2 b) (f_control r) (normal a) (repeat 0%N 100) dp sp) as (L & _).
          - apply fc_is_firstn, HF. - exact HLay. - exact HMt.
          - rewrite repeat_length. unfold layout_size. destruct dp, sp, (fr_dst_addressing_mode (f_control r)), (fr_src_addressing_mode (f_control r)); cbn [pan_size addr_size]; lia.
          - rewrite addressing_octets_normal in L. exact L. }
        lia.
    - destruct VA as [[(dp' & sp' & HL' & Hn' & HLL) ->]|(HNo & Hn0 & ->)]; [|exists None; auto].
      assert (HZ := CA _ _ HL').
      destruct (c08_accepted (firstn 2 b) (f_control r) (skipn (mhr_size (f_control r)) b) dp' sp' (fc_is_firstn _ _ HF) HL') as (_ & _ & G1 & G2 & G3 & G4).
      { lia. }
      unfold some, afr_parse. rewrite G1, G2, G3, G4. cbn [bind]. eexists. split; [|reflexivity].
      unfold layout_size in HZ. destruct dp', sp'; cbn [pan_size] in HZ; try lia.
      destruct (fr_dst_addressing_mode (f_control r)); cbn [addr_size] in HZ; try lia;
      destruct (fr_src_addressing_mode (f_control r)); cbn [addr_size] in HZ; try lia; reflexivity. }
  destruct PA as (a & FA & PA). exists a. split; [exact FA|].
  assert (PI : exists j, i = j /\ parse_ies j = Done (Ok (option_map read_back (f_ies r))) /\ m = length (ies_part r)).
  { rewrite ED2 in VI. pose proof (con_ies r C) as CI. unfold ies_part, payload_part, emittable in *. destruct (f_ies r) as [x|].
    - destruct CI as [CF CT]. destruct HM as [HP _]. rewrite HP in *. cbn [has] in *. rewrite app_nil_r in VI.
      destruct (ies_roundtrip x CT (HX x eq_refl)) as (R1 & R2 & R3).
      destruct VI as [(_ & HFit & ->)|([K|K] & _ & _)].
      + eexists. split; [reflexivity|]. split.
        * unfold parse_ies. rewrite R3. reflexivity.
        * destruct (ies_fit_new _ _ HFit) as [_ EL]. rewrite EL in R2. injection R2 as ->. reflexivity.
      + congruence.
      + exfalso. destruct (ies_cases (ies_octets x false)) as [(q & Hq & _)|[KE _]]; [apply K; eauto|]. rewrite R1 in KE. discriminate.
    - destruct VI as [(K & _)|(_ & -> & ->)]; [congruence|]. exists None. auto. }
  destruct PI as (j & -> & PJ & ->).
  unfold frame_parse. rewrite E1. cbn [bind]. 
  assert (FP : fcr_parse (firstn 2 b) = Done (Ok (f_control r))).
  { assert (HF2 := fc_is_firstn _ _ HF). getters HF2. unfold fcr_parse. rewrite Gt, Gs, Gp, Ga, Gc, Gn, Gi, Gd, Gsrc, Gv. cbn [bind].
    destruct (f_control r); reflexivity. }
  unfold try at 1. rewrite FP. cbn [bind]. rewrite EA. cbn [bind]. rewrite PA. cbn [bind]. rewrite EI. cbn [bind].
  unfold try. rewrite PJ. cbn [bind]. rewrite E2. cbn [bind]. rewrite EP. cbn [bind]. do 3 f_equal.
  - unfold seq_octets. pose proof (con_seq r C) as CS. rewrite EB. unfold seq_part. destruct (f_sequence_number r).
    + destruct CS as [_ ->]. reflexivity.
    + rewrite CS. reflexivity.
  - assert (EP2 : skipn (mhr_size (f_control r) + n + length (ies_part r)) b = payload_part r).
    { rewrite <- AddressingProofs.skipn_skipn', ED2, skipn_app, skipn_all, Nat.sub_diag. reflexivity. }
    rewrite EP2. destruct (Nat.eqb_spec (length b) (mhr_size (f_control r) + n + length (ies_part r))) as [K|K].
    + destruct (payload_part r); [reflexivity|]. cbn [length] in LB. lia.
    + destruct (payload_part r); [|reflexivity]. cbn [length] in LB. lia.
Qed.

(** ** Frames that cannot be emitted *)
Lemma walk_to_ht2 hs t : Forall not_termination hs ->
  exists es, walk code_header_size std_header_stop (concat (map header_octets hs) ++ header_octets HTermination2 ++ t) es
    (length (concat (map header_octets hs)) + 130).
Proof.
  intros H. eexists. apply walk_concat.
  - intros x rest Hx. apply header_walk_elem. rewrite Forall_forall in H. apply H, Hx.
  - apply (walk_last code_header_size std_header_stop (header_octets HTermination2 ++ t)); [cbn; lia|]. left. reflexivity.
Qed.

Lemma emit_panics r rest i n : consistent r -> f_ies r = Some i -> frame_buffer_len r = Done n -> 2 + length rest = n ->
  Forall not_termination (ir_header i) ->
  In PTermination (ir_payload i) \/ (f_payload r <> None /\ (ir_header i <> [] \/ ir_payload i <> [])) ->
  frame_emit r (0%N :: 0%N :: rest) = Panic.
Proof.
  intros C Hi Hn HL HH HB. rewrite (buffer_len_ok r C) in Hn. injection Hn as <-.
  destruct (emit_front r rest C) as (c0 & c1 & O0 & O1 & HE & _ & _ & E).
  { pose proof (seq_part_length r C). lia. }
  rewrite E. clear E. cbv zeta. rewrite Hi, set_ies_eq by assumption.
  set (d := skipn (length (seq_part r) + length (addr_part r)) rest).
  assert (LD : length d = length (ies_part r) + length (payload_part r)) by (unfold d; rewrite skipn_length; lia).
  clearbody d. clear HL rest.
  destruct (some_in (ir_payload i) && has (f_payload r)) eqn:EPT; [rewrite ies_emit_panic by auto; reflexivity|].
  destruct HB as [HT|[HP HN]]; [rewrite ies_emit_panic by auto; reflexivity|].
  destruct (f_payload r) as [p|] eqn:EP; [|congruence]. cbn [has] in *. rewrite andb_true_r in EPT.
  assert (PN : ir_payload i = []) by (destruct (ir_payload i); [reflexivity|discriminate]).
  assert (HN' : ir_header i <> []) by (destruct HN; [assumption|congruence]). clear HN HP.
  pose proof (con_ies r C) as CI. rewrite Hi in CI. destruct CI as [CF CT].
  unfold ies_part, payload_part in LD. rewrite Hi, EP in LD. cbn [has] in LD. rewrite ies_octets_length in LD.
  rewrite ies_emit_prefix; [|exact CT|rewrite PN; auto|rewrite PN; reflexivity|lia]. cbn [bind].
  rewrite set_payload_eq by assumption. rewrite CF.
  set (t := skipn (ies_buffer_len i true) d).
  assert (LT : length t = length p) by (unfold t; rewrite skipn_length; lia).
  assert (EO : ies_octets i true = concat (map header_octets (ir_header i)) ++ header_octets HTermination2).
  { unfold ies_octets, header_end, payload_end. rewrite PN.
    replace (some_in (ir_header i)) with true by (destruct (ir_header i); [congruence|reflexivity]).
    cbn [some_in andb]. rewrite map_app, concat_app. cbn [map concat app]. rewrite !app_nil_r. reflexivity. }
  rewrite EO, <- app_assoc. set (D := concat (map header_octets (ir_header i)) ++ header_octets HTermination2 ++ t).
  destruct (walk_to_ht2 (ir_header i) t HH) as (es & W). fold D in W.
  destruct (ies_cases D) as [(m & (hs & hn & ps & pn & W1 & _ & -> & HLm) & _ & EN & EL)|[EN _]]; rewrite EN; cbn [bind ok unwrap]; [|reflexivity].
  rewrite EL. cbn [bind]. destruct (walk_fun _ _ _ _ _ W _ _ W1) as [_ <-].
  rewrite slice_to_ok, slice_from_ok by lia. cbn [bind]. rewrite skipn_length.
  assert (LDD : length D = length (concat (map header_octets (ir_header i))) + 2 + length p).
  { unfold D. rewrite !app_length, LT. cbn [length header_octets le]. change (length (header_octets HTermination2)) with 2. lia. }
  match goal with |- (if ?x =? ?y then _ else _) = _ => destruct (Nat.eqb_spec x y); [lia|reflexivity] end.
Qed.
