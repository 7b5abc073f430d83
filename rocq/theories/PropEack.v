(** PropEack.v -- C15, C62: every enhanced acknowledgement, those with a reserved addressing mode included. *)
From Verif Require Import Base BaseProofs Spec SpecFrame FrameControl FrameControlProofs Addressing SpecAddressing AddressingProofs AddressingProofs2 AuxSec PropAuxSec Ie IeContent SpecIe IeProofs
  SpecIeContent SpecFrames Frames FramesProofs PropAddressing PropIe PropFrames SpecParse AddressText SpecAddressText AddressTextProofs Cat SpecCat CatProofs PropCat.

(** The addressing fields are taken as present although one mode is reserved: the other one is "none", the version is
    that of 2020, and the PAN ID that is there without compression is not missing. *)
Definition reserved_addressing (r : FrameControlRepr) (b : list N) : Prop :=
  fr_frame_version r = V2020 /\
  (fr_dst_addressing_mode r = AmUnknown /\ fr_src_addressing_mode r = AmAbsent \/
   fr_dst_addressing_mode r = AmAbsent /\ fr_src_addressing_mode r = AmUnknown) /\
  (fr_pan_id_compression r = true \/ mhr_size r + 2 <= length b).

Lemma reserved_some b r : fc_is b r -> mhr_size r <= length b -> reserved_addressing r b -> exists af, ea_addressing b = Done (Some af).
Proof.
  intros HF HL (HV & HM & HC). rewrite (ea_addressing_eq b r HF), (data_addressing_eq b r HF HL). getters (fc_is_firstn _ _ HF).
  unfold af_new, af_check_len, af_flags. cbn [af_fc af_buffer]. rewrite Gv, Gd, Gsrc, Gc. cbn [bind]. rewrite HV.
  destruct HM as [[-> ->]|[-> ->]], (fr_pan_id_compression r) eqn:EC; cbn [address_present_flags two_if AddressingMode_size Nat.add bind ok]; try (eexists; reflexivity);
    (destruct HC as [HC|HC]; [congruence|]);
    (match goal with |- context [if ?x then _ else _] => replace x with true by (symmetry; apply Nat.leb_le; rewrite skipn_length; lia) end); cbn [ok]; eexists; reflexivity.
Qed.
Lemma data_addressing_view_any b r : fc_is b r -> mhr_size r <= length b -> ~ reserved_addressing r b ->
  exists o n, data_addressing b = Done o /\ af_view r b o n /\
    (forall k, add_af_len o k = Done (k + n)) /\ mhr_size r + n <= length b.
Proof.
  intros HF HL HNR.
  assert (D : forall m, {m = AmUnknown} + {m <> AmUnknown}) by (intros []; (left; reflexivity) || (right; discriminate)).
  assert (U : fr_dst_addressing_mode r = AmUnknown \/ fr_src_addressing_mode r = AmUnknown ->
    exists o n, data_addressing b = Done o /\ af_view r b o n /\ (forall k, add_af_len o k = Done (k + n)) /\ mhr_size r + n <= length b).
  { intros HU. exists None, 0. split; [|split; [right; split; [|auto]|split; [intros k; rewrite Nat.add_0_r; reflexivity|lia]]].
    - rewrite (data_addressing_eq b r HF HL). getters (fc_is_firstn _ _ HF). unfold reserved_addressing in HNR.
      unfold af_new, af_check_len, af_flags. cbn [af_fc af_buffer]. rewrite Gv, Gd, Gsrc, Gc. cbn [bind].
      destruct (fr_frame_version r) eqn:EV; destruct (fr_dst_addressing_mode r) eqn:ED, (fr_src_addressing_mode r) eqn:ES, (fr_pan_id_compression r) eqn:EC;
        try (destruct HU; discriminate); cbn [address_present_flags bind ok]; try reflexivity; cbn [two_if AddressingMode_size Nat.add];
        try (exfalso; apply HNR; split; [reflexivity|]; split; [auto|left; reflexivity]);
        (match goal with |- context [if ?x then _ else _] => destruct x eqn:EL end); cbn [ok bind]; try reflexivity;
        exfalso; apply HNR; (split; [reflexivity|]); (split; [auto|right]); apply Nat.leb_le in EL; rewrite skipn_length in EL; clear - EL HL; lia.
    - intros dp sp (K1 & K2 & _). destruct HU; contradiction. }
  destruct (D (fr_dst_addressing_mode r)) as [E|Hd]; [apply U; auto|]. destruct (D (fr_src_addressing_mode r)) as [E|Hs]; [apply U; auto|].
  exact (data_addressing_view b r HF HL Hd Hs).
Qed.
Lemma ea_accessors_any b r n k m :
  fc_is b r -> mhr_size r <= length b ->
  ~ reserved_addressing r b ->
  (addressing_fits r b n \/ (no_addressing r b /\ n = 0)) ->
  (if fr_security_enabled r then aux_len (skipn (mhr_size r + n) b) = Done k else k = 0) ->
  mhr_size r + n + k <= length b ->
  (if fr_information_elements_present r then ies_fit (skipn (mhr_size r + n + k) b) m else m = 0) ->
  mhr_size r + n + k + m <= length b ->
  (exists o, ea_addressing b = Done o /\ af_view r b o n) /\
  ea_aux b = Done (if fr_security_enabled r then Some (skipn (mhr_size r + n) b) else None) /\
  ea_ies b = Done (if fr_information_elements_present r then Some (skipn (mhr_size r + n + k) b) else None) /\
  ea_payload b = Done (Some (skipn (mhr_size r + n + k + m) b)).
Proof.
  intros HF HL HNR HA HX HK HI HM. getters (fc_is_firstn _ _ HF).
  destruct (data_addressing_view_any b r HF HL HNR) as (o & n' & EA & VA & KA & LA).
  assert (n' = n) as ->.
  { destruct VA as [[H _]|(H & -> & _)], HA as [H'|[H' ->]]; try reflexivity.
    - destruct H as (dp & sp & P & -> & _), H' as (dp' & sp' & P' & -> & _).
      destruct (c07_unique _ _ _ _ _ P P') as [<- <-]. reflexivity.
    - destruct H as (dp & sp & P & -> & Q). specialize (H' dp sp P). lia.
    - destruct H' as (dp & sp & P & -> & Q). specialize (H dp sp P). lia. }
  assert (EA' := ea_addressing_eq b r HF). rewrite EA in EA'.
  split; [exists o; auto|].
  assert (EX : ea_aux b = Done (if fr_security_enabled r then Some (skipn (mhr_size r + n) b) else None)).
  { unfold ea_aux. rewrite (ea_fc_ok b r HF). cbn [bind]. rewrite Gn. cbn [bind]. rewrite EA'. cbn [bind].
    rewrite <- mhr_seq, KA. cbn [bind]. rewrite Gs. cbn [bind]. destruct (fr_security_enabled r); [|reflexivity].
    rewrite slice_from_ok by lia. reflexivity. }
  split; [exact EX|].
  assert (EO : (if fr_security_enabled r then
      let* a := ea_aux b in
      match a with Some a => let* q := aux_len a in Done (mhr_size r + n + q) | None => Done (mhr_size r + n) end
    else Done (mhr_size r + n)) = Done (mhr_size r + n + k)).
  { rewrite EX. destruct (fr_security_enabled r); cbn [bind].
    - rewrite HX. reflexivity.
    - subst k. f_equal. lia. }
  assert (EI : ea_ies b = Done (if fr_information_elements_present r then Some (skipn (mhr_size r + n + k) b) else None)).
  { unfold ea_ies. rewrite (ea_fc_ok b r HF). cbn [bind]. rewrite Gn. cbn [bind]. rewrite EA'. cbn [bind].
    rewrite <- mhr_seq, KA. cbn [bind]. rewrite Gs. cbn [bind]. rewrite EO. cbn [bind]. rewrite Gi. cbn [bind].
    destruct (fr_information_elements_present r); [|reflexivity].
    rewrite slice_from_ok by lia. cbn [bind]. destruct (ies_fit_new _ _ HI) as [E _]. rewrite E. reflexivity. }
  split; [exact EI|].
  unfold ea_payload. rewrite (ea_fc_ok b r HF). cbn [bind]. rewrite Gn. cbn [bind]. rewrite EA'. cbn [bind].
  rewrite <- mhr_seq, KA. cbn [bind]. rewrite Gs. cbn [bind]. rewrite EO. cbn [bind]. rewrite Gi. cbn [bind].
  rewrite EI. destruct (fr_information_elements_present r); cbn [bind].
  - destruct (ies_fit_new _ _ HI) as [_ E]. rewrite E. cbn [bind]. rewrite slice_from_ok by lia. reflexivity.
  - subst m. rewrite slice_from_ok by lia. cbn [bind]. do 2 f_equal. f_equal. lia.
Qed.

(** ** C15: with a header that is too short or reserved addressing, the last three accessors panic *)
Theorem C15_all_header_panics : forall b r, fc_is b r -> length b < mhr_size r \/ reserved_addressing r b ->
  ea_aux b = Panic /\ ea_ies b = Panic /\ ea_payload b = Panic.
Proof.
  intros b r HF H. destruct (Nat.lt_ge_cases (length b) (mhr_size r)) as [L|L].
  - destruct (C15_header_panics_iff b r HF) as (_ & _ & _ & K). exact (K L).
  - destruct H as [H|H]; [lia|]. destruct (reserved_some b r HF L H) as (af & HA). apply (C15_reserved_mode_panics b r af HF); [|exact HA].
    destruct H as (_ & [[H _]|[_ H]] & _); auto.
Qed.
Print Assumptions C15_all_header_panics.
(** and all other buffers: exactly when they panic, whatever the addressing modes *)
Theorem C15_all_panics_iff : forall b r n, octets b -> fc_is b r -> mhr_size r <= length b ->
  ~ reserved_addressing r b ->
  addressing_fits r b n \/ (no_addressing r b /\ n = 0) ->
  ea_aux b <> Panic /\
  (ea_ies b = Panic <-> eack_no_control_octet r b n \/
     exists k, eack_security_octets r b n k /\ fr_information_elements_present r = true /\
       (length b < mhr_size r + n + k \/ eack_ies_undecodable r b (mhr_size r + n + k))) /\
  (ea_payload b = Panic <-> eack_no_control_octet r b n \/
     exists k, eack_security_octets r b n k /\
       (length b < mhr_size r + n + k \/ eack_ies_undecodable r b (mhr_size r + n + k))).
Proof.
  intros b r n HO HF HL HNR HA. getters (fc_is_firstn _ _ HF).
  destruct (data_addressing_view_any b r HF HL HNR) as (o & n' & EA & VA & KA & LA).
  assert (n' = n) as ->.
  { destruct VA as [[H _]|(H & -> & _)], HA as [H'|[H' ->]]; try reflexivity.
    - destruct H as (dp & sp & P & -> & _), H' as (dp' & sp' & P' & -> & _).
      destruct (c07_unique _ _ _ _ _ P P') as [<- <-]. reflexivity.
    - destruct H as (dp & sp & P & -> & Q). specialize (H' dp sp P). lia.
    - destruct H' as (dp & sp & P & -> & Q). specialize (H dp sp P). lia. }
  assert (EA' := ea_addressing_eq b r HF). rewrite EA in EA'. clear EA VA HA.
  assert (EX : ea_aux b = Done (if fr_security_enabled r then Some (skipn (mhr_size r + n) b) else None)).
  { unfold ea_aux. rewrite (ea_fc_ok b r HF). cbn [bind]. rewrite Gn. cbn [bind]. rewrite EA'. cbn [bind].
    rewrite <- mhr_seq, KA. cbn [bind]. rewrite Gs. cbn [bind]. destruct (fr_security_enabled r); [|reflexivity].
    rewrite slice_from_ok by lia. reflexivity. }
  split; [rewrite EX; discriminate|].
  set (OFF := if fr_security_enabled r then
      let* a := ea_aux b in
      match a with Some a => let* q := aux_len a in Done (mhr_size r + n + q) | None => Done (mhr_size r + n) end
    else Done (mhr_size r + n)).
  assert (FI : ea_ies b = let* off := OFF in if fr_information_elements_present r then
      let* rest := slice_from b off in let* x := ies_new rest in let* i := unwrap (ok x) in Done (Some i) else Done None).
  { unfold ea_ies, OFF. rewrite (ea_fc_ok b r HF). cbn [bind]. rewrite Gn. cbn [bind]. rewrite EA'. cbn [bind].
    rewrite <- mhr_seq, KA. cbn [bind]. rewrite Gs. cbn [bind]. rewrite Gi. destruct (fr_security_enabled r); cbn [bind]; [|reflexivity].
    destruct (ea_aux b) as [[a|]|]; cbn [bind]; reflexivity. }
  assert (FP : ea_payload b = let* off := OFF in let* off := (if fr_information_elements_present r then
      let* i := ea_ies b in match i with Some i => let* q := ies_len i in Done (off + q) | None => Done off end else Done off) in
      let* rest := slice_from b off in Done (Some rest)).
  { unfold ea_payload, OFF. rewrite (ea_fc_ok b r HF). cbn [bind]. rewrite Gn. cbn [bind]. rewrite EA'. cbn [bind].
    rewrite <- mhr_seq, KA. cbn [bind]. rewrite Gs. cbn [bind]. rewrite Gi. destruct (fr_security_enabled r); cbn [bind]; [|reflexivity].
    destruct (ea_aux b) as [[a|]|]; cbn [bind]; reflexivity. }
  assert (CASES : (eack_no_control_octet r b n /\ OFF = Panic) \/
    exists k, eack_security_octets r b n k /\ OFF = Done (mhr_size r + n + k) /\ ~ eack_no_control_octet r b n /\
      forall k', eack_security_octets r b n k' -> k' = k).
  { unfold OFF, eack_no_control_octet, eack_security_octets. rewrite EX. destruct (fr_security_enabled r); cbn [bind].
    - destruct (skipn (mhr_size r + n) b) as [|c rest] eqn:ES.
      + left. split; [|reflexivity]. split; [reflexivity|]. apply (f_equal (@length _)) in ES. rewrite skipn_length in ES. cbn in ES. lia.
      + right. assert (Hc : octet c).
        { apply (proj1 (Forall_forall _ _) HO). rewrite <- (firstn_skipn (mhr_size r + n) b), ES. apply in_or_app. right. left. reflexivity. }
        destruct (C10_fields_partial c rest Hc) as (enc & mic & HT & _ & _ & _ & _ & _ & _ & _ & _ & EL).
        exists (1 + mic). rewrite EL. cbn [bind]. split; [exists c, rest, enc, mic; auto|]. split; [reflexivity|]. split.
        * intros [_ Q]. apply (f_equal (@length _)) in ES. rewrite skipn_length in ES. cbn in ES. lia.
        * intros k' (c' & rest' & enc' & mic' & Q & HT' & ->). injection Q as <- <-. congruence.
    - right. exists 0. rewrite Nat.add_0_r. split; [reflexivity|]. split; [reflexivity|]. split; [intros [Q _]; discriminate Q|auto]. }
  clearbody OFF. destruct CASES as [[HN E]|(k & HK & E & HN & UK)].
  { rewrite FP, FI, E. cbn [bind]. split; split; intros _; auto. }
  assert (RI : (fr_information_elements_present r = true /\ (length b < mhr_size r + n + k \/ eack_ies_undecodable r b (mhr_size r + n + k)) /\ ea_ies b = Panic) \/
     (~ (fr_information_elements_present r = true /\ (length b < mhr_size r + n + k \/ eack_ies_undecodable r b (mhr_size r + n + k))) /\
      ea_ies b <> Panic)).
  { rewrite FI, E. cbn [bind]. unfold eack_ies_undecodable. destruct (fr_information_elements_present r).
    2:{ right. split; [intros [Q _]; discriminate Q|discriminate]. }
    destruct (Nat.lt_ge_cases (length b) (mhr_size r + n + k)) as [L|L].
    - left. split; [reflexivity|]. split; [left; exact L|]. unfold slice_from. destruct (Nat.leb_spec (mhr_size r + n + k) (length b)); [lia|reflexivity].
    - rewrite slice_from_ok by lia. cbn [bind]. destruct (ies_cases (skipn (mhr_size r + n + k) b)) as [(m & HM & _ & EM & _)|[EM HM]]; rewrite EM; cbn [bind ok unwrap].
      + right. split; [|discriminate]. intros [_ [Q|[_ Q]]]; [lia|apply Q; eauto].
      + left. auto. }
  assert (RP : ea_payload b = Panic <-> length b < mhr_size r + n + k \/ eack_ies_undecodable r b (mhr_size r + n + k)).
  { rewrite FP, E. cbn [bind]. unfold eack_ies_undecodable in *. destruct (fr_information_elements_present r).
    2:{ cbn [bind]. unfold slice_from. destruct (Nat.leb_spec (mhr_size r + n + k) (length b)) as [L|L]; cbn [bind].
        - split; [discriminate|]. intros [Q|[Q _]]; [lia|discriminate Q].
        - split; [intros _; left; exact L|reflexivity]. }
    destruct RI as [(_ & Q & EI)|(Q & EI)].
    { rewrite EI. cbn [bind]. split; auto. }
    rewrite FI, E in *. cbn [bind] in *.
    assert (L : mhr_size r + n + k <= length b) by (apply Nat.nlt_ge; intros L; apply Q; auto).
    rewrite slice_from_ok in * by lia. cbn [bind] in *.
    destruct (ies_cases (skipn (mhr_size r + n + k) b)) as [(m & HM & LM & EM & EL)|[EM HM]]; rewrite EM in *; cbn [bind ok unwrap] in *; [|congruence].
    rewrite EL. cbn [bind]. rewrite skipn_length in LM. rewrite slice_from_ok by lia. cbn [bind]. split; [discriminate|].
    intros Z. exfalso. apply Q. auto. }
  split.
  - destruct RI as [(F & Q & EI)|(Q & EI)].
    + rewrite EI. split; [intros _; right; exists k; auto|auto].
    + split; [intros Z; congruence|]. intros [Z|(k' & HK' & F & Z)]; [contradiction|]. rewrite (UK k' HK') in Z. exfalso. apply Q. auto.
  - rewrite RP. split; [intros Z; right; exists k; auto|]. intros [Z|(k' & HK' & Z)]; [contradiction|]. rewrite (UK k' HK') in Z. exact Z.
Qed.
Print Assumptions C15_all_panics_iff.

(** ** C62 *)
Theorem C62_enhanced_ack_header : forall b r, frame_new b = Done (Ok (FEnhancedAck b)) -> fc_is b r ->
  length b < mhr_size r \/ reserved_addressing r b -> cat_parse b = Panic.
Proof.
  intros b r HN HF H. apply (C62_enhanced_ack_unreadable b r HN HF). right. right. apply (C15_all_header_panics b r HF H).
Qed.
Print Assumptions C62_enhanced_ack_header.
Theorem C62_enhanced_ack_output : forall b r n, octets b -> frame_new b = Done (Ok (FEnhancedAck b)) -> fc_is b r ->
  mhr_size r <= length b -> ~ reserved_addressing r b ->
  addressing_fits r b n \/ no_addressing r b /\ n = 0 ->
  (forall L, cat_parse b = Done L <-> eack_shown r b L) /\
  (cat_parse b = Panic <-> eack_no_control_octet r b n \/ exists k, eack_security_octets r b n k /\
     (length b < mhr_size r + n + k \/ eack_ies_undecodable r b (mhr_size r + n + k) \/
      fr_information_elements_present r = true /\ bad_ies (skipn (mhr_size r + n + k) b))).
Proof.
  intros b r n HO HN HF HL HNR HA.
  destruct (C15_all_panics_iff b r n HO HF HL HNR HA) as (_ & _ & HP).
  assert (LA : mhr_size r + n <= length b).
  { destruct HA as [(dp & sp & _ & _ & H)|[_ ->]]; [exact H|lia]. }
  assert (AN : forall n' A, addr_shown r b n' A -> n' = n).
  { intros n' A [(dp & sp & H1 & H2 & H3 & _)|(H1 & H2 & _)]; destruct HA as [(dp' & sp' & K1 & K2 & K3)|[K1 K2]].
    - destruct (c07_unique _ _ _ _ _ H1 K1) as [<- <-]. congruence.
    - specialize (K1 _ _ H1). lia.
    - specialize (H1 _ _ K1). lia.
    - congruence. }
  assert (EXK : eack_no_control_octet r b n \/ exists k, eack_security_octets r b n k /\
      (if fr_security_enabled r then aux_len (skipn (mhr_size r + n) b) = Done k else k = 0)).
  { unfold eack_no_control_octet, eack_security_octets. destruct (fr_security_enabled r); [|right; exists 0; auto].
    destruct (skipn (mhr_size r + n) b) as [|c rest] eqn:ES.
    - left. split; [reflexivity|]. apply (f_equal (@length _)) in ES. rewrite skipn_length in ES. cbn in ES. lia.
    - right. assert (Hc : octet c).
      { apply (proj1 (Forall_forall _ _) HO). rewrite <- (firstn_skipn (mhr_size r + n) b), ES. apply in_or_app. right. left. reflexivity. }
      destruct (C10_fields_partial c rest Hc) as (enc & mic & HT & _ & _ & _ & _ & _ & _ & _ & _ & EL).
      exists (1 + mic). split; [exists c, rest, enc, mic; auto|exact EL]. }
  assert (NC : eack_no_control_octet r b n -> forall L, ~ eack_shown r b L).
  { intros [E1 E2] L (n' & k & A & m & I & SA & SK & _). rewrite (AN _ _ SA) in SK. unfold eack_security_octets in SK. rewrite E1 in SK.
    destruct SK as (c & rest & _ & _ & SK & _). apply (f_equal (@length _)) in SK. rewrite skipn_length in SK. cbn in SK. lia. }
  destruct EXK as [EN|(k & HK & HX)].
  { assert (P : cat_parse b = Panic).
    { apply (C62_enhanced_ack_unreadable b r HN HF). right. right. apply HP. left. exact EN. }
    split; [|split; auto]. intros L. split; [congruence|]. intros S. destruct (NC EN L S). }
  assert (FITD : {fr_information_elements_present r = false} + {fr_information_elements_present r = true}) by (destruct (fr_information_elements_present r); auto).
  assert (GOOD : (length b < mhr_size r + n + k \/ eack_ies_undecodable r b (mhr_size r + n + k)) \/
    (mhr_size r + n + k <= length b /\ exists m, if fr_information_elements_present r then ies_fit (skipn (mhr_size r + n + k) b) m else m = 0)).
  { destruct (Nat.lt_ge_cases (length b) (mhr_size r + n + k)) as [L|L]; [auto|]. unfold eack_ies_undecodable.
    destruct FITD as [E|E]; rewrite E; [right; split; [exact L|exists 0; reflexivity]|].
    destruct (ies_cases (skipn (mhr_size r + n + k) b)) as [(m & HM & _)|[_ HM]]; [right; eauto|left; right; auto]. }
  destruct GOOD as [GB|(LK & m & HI)].
  { assert (P : cat_parse b = Panic).
    { apply (C62_enhanced_ack_unreadable b r HN HF). right. right. apply HP. right. exists k. auto. }
    split.
    - intros L. split; [congruence|]. intros (n' & k' & A & m & I & SA & SK & SL & SI & _). exfalso. rewrite (AN _ _ SA) in *.
      rewrite <- (security_fun _ _ _ _ _ HK SK) in *. destruct GB as [GB|[G1 G2]]; [lia|].
      destruct SI as [[_ SI]|(E & _)]; [|congruence]. apply G2. exists m. exact (ies_shown_fit _ _ _ SI).
    - split; [intros _; right; exists k; split; [exact HK|]; destruct GB; auto|auto]. }
  assert (HM : mhr_size r + n + k + m <= length b).
  { destruct (fr_information_elements_present r); [|subst m; lia]. destruct HI as (? & ? & ? & ? & _ & _ & _ & Q). rewrite skipn_length in Q. lia. }
  destruct (ea_accessors_any b r n k m HF HL HNR HA HX LK HI HM) as ((o & EA & VA) & E2 & E3 & E4).
  destruct (cat_addr_lines r b o n (fc_lines r ++ seq_lines r b) HF VA) as (A & SA & EAL).
  assert (EQ : cat_parse b =
    let* w := cat_ies (if fr_information_elements_present r then Some (skipn (mhr_size r + n + k) b) else None)
      (mkW 0 (((fc_lines r ++ seq_lines r b) ++ A) ++ (if fr_security_enabled r then [(0, LHeading HAuxiliary); (2, LAuxUnimplemented)] else []))) in
    Done (w_lines (cat_payload (Some (skipn (mhr_size r + n + k + m) b)) w))).
  { unfold cat_parse. rewrite HN. cbn [bind ok unwrap frame_frame_control frame_sequence_number frame_addressing frame_aux frame_ies frame_payload].
    rewrite (ea_fc_ok b r HF), (ea_seq_eq b r HF), (data_seq_ok b r HF HL), EA, E2, E3, E4. cbn [bind].
    rewrite (cat_fc_lines (firstn 2 b) r (fc_is_firstn _ _ HF)). cbn [bind]. rewrite (cat_seq_lines r b _ HL). cbn [bind]. rewrite EAL. cbn [bind].
    assert (X : cat_aux (if fr_security_enabled r then Some (skipn (mhr_size r + n) b) else None) (mkW 0 ((fc_lines r ++ seq_lines r b) ++ A)) =
      Done (mkW 0 (((fc_lines r ++ seq_lines r b) ++ A) ++ (if fr_security_enabled r then [(0, LHeading HAuxiliary); (2, LAuxUnimplemented)] else [])))).
    { unfold cat_aux. destruct (fr_security_enabled r); [|rewrite app_nil_r; reflexivity].
      unfold decrease_indent, increase_indent, writeln. cbn [w_indent w_lines Nat.ltb Nat.leb Nat.add Nat.sub]. rewrite <- app_assoc. reflexivity. }
    rewrite X. reflexivity. }
  assert (EP : forall l, w_lines (cat_payload (Some (skipn (mhr_size r + n + k + m) b)) (mkW 0 l)) = l ++ payload_lines true (skipn (mhr_size r + n + k + m) b)).
  { intros l. cbn [cat_payload]. unfold increase_indent, writeln. cbn [w_indent w_lines Nat.add]. rewrite <- app_assoc. destruct (skipn (mhr_size r + n + k + m) b); reflexivity. }
  assert (UNIQ : forall L m0 I0, (fr_information_elements_present r = true /\ ies_shown (skipn (mhr_size r + n + k) b) m0 I0 \/
       fr_information_elements_present r = false /\ m0 = 0 /\ I0 = []) ->
     eack_shown r b L -> L = fc_lines r ++ seq_lines r b ++ A ++
        (if fr_security_enabled r then [(0, LHeading HAuxiliary); (2, LAuxUnimplemented)] else []) ++ I0 ++
        payload_lines true (skipn (mhr_size r + n + k + m0) b)).
  { intros L m0 I0 H0 (n' & k' & A' & m' & I' & SA' & SK' & _ & SI' & ->). destruct (addr_shown_fun _ _ _ _ _ _ SA SA') as [<- <-].
    rewrite <- (security_fun _ _ _ _ _ HK SK') in *. assert (m0 = m' /\ I0 = I') as [<- <-]; [|reflexivity].
    destruct H0 as [[F H0]|(F & -> & ->)], SI' as [[F' SI']|(F' & -> & ->)]; try congruence; [|auto]. exact (ies_shown_fun _ _ _ _ _ H0 SI'). }
  rewrite EQ. clear EQ. unfold eack_ies_undecodable. destruct FITD as [EI|EI]; rewrite EI in *.
  - subst m. cbn [cat_ies bind]. rewrite EP. split.
    + intros L. split.
      * intros E. apply cat_done_inj in E. subst L. exists n, k, A, 0, []. split; [exact SA|]. split; [exact HK|]. split; [exact LK|]. split; [right; auto|].
        rewrite <- !app_assoc. reflexivity.
      * intros S. rewrite (UNIQ L 0 [] ltac:(right; auto) S). f_equal. rewrite <- !app_assoc. reflexivity.
    + split; [discriminate|]. intros [[S1 S2]|(k' & HK' & [Q|[[Q _]|[Q _]]])]; try discriminate Q.
      * exfalso. unfold eack_security_octets in HK. rewrite S1 in HK. destruct HK as (c & rest & _ & _ & SK & _). apply (f_equal (@length _)) in SK. rewrite skipn_length in SK. cbn in SK. lia.
      * rewrite <- (security_fun _ _ _ _ _ HK HK') in Q. lia.
  - destruct (cat_ies_lines (skipn (mhr_size r + n + k) b) m (octets_skipn _ _ HO) HI) as (oo & HR & HE). rewrite HE.
    destruct oo as [I|]; cbn [outcome_lines bind ies_result] in *.
    + rewrite EP. split.
      * intros L. split.
        -- intros E. apply cat_done_inj in E. subst L. exists n, k, A, m, I. split; [exact SA|]. split; [exact HK|]. split; [exact LK|]. split; [left; auto|].
           rewrite <- !app_assoc. reflexivity.
        -- intros S. rewrite (UNIQ L m I ltac:(left; auto) S). f_equal. rewrite <- !app_assoc. reflexivity.
      * split; [discriminate|]. intros [[S1 S2]|(k' & HK' & Q)].
        -- exfalso. unfold eack_security_octets in HK. rewrite S1 in HK. destruct HK as (c & rest & _ & _ & SK & _). apply (f_equal (@length _)) in SK. rewrite skipn_length in SK. cbn in SK. lia.
        -- rewrite <- (security_fun _ _ _ _ _ HK HK') in Q. exfalso. destruct Q as [Q|[[_ Q]|[_ Q]]]; [lia|apply Q; eauto|exact (bad_not_shown_ies _ _ _ Q HR)].
    + split.
      * intros L. split; [discriminate|]. intros (n' & k' & A' & m' & I' & SA' & SK' & _ & SI' & _). exfalso. rewrite (AN _ _ SA') in *.
        rewrite <- (security_fun _ _ _ _ _ HK SK') in *. destruct SI' as [[_ SI']|(F & _)]; [exact (bad_not_shown_ies _ _ _ HR SI')|congruence].
      * split; [intros _; right; exists k; auto|reflexivity].
Qed.
Print Assumptions C62_enhanced_ack_output.
(** such an [n] always exists: the two theorems cover every accepted enhanced acknowledgement *)
Theorem C62_enhanced_ack_covered : forall b r, fc_is b r ->
  length b < mhr_size r \/ reserved_addressing r b \/
  (mhr_size r <= length b /\ ~ reserved_addressing r b /\ exists n, addressing_fits r b n \/ no_addressing r b /\ n = 0).
Proof.
  intros b r HF. destruct (Nat.lt_ge_cases (length b) (mhr_size r)) as [L|L]; [auto|]. right.
  assert (D : {reserved_addressing r b} + {~ reserved_addressing r b}).
  { unfold reserved_addressing. destruct (fr_frame_version r), (fr_dst_addressing_mode r), (fr_src_addressing_mode r), (fr_pan_id_compression r), (le_dec (mhr_size r + 2) (length b)); intuition (discriminate || congruence). }
  destruct D as [D|D]; [auto|]. right. split; [exact L|]. split; [exact D|].
  destruct (data_addressing_view_any b r HF L D) as (o & n & _ & [[H _]|(H & -> & _)] & _); [exists n|exists 0]; auto.
Qed.
Print Assumptions C62_enhanced_ack_covered.

(** ** All together: what the printer writes for any octets at all, and when it panics *)
Definition printed_as (f : Frame) (r : FrameControlRepr) (b : list N) (L : list (nat * line)) : Prop :=
  match f with
  | FAck _ => L = fc_lines r ++ [(0, LHeading HSequenceNumber); (2, LSeq (nth 2 b 0%N))]
  | FEnhancedAck _ => mhr_size r <= length b /\ ~ reserved_addressing r b /\ eack_shown r b L
  | FBeacon _ => False
  | FEnhancedBeacon _ | FData _ => frame_shown false r b L
  end.
Theorem C62_output : forall b, octets b ->
  (forall L, cat_parse b = Done L <-> exists f r, frame_new b = Done (Ok f) /\ fc_is b r /\ printed_as f r b L) /\
  (cat_parse b = Panic <-> forall L f r, frame_new b = Done (Ok f) -> fc_is b r -> ~ printed_as f r b L).
Proof.
  intros b HO.
  assert (H : forall L, cat_parse b = Done L <-> exists f r, frame_new b = Done (Ok f) /\ fc_is b r /\ printed_as f r b L).
  { intros L. split.
    - intros E. destruct (frame_new b) as [[f|]|] eqn:HN; [|unfold cat_parse in E; rewrite HN in E; discriminate..]. exists f.
      destruct (C14_dispatch_partial b HO) as [[_ K]|(_ & r & HF & HD)]; [congruence|].
      destruct (kind_of r) as [[]|] eqn:EK; try congruence.
      + exists r. split; [reflexivity|]. split; [exact HF|]. destruct (Nat.eqb_spec (length b) 3) as [HL|HL]; [|congruence]. assert (f = FAck b) by congruence. subst f.
        rewrite (cat_ack b r HN HF HL) in E. cbn [printed_as]. congruence.
      + exists r. split; [reflexivity|]. split; [exact HF|]. assert (f = FEnhancedAck b) by congruence. subst f. cbn [printed_as].
        destruct (C62_enhanced_ack_covered b r HF) as [H|[H|(HL & HR & n & HA)]]; [rewrite (C62_enhanced_ack_header b r HN HF) in E by auto; discriminate..|].
        split; [exact HL|]. split; [exact HR|]. apply (C62_enhanced_ack_output b r n HO HN HF HL HR HA), E.
      + assert (Hf : f = FEnhancedBeacon b) by (destruct HD as [[_ K]|[_ K]]; congruence). destruct (C62_output_partial b f HO) as (r' & HF' & H & _); [rewrite HN; reflexivity|auto|].
        exists r'. split; [reflexivity|]. split; [exact HF'|]. subst f. apply H, E.
      + assert (Hf : f = FData b) by (destruct HD as [[_ K]|[_ K]]; congruence). destruct (C62_output_partial b f HO) as (r' & HF' & H & _); [rewrite HN; reflexivity|auto|].
        exists r'. split; [reflexivity|]. split; [exact HF'|]. subst f. apply H, E.
    - intros (f & r & HN & HF & HP). destruct (C14_dispatch_partial b HO) as [[_ K]|(_ & r' & HF' & HD)]; [congruence|]. rewrite (fc_is_fun _ _ _ HF' HF) in HD. clear HF' r'.
      destruct (kind_of r) as [[]|] eqn:EK; try congruence.
      + destruct (Nat.eqb_spec (length b) 3) as [HL|HL]; [|congruence]. assert (f = FAck b) by congruence. subst f. rewrite (cat_ack b r HN HF HL). cbn [printed_as] in HP. congruence.
      + assert (f = FEnhancedAck b) by congruence. subst f. cbn [printed_as] in HP. destruct HP as (HL & HR & HP).
        destruct (C62_enhanced_ack_covered b r HF) as [H|[H|(_ & _ & n & HA)]]; [lia|contradiction|]. apply (C62_enhanced_ack_output b r n HO HN HF HL HR HA), HP.
      + assert (Hf : f = FEnhancedBeacon b) by (destruct HD as [[_ K]|[_ K]]; congruence). destruct (C62_output_partial b f HO HN ltac:(auto)) as (r' & HF' & H & _).
        rewrite (fc_is_fun _ _ _ HF' HF) in H. subst f. apply H, HP.
      + assert (Hf : f = FData b) by (destruct HD as [[_ K]|[_ K]]; congruence). destruct (C62_output_partial b f HO HN ltac:(auto)) as (r' & HF' & H & _).
        rewrite (fc_is_fun _ _ _ HF' HF) in H. subst f. apply H, HP. }
  split; [exact H|]. split.
  - intros E L f r HN HF HP. assert (K : cat_parse b = Done L) by (apply H; eauto). congruence.
  - intros N. destruct (cat_parse b) as [L|]; [|reflexivity]. exfalso. destruct (proj1 (H L) eq_refl) as (f & r & HN & HF & HP). exact (N L f r HN HF HP).
Qed.
Print Assumptions C62_output.

(** a reserved destination mode next to a short source address: read as if there were no addressing fields *)
Example C62_reserved_eack_ex :
  (exists L, cat_parse [0x02; 0xa4; 0x01; 9]%N = Done L /\ skipn 12 L = [(2, LSeq 1); (0, LHeading HPayload); (2, LOctets [9]%N)]) /\
  (exists r, fc_is [0x02; 0xa4; 0x01; 9]%N r /\ fr_dst_addressing_mode r = AmUnknown /\ ~ reserved_addressing r [0x02; 0xa4; 0x01; 9]%N) /\
  cat_parse [0x02; 0x24; 0x01; 0; 0]%N = Panic /\
  (exists r, fc_is [0x02; 0x24; 0x01; 0; 0]%N r /\ reserved_addressing r [0x02; 0x24; 0x01; 0; 0]%N).
Proof.
  split; [eexists; split; vm_compute; reflexivity|]. split; [|split; [vm_compute; reflexivity|]].
  - assert (O : octets [0x02; 0xa4; 0x01; 9]%N) by (repeat constructor).
    destruct (fc_is_exists _ O ltac:(cbn; lia)) as (r & HF). exists r. split; [exact HF|]. destruct (fc_is_getters _ _ (fc_is_firstn _ _ HF)) as (_ & _ & _ & _ & _ & _ & _ & Gd & Gs & _).
    change (Done AmUnknown = Done (fr_dst_addressing_mode r)) in Gd. change (Done AmShort = Done (fr_src_addressing_mode r)) in Gs. unfold reserved_addressing. split; [congruence|]. intros (_ & [[H1 H2]|[H1 H2]] & _); congruence.
  - assert (O : octets [0x02; 0x24; 0x01; 0; 0]%N) by (repeat constructor).
    destruct (fc_is_exists _ O ltac:(cbn; lia)) as (r & HF). exists r. split; [exact HF|]. destruct (fc_is_getters _ _ (fc_is_firstn _ _ HF)) as (_ & _ & _ & _ & _ & Gn & _ & Gd & Gs & Gv).
    change (Done AmUnknown = Done (fr_dst_addressing_mode r)) in Gd. change (Done AmAbsent = Done (fr_src_addressing_mode r)) in Gs. change (Done V2020 = Done (fr_frame_version r)) in Gv. unfold reserved_addressing, mhr_size. split; [congruence|]. split; [left; split; congruence|right].
    destruct (fr_sequence_number_suppression r); cbn [length]; lia.
Qed.
