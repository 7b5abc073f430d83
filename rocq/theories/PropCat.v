(** PropCat.v -- property theorems C62 (dot15d4-cat). *)
From Verif Require Import Base BaseProofs Spec SpecFrame FrameControl FrameControlProofs Addressing SpecAddressing AddressingProofs2 AuxSec PropAuxSec Ie IeContent SpecIe IeProofs
  SpecIeContent SpecFrames Frames FramesProofs PropIe PropFrames SpecParse AddressText SpecAddressText AddressTextProofs Cat SpecCat CatProofs.

(** ** C62 *)
(** [Panic] is the only failure of the model: [cat_parse b <> Panic] would say that the printer returns. *)
Definition C62_statement : Prop := forall b, octets b -> cat_parse b <> Panic.
Theorem C62_invalid_refuted : ~ C62_statement.
Proof. intros H. apply (H []); [constructor|reflexivity]. Qed.
Print Assumptions C62_invalid_refuted.

(** It panics on every input that [Frame::new] rejects (or panics on), ... *)
Theorem C62_invalid_always_panics : forall b, (forall f, frame_new b <> Done (Ok f)) -> cat_parse b = Panic.
Proof.
  intros b H. unfold cat_parse. destruct (frame_new b) as [[f|]|] eqn:E; cbn [bind ok unwrap]; [|reflexivity..].
  destruct (H f eq_refl).
Qed.
Print Assumptions C62_invalid_always_panics.
(** ... in particular on every string shorter than two octets, reserved frame type, secured data frame; ... *)
Theorem C62_rejected_cases : forall b, octets b ->
  length b < 2 \/ (exists r, fc_is b r /\ (kind_of r = None \/ kind_of r = Some KBeacon \/
     (kind_of r = Some KData \/ kind_of r = Some KEnhancedBeacon) /\ ~ acceptable b r \/
     kind_of r = Some KAck /\ length b <> 3)) -> cat_parse b = Panic.
Proof.
  intros b HO H. apply C62_invalid_always_panics. intros f E.
  destruct (C14_dispatch_partial b HO) as [[HL E']|(HL & r & HF & HD)]; [congruence|].
  destruct H as [H|(r' & HF' & H)]; [lia|]. rewrite (fc_is_fun _ _ _ HF' HF) in H. destruct (kind_of r) as [k|]; [|congruence].
  destruct H as [H|[H|[[[H|H] HA]|[H H3]]]]; try discriminate; injection H as ->.
  - congruence.
  - destruct HD as [[K _]|[_ K]]; [contradiction|congruence].
  - destruct HD as [[K _]|[_ K]]; [contradiction|congruence].
  - destruct (Nat.eqb_spec (length b) 3); congruence.
Qed.
Print Assumptions C62_rejected_cases.
(** ... on strings that are not hexadecimal; ... *)
Definition hex_char (c : N) : Prop := (48 <= c <= 57 \/ 97 <= c <= 102 \/ 65 <= c <= 70)%N.
Lemma hex_digit_char c : hex_digit c <> None <-> hex_char c.
Proof.
  unfold hex_digit, hex_char. destruct (N.leb_spec 48 c), (N.leb_spec c 57), (N.leb_spec 97 c), (N.leb_spec c 102), (N.leb_spec 65 c), (N.leb_spec c 70);
    cbn [andb]; split; intros HH; try discriminate; try (exfalso; apply HH; reflexivity); try lia.
Qed.
Theorem C62_hex : forall s, (Nat.even (length s) = true /\ Forall hex_char s /\ exists d, hex_text s d /\ cat_parse_hex s = cat_parse d) \/
  ((Nat.even (length s) = false \/ ~ Forall hex_char s) /\ cat_parse_hex s = Panic).
Proof.
  assert (H : forall k s, length s <= k ->
    (Nat.even (length s) = true /\ Forall hex_char s /\ exists d, hex_decode s = Ok d /\ hex_text s d) \/
    ((Nat.even (length s) = false \/ ~ Forall hex_char s) /\ hex_decode s = Err)).
  { induction k as [|k IH]; intros s Hs.
    { destruct s; [|cbn [length] in Hs; lia]. left. split; [reflexivity|]. split; [constructor|]. exists []. split; [reflexivity|constructor]. }
    destruct s as [|a [|c s]].
    - left. split; [reflexivity|]. split; [constructor|]. exists []. split; [reflexivity|constructor].
    - right. split; [left; reflexivity|reflexivity].
    - cbn [hex_decode length Nat.even].
      destruct (hex_digit a) as [x|] eqn:Ea.
      2:{ right. split; [|reflexivity]. right. intros F. inversion F as [|? ? F1 _]; subst. apply (proj2 (hex_digit_char a)) in F1. congruence. }
      destruct (hex_digit c) as [y|] eqn:Ec.
      2:{ right. split; [|reflexivity]. right. intros F. inversion F as [|? ? _ F1]; subst. inversion F1 as [|? ? F2 _]; subst.
          apply (proj2 (hex_digit_char c)) in F2. congruence. }
      destruct (IH s) as [(H1 & H2 & d & H3 & H4)|[H1 H2]]; [cbn [length] in Hs; lia| |].
      + left. split; [exact H1|]. split.
        { constructor; [apply hex_digit_char; congruence|]. constructor; [apply hex_digit_char; congruence|exact H2]. }
        exists ((16 * x + y)%N :: d). rewrite H3. split; [reflexivity|]. constructor; [apply hex_digit_spec, Ea|apply hex_digit_spec, Ec|exact H4].
      + right. rewrite H2. split; [|reflexivity]. destruct H1 as [H1|H1]; [left; exact H1|right]. intros F. apply H1. inversion F as [|? ? _ F1]; subst. inversion F1; assumption. }
  intros s. unfold cat_parse_hex. destruct (H (length s) s (le_n _)) as [(H1 & H2 & d & H3 & H4)|[H1 H2]].
  - left. split; [exact H1|]. split; [exact H2|]. exists d. rewrite H3. split; [exact H4|reflexivity].
  - right. rewrite H2. split; [exact H1|reflexivity].
Qed.
Print Assumptions C62_hex.

(** Accepted data frames and enhanced beacons: what is printed is what the octets say ([frame_shown], SpecCat.v), and the
    printer panics exactly on those whose information elements contain one of the two bad nested elements. *)
Theorem C62_output_partial : forall b f, octets b -> frame_new b = Done (Ok f) -> f = FData b \/ f = FEnhancedBeacon b ->
  exists r, fc_is b r /\
    (forall L, cat_parse b = Done L <-> frame_shown false r b L) /\
    (cat_parse b = Panic <-> frame_bad r b).
Proof.
  intros b f HO HN Hf.
  assert (exists r, acceptable b r) as (r & HA).
  { destruct (C14_dispatch_partial b HO) as [[HL E']|(HL & r & HF & HD)]; [congruence|]. exists r.
    destruct (kind_of r) as [k|]; [|congruence]. rewrite HN in HD. destruct k; destruct Hf; subst f; try discriminate.
    - destruct (Nat.eqb (length b) 3); discriminate.
    - destruct (Nat.eqb (length b) 3); discriminate.
    - destruct HD as [[K _]|[_ K]]; [exact K|discriminate].
    - destruct HD as [[K _]|[_ K]]; [exact K|discriminate].
    - destruct HD as [[K _]|[_ K]]; [exact K|discriminate].
    - destruct HD as [[K _]|[_ K]]; [exact K|discriminate]. }
  exists r. split; [apply HA|].
  assert (HC : (exists L, frame_shown false r b L /\ cat_parse b = Done L) \/ (frame_bad r b /\ cat_parse b = Panic)).
  { apply cat_parse_cases; [exact HO|exact HA|]. destruct Hf as [-> | ->]; auto. }
  split.
  - intros L. split.
    + intros E. destruct HC as [(L' & HS & E')|[_ E']]; [|congruence]. rewrite E in E'. injection E' as ->. exact HS.
    + intros HS. destruct HC as [(L' & HS' & E')|[HB _]]; [|destruct (bad_not_shown _ _ _ _ HB HS)].
      rewrite E'. f_equal. exact (frame_shown_fun _ _ _ _ _ HS' HS).
  - split.
    + intros E. destruct HC as [(L' & _ & E')|[HB _]]; [congruence|exact HB].
    + intros HB. destruct HC as [(L' & HS' & _)|[_ E]]; [destruct (bad_not_shown _ _ _ _ HB HS')|exact E].
Qed.
Print Assumptions C62_output_partial.

(** Enhanced acknowledgements: not all that are accepted can be read (C15), but those that are unsecured, have room for the
    sequence number, no reserved addressing mode and, if they announce information elements, decodable ones, are printed
    in the same way (an empty payload is shown as an empty list). *)
Theorem C62_enhanced_ack_partial : forall b r n m, octets b -> frame_new b = Done (Ok (FEnhancedAck b)) -> fc_is b r -> mhr_size r <= length b ->
  fr_security_enabled r = false -> fr_dst_addressing_mode r <> AmUnknown -> fr_src_addressing_mode r <> AmUnknown ->
  addressing_fits r b n \/ no_addressing r b /\ n = 0 ->
  (if fr_information_elements_present r then ies_fit (skipn (mhr_size r + n) b) m else m = 0) ->
  (forall L, cat_parse b = Done L <-> frame_shown true r b L) /\ (cat_parse b = Panic <-> frame_bad r b).
Proof.
  intros b r n m HO HN HF HL HS Hd Hs HA HI.
  pose proof (cat_eack_cases b r n m HO HN HF HL HS Hd Hs HA HI) as HC. split.
  - intros L. split.
    + intros E. destruct HC as [(L' & HS' & E')|[_ E']]; [|congruence]. rewrite E in E'. injection E' as ->. exact HS'.
    + intros HS2. destruct HC as [(L' & HS' & E')|[HB _]]; [|destruct (bad_not_shown _ _ _ _ HB HS2)].
      rewrite E'. f_equal. exact (frame_shown_fun _ _ _ _ _ HS' HS2).
  - split.
    + intros E. destruct HC as [(L' & _ & E')|[HB _]]; [congruence|exact HB].
    + intros HB. destruct HC as [(L' & HS' & _)|[_ E]]; [destruct (bad_not_shown _ _ _ _ HB HS')|exact E].
Qed.
Print Assumptions C62_enhanced_ack_partial.

(** Enhanced acknowledgements whose accessors fail (C15): the printer panics. *)
Theorem C62_enhanced_ack_unreadable : forall b r, frame_new b = Done (Ok (FEnhancedAck b)) -> fc_is b r ->
  length b < mhr_size r \/
  (fr_dst_addressing_mode r = AmUnknown \/ fr_src_addressing_mode r = AmUnknown) /\ (exists af, ea_addressing b = Done (Some af)) \/
  ea_payload b = Panic -> cat_parse b = Panic.
Proof.
  intros b r HN HF H.
  assert (HP : ea_payload b = Panic).
  { destruct H as [H|[[H (af & HA)]|H]]; [|exact (proj2 (proj2 (C15_reserved_mode_panics b r af HF H HA)))|exact H].
    destruct (C15_header_panics_iff b r HF) as (_ & _ & _ & K). apply (K H). }
  unfold cat_parse. rewrite HN. cbn [bind ok unwrap frame_frame_control frame_sequence_number frame_addressing frame_aux frame_ies frame_payload].
  destruct (ea_frame_control b) as [x1|]; cbn [bind]; [|reflexivity]. destruct (cat_frame_control x1 w_new) as [w1|]; cbn [bind]; [|reflexivity].
  destruct (ea_sequence_number b) as [x2|]; cbn [bind]; [|reflexivity]. destruct (cat_sequence_number x2 w1) as [w2|]; cbn [bind]; [|reflexivity].
  destruct (ea_addressing b) as [x3|]; cbn [bind]; [|reflexivity]. destruct (cat_addressing x3 w2) as [w3|]; cbn [bind]; [|reflexivity].
  destruct (ea_aux b) as [x4|]; cbn [bind]; [|reflexivity]. destruct (cat_aux x4 w3) as [w4|]; cbn [bind]; [|reflexivity].
  destruct (ea_ies b) as [x5|]; cbn [bind]; [|reflexivity]. destruct (cat_ies x5 w4) as [w5|]; cbn [bind]; [|reflexivity].
  rewrite HP. reflexivity.
Qed.
Print Assumptions C62_enhanced_ack_unreadable.

(** All others with known addressing modes, secured or not: what is printed, and exactly when the printer panics. The
    security header is only announced. *)
Definition eack_shown (r : FrameControlRepr) (b : list N) (L : list (nat * line)) : Prop :=
  exists n k A m I, addr_shown r b n A /\ eack_security_octets r b n k /\ mhr_size r + n + k <= length b /\
    (fr_information_elements_present r = true /\ ies_shown (skipn (mhr_size r + n + k) b) m I \/
     fr_information_elements_present r = false /\ m = 0 /\ I = []) /\
    L = fc_lines r ++ seq_lines r b ++ A ++
        (if fr_security_enabled r then [(0, LHeading HAuxiliary); (2, LAuxUnimplemented)] else []) ++ I ++
        payload_lines true (skipn (mhr_size r + n + k + m) b).
Lemma cat_done_inj {A} (x y : A) : Done x = Done y -> x = y.
Proof. intros H. injection H. auto. Qed.
Lemma security_fun r b n k k' : eack_security_octets r b n k -> eack_security_octets r b n k' -> k = k'.
Proof.
  unfold eack_security_octets. destruct (fr_security_enabled r); [|congruence].
  intros (c & rest & e & m & E & T & ->) (c' & rest' & e' & m' & E' & T' & ->). rewrite E in E'. injection E' as <- <-. congruence.
Qed.
Theorem C62_enhanced_ack_output_partial : forall b r n, octets b -> frame_new b = Done (Ok (FEnhancedAck b)) -> fc_is b r ->
  mhr_size r <= length b -> fr_dst_addressing_mode r <> AmUnknown -> fr_src_addressing_mode r <> AmUnknown ->
  addressing_fits r b n \/ no_addressing r b /\ n = 0 ->
  (forall L, cat_parse b = Done L <-> eack_shown r b L) /\
  (cat_parse b = Panic <-> eack_no_control_octet r b n \/ exists k, eack_security_octets r b n k /\
     (length b < mhr_size r + n + k \/ eack_ies_undecodable r b (mhr_size r + n + k) \/
      fr_information_elements_present r = true /\ bad_ies (skipn (mhr_size r + n + k) b))).
Proof.
  intros b r n HO HN HF HL Hd Hs HA.
  destruct (C15_panics_iff b r n HO HF HL Hd Hs HA) as (_ & _ & HP).
  assert (LA : mhr_size r + n <= length b).
  { destruct HA as [(dp & sp & _ & _ & H)|[_ ->]]; [exact H|lia]. }
  assert (AN : forall n' A, addr_shown r b n' A -> n' = n).
  { intros n' A [(dp & sp & H1 & H2 & H3 & _)|(H1 & H2 & _)]; destruct HA as [(dp' & sp' & K1 & K2 & K3)|[K1 K2]].
    - destruct (c07_unique _ _ _ _ _ H1 K1) as [<- <-]. congruence.
    - specialize (K1 _ _ H1). lia.
    - specialize (H1 _ _ K1). lia.
    - congruence. }
  assert (EXK : eack_no_control_octet r b n \/ exists k, eack_security_octets r b n k /\
      (if fr_security_enabled r then aux_len (skipn (mhr_size r + n) b) = Done k else k = 0)).
  { unfold eack_no_control_octet, eack_security_octets. destruct (fr_security_enabled r); [|right; exists 0; auto].
    destruct (skipn (mhr_size r + n) b) as [|c rest] eqn:ES.
    - left. split; [reflexivity|]. apply (f_equal (@length _)) in ES. rewrite skipn_length in ES. cbn in ES. lia.
    - right. assert (Hc : octet c).
      { apply (proj1 (Forall_forall _ _) HO). rewrite <- (firstn_skipn (mhr_size r + n) b), ES. apply in_or_app. right. left. reflexivity. }
      destruct (C10_fields_partial c rest Hc) as (enc & mic & HT & _ & _ & _ & _ & _ & _ & _ & _ & EL).
      exists (1 + mic). split; [exists c, rest, enc, mic; auto|exact EL]. }
  assert (NC : eack_no_control_octet r b n -> forall L, ~ eack_shown r b L).
  { intros [E1 E2] L (n' & k & A & m & I & SA & SK & _). rewrite (AN _ _ SA) in SK. unfold eack_security_octets in SK. rewrite E1 in SK.
    destruct SK as (c & rest & _ & _ & SK & _). apply (f_equal (@length _)) in SK. rewrite skipn_length in SK. cbn in SK. lia. }
  destruct EXK as [EN|(k & HK & HX)].
  { assert (P : cat_parse b = Panic).
    { apply (C62_enhanced_ack_unreadable b r HN HF). right. right. apply HP. left. exact EN. }
    split; [|split; auto]. intros L. split; [congruence|]. intros S. destruct (NC EN L S). }
  assert (FITD : {fr_information_elements_present r = false} + {fr_information_elements_present r = true}) by (destruct (fr_information_elements_present r); auto).
  assert (GOOD : (length b < mhr_size r + n + k \/ eack_ies_undecodable r b (mhr_size r + n + k)) \/
    (mhr_size r + n + k <= length b /\ exists m, if fr_information_elements_present r then ies_fit (skipn (mhr_size r + n + k) b) m else m = 0)).
  { destruct (Nat.lt_ge_cases (length b) (mhr_size r + n + k)) as [L|L]; [auto|]. unfold eack_ies_undecodable.
    destruct FITD as [E|E]; rewrite E; [right; split; [exact L|exists 0; reflexivity]|].
    destruct (ies_cases (skipn (mhr_size r + n + k) b)) as [(m & HM & _)|[_ HM]]; [right; eauto|left; right; auto]. }
  destruct GOOD as [GB|(LK & m & HI)].
  { assert (P : cat_parse b = Panic).
    { apply (C62_enhanced_ack_unreadable b r HN HF). right. right. apply HP. right. exists k. auto. }
    split.
    - intros L. split; [congruence|]. intros (n' & k' & A & m & I & SA & SK & SL & SI & _). exfalso. rewrite (AN _ _ SA) in *.
      rewrite <- (security_fun _ _ _ _ _ HK SK) in *. destruct GB as [GB|[G1 G2]]; [lia|].
      destruct SI as [[_ SI]|(E & _)]; [|congruence]. apply G2. exists m. exact (ies_shown_fit _ _ _ SI).
    - split; [intros _; right; exists k; split; [exact HK|]; destruct GB; auto|auto]. }
  assert (HM : mhr_size r + n + k + m <= length b).
  { destruct (fr_information_elements_present r); [|subst m; lia]. destruct HI as (? & ? & ? & ? & _ & _ & _ & Q). rewrite skipn_length in Q. lia. }
  destruct (ea_accessors b r n k m HF HL Hd Hs HA HX LK HI HM) as ((o & EA & VA) & E2 & E3 & E4).
  destruct (cat_addr_lines r b o n (fc_lines r ++ seq_lines r b) HF VA) as (A & SA & EAL).
  assert (EQ : cat_parse b =
    let* w := cat_ies (if fr_information_elements_present r then Some (skipn (mhr_size r + n + k) b) else None)
      (mkW 0 (((fc_lines r ++ seq_lines r b) ++ A) ++ (if fr_security_enabled r then [(0, LHeading HAuxiliary); (2, LAuxUnimplemented)] else []))) in
    Done (w_lines (cat_payload (Some (skipn (mhr_size r + n + k + m) b)) w))).
  { unfold cat_parse. rewrite HN. cbn [bind ok unwrap frame_frame_control frame_sequence_number frame_addressing frame_aux frame_ies frame_payload].
    rewrite (ea_fc_ok b r HF), (ea_seq_eq b r HF), (data_seq_ok b r HF HL), EA, E2, E3, E4. cbn [bind].
    rewrite (cat_fc_lines (firstn 2 b) r (fc_is_firstn _ _ HF)). cbn [bind]. rewrite (cat_seq_lines r b _ HL). cbn [bind]. rewrite EAL. cbn [bind].
    assert (X : cat_aux (if fr_security_enabled r then Some (skipn (mhr_size r + n) b) else None) (mkW 0 ((fc_lines r ++ seq_lines r b) ++ A)) =
      Done (mkW 0 (((fc_lines r ++ seq_lines r b) ++ A) ++ (if fr_security_enabled r then [(0, LHeading HAuxiliary); (2, LAuxUnimplemented)] else [])))).
    { unfold cat_aux. destruct (fr_security_enabled r); [|rewrite app_nil_r; reflexivity].
      unfold decrease_indent, increase_indent, writeln. cbn [w_indent w_lines Nat.ltb Nat.leb Nat.add Nat.sub]. rewrite <- app_assoc. reflexivity. }
    rewrite X. reflexivity. }
  assert (EP : forall l, w_lines (cat_payload (Some (skipn (mhr_size r + n + k + m) b)) (mkW 0 l)) = l ++ payload_lines true (skipn (mhr_size r + n + k + m) b)).
  { intros l. cbn [cat_payload]. unfold increase_indent, writeln. cbn [w_indent w_lines Nat.add]. rewrite <- app_assoc. destruct (skipn (mhr_size r + n + k + m) b); reflexivity. }
  assert (UNIQ : forall L m0 I0, (fr_information_elements_present r = true /\ ies_shown (skipn (mhr_size r + n + k) b) m0 I0 \/
       fr_information_elements_present r = false /\ m0 = 0 /\ I0 = []) ->
     eack_shown r b L -> L = fc_lines r ++ seq_lines r b ++ A ++
        (if fr_security_enabled r then [(0, LHeading HAuxiliary); (2, LAuxUnimplemented)] else []) ++ I0 ++
        payload_lines true (skipn (mhr_size r + n + k + m0) b)).
  { intros L m0 I0 H0 (n' & k' & A' & m' & I' & SA' & SK' & _ & SI' & ->). destruct (addr_shown_fun _ _ _ _ _ _ SA SA') as [<- <-].
    rewrite <- (security_fun _ _ _ _ _ HK SK') in *. assert (m0 = m' /\ I0 = I') as [<- <-]; [|reflexivity].
    destruct H0 as [[F H0]|(F & -> & ->)], SI' as [[F' SI']|(F' & -> & ->)]; try congruence; [|auto]. exact (ies_shown_fun _ _ _ _ _ H0 SI'). }
  rewrite EQ. clear EQ. unfold eack_ies_undecodable. destruct FITD as [EI|EI]; rewrite EI in *.
  - subst m. cbn [cat_ies bind]. rewrite EP. split.
    + intros L. split.
      * intros E. apply cat_done_inj in E. subst L. exists n, k, A, 0, []. split; [exact SA|]. split; [exact HK|]. split; [exact LK|]. split; [right; auto|].
        rewrite <- !app_assoc. reflexivity.
      * intros S. rewrite (UNIQ L 0 [] ltac:(right; auto) S). f_equal. rewrite <- !app_assoc. reflexivity.
    + split; [discriminate|]. intros [[S1 S2]|(k' & HK' & [Q|[[Q _]|[Q _]]])]; try discriminate Q.
      * exfalso. unfold eack_security_octets in HK. rewrite S1 in HK. destruct HK as (c & rest & _ & _ & SK & _). apply (f_equal (@length _)) in SK. rewrite skipn_length in SK. cbn in SK. lia.
      * rewrite <- (security_fun _ _ _ _ _ HK HK') in Q. lia.
  - destruct (cat_ies_lines (skipn (mhr_size r + n + k) b) m (octets_skipn _ _ HO) HI) as (oo & HR & HE). rewrite HE.
    destruct oo as [I|]; cbn [outcome_lines bind ies_result] in *.
    + rewrite EP. split.
      * intros L. split.
        -- intros E. apply cat_done_inj in E. subst L. exists n, k, A, m, I. split; [exact SA|]. split; [exact HK|]. split; [exact LK|]. split; [left; auto|].
           rewrite <- !app_assoc. reflexivity.
        -- intros S. rewrite (UNIQ L m I ltac:(left; auto) S). f_equal. rewrite <- !app_assoc. reflexivity.
      * split; [discriminate|]. intros [[S1 S2]|(k' & HK' & Q)].
        -- exfalso. unfold eack_security_octets in HK. rewrite S1 in HK. destruct HK as (c & rest & _ & _ & SK & _). apply (f_equal (@length _)) in SK. rewrite skipn_length in SK. cbn in SK. lia.
        -- rewrite <- (security_fun _ _ _ _ _ HK HK') in Q. exfalso. destruct Q as [Q|[[_ Q]|[_ Q]]]; [lia|apply Q; eauto|exact (bad_not_shown_ies _ _ _ Q HR)].
    + split.
      * intros L. split; [discriminate|]. intros (n' & k' & A' & m' & I' & SA' & SK' & _ & SI' & _). exfalso. rewrite (AN _ _ SA') in *.
        rewrite <- (security_fun _ _ _ _ _ HK SK') in *. destruct SI' as [[_ SI']|(F & _)]; [exact (bad_not_shown_ies _ _ _ HR SI')|congruence].
      * split; [intros _; right; exists k; auto|reflexivity].
Qed.
Print Assumptions C62_enhanced_ack_output_partial.
(** a secured one with a security header of control octet and 4-octet MIC (level 1), and the same without its MIC *)
Example C62_secured_eack_ex :
  (exists L, cat_parse [0x0a; 0x20; 0x01; 0x01; 1; 2; 3; 4; 9]%N = Done L /\ skipn 12 L =
    [(2, LSeq 1); (0, LHeading HAddressing); (2, LDstAddr AAbsent false); (2, LSrcAddr AAbsent false);
     (0, LHeading HAuxiliary); (2, LAuxUnimplemented); (0, LHeading HPayload); (2, LOctets [9]%N)]) /\
  cat_parse [0x0a; 0x20; 0x01; 0x01]%N = Panic.
Proof. split; [eexists; split; vm_compute; reflexivity|vm_compute; reflexivity]. Qed.

(** Immediate acknowledgements are always printed: frame control and sequence number. *)
Theorem C62_ack : forall b, octets b -> frame_new b = Done (Ok (FAck b)) ->
  exists r, fc_is b r /\ cat_parse b = Done (fc_lines r ++ [(0, LHeading HSequenceNumber); (2, LSeq (nth 2 b 0%N))]).
Proof.
  intros b HO HN. destruct (C14_dispatch_partial b HO) as [[HL E']|(HL & r & HF & HD)]; [congruence|].
  exists r. split; [exact HF|]. apply (cat_ack b r HN HF).
  destruct (kind_of r) as [[]|]; try congruence; try (destruct HD as [[_ K]|[_ K]]; congruence).
  destruct (Nat.eqb_spec (length b) 3); [assumption|congruence].
Qed.
Print Assumptions C62_ack.

(** An accepted data frame on which the printer panics: MLME IE with a TSCH slotframe IE announcing a slotframe without links. *)
Definition cat_zero_links : list N :=
  [0x01; 0x23; 0x00; 0x3f; 0x07; 0x88; 0x05; 0x1b; 0x01; 0x00; 0x07; 0x00; 0x00]%N.
Theorem C62_accepted_refuted : exists b, octets b /\ frame_new b = Done (Ok (FData b)) /\ cat_parse b = Panic.
Proof.
  exists cat_zero_links. split; [repeat constructor|]. split; vm_compute; reflexivity.
Qed.
Print Assumptions C62_accepted_refuted.

(** What is printed for two frames: an enhanced beacon with TSCH information elements and a data frame. *)
Example C62_data_ex : cat_parse data_sample = Done
  ([(0, LHeading HFrameControl); (2, LFrameType false FtData); (2, LFlag FSecurity false); (2, LFlag FPending false); (2, LFlag FAckRequest false);
    (2, LFlag FCompression true); (2, LFlag FSuppression false); (2, LFlag FIePresent false); (2, LDstMode AmShort); (2, LSrcMode AmExtended); (2, LVersion V2006);
    (0, LHeading HSequenceNumber); (2, LSeq 1); (0, LHeading HAddressing); (2, LDstPan 0xabcd); (2, LDstAddr (AShort [0xff; 0xff]%N) true);
    (2, LSrcAddr (AExtended [0x00; 0x12; 0x4b; 0x00; 0x14; 0xb5; 0xd9; 0xc7]%N) false); (0, LHeading HPayload); (2, LOctets [0x2b; 0; 0; 0]%N)]).
Proof. vm_compute. reflexivity. Qed.
Example C62_beacon_ex : frame_new eb_sample = Done (Ok (FEnhancedBeacon eb_sample)) /\ exists n L, cat_parse eb_sample = Done L /\ skipn n L =
  [(0, LHeading HInformationElements); (2, LHeading HHeaderIes); (4, LHeaderId 0x7e); (2, LHeading HPayloadIes); (4, LMlme);
   (6, LSubId (SubShort 0x1a)); (8, LSync 14 0); (6, LSubId (SubShort 0x1c)); (8, LTimeslot 0);
   (6, LSubId (SubLong 9)); (8, LHopping 0); (6, LSubId (SubShort 0x1b)); (8, LSlotframes 0)].
Proof. split; [vm_compute; reflexivity|]. exists 15. eexists. split; [vm_compute; reflexivity|]. vm_compute. reflexivity. Qed.
Example C62_hex_ex : cat_parse_hex [52; 49; 51; 48; 48; 49; 48]%N = Panic /\ cat_parse_hex [52; 103]%N = Panic /\
  exists L, cat_parse_hex [48; 50; 49; 48; 48; 49]%N = Done L.
Proof. split; [reflexivity|]. split; [reflexivity|]. eexists. vm_compute. reflexivity. Qed.
Example C62_eack_ex : exists L, cat_parse eack_sample = Done L.
Proof. eexists. vm_compute. reflexivity. Qed.

(** A rich frame, and what the specification says of it (derived from [frame_shown] alone): a data frame of version 2020
    with a time correction, and an MLME IE with synchronization, timeslot, slotframe and channel hopping, and one octet of
    payload. *)
Definition cat_rich : list N :=
  [0x21; 0x2a; 7; 0xcd; 0xab; 0x08; 0x07; 0x02; 0x0f; 0x05; 0x80; 0x00; 0x3f; 0x1a; 0x88;
   6; 0x1a; 1; 0; 0; 0; 0; 9;  1; 0x1c; 0;  10; 0x1b; 1; 3; 7; 0; 1; 1; 0; 2; 0; 0x0f;  1; 0xc8; 5;  0xee]%N.
Definition cat_rich_lines : list (nat * line) :=
  [(0, LHeading HFrameControl); (2, LFrameType false FtData); (2, LFlag FSecurity false); (2, LFlag FPending false);
   (2, LFlag FAckRequest true); (2, LFlag FCompression false); (2, LFlag FSuppression false); (2, LFlag FIePresent true);
   (2, LDstMode AmShort); (2, LSrcMode AmAbsent); (2, LVersion V2020);
   (0, LHeading HSequenceNumber); (2, LSeq 7);
   (0, LHeading HAddressing); (2, LDstPan 0xabcd); (2, LDstAddr (AShort [7; 8]%N) false); (2, LSrcAddr AAbsent false);
   (0, LHeading HInformationElements); (2, LHeading HHeaderIes); (4, LHeaderId 0x1e); (6, LTimeCorrection 5 true); (4, LHeaderId 0x7e);
   (2, LHeading HPayloadIes); (4, LMlme); (6, LSubId (SubShort 0x1a)); (8, LSync 1 9); (6, LSubId (SubShort 0x1c)); (8, LTimeslot 0);
   (6, LSubId (SubShort 0x1b)); (8, LSlotframes 1); (8, LSlotframe 3 1); (10, LLink 1 2 15); (6, LSubId (SubLong 9)); (8, LHopping 5);
   (0, LHeading HPayload); (2, LOctets [0xee]%N)].
Lemma cat_rich_shown : exists r, fc_is cat_rich r /\ frame_shown false r cat_rich cat_rich_lines.
Proof.
  exists (fcr_of 0x2a21). split.
  { do 3 eexists. split; [reflexivity|]. split; [reflexivity|]. split; [reflexivity|]. constructor; vm_compute; reflexivity. }
  exists 4, [(0, LHeading HAddressing); (2, LDstPan 0xabcd); (2, LDstAddr (AShort [7; 8]%N) false); (2, LSrcAddr AAbsent false)],
    34, (firstn 17 (skipn 17 cat_rich_lines)).
  split; [left; exists true, false; split|split; [left; split|]].
  - split; [discriminate|]. split; [discriminate|]. exists Any, No. split; [vm_compute; tauto|split; reflexivity].
  - split; [reflexivity|]. split; [vm_compute; lia|vm_compute; reflexivity].
  - reflexivity.
  - set (d := skipn (mhr_size (fcr_of 0x2a21) + 4) cat_rich). vm_compute in d. subst d.
    match goal with |- ies_shown ?d _ _ => 
      exists [d; skipn 4 d], 6, [skipn 6 d], 28,
        [[(4, LMlme); (6, LSubId (SubShort 0x1a)); (8, LSync 1 9); (6, LSubId (SubShort 0x1c)); (8, LTimeslot 0);
          (6, LSubId (SubShort 0x1b)); (8, LSlotframes 1); (8, LSlotframe 3 1); (10, LLink 1 2 15); (6, LSubId (SubLong 9)); (8, LHopping 5)]] end.
    split; [|split; [|split; [reflexivity|split; [vm_compute; lia|split; [|vm_compute; reflexivity]]]]].
    + match goal with |- walk ?sz ?st ?r (_ :: ?es) _ => change (walk sz st r (r :: es) (sz r + 2)) end. apply walk_next; [vm_compute; lia|reflexivity|vm_compute; lia|].
      match goal with |- walk ?sz ?st ?r _ _ => change (walk sz st r [r] (sz r)) end. apply walk_last; [vm_compute; lia|left; reflexivity].
    + match goal with |- walk ?sz ?st ?r (_ :: ?es) _ => change (walk sz st r (r :: es) (sz r + 0)) end. apply walk_next; [vm_compute; lia|reflexivity|vm_compute; lia|].
      apply walk_end. vm_compute. lia.
    + constructor; [|constructor]. unfold payload_shown.
      exists [[6; 0x1a; 1; 0; 0; 0; 0; 9]; [1; 0x1c; 0];  [10; 0x1b; 1; 3; 7; 0; 1; 1; 0; 2; 0; 0x0f]; [1; 0xc8; 5]]%N.
      exists [[(6, LSubId (SubShort 0x1a)); (8, LSync 1 9)]; [(6, LSubId (SubShort 0x1c)); (8, LTimeslot 0)];
          [(6, LSubId (SubShort 0x1b)); (8, LSlotframes 1); (8, LSlotframe 3 1); (10, LLink 1 2 15)]; [(6, LSubId (SubLong 9)); (8, LHopping 5)]].
      split; [|split; [|reflexivity]].
      * do 4 (match goal with |- chop ?sz ?r (_ :: ?es) => change (chop sz r (firstn (sz r) r :: es)) end; apply chop_next; [vm_compute; lia|vm_compute; lia|]). apply chop_end. left. vm_compute. lia.
      * repeat apply Forall2_cons; [..|apply Forall2_nil].
        -- eexists. split; reflexivity.
        -- eexists. split; [reflexivity|]. right. left. repeat split.
        -- eexists. split; [reflexivity|]. right. split; [vm_compute; lia|]. eexists. split.
           { apply (descs_next 0 (skipn 3 [10; 0x1b; 1; 3; 7; 0; 1; 1; 0; 2; 0; 0x0f]%N)); [vm_compute; lia|vm_compute; lia|]. apply descs_end. left. reflexivity. }
           split; [|reflexivity]. constructor; [discriminate|constructor].
        -- eexists. split; reflexivity.
  - vm_compute. reflexivity.
Qed.
Example C62_rich_ex : frame_new cat_rich = Done (Ok (FData cat_rich)) /\ cat_parse cat_rich = Done cat_rich_lines.
Proof. split; vm_compute; reflexivity. Qed.
