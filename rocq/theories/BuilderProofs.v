(** BuilderProofs.v -- invariants of FrameBuilder and of finalize. *)
From Verif Require Import Base BaseProofs Spec SpecFrame FrameControl Addressing SpecAddressing
  AddressingProofs AddressingProofs2 Ie SpecIe IeContent ReprIe SpecIeContent Frames SpecFrames Repr SpecRepr.

Record builder_inv (s : start) (cs : list call) (f : FrameRepr) : Prop := {
  bi_type : fr_frame_type (f_control f) = match s with SImmAck _ | SAck => FtAck | SBeacon | SEnhancedBeacon => FtBeacon | SData _ => FtData end;
  bi_version : fr_frame_version (f_control f) = if has (f_ies f) then V2020 else match s with SAck | SEnhancedBeacon => V2020 | _ => V2006 end;
  bi_sec : fr_security_enabled (f_control f) = false;
  bi_comp : fr_pan_id_compression (f_control f) = false;
  bi_seq : match f_sequence_number f with Some x => octet x /\ fr_sequence_number_suppression (f_control f) = false
           | None => fr_sequence_number_suppression (f_control f) = true end;
  bi_dst : fr_dst_addressing_mode (f_control f) = mode_of_address (normal_addr (ar_dst_address (af_or_default (f_addressing f))));
  bi_src : fr_src_addressing_mode (f_control f) = mode_of_address (normal_addr (ar_src_address (af_or_default (f_addressing f))));
  bi_wf : afr_wf (af_or_default (f_addressing f));
  bi_ies : match f_ies f with Some i => fr_information_elements_present (f_control f) = true /\ ies_typed i
           | None => fr_information_elements_present (f_control f) = false end;
  bi_payload : match f_payload f with Some p => octets p | None => True end;
  bi_present : present_addresses cs -> ar_dst_address (af_or_default (f_addressing f)) <> Some AAbsent /\
                 ar_src_address (af_or_default (f_addressing f)) <> Some AAbsent;
  bi_none : no_addresses cs -> ar_dst_address (af_or_default (f_addressing f)) = None /\ ar_src_address (af_or_default (f_addressing f)) = None;
  bi_noies : no_ies cs -> f_ies f = None;
  bi_ack_seq : (exists x, s = SImmAck x) -> f_sequence_number f <> None }.

Lemma present_app cs c : present_addresses (cs ++ [c]) -> present_addresses cs /\ c <> CDst AAbsent /\ c <> CSrc AAbsent.
Proof.
  intros [H1 H2]. rewrite in_app_iff in H1, H2. split; [split; auto|]. split; intros ->; [apply H1|apply H2]; right; left; reflexivity.
Qed.
Lemma no_addresses_app cs c : no_addresses (cs ++ [c]) -> no_addresses cs /\ forall a, c <> CDst a /\ c <> CSrc a.
Proof.
  intros H. split; intros a; destruct (H a) as [H1 H2]; rewrite in_app_iff in H1, H2; split.
  - auto. - auto.
  - intros ->. apply H1. right. left. reflexivity.
  - intros ->. apply H2. right. left. reflexivity.
Qed.
Lemma no_ies_app cs c : no_ies (cs ++ [c]) -> no_ies cs /\ (forall h, c <> CHeader h) /\ (forall p, c <> CPayloadIe p).
Proof.
  intros [H1 H2]. split; [split|split].
  - intros h K. apply (H1 h). apply in_or_app. auto.
  - intros p K. apply (H2 p). apply in_or_app. auto.
  - intros h ->. apply (H1 h). apply in_or_app. right. left. reflexivity.
  - intros p ->. apply (H2 p). apply in_or_app. right. left. reflexivity.
Qed.

Lemma default_wf : afr_wf (mkAfRepr None None None None).
Proof. repeat split; discriminate. Qed.

Ltac proj := cbn [f_control f_sequence_number f_addressing f_ies f_payload fr_frame_type fr_frame_version fr_security_enabled
  fr_pan_id_compression fr_sequence_number_suppression fr_dst_addressing_mode fr_src_addressing_mode
  fr_information_elements_present with_sns with_comp with_dst with_src with_ies af_or_default ies_or_default
  ar_dst_pan_id ar_dst_address ar_src_pan_id ar_src_address with_addressing drop_src_pan drop_dst_pan has ir_header ir_payload] in *.

Lemma builder_ok s cs f : builds s cs f -> builder_inv s cs f.
Proof.
  induction 1 as [s HS|s cs f c f' HB IH HC HP].
  - destruct s; cbn [begin]; constructor; cbn; try reflexivity; try exact default_wf; try exact HS; auto; try (split; [exact HS|reflexivity]);
      try (split; discriminate); try discriminate; intros (x & Hx); discriminate.
  - destruct IH as [i1 i2 i3 i4 i5 i6 i7 i8 i9 i10 i11 i12 i13 i14]. destruct i8 as (w1 & w2 & w3 & w4).
    destruct c; cbn [perform] in HP;
      try (unfold b_add_header in HP; destruct (_ <? 16) eqn:LT in HP; [apply Nat.ltb_lt in LT|discriminate]);
      try (unfold b_add_payload in HP; destruct (_ <? 16) eqn:LT in HP; [apply Nat.ltb_lt in LT|discriminate]);
      injection HP as <-; cbn [call_typed] in HC;
      unfold b_set_sequence_number, b_set_dst_pan_id, b_set_src_pan_id, b_set_dst_address, b_set_src_address, b_set_payload;
      constructor; proj; auto;
      try (split; [exact HC|reflexivity]);
      try (intros K; apply present_app in K; destruct K as (K & N1 & N2); destruct (i11 K) as [P1 P2]; split; auto; congruence);
      try (intros K; apply no_addresses_app in K; destruct K as (K & N1); destruct (i12 K) as [P1 P2]; split; auto;
           match goal with a : Address |- _ => destruct (N1 a); congruence end);
      try (intros K; apply no_ies_app in K; destruct K as (K & N1 & N2); auto; exfalso;
           match goal with h : HeaderIE |- _ => apply (N1 h); reflexivity | p : PayloadIE |- _ => apply (N2 p); reflexivity end);
      try (intros _; discriminate);
      try (split; [|split; [|split]]; proj; auto; intros v Hv; injection Hv as <-; assumption).
    + split; [reflexivity|]. destruct (f_ies f) as [i|]; cbn [ies_or_default ir_header ir_payload] in *.
      * destruct i9 as (_ & t1 & t2 & t3). split; [cbn [ir_header]; rewrite app_length; cbn [length]; lia|]. split; assumption.
      * split; [cbn [ir_header length app]; lia|]. split; [cbn; lia|constructor].
    + split; [reflexivity|]. destruct (f_ies f) as [i|]; cbn [ies_or_default ir_header ir_payload] in *.
      * destruct i9 as (_ & t1 & t2 & t3). split; [assumption|]. split; [cbn [ir_payload]; rewrite app_length; cbn [length]; lia|].
        cbn [ir_payload]. apply Forall_app. auto.
      * split; [cbn; lia|]. split; [cbn; lia|]. cbn [ir_payload app]. auto.
Qed.

Lemma layout_by_flags c dp sp : fr_dst_addressing_mode c <> AmUnknown -> fr_src_addressing_mode c <> AmUnknown ->
  (layout c dp sp <-> address_present_flags (fr_frame_version c) (fr_dst_addressing_mode c) (fr_src_addressing_mode c) (fr_pan_id_compression c)
                   = Some (dp, fr_dst_addressing_mode c, sp, fr_src_addressing_mode c)).
Proof. intros H1 H2. symmetry. apply flags_spec; assumption. Qed.

Lemma mode_known a : mode_of_address a <> AmUnknown.
Proof. destruct a; discriminate. Qed.

(** a finished frame whose fields agree is consistent *)
Lemma finish s cs f a comp : builder_inv s cs f -> f_addressing f <> None ->
  ar_dst_address a = ar_dst_address (af_or_default (f_addressing f)) ->
  ar_src_address a = ar_src_address (af_or_default (f_addressing f)) ->
  afr_wf a ->
  address_present_flags (fr_frame_version (f_control f)) (mode_of_address (normal_addr (ar_dst_address a))) (mode_of_address (normal_addr (ar_src_address a))) comp
    = Some (has (ar_dst_pan_id a), mode_of_address (normal_addr (ar_dst_address a)), has (ar_src_pan_id a), mode_of_address (normal_addr (ar_src_address a))) ->
  consistent (with_addressing (Some a) (with_comp comp (f_control f)) f).
Proof.
  intros I HA Hd Hs (w1 & w2 & w3 & w4) HFl. destruct I as [i1 i2 i3 i4 i5 i6 i7 i8 i9 i10 i11 i12 i13].
  rewrite <- Hd in i6. rewrite <- Hs in i7. constructor; proj; auto.
  - split; [proj; rewrite i1; destruct s; discriminate|]. split; [proj; rewrite i2; destruct (has _), s; discriminate|].
    split; proj; rewrite ?i6, ?i7; apply mode_known.
  - exists (has (ar_dst_pan_id a)), (has (ar_src_pan_id a)). split.
    + apply layout_by_flags; proj; rewrite ?i6, ?i7; [apply mode_known..|exact HFl].
    + rewrite i6, i7. unfold repr_matches, normal. proj. split; [|split].
      * do 2 eexists. split; [reflexivity|]. split; [reflexivity|]. split; [reflexivity|]. split; [reflexivity|].
        split; [destruct (ar_dst_address a) as [x|]; [apply w3; reflexivity|exact I]|destruct (ar_src_address a) as [x|]; [apply w4; reflexivity|exact I]].
      * destruct (ar_dst_pan_id a) as [p|]; cbn [has]; [|reflexivity]. exists p. auto.
      * destruct (ar_src_pan_id a) as [p|]; cbn [has]; [|reflexivity]. exists p. auto.
Qed.

Lemma drop_wf a : afr_wf a -> afr_wf (drop_src_pan a) /\ afr_wf (drop_dst_pan a).
Proof. intros (w1 & w2 & w3 & w4). destruct a. repeat split; proj; auto; discriminate. Qed.

Lemma with_addressing_same a f : f_addressing f = Some a -> fr_pan_id_compression (f_control f) = false ->
  with_addressing (Some a) (with_comp false (f_control f)) f = f.
Proof. intros H1 H2. destruct f as [[] ? ? ? ?]. cbn in *. subst. reflexivity. Qed.

Lemma finalize_consistent s cs f f' : builds s cs f -> present_addresses cs ->
  ((exists x, s = SImmAck x) -> f_ies f = None -> no_addresses cs) ->
  b_finalize f = Ok f' -> consistent f'.
Proof.
  intros HB HP HACK HF. assert (I := builder_ok _ _ _ HB). unfold b_finalize in HF.
  destruct (fr_frame_version (f_control f)) eqn:EV.
  3:{ (* 2020 *)
    destruct (f_addressing f) as [a|] eqn:EA; [|discriminate].
    assert (P := bi_present _ _ _ I HP). assert (W := bi_wf _ _ _ I). rewrite EA in P, W. proj.
    destruct (drop_wf a W) as [WD _].
    assert (FIN : forall comp a', (a' = a \/ a' = drop_src_pan a) ->
       address_present_flags V2020 (mode_of_address (normal_addr (ar_dst_address a))) (mode_of_address (normal_addr (ar_src_address a))) comp
         = Some (has (ar_dst_pan_id a'), mode_of_address (normal_addr (ar_dst_address a)), has (ar_src_pan_id a'), mode_of_address (normal_addr (ar_src_address a))) ->
       consistent (with_addressing (Some a') (with_comp comp (f_control f)) f)).
    { intros comp a' Ha' HFl. eapply finish; [exact I|congruence|rewrite EA; destruct Ha'; subst; reflexivity|rewrite EA; destruct Ha'; subst; reflexivity|destruct Ha'; subst; assumption|].
      rewrite EV. destruct Ha'; subst; exact HFl. }
    destruct P as [P1 P2].
    destruct a as [[dp|] [[|dv|dv]|] [sp|] [[|sv|sv]|]]; proj; try congruence; try discriminate HF;
      try (injection HF as <-; apply FIN; [auto|reflexivity]);
      (destruct (dp =? sp)%N; injection HF as <-; apply FIN; [auto|reflexivity|auto|reflexivity]). }
  3:{ pose proof (bi_version _ _ _ I) as V. rewrite EV in V. destruct (has _), s; discriminate. }
  1:{ pose proof (bi_version _ _ _ I) as V. rewrite EV in V. destruct (has _), s; discriminate. }
  (* 2006 *)
  assert (NI : f_ies f = None).
  { pose proof (bi_version _ _ _ I) as V. rewrite EV in V. destruct (f_ies f); [discriminate|reflexivity]. }
  pose proof (bi_type _ _ _ I) as T. destruct (fr_frame_type (f_control f)) eqn:ET; try (destruct s; discriminate).
  - (* beacon *)
    destruct (f_addressing f) as [a|] eqn:EA; [|discriminate].
    assert (P := bi_present _ _ _ I HP). assert (W := bi_wf _ _ _ I). rewrite EA in P, W. proj.
    destruct (drop_wf a W) as [WD WS].
    assert (FIN : forall comp a', (a' = a \/ a' = drop_src_pan a \/ a' = drop_dst_pan a) ->
       address_present_flags V2006 (mode_of_address (normal_addr (ar_dst_address a))) (mode_of_address (normal_addr (ar_src_address a))) comp
         = Some (has (ar_dst_pan_id a'), mode_of_address (normal_addr (ar_dst_address a)), has (ar_src_pan_id a'), mode_of_address (normal_addr (ar_src_address a))) ->
       consistent (with_addressing (Some a') (with_comp comp (f_control f)) f)).
    { intros comp a' Ha' HFl. eapply finish; [exact I|congruence|rewrite EA; destruct Ha' as [|[|]]; subst; reflexivity|rewrite EA; destruct Ha' as [|[|]]; subst; reflexivity|destruct Ha' as [|[|]]; subst; assumption|].
      rewrite EV. destruct Ha' as [|[|]]; subst; exact HFl. }
    destruct P as [P1 P2].
    assert (CF := bi_comp _ _ _ I).
    destruct a as [[dp|] [[|dv|dv]|] [sp|] [[|sv|sv]|]]; proj; try congruence; try discriminate HF;
      try (injection HF as <-; apply FIN; [auto|reflexivity]);
      (destruct (dp =? sp)%N; injection HF as <-; [|rewrite <- (with_addressing_same _ f EA CF)]; apply FIN; [auto|reflexivity|auto|reflexivity]).
  - (* data *)
    destruct (f_addressing f) as [a|] eqn:EA; [|discriminate].
    assert (P := bi_present _ _ _ I HP). assert (W := bi_wf _ _ _ I). rewrite EA in P, W. proj.
    destruct (drop_wf a W) as [WD WS].
    assert (FIN : forall comp a', (a' = a \/ a' = drop_src_pan a \/ a' = drop_dst_pan a) ->
       address_present_flags V2006 (mode_of_address (normal_addr (ar_dst_address a))) (mode_of_address (normal_addr (ar_src_address a))) comp
         = Some (has (ar_dst_pan_id a'), mode_of_address (normal_addr (ar_dst_address a)), has (ar_src_pan_id a'), mode_of_address (normal_addr (ar_src_address a))) ->
       consistent (with_addressing (Some a') (with_comp comp (f_control f)) f)).
    { intros comp a' Ha' HFl. eapply finish; [exact I|congruence|rewrite EA; destruct Ha' as [|[|]]; subst; reflexivity|rewrite EA; destruct Ha' as [|[|]]; subst; reflexivity|destruct Ha' as [|[|]]; subst; assumption|].
      rewrite EV. destruct Ha' as [|[|]]; subst; exact HFl. }
    destruct P as [P1 P2].
    assert (CF := bi_comp _ _ _ I).
    destruct a as [[dp|] [[|dv|dv]|] [sp|] [[|sv|sv]|]]; proj; try congruence; try discriminate HF;
      try (injection HF as <-; apply FIN; [auto|reflexivity]);
      (destruct (dp =? sp)%N; injection HF as <-; [|rewrite <- (with_addressing_same _ f EA CF)]; apply FIN; [auto|reflexivity|auto|reflexivity]).
  - (* immediate ack *)
    destruct (f_sequence_number f) as [x|] eqn:ES; [|discriminate]. injection HF as <-.
    assert (S : exists x, s = SImmAck x).
    { destruct s; try discriminate; [eauto|]. pose proof (bi_version _ _ _ I) as V. rewrite EV, NI in V. discriminate. }
    destruct (bi_none _ _ _ I (HACK S NI)) as [N1 N2].
    destruct I as [i1 i2 i3 i4 i5 i6 i7 i8 i9 i10 i11 i12 i13]. rewrite N1 in i6. rewrite N2 in i7. cbn in i6, i7.
    constructor; proj; auto.
    + split; [proj; rewrite ET; discriminate|]. split; [proj; rewrite EV; discriminate|]. split; proj; rewrite ?i6, ?i7; discriminate.
    + intros dp sp HL. apply layout_by_flags in HL; [|rewrite ?i6, ?i7; discriminate..].
      rewrite EV, i6, i7 in HL. destruct (fr_pan_id_compression _); discriminate.
Qed.
