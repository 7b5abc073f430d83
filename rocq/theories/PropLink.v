(** PropLink.v -- C87: what the upper layers of two devices in earshot can rely on. Vocabulary: SpecTasks.v, SpecLink.v. *)
From Coq Require Import Lia.
From Verif Require Import Base BaseProofs Spec SpecFrame FrameControl Addressing SpecAddressing Frames SpecFrames FramesProofs PhyConfig Time Csma SpecCsma CsmaProofs CsmaTasks CsmaWorld
  SpecTasks LockFacts SourceFacts PropCsma SpecExchange PropExchange PropPrepared PropSource PropTasks TaskRuns TxLog LinkFacts LinkRuns.
From Verif Require Import Async AsyncProofs SpecLink.

(** ** Nothing is invented, altered or reordered: what the upper layer of B is given are copies of what A sent, in order. *)
Lemma part_trans {A} (l1 l2 : list A) : part l1 l2 -> forall l3, part l2 l3 -> part l1 l3.
Proof. intros H. induction H as [|a l l' H IH|a l l' H IH]; intros l3 H3; [exact H3| |constructor; auto]. inversion H3; subst; constructor; auto. Qed.
Lemma part_in {A} (l l' : list A) x : part l l' -> In x l' -> In x l.
Proof. intros H. induction H; intros HI; [exact HI| |right; auto]. destruct HI as [<-|HI]; [left; reflexivity|right; auto]. Qed.
Lemma heard_receptions h : part (heard h) (map snd (filter fst (receptions h))).
Proof.
  induction h as [|e h IH]; [constructor|]. cbn [heard receptions]. destruct e; try exact IH.
  destruct t, r as [[[|] buf]|]; cbn [filter fst map snd]; try exact IH; constructor; exact IH.
Qed.
Lemma deliveries_part S rs fs : deliveries S rs fs -> part (map snd (filter fst rs)) (map fb_buffer fs).
Proof.
  induction 1 as [|buf rs fs HA H IH|ok buf rs fs HN H IH]; [constructor|cbn; constructor; exact IH|]. cbn [filter fst].
  destruct ok; [cbn; constructor; exact IH|exact IH].
Qed.
Lemma deliveries_accepted_all S rs fs : deliveries S rs fs -> Forall (fun f => accepted S (fb_buffer f)) fs.
Proof. induction 1; [constructor|constructor; assumption|assumption]. Qed.
Lemma handed_part S p w : setup_ok S -> reachable S p w ->
  part (heard (w_hist w)) (map fb_buffer (handed (w_hist w))) /\ Forall (fun f => accepted S (fb_buffer f)) (handed (w_hist w)).
Proof.
  intros OK HR. destruct (C41_at_most_one_pending S p w OK HR) as [HD|(rs & buf & ER & _ & HD)].
  - split; [|eapply deliveries_accepted_all; eassumption]. eapply part_trans; [apply heard_receptions|eapply deliveries_part; eassumption].
  - split; [|eapply deliveries_accepted_all; eassumption]. eapply part_trans; [apply heard_receptions|]. rewrite ER, filter_app, map_app.
    rewrite <- (app_nil_r (map fb_buffer _)). apply part_app; [eapply deliveries_part; eassumption|apply part_nil_r].
Qed.
Theorem C87_in_order : forall SA SB l, link SA SB l ->
  copies (carried (s_device SA) (s_device SB)) (aired (of_side SideA l)) (map fb_buffer (handed (of_side SideB l))).
Proof.
  intros SA SB l [HA HB _ (p & w & HR & EW) HM]. destruct (HM l []) as [H1 _]; [rewrite app_nil_r; reflexivity|].
  destruct (handed_part SB p w (proj1 HB) HR) as [HP _]. rewrite EW in HP. exact (copies_part _ _ _ _ H1 HP).
Qed.
Print Assumptions C87_in_order.

(** ** Every frame of A's upper layer is given to B's at most macMaxFrameRetries times. *)
Lemma ack_not_accepted SA SB s b buf : setup_ok SA -> shows_written (s_device SA) -> octet s -> b = ack_octets SA s ->
  carried (s_device SA) (s_device SB) b buf -> ~ accepted SB buf.
Proof.
  intros OK SW HS -> (o & w & o' & H1 & H2) (ob & wb & r & H3 & HD & _ & HT).
  destruct (ack_frame SA OK SW s HS) as (oa & rest & H4 & HAc). destruct (holds_fun _ _ _ _ _ _ H1 H4) as [_ ->].
  destruct (holds_fun _ _ _ _ _ _ H2 H3) as [_ <-]. apply HT. rewrite (acceptable_fun _ _ _ HD HAc). reflexivity.
Qed.
Lemma answered_octet S h s : answered S h s -> octet s.
Proof.
  intros (h0 & buf & h' & _ & _ & (o & b & r & HH & _ & _ & HS) & HO). eapply sequence_octet; [|exact HS]. eapply holds_octets; eassumption.
Qed.
Theorem C87_copies : forall SA SB l, link SA SB l ->
  (N.of_nat (length (handed (of_side SideB l))) <= p_retries (s_params SA) * N.of_nat (taken (of_side SideA l)))%N.
Proof.
  intros SA SB l HL. assert (HC := C87_in_order SA SB l HL). destruct HL as [(OKA & STA & SWA) (OKB & STB & SWB) (pa & wa & HRA & EA) (pb & wb & HRB & EB) HM].
  destruct (handed_part SB pb wb OKB HRB) as [_ HF]. rewrite EB in HF. unfold aired in HC. rewrite aired_sent in HC. apply copies_map in HC.
  apply (copies_filter _ from_tx) in HC.
  - apply copies_length in HC. rewrite map_length in HC. assert (H1 := sent_tx (of_side SideA l) None None).
    assert (H2 := frames_sent SA OKA _ (C45_frames SA pa wa OKA HRA)). rewrite times_sent_tx_log, taken_tx_log, EA in H2. lia.
  - intros [t b] buf HI HCa HS. destruct t; [reflexivity|exfalso]. cbn [snd] in HCa.
    destruct (sent_in _ _ _ _ _ HS) as [X|(h1 & c & d & h2 & E)]; [discriminate|].
    assert (HH : history SA (h1 ++ PrepareTx Rx c b d :: h2)) by (rewrite <- E, <- EA; apply (reachable_history SA OKA pa wa HRA)).
    destruct (ack_source SA OKA _ _ _ _ _ HH) as (s & HAn & Eb). apply in_map_iff in HI. destruct HI as (f & <- & HI).
    eapply ack_not_accepted; [exact OKA|exact SWA|exact (answered_octet _ _ _ HAn)|exact Eb|exact HCa|]. eapply Forall_forall in HF; [exact HF|exact HI].
Qed.
Print Assumptions C87_copies.

(** Not at most once: if the acknowledgement is lost, B's upper layer is given the frame again (A reports a retry, no failure). *)
Definition C87_once_statement : Prop := forall SA SB l, link SA SB l -> length (handed (of_side SideB l)) <= taken (of_side SideA l).
Theorem C87_once_refuted : ~ C87_once_statement /\
  exists SA SB l f, link SA SB l /\ taken (of_side SideA l) = 1 /\ handed (of_side SideB l) = [f; f] /\ existsb gave_up (of_side SideA l) = false.
Proof.
  split.
  - intros H. specialize (H SA0 S0 twice link_twice). vm_compute in H. lia.
  - exists SA0, S0, twice, (mkFb on_air true). split; [exact link_twice|]. split; [vm_compute; reflexivity|]. split; vm_compute; reflexivity.
Qed.
Print Assumptions C87_once_refuted.

(** ** If A does not report that it gave a frame up whose acknowledgement it asks for, was it given to B's upper layer? *)
(** What happens from the moment A takes a frame to the moment it asks for the next one. *)
Definition course_of (SA : Setup) (h h1 : list event) (fb : FrameBuffer) (h2 : list event) (b : list N) (s : N) : Prop :=
  exists r h3 es, h = h1 ++ NextFrame (Some fb) :: h2 ++ NextFrame r :: h3 /\ existsb takes h2 = false /\ prepared SA (fb_buffer fb) b (Some s) es.
(** B's upper layer does not itself send acknowledgements with the frame's number. *)
Definition C87_success_statement : Prop := forall SA SB l h1 fb h2 b s, link SA SB l -> course_of SA (of_side SideA l) h1 fb h2 b s ->
  existsb gave_up h2 = false ->
  (forall f, In (NextFrame (Some f)) (of_side SideB l) -> ~ acknowledges SB s (fb_buffer f)) ->
  exists buf, In (Received (mkFb buf true)) (of_side SideB l) /\ carried (s_device SA) (s_device SB) b buf.
(** Yes, provided no earlier frame of A had the same sequence number. *)
Lemma success : forall SA SB l h1 fb h2 r h3 b s es, link SA SB l ->
  of_side SideA l = h1 ++ NextFrame (Some fb) :: h2 ++ NextFrame r :: h3 -> existsb takes h2 = false ->
  prepared SA (fb_buffer fb) b (Some s) es -> existsb gave_up h2 = false ->
  (forall f, In (NextFrame (Some f)) h1 -> ~ numbered (s_device SA) s (fb_buffer f)) ->
  (forall f, In (NextFrame (Some f)) (of_side SideB l) -> ~ acknowledges SB s (fb_buffer f)) ->
  exists buf, In (Received (mkFb buf true)) (of_side SideB l) /\ carried (s_device SA) (s_device SB) b buf.
Proof.
  intros SA SB l h1 fb h2 r h3 b s es [(OKA & STA & SWA) (OKB & STB & SWB) (pa & wa & HRA & EA) (pb & wb & HRB & EB) HM] E HQ HP HG HU HN.
  assert (HHA := reachable_history SA OKA pa wa HRA). rewrite EA in HHA. assert (HHB := reachable_history SB OKB pb wb HRB). rewrite EB in HHB.
  assert (HX := HHA). rewrite E in HX. destruct (acked SA OKA _ _ _ _ _ _ _ _ HX HQ HG HP) as (h21 & ack & h22 & E2 & HAck). clear HX.
  (* when A heard the acknowledgement *)
  assert (EA1 : of_side SideA l = (h1 ++ NextFrame (Some fb) :: h21) ++ Receive Tx (Some (true, ack)) :: h22 ++ NextFrame r :: h3).
  { rewrite E, E2. rewrite <- !app_assoc. cbn [app]. rewrite <- ?app_assoc. reflexivity. }
  destruct (of_side_split _ _ _ _ _ EA1) as (l1 & l2 & El & F1 & _).
  destruct (HM (l1 ++ [(SideA, Receive Tx (Some (true, ack)))]) l2) as [_ M1]; [rewrite El, <- app_assoc; reflexivity|].
  destruct (HM l1 _ El) as [M2 _]. rewrite !of_side_app in M1. change (of_side SideB [(SideA, Receive Tx (Some (true, ack)))]) with (@nil event) in M1.
  change (of_side SideA [(SideA, Receive Tx (Some (true, ack)))]) with [Receive Tx (Some (true, ack))] in M1. rewrite app_nil_r, heard_app in M1.
  destruct (copies_in _ _ _ ack M1) as (bB & HIB & (o & w & o' & C1 & C2)); [apply in_or_app; right; left; reflexivity|].
  destruct HAck as (oa & wa' & ra & HHa & HAa & HTa & HSa). destruct (holds_fun _ _ _ _ _ _ HHa C2) as [-> ->].
  (* it was sent by B, as an acknowledgement *)
  destruct (aired_prepared _ _ HIB) as (t & g1 & c & d & g2 & EG & _).
  assert (EB1 : of_side SideB l = g1 ++ PrepareTx t c bB d :: g2 ++ of_side SideB ((SideA, Receive Tx (Some (true, ack))) :: l2)).
  { rewrite El, of_side_app, EG, <- app_assoc. reflexivity. }
  destruct t.
  { exfalso. destruct (C80_frames_only SB pb wb g1 c bB d (g2 ++ of_side SideB ((SideA, Receive Tx (Some (true, ack))) :: l2)) OKB HRB) as (g0 & fB & g' & q & es' & -> & _ & HPB); [rewrite EB; exact EB1|].
    assert (HIf : In (NextFrame (Some fB)) (of_side SideB l)) by (rewrite EB1; apply in_or_app; left; apply in_or_app; right; left; reflexivity).
    assert (HO : octets (fb_buffer fB)).
    { rewrite EB1, <- app_assoc in HHB. cbn [app] in HHB. destruct (history_split SB _ _ _ HHB) as (x1 & x2 & x3 & x4 & _ & _ & _ & EL & _).
      destruct (TxLog.law_facts _ _ _ EL) as (_ & _ & F). exact (F fB eq_refl). }
    destruct (prepared_back SB OKB STB _ _ _ _ _ _ _ HO HPB C1 HAa) as (o0 & w0 & r0 & K1 & K2 & K3 & K4).
    apply (HN fB HIf). exists o0, w0, r0. rewrite K3, K4. auto. }
  rewrite EB1 in HHB. destruct (ack_source SB OKB _ _ _ _ _ HHB) as (s' & HAn & EbB). assert (HO' := answered_octet _ _ _ HAn).
  destruct (ack_frame SB OKB SWB s' HO') as (ob & rest & K1 & K2). subst bB. destruct (holds_fun _ _ _ _ _ _ C1 K1) as [_ ->].
  assert (s' = s) as ->. { rewrite (acceptable_fun _ _ _ HAa K2) in HSa. injection HSa as <-. reflexivity. }
  (* because it was given a frame with this number *)
  destruct HAn as (g0 & bufB & g' & Eg1 & HRec & (oB & wB & rB & B1 & B2 & _ & B3) & _).
  exists bufB. split; [rewrite EB1, Eg1; apply in_or_app; left; apply in_or_app; right; right; exact HRec|].
  assert (HIh : In bufB (heard (of_side SideB l1))).
  { rewrite EG, Eg1, !heard_app. apply in_or_app. left. apply in_or_app. right. left. reflexivity. }
  destruct (copies_in _ _ _ _ M2 HIh) as (bA & HIA & HCa). destruct (aired_prepared _ _ HIA) as (t & f1 & c' & d' & f2 & EF & _).
  assert (HHA1 : history SA (f1 ++ PrepareTx t c' bA d' :: f2 ++ Receive Tx (Some (true, ack)) :: h22 ++ NextFrame r :: h3)).
  { rewrite EA1, <- F1, EF, <- app_assoc in HHA. exact HHA. }
  destruct t.
  2:{ exfalso. destruct (ack_source SA OKA _ _ _ _ _ HHA1) as (s' & HAn & Eb'). eapply ack_not_accepted; [exact OKA|exact SWA|exact (answered_octet _ _ _ HAn)|exact Eb'|exact HCa|].
      exists oB, wB, rB. auto. }
  (* which A sent for this frame *)
  destruct (C80_frames_only SA pa wa f1 c' bA d' (f2 ++ Receive Tx (Some (true, ack)) :: h22 ++ NextFrame r :: h3) OKA HRA) as (f0 & fA & f' & q & es' & Ef1 & HNf & HPA).
  { rewrite EA, EA1, <- F1, EF, <- app_assoc. reflexivity. }
  assert (HOA : octets (fb_buffer fA)).
  { rewrite Ef1, <- app_assoc in HHA1. cbn [app] in HHA1. destruct (history_split SA _ _ _ HHA1) as (x1 & x2 & x3 & x4 & _ & _ & _ & EL & _).
    destruct (TxLog.law_facts _ _ _ EL) as (_ & _ & F). exact (F fA eq_refl). }
  assert (HNum : numbered (s_device SA) s (fb_buffer fA)).
  { destruct HCa as (oc & wc & oc' & D1 & D2). destruct (holds_fun _ _ _ _ _ _ D2 B1) as [_ ->]. destruct B2 as [B2 _].
    destruct (prepared_back SA OKA STA _ _ _ _ _ _ _ HOA HPA D1 B2) as (o0 & w0 & r0 & J1 & J2 & _ & J4). exists o0, w0, r0. rewrite J4. auto. }
  assert (fA = fb) as ->.
  { assert (EQ : f0 ++ NextFrame (Some fA) :: f' ++ PrepareTx Tx c' bA d' :: f2 = h1 ++ NextFrame (Some fb) :: h21).
    { rewrite <- F1, EF, Ef1, <- app_assoc. reflexivity. }
    clear - EQ HU HNum HQ E2. revert h1 HU EQ. induction f0 as [|e f0 IH]; intros [|e' h1] HU EQ; cbn [app] in EQ.
    - injection EQ as -> _. reflexivity.
    - injection EQ as <- _. exfalso. exact (HU fA (or_introl eq_refl) HNum).
    - injection EQ as -> EQ. exfalso. subst h2. rewrite <- EQ, !existsb_app in HQ. cbn [existsb takes] in HQ. rewrite orb_true_r in HQ. discriminate.
    - injection EQ as <- EQ. apply (IH h1); [|exact EQ]. intros f HI. apply HU. right. exact HI. }
  destruct (C45_prepared_determined SA (fb_buffer fb) OKA HOA) as (bx & qx & ex & _ & U). destruct (U _ _ _ HP) as (-> & _). destruct (U _ _ _ HPA) as (-> & _). exact HCa.
Qed.
Theorem C87_success_partial : forall SA SB l h1 fb h2 b s, link SA SB l -> course_of SA (of_side SideA l) h1 fb h2 b s ->
  existsb gave_up h2 = false ->
  (forall f, In (NextFrame (Some f)) h1 -> ~ numbered (s_device SA) s (fb_buffer f)) ->
  (forall f, In (NextFrame (Some f)) (of_side SideB l) -> ~ acknowledges SB s (fb_buffer f)) ->
  exists buf, In (Received (mkFb buf true)) (of_side SideB l) /\ carried (s_device SA) (s_device SB) b buf.
Proof. intros SA SB l h1 fb h2 b s HL (r & h3 & es & E & HQ & HP) HG HU HN. eapply success; eassumption. Qed.
Print Assumptions C87_success_partial.
Lemma prepared_1 : prepared SA0 frame on_air (Some 1%N) [].
Proof.
  apply (plan_prepared SA0 SA0_ok); [|vm_compute; reflexivity]. unfold frame, in_length_device. repeat (constructor; [reflexivity|]). constructor.
Qed.
Lemma prepared_2 : prepared SA0 frame2 on_air2 (Some 1%N) [].
Proof. apply (plan_prepared SA0 SA0_ok); [|vm_compute; reflexivity]. repeat (constructor; [reflexivity|]). constructor. Qed.
Lemma no_frames (h : list event) (P : FrameBuffer -> Prop) : existsb takes h = false -> forall f, In (NextFrame (Some f)) h -> P f.
Proof.
  intros H f HI. assert (X : existsb takes h = true); [|congruence]. apply existsb_exists. exists (NextFrame (Some f)). split; [exact HI|reflexivity].
Qed.
(** a case: the second acknowledgement is heard *)
Example C87_success_case : exists h1 h2, link SA0 S0 twice /\ course_of SA0 (of_side SideA twice) h1 outgoing h2 on_air 1 /\ existsb gave_up h2 = false /\
  (forall f, In (NextFrame (Some f)) h1 -> ~ numbered (s_device SA0) 1 (fb_buffer f)) /\
  (forall f, In (NextFrame (Some f)) (of_side SideB twice) -> ~ acknowledges S0 1 (fb_buffer f)).
Proof.
  exists [Polled; Enable true], ([Woken Tx; Woken Rx] ++ a2 ++ retry 1 ++ firstn 4 LinkRuns.success). split; [exact link_twice|]. split.
  - exists None, listens, []. split; [vm_compute; reflexivity|]. split; [vm_compute; reflexivity|exact prepared_1].
  - split; [vm_compute; reflexivity|]. split; [apply no_frames; reflexivity|apply no_frames; vm_compute; reflexivity].
Qed.
(** In general no: A takes a late acknowledgement of an earlier frame with this number for the acknowledgement of this one. *)
Lemma not_carried : ~ carried length_device length_device on_air2 on_air.
Proof.
  intros (o & w & o' & (n & E1 & W1) & (n' & E2 & W2)). vm_compute in E1, E2. injection E1 as <- <-. injection E2 as <- <-. rewrite W1 in W2. vm_compute in W2. discriminate.
Qed.
Theorem C87_success_refuted : ~ C87_success_statement.
Proof.
  intros H. destruct (H SA0 S0 late (a1 ++ a2 ++ retry 1 ++ retry 2 ++ firstn 11 failure') outgoing2 ([Woken Tx] ++ listens ++ next1 ++ next2 ++ firstn 4 stale) on_air2 1%N) as (buf & HI & HC).
  - exact link_late.
  - exists None, (skipn 5 stale), []. split; [vm_compute; reflexivity|]. split; [vm_compute; reflexivity|exact prepared_2].
  - vm_compute. reflexivity.
  - apply no_frames. vm_compute. reflexivity.
  - assert (HB : handed (of_side SideB late) = [mkFb on_air true]) by (vm_compute; reflexivity).
    assert (HX : forall h, In (Received (mkFb buf true)) h -> In (mkFb buf true) (handed h)).
    { clear. induction h as [|e h IH]; intros HI; [exact HI|]. destruct HI as [->|HI]; [left; reflexivity|]. cbn [handed]. destruct e; auto. right. auto. }
    apply HX in HI. rewrite HB in HI. destruct HI as [[= <-]|[]]. exact (not_carried HC).
Qed.
Print Assumptions C87_success_refuted.

(** ** Conversely, a frame reported as not acknowledged may have been given to B's upper layer. *)
Definition C87_given_up_statement : Prop := forall SA SB l h1 fb h2 b s, link SA SB l -> course_of SA (of_side SideA l) h1 fb h2 b s ->
  In (Report AckFailed) h2 -> existsb takes h1 = false ->
  forall buf, In (Received (mkFb buf true)) (of_side SideB l) -> ~ carried (s_device SA) (s_device SB) b buf.
Theorem C87_given_up_refuted : ~ C87_given_up_statement.
Proof.
  intros H. apply (H SA0 S0 lost [Polled; Enable true] outgoing ([Woken Tx; Woken Rx] ++ a2 ++ retry 1 ++ retry 2 ++ firstn 11 failure) on_air 1%N) with (buf := on_air).
  - exact link_lost.
  - exists None, listens, []. split; [vm_compute; reflexivity|]. split; [vm_compute; reflexivity|exact prepared_1].
  - do 2 (apply in_or_app; right). do 2 (apply in_or_app; right). do 8 right. left. reflexivity.
  - reflexivity.
  - replace (of_side SideB lost) with ((b1 ++ b2 ++ [Polled; NextFrame None; Receive Rx (Some (true, on_air))]) ++ tl delivery ++ b4 ++ b5 ++ b4) by (vm_compute; reflexivity).
    apply in_or_app. right. left. reflexivity.
  - exists 1, (window on_air 1 19), 1. split; exists 19; vm_compute; auto.
Qed.
Print Assumptions C87_given_up_refuted.
