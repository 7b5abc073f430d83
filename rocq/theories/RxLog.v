(** RxLog.v -- histories accepted by the receive task's automaton have the form SpecTasks.v demands. *)
From Coq Require Import Lia.
From Verif Require Import Base BaseProofs Spec SpecFrame SpecAddressing FrameControl SpecFrames PhyConfig Csma SpecCsma CsmaProofs CsmaTasks CsmaWorld TaskLogic
  SpecTasks TxAutomaton TxProofs RxAutomaton RxProofs CsmaGlobal TxLog.
From Verif Require Import Async.

Section Log.
Variable S : Setup.
Notation P := (s_params S).
Notation cfg := (s_config S).
Notation dv := (s_device S).
Hypothesis OK : setup_ok S.

Lemma decide_spec buf : octets buf ->
  (decide S buf = None -> ~ accepted S buf) /\
  (forall a q, decide S buf = Some (a, q) -> accepted S buf /\ forall s, acked_with S buf s <-> a = true /\ q = Some s).
Proof.
  intros HO. destruct OK as (HDV & _ & HW & _). unfold decide. destruct (holds_cases dv buf HO) as [(o & b & r & HH & HA)|HN].
  - destruct (rx_decide_accepts P cfg dv (s_hw S) buf o b r HDV HO HW HH HA) as [H1 H2].
    assert (HOb : octets b) by (destruct HH as (n & _ & ->); apply window_octets, HO).
    destruct (delivered_dec P cfg (s_hw S) r b HOb HW HA) as [HD|HD].
    + destruct (H1 HD) as (a & E & HK). rewrite E. split; [discriminate|]. intros a' q [= <- <-]. split; [exists o, b, r; auto|].
      intros s. split.
      * intros (o' & b' & r' & HH' & HD' & HW' & HS'). destruct (holds_fun _ _ _ _ _ _ HH HH') as [-> ->].
        assert (r = r') by (apply (acceptable_fun b'); [exact HA|apply HD']). subst r'. split; [apply HK; exact HW'|exact HS'].
      * intros [-> HS']. exists o, b, r. split; [exact HH|]. split; [exact HD|]. split; [apply HK; reflexivity|exact HS'].
    + rewrite (H2 HD). split; [|discriminate]. intros _ (o' & b' & r' & HH' & HD'). destruct (holds_fun _ _ _ _ _ _ HH HH') as [-> ->].
      assert (r = r') by (apply (acceptable_fun b'); [exact HA|apply HD']). subst r'. exact (HD HD').
  - rewrite (rx_decide_rejects P cfg dv (s_hw S) buf HDV HO HN). split; [|discriminate]. intros _ (o & b & r & HH & HD & _). apply HN. eauto.
Qed.

Definition received_ok (buf : list N) (a : bool) (q : option N) : Prop :=
  accepted S buf /\ forall s, acked_with S buf s <-> a = true /\ q = Some s.
(** what is in the log of the reception under way *)
Definition underway (c : control) (l : list event) : Prop :=
  let acking s l1 := exists buf, l = Receive Rx (Some (true, buf)) :: Received (mkFb buf true) :: l1 /\ accepted S buf /\ acked_with S buf s in
  match c with
  | RDeliver buf (a, q) => l = [Receive Rx (Some (true, buf))] /\ received_ok buf a q
  | RAck s => acking s []
  | RAckDelay s => acking s [Delay Rx (ack_delay_us S)]
  | RAckSend s | RAckPrepare s => acking s [Delay Rx (ack_delay_us S); DelayDone Rx true]
  | RAckAir s => acking s [Delay Rx (ack_delay_us S); DelayDone Rx true; PrepareTx Rx (ack_config S) (ack_octets S s) true]
  | _ => l = []
  end.
Definition rx_inv (c : control) (l : list event) : Prop :=
  exists ls l', l = concat ls ++ l' /\ Forall (reception_log S) ls /\ underway c l'.
Definition rlogged (e : event) : list event := if rx_step e then [e] else [].
Lemma rx_log_snoc h e : rx_log (h ++ [e]) = rx_log h ++ rlogged e.
Proof. unfold rx_log, rlogged. rewrite filter_app. cbn. destruct (rx_step e); reflexivity. Qed.
Lemma rlogged_other e : owner e <> Some Rx -> rlogged e = [].
Proof. unfold rlogged. destruct e; cbn; try reflexivity; try (destruct t; congruence); congruence. Qed.

Lemma rx_inv_log c l : rx_inv c l -> receptions_log S l.
Proof.
  intros (ls & l' & -> & HF & HU). exists ls, l'. split; [reflexivity|]. split; [exact HF|].
  assert (K : forall s l1 l2, (exists buf, l' = Receive Rx (Some (true, buf)) :: Received (mkFb buf true) :: l1 /\ accepted S buf /\ acked_with S buf s) ->
    l1 ++ l2 = [Delay Rx (ack_delay_us S); DelayDone Rx true; PrepareTx Rx (ack_config S) (ack_octets S s) true; Transmit Rx (Some true)] ->
    exists l'', reception_log S (l' ++ l'')).
  { intros s l1 l2 (buf & -> & HA & HW) E. exists l2. cbn [app]. rewrite E. apply rec_acked; assumption. }
  destruct c; try (left; exact HU); right; cbn [underway] in HU.
  - destruct d as [a q]. destruct HU as [-> [HA HK]]. destruct a; [destruct q as [s|]|].
    + exists [Received (mkFb buf true); Delay Rx (ack_delay_us S); DelayDone Rx true; PrepareTx Rx (ack_config S) (ack_octets S s) true; Transmit Rx (Some true)].
      apply rec_acked; [exact HA|apply HK; auto].
    + exists [Received (mkFb buf true)]. apply rec_delivered; [exact HA|]. intros (s & HS). apply HK in HS. destruct HS; discriminate.
    + exists [Received (mkFb buf true)]. apply rec_delivered; [exact HA|]. intros (s & HS). apply HK in HS. destruct HS; discriminate.
  - eapply K; [exact HU|reflexivity].
  - eapply K; [exact HU|reflexivity].
  - eapply K; [exact HU|reflexivity].
  - eapply K; [exact HU|reflexivity].
  - eapply K; [exact HU|reflexivity].
Qed.

Lemma rx_inv_same c c' l : (forall l', underway c l' -> underway c' l') -> rx_inv c l -> rx_inv c' (l ++ []).
Proof. intros HS (ls & l' & -> & HF & HU). rewrite app_nil_r. exists ls, l'. auto. Qed.
Lemma rx_inv_more c c' l e : (forall l', underway c l' -> underway c' (l' ++ [e])) -> rx_inv c l -> rx_inv c' (l ++ [e]).
Proof. intros HS (ls & l' & -> & HF & HU). exists ls, (l' ++ [e]). rewrite app_assoc. auto. Qed.
Lemma rx_inv_end c c' l e : (forall l', underway c l' -> reception_log S (l' ++ [e])) -> underway c' [] -> rx_inv c l -> rx_inv c' (l ++ [e]).
Proof.
  intros HS H0 (ls & l' & -> & HF & HU). exists (ls ++ [l' ++ [e]]), []. rewrite concat_app. cbn [concat]. rewrite !app_nil_r, app_assoc.
  split; [reflexivity|]. split; [|exact H0]. apply Forall_app. auto.
Qed.
Lemma rx_inv_step r e r' l : rx_next S r e = Some r' -> owner e = Some Rx \/ e = Polled ->
  (forall t b, e = Receive t (Some b) -> octets (snd b)) ->
  rx_inv (r_control r) l -> rx_inv (r_control r') (l ++ rlogged e).
Proof.
  destruct r as [c held busy]. cbn [r_control]. intros E HO HRcv HI.
  destruct e; cbn [rx_next] in E; try discriminate; try (destruct t; try discriminate); try (match goal with x : cell |- _ => destruct x; try discriminate end).
  - (* Polled *) destruct c; try discriminate; injection E as <-; cbn [r_control rlogged rx_step]; try (destruct receiving);
      (eapply rx_inv_same; [|exact HI]; cbn [underway]; auto).
  - (* Woken *) destruct c; try discriminate; (destruct busy; [discriminate|]); injection E as <-; (eapply rx_inv_same; [|exact HI]; cbn [underway]; auto).
  - (* PrepareTx *) destruct c; try discriminate. destruct (txconfig_dec c0 (ack_config S)) as [->|]; [|discriminate].
    destruct (octets_dec buf (ack_octets S s)) as [->|]; [|discriminate]. destruct held; [|discriminate]. injection E as <-.
    destruct done; cbn [r_control rlogged rx_step]; [eapply rx_inv_more|eapply rx_inv_same]; try exact HI; cbn [underway]; [|auto].
    intros l' (b & -> & HA & HW). exists b. auto.
  - (* Transmit *) destruct c; try discriminate. destruct (held && busy); [|discriminate]. destruct sent as [b|]; injection E as <-; cbn [r_control rlogged rx_step].
    + eapply rx_inv_end; [|reflexivity|exact HI]. cbn [underway]. intros l' (buf & -> & HA & HW). apply rec_acked; assumption.
    + eapply rx_inv_same; [|exact HI]; cbn [underway]; auto.
  - (* PrepareRx *) destruct c; try discriminate. destruct (rxconfig_dec c0 (listen_config S)) as [->|]; [|discriminate]. destruct held; [|discriminate].
    injection E as <-. destruct done; (eapply rx_inv_same; [|exact HI]; cbn [underway r_control]; auto).
  - (* Receive *) destruct c; try discriminate. destruct (held && busy); [|discriminate]. destruct r as [[[|] buf]|]; [| |injection E as <-; eapply rx_inv_same; [|exact HI]; cbn [underway r_control]; auto].
    + injection E as <-. cbn [r_control]. assert (HOb := HRcv Rx (true, buf) eq_refl). cbn [snd] in HOb. destruct (decide_spec buf HOb) as [D1 D2].
      destruct (decide S buf) as [[a q]|].
      * eapply rx_inv_more; [|exact HI]. cbn [underway]. intros l' ->. split; [reflexivity|]. apply D2. reflexivity.
      * eapply rx_inv_end; [|reflexivity|exact HI]. cbn [underway]. intros l' ->. apply rec_ignored. intros [_ X]. exact (D1 eq_refl X).
    + injection E as <-. eapply rx_inv_end; [|reflexivity|exact HI]. cbn [underway]. intros l' ->. apply rec_ignored. intros [X _]. discriminate.
  - (* Cancel *) destruct c; try discriminate. destruct (held && busy); [|discriminate]. injection E as <-. eapply rx_inv_same; [|exact HI]; cbn [underway r_control]; auto.
  - (* Lock *) destruct c; try discriminate. destruct held; [discriminate|]. destruct busy; [discriminate|]. destruct ok; injection E as <-; (eapply rx_inv_same; [|exact HI]; cbn [underway r_control]; auto).
  - (* Holds *) destruct c; try discriminate; injection E as <-; try destruct b; (eapply rx_inv_same; [|exact HI]; cbn [underway r_control]; auto).
  - (* Release *) destruct c; try discriminate; (destruct busy; [discriminate|]); injection E as <-; (eapply rx_inv_same; [|exact HI]; cbn [underway r_control]; auto).
  - (* SignalReceived *) destruct c; try discriminate. injection E as <-. destruct ok; (eapply rx_inv_same; [|exact HI]; cbn [underway r_control]; auto).
  - (* Received *) destruct c; try discriminate. destruct f as [fb fd]. cbn [fb_buffer fb_dirty] in E. destruct (octets_dec fb buf) as [->|]; [|discriminate].
    destruct fd; [|discriminate]. injection E as <-. cbn [r_control]. destruct d as [[|] [s|]].
    + eapply rx_inv_more; [|exact HI]. cbn [underway]. intros l' [-> [HA HK]]. exists buf. split; [reflexivity|]. split; [exact HA|apply HK; auto].
    + eapply rx_inv_end; [|reflexivity|exact HI]. cbn [underway]. intros l' [-> [HA HK]]. apply rec_delivered; [exact HA|]. intros (s & HS). apply HK in HS. destruct HS; discriminate.
    + eapply rx_inv_end; [|reflexivity|exact HI]. cbn [underway]. intros l' [-> [HA HK]]. apply rec_delivered; [exact HA|]. intros (s' & HS). apply HK in HS. destruct HS; discriminate.
    + eapply rx_inv_end; [|reflexivity|exact HI]. cbn [underway]. intros l' [-> [HA HK]]. apply rec_delivered; [exact HA|]. intros (s & HS). apply HK in HS. destruct HS; discriminate.
  - (* ReceivedDone *) injection E as <-. eapply rx_inv_same; [|exact HI]; cbn [r_control]; auto.
  - (* Delay *) destruct c; try discriminate. destruct (Z.eq_dec us (ack_delay_us S)) as [->|]; [|discriminate]. injection E as <-.
    eapply rx_inv_more; [|exact HI]. cbn [underway]. intros l' (b & -> & HA & HW). exists b. auto.
  - (* DelayDone *) destruct c; try discriminate. injection E as <-. destruct done; [eapply rx_inv_more|eapply rx_inv_same]; try exact HI; cbn [underway r_control]; [|auto].
    intros l' (b & -> & HA & HW). exists b. auto.
Qed.

Definition rx_state_inv (h : list event) (x : both) : Prop :=
  match fst x with Enabling => rx_log h = [] | Active _ _ r => rx_inv (r_control r) (rx_log h) end.
Lemma rx_state_inv_accepts h x : accepts S both_start h = Some x -> rx_state_inv h x.
Proof.
  apply accepts_ind; [reflexivity|]. clear h x. intros h [g l] e y _ HI HN. apply both_next_inv in HN. destruct HN as (g' & l' & -> & EG & EL).
  unfold rx_state_inv in *. cbn [fst] in *. rewrite rx_log_snoc. destruct (law_facts _ _ _ EL) as (F1 & F2 & F3). destruct g as [|sec t r].
  - apply gnext_enabling in EG. destruct EG as [EO EG]. rewrite HI, rlogged_other by congruence. destruct EG as [->| ->]; [reflexivity|].
    exists [], []. cbn [rx_start r_control underway]. auto.
  - apply gnext_active in EG. destruct EG as [(-> & t' & r' & _ & ER & ->)|[(NP & EO & -> & t' & _ & ->)|(NP & EO & r' & ER & ->)]].
    + eapply rx_inv_step; [exact ER|auto|exact F1|exact HI].
    + rewrite rlogged_other, app_nil_r by congruence. exact HI.
    + eapply rx_inv_step; [exact ER|auto|exact F1|exact HI].
Qed.

(** The receive task handles one reception after the other, each with the course of SpecTasks.v. *)
Theorem receiving p w : reachable S p w -> receptions_log S (rx_log (w_hist w)).
Proof.
  intros HR. destruct (reachable_known S OK p w HR) as (g & l & HA & _). assert (HI := rx_state_inv_accepts _ _ HA). unfold rx_state_inv in HI. cbn [fst] in HI.
  destruct g as [|sec t r]; [|exact (rx_inv_log _ _ HI)]. rewrite HI. exists [], []. auto.
Qed.

(** ** Deliveries *)
Lemma receptions_log_of h : receptions h = receptions (rx_log h).
Proof.
  induction h as [|e h IH]; [reflexivity|]. destruct e; cbn; try exact IH; try (destruct t; cbn; exact IH).
  - destruct t; [exact IH|]. destruct done; cbn; exact IH.
  - destruct t; [exact IH|]. destruct sent; cbn; exact IH.
  - destruct t; [exact IH|]. destruct r as [r|]; cbn; [f_equal|]; exact IH.
  - destruct t; [exact IH|]. destruct done; cbn; exact IH.
Qed.
Lemma handed_log_of h : handed h = handed (rx_log h).
Proof.
  induction h as [|e h IH]; [reflexivity|]. destruct e; cbn; try exact IH; try (destruct t; cbn; exact IH).
  - destruct t; [exact IH|]. destruct done; cbn; exact IH.
  - destruct t; [exact IH|]. destruct sent; cbn; exact IH.
  - destruct t; [exact IH|]. destruct r as [r|]; cbn; exact IH.
  - f_equal. exact IH.
  - destruct t; [exact IH|]. destruct done; cbn; exact IH.
Qed.
Lemma receptions_app h h' : receptions (h ++ h') = receptions h ++ receptions h'.
Proof.
  induction h as [|e h IH]; [reflexivity|]. destruct e; cbn; try exact IH. destruct t; [exact IH|]. destruct r as [r|]; cbn; [f_equal|]; exact IH.
Qed.
Lemma handed_app h h' : handed (h ++ h') = handed h ++ handed h'.
Proof. induction h as [|e h IH]; [reflexivity|]. destruct e; cbn; try exact IH. f_equal. exact IH. Qed.
Lemma deliveries_app rs fs rs' fs' : deliveries S rs fs -> deliveries S rs' fs' -> deliveries S (rs ++ rs') (fs ++ fs').
Proof. induction 1; intros; cbn; [assumption|constructor; auto|constructor; auto]. Qed.
Lemma reception_deliveries l : reception_log S l -> deliveries S (receptions l) (handed l).
Proof.
  destruct 1; cbn.
  - apply deliveries_other; [assumption|constructor].
  - apply deliveries_accepted; [assumption|constructor].
  - apply deliveries_accepted; [assumption|constructor].
Qed.
Lemma concat_deliveries ls : Forall (reception_log S) ls -> deliveries S (receptions (concat ls)) (handed (concat ls)).
Proof.
  induction 1 as [|l ls HL HF IH]; cbn [concat]; [constructor|]. rewrite receptions_app, handed_app. apply deliveries_app; [apply reception_deliveries; exact HL|exact IH].
Qed.
Definition to_deliver (r : rxstate) : option (list N) := match r_control r with RDeliver buf _ => Some buf | _ => None end.
Lemma inv_deliveries c l : rx_inv c l ->
  match c with
  | RDeliver buf _ => accepted S buf /\ exists rs, receptions l = rs ++ [(true, buf)] /\ deliveries S rs (handed l)
  | _ => deliveries S (receptions l) (handed l)
  end.
Proof.
  intros (ls & l' & -> & HF & HU). assert (HC := concat_deliveries _ HF). rewrite receptions_app, handed_app.
  assert (K : forall s l1, (exists buf, l' = Receive Rx (Some (true, buf)) :: Received (mkFb buf true) :: l1 /\ accepted S buf /\ acked_with S buf s) ->
    receptions l1 = [] -> handed l1 = [] -> deliveries S (receptions (concat ls) ++ receptions l') (handed (concat ls) ++ handed l')).
  { intros s l1 (buf & -> & HA & _) E1 E2. apply deliveries_app; [exact HC|]. cbn. rewrite E1, E2. apply deliveries_accepted; [exact HA|constructor]. }
  destruct c; cbn [underway] in HU; try (subst l'; cbn; rewrite !app_nil_r; exact HC).
  - destruct d as [a q]. destruct HU as [-> [HA _]]. split; [exact HA|]. exists (receptions (concat ls)). cbn. rewrite app_nil_r. auto.
  - eapply K; [exact HU|reflexivity|reflexivity].
  - eapply K; [exact HU|reflexivity|reflexivity].
  - eapply K; [exact HU|reflexivity|reflexivity].
  - eapply K; [exact HU|reflexivity|reflexivity].
  - eapply K; [exact HU|reflexivity|reflexivity].
Qed.

Theorem delivered_in_order p w : reachable S p w ->
  deliveries S (receptions (w_hist w)) (handed (w_hist w)) \/
  exists rs buf, receptions (w_hist w) = rs ++ [(true, buf)] /\ accepted S buf /\ deliveries S rs (handed (w_hist w)).
Proof.
  intros HR. destruct (reachable_known S OK p w HR) as (g & l & HA & _). assert (HI := rx_state_inv_accepts _ _ HA). unfold rx_state_inv in HI. cbn [fst] in HI.
  rewrite receptions_log_of, handed_log_of. destruct g as [|sec t r]; [rewrite HI; left; constructor|]. apply inv_deliveries in HI.
  destruct (r_control r); try (left; exact HI). right. destruct HI as (H1 & rs & H2 & H3). eauto.
Qed.
Theorem delivered_at_suspension c p w : reachable S (Pend c p) w -> deliveries S (receptions (w_hist w)) (handed (w_hist w)).
Proof.
  intros HR. destruct (reachable_known S OK _ w HR) as (g & l & HA & _ & _ & _ & HF). assert (HI := rx_state_inv_accepts _ _ HA). unfold rx_state_inv in HI. cbn [fst] in HI.
  rewrite receptions_log_of, handed_log_of. destruct g as [|sec t r]; [rewrite HI; constructor|]. apply inv_deliveries in HI.
  destruct (Fine_pend_inv _ _ _ _ _ _ _ _ HF) as (_ & g' & EG & _). apply gnext_active in EG.
  destruct EG as [(_ & t' & r' & _ & ER & _)|[(X & _)|(X & _)]]; [|congruence|congruence].
  destruct r as [ct h b]. cbn [r_control] in HI. destruct ct; try exact HI. discriminate ER.
Qed.
End Log.
