(** RxProofs.v -- the receive task follows RxAutomaton.v. *)
From Coq Require Import ZArith NArith Lia.
From Verif Require Import Base BaseProofs Spec FrameControl SpecFrame SpecAddressing AddressingProofs SpecFrames PhyConfig Time Csma SpecCsma CsmaProofs CsmaTasks CsmaWorld TaskLogic SpecTasks TxAutomaton TxProofs RxAutomaton.
From Verif Require Import Async AsyncProofs RadioFutures.

Section Rx.
Variable S : Setup.
Notation P := (s_params S).
Notation cfg := (s_config S).
Notation dv := (s_device S).
Notation next := (rx_next S).
Notation FineR := (Fine rx_possible next).
Hypothesis OK : setup_ok S.

(** suspended inside receive_frame_task: radio_guard is in scope *)
Definition in_loop (c : list (op unit)) (s : rxstate) : Prop := rx_drop (c ++ [destructor (Release RxGuard)]) s.
Notation st c h b := (mkRxState c h b).
Lemma in_loop_idle c h : in_loop [] (st c h false).
Proof. reflexivity. Qed.
Lemma in_loop_busy c : in_loop [destructor (Cancel Rx)] (st c true true).
Proof. reflexivity. Qed.

Lemma decide_total buf : octets buf -> exists d, rx_decide P cfg dv (s_hw S) buf = Done d /\
  (forall a s, d = Some (a, Some s) -> octet s).
Proof.
  intros HO. destruct OK as (HDV & _ & HW & _). destruct (holds_cases dv buf HO) as [(o & b & r & HH & HA)|HN].
  - destruct (rx_decide_accepts P cfg dv (s_hw S) buf o b r HDV HO HW HH HA) as [H1 H2].
    assert (HOb : octets b) by (destruct HH as (n & _ & ->); apply window_octets, HO).
    destruct (delivered_dec P cfg (s_hw S) r b HOb HW HA) as [HD|HD].
    + destruct (H1 HD) as (a & E & _). exists (Some (a, sequence_number r b)). split; [exact E|].
      intros a' s [= <- ES]. unfold sequence_number in ES. apply nth_error_In in ES.
      unfold seq_octets in ES. eapply Forall_forall; [|exact ES]. destruct (fr_sequence_number_suppression r); [constructor|].
      apply octets_firstn, octets_skipn, HOb.
    + exists None. split; [exact (H2 HD)|discriminate].
  - exists None. split; [apply rx_decide_rejects; assumption|discriminate].
Qed.

(** the contents of the ACK buffer *)
Definition ack_buffer (t : list N) : Prop := t = repeat 0%N 128 \/ exists s, octet s /\ t = ack_octets S s.
Lemma build_ack_octets s t : octet s -> ack_buffer t -> build_ack dv s t = Done (ack_octets S s).
Proof.
  intros HS HT. destruct OK as (_ & HL & _). assert (E : skipn (length (dev_header dv 3) + 3) t = repeat 0%N (128 - (length (dev_header dv 3) + 3))).
  { destruct HT as [->|(s' & _ & ->)].
    - replace 128 with ((length (dev_header dv 3) + 3) + (128 - (length (dev_header dv 3) + 3))) at 1 by lia.
      rewrite repeat_app, skipn_app, skipn_all2 by (rewrite repeat_length; lia). rewrite repeat_length.
      replace (length (dev_header dv 3) + 3 - (length (dev_header dv 3) + 3)) with 0 by lia. reflexivity.
    - unfold ack_octets. rewrite app_assoc, skipn_app, skipn_all2 by (rewrite app_length; cbn [length]; lia).
      rewrite app_length. cbn [length]. replace (length (dev_header dv 3) + 3 - (length (dev_header dv 3) + 3)) with 0 by lia. reflexivity. }
  rewrite build_ack_ok.
  - rewrite E. reflexivity.
  - exact HS.
  - split.
    + destruct HT as [->|(s' & _ & ->)]; [rewrite repeat_length; lia|]. unfold ack_octets. rewrite !app_length, repeat_length. cbn [length]. lia.
    + destruct HT as [->|(s' & _ & ->)].
      * left. unfold window. replace 128 with (length (dev_header dv 3) + (3 + (125 - length (dev_header dv 3)))) by lia.
        rewrite repeat_app, skipn_app, skipn_all2 by (rewrite repeat_length; lia). rewrite repeat_length, Nat.sub_diag. reflexivity.
      * right. exists s'. unfold ack_octets. apply (window_app _ [2; 16; s']%N).
Qed.

(** the state while waiting for the radio or a signal *)
Lemma listen_fine A (k : (bool * list N) + unit -> future A) Q :
  (forall buf, FineR in_loop (k (inl (false, buf))) (st RRelease true false) Q) ->
  (forall buf, octets buf -> FineR in_loop (k (inl (true, buf))) (st (match decide S buf with None => RYield | Some d => RDeliver buf d end) true false) Q) ->
  FineR in_loop (k (inr tt)) (st RRelease true false) Q ->
  FineR in_loop (bind (select (receive Rx (listen_config S)) (awaits SignalReceived)) k) (st RPrepare true false) Q.
Proof.
  intros HF HT HS. apply Fine_bind.
  apply (Fine_select_awaits _ (fun st H => H) next).
  assert (HD : forall b, (forall s1, next (st (RAsk b) true true) (SignalReceived false) = Some s1 -> in_loop [destructor (Cancel Rx)] s1) /\
     (rx_possible (st (RAsk b) true true) (SignalReceived true) -> exists s1 s2, next (st (RAsk b) true true) (SignalReceived true) = Some s1 /\
        lrun next [destructor (Cancel Rx)] s1 = Some s2 /\ FineR in_loop (k (inr tt)) s2 Q)).
  { intros b. split.
    - intros s1 [= <-]. reflexivity.
    - intros _. do 2 eexists. split; [reflexivity|]. split; [reflexivity|]. exact HS. }
  unfold receive, radio_future. apply Fine_scoped.
  apply (Fine_awaits_inv _ _ _ _ _ _ (fun s => exists busy, s = st RPrepare true busy)); [exists false; reflexivity| |].
  - intros s (busy & ->). eexists. eexists. split; [|split; [|split]].
    + cbn. rewrite if_same. reflexivity.
    + apply (HD false).
    + reflexivity.
    + exists true. reflexivity.
  - intros s (busy & ->) _. eexists. split; [cbn; rewrite if_same; reflexivity|]. apply Fine_last.
    eapply Fine_awaiting; [reflexivity|apply (HD true)|reflexivity|].
    intros [ok buf] HP. cbn in HP. destruct (buffer_octets _ HP) as [HO _]. destruct ok.
    + eexists. split; [reflexivity|]. apply Fine_ret. apply HT. exact HO.
    + eexists. split; [reflexivity|]. apply Fine_ret. apply HF.
Qed.

Lemma ack_send_fine A s (k : bool -> future A) Q :
  (forall r, FineR in_loop (k r) (st RDone true false) Q) ->
  FineR in_loop (bind (transmit Rx (ack_config S) (ack_octets S s)) k) (st (RAckPrepare s) true false) Q.
Proof.
  intros HK. apply Fine_bind. unfold transmit, radio_future. apply Fine_scoped.
  apply (Fine_awaits_inv _ _ _ _ _ _ (fun x => exists busy, x = st (RAckPrepare s) true busy)); [exists false; reflexivity| |].
  - intros x (busy & ->). eexists. eexists. split; [|split; [|split]].
    + cbn -[ack_octets]. rewrite !if_same. reflexivity.
    + apply in_loop_busy.
    + reflexivity.
    + exists true. reflexivity.
  - intros x (busy & ->) _. eexists. split; [cbn -[ack_octets]; rewrite !if_same; reflexivity|]. apply Fine_last.
    eapply Fine_awaiting; [reflexivity|apply in_loop_busy|reflexivity|].
    intros r _. eexists. split; [reflexivity|]. apply Fine_ret. apply HK.
Qed.

Lemma acknowledge_fine a seq t : (forall s, seq = Some s -> octet s) -> ack_buffer t ->
  FineR in_loop (acknowledge S a seq t) (st (match (a, seq) with (false, _) => RFree | (true, None) => RDone | (true, Some s) => RAck s end) true false)
    (fun t' s => (exists h, s = st RDone h false) /\ ack_buffer t').
Proof.
  intros HS HT. destruct OK as (_ & _ & _ & _ & _ & _ & _ & _ & _ & HA & _). destruct a; cbn [acknowledge].
  2:{ eapply Fine_call; [reflexivity|]. apply Fine_ret. split; [exists false; reflexivity|exact HT]. }
  destruct seq as [s|]; [|apply Fine_ret; split; [exists true; reflexivity|exact HT]].
  specialize (HS s eq_refl).
  eapply Fine_lift; [apply build_ack_octets; assumption|].
  eapply Fine_lift.
  { unfold duration_div. rewrite wrap64_small by lia. cbn [Z.eqb orb andb]. rewrite andb_false_r. reflexivity. }
  unfold delay. apply Fine_bind. eapply Fine_call; [cbn -[as_u32 Z.quot]; unfold ack_delay_us; rewrite if_same; reflexivity|].
  apply Fine_last. eapply Fine_awaits; [reflexivity|apply in_loop_idle|reflexivity|]. intros _. eexists. split; [reflexivity|]. apply Fine_ret.
  unfold unwrap_guard. apply Fine_bind. apply Fine_ask. intros h Hh. cbn in Hh. subst h. eexists. split; [reflexivity|]. apply Fine_ret.
  apply ack_send_fine. intros r. apply Fine_ret. split; [exists true; reflexivity|]. right. exists s. auto.
Qed.

Lemma receive_once_fine t s : ack_buffer t -> (exists h, s = st RYield h false \/ s = st RDone h false) ->
  FineR in_loop (receive_once S t) s (fun r s' => match r with
    | inl t' => ack_buffer t' /\ exists h, s' = st RYield h false \/ s' = st RDone h false | inr a => never a s' end).
Proof.
  intros HT (h & Hs). unfold receive_once.
  eapply (Fine_yield _ _ _ _ _ _ s (st RYielded h false)); [destruct Hs as [->| ->]; reflexivity|apply in_loop_idle|reflexivity|].
  apply Fine_ask. intros b Hb. cbn in Hb. subst b. exists (st (if h then RReady else RLock) h false). split; [reflexivity|].
  apply Fine_bind.
  assert (G : FineR in_loop (unwrap_guard RxGuard ;; do r <- select (receive Rx (listen_config S)) (awaits SignalReceived);
  match r with
  | inl (true, buf) =>
      do d <- lift (rx_decide P cfg dv (s_hw S) buf);
      match d with
      | None => Ret (inl t)
      | Some (should_ack, seq) =>
          call (Received (mkFb buf true)) ;;
          do (tx_ack, _) <- join (acknowledge S should_ack seq t) (awaits ReceivedDone);
          Ret (inl tx_ack)
      end
  | _ => call (Release RxGuard) ;; Ret (inl t)
  end) (st RReady true false) (fun r s' => match r with
    | inl t' => ack_buffer t' /\ exists h, s' = st RYield h false \/ s' = st RDone h false | inr a => never a s' end)).
  { unfold unwrap_guard. apply Fine_bind. apply Fine_ask. intros x Hx. cbn in Hx. subst x. eexists. split; [reflexivity|]. apply Fine_ret.
    assert (HR : FineR in_loop (call (Release RxGuard) ;; Ret (inl t)) (st RRelease true false) (fun r s' => match r with
      | inl t' => ack_buffer t' /\ exists h, s' = st RYield h false \/ s' = st RDone h false | inr a => never a s' end)).
    { eapply Fine_call; [reflexivity|]. apply Fine_ret. split; [exact HT|]. exists false. auto. }
    apply listen_fine.
    - intros buf. exact HR.
    - intros buf HO. destruct (decide_total buf HO) as (d & E & HD). unfold decide. rewrite E. eapply Fine_lift; [reflexivity|].
      destruct d as [[a seq]|]; [|apply Fine_ret; split; [exact HT|]; exists true; auto].
      eapply Fine_call.
      { cbn. rewrite if_same. reflexivity. }
      apply Fine_bind. apply Fine_join_awaits; [intros s' b; destruct s'; reflexivity|].
      eapply Fine_mono; [|apply acknowledge_fine; [intros s0 ->; eapply HD; reflexivity|exact HT]].
      intros t' s' ((h' & ->) & HT'). split; [apply in_loop_idle|]. split; [reflexivity|]. apply Fine_ret. split; [exact HT'|]. exists h'. auto.
    - exact HR. }
  destruct h; [apply Fine_ret; exact G|]. apply Fine_last. eapply Fine_awaits; [reflexivity|apply in_loop_idle|reflexivity|].
  intros _. eexists. split; [reflexivity|]. apply Fine_ret. exact G.
Qed.

Theorem rx_fine : FineR rx_drop (receive_frame_task S) rx_start never.
Proof.
  unfold receive_frame_task. apply Fine_scoped.
  apply (Fine_iter _ _ _ _ _ _ (fun t s => ack_buffer t /\ exists h, s = st RYield h false \/ s = st RDone h false)).
  - intros t s [HT Hs]. apply receive_once_fine; assumption.
  - split; [left; reflexivity|]. exists false. left. reflexivity.
Qed.
End Rx.
