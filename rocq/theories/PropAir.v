(** PropAir.v -- C72-C76: enabling the radio, sharing it between the tasks, giving receptions up, and waking oneself, in
    every history of a running CSMA device. Vocabulary: SpecTasks.v, SpecAir.v; [reachable]: see PropTasks.v. *)
From Coq Require Import Lia.
From Verif Require Import Base Sync Spec SpecFrame FrameControl SpecFrames PhyConfig Csma SpecCsma CsmaTasks CsmaWorld SpecTasks SpecAir PropCsma
  LockFacts HandOver AirFacts AirCounts WakeProofs TaskRuns PropTasks.
From Verif Require Import Async AsyncProofs.

(** ** C72 *)
(** Until the radio is enabled nothing but polling it to be enabled happens, and afterwards it is never enabled again. *)
Theorem C72_enabled_first_and_once : forall S p w, setup_ok S -> reachable S p w -> enabled_first (w_hist w).
Proof. intros S p w OK HR. exact (enabled S _ (reachable_history S OK p w HR)). Qed.
Print Assumptions C72_enabled_first_and_once.

(** ** C73 *)
(** While the device is suspended and a received frame [f] is being handed to the upper layer (the receive task has not gone
    on to its next iteration, which starts with waking itself), it holds the radio only if [f] wants an acknowledgement. *)
Theorem C73_radio_free : forall S c p w h1 f h2, setup_ok S -> reachable S (Pend c p) w ->
  w_hist w = h1 ++ Received f :: h2 -> ~ In (Woken Rx) h2 -> cells (w_hist w) RxGuard = true -> wants_ack S (fb_buffer f).
Proof.
  intros S c p w h1 f h2 OK HR HH HN HC. assert (HX := suspended S OK c p w HR). rewrite HH in *. exact (radio_free_while_handing S OK f h1 h2 HX HN HC).
Qed.
Print Assumptions C73_radio_free.

(** ** C74 *)
(** From the transmission of a frame to the last poll of a reception of its acknowledgement, the receive task does not operate
    the radio. *)
Theorem C74_quiet_until_ack : forall S p w h1 h2 r h3, setup_ok S -> reachable S p w ->
  w_hist w = h1 ++ Transmit Tx (Some true) :: h2 ++ Receive Tx r :: h3 -> ~ In (Transmit Tx (Some true)) h2 ->
  forall e, In e h2 -> uses_radio e <> Some Rx.
Proof.
  intros S p w h1 h2 r h3 OK HR HH. apply (quiet_before_ack S h1 h2 r h3). rewrite <- HH. exact (reachable_history S OK p w HR).
Qed.
Print Assumptions C74_quiet_until_ack.
(** From the reception of a frame that is to be acknowledged to the end of the transmission of the acknowledgement, the
    transmit task does not operate the radio. *)
Theorem C74_quiet_until_answered : forall S p w h1 buf s h2, setup_ok S -> reachable S p w ->
  w_hist w = h1 ++ Receive Rx (Some (true, buf)) :: h2 -> acked_with S buf s -> (forall x, ~ In (Transmit Rx (Some x)) h2) ->
  forall e, In e h2 -> uses_radio e <> Some Tx.
Proof.
  intros S p w h1 buf s h2 OK HR HH. apply (quiet_before_answer S OK h1 buf s h2). rewrite <- HH. exact (reachable_history S OK p w HR).
Qed.
Print Assumptions C74_quiet_until_answered.

(** ** C75 *)
(** The full property: a reception is given up only while the transmit task wants the radio. *)
Definition C75_statement : Prop := forall S p w h1 h2, setup_ok S -> reachable S p w -> w_hist w = h1 ++ Cancel Rx :: h2 -> wants_radio h1 = true.
(** It is false: acquire_lock sends its signal a second time after the receive task reacted to the first one, and that is
    received when the transmit task is done (run of TaskRuns.v, tenth poll). *)
Theorem C75_refuted : ~ C75_statement.
Proof.
  intros H. destruct (suspensions (upto 10)) as (c & p & w & HR & HW); [cbn; auto 20|].
  specialize (H S0 (Pend c p) w (firstn (length (upto 10) - 3) (upto 10)) [Release RxGuard; Woken Rx] S0_ok HR).
  assert (E : wants_radio (firstn (length (upto 10) - 3) (upto 10)) = true) by (apply H; rewrite HW; reflexivity). discriminate E.
Qed.
Print Assumptions C75_refuted.
(** What holds: receptions are given up at most as often as the transmit task signalled, which is at most twice for every
    time it got the radio and twice for the next; without it wanting the radio at most once for every time it got it. *)
Theorem C75_bounded_partial : forall S p w, setup_ok S -> reachable S p w ->
  count gives_up (w_hist w) <= count signals (w_hist w) /\
  count signals (w_hist w) <= 2 * count acquires (w_hist w) + 2 /\
  unwanted (w_hist w) <= count acquires (w_hist w).
Proof. intros S p w OK HR. exact (gives_up_signalled S _ (reachable_history S OK p w HR)). Qed.
Print Assumptions C75_bounded_partial.
(** And the transmit task signals only while it wants the radio. *)
Theorem C75_signals_wanted_partial : forall S p w h1 h2, setup_ok S -> reachable S p w -> w_hist w = h1 ++ SignalSend :: h2 -> wants_radio h1 = true.
Proof.
  intros S p w h1 h2 OK HR HH. apply (signals_wanted S h1 h2). rewrite <- HH. exact (reachable_history S OK p w HR).
Qed.
Print Assumptions C75_signals_wanted_partial.

(** ** C76 *)
(** The device wakes itself at most once at the start, once for each reception that completed or was given up, and once for
    each frame it took. *)
Theorem C76_no_busy_waiting : forall S p w, setup_ok S -> reachable S p w ->
  count (wakes Rx) (w_hist w) <= 1 + length (receptions (w_hist w)) + count gives_up (w_hist w) /\
  count (wakes Tx) (w_hist w) <= taken (w_hist w) <= count (wakes Tx) (w_hist w) + 1.
Proof.
  intros S p w OK HR. split; [|exact (wakes_tx S p w HR)].
  assert (E : count completes (w_hist w) = length (receptions (w_hist w))).
  { induction (w_hist w) as [|e h IH]; [reflexivity|]. unfold count in *. destruct e; cbn; try exact IH. destruct t; [exact IH|]. destruct r; cbn; [f_equal|]; exact IH. }
  rewrite <- E. assert (H := wakes_rx S _ (reachable_history S OK p w HR)). lia.
Qed.
Print Assumptions C76_no_busy_waiting.
(** Hence if from some point on nothing is received, no frame is taken and no frame is transmitted, it wakes itself only
    finitely often: in terms of the radio's acquisitions at most as often as this. *)
Theorem C76_wakes_bounded : forall S p w, setup_ok S -> reachable S p w ->
  count (wakes Rx) (w_hist w) + count (wakes Tx) (w_hist w) <=
    3 + length (receptions (w_hist w)) + taken (w_hist w) + 2 * count acquires (w_hist w).
Proof.
  intros S p w OK HR. destruct (C76_no_busy_waiting S p w OK HR) as [H1 [H2 _]]. destruct (C75_bounded_partial S p w OK HR) as (H3 & H4 & _). lia.
Qed.
Print Assumptions C76_wakes_bounded.

(** ** Concrete cases: the run of TaskRuns.v *)
Example C72_case : enabled_first (upto 10) /\ In (Enable true) (upto 10).
Proof. split; [apply (has_enabled [Polled] (tl (tl (upto 10)))); reflexivity|cbn; auto]. Qed.
(** the frame of the run wants an acknowledgement, and the radio is held while it is handed over *)
Example C73_case : exists h1 h2, upto 6 = h1 ++ Received (mkFb frame true) :: h2 /\ existsb (wakes Rx) h2 = false /\ cells (upto 6) RxGuard = true.
Proof. eexists (poll1 ++ poll2 ++ poll3 ++ poll4 ++ firstn 20 poll5), _. repeat split. Qed.
(** sent in the ninth poll, acknowledged in the tenth *)
Example C74_ack_case : exists h1 h2 h3, upto 10 = h1 ++ Transmit Tx (Some true) :: h2 ++ Receive Tx (Some (true, ack)) :: h3 /\
  outcomes h2 = [] /\ existsb (fun e => match uses_radio e with Some Tx => true | _ => false end) h2 = true /\ In Polled h2.
Proof.
  eexists (poll1 ++ poll2 ++ poll3 ++ poll4 ++ poll5 ++ poll6 ++ poll7 ++ poll8 ++ firstn 6 poll9), (skipn 7 poll9 ++ firstn 3 poll10), _.
  split; [reflexivity|]. split; [reflexivity|]. split; [reflexivity|]. cbn. auto 20.
Qed.
(** received in the fifth poll, acknowledged in the seventh, while the transmit task asks for the radio in the sixth *)
Example C74_answer_case : exists h1 h2, upto 6 = h1 ++ Receive Rx (Some (true, frame)) :: h2 /\
  existsb (fun e => match e with Transmit Rx (Some _) => true | _ => false end) h2 = false /\ In (TryLock TxGuard false) h2 /\ In Polled h2.
Proof. eexists (poll1 ++ poll2 ++ poll3 ++ poll4 ++ firstn 19 poll5), _. split; [reflexivity|]. split; [reflexivity|]. cbn. split; auto 20. Qed.
(** three receptions given up, one of them for nothing *)
Example C75_case : count gives_up (upto 10) = 3 /\ unwanted (upto 10) = 1 /\ count signals (upto 10) = 3 /\ count acquires (upto 10) = 2.
Proof. repeat split. Qed.
Example C76_case : count (wakes Rx) (upto 10) = 5 /\ length (receptions (upto 10)) = 1 /\ count (wakes Tx) (upto 10) = 1 /\ taken (upto 10) = 1.
Proof. repeat split. Qed.
