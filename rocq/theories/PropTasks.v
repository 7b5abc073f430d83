(** PropTasks.v -- C40, C41, C44-C48, C63-C65: the running CSMA device. [reachable S p w] (CsmaWorld.v): [w] is any state of
    the world, with the history [w_hist w] of everything that happened, that the device's [run] can reach with any
    behaviour of radio, driver, timer, random numbers and executor; [p] is the rest of the program ([Pend c p]: suspended
    in an await, [c] what its destructors would do). Vocabulary: SpecTasks.v. *)
From Coq Require Import Lia.
From Verif Require Import Base Sync Spec SpecFrame FrameControl SpecFrames PhyConfig Time Csma SpecCsma CsmaTasks CsmaWorld TaskLogic SpecTasks
  TxAutomaton TxProofs RxAutomaton RxProofs CsmaGlobal TxLog RxLog TxFacts LockFacts HandOver TasksLive.
From Verif Require Import Async AsyncProofs.

(** ** C40: what becomes of received buffers *)
(** The receptions of the receive task, the calls of Driver::received and the acknowledgements sent, in the order they
    happened, are one [reception_log] after the other. *)
Theorem C40_receptions : forall S p w, setup_ok S -> reachable S p w -> receptions_log S (rx_log (w_hist w)).
Proof. intros S p w OK. apply (receiving S OK). Qed.
Print Assumptions C40_receptions.

(** ** C41 *)
(** Whenever the device is suspended, the frames handed to Driver::received are the accepted ones among all that were
    received, in the same order, each once. *)
Theorem C41_delivered_once_in_order : forall S c p w, setup_ok S -> reachable S (Pend c p) w ->
  deliveries S (receptions (w_hist w)) (handed (w_hist w)).
Proof. intros S c p w OK. apply (delivered_at_suspension S OK). Qed.
Print Assumptions C41_delivered_once_in_order.
(** In between at most the last reception is not yet handed over. *)
Theorem C41_at_most_one_pending : forall S p w, setup_ok S -> reachable S p w ->
  deliveries S (receptions (w_hist w)) (handed (w_hist w)) \/
  exists rs buf, receptions (w_hist w) = rs ++ [(true, buf)] /\ accepted S buf /\ deliveries S rs (handed (w_hist w)).
Proof. intros S p w OK. apply (delivered_in_order S OK). Qed.
Print Assumptions C41_at_most_one_pending.

(** ** C44 *)
(** A call of transmit_cca (in any state of the world in which the task does not hold the guard for an acknowledgement;
    while it is suspended anything may happen, [elsewhere]) that returns [ok] has appended [l] to the log of the task: [k]
    failed transmissions and, if [ok], a successful one after them; every failure but a last one was reported. *)
Theorem C44_attempts : forall S b w ok w', setup_ok S -> w_held w AckGuard = false ->
  reach sem elsewhere (transmit_cca S b) w (Ret ok) w' ->
  exists l k, tx_log (w_hist w') = tx_log (w_hist w) ++ l /\
    outcomes l = repeat false k ++ (if ok then [true] else []) /\
    (if ok then (N.of_nat k < p_backoffs (s_params S))%N /\ reported l = map CcaBackoff (count_up 1 k)
     else N.of_nat k = p_backoffs (s_params S) /\ reported l = map CcaBackoff (count_up 1 (k - 1))) /\
    (forall t c b' d, In (PrepareTx t c b' d) l -> c = mkTx (c_channel (s_config S)) true /\ b' = b).
Proof.
  intros S b w ok w' OK HA HR. destruct (transmit_cca_log S OK b w ok w' HA HR) as (l & HL & HC & _). exists l.
  assert (HB := OK). destruct HB as (_ & _ & _ & _ & HB & _). destruct (csma_facts S b 1 l ok HC ltac:(lia)) as (k & E & HK). exists k.
  split; [exact HL|]. split; [exact E|]. split; [|exact (csma_buffer S b 1 l ok HC)]. destruct ok; destruct HK as [H1 H2]; split; try exact H2; lia.
Qed.
Print Assumptions C44_attempts.
(** The steps in detail, including the backoffs; when it succeeded, the caller has the guard. *)
Theorem C44_course : forall S b w ok w', setup_ok S -> w_held w AckGuard = false ->
  reach sem elsewhere (transmit_cca S b) w (Ret ok) w' ->
  exists l, tx_log (w_hist w') = tx_log (w_hist w) ++ l /\ csma_log S b 1 l ok /\ w_held w' TxGuard = ok /\ w_held w' AckGuard = false.
Proof. intros S b w ok w' OK. apply (transmit_cca_log S OK). Qed.
Print Assumptions C44_course.
(** With a limit of 0 it would report success without transmitting. *)
Theorem C44_zero_limit : forall S b, p_backoffs (s_params S) = 0%N -> transmit_cca S b = Ret true.
Proof. intros S b E. unfold transmit_cca, iter. rewrite E. cbn. rewrite iter_from_ret. reflexivity. Qed.
Print Assumptions C44_zero_limit.

(** ** C45 *)
(** The log of the transmit task is one frame after the other; the last one may be under way. *)
Theorem C45_frames : forall S p w, setup_ok S -> reachable S p w -> frames_log S (tx_log (w_hist w)).
Proof. intros S p w OK. apply (transmissions S OK). Qed.
Print Assumptions C45_frames.
(** What [frame_log] means for the upper layer: the frame fb was taken and prepared to octets [b], errors [es] were
    reported, and then it was sent and reported in exactly one of three ways: success (acknowledged, if an
    acknowledgement was awaited), CcaFailed, AckFailed after macMaxFrameRetries transmissions; before that, [k]
    retransmissions. Backoff reports left aside. *)
Theorem C45_one_outcome : forall S l, setup_ok S -> frame_log S l ->
  exists fb b q es l' k, l = NextFrame (Some fb) :: map Report es ++ l' /\ prepared S (fb_buffer fb) b q es /\
    (1 + N.of_nat k <= p_retries (s_params S))%N /\ (q = None -> k = 0) /\
    ((verdicts l' = map AckRetry (count_up 1 k) /\ times_sent l' = k + 1 /\
        forall s, q = Some s -> exists l0 buf, l' = l0 ++ [Receive Tx (Some (true, buf))] /\ acknowledges S s buf) \/
     (verdicts l' = map AckRetry (count_up 1 k) ++ [CcaFailed] /\ times_sent l' = k) \/
     (verdicts l' = map AckRetry (count_up 1 k) ++ [AckFailed] /\ times_sent l' = k + 1 /\ (1 + N.of_nat k)%N = p_retries (s_params S) /\ q <> None)).
Proof.
  intros S l OK HL. destruct HL as [fb b q es l' HP HT]. assert (HB := OK). destruct HB as (_ & _ & _ & _ & HB & HR & _).
  destruct (tries_facts S b q 1 l' HT ltac:(lia) ltac:(lia)) as (k & H1 & H2 & H3). exists fb, b, q, es, l', k. auto.
Qed.
Print Assumptions C45_one_outcome.
(** Hence it is sent at most macMaxFrameRetries times, each of them after the same octets were prepared. *)
Theorem C45_bounded : forall S l, setup_ok S -> frame_log S l -> (N.of_nat (times_sent l) <= p_retries (s_params S))%N.
Proof.
  intros S l OK HL. destruct (C45_one_outcome S l OK HL) as (fb & b & q & es & l' & k & -> & _ & HK & _ & H).
  assert (E : times_sent (NextFrame (Some fb) :: map Report es ++ l') = times_sent l').
  { unfold times_sent. cbn [outcomes]. f_equal. f_equal. clear. induction es as [|e es IH]; [reflexivity|exact IH]. }
  rewrite E. destruct H as [(_ & -> & _)|[(_ & ->)|(_ & -> & _)]]; lia.
Qed.
Print Assumptions C45_bounded.
(** With a limit of 0 frames would be dropped without being sent or reported. *)
Theorem C45_zero_limit : forall S b q, p_retries (s_params S) = 0%N -> send_frame S b q = call (Release TxGuard).
Proof.
  intros S b q E. unfold send_frame, iter. rewrite E. change (65536 <=? 0 + 1)%N with false. change (1 <=? 0)%N with false. cbv iota.
  rewrite iter_from_ret, scoped_ret, bind_ret. reflexivity.
Qed.
Print Assumptions C45_zero_limit.

(** ** C46 *)
(** A call of wait_for_valid_ack, at any point of its execution: it has received (on behalf of the transmit task) some
    buffers [l]; either none of them is the acknowledgement and it has not returned, or the last is, and it returns
    without suspending again. *)
Theorem C46_only_matching_ack : forall S s w p w', setup_ok S -> reach sem elsewhere (wait_for_valid_ack S s) w p w' ->
  exists l, tx_log (w_hist w') = tx_log (w_hist w) ++ l /\ p <> Fail /\
    ((unheard S s l /\ (forall x, p <> Ret x)) \/ (heard_in S s l /\ (forall c q, p <> Pend c q))).
Proof. intros S s w p w' OK. apply (wait_log S OK). Qed.
Print Assumptions C46_only_matching_ack.

(** ** C47 *)
(** After the [n]-th failure is reported, the task draws a random number and waits a number of unit backoff periods below
    2^BE before it does anything else (the log [tx_log h2] after the report agrees with these three steps). The number is
    below 2^32 us for parameters whose longest backoff is. *)
Theorem C47_backoff : forall S p w h1 n h2, setup_ok S -> (p_unit (s_params S) * 2 ^ Z.of_N (p_max_be (s_params S)) <= 2 ^ 32)%Z ->
  reachable S p w -> w_hist w = h1 ++ Report (CcaBackoff n) :: h2 ->
  (1 <= n < p_backoffs (s_params S))%N /\
  exists r periods, let be := N.min (p_min_be (s_params S) + n) (p_max_be (s_params S)) in
    (r < 2 ^ 32)%N /\ periods = (r mod 2 ^ be)%N /\ (periods <= 2 ^ be - 1)%N /\
    agree (tx_log h2) [Random r; Delay Tx (p_unit (s_params S) * Z.of_N periods); DelayDone Tx true].
Proof.
  intros S p w h1 n h2 OK HU HR HH. assert (HX := reachable_history S OK p w HR). rewrite HH in HX.
  destruct (backoff_waits S OK h1 n h2 HX) as (HN & r & Hr & HA). split; [exact HN|]. exists r, (r mod 2 ^ exponent S n)%N. cbn zeta.
  fold (exponent S n). split; [exact Hr|]. split; [reflexivity|].
  assert (HB : (2 ^ exponent S n <> 0)%N) by (apply N.pow_nonzero; discriminate).
  assert (HL := N.mod_lt r _ HB). split; [lia|].
  replace (p_unit (s_params S) * Z.of_N (r mod 2 ^ exponent S n))%Z with (backoff_us S n r); [exact HA|].
  unfold backoff_us. apply Z.mod_small. assert (HO := OK). destruct HO as (_ & _ & _ & _ & _ & _ & _ & _ & H1 & _).
  assert (HE : (exponent S n <= p_max_be (s_params S))%N) by apply N.le_min_r.
  assert (HP : (2 ^ Z.of_N (exponent S n) <= 2 ^ Z.of_N (p_max_be (s_params S)))%Z) by (apply Z.pow_le_mono_r; lia).
  assert (HM : (Z.of_N (r mod 2 ^ exponent S n) < 2 ^ Z.of_N (exponent S n))%Z) by (change 2%Z with (Z.of_N 2); rewrite <- N2Z.inj_pow; lia).
  set (x := Z.of_N (r mod 2 ^ exponent S n)) in *. assert (Hx : (0 <= x)%Z) by (unfold x; lia). clearbody x.
  set (y := (2 ^ Z.of_N (exponent S n))%Z) in *. set (z := (2 ^ Z.of_N (p_max_be (s_params S)))%Z) in *. clearbody y z.
  split; [nia|]. clear - H1 Hx HP HM HU. destruct (Z.eq_dec (p_unit (s_params S)) 0) as [->|NE]; [reflexivity|]. nia.
Qed.
Print Assumptions C47_backoff.

(** ** C48 *)
(** Whenever a task operates the radio, it holds the guard and nobody else does. *)
Theorem C48_radio_guarded : forall S p w h1 e h2 t, setup_ok S -> reachable S p w -> w_hist w = h1 ++ e :: h2 -> uses_radio e = Some t ->
  exists c, cell_of t c /\ forall c', cells h1 c' = true <-> c' = c.
Proof. intros S p w h1 e h2 t OK HR HH. apply (radio_guarded S h1 e h2 t). rewrite <- HH. exact (reachable_history S OK p w HR). Qed.
Print Assumptions C48_radio_guarded.
(** What it continues or cancels is an operation it prepared itself. *)
Theorem C48_radio_prepared : forall S p w h1 e h2 t, setup_ok S -> reachable S p w -> w_hist w = h1 ++ e :: h2 -> continues e = Some t ->
  in_progress t h1 = true.
Proof. intros S p w h1 e h2 t OK HR HH. apply (radio_prepared S h1 e h2 t). rewrite <- HH. exact (reachable_history S OK p w HR). Qed.
Print Assumptions C48_radio_prepared.
(** The transmit task has no guard while it takes a frame, reports, draws a random number or asks for the radio, ... *)
Theorem C48_off_air_unguarded : forall S p w h1 e h2, setup_ok S -> reachable S p w -> w_hist w = h1 ++ e :: h2 -> off_air e = true ->
  tx_cells_free h1.
Proof. intros S p w h1 e h2 OK HR HH. apply (off_air_unguarded S h1 e h2). rewrite <- HH. exact (reachable_history S OK p w HR). Qed.
Print Assumptions C48_off_air_unguarded.
(** ... nor during the whole of a backoff. *)
Theorem C48_backoff_unguarded : forall S p w h1 n h2, setup_ok S -> reachable S p w -> w_hist w = h1 ++ Report (CcaBackoff n) :: h2 ->
  ~ In (DelayDone Tx true) h2 -> tx_cells_free (w_hist w).
Proof. intros S p w h1 n h2 OK HR HH. rewrite HH. apply (backoff_unguarded S OK h1 n h2). rewrite <- HH. exact (reachable_history S OK p w HR). Qed.
Print Assumptions C48_backoff_unguarded.
(** Dropping the future of run at any suspension cancels what is in progress and frees the lock. *)
Theorem C48_dropped : forall S c p w, setup_ok S -> reachable S (Pend c p) w ->
  exists w', drops sem c w w' /\ (forall w2, drops sem c w w2 -> w2 = w') /\
    (forall x, cells (w_hist w') x = false) /\ mx_locked (w_radio w') = false /\ (forall t, in_progress t (w_hist w') = false) /\
    exists es, w_hist w' = w_hist w ++ es /\ orderly (w_hist w) es.
Proof. intros S c p w OK. apply (dropped S OK). Qed.
Print Assumptions C48_dropped.
(** The guards of the history are those of the mutex: it is locked iff one of them is held. *)
Theorem C48_locked_iff_held : forall S p w, setup_ok S -> reachable S p w ->
  mx_locked (w_radio w) = true <-> exists c, cells (w_hist w) c = true.
Proof.
  intros S p w OK HR. destruct (reachable_known S OK p w HR) as (g & l & HA & (L1 & _) & HG & _). rewrite L1.
  assert (HC := fun c => cells_law S _ _ HA c). cbn [snd] in HC. destruct g as [|sec [[m gd] rq] r].
  - destruct HG as [-> H0]. split; [discriminate|]. intros (c & H). rewrite HC, H0 in H. discriminate.
  - destruct HG as (H1 & H2 & H3 & -> & _). rewrite <- H1, <- H2, <- H3, <- !HC. split.
    + intros H. apply Bool.orb_true_iff in H. rewrite Bool.orb_true_iff in H. destruct H as [[H|H]|H]; eauto.
    + intros ([| |] & ->); rewrite ?Bool.orb_true_r; reflexivity.
Qed.
Print Assumptions C48_locked_iff_held.

(** ** C63 *)
(** A transmit task that did not get the radio waits at the next suspension (unless it got it meanwhile), ... *)
Theorem C63_wants_waits : forall S c p w h1 h2, setup_ok S -> reachable S (Pend c p) w ->
  w_hist w = h1 ++ TryLock TxGuard false :: h2 -> ~ In (TryLock TxGuard true) h2 -> tx_waits (w_hist w).
Proof.
  intros S c p w h1 h2 OK HR HH. assert (HX := suspended S OK c p w HR). rewrite HH in *. exact (wants_waits S h1 h2 HX).
Qed.
Print Assumptions C63_wants_waits.
(** ... and unless a received frame is being handed over, the device has then woken itself ... *)
Theorem C63_waits_woken : forall S c p w, setup_ok S -> reachable S (Pend c p) w -> tx_waits (w_hist w) ->
  delivering (w_hist w) = true \/ self_woken (w_hist w) = true.
Proof. intros S c p w OK HR. exact (waits_woken S _ (suspended S OK c p w HR)). Qed.
Print Assumptions C63_waits_woken.
(** ... and gets the radio within two polls, unless a frame arrives in the first. *)
Theorem C63_handed_over : forall S c p w h s1 s2, setup_ok S -> reachable S (Pend c p) w ->
  w_hist w = h ++ Polled :: s1 ++ Polled :: s2 -> ~ In Polled s1 -> ~ In Polled s2 ->
  tx_waits h -> delivering h = false -> (forall r, ~ In (Receive Rx (Some r)) s1) -> In (TryLock TxGuard true) (s1 ++ s2).
Proof.
  intros S c p w h s1 s2 OK HR HH. apply (handed_over S h s1 s2). assert (HX := suspended S OK c p w HR). rewrite HH in HX.
  rewrite <- app_assoc in HX. cbn [app] in HX. rewrite <- app_assoc in HX. exact HX.
Qed.
Print Assumptions C63_handed_over.
(** A receive task waits for the lock only while the transmit task has it, and will be woken when it is released. *)
Theorem C63_rx_waits : forall S c p w, setup_ok S -> reachable S (Pend c p) w -> rx_waits (w_hist w) ->
  (cells (w_hist w) TxGuard = true \/ cells (w_hist w) AckGuard = true) /\ snd (guard_drop (w_radio w)) = [waker].
Proof.
  intros S c p w OK HR HW. destruct (rx_waits_held S OK c p w HR HW) as [H1 H2]. split; [exact H1|]. unfold guard_drop. rewrite H2. reflexivity.
Qed.
Print Assumptions C63_rx_waits.
(** It gets it in the next poll, unless the transmit task has it at the end of that. *)
Theorem C63_rx_locks : forall S c p w h s, setup_ok S -> reachable S (Pend c p) w -> w_hist w = h ++ Polled :: s -> ~ In Polled s -> rx_waits h ->
  In (Lock RxGuard true) s \/ cells (w_hist w) TxGuard = true \/ cells (w_hist w) AckGuard = true.
Proof.
  intros S c p w h s OK HR HH. rewrite HH. apply (rx_locks S h s). assert (HX := suspended S OK c p w HR). rewrite HH in HX.
  rewrite <- app_assoc in HX. exact HX.
Qed.
Print Assumptions C63_rx_locks.

(** ** C64 *)
(** The device does not panic or return, and every operation it performs can be answered. *)
Theorem C64_always_steps : forall S p w, setup_ok S -> reachable S p w ->
  p <> Fail /\ (forall a, p <> Ret a) /\ exists p' w', mstep sem between p w p' w'.
Proof. intros S p w OK. exact (always_steps S OK p w). Qed.
Print Assumptions C64_always_steps.

(** ** C65 *)
(** Every operation of the radio is on the configured channel; frames are sent with CCA, acknowledgements without. *)
Theorem C65_channel : forall S p w e, setup_ok S -> reachable S p w -> In e (w_hist w) ->
  match e with
  | PrepareTx Tx c _ _ => c = mkTx (c_channel (s_config S)) true
  | PrepareTx Rx c _ _ => c = mkTx (c_channel (s_config S)) false
  | PrepareRx _ c _ => c = mkRx (c_channel (s_config S))
  | _ => True
  end.
Proof.
  intros S p w e OK HR HI. apply in_split in HI. destruct HI as (h1 & h2 & HH). assert (HX := reachable_history S OK p w HR). rewrite HH in HX.
  destruct (history_split S _ _ _ HX) as (g & l & g' & l' & HA & HG & EG & EL & _). clear - EG.
  destruct g as [|sec [[m gd] rq] r]; [apply gnext_enabling in EG; destruct EG as [EO _]; destruct e; exact I || discriminate|].
  apply gnext_active in EG. destruct EG as [(-> & _)|[(_ & EO & _ & t' & ET & _)|(_ & EO & r' & ER & _)]]; [exact I| |].
  - unfold tx_next in ET. destruct (course_next S m e) as [m'|] eqn:E; [|discriminate]. clear ET.
    destruct e; try exact I; injection EO as ->; destruct m; try discriminate; cbn in E.
    + destruct (txconfig_dec _ (cca_config S)) as [->|_]; [reflexivity|discriminate].
    + destruct (rxconfig_dec _ (listen_config S)) as [->|_]; [reflexivity|discriminate].
  - destruct r as [k hd bz]. destruct e; try exact I; injection EO as ->; destruct k; try discriminate; cbn in ER.
    + destruct (txconfig_dec _ (ack_config S)) as [->|_]; [reflexivity|discriminate].
    + destruct (rxconfig_dec _ (listen_config S)) as [->|_]; [reflexivity|discriminate].
Qed.
Print Assumptions C65_channel.

(** Concrete cases: TaskRuns.v *)
