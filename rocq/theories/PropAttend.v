(** PropAttend.v -- C77-C79: the device keeps polling what it waits for, begins time-critical steps at once, and never waits for
    the random number generator, in every history of a running CSMA device. Vocabulary: SpecTasks.v, SpecAttend.v; [reachable]:
    see PropTasks.v. *)
From Coq Require Import Lia.
From Verif Require Import Base Sync Spec SpecFrame FrameControl SpecFrames PhyConfig Csma SpecCsma CsmaTasks CsmaWorld SpecTasks SpecAttend PropCsma
  Attend AttendTasks RngFacts PromptFacts ListenFacts TaskRuns PropTasks.
From Verif Require Import Async AsyncProofs.

(** ** C77 *)
(** [h]: everything before the last poll of the device, [s]: that poll. Whatever the device was waiting for is polled or given
    up in it (a future that is not polled again does not wake anybody: its event would be missed). *)
Theorem C77_every_poll : forall S a c p w h s, reachable S (Pend c p) w -> w_hist w = h ++ Polled :: s -> ~ In Polled s ->
  waits_for a h = true -> attended a s.
Proof. exact all_attended. Qed.
Print Assumptions C77_every_poll.
(** And what it begins to wait for is polled at least once before the device suspends. *)
Theorem C77_begun : forall S a c p w h e s, reachable S (Pend c p) w -> w_hist w = h ++ e :: s -> ~ In Polled s ->
  effect_of a e = Begins -> attended a s.
Proof. exact begun_attended. Qed.
Print Assumptions C77_begun.

(** ** C78 *)
(** A frame that is to be acknowledged is received: the delay before the acknowledgement begins in the same poll ... *)
Theorem C78_delay_at_once : forall S c p w h1 buf s h2, setup_ok S -> reachable S (Pend c p) w ->
  w_hist w = h1 ++ Receive Rx (Some (true, buf)) :: h2 -> acked_with S buf s ->
  exists h3 h4, h2 = h3 ++ Delay Rx (ack_delay_us S) :: h4 /\ ~ In Polled h3.
Proof. intros S c p w h1 buf s h2 OK. exact (delay_at_once S OK c p w h1 buf s h2). Qed.
Print Assumptions C78_delay_at_once.
(** ... and when it is over the radio starts to transmit in the same poll. *)
Theorem C78_ack_at_once : forall S c p w h1 h2, reachable S (Pend c p) w -> w_hist w = h1 ++ DelayDone Rx true :: h2 ->
  exists h3 cf b d h4, h2 = h3 ++ PrepareTx Rx cf b d :: h4 /\ ~ In Polled h3.
Proof. exact ack_at_once. Qed.
Print Assumptions C78_ack_at_once.
(** A frame was sent: in the same poll the radio is released, or both the timeout and the reception of the acknowledgement are
    begun. *)
Theorem C78_listens_at_once : forall S c p w h1 h2, reachable S (Pend c p) w -> w_hist w = h1 ++ Transmit Tx (Some true) :: h2 ->
  exists h3 h4, h2 = h3 ++ h4 /\ ~ In Polled h3 /\
    (In (Release TxGuard) h3 \/ exists us cf d, In (Delay Tx us) h3 /\ In (PrepareRx Tx cf d) h3).
Proof. exact listens_at_once. Qed.
Print Assumptions C78_listens_at_once.
(** The channel was busy: the radio is released and it is reported, at once ... *)
Theorem C78_busy_at_once : forall S c p w h1 h2, reachable S (Pend c p) w -> w_hist w = h1 ++ Transmit Tx (Some false) :: h2 ->
  exists e h3, h2 = Release TxGuard :: Report e :: h3.
Proof. exact busy_reported. Qed.
Print Assumptions C78_busy_at_once.
(** ... and the backoff begins at once, without waiting for Driver::error. *)
Theorem C78_backoff_at_once : forall S c p w h1 n h2, reachable S (Pend c p) w -> w_hist w = h1 ++ Report (CcaBackoff n) :: h2 ->
  exists r us h3, h2 = RngLock true :: Random r :: RngUnlock :: Delay Tx us :: h3.
Proof. exact backoff_at_once. Qed.
Print Assumptions C78_backoff_at_once.

(** ** C79 *)
(** Locking the random number generator always succeeds, a number is drawn and it is unlocked at once. *)
Theorem C79_never_contended : forall S p w h1 b h2, reachable S p w -> w_hist w = h1 ++ RngLock b :: h2 ->
  b = true /\ exists r, agree h2 [Random r; RngUnlock].
Proof. exact rng_uncontended. Qed.
Print Assumptions C79_never_contended.
(** It is used only while it is locked. *)
Theorem C79_locked : forall S p w h1 r h2, reachable S p w -> w_hist w = h1 ++ Random r :: h2 -> exists h0, h1 = h0 ++ [RngLock true].
Proof. exact drawn_locked. Qed.
Print Assumptions C79_locked.
(** While the device is suspended its mutex is free. *)
Theorem C79_free : forall S c p w, reachable S (Pend c p) w -> mx_locked (w_rng w) = false.
Proof. exact rng_free. Qed.
Print Assumptions C79_free.

(** ** Concrete cases: the run of TaskRuns.v *)
(** after five polls the device waits for two timers, Driver::received and nothing else; the sixth poll attends to them *)
Example C77_case : waits_for (ATimer Tx) (upto 5) = true /\ waits_for (ATimer Rx) (upto 5) = true /\ waits_for AUpper (upto 5) = true /\
  waits_for (ARadio Rx) (upto 5) = false /\ waits_for AFrame (upto 5) = false /\
  waits_for (ARadio Rx) (upto 2) = true /\ waits_for ASignal (upto 2) = true /\ waits_for AFrame (upto 2) = true /\
  waits_for ARoom (upto 6) = true /\ upto 6 = upto 5 ++ Polled :: tl poll6 /\ waits_for (ARadio Tx) (upto 9) = true /\ waits_for ALock (upto 9) = true.
Proof. repeat split. Qed.
Example C77_begun_case : upto 5 = (poll1 ++ poll2 ++ poll3 ++ poll4 ++ firstn 12 poll5) ++ Delay Tx 320 :: skipn 13 poll5 /\
  effect_of (ATimer Tx) (Delay Tx 320) = Begins /\ In (DelayDone Tx false) (skipn 13 poll5).
Proof. split; [reflexivity|]. split; [reflexivity|]. cbn. auto. Qed.
Example C78_cases : (exists h1 h2, upto 5 = h1 ++ Receive Rx (Some (true, frame)) :: h2 /\ h2 = [Received (mkFb frame true); Delay Rx 500; DelayDone Rx false; ReceivedDone false]) /\
  (exists h1 h2, upto 6 = h1 ++ DelayDone Rx true :: h2) /\ (exists h1 h2, upto 9 = h1 ++ Transmit Tx (Some true) :: h2) /\
  (exists h1 h2, upto 5 = h1 ++ Transmit Tx (Some false) :: Release TxGuard :: Report (CcaBackoff 1) :: RngLock true :: Random 12345 :: RngUnlock :: Delay Tx 320 :: h2).
Proof.
  split; [|split; [|split]].
  - eexists (poll1 ++ poll2 ++ poll3 ++ poll4 ++ firstn 19 poll5), _. split; reflexivity.
  - eexists (poll1 ++ poll2 ++ poll3 ++ poll4 ++ poll5 ++ firstn 5 poll6), _. reflexivity.
  - eexists (poll1 ++ poll2 ++ poll3 ++ poll4 ++ poll5 ++ poll6 ++ poll7 ++ poll8 ++ firstn 6 poll9), _. reflexivity.
  - eexists (poll1 ++ poll2 ++ poll3 ++ poll4 ++ firstn 6 poll5), _. reflexivity.
Qed.
Example C79_case : exists h1 h2, upto 10 = h1 ++ RngLock true :: Random 12345 :: RngUnlock :: h2.
Proof. eexists (poll1 ++ poll2 ++ poll3 ++ poll4 ++ firstn 9 poll5), _. reflexivity. Qed.
