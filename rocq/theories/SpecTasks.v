(** SpecTasks.v -- what a running CSMA device should do, as properties of the history of events of CsmaTasks.v. Uses of the
    model only the types of events and configurations, and SpecCsma.v for decisions about frames. *)
From Coq Require Import List ZArith NArith.
Import ListNotations.
From Verif Require Import Base Spec SpecFrame FrameControl SpecFrames PhyConfig Csma SpecCsma CsmaTasks CsmaWorld.

(** Which task an event belongs to. *)
Definition owner (e : event) : option task :=
  match e with
  | Polled | Enable _ => None
  | Woken t | PrepareTx t _ _ _ | Transmit t _ | PrepareRx t _ _ | Receive t _ | Cancel t | Delay t _ | DelayDone t _ => Some t
  | Lock c _ | TryLock c _ | Holds c _ | Release c | Move c _ => Some (match c with RxGuard => Rx | _ => Tx end)
  | RngLock _ | Random _ | RngUnlock | SignalReady _ | SignalSend | NextFrame _ | Report _ | ReportDone _ => Some Tx
  | SignalReceived _ | Received _ | ReceivedDone _ => Some Rx
  end.

(** ** Summaries of a log *)
(** results of the transmissions of the transmit task *)
Fixpoint outcomes (l : list event) : list bool :=
  match l with [] => [] | Transmit Tx (Some ok) :: l => ok :: outcomes l | _ :: l => outcomes l end.
Definition times_sent (l : list event) : nat := length (filter (fun ok : bool => ok) (outcomes l)).
(** what is reported to the upper layer *)
Fixpoint reported (l : list event) : list Error :=
  match l with [] => [] | Report e :: l => e :: reported l | _ :: l => reported l end.
(** without the backoffs *)
Definition verdicts (l : list event) : list Error :=
  filter (fun e => match e with CcaBackoff _ => false | _ => true end) (reported l).
(** [k] numbers from [n] *)
Fixpoint count_up (n : N) (k : nat) : list N := match k with O => [] | S k => n :: count_up (n + 1)%N k end.
(** frames taken from the driver *)
Fixpoint taken (l : list event) : nat :=
  match l with [] => 0 | NextFrame (Some _) :: l => 1 + taken l | _ :: l => taken l end.

Section Spec.
Variable S : Setup.
Notation P := (s_params S).
Notation cfg := (s_config S).
Notation dv := (s_device S).

(** What the crate's constants and the radio must satisfy: the device's frame accessors stay inside the buffer and an
    acknowledgement fits into it; limits are positive and fit into 16 bits; durations are not absurd. *)
Definition setup_ok : Prop :=
  dev_ok dv /\ length (dev_header dv 3) + 3 <= 128 /\ length (s_hw S) = 8 /\ (p_pan_id P < 65536)%N /\
  (1 <= p_backoffs P < 65535)%N /\ (1 <= p_retries P < 65535)%N /\
  (p_min_be P < 65535)%N /\ (p_max_be P < 32)%N /\
  (0 <= p_unit P < 2 ^ 31)%Z /\ (0 <= p_aifs P < 2 ^ 61)%Z /\ (0 <= p_sifs P < 2 ^ 61)%Z.

(** ** Parameters of operations *)
(** BE of the [n]-th backoff *)
Definition exponent (n : N) : N := N.min (p_min_be P + n) (p_max_be P).
(** a random number of unit backoff periods below 2^BE; delay_us takes 32 bits *)
Definition backoff_us (n r : N) : Z := ((p_unit P * Z.of_N (r mod 2 ^ exponent n)) mod 2 ^ 32)%Z.
Definition ack_timeout_us : Z := ((p_aifs P + p_sifs P + 288) mod 2 ^ 32)%Z.
(** 12 symbols of 16 us *)
Definition pause_us : Z := (Z.max (p_sifs P) 192 mod 2 ^ 32)%Z.
Definition ack_delay_us : Z := (Z.quot (p_aifs P) 2 mod 2 ^ 32)%Z.
Definition cca_config : TxConfig := mkTx (c_channel cfg) true.
Definition ack_config : TxConfig := mkTx (c_channel cfg) false.
Definition listen_config : RxConfig := mkRx (c_channel cfg).
(** an immediate acknowledgement in the format of the device, in a 128 octet buffer *)
Definition ack_octets (s : N) : list N :=
  dev_header dv 3 ++ [2; 16; s]%N ++ repeat 0%N (128 - (length (dev_header dv 3) + 3)).

(** ** A frame to be sent *)
(** The buffer after the acknowledgement request was decided, the sequence number whose acknowledgement is awaited, and
    errors to be reported. *)
Inductive ack_requested (buf : list N) : list N -> option N -> list Error -> Prop :=
| ar_yes o b r buf' : holds dv buf o b -> acceptable b r -> ack_requestable cfg r b -> only_ar_changed buf buf' o true ->
    ack_requested buf buf' (sequence_number r b) []
| ar_no o b r : holds dv buf o b -> acceptable b r -> ~ ack_requestable cfg r b -> ack_requested buf buf None []
| ar_no_frame o b : holds dv buf o b -> ~ (exists r, acceptable b r) -> ack_requested buf buf None [InvalidIEEEStructure]
| ar_no_device_frame : ~ (exists o b, holds dv buf o b) -> ack_requested buf buf None [InvalidDeviceStructure].
(** The buffer after PAN IDs were overwritten. *)
Inductive pan_overwritten (buf : list N) : list N -> list Error -> Prop :=
| po_fields o b r dp sp : holds dv buf o b -> acceptable b r -> SpecAddressing.layout r dp sp ->
    mhr_size r + SpecAddressing.layout_size r dp sp <= length b ->
    pan_overwritten buf
      (patch (overwrite_dst_pan_id cfg && dp) (o + mhr_size r) (p_pan_id P)
      (patch (overwrite_src_pan_id cfg && sp)
         (o + mhr_size r + SpecAddressing.pan_size dp + SpecAddressing.addr_size (fr_dst_addressing_mode r)) (p_pan_id P) buf)) []
| po_no_fields o b r : holds dv buf o b -> acceptable b r -> no_addressing r b -> pan_overwritten buf buf []
| po_no_frame o b : holds dv buf o b -> ~ (exists r, acceptable b r) -> pan_overwritten buf buf [InvalidIEEEStructure]
| po_no_device_frame : ~ (exists o b, holds dv buf o b) -> pan_overwritten buf buf [InvalidDeviceStructure].
Definition prepared (buf b : list N) (q : option N) (es : list Error) : Prop :=
  exists buf1 es1 es2, ack_requested buf buf1 q es1 /\ pan_overwritten buf1 b es2 /\ es = es1 ++ es2.

(** ** The course of a transmission *)
(** The completed steps of the transmit task (without polls that returned Pending, and without locking and signalling). *)
Definition tx_step (e : event) : bool :=
  match e with
  | NextFrame (Some _) | Report _ | PrepareTx Tx _ _ true | Transmit Tx (Some _) | Receive Tx (Some _) | Random _
  | Delay Tx _ | DelayDone Tx true => true
  | _ => false
  end.
Definition tx_log (h : list event) : list event := filter tx_step h.

(** CSMA-CA for the octets [b], from the [n]-th attempt: at most macMaxCsmaBackoffs attempts, and a reported backoff after
    each failure but the last. *)
Inductive csma_log (b : list N) : N -> list event -> bool -> Prop :=
| csma_sent n : (n <= p_backoffs P)%N ->
    csma_log b n [PrepareTx Tx cca_config b true; Transmit Tx (Some true)] true
| csma_failed :
    csma_log b (p_backoffs P) [PrepareTx Tx cca_config b true; Transmit Tx (Some false)] false
| csma_again n r l ok : (n < p_backoffs P)%N -> (r < 2 ^ 32)%N -> csma_log b (n + 1) l ok ->
    csma_log b n ([PrepareTx Tx cca_config b true; Transmit Tx (Some false); Report (CcaBackoff n); Random r;
                   Delay Tx (backoff_us n r); DelayDone Tx true] ++ l) ok.

(** The buffer holds an acknowledgement with sequence number [s]. *)
Definition acknowledges (s : N) (buf : list N) : Prop :=
  exists o b r, holds dv buf o b /\ acceptable b r /\ fr_frame_type r = FtAck /\ sequence_number r b = Some s.
(** Waiting for the acknowledgement of [s]: only it ends the wait before the time is up. *)
Inductive listen_log (s : N) : list event -> bool -> Prop :=
| listen_heard buf : acknowledges s buf -> listen_log s [Receive Tx (Some (true, buf))] true
| listen_other ok buf l acked : ~ (ok = true /\ acknowledges s buf) -> listen_log s l acked ->
    listen_log s (Receive Tx (Some (ok, buf)) :: l) acked
| listen_timeout : listen_log s [DelayDone Tx true; Delay Tx pause_us; DelayDone Tx true] false.
(** Receptions that do not end the wait, and receptions of which the last one does. *)
Definition unheard (s : N) (l : list event) : Prop :=
  Forall (fun e => exists ok buf, e = Receive Tx (Some (ok, buf)) /\ ~ (ok = true /\ acknowledges s buf)) l.
Definition heard_in (s : N) (l : list event) : Prop :=
  exists l0 buf, l = l0 ++ [Receive Tx (Some (true, buf))] /\ unheard s l0 /\ acknowledges s buf.
Inductive ack_log (s : N) : list event -> bool -> Prop :=
| ack_wait l acked : listen_log s l acked -> ack_log s (Delay Tx ack_timeout_us :: l) acked.

(** The [i]-th and later transmissions of the frame [b], [q] the sequence number of the acknowledgement it needs; each
    starts with CSMA-CA (its outcome: [ok]). The frame ends as: channel busy, sent, acknowledged, or not acknowledged
    after macMaxFrameRetries transmissions. *)
Inductive tries (b : list N) (q : option N) : N -> list event -> Prop :=
| tries_one i l1 ok l2 : csma_log b 1 l1 ok -> outcome_log b q i ok l2 -> tries b q i (l1 ++ l2)
with outcome_log (b : list N) (q : option N) : N -> bool -> list event -> Prop :=
| out_busy i : outcome_log b q i false [Report CcaFailed]
| out_sent i : q = None -> outcome_log b q i true []
| out_acked i s l : q = Some s -> ack_log s l true -> outcome_log b q i true l
| out_failed s l : q = Some s -> ack_log s l false -> outcome_log b q (p_retries P) true (l ++ [Report AckFailed])
| out_retry i s l l' : (i < p_retries P)%N -> q = Some s -> ack_log s l false -> tries b q (i + 1) l' ->
    outcome_log b q i true (l ++ Report (AckRetry i) :: l').
(** From taking a frame from the driver to its end. *)
Inductive frame_log : list event -> Prop :=
| frame_taken fb b q es l : prepared (fb_buffer fb) b q es -> tries b q 1 l ->
    frame_log (NextFrame (Some fb) :: map Report es ++ l).
(** One frame after the other, the last one under way. *)
Definition frames_log (l : list event) : Prop :=
  exists ls l', l = concat ls ++ l' /\ Forall frame_log ls /\ (l' = [] \/ exists l'', frame_log (l' ++ l'')).

(** ** Receiving *)
Definition accepted (buf : list N) : Prop := exists o b r, holds dv buf o b /\ delivered P cfg (s_hw S) r b.
Definition acked_with (buf : list N) (s : N) : Prop :=
  exists o b r, holds dv buf o b /\ delivered P cfg (s_hw S) r b /\ ack_wanted cfg r b /\ sequence_number r b = Some s.
(** The completed steps of the receive task. *)
Definition rx_step (e : event) : bool :=
  match e with
  | Receive Rx (Some _) | Received _ | Delay Rx _ | DelayDone Rx true | PrepareTx Rx _ _ true | Transmit Rx (Some _) => true
  | _ => false
  end.
Definition rx_log (h : list event) : list event := filter rx_step h.
(** From a completed reception to the next. *)
Inductive reception_log : list event -> Prop :=
| rec_ignored ok buf : ~ (ok = true /\ accepted buf) -> reception_log [Receive Rx (Some (ok, buf))]
| rec_delivered buf : accepted buf -> ~ (exists s, acked_with buf s) ->
    reception_log [Receive Rx (Some (true, buf)); Received (mkFb buf true)]
| rec_acked buf s sent : accepted buf -> acked_with buf s ->
    reception_log [Receive Rx (Some (true, buf)); Received (mkFb buf true); Delay Rx ack_delay_us; DelayDone Rx true;
                   PrepareTx Rx ack_config (ack_octets s) true; Transmit Rx (Some sent)].
Definition receptions_log (l : list event) : Prop :=
  exists ls l', l = concat ls ++ l' /\ Forall reception_log ls /\ (l' = [] \/ exists l'', reception_log (l' ++ l'')).

(** The receptions and what is handed to Driver::received, in order. *)
Fixpoint receptions (h : list event) : list (bool * list N) :=
  match h with [] => [] | Receive Rx (Some r) :: h => r :: receptions h | _ :: h => receptions h end.
Fixpoint handed (h : list event) : list FrameBuffer :=
  match h with [] => [] | Received f :: h => f :: handed h | _ :: h => handed h end.
(** exactly the accepted ones, in order *)
Inductive deliveries : list (bool * list N) -> list FrameBuffer -> Prop :=
| deliveries_nil : deliveries [] []
| deliveries_accepted buf rs fs : accepted buf -> deliveries rs fs -> deliveries ((true, buf) :: rs) (mkFb buf true :: fs)
| deliveries_other ok buf rs fs : ~ (ok = true /\ accepted buf) -> deliveries rs fs -> deliveries ((ok, buf) :: rs) fs.
End Spec.

(** ** The radio's lock *)
(** The variables holding the guard after [h]. *)
Definition cell_step (held : cell -> bool) (e : event) : cell -> bool :=
  match e with
  | Lock c true | TryLock c true => set_cell c true held
  | Release c => set_cell c false held
  | Move c c' => set_cell c false (set_cell c' (held c) held)
  | _ => held
  end.
Definition cells (h : list event) : cell -> bool := fold_left cell_step h (fun _ => false).
Definition cell_of (t : task) (c : cell) : Prop := match t with Rx => c = RxGuard | Tx => c = TxGuard \/ c = AckGuard end.
(** The task that operates the radio. *)
Definition uses_radio (e : event) : option task :=
  match e with PrepareTx t _ _ _ | Transmit t _ | PrepareRx t _ _ | Receive t _ | Cancel t => Some t | _ => None end.
(** Does the event finish, continue or cancel an operation that was begun before? *)
Definition continues (e : event) : option task :=
  match e with Transmit t _ | Receive t _ | Cancel t => Some t | _ => None end.
(** What the transmit task does away from the radio: taking a frame, reporting, drawing a random number, asking for the
    radio. *)
Definition off_air (e : event) : bool :=
  match e with NextFrame _ | Report _ | RngLock _ | Random _ | SignalReady _ | SignalSend => true | _ => false end.
Definition tx_cells_free (h : list event) : Prop := cells h TxGuard = false /\ cells h AckGuard = false.
(** Has [t] an operation of the radio in progress after [h]? *)
Definition task_eqb (a b : task) : bool := match a, b with Tx, Tx | Rx, Rx => true | _, _ => false end.
Definition progress_step (t : task) (busy : bool) (e : event) : bool :=
  match e with
  | PrepareTx t' _ _ _ | PrepareRx t' _ _ => if task_eqb t t' then true else busy
  | Transmit t' (Some _) | Receive t' (Some _) | Cancel t' => if task_eqb t t' then false else busy
  | _ => busy
  end.
Definition in_progress (t : task) (h : list event) : bool := fold_left (progress_step t) h false.

(** Dropping the device: an operation is cancelled while the guard is held, and no guard is released while its task has an
    operation in progress. *)
Definition task_of (c : cell) : task := match c with RxGuard => Rx | _ => Tx end.
Inductive orderly (h : list event) : list event -> Prop :=
| orderly_nil : orderly h []
| orderly_cancel t c es : in_progress t h = true -> cell_of t c -> cells h c = true ->
    orderly (h ++ [Cancel t]) es -> orderly h (Cancel t :: es)
| orderly_release c es : (cells h c = true -> in_progress (task_of c) h = false) ->
    orderly (h ++ [Release c]) es -> orderly h (Release c :: es).

(** ** A single future of the transmit path *)
(** While it is suspended anything may happen, except that the transmit task does nothing else and its guards stay. *)
Definition elsewhere (w w' : world) : Prop :=
  (exists es, w_hist w' = w_hist w ++ es /\ Forall (fun e => owner e <> Some Tx) es) /\
  w_held w' TxGuard = w_held w TxGuard /\ w_held w' AckGuard = w_held w AckGuard.

(** ** Handing the radio over *)
Definition last_such (f : event -> bool) (h : list event) : option event :=
  fold_left (fun last e => if f e then Some e else last) h None.
(** The transmit task asks for the radio (csma/utils.rs acquire_lock: try_lock, send_async). *)
Definition asks (e : event) : bool := match e with TryLock TxGuard _ | SignalReady _ | SignalSend => true | _ => false end.
(** It does not have it, and waits (for room in the channel). *)
Definition tx_waits (h : list event) : Prop := last_such asks h = Some (SignalReady false).
(** The receive task is waiting for the lock. *)
Definition locks (e : event) : bool := match e with Lock RxGuard _ => true | _ => false end.
Definition rx_waits (h : list event) : Prop := last_such locks h = Some (Lock RxGuard false).
(** A received frame was handed to the upper layer, and not both of it and the acknowledgement are finished. *)
Definition delivering (h : list event) : bool :=
  fold_left (fun b e => match e with Received _ => true | Woken Rx => false | _ => b end) h false.
(** The device has woken itself since it was last polled: it will be polled again. *)
Definition self_woken (h : list event) : bool :=
  fold_left (fun b e => match e with Polled => false | Woken _ => true | _ => b end) h false.
(** [l] and [l'] agree as far as both go *)
Definition agree {A} (l l' : list A) : Prop := exists x, l ++ x = l' \/ l = l' ++ x.
