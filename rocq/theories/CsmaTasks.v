(** CsmaTasks.v -- model of the tasks of the CSMA device: dot15d4/src/csma/mod.rs (run, receive_frame_task,
    transmit_package_task, wait_for_valid_ack), csma/transmission.rs (transmit_cca, perform_backoff) and csma/utils.rs
    (acquire_lock), as futures in the sense of Async.v that talk to the radio, the driver, the timer, the random number
    generator, the radio's mutex and the signalling channel. What can happen around them is in CsmaWorld.v. *)
From Verif Require Import Base PhyConfig Time Csma.
From Verif Require Import Async RadioFutures.

(** phy/driver.rs:3-21 [Error] *)
Inductive Error :=
| CcaBackoff (n : N) | CcaFailed | AckRetry (n : N) | AckFailed | InvalidDeviceStructure | InvalidIEEEStructure | RadioError.
(** phy/driver.rs:36-50 [FrameBuffer] *)
Record FrameBuffer := mkFb { fb_buffer : list N; fb_dirty : bool }.
Definition fb_default : FrameBuffer := mkFb (repeat 0%N 128) false.

(** The two tasks, and the variables that hold a radio guard (Option<MutexGuard<R>>): radio_guard of
    receive_frame_task (csma/mod.rs:175), radio_guard of transmit_package_task (477), and the temporary that
    [radio_guard.unwrap()] (515) moves the guard to while an ACK is awaited. *)
Inductive task := Tx | Rx.
Inductive cell := RxGuard | TxGuard | AckGuard.

(** What happens: one event for each call of a function outside the modelled code and each poll of a future it
    returned; for polls with the result (None or false: Poll::Pending). *)
Inductive event :=
(* the executor polls the device's future; a task wakes its own waker *)
| Polled
| Woken (t : task)
(* Radio (phy/radio/mod.rs:15-63) *)
| Enable (done : bool)
| PrepareTx (t : task) (c : TxConfig) (buf : list N) (done : bool)
| Transmit (t : task) (sent : option bool)
| PrepareRx (t : task) (c : RxConfig) (done : bool)
| Receive (t : task) (r : option (bool * list N))          (* result and the octets now in the buffer *)
| Cancel (t : task)
(* the radio's mutex and the guard variables *)
| Lock (c : cell) (ok : bool)                               (* poll of lock(); the guard is stored in [c] *)
| TryLock (c : cell) (ok : bool)
| Holds (c : cell) (b : bool)                               (* is_some() *)
| Release (c : cell)                                        (* [c] = None, or [c] goes out of scope *)
| Move (c c' : cell)
(* the mutex of the random number generator *)
| RngLock (ok : bool)
| Random (n : N)                                            (* next_u32 *)
| RngUnlock
(* the channel "wants to transmit" *)
| SignalReady (ok : bool)                                   (* poll of send_async: is there room? *)
| SignalSend
| SignalReceived (ok : bool)                                (* poll of receive() *)
(* Driver (phy/driver.rs:23-34) *)
| NextFrame (r : option FrameBuffer)                        (* poll of transmit() *)
| Received (f : FrameBuffer)                                (* received() is called ... *)
| ReceivedDone (done : bool)                                (* ... and polled *)
| Report (e : Error)                                        (* error() *)
| ReportDone (done : bool)
(* the timer: delay_us *)
| Delay (t : task) (us : Z)
| DelayDone (t : task) (done : bool).

(** An operation with a result of type [B] is the event it gives for each result. *)
Definition op (B : Type) : Type := B -> event.
Notation future := (prog (Op := op)).
Definition call (e : event) : future unit := act (Op := op) (fun _ : unit => e).
Definition ask {B} (o : B -> event) : future B := act (Op := op) o.
Definition awaits (o : bool -> event) : future unit := await_ready (Op := op) o.
Definition awaiting {B} (o : option B -> event) : future B := await (Op := op) o.
Definition destructor (e : event) : op unit := fun _ => e.
(** sequential code: a panic is a panic *)
Definition lift {A} (o : outcome A) : future A := match o with Done a => Ret a | Panic => Fail end.
(** sync/yield_now.rs *)
Definition yield_now (t : task) : future unit := yield_now_with (Op := op) (fun _ => Woken t).
(** Option::unwrap on a guard variable *)
Definition unwrap_guard (c : cell) : future unit := do h <- ask (Holds c); if h then Ret tt else Fail.

(** phy/radio/futures.rs:43-60, 67-84. Simplification: the radio does not write to the buffer it transmits from. *)
Definition transmit (t : task) (c : TxConfig) (buf : list N) : future bool :=
  radio_future (Op := op) (destructor (Cancel t)) (PrepareTx t c buf) (Transmit t).
Definition receive (t : task) (c : RxConfig) : future (bool * list N) :=
  radio_future (Op := op) (destructor (Cancel t)) (PrepareRx t c) (Receive t).

(** What a CsmaDevice is created from (csma/mod.rs:81-107), with the crate's constants, the radio's format and the
    overflow behaviour it was compiled with. *)
Record Setup := mkSetup {
  s_params : Params; s_config : CsmaConfig; s_device : Device; s_hw : list N; s_profile : Profile }.

Section Tasks.
Variable S : Setup.
Notation P := (s_params S).
Notation cfg := (s_config S).
Notation dv := (s_device S).
Notation prof := (s_profile S).

(** [d.as_us() as u32] *)
Definition as_u32 (d : Z) : Z := (d mod 2 ^ 32)%Z.

(** driver.error(e).await *)
Definition report (e : Error) : future unit := call (Report e) ;; awaits ReportDone.
(** timer.delay_us(d.as_us() as u32).await *)
Definition delay (t : task) (d : Z) : future unit := call (Delay t (as_u32 d)) ;; awaits (DelayDone t).

(** csma/utils.rs:8-38 *)
Definition acquire_lock (c : cell) : future unit :=
  do held <- ask (Holds c);
  if held then Ret tt
  else iter (fun _ : unit =>
    do ok <- ask (TryLock c);
    if ok then Ret (inr tt)
    else awaits SignalReady ;; call SignalSend ;; Ret (inl tt)) tt.

(** csma/transmission.rs:101-123 for ExponentialBackoff; the strategy None is never used. The result is the new
    backoff_exponent. u16 addition and the u32 shift panic on overflow (in release builds the shift would wrap). The
    guard of the rng is dropped at the end of the statement, line 118. *)
Definition perform_backoff (be : N) : future N :=
  if (65536 <=? be + 1)%N then Fail
  else
    let be := N.min (be + 1) (p_max_be P) in
    if (32 <=? be)%N then Fail
    else
      awaits RngLock ;;
      do r <- ask Random;
      call RngUnlock ;;
      let periods := (r mod 2 ^ be)%N in
      do d <- lift (duration_mul prof (p_unit P) (Z.of_N periods));
      delay Tx d ;;
      Ret be.

(** csma/transmission.rs:26-79: true = Ok, false = Err(CcaError). The state is (number_of_backoffs, backoff_exponent).
    The future of driver.error is created (line 72) before join polls anything. *)
Definition transmit_cca (buf : list N) : future bool :=
  if (65536 <=? p_backoffs P + 1)%N then Fail
  else iter (fun s : N * N =>
    let (n, be) := s in
    if (n <=? p_backoffs P)%N then
      acquire_lock TxGuard ;;
      unwrap_guard TxGuard ;;
      do sent <- transmit Tx (mkTx (c_channel cfg) (tx_cca tx_default_with_cca)) buf;
      if sent then Ret (inr true)
      else
        call (Release TxGuard) ;;
        if (n =? p_backoffs P)%N then Ret (inr false)
        else
          call (Report (CcaBackoff n)) ;;
          do (be', _) <- join (perform_backoff be) (awaits ReportDone);
          Ret (inl (n + 1, be')%N)
    else Ret (inr true)) (1%N, p_min_be P).

(** csma/mod.rs:397-424 *)
Definition wait_for_valid_ack (seq : N) : future unit :=
  iter (fun _ : unit =>
    do (ok, buf) <- receive Tx (mkRx (c_channel cfg));
    if negb ok then Ret (inl tt)
    else
      do ack <- lift (is_ack_for dv seq buf);
      Ret (if ack then inr tt else inl tt)) tt.

(** csma/mod.rs:442-475: the octets to send and the sequence number to wait for (the frame length of
    set_ack_request_if_possible is not used) *)
Definition prepare_frame (buf : list N) : future (list N * option N) :=
  do (r, buf) <- lift (set_ack_request_if_possible cfg dv buf);
  do seq <- match r with
            | TxOk (Some (s, _)) => Ret (Some s)
            | TxOk None => Ret None
            | TxErr InvalidIEEEFrame => report InvalidIEEEStructure ;; Ret None
            | TxErr InvalidDeviceFrame => report InvalidDeviceStructure ;; Ret None
            end;
  do (r, buf) <- lift (overwrite_pan_id P cfg dv buf);
  match r with
  | TxOk tt => Ret tt
  | TxErr InvalidIEEEFrame => report InvalidIEEEStructure
  | TxErr InvalidDeviceFrame => report InvalidDeviceStructure
  end ;;
  Ret (buf, seq).

(** csma/mod.rs:505-533: true if an ACK came. [radio_guard.unwrap()] moves the guard to a temporary that lives until the
    end of the match. *)
Definition await_ack (seq : N) : future bool :=
  acquire_lock TxGuard ;;
  do d <- lift (duration_add prof (p_aifs P) (p_sifs P));
  do d <- lift (duration_add prof d 288);
  unwrap_guard TxGuard ;;
  call (Move TxGuard AckGuard) ;;
  do r <- scoped [destructor (Release AckGuard)]
            (call (Delay Tx (as_u32 d)) ;; select (wait_for_valid_ack seq) (awaits (DelayDone Tx)));
  call (Release AckGuard) ;;
  Ret (match r with inl _ => true | inr _ => false end).

(** csma/constants.rs:8-9, 54-57: TURNAROUND_TIME * SYMBOL_RATE_INV_US *)
Definition turnaround_us : Z := 12 * 16.

(** csma/mod.rs:477-558: radio_guard is dropped at the end of the iteration of 'outer, however the loop is left *)
Definition send_frame (buf : list N) (seq : option N) : future unit :=
  scoped [destructor (Release TxGuard)] (
    if (65536 <=? p_retries P + 1)%N then Fail
    else iter (fun i : N =>
      if (i <=? p_retries P)%N then
        do ok <- transmit_cca buf;
        if negb ok then report CcaFailed ;; Ret (inr tt)
        else match seq with
             | None => Ret (inr tt)
             | Some s =>
                 do acked <- await_ack s;
                 if (acked : bool) then Ret (inr tt)
                 else
                   call (Release TxGuard) ;;
                   delay Tx (duration_max (p_sifs P) turnaround_us) ;;
                   if (i =? p_retries P)%N then report AckFailed ;; Ret (inr tt)
                   else report (AckRetry i) ;; Ret (inl (i + 1)%N)
             end
      else Ret (inr tt)) 1%N) ;;
  call (Release TxGuard).

(** csma/mod.rs:426-560. ack_rx is only the target of receive in wait_for_valid_ack. *)
Definition transmit_package_task : future Empty_set :=
  iter (fun _ : unit =>
    do fb <- awaiting NextFrame;
    yield_now Tx ;;
    do (buf, seq) <- prepare_frame (fb_buffer fb);
    send_frame buf seq ;;
    Ret (inl tt)) tt.

(** csma/mod.rs:263-300: the first future of the join; the result is the new contents of tx_ack.buffer *)
Definition acknowledge (should_ack : bool) (seq : option N) (tx_ack : list N) : future (list N) :=
  if should_ack then
    match seq with
    | Some s =>
        do tx_ack <- lift (build_ack dv s tx_ack);
        do d <- lift (duration_div prof (p_aifs P) 2);
        delay Rx d ;;
        unwrap_guard RxGuard ;;
        do _ <- transmit Rx (mkTx (c_channel cfg) (tx_cca tx_default)) tx_ack;
        Ret tx_ack
    | None => Ret tx_ack
    end
  else call (Release RxGuard) ;; Ret tx_ack.

(** csma/mod.rs:182-304: one iteration; the state is tx_ack.buffer. rx.buffer is only read after receive filled it.
    The future of driver.received is created (line 301) before join polls anything. *)
Definition receive_once (tx_ack : list N) : future (list N + Empty_set) :=
  yield_now Rx ;;
  do held <- ask (Holds RxGuard);
  (if held then Ret tt else awaits (Lock RxGuard)) ;;
  unwrap_guard RxGuard ;;
  do r <- select (receive Rx (mkRx (c_channel cfg))) (awaits SignalReceived);
  match r with
  | inl (true, buf) =>
      do d <- lift (rx_decide P cfg dv (s_hw S) buf);
      match d with
      | None => Ret (inl tx_ack)
      | Some (should_ack, seq) =>
          call (Received (mkFb buf true)) ;;
          do (tx_ack, _) <- join (acknowledge should_ack seq tx_ack) (awaits ReceivedDone);
          Ret (inl tx_ack)
      end
  | _ => call (Release RxGuard) ;; Ret (inl tx_ack)
  end.

(** csma/mod.rs:173-306 *)
Definition receive_frame_task : future Empty_set :=
  scoped [destructor (Release RxGuard)] (iter receive_once (fb_buffer fb_default)).

(** csma/mod.rs:121-134; the channel is created and split here (CsmaWorld.v starts with a new channel) *)
Definition run : future Empty_set :=
  awaits Enable ;;
  do _ <- select transmit_package_task receive_frame_task;
  Fail.
End Tasks.
