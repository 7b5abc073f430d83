(** CsmaWorld.v -- what can happen around the tasks of CsmaTasks.v: the state of the two mutexes and of the channel (models
    of Sync.v), which variables hold a guard, and the history of events. Radio, driver, timer and random numbers are
    unconstrained, except that buffers are 128 octets and next_u32 gives 32 bits. *)
From Verif Require Import Base Sync Csma CsmaTasks.
From Verif Require Import Async.

Record world := mkWorld {
  w_radio : MutexState;        (* CsmaDevice::radio *)
  w_rng : MutexState;          (* CsmaDevice::rng *)
  w_chan : ChannelState unit;  (* wants_to_transmit_signal *)
  w_held : cell -> bool;       (* the variables that hold a guard of the radio *)
  w_hist : list event          (* what happened so far, oldest first *) }.

Definition cell_eqb (a b : cell) : bool :=
  match a, b with RxGuard, RxGuard | TxGuard, TxGuard | AckGuard, AckGuard => true | _, _ => false end.
Definition set_cell (c : cell) (b : bool) (h : cell -> bool) : cell -> bool := fun c' => if cell_eqb c c' then b else h c'.

(** A [u8; 128] *)
Definition buffer_okb (b : list N) : bool := (length b =? 128)%nat && forallb (fun x => (x <? 256)%N) b.

(** Both tasks run inside one future, so there is one waker: number 0. *)
Definition waker : nat := 0.

(** The state after [e], or None if [e] cannot happen. (Also None: a send on a channel whose slot is in a bad state;
    CsmaGlobal.v shows that it never is.) *)
Definition next_state (w : world) (e : event) : option world :=
  let radio m h := Some (mkWorld m (w_rng w) (w_chan w) h (w_hist w)) in
  let rng m := Some (mkWorld (w_radio w) m (w_chan w) (w_held w) (w_hist w)) in
  let chan c := Some (mkWorld (w_radio w) (w_rng w) c (w_held w) (w_hist w)) in
  match e with
  | Polled => None    (* not something the program does: see [between] *)
  | Lock c ok =>
      let '(r, m, _) := lock_poll waker (w_radio w) in
      if Bool.eqb ok r then radio m (if r then set_cell c true (w_held w) else w_held w) else None
  | TryLock c ok =>
      let (r, m) := try_lock (w_radio w) in
      if Bool.eqb ok r then radio m (if r then set_cell c true (w_held w) else w_held w) else None
  | Holds c b => if Bool.eqb b (w_held w c) then Some w else None
  | Release c => if w_held w c then radio (fst (guard_drop (w_radio w))) (set_cell c false (w_held w)) else Some w
  | Move c c' => radio (w_radio w) (set_cell c false (set_cell c' (w_held w c) (w_held w)))
  | RngLock ok => let '(r, m, _) := lock_poll waker (w_rng w) in if Bool.eqb ok r then rng m else None
  | RngUnlock => rng (fst (guard_drop (w_rng w)))
  | Random n => if (n <? 2 ^ 32)%N then Some w else None
  | SignalReady ok => let '(r, c, _) := send_ready_poll waker (w_chan w) in if Bool.eqb ok r then chan c else None
  | SignalSend => match send tt (w_chan w) with Def (_, c, _, _) => chan c | UB => None end
  | SignalReceived ok =>
      match receive_poll waker (w_chan w) with
      | Def (r, c, _) => if Bool.eqb ok (match r with Some _ => true | None => false end) then chan c else None
      | UB => None
      end
  | Receive _ (Some (_, b)) => if buffer_okb b then Some w else None
  | NextFrame (Some f) => if buffer_okb (fb_buffer f) then Some w else None
  | _ => Some w
  end.
Definition record (w : world) (e : event) : world :=
  mkWorld (w_radio w) (w_rng w) (w_chan w) (w_held w) (w_hist w ++ [e]).
Definition happens (w : world) (e : event) : option world :=
  match next_state w e with Some w' => Some (record w' e) | None => None end.

(** The meaning of operations, and of what happens between two polls. *)
Definition sem (B : Type) (o : op B) (w : world) (b : B) (w' : world) : Prop := happens w (o b) = Some w'.
Definition between (w w' : world) : Prop := w' = record w Polled.

(** The first poll of [run] (Mutex::new, Channel::new). *)
Definition start : world := mkWorld mutex_new mutex_new channel_new (fun _ => false) [Polled].
(** Everything that can happen while the device runs: [reachable S p w]: the rest of the program is [p]. *)
Definition reachable (S : Setup) (p : future Empty_set) (w : world) : Prop := reach sem between (run S) start p w.
