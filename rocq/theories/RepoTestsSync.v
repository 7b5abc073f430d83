(** RepoTestsSync.v -- the unit tests of dot15d4/src/sync (channel.rs:190-317, mutex.rs:145-269, select.rs:43-115,
    join.rs:70-130, yield_now.rs:19-37), replayed on the model. Like RepoTests.v these are tests of the model, not proofs of
    properties. test_std_delay_future (sync/tests.rs:158-168, real time) is not replayed.

    [block_on] is pollster's: one waker, number 0; the future is polled again only if the waker was woken since the last poll
    began, so a test whose wake-up is lost does not pass. The steps of a run are counted down from a bound that no passing
    test reaches. *)
From Coq Require Import List Bool NArith.
From Verif Require Import Sync Async.
Import ListNotations.
Open Scope N_scope.

(** what the tests use: two channels, the messages dropped by them, a mutex around a number, and whether the waker was woken *)
Record tw := mkTw { c1 : ChannelState N; c2 : ChannelState N; gone : list N; mx : MutexState; cell : N; woken : bool }.
Definition new : tw := mkTw channel_new channel_new [] mutex_new 0 false.
(** an operation: None where the model says undefined behaviour *)
Definition top (B : Type) : Type := tw -> option (B * tw).
Notation test := (prog (Op := top)).
Definition wake (l : list nat) (w : tw) : tw :=
  mkTw (c1 w) (c2 w) (gone w) (mx w) (cell w) (woken w || existsb (Nat.eqb 0) l).
Definition chan (i : bool) (w : tw) : ChannelState N := if i then c2 w else c1 w.
Definition set_chan (i : bool) (c : ChannelState N) (w : tw) : tw :=
  mkTw (if i then c1 w else c) (if i then c else c2 w) (gone w) (mx w) (cell w) (woken w).
Definition drop_messages (l : list N) (w : tw) : tw := mkTw (c1 w) (c2 w) (gone w ++ l) (mx w) (cell w) (woken w).
Definition set_mx (m : MutexState) (w : tw) : tw := mkTw (c1 w) (c2 w) (gone w) m (cell w) (woken w).
(** Sender::send *)
Definition send_op (i : bool) (v : N) : top bool := fun w =>
  match send v (chan i w) with Def (b, c, l, d) => Some (b, wake l (drop_messages d (set_chan i c w))) | UB => None end.
(** a poll of Receiver::receive *)
Definition receive_op (i : bool) : top (option N) := fun w =>
  match receive_poll 0 (chan i w) with Def (r, c, l) => Some (r, wake l (set_chan i c w)) | UB => None end.
(** a poll of Sender::send_async *)
Definition send_async_op (i : bool) (v : N) : top (option bool) := fun w =>
  match send_async_poll 0 v (chan i w) with Def (r, c, l, d) => Some (r, wake l (drop_messages d (set_chan i c w))) | UB => None end.
(** a poll of Mutex::lock, Mutex::try_lock, the drop of the guard, [*guard += 1] and reading the value *)
Definition lock_op : top bool := fun w => let '(r, m, l) := lock_poll 0 (mx w) in Some (r, wake l (set_mx m w)).
Definition try_lock_op : top bool := fun w => let (r, m) := try_lock (mx w) in Some (r, set_mx m w).
Definition unlock_op : top unit := fun w => let (m, l) := guard_drop (mx w) in Some (tt, wake l (set_mx m w)).
Definition incr_op : top unit := fun w => Some (tt, mkTw (c1 w) (c2 w) (gone w) (mx w) (cell w + 1) (woken w)).
Definition read_op : top N := fun w => Some (cell w, w).
Definition wake_op : top unit := fun w => Some (tt, wake [0%nat] w).

Definition yield_now : test unit := yield_now_with (Op := top) wake_op.
Definition assert_eq (a b : N) : test unit := if a =? b then Ret tt else Fail.
(** [for i in i..i + n { .. }] *)
Fixpoint loop (n : nat) (i : N) (f : N -> test unit) : test unit := match n with O => Ret tt | S n => f i ;; loop n (i + 1) f end.

Inductive result (A : Type) := Passed (a : A) (w : tw) | Panicked | Undefined | Hangs | OutOfSteps.
Arguments Passed {A} a w. Arguments Panicked {A}. Arguments Undefined {A}. Arguments Hangs {A}. Arguments OutOfSteps {A}.
Fixpoint block_on {A} (n : nat) (p : test A) (w : tw) : result A :=
  match n with
  | O => OutOfSteps
  | S n =>
      match p with
      | Ret a => Passed a w
      | Tau p => block_on n p w
      | Vis o k => match o w with Some (b, w) => block_on n (k b) w | None => Undefined end
      | Pend _ p => if woken w then block_on n p (mkTw (c1 w) (c2 w) (gone w) (mx w) (cell w) false) else Hangs
      | Fail => Panicked
      end
  end.
Definition bound : nat := N.to_nat 100000.
Definition ok {A} (r : result A) : bool := match r with Passed _ _ => true | _ => false end.
Definition passes (t : test unit) : Prop := ok (block_on bound t new) = true.
Ltac run := vm_compute; reflexivity.

(** ** channel.rs *)
Definition tx (v : N) : test bool := act (Op := top) (send_op false v).
Definition rx (i : bool) : test N := await (Op := top) (receive_op i).
Definition tx_async (i : bool) (v : N) : test bool := await (Op := top) (send_async_op i v).
(** 201-210 *)
Example test_channel_no_concurrency : passes (tx 1 ;; do x <- rx false; assert_eq x 1).
Proof. run. Qed.
(** 212-234 *)
Example test_channel_join_concurrency : passes (
  join (loop 10 0 (fun i => tx i ;; yield_now))
       (loop 10 0 (fun i => do x <- rx false; assert_eq x i)) ;; Ret tt).
Proof. run. Qed.
(** 236-249; what Miri checks: the replaced messages are dropped, the received one is not dropped by the channel *)
Example test_drop_by_leaking :
  match block_on bound (tx 0 ;; tx 1 ;; tx 2 ;; do x <- rx false; assert_eq x 2) new with
  | Passed _ w => gone w = [0; 1] /\ ch_slot (c1 w) = SMoved
  | _ => False
  end.
Proof. vm_compute. auto. Qed.
(** 251-280 *)
Example test_multiple_receivers : passes (loop 10 0 (fun _ =>
  join (join (do x <- rx false; assert_eq x 0) (do x <- rx false; assert_eq x 1))
       (loop 10 0 (fun _ => yield_now) ;; tx 0 ;; yield_now ;; tx 1) ;; Ret tt)).
Proof. run. Qed.
(** 282-315 *)
Example test_multiple_channels_at_once : passes (
  join (tx_async false 0 ;; tx_async true 0 ;; tx_async false 1 ;; tx_async true 1)
       (loop 10 0 (fun _ => yield_now) ;;
        join (do x <- rx false; assert_eq x 0 ;; do x <- rx true; assert_eq x 0)
             (do x <- rx false; assert_eq x 1 ;; do x <- rx true; assert_eq x 1)) ;; Ret tt).
Proof. run. Qed.

(** ** mutex.rs *)
Definition lock : test unit := await_ready (Op := top) lock_op.
Definition do_op {B} (o : top B) : test B := act (Op := top) o.
(** [let mut guard = mutex.lock().await; body] and the drop of the guard *)
Definition locked (body : test unit) : test unit := lock ;; scoped [unlock_op] body ;; do_op unlock_op.
Definition value_is (n : N) : test unit := do x <- do_op read_op; assert_eq x n.
(** 155-172 *)
Example test_mutex_no_concurrency : passes (locked (do_op incr_op ;; value_is 1) ;; value_is 1).
Proof. run. Qed.
(** 174-195 *)
Example test_mutex_select_concurrency : passes (
  loop 100 0 (fun _ => select (locked (do_op incr_op)) (locked (do_op incr_op)) ;; Ret tt) ;; value_is 100).
Proof. run. Qed.
(** 197-218 *)
Example test_mutex_join_concurrency : passes (
  loop 100 0 (fun _ => join (locked (do_op incr_op)) (locked (do_op incr_op)) ;; Ret tt) ;; value_is 200).
Proof. run. Qed.
(** 220-255 *)
Definition try_until : test unit := iter (fun i : nat =>
  do b <- do_op try_lock_op;
  if (b : bool) then scoped [unlock_op] (do_op incr_op) ;; do_op unlock_op ;; Ret (inr tt)
  else if Nat.eqb i 20 then Fail else yield_now ;; Ret (inl (S i))) O.
Example test_try_lock : passes (
  join (locked (loop 10 0 (fun _ => do_op incr_op ;; yield_now))) try_until ;; value_is 11).
Proof. run. Qed.
(** 257-266: the guard is dropped *)
Example test_drop_by_leaking_mutex :
  match block_on bound (locked (Ret tt)) new with Passed _ w => mx_locked (mx w) = false | _ => False end.
Proof. reflexivity. Qed.

(** ** select.rs, join.rs, yield_now.rs *)
(** poll_fn that is Pending (and wakes) [n] times, and one that is always Pending *)
Fixpoint counter (n : nat) : test unit := match n with O => Ret tt | S n => Vis wake_op (fun _ => Pend [] (counter n)) end.
CoFixpoint pending : test unit := Pend [] pending.
(** select.rs:53-115 *)
Example test_select_immediate_ready_first : passes (do r <- select (Ret 1) (Ret 2); match r with inl x => assert_eq x 1 | _ => Fail end).
Proof. run. Qed.
Example test_select_immediate_ready_second : passes (do r <- select pending (Ret 2); match r with inr x => assert_eq x 2 | _ => Fail end).
Proof. run. Qed.
Example test_select_wait_until_one_finished : passes (do r <- select (counter 10) pending; match r with inl x => Ret tt | _ => Fail end).
Proof. run. Qed.
Example test_select_wait_until_second_finished : passes (do r <- select pending (counter 10); match r with inr x => Ret tt | _ => Fail end).
Proof. run. Qed.
(** join.rs:79-130 *)
Example test_join_immediate_ready : passes (do (a, b) <- join (Ret 1) (Ret 2); assert_eq a 1 ;; assert_eq b 2).
Proof. run. Qed.
Example test_join_wait_until_one_finished : passes (join (counter 10) (Ret tt) ;; Ret tt).
Proof. run. Qed.
Example test_join_wait_until_second_finished : passes (join (Ret tt) (counter 10) ;; Ret tt).
Proof. run. Qed.
(** yield_now.rs:24-36 *)
Example test_yield_finishes : passes yield_now.
Proof. run. Qed.
(** the runner notices: a future that nobody wakes, a failed assertion, a message that never comes *)
Example runner_rejects :
  block_on bound pending new = Hangs /\ block_on bound (assert_eq 1 2) new = Panicked /\ block_on bound (rx false) new = Hangs /\
  block_on bound (lock ;; lock) new = Hangs.
Proof. vm_compute. auto. Qed.
