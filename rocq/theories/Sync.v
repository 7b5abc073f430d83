(** Model of the synchronisation primitives Mutex and Channel (dot15d4/src/sync/mutex.rs, channel.rs).
    A waker is a number naming the task it wakes: [will_wake] is equality and [wake] is recorded in the
    result. One call of [poll] is one function call on the state, as the primitives are not [Sync] and are
    only used inside one task. The RefCell/UnsafeCell around the state is not modelled: no borrow is held
    across a call, except while [wake] runs (a waker that re-enters the mutex is not modelled). *)
From Coq Require Import List Bool Arith Lia.
Import ListNotations.

(** ** Mutex *)

(** mutex.rs 10-13: struct MutexState. The value is not modelled: it is only reached through a guard. *)
Record MutexState := mkMutex { mx_locked : bool; mx_waker : option nat }.
(** mutex.rs 25-34: Mutex::new *)
Definition mutex_new : MutexState := mkMutex false None.

(** mutex.rs 112-141: LockFuture::poll with waker [t]: (ready?, state, woken tasks) *)
Definition lock_poll (t : nat) (m : MutexState) : bool * MutexState * list nat :=
  if mx_locked m then
    match mx_waker m with
    | Some u => if u =? t then (false, mkMutex true (Some t), [])       (* same waker stored: do not wake *)
                else (false, mkMutex true (Some t), [u])               (* wake the previous, store the new one *)
    | None => (false, mkMutex true (Some t), [])
    end
  else (true, mkMutex true (mx_waker m), []).
(** mutex.rs 44-54: Mutex::try_lock *)
Definition try_lock (m : MutexState) : bool * MutexState :=
  if mx_locked m then (false, m) else (true, mkMutex true (mx_waker m)).
(** mutex.rs 92-104: MutexGuard::drop *)
Definition guard_drop (m : MutexState) : MutexState * list nat :=
  match mx_waker m with
  | Some u => (mkMutex false None, [u])
  | None => (mkMutex false None, [])
  end.

(** ** Channel *)

(** The message slot, UnsafeCell<MaybeUninit<T>>: never written, holding a value, or moved out of. *)
Inductive Slot (T : Type) := SUninit | SInit (v : T) | SMoved.
Arguments SUninit {T}. Arguments SInit {T} v. Arguments SMoved {T}.
(** channel.rs 10-19: struct ChannelState and Channel *)
Record ChannelState (T : Type) := mkChannel { ch_ready : bool; ch_recv : option nat; ch_send : option nat; ch_slot : Slot T }.
Arguments mkChannel {T}. Arguments ch_ready {T}. Arguments ch_recv {T}. Arguments ch_send {T}. Arguments ch_slot {T}.
(** channel.rs 22-31: Channel::new *)
Definition channel_new {T} : ChannelState T := mkChannel false None None SUninit.

Definition wakes (w : option nat) : list nat := match w with Some u => [u] | None => [] end.

(** Result of an operation: [UB] when it would drop or read a slot that holds no value. *)
Inductive mem (A : Type) := Def (a : A) | UB.
Arguments Def {A} a. Arguments UB {A}.

(** channel.rs 54-99: Sender::send: (did_replace, state, woken tasks, dropped messages) *)
Definition send {T} (v : T) (c : ChannelState T) : mem (bool * ChannelState T * list nat * list T) :=
  if ch_ready c then
    match ch_slot c with
    | SInit old =>                                     (* drop_in_place, write; then the waker is taken twice *)
        Def (true, mkChannel true None (ch_send c) (SInit v), wakes (ch_recv c), [old])
    | _ => UB
    end
  else Def (false, mkChannel true None (ch_send c) (SInit v), wakes (ch_recv c), []).

(** channel.rs 102-105, 184-187: has_item *)
Definition has_item {T} (c : ChannelState T) : bool := ch_ready c.

(** channel.rs 109-135: the poll_fn of Sender::send_async with waker [t]: (ready?, state, woken tasks) *)
Definition send_ready_poll {T} (t : nat) (c : ChannelState T) : bool * ChannelState T * list nat :=
  if has_item c then
    match ch_send c with
    | Some u => if u =? t then (false, mkChannel (ch_ready c) (ch_recv c) (Some t) (ch_slot c), [])
                else (false, mkChannel (ch_ready c) (ch_recv c) (Some t) (ch_slot c), [u])
    | None => (false, mkChannel (ch_ready c) (ch_recv c) (Some t) (ch_slot c), [])
    end
  else (true, c, []).
(** channel.rs 108-139: one poll of the future send_async(v): None when pending *)
Definition send_async_poll {T} (t : nat) (v : T) (c : ChannelState T) : mem (option bool * ChannelState T * list nat * list T) :=
  let '(ready, c, w) := send_ready_poll t c in
  if ready then
    match send v c with
    | Def (b, c, w', d) => Def (Some b, c, w ++ w', d)
    | UB => UB
    end
  else Def (None, c, w, []).

(** channel.rs 147-180: one poll of the future receive() with waker [t] *)
Definition receive_poll {T} (t : nat) (c : ChannelState T) : mem (option T * ChannelState T * list nat) :=
  if ch_ready c then
    match ch_slot c with
    | SInit v => Def (Some v, mkChannel false (ch_recv c) None SMoved, wakes (ch_send c))
    | _ => UB
    end
  else Def (None, mkChannel false (Some t) (ch_send c) (ch_slot c), []).

(** channel.rs 33-36: split: the channel is overwritten with a new one. MaybeUninit has no destructor, so a
    pending message is not dropped; the wakers are. *)
Definition split {T} (c : ChannelState T) : ChannelState T := channel_new.
