(** Specification vocabulary for the mutex and the channel: histories of observable events, oldest first.
    Tasks, futures and guards are named by numbers. *)
From Coq Require Import List Bool Arith.
Import ListNotations.
From Verif Require Import Sync.

(** ** Mutex histories *)
Inductive mutex_event :=
| MPoll (f t : nat) (r : option nat)   (* lock() future [f] polled with task [t]'s waker: pending or guard *)
| MTry (r : option nat)                (* try_lock(): None or guard *)
| MDrop (g : nat)                      (* guard dropped *)
| MCancel (f : nat)                    (* lock() future dropped *)
| MWake (t : nat).                     (* task [t] woken *)

(** guards in existence after a history *)
Definition add_guard (r : option nat) (l : list nat) : list nat := match r with Some g => g :: l | None => l end.
Definition guard_step (l : list nat) (e : mutex_event) : list nat :=
  match e with
  | MPoll _ _ r | MTry r => add_guard r l
  | MDrop g => remove Nat.eq_dec g l
  | _ => l
  end.
Definition guards (tr : list mutex_event) : list nat := fold_left guard_step tr [].

Definition granted (r : option nat) (b : bool) : Prop := match r with Some _ => b = true | None => b = false end.

(** the histories the mutex of mutex.rs can produce, with the state it is then in: any number of futures and
    tasks, polls in any order, with any waker, whether or not woken; guards named freshly when handed out *)
Inductive mutex_history : list mutex_event -> MutexState -> Prop :=
| mh_new : mutex_history [] mutex_new
| mh_poll tr m f t b m' w r : mutex_history tr m -> lock_poll t m = (b, m', w) -> granted r b ->
    (forall g, r = Some g -> ~ In g (guards tr)) ->
    mutex_history (tr ++ MPoll f t r :: map MWake w) m'
| mh_try tr m b m' r : mutex_history tr m -> try_lock m = (b, m') -> granted r b ->
    (forall g, r = Some g -> ~ In g (guards tr)) ->
    mutex_history (tr ++ [MTry r]) m'
| mh_drop tr m g m' w : mutex_history tr m -> In g (guards tr) -> guard_drop m = (m', w) ->
    mutex_history (tr ++ MDrop g :: map MWake w) m'
| mh_cancel tr m f : mutex_history tr m -> mutex_history (tr ++ [MCancel f]) m.

(** ** Channel histories *)
Section channel.
Context {T : Type}.
Inductive channel_event :=
| CSend (v : T) (replaced : bool)                              (* send(v) returned [replaced] *)
| CSendPoll (s t : nat) (v : T) (r : option bool)              (* poll of send_async(v) by sender future [s] of task [t] *)
| CRecvPoll (f t : nat) (r : option T)                         (* poll of receive() future [f] by task [t] *)
| CCancel (f : nat)                                            (* a send_async or receive future dropped *)
| CWake (t : nat)
| CDropped (v : T)                                             (* destructor of a message run *)
| CReset.                                                      (* split() again, or channel dropped *)

(** the message sent but not yet received *)
Definition unread_step (u : option T) (e : channel_event) : option T :=
  match e with
  | CSend v _ | CSendPoll _ _ v (Some _) => Some v
  | CRecvPoll _ _ (Some _) | CReset => None
  | _ => u
  end.
Definition unread (tr : list channel_event) : option T := fold_left unread_step tr None.
Definition sent_by (e : channel_event) : list T := match e with CSend v _ | CSendPoll _ _ v (Some _) => [v] | _ => [] end.
Definition received_by (e : channel_event) : list T := match e with CRecvPoll _ _ (Some v) => [v] | _ => [] end.
Definition dropped_by (e : channel_event) : list T := match e with CDropped v => [v] | _ => [] end.
Definition sent (tr : list channel_event) : list T := flat_map sent_by tr.
Definition received (tr : list channel_event) : list T := flat_map received_by tr.
Definition dropped (tr : list channel_event) : list T := flat_map dropped_by tr.
Definition option_list (o : option T) : list T := match o with Some v => [v] | None => [] end.

(** the histories the channel of channel.rs can produce *)
Inductive channel_history : list channel_event -> ChannelState T -> Prop :=
| ch_new : channel_history [] channel_new
| ch_send_now tr c v b c' w d : channel_history tr c -> send v c = Def (b, c', w, d) ->
    channel_history (tr ++ CSend v b :: map CWake w ++ map CDropped d) c'
| ch_send_poll tr c s t v r c' w d : channel_history tr c -> send_async_poll t v c = Def (r, c', w, d) ->
    channel_history (tr ++ CSendPoll s t v r :: map CWake w ++ map CDropped d) c'
| ch_recv_poll tr c f t r c' w : channel_history tr c -> receive_poll t c = Def (r, c', w) ->
    channel_history (tr ++ CRecvPoll f t r :: map CWake w) c'
| ch_cancel tr c f : channel_history tr c -> channel_history (tr ++ [CCancel f]) c
| ch_reset tr c : channel_history tr c -> channel_history (tr ++ [CReset]) (split c).

(** all polls of receive() are made by task [t] *)
Definition receiver_task (t : nat) (tr : list channel_event) : Prop := forall f u r, In (CRecvPoll f u r) tr -> u = t.
Definition only_async (tr : list channel_event) : Prop := forall v b, ~ In (CSend v b) tr.
Definition never_reset (tr : list channel_event) : Prop := ~ In CReset tr.
(** messages that were unread when the channel was reset *)
Fixpoint lost_from (u : option T) (tr : list channel_event) : list T :=
  match tr with
  | [] => []
  | CReset :: tr => option_list u ++ lost_from None tr
  | e :: tr => lost_from (unread_step u e) tr
  end.
Definition lost (tr : list channel_event) : list T := lost_from None tr.
End channel.
Arguments channel_event : clear implicits.
