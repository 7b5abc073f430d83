(** SpecReentrant.v -- the behaviour one would expect of operations whose callbacks use the primitive: the operation is done
    (as Sync.v says), and then the callbacks run. *)
From Verif Require Import Base.
From Verif Require Import Sync Reentrant.

Definition woken (w : list nat) : list mev := map MWoke w.
Fixpoint m_after (o : mop) (m : MutexState) {struct o} : MutexState * list mev :=
  let fix afters (l : list mop) (m : MutexState) : MutexState * list mev :=
    match l with [] => (m, []) | o :: l => let (m, e) := m_after o m in let (m, e') := afters l m in (m, e ++ e') end in
  match o with
  | MTryLock => let (b, m) := try_lock m in (m, if b then [MLocked] else [])
  | MPoll t cb =>
      let '(b, m, w) := lock_poll t m in
      match w with
      | [] => (m, if b then [MLocked] else [])
      | u :: _ => let (m, e) := afters cb m in (m, MWoke u :: e)
      end
  | MDrop cb =>
      let (m, w) := guard_drop m in
      match w with
      | [] => (m, [])
      | u :: _ => let (m, e) := afters cb m in (m, MWoke u :: e)
      end
  end.
(** the operation wakes a task whose waker uses the mutex *)
Definition m_reenters (o : mop) (m : MutexState) : Prop :=
  match o with
  | MTryLock => False
  | MPoll t cb => cb <> [] /\ snd (lock_poll t m) <> []
  | MDrop cb => cb <> [] /\ snd (guard_drop m) <> []
  end.

Section After.
Context {T : Type}.
Fixpoint c_after (o : cop T) (c : ChannelState T) {struct o} : mem (ChannelState T * list (cev T)) :=
  let fix afters (l : list (cop T)) (c : ChannelState T) : mem (ChannelState T * list (cev T)) :=
    match l with
    | [] => Def (c, [])
    | o :: l => mbind (c_after o c) (fun p => mbind (afters l (fst p)) (fun q => Def (fst q, snd p ++ snd q)))
    end in
  let callback (d : list T) (on_drop : list (cop T)) (w : list nat) (on_wake : list (cop T)) (c : ChannelState T) :=
    mbind (match d with [] => Def (c, []) | v :: _ => mbind (afters on_drop c) (fun q => Def (fst q, CDropped v :: snd q)) end) (fun p =>
    mbind (match w with [] => Def (fst p, []) | u :: _ => mbind (afters on_wake (fst p)) (fun q => Def (fst q, CWoke u :: snd q)) end) (fun q =>
    Def (fst q, snd p ++ snd q))) in
  match o with
  | CHasItem => Def (c, [])
  | CSend v on_drop on_wake => mbind (send v c) (fun r => let '(_, c, w, d) := r in callback d on_drop w on_wake c)
  | CReady t on_wake =>
      let '(b, c, w) := send_ready_poll t c in mbind (callback [] [] w on_wake c) (fun q => Def (fst q, if b then [CFree] else snd q))
  | CReceive t on_wake => mbind (receive_poll t c) (fun r => let '(v, c, w) := r in
      mbind (callback [] [] w on_wake c) (fun q => Def (fst q, match v with Some v => CGot v :: snd q | None => snd q end)))
  end.
End After.

(** the states of a channel between operations (C50-C54): a message is there exactly if the channel is ready, and then the receiver's
    waker has been taken *)
Definition c_good {T} (c : ChannelState T) : Prop :=
  (ch_ready c = true <-> exists v, ch_slot c = SInit v) /\ (ch_ready c = true -> ch_recv c = None).

(** callbacks only where they are harmless: destructors do not use the channel, nor do the wakers of waiting senders *)
Inductive harmless {T} : cop T -> Prop :=
| h_has : harmless CHasItem
| h_send v w : Forall harmless w -> harmless (CSend v [] w)
| h_ready t : harmless (CReady t [])
| h_receive t w : Forall harmless w -> harmless (CReceive t w).
(** destructors do not use the channel; wakers may do anything *)
Inductive tame {T} : cop T -> Prop :=
| t_has : tame CHasItem
| t_send v w : Forall tame w -> tame (CSend v [] w)
| t_ready t w : Forall tame w -> tame (CReady t w)
| t_receive t w : Forall tame w -> tame (CReceive t w).
