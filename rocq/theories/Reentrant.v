(** Reentrant.v -- model of Mutex and Channel (dot15d4/src/sync/mutex.rs, channel.rs) in which the code called by an operation
    may itself use the primitive: [Waker::wake], which an executor is free to implement by running the task, and the destructor
    of a message that is overwritten. Finer than Sync.v: the steps of an operation around such a call are separate, and the
    RefCell around the mutex's state has its borrow flag. Not modelled: re-entry from Waker::clone, will_wake or drop. *)
From Verif Require Import Base.
From Verif Require Import Sync.

(** ** Mutex. An operation, with the operations performed by the waker it wakes (if it wakes one). *)
Inductive mop :=
| MTryLock
| MPoll (t : nat) (on_wake : list mop)     (* poll of lock() with waker [t] *)
| MDrop (on_wake : list mop).              (* drop of a guard *)
Inductive mev := MLocked | MWoke (u : nat).
(** RefCell<MutexState>: [borrowed] while a RefMut is alive; borrow_mut panics then *)
Record mcell := mkCell { mc_borrowed : bool; mc_state : MutexState }.
Fixpoint m_run (o : mop) (s : mcell) {struct o} : outcome (mcell * list mev) :=
  let fix runs (l : list mop) (s : mcell) : outcome (mcell * list mev) :=
    match l with
    | [] => Done (s, [])
    | o :: l => let* (s, e) := m_run o s in let* (s, e') := runs l s in Done (s, e ++ e')
    end in
  if mc_borrowed s then Panic                                            (* already borrowed: BorrowMutError *)
  else
    let m := mc_state s in
    match o with
    | MTryLock =>                                                        (* mutex.rs:44-54 *)
        if mx_locked m then Done (s, []) else Done (mkCell false (mkMutex true (mx_waker m)), [MLocked])
    | MPoll t cb =>                                                      (* mutex.rs:112-141 *)
        if mx_locked m then
          match mx_waker m with
          | Some u =>
              if (u =? t)%nat then Done (mkCell false (mkMutex true (Some t)), [])
              else                                                       (* 124-127: take, wake, store *)
                let* (s, e) := runs cb (mkCell true (mkMutex true None)) in
                Done (mkCell false (mkMutex (mx_locked (mc_state s)) (Some t)), MWoke u :: e)
          | None => Done (mkCell false (mkMutex true (Some t)), [])
          end
        else Done (mkCell false (mkMutex true (mx_waker m)), [MLocked])
    | MDrop cb =>                                                        (* mutex.rs:92-104 *)
        match mx_waker m with
        | Some u =>
            let* (s, e) := runs cb (mkCell true (mkMutex false None)) in
            Done (mkCell false (mc_state s), MWoke u :: e)
        | None => Done (mkCell false (mkMutex false None), [])
        end
    end.
Fixpoint m_runs (l : list mop) (s : mcell) : outcome (mcell * list mev) :=
  match l with
  | [] => Done (s, [])
  | o :: l => let* (s, e) := m_run o s in let* (s, e') := m_runs l s in Done (s, e ++ e')
  end.

(** ** Channel. An operation, with those performed by the destructor of the message it overwrites and by the waker it wakes. *)
Inductive cop (T : Type) :=
| CHasItem
| CSend (v : T) (on_drop on_wake : list (cop T))
| CReady (t : nat) (on_wake : list (cop T))       (* poll of the waiting part of send_async *)
| CReceive (t : nat) (on_wake : list (cop T)).    (* poll of receive() *)
Arguments CHasItem {T}. Arguments CSend {T}. Arguments CReady {T}. Arguments CReceive {T}.
Inductive cev (T : Type) := CGot (v : T) | CDropped (v : T) | CWoke (u : nat) | CFree.
Arguments CGot {T}. Arguments CDropped {T}. Arguments CWoke {T}. Arguments CFree {T}.
Definition mbind {A B} (x : mem A) (f : A -> mem B) : mem B := match x with Def a => f a | UB => UB end.

(** UnsafeCell: no check; [UB] stands for dropping or reading a slot that holds no value (or one being dropped). The wake of
    channel.rs:73-75 is there, although it never happens (the receiver's waker is gone when a message is there). *)
Section Run.
Context {T : Type}.
Fixpoint c_run (o : cop T) (c : ChannelState T) {struct o} : mem (ChannelState T * list (cev T)) :=
  let fix runs (l : list (cop T)) (c : ChannelState T) : mem (ChannelState T * list (cev T)) :=
    match l with
    | [] => Def (c, [])
    | o :: l => mbind (c_run o c) (fun p => mbind (runs l (fst p)) (fun q => Def (fst q, snd p ++ snd q)))
    end in
  let wake (w : option nat) (cb : list (cop T)) (c : ChannelState T) : mem (ChannelState T * list (cev T)) :=
    match w with
    | Some u => mbind (runs cb c) (fun q => Def (fst q, CWoke u :: snd q))
    | None => Def (c, [])
    end in
  match o with
  | CHasItem => Def (c, [])
  | CSend v on_drop on_wake =>                                                      (* channel.rs:54-99 *)
      mbind
        (if ch_ready c then
           match ch_slot c with
           | SInit old =>
               mbind (runs on_drop (mkChannel true (ch_recv c) (ch_send c) SMoved)) (fun p =>      (* 66: drop_in_place *)
               let c := fst p in
               let c := mkChannel (ch_ready c) (ch_recv c) (ch_send c) (SInit v) in                (* 69: write *)
               mbind (wake (ch_recv c) on_wake (mkChannel (ch_ready c) None (ch_send c) (ch_slot c))) (fun q =>  (* 73-75 *)
               Def (fst q, CDropped old :: snd p ++ snd q)))
           | _ => UB
           end
         else Def (mkChannel (ch_ready c) (ch_recv c) (ch_send c) (SInit v), []))                  (* 84-87 *)
        (fun p =>
           let c := fst p in
           let c := mkChannel true (ch_recv c) (ch_send c) (ch_slot c) in                          (* 93 *)
           mbind (wake (ch_recv c) on_wake (mkChannel true None (ch_send c) (ch_slot c))) (fun q => (* 94-96 *)
           Def (fst q, snd p ++ snd q)))
  | CReady t on_wake =>                                                             (* channel.rs:109-135 *)
      if ch_ready c then
        match ch_send c with
        | Some u =>
            if (u =? t)%nat then Def (mkChannel (ch_ready c) (ch_recv c) (Some t) (ch_slot c), [])
            else                                                                    (* take, wake, store *)
              mbind (wake (Some u) on_wake (mkChannel (ch_ready c) (ch_recv c) None (ch_slot c))) (fun q =>
              let c := fst q in Def (mkChannel (ch_ready c) (ch_recv c) (Some t) (ch_slot c), snd q))
        | None => Def (mkChannel (ch_ready c) (ch_recv c) (Some t) (ch_slot c), [])
        end
      else Def (c, [CFree])
  | CReceive t on_wake =>                                                           (* channel.rs:147-180 *)
      if ch_ready c then
        match ch_slot c with
        | SInit v =>
            mbind (wake (ch_send c) on_wake (mkChannel false (ch_recv c) None SMoved)) (fun q => Def (fst q, CGot v :: snd q))
        | _ => UB
        end
      else Def (mkChannel false (Some t) (ch_send c) (ch_slot c), [])
  end.
Fixpoint c_runs (l : list (cop T)) (c : ChannelState T) : mem (ChannelState T * list (cev T)) :=
  match l with
  | [] => Def (c, [])
  | o :: l => mbind (c_run o c) (fun p => mbind (c_runs l (fst p)) (fun q => Def (fst q, snd p ++ snd q)))
  end.
End Run.
