(** SpecAttend.v -- what the device waits for (C77, C78). Uses of the model only the types of events. *)
From Coq Require Import List Bool.
Import ListNotations.
From Verif Require Import Base CsmaTasks SpecTasks.

(** What the device can be waiting for: the radio being enabled, a frame to send, an operation of the radio, the radio's lock,
    the lock of the random number generator, room for a signal, a signal, Driver::error, Driver::received, a timer. *)
Inductive awaited := AEnable | AFrame | ARadio (t : task) | ALock | ARng | ARoom | ASignal | AReport | AUpper | ATimer (t : task).
(** What an event means for it: it is begun, it was polled and is pending, it is finished or dropped. *)
Inductive effect := Nothing | Begins | Waits | Ends.
Definition ready (b : bool) : effect := if b then Ends else Waits.
Definition some {A} (o : option A) : effect := match o with Some _ => Ends | None => Waits end.
Definition effect_of (a : awaited) (e : event) : effect :=
  match a, e with
  | AEnable, Enable b => ready b
  | AFrame, NextFrame r => some r
  (* the preparation is finished: its second half begins *)
  | ARadio t, (PrepareTx t' _ _ b | PrepareRx t' _ b) => if task_eqb t t' then (if b then Begins else Waits) else Nothing
  | ARadio t, Transmit t' r => if task_eqb t t' then some r else Nothing
  | ARadio t, Receive t' r => if task_eqb t t' then some r else Nothing
  | ARadio t, Cancel t' => if task_eqb t t' then Ends else Nothing
  | ALock, Lock _ b => ready b
  | ARng, RngLock b => ready b
  | ARoom, SignalReady b => ready b
  | ASignal, SignalReceived b => ready b
  | ASignal, Receive Rx (Some _) => Ends            (* no longer of interest: dropped *)
  | AReport, Report _ => Begins
  | AReport, ReportDone b => ready b
  | AUpper, Received _ => Begins
  | AUpper, ReceivedDone b => ready b
  | ATimer t, Delay t' _ => if task_eqb t t' then Begins else Nothing
  | ATimer t, DelayDone t' b => if task_eqb t t' then ready b else Nothing
  | ATimer Tx, Release AckGuard => Ends             (* the end of waiting for an acknowledgement: dropped *)
  | _, _ => Nothing
  end.
(** Is the device waiting for [a] after [h]? *)
Definition wait_step (a : awaited) (b : bool) (e : event) : bool :=
  match effect_of a e with Nothing => b | Begins | Waits => true | Ends => false end.
Definition waits_for (a : awaited) (h : list event) : bool := fold_left (wait_step a) h false.
(** [a] is polled or dropped in [s]. *)
Definition attended (a : awaited) (s : list event) : Prop := exists e, In e s /\ (effect_of a e = Waits \/ effect_of a e = Ends).
