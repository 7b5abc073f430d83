(** SpecAir.v -- further properties of the history of events of a running CSMA device (C72-C76): enabling the radio, sharing
    it, giving receptions up, waking oneself. Uses of the model only the types of events and configurations. *)
From Coq Require Import List NArith.
Import ListNotations.
From Verif Require Import Base Spec SpecFrame FrameControl SpecFrames PhyConfig Csma SpecCsma CsmaTasks CsmaWorld SpecTasks.

(** ** C72: the radio is enabled first, and once *)
Definition not_enabled_yet (e : event) : bool := match e with Polled | Enable false => true | _ => false end.
Definition enables (e : event) : bool := match e with Enable _ => true | _ => false end.
Inductive enabled_first : list event -> Prop :=
| still_enabling h : forallb not_enabled_yet h = true -> enabled_first h
| has_enabled h1 h2 : forallb not_enabled_yet h1 = true -> existsb enables h2 = false -> enabled_first (h1 ++ Enable true :: h2).

(** ** C73: a received frame that wants an acknowledgement *)
Definition wants_ack (S : Setup) (buf : list N) : Prop :=
  exists o b r, holds (s_device S) buf o b /\ delivered (s_params S) (s_config S) (s_hw S) r b /\ ack_wanted (s_config S) r b.

(** ** C75: receptions that are given up *)
(** The transmit task wants the radio: it asked for it and did not get it yet. *)
Definition wants_radio (h : list event) : bool :=
  match last_such asks h with None | Some (TryLock _ true) => false | _ => true end.
Definition count (f : event -> bool) (h : list event) : nat := length (filter f h).
Definition gives_up (e : event) : bool := match e with Cancel Rx => true | _ => false end.
Definition signals (e : event) : bool := match e with SignalSend => true | _ => false end.
Definition acquires (e : event) : bool := match e with TryLock TxGuard true => true | _ => false end.
(** how many receptions were given up although the transmit task did not want the radio; [before]: what happened already *)
Fixpoint unwanted_from (before h : list event) : nat :=
  match h with
  | [] => 0
  | e :: h => (if gives_up e && negb (wants_radio before) then 1 else 0) + unwanted_from (before ++ [e]) h
  end.
Definition unwanted (h : list event) : nat := unwanted_from [] h.

(** ** C76: self-waking *)
Definition wakes (t : task) (e : event) : bool := match e with Woken t' => task_eqb t t' | _ => false end.
Definition completes (e : event) : bool := match e with Receive Rx (Some _) => true | _ => false end.
