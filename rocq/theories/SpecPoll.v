(** SpecPoll.v -- vocabulary of C71: what happens within one poll of the device. *)
From Verif Require Import Base Csma CsmaTasks CsmaWorld.
From Verif Require Import Async.

(** [within_poll n p w p' w']: in [n] steps of the program, all in the same poll: none resumes a suspended program. *)
Inductive within_poll : nat -> future Empty_set -> world -> future Empty_set -> world -> Prop :=
| within_here p w : within_poll 0 p w p w
| within_step n p w q v q' v' : within_poll n p w q v -> (forall c r, q <> Pend c r) -> mstep sem between q v q' v' ->
    within_poll (Datatypes.S n) p w q' v'.

(** The frames a radio delivered to the transmit task (which is waiting for an acknowledgement then). *)
Definition deliveries (s : list event) : nat := length (filter (fun e => match e with Receive Tx (Some _) => true | _ => false end) s).

(** csma/constants.rs: macMaxCSMABackoffs = p_backoffs, macMaxFrameRetries = p_retries *)
Definition poll_bound (U : Setup) : nat :=
  27 + max 1 (N.to_nat (p_retries (s_params U))) * (22 + 20 * max 1 (N.to_nat (p_backoffs (s_params U)))).
