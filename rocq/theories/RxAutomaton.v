(** RxAutomaton.v -- what the receive task may do next, as an automaton over its events (used in proofs; the properties
    themselves are stated over histories in SpecTasks.v). *)
From Verif Require Import Base Spec PhyConfig Time Csma CsmaTasks CsmaWorld TaskLogic SpecTasks TxAutomaton.
From Verif Require Import Async.

Section Rx.
Variable S : Setup.
Notation P := (s_params S).
Notation cfg := (s_config S).
Notation dv := (s_device S).

(** hand the buffer over? with an acknowledgement? *)
Definition decide (buf : list N) : option (bool * option N) :=
  match rx_decide P cfg dv (s_hw S) buf with Done d => d | Panic => None end.
Inductive control :=
| RYield                                  (* yield_now is next *)
| RYielded
| RHead
| RLock | RLocking
| RReady
| RPrepare | RReceive
| RAsk (receiving : bool)                 (* the radio is not ready: look for a signal *)
| RWait (receiving : bool)
| RCancel
| RRelease
| RDeliver (buf : list N) (d : bool * option N)
| RFree
| RAck (s : N) | RAckDelay (s : N) | RAckSend (s : N) | RAckPrepare (s : N) | RAckAir (s : N)
| RDone.
Record rxstate := mkRxState { r_control : control; r_held : bool; r_busy : bool }.

Definition rx_next (s : rxstate) (e : event) : option rxstate :=
  let (c, held, busy) := s in
  let go c := Some (mkRxState c held busy) in
  let idle c := Some (mkRxState c held false) in
  let works c := if held then Some (mkRxState c held true) else None in
  match e with
  | ReceivedDone _ => Some s
  | Woken Rx => match c with RYield | RDone => if busy then None else go RYielded | _ => None end
  | Polled => match c with
              | RYielded => go RHead
              | RLocking => go RLock
              | RWait b => go (if b then RReceive else RPrepare)
              | RAckDelay _ | RAckPrepare _ | RAckAir _ | RDone => Some s
              | _ => None
              end
  | Holds RxGuard b => match c with
               | RHead => go (if b then RReady else RLock)
               | RReady => go RPrepare
               | RAckSend s => go (RAckPrepare s)
               | _ => None
               end
  | Lock RxGuard ok => match c with
               | RLock => if held then None else if busy then None else if ok then Some (mkRxState RReady true false) else go RLocking
               | _ => None
               end
  | PrepareRx Rx cf done => match c with
               | RPrepare => if rxconfig_dec cf (listen_config S) then works (if done then RReceive else RAsk false) else None
               | _ => None
               end
  | Receive Rx r => match c with
               | RReceive =>
                   if held && busy then
                     match r with
                     | None => go (RAsk true)
                     | Some (false, _) => idle RRelease
                     | Some (true, buf) => idle (match decide buf with None => RYield | Some d => RDeliver buf d end)
                     end
                   else None
               | _ => None
               end
  | SignalReceived ok => match c with RAsk b => go (if ok then RCancel else RWait b) | _ => None end
  | Cancel Rx => match c with RCancel => if held && busy then idle RRelease else None | _ => None end
  | Release RxGuard => match c with
               | RRelease => if busy then None else Some (mkRxState RYield false false)
               | RFree => if busy then None else Some (mkRxState RDone false false)
               | _ => None
               end
  | Received f => match c with
               | RDeliver buf d =>
                   if octets_dec (fb_buffer f) buf then if fb_dirty f then
                     go (match d with (false, _) => RFree | (true, None) => RDone | (true, Some s) => RAck s end)
                   else None else None
               | _ => None
               end
  | Delay Rx us => match c with RAck s => if Z.eq_dec us (ack_delay_us S) then go (RAckDelay s) else None | _ => None end
  | DelayDone Rx done => match c with RAckDelay s => go (if done then RAckSend s else RAckDelay s) | _ => None end
  | PrepareTx Rx cf b done => match c with
               | RAckPrepare s =>
                   if txconfig_dec cf (ack_config S) then if octets_dec b (ack_octets S s) then works (if done then RAckAir s else RAckPrepare s)
                   else None else None
               | _ => None
               end
  | Transmit Rx r => match c with
               | RAckAir s => if held && busy then match r with None => go (RAckAir s) | Some _ => idle RDone end else None
               | _ => None
               end
  | _ => None
  end.
Definition rx_possible (s : rxstate) (e : event) : Prop :=
  match e with
  | Polled => False
  | Holds RxGuard b => b = r_held s
  | Receive _ (Some (_, b)) => buffer_okb b = true
  | _ => True
  end.
(** dropped at a suspension: an operation in progress is cancelled, then the guard is released *)
Definition rx_clean_next (g : bool * bool) (e : event) : option (bool * bool) :=
  let (held, busy) := g in
  match e with
  | Cancel Rx => if held && busy then Some (held, false) else None
  | Release RxGuard => if busy then None else Some (false, false)
  | _ => None
  end.
Definition rx_drop (c : list (op unit)) (s : rxstate) : Prop := lrun rx_clean_next c (r_held s, r_busy s) = Some (false, false).
Definition rx_start : rxstate := mkRxState RYield false false.
End Rx.
