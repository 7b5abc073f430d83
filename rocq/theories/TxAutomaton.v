(** TxAutomaton.v -- what the transmit task may do next, as an automaton over its events (used in proofs; the
    properties themselves are stated over histories in SpecTasks.v). *)
From Verif Require Import Base Spec PhyConfig Time Csma CsmaTasks CsmaWorld TaskLogic SpecTasks.
From Verif Require Import Async.

Definition txconfig_dec (a b : TxConfig) : {a = b} + {a <> b}.
Proof. decide equality; [apply bool_dec|decide equality]. Qed.
Definition rxconfig_dec (a b : RxConfig) : {a = b} + {a <> b}.
Proof. decide equality; decide equality. Qed.
Definition octets_dec (a b : list N) : {a = b} + {a <> b}.
Proof. exact (list_eq_dec N.eq_dec a b). Qed.
Definition error_dec (a b : Error) : {a = b} + {a <> b}.
Proof. decide equality; apply N.eq_dec. Qed.

Section Tx.
Variable S : Setup.
Notation P := (s_params S).
Notation cfg := (s_config S).
Notation dv := (s_device S).

(** ** What a frame to be sent becomes *)
Definition errors_of {A} (r : tx_result A) : list Error :=
  match r with TxOk _ => [] | TxErr InvalidIEEEFrame => [InvalidIEEEStructure] | TxErr InvalidDeviceFrame => [InvalidDeviceStructure] end.
(** octets to send, acknowledgement to wait for, errors to report *)
Definition plan (buf : list N) : list N * option N * list Error :=
  match set_ack_request_if_possible cfg dv buf with
  | Panic => ([], None, [])
  | Done (r, buf1) =>
      match overwrite_pan_id P cfg dv buf1 with
      | Panic => ([], None, [])
      | Done (r2, buf2) =>
          (buf2, match r with TxOk (Some (s, _)) => Some s | _ => None end, errors_of r ++ errors_of r2)
      end
  end.

(** ** The course of a frame *)
Inductive course :=
| Idle
| Reports (es : list Error) (b : list N) (q : option N)
| Attempt (i n : N) (b : list N) (q : option N)   (* the [n]-th CSMA attempt of the [i]-th transmission is next *)
| OnAir (i n : N) (b : list N) (q : option N)
| Busy (i n : N) (b : list N) (q : option N)
| Backoff (i n : N) (b : list N) (q : option N)
| Drawn (i n : N) (us : Z) (b : list N) (q : option N)
| BackingOff (i n : N) (b : list N) (q : option N)
| SentFrame (i : N) (b : list N) (s : N)
| Listening (i : N) (b : list N) (s : N)
| Expired (i : N) (b : list N) (s : N)
| Pausing (i : N) (b : list N) (s : N)
| Judged (i : N) (b : list N) (s : N).

Definition begin (buf : list N) : course :=
  match plan buf with (b, q, []) => Attempt 1 1 b q | (b, q, es) => Reports es b q end.
Definition is_ack (s : N) (r : bool * list N) : bool :=
  let (ok, buf) := r in ok && match is_ack_for dv s buf with Done true => true | _ => false end.

Definition course_next (m : course) (e : event) : option course :=
  match e with
  | NextFrame r => match m with Idle => Some (match r with None => Idle | Some fb => begin (fb_buffer fb) end) | _ => None end
  | Report e =>
      match m with
      | Reports [e1] b q => if error_dec e e1 then Some (Attempt 1 1 b q) else None
      | Reports (e1 :: es) b q => if error_dec e e1 then Some (Reports es b q) else None
      | Busy i n b q =>
          if (n =? p_backoffs P)%N then (if error_dec e CcaFailed then Some Idle else None)
          else (if error_dec e (CcaBackoff n) then Some (Backoff i n b q) else None)
      | Judged i b s =>
          if (i =? p_retries P)%N then (if error_dec e AckFailed then Some Idle else None)
          else (if error_dec e (AckRetry i) then Some (Attempt (i + 1) 1 b (Some s)) else None)
      | _ => None
      end
  | PrepareTx _ c b' done =>
      match m with
      | Attempt i n b q =>
          if txconfig_dec c (cca_config S) then if octets_dec b' b then Some (if done then OnAir i n b q else m) else None else None
      | _ => None
      end
  | Transmit _ r =>
      match m with
      | OnAir i n b q =>
          match r with
          | None => Some m
          | Some false => Some (Busy i n b q)
          | Some true => Some (match q with None => Idle | Some s => SentFrame i b s end)
          end
      | _ => None
      end
  | Random r => match m with Backoff i n b q => Some (Drawn i n (backoff_us S n r) b q) | _ => None end
  | Delay _ us =>
      match m with
      | Drawn i n us' b q => if Z.eq_dec us us' then Some (BackingOff i n b q) else None
      | SentFrame i b s => if Z.eq_dec us (ack_timeout_us S) then Some (Listening i b s) else None
      | Expired i b s => if Z.eq_dec us (pause_us S) then Some (Pausing i b s) else None
      | _ => None
      end
  | DelayDone _ done =>
      match m with
      | BackingOff i n b q => Some (if done then Attempt i (n + 1) b q else m)
      | Listening i b s => Some (if done then Expired i b s else m)
      | Pausing i b s => Some (if done then Judged i b s else m)
      | _ => None
      end
  | PrepareRx _ c done => match m with Listening _ _ _ => if rxconfig_dec c (listen_config S) then Some m else None | _ => None end
  | Receive _ r =>
      match m with
      | Listening i b s => match r with None => Some m | Some r => Some (if is_ack s r then Idle else m) end
      | _ => None
      end
  | TryLock _ _ => match m with Attempt _ _ _ _ => Some m | _ => None end
  | _ => Some m
  end.

(** ** Its use of the radio and its lock *)
Record guards := mkGuards { g_tx : bool; g_ack : bool; g_busy : bool }.
Definition guards_next (g : guards) (e : event) : option guards :=
  let holds := g_tx g || g_ack g in
  match e with
  | PrepareTx Tx _ _ _ | PrepareRx Tx _ _ => if holds then Some (mkGuards (g_tx g) (g_ack g) true) else None
  | Transmit Tx r => if holds && g_busy g then Some (mkGuards (g_tx g) (g_ack g) (match r with None => true | Some _ => false end)) else None
  | Receive Tx r => if holds && g_busy g then Some (mkGuards (g_tx g) (g_ack g) (match r with None => true | Some _ => false end)) else None
  | Cancel Tx => if holds && g_busy g then Some (mkGuards (g_tx g) (g_ack g) false) else None
  | TryLock TxGuard ok => if holds then None else Some (mkGuards ok false (g_busy g))
  | Holds TxGuard b => Some g
  | Release TxGuard => if g_tx g && g_busy g then None else Some (mkGuards false (g_ack g) (g_busy g))
  | Release AckGuard => if g_ack g && g_busy g then None else Some (mkGuards (g_tx g) false (g_busy g))
  | Move TxGuard AckGuard => if g_tx g && negb (g_ack g) && negb (g_busy g) then Some (mkGuards false true false) else None
  | NextFrame _ | Report _ | RngLock _ | Random _ | RngUnlock | SignalReady _ | SignalSend | Woken Tx =>
      if holds || g_busy g then None else Some g
  | Delay Tx _ => if g_tx g || g_busy g then None else Some g
  | DelayDone Tx _ => if g_tx g then None else Some g
  | ReportDone _ | Polled => Some g
  | _ => None
  end.

(** ** Its requests for the lock *)
Inductive request := NoRequest | Wanting | Waiting | Signalling | Signalled.
Definition request_next (r : request) (e : event) : option request :=
  match e, r with
  | TryLock _ ok, (NoRequest | Signalled) => Some (if ok then NoRequest else Wanting)
  | TryLock _ _, _ => None
  | SignalReady ok, Wanting => Some (if ok then Signalling else Waiting)
  | SignalReady _, _ => None
  | SignalSend, Signalling => Some Signalled
  | SignalSend, _ => None
  | (Release _ | ReportDone _), _ => Some r
  | Polled, NoRequest => Some r
  | Polled, Waiting => Some Wanting
  | Polled, _ => None
  | _, NoRequest => Some r
  | _, _ => None
  end.

Definition txstate : Type := course * guards * request.
Definition tx_next (s : txstate) (e : event) : option txstate :=
  let '(m, g, r) := s in
  match course_next m e, guards_next g e, request_next r e with
  | Some m, Some g, Some r => Some (m, g, r)
  | _, _, _ => None
  end.
Definition tx_possible (s : txstate) (e : event) : Prop :=
  match e with
  | Polled => False
  | Holds TxGuard b => b = g_tx (snd (fst s))
  | Receive _ (Some (_, b)) => buffer_okb b = true
  | NextFrame (Some f) => buffer_okb (fb_buffer f) = true
  | Random n => (n < 2 ^ 32)%N
  | _ => True
  end.
(** dropped at a suspension: an operation in progress is cancelled, then the guards are released *)
Definition tx_clean_next (g : guards) (e : event) : option guards :=
  match e with
  | Cancel Tx => if (g_tx g || g_ack g) && g_busy g then Some (mkGuards (g_tx g) (g_ack g) false) else None
  | Release TxGuard => if g_tx g && g_busy g then None else Some (mkGuards false (g_ack g) (g_busy g))
  | Release AckGuard => if g_ack g && g_busy g then None else Some (mkGuards (g_tx g) false (g_busy g))
  | _ => None
  end.
Definition tx_drop (c : list (op unit)) (s : txstate) : Prop :=
  lrun tx_clean_next c (snd (fst s)) = Some (mkGuards false false false).

End Tx.
