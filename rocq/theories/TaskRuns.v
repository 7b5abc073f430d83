(** TaskRuns.v -- concrete runs of the CSMA device that meet the hypotheses of the theorems of PropTasks.v. *)
From Coq Require Import Lia.
From Verif Require Import Base Sync Spec SpecFrame FrameControl SpecFrames PhyConfig Time Csma SpecCsma CsmaTasks CsmaWorld SpecTasks PropCsma.
From Verif Require Import Async AsyncProofs.

(** A device with the crate's parameters and a PAN ID whose radio stores the length in front of the frame. *)
Definition S0 : Setup := mkSetup pan_abcd config_default length_device my_address Checked.
Example S0_ok : setup_ok S0.
Proof. unfold setup_ok. split; [exact (proj1 C38_length_device)|]. cbn. repeat split; lia. Qed.

(** [visits p w hs]: the program [p] started in [w] can be run so that the histories at its first suspensions are [hs]. *)
Inductive visits : future Empty_set -> world -> list (list event) -> Prop :=
| visits_end p w : visits p w []
| visits_step p w p' w' hs : mstep sem between p w p' w' -> visits p' w' hs -> visits p w hs
| visits_suspension p c q w hs : frob p = Pend c q -> visits q (record w Polled) hs -> visits p w (w_hist w :: hs).
Lemma visits_reach hs : forall p0 w0 p w, reach sem between p0 w0 p w -> visits p w hs -> forall h, In h hs ->
  exists c q v, reach (A := Empty_set) sem between p0 w0 (Pend c q) v /\ w_hist v = h.
Proof.
  intros p0 w0 p w HR HV. revert p0 w0 HR. induction HV as [p w|p w p' w' hs HS HV IH|p c q w hs HF HV IH]; intros p0 w0 HR h HI.
  - destruct HI.
  - apply (IH p0 w0); [|exact HI]. eapply reach_step; eassumption.
  - rewrite <- frob_eq in HF. subst p. destruct HI as [<-|HI]; [eauto|]. apply (IH p0 w0); [|exact HI]. eapply reach_step; [exact HR|]. split; reflexivity.
Qed.
(** internal steps; an operation answered [b]; a suspension and the next poll; the end *)
Ltac tau := eapply visits_step; [hnf; lazymatch goal with |- _ /\ _ = _ => split; [reflexivity|reflexivity] end|].
Ltac go b := repeat tau; (eapply visits_step; [hnf; exists b; split; [vm_compute; reflexivity|hnf; reflexivity]|]).
Ltac poll := repeat tau; (eapply visits_suspension; [hnf; reflexivity|]).

(** A unicast data frame with sequence number 1 arrives and leaves; both ways it is acknowledged. *)
Definition frame : list N := in_length_device unicast_frame.
Definition ack : list N := [3; 2; 16; 1]%N ++ repeat 0%N 124.
Definition outgoing : FrameBuffer := mkFb frame true.
(** What is sent for [outgoing]. *)
Definition on_air : list N := Eval vm_compute in match set_ack_request_if_possible config_default length_device frame with
  Done (_, b) => match overwrite_pan_id pan_abcd config_default length_device b with Done (_, b) => b | Panic => [] end | Panic => [] end.

Definition poll1 : list event :=
  [Polled; Enable true; NextFrame None; Woken Rx].
Definition poll2 : list event :=
  [Polled; NextFrame None; Holds RxGuard false; Lock RxGuard true; Holds RxGuard true; PrepareRx Rx (mkRx (c_channel config_default)) true; Receive Rx None; SignalReceived false].
Definition poll3 : list event :=
  [Polled; NextFrame (Some outgoing); Woken Tx; Receive Rx None; SignalReceived false].
Definition poll4 : list event :=
  [Polled; Holds TxGuard false; TryLock TxGuard false; SignalReady true; SignalSend; TryLock TxGuard false; SignalReady false; Receive Rx None; SignalReceived true; Cancel Rx; Release RxGuard; Woken Rx].
Definition poll5 : list event :=
  [Polled; SignalReady true; SignalSend; TryLock TxGuard true; Holds TxGuard true; PrepareTx Tx (mkTx (c_channel config_default) true) on_air true; Transmit Tx (Some false); Release TxGuard; Report (CcaBackoff 1); RngLock true; Random 12345; RngUnlock; Delay Tx 320; DelayDone Tx false; ReportDone true; Holds RxGuard false; Lock RxGuard true; Holds RxGuard true; PrepareRx Rx (mkRx (c_channel config_default)) true; Receive Rx (Some (true, frame)); Received (mkFb frame true); Delay Rx 500; DelayDone Rx false; ReceivedDone false].
Definition poll6 : list event :=
  [Polled; DelayDone Tx true; Holds TxGuard false; TryLock TxGuard false; SignalReady false; DelayDone Rx true; Holds RxGuard true; PrepareTx Rx (mkTx (c_channel config_default) false) ack true; Transmit Rx None; ReceivedDone true].
Definition poll7 : list event :=
  [Polled; SignalReady false; Transmit Rx (Some true); Woken Rx].
Definition poll8 : list event :=
  [Polled; SignalReady false; Holds RxGuard true; Holds RxGuard true; PrepareRx Rx (mkRx (c_channel config_default)) false; SignalReceived true; Cancel Rx; Release RxGuard; Woken Rx].
Definition poll9 : list event :=
  [Polled; SignalReady true; SignalSend; TryLock TxGuard true; Holds TxGuard true; PrepareTx Tx (mkTx (c_channel config_default) true) on_air true; Transmit Tx (Some true); Holds TxGuard true; Holds TxGuard true; Move TxGuard AckGuard; Delay Tx 2288; PrepareRx Tx (mkRx (c_channel config_default)) true; Receive Tx None; DelayDone Tx false; Holds RxGuard false; Lock RxGuard false].
Definition poll10 : list event :=
  [Polled; Receive Tx (Some (true, frame)); PrepareRx Tx (mkRx (c_channel config_default)) true; Receive Tx (Some (true, ack)); Release AckGuard; Release TxGuard; NextFrame None; Lock RxGuard true; Holds RxGuard true; PrepareRx Rx (mkRx (c_channel config_default)) true; Receive Rx None; SignalReceived true; Cancel Rx; Release RxGuard; Woken Rx].
Definition histories : list (list event) :=
  [poll1;
   poll1 ++ poll2;
   poll1 ++ poll2 ++ poll3;
   poll1 ++ poll2 ++ poll3 ++ poll4;
   poll1 ++ poll2 ++ poll3 ++ poll4 ++ poll5;
   poll1 ++ poll2 ++ poll3 ++ poll4 ++ poll5 ++ poll6;
   poll1 ++ poll2 ++ poll3 ++ poll4 ++ poll5 ++ poll6 ++ poll7;
   poll1 ++ poll2 ++ poll3 ++ poll4 ++ poll5 ++ poll6 ++ poll7 ++ poll8;
   poll1 ++ poll2 ++ poll3 ++ poll4 ++ poll5 ++ poll6 ++ poll7 ++ poll8 ++ poll9;
   poll1 ++ poll2 ++ poll3 ++ poll4 ++ poll5 ++ poll6 ++ poll7 ++ poll8 ++ poll9 ++ poll10].
Lemma prepare_eq : prepare_frame S0 (fb_buffer outgoing) = Ret (on_air, Some 1%N).
Proof.
  unfold prepare_frame. change (set_ack_request_if_possible (s_config S0) (s_device S0) (fb_buffer outgoing)) with (set_ack_request_if_possible config_default length_device frame).
  let x := eval vm_compute in (set_ack_request_if_possible config_default length_device frame) in
  replace (set_ack_request_if_possible config_default length_device frame) with x by (vm_compute; reflexivity).
  cbn [lift]. rewrite bind_ret, bind_ret.
  match goal with |- context [overwrite_pan_id ?a ?b ?c ?d] => let x := eval vm_compute in (overwrite_pan_id a b c d) in
    replace (overwrite_pan_id a b c d) with x by (vm_compute; reflexivity) end.
  cbn [lift]. rewrite !bind_ret. reflexivity.
Qed.
Lemma acknowledge_eq : acknowledge S0 true (Some 1%N) (fb_buffer fb_default) =
  (delay Rx 500 ;; unwrap_guard RxGuard ;; do _ <- transmit Rx (mkTx (c_channel config_default) false) ack; Ret ack).
Proof.
  unfold acknowledge.
  replace (build_ack (s_device S0) 1 (fb_buffer fb_default)) with (Done ack) by (vm_compute; reflexivity).
  replace (duration_div (s_profile S0) (p_aifs (s_params S0)) 2) with (Done 500%Z) by (vm_compute; reflexivity).
  cbn [lift]. rewrite !bind_ret. reflexivity.
Qed.
Ltac decided :=
  match goal with |- visits ?p _ _ => let p' := eval cbv beta in p in change p with p' end;
  lazymatch goal with |- context [acknowledge ?s ?a ?b ?c] =>
    replace a with true by (vm_compute; reflexivity); replace b with (Some 1%N) by (vm_compute; reflexivity) end;
  rewrite acknowledge_eq.
Ltac tauprep := match goal with |- visits ?p _ _ => let p' := eval cbv beta in p in change p with p' end; rewrite prepare_eq.
Lemma visited : visits (run S0) start histories.
Proof.
  go true. go (None : option FrameBuffer). go tt.
  poll. go (None : option FrameBuffer). go false. go true. go true. go true. go (None : option (bool * list N)). go false.
  poll. go (Some outgoing). go tt. go (None : option (bool * list N)). go false.
  poll. tauprep. go false. go false. go true. go tt. go false. go false. go (None : option (bool * list N)). go true. go tt. go tt. go tt.
  poll. go true. go tt. go true. go true. go true. go (Some false). go tt. go tt. go true. go 12345%N. go tt. go tt. go false. go true. go false. go true. go true. go true. go (Some (true, frame)). go tt. decided. go tt. go false. go false.
  poll. go true. go false. go false. go false. go true. go true. go true. go (None : option bool). go true.
  poll. go false. go (Some true). go tt.
  poll. go false. go true. go true. go false. go true. go tt. go tt. go tt.
  poll. go true. go tt. go true. go true. go true. go (Some true). go true. go true. go tt. go tt. go true. go (None : option (bool * list N)). go false. go false. go false.
  poll. go (Some (true, frame)). go true. go (Some (true, ack)). go tt. go tt. go (None : option FrameBuffer). go true. go true. go true. go (None : option (bool * list N)). go true. go tt. go tt. go tt.
  poll. apply visits_end.
Qed.
Theorem suspensions : forall h, In h histories -> exists c p w, reachable S0 (Pend c p) w /\ w_hist w = h.
Proof. intros h. eapply visits_reach; [apply reach_here|exact visited]. Qed.

(** What happened, in the vocabulary of SpecTasks.v *)
Definition upto (n : nat) : list event := nth (n - 1) histories [].
Example C40_case : rx_log (upto 10) = [Receive Rx (Some (true, frame)); Received (mkFb frame true); Delay Rx 500; DelayDone Rx true;
  PrepareTx Rx (mkTx (c_channel config_default) false) ack true; Transmit Rx (Some true)].
Proof. reflexivity. Qed.
Example C41_case : receptions (upto 5) = [(true, frame)] /\ handed (upto 5) = [mkFb frame true].
Proof. split; reflexivity. Qed.
Example C45_case : tx_log (upto 10) =
  [NextFrame (Some outgoing);
   PrepareTx Tx (mkTx (c_channel config_default) true) on_air true; Transmit Tx (Some false); Report (CcaBackoff 1); Random 12345;
   Delay Tx 320; DelayDone Tx true;
   PrepareTx Tx (mkTx (c_channel config_default) true) on_air true; Transmit Tx (Some true); Delay Tx 2288;
   Receive Tx (Some (true, frame)); Receive Tx (Some (true, ack))].
Proof. reflexivity. Qed.
Example C47_case : exists h1 h2, upto 6 = h1 ++ Report (CcaBackoff 1) :: h2 /\ agree (tx_log h2) [Random 12345; Delay Tx (320 * 1); DelayDone Tx true].
Proof. eexists (poll1 ++ poll2 ++ poll3 ++ poll4 ++ firstn 8 poll5), _. split; [reflexivity|]. exists []. left. reflexivity. Qed.
Example C48_case : (exists h1 h2, upto 5 = h1 ++ Report (CcaBackoff 1) :: h2 /\ ~ In (DelayDone Tx true) h2) /\
  cells (upto 4) RxGuard = false /\ cells (upto 5) RxGuard = true /\ cells (upto 9) AckGuard = true /\
  in_progress Rx (upto 2) = true /\ in_progress Tx (upto 9) = true.
Proof.
  split; [|repeat split]. eexists (poll1 ++ poll2 ++ poll3 ++ poll4 ++ firstn 8 poll5), _. split; [reflexivity|].
  intros H. cbn in H. repeat (destruct H as [H|H]; [discriminate|]). exact H.
Qed.
Example C64_C65_case : exists c p w, reachable S0 (Pend c p) w /\
  In (PrepareTx Tx (mkTx (c_channel config_default) true) on_air true) (w_hist w) /\
  In (PrepareTx Rx (mkTx (c_channel config_default) false) ack true) (w_hist w) /\
  In (PrepareRx Tx (mkRx (c_channel config_default)) true) (w_hist w).
Proof.
  destruct (suspensions (upto 10)) as (c & p & w & HR & HH); [unfold upto; apply nth_In; cbn; lia|].
  exists c, p, w. split; [exact HR|]. rewrite HH. split; [|split]; cbn; intuition.
Qed.
Ltac split_all := repeat match goal with |- _ /\ _ => split end.
Example C63_cases : tx_waits (upto 4) /\ self_woken (upto 4) = true /\ delivering (upto 4) = false /\
  tx_waits (upto 6) /\ self_woken (upto 6) = false /\ delivering (upto 6) = true /\
  (tx_waits (upto 7) /\ delivering (upto 7) = false /\ In (TryLock TxGuard true) (tl poll8 ++ tl poll9) /\
     upto 9 = upto 7 ++ Polled :: tl poll8 ++ Polled :: tl poll9 /\ ~ In Polled (tl poll8) /\ ~ In Polled (tl poll9) /\
     (forall r, ~ In (Receive Rx (Some r)) (tl poll8))) /\
  rx_waits (upto 9) /\ In (Lock RxGuard true) poll10.
Proof.
  assert (N : forall (e : event) l, existsb (fun x => match e, x with Polled, Polled => true | Receive Rx (Some _), Receive Rx (Some _) => true | _, _ => false end) l = false ->
            (e = Polled \/ exists r, e = Receive Rx (Some r)) -> ~ In e l).
  { intros e l H HE HI. assert (X : existsb (fun x => match e, x with Polled, Polled => true | Receive Rx (Some _), Receive Rx (Some _) => true | _, _ => false end) l = true); [|congruence].
    apply existsb_exists. exists e. split; [exact HI|]. destruct HE as [->|(r & ->)]; reflexivity. }
  split_all; try reflexivity; try (cbn; auto 30; fail); try (apply N; [reflexivity|eauto]).
  intros r. apply N; [reflexivity|eauto].
Qed.

(** The futures of C44 and C46 on their own *)
Lemma reach_cons A (p : future A) w p' w' q v : mstep sem elsewhere p w p' w' -> reach sem elsewhere p' w' q v -> reach sem elsewhere p w q v.
Proof. intros H1 H2. induction H2 as [|q v q' v' H2 IH H3]; [eapply reach_step; [apply reach_here|exact H1]|eapply reach_step; [exact IH|exact H3]]. Qed.
Lemma reach_fin A (p : future A) w q : frob p = q -> reach sem elsewhere p w q w.
Proof. intros <-. rewrite <- frob_eq. apply reach_here. Qed.
Ltac tau' := eapply reach_cons; [hnf; lazymatch goal with |- _ /\ _ = _ => split; [reflexivity|reflexivity] end|].
Ltac go' b := repeat tau'; (eapply reach_cons; [hnf; exists b; split; [vm_compute; reflexivity|hnf; reflexivity]|]).
Example C44_case : exists w', reach sem elsewhere (transmit_cca S0 frame) start (Ret true) w' /\
  outcomes (w_hist w') = [false; true] /\ reported (w_hist w') = [CcaBackoff 1].
Proof.
  eexists. split.
  - go' false. go' true. go' true. go' true. go' (Some false). go' tt. go' tt. go' true. go' 7%N. go' tt. go' tt. go' true. go' true.
    go' false. go' true. go' true. go' true. go' (Some true). repeat tau'. eapply reach_fin. hnf. reflexivity.
  - split; reflexivity.
Qed.
Example C46_case : exists w', reach sem elsewhere (wait_for_valid_ack S0 1) start (Ret tt) w' /\
  tx_log (w_hist w') = [Receive Tx (Some (false, ack)); Receive Tx (Some (true, frame)); Receive Tx (Some (true, ack))].
Proof.
  eexists. split.
  - go' true. go' (Some (false, ack)). go' true. go' (Some (true, frame)). go' true. go' (Some (true, ack)). repeat tau'. eapply reach_fin. hnf. reflexivity.
  - reflexivity.
Qed.
