(** LinkRuns.v -- concrete runs of two CSMA devices over a medium that loses acknowledgements (C87). *)
From Coq Require Import Lia.
From Verif Require Import Base Sync Spec SpecFrame FrameControl SpecFrames PhyConfig Time Csma SpecCsma CsmaTasks CsmaWorld SpecTasks PropCsma TaskRuns.
From Verif Require Import SpecExchange PropExchange PropPrepared.
From Verif Require Import Async AsyncProofs SpecLink.

(** Device A sends to S0 (B) of TaskRuns.v, whose address is in the frame; it only differs in its own address. *)
Definition SA0 : Setup := mkSetup pan_abcd config_default length_device [0x11; 0x12; 0x13; 0x14; 0x15; 0x16; 0x17; 0x18]%N Checked.
Example SA0_ok : setup_ok SA0.
Proof. unfold setup_ok. split; [exact (proj1 C38_length_device)|]. cbn. repeat split; lia. Qed.
Lemma prepare_eq_a : prepare_frame SA0 (fb_buffer outgoing) = Ret (on_air, Some 1%N).
Proof. change (prepare_frame SA0 (fb_buffer outgoing)) with (prepare_frame S0 (fb_buffer outgoing)). exact prepare_eq. Qed.
Lemma acknowledge_eq_b : acknowledge S0 true (Some 1%N) ack =
  (delay Rx 500 ;; unwrap_guard RxGuard ;; do _ <- transmit Rx (mkTx (c_channel config_default) false) ack; Ret ack).
Proof.
  unfold acknowledge. replace (build_ack (s_device S0) 1 ack) with (Done ack) by (vm_compute; reflexivity).
  replace (duration_div (s_profile S0) (p_aifs (s_params S0)) 2) with (Done 500%Z) by (vm_compute; reflexivity).
  cbn [lift]. rewrite !bind_ret. reflexivity.
Qed.
Ltac tauprep_a := match goal with |- visits ?p _ _ => let p' := eval cbv beta in p in change p with p' end; rewrite prepare_eq_a.
Ltac decided_b :=
  match goal with |- visits ?p _ _ => let p' := eval cbv beta in p in change p with p' end;
  lazymatch goal with |- context [acknowledge ?s ?a ?b ?c] =>
    replace a with true by (vm_compute; reflexivity); replace b with (Some 1%N) by (vm_compute; reflexivity) end;
  rewrite ?acknowledge_eq, ?acknowledge_eq_b.

(** ** A *)
Definition air : list event :=
  [TryLock TxGuard true; Holds TxGuard true; PrepareTx Tx (mkTx (c_channel config_default) true) on_air true; Transmit Tx (Some true);
   Holds TxGuard true; Holds TxGuard true; Move TxGuard AckGuard; Delay Tx 2288; PrepareRx Tx (mkRx (c_channel config_default)) true; Receive Tx None; DelayDone Tx false].
Definition a1 : list event := [Polled; Enable true; NextFrame (Some outgoing); Woken Tx; Woken Rx].
Definition a2 : list event := [Polled; Holds TxGuard false] ++ air ++ [Holds RxGuard false; Lock RxGuard false].
(** nothing heard in time: again *)
Definition retry (n : N) : list event :=
  [Polled; Receive Tx None; DelayDone Tx true; Cancel Tx; Release AckGuard; Release TxGuard; Delay Tx 1000; DelayDone Tx true; Report (AckRetry n); ReportDone true; Holds TxGuard false]
  ++ air ++ [Lock RxGuard false].
Definition listens : list event := [Lock RxGuard true; Holds RxGuard true; PrepareRx Rx (mkRx (c_channel config_default)) true; Receive Rx None; SignalReceived false].
(** the acknowledgement is heard *)
Definition success : list event := [Polled; Receive Tx (Some (true, ack)); Release AckGuard; Release TxGuard; NextFrame None] ++ listens.
(** the third time it is not heard, either *)
Definition failure : list event :=
  [Polled; Receive Tx None; DelayDone Tx true; Cancel Tx; Release AckGuard; Release TxGuard; Delay Tx 1000; DelayDone Tx true; Report AckFailed; ReportDone true; Release TxGuard; NextFrame None]
  ++ listens.
Lemma visited_success : visits (run SA0) start [a1; a1 ++ a2; a1 ++ a2 ++ retry 1; a1 ++ a2 ++ retry 1 ++ success].
Proof.
  go true. go (Some outgoing). go tt. go tt.
  poll. tauprep_a. go false. go true. go true. go true. go (Some true). go true. go true. go tt. go tt. go true. go (None : option (bool * list N)). go false. go false. go false.
  poll. go (None : option (bool * list N)). go true. go tt. go tt. go tt. go tt. go true. go tt. go true. go false.
    go true. go true. go true. go (Some true). go true. go true. go tt. go tt. go true. go (None : option (bool * list N)). go false. go false.
  poll. go (Some (true, ack)). go tt. go tt. go (None : option FrameBuffer). go true. go true. go true. go (None : option (bool * list N)). go false.
  poll. apply visits_end.
Qed.
Lemma visited_failure : visits (run SA0) start
  [a1; a1 ++ a2; a1 ++ a2 ++ retry 1; a1 ++ a2 ++ retry 1 ++ retry 2; a1 ++ a2 ++ retry 1 ++ retry 2 ++ failure].
Proof.
  go true. go (Some outgoing). go tt. go tt.
  poll. tauprep_a. go false. go true. go true. go true. go (Some true). go true. go true. go tt. go tt. go true. go (None : option (bool * list N)). go false. go false. go false.
  poll. go (None : option (bool * list N)). go true. go tt. go tt. go tt. go tt. go true. go tt. go true. go false.
    go true. go true. go true. go (Some true). go true. go true. go tt. go tt. go true. go (None : option (bool * list N)). go false. go false.
  poll. go (None : option (bool * list N)). go true. go tt. go tt. go tt. go tt. go true. go tt. go true. go false.
    go true. go true. go true. go (Some true). go true. go true. go tt. go tt. go true. go (None : option (bool * list N)). go false. go false.
  poll. go (None : option (bool * list N)). go true. go tt. go tt. go tt. go tt. go true. go tt. go true. go tt. go (None : option FrameBuffer).
    go true. go true. go true. go (None : option (bool * list N)). go false.
  poll. apply visits_end.
Qed.

(** A gives the first frame up and sends another one with the same sequence number; then an acknowledgement is heard *)
Definition frame2 : list N := map (fun x => if N.eqb x 0x2b then 0x2c else x)%N frame.
Definition outgoing2 : FrameBuffer := mkFb frame2 true.
Definition on_air2 : list N := Eval vm_compute in match set_ack_request_if_possible config_default length_device frame2 with
  Done (_, b) => match overwrite_pan_id pan_abcd config_default length_device b with Done (_, b) => b | Panic => [] end | Panic => [] end.
Lemma prepare_eq_a2 : prepare_frame SA0 (fb_buffer outgoing2) = Ret (on_air2, Some 1%N).
Proof.
  unfold prepare_frame. change (set_ack_request_if_possible (s_config SA0) (s_device SA0) (fb_buffer outgoing2)) with (set_ack_request_if_possible config_default length_device frame2).
  let x := eval vm_compute in (set_ack_request_if_possible config_default length_device frame2) in
  replace (set_ack_request_if_possible config_default length_device frame2) with x by (vm_compute; reflexivity).
  cbn [lift]. rewrite bind_ret, bind_ret.
  match goal with |- context [overwrite_pan_id ?a ?b ?c ?d] => let x := eval vm_compute in (overwrite_pan_id a b c d) in
    replace (overwrite_pan_id a b c d) with x by (vm_compute; reflexivity) end.
  cbn [lift]. rewrite !bind_ret. reflexivity.
Qed.
Ltac tauprep_a2 := match goal with |- visits ?p _ _ => let p' := eval cbv beta in p in change p with p' end; rewrite prepare_eq_a2.
Definition failure' : list event :=
  [Polled; Receive Tx None; DelayDone Tx true; Cancel Tx; Release AckGuard; Release TxGuard; Delay Tx 1000; DelayDone Tx true; Report AckFailed; ReportDone true; Release TxGuard;
   NextFrame (Some outgoing2); Woken Tx] ++ listens.
Definition next1 : list event :=
  [Polled; Holds TxGuard false; TryLock TxGuard false; SignalReady true; SignalSend; TryLock TxGuard false; SignalReady false; Receive Rx None; SignalReceived true; Cancel Rx; Release RxGuard; Woken Rx].
Definition next2 : list event :=
  [Polled; SignalReady true; SignalSend; TryLock TxGuard true; Holds TxGuard true; PrepareTx Tx (mkTx (c_channel config_default) true) on_air2 true; Transmit Tx (Some true);
   Holds TxGuard true; Holds TxGuard true; Move TxGuard AckGuard; Delay Tx 2288; PrepareRx Tx (mkRx (c_channel config_default)) true; Receive Tx None; DelayDone Tx false;
   Holds RxGuard false; Lock RxGuard false].
Definition stale : list event :=
  [Polled; Receive Tx (Some (true, ack)); Release AckGuard; Release TxGuard; NextFrame None; Lock RxGuard true; Holds RxGuard true; PrepareRx Rx (mkRx (c_channel config_default)) true;
   Receive Rx None; SignalReceived true; Cancel Rx; Release RxGuard; Woken Rx].
Lemma visited_stale : visits (run SA0) start
  [a1; a1 ++ a2; a1 ++ a2 ++ retry 1; a1 ++ a2 ++ retry 1 ++ retry 2; a1 ++ a2 ++ retry 1 ++ retry 2 ++ failure';
   a1 ++ a2 ++ retry 1 ++ retry 2 ++ failure' ++ next1; a1 ++ a2 ++ retry 1 ++ retry 2 ++ failure' ++ next1 ++ next2;
   a1 ++ a2 ++ retry 1 ++ retry 2 ++ failure' ++ next1 ++ next2 ++ stale].
Proof.
  go true. go (Some outgoing). go tt. go tt.
  poll. tauprep_a. go false. go true. go true. go true. go (Some true). go true. go true. go tt. go tt. go true. go (None : option (bool * list N)). go false. go false. go false.
  poll. go (None : option (bool * list N)). go true. go tt. go tt. go tt. go tt. go true. go tt. go true. go false.
    go true. go true. go true. go (Some true). go true. go true. go tt. go tt. go true. go (None : option (bool * list N)). go false. go false.
  poll. go (None : option (bool * list N)). go true. go tt. go tt. go tt. go tt. go true. go tt. go true. go false.
    go true. go true. go true. go (Some true). go true. go true. go tt. go tt. go true. go (None : option (bool * list N)). go false. go false.
  poll. go (None : option (bool * list N)). go true. go tt. go tt. go tt. go tt. go true. go tt. go true. go tt. go (Some outgoing2). go tt.
    go true. go true. go true. go (None : option (bool * list N)). go false.
  poll. tauprep_a2. go false. go false. go true. go tt. go false. go false. go (None : option (bool * list N)). go true. go tt. go tt. go tt.
  poll. go true. go tt. go true. go true. go true. go (Some true). go true. go true. go tt. go tt. go true. go (None : option (bool * list N)). go false. go false. go false.
  poll. go (Some (true, ack)). go tt. go tt. go (None : option FrameBuffer). go true. go true. go true. go (None : option (bool * list N)). go true. go tt. go tt. go tt.
  poll. apply visits_end.
Qed.

(** ** B *)
Definition delivery : list event := [Receive Rx (Some (true, on_air)); Received (mkFb on_air true); Delay Rx 500; DelayDone Rx false; ReceivedDone true].
Definition b1 : list event := [Polled; Enable true; NextFrame None; Woken Rx].
Definition b2 : list event := [Polled; NextFrame None; Holds RxGuard false; Lock RxGuard true; Holds RxGuard true; PrepareRx Rx (mkRx (c_channel config_default)) true; Receive Rx None; SignalReceived false].
Definition b3 : list event := [Polled; NextFrame None] ++ delivery.
Definition b4 : list event :=
  [Polled; NextFrame None; DelayDone Rx true; Holds RxGuard true; PrepareTx Rx (mkTx (c_channel config_default) false) ack true; Transmit Rx (Some true); Woken Rx].
Definition b5 : list event := [Polled; NextFrame None; Holds RxGuard true; Holds RxGuard true; PrepareRx Rx (mkRx (c_channel config_default)) true] ++ delivery.
Lemma visited_b : visits (run S0) start [b1; b1 ++ b2; b1 ++ b2 ++ b3; b1 ++ b2 ++ b3 ++ b4; b1 ++ b2 ++ b3 ++ b4 ++ b5; b1 ++ b2 ++ b3 ++ b4 ++ b5 ++ b4].
Proof.
  go true. go (None : option FrameBuffer). go tt.
  poll. go (None : option FrameBuffer). go false. go true. go true. go true. go (None : option (bool * list N)). go false.
  poll. go (None : option FrameBuffer). go (Some (true, on_air)). go tt. decided_b. go tt. go false. go true.
  poll. go (None : option FrameBuffer). go true. go true. go true. go (Some true). go tt.
  poll. go (None : option FrameBuffer). go true. go true. go true. go (Some (true, on_air)). go tt. decided_b. go tt. go false. go true.
  poll. go (None : option FrameBuffer). go true. go true. go true. go (Some true). go tt.
  poll. apply visits_end.
Qed.

(** ** Both: the first acknowledgement is lost; the second is heard, or lost as well. *)
Definition by_a (h : list event) := map (pair SideA) h.
Definition by_b (h : list event) := map (pair SideB) h.
Definition twice : list (side * event) :=
  by_a a1 ++ by_b (b1 ++ b2) ++ by_a a2 ++ by_b (b3 ++ b4) ++ by_a (retry 1) ++ by_b (b5 ++ b4) ++ by_a success.
Definition lost : list (side * event) :=
  by_a a1 ++ by_b (b1 ++ b2) ++ by_a a2 ++ by_b (b3 ++ b4) ++ by_a (retry 1) ++ by_b (b5 ++ b4) ++ by_a (retry 2 ++ failure).
(** B hears only the third copy of the first frame, and is slow to acknowledge it *)
Definition late : list (side * event) :=
  by_a (a1 ++ a2 ++ retry 1) ++ by_b (b1 ++ b2) ++ by_a (retry 2) ++ by_b b3 ++ by_a (failure' ++ next1 ++ next2) ++ by_b b4 ++ by_a stale.
Fixpoint subsequence (sent got : list (list N)) : bool :=
  match sent, got with
  | _, [] => true
  | [], _ :: _ => false
  | a :: sent, b :: got' => if list_eq_dec N.eq_dec a b then subsequence sent got' else subsequence sent got
  end.
Definition framed (b : list N) : bool := match dev_data length_device b with Some _ => true | None => false end.
Lemma subsequence_copies sent : forall got, subsequence sent got = true -> forallb framed got = true -> copies (carried length_device length_device) sent got.
Proof.
  assert (NIL : forall l, copies (carried length_device length_device) l []) by (induction l; constructor; assumption).
  induction sent as [|a sent IH]; intros [|b got] H HF; try discriminate; try apply NIL. cbn [subsequence] in H. destruct (list_eq_dec N.eq_dec a b) as [<-|].
  - cbn [forallb] in HF. apply andb_true_iff in HF. destruct HF as [HF1 HF2]. constructor; [|apply IH; assumption].
    unfold framed in HF1. destruct (dev_data length_device a) as [[o n]|] eqn:E; [|discriminate]. exists o, (SpecAddressing.window a o n), o. split; exists n; auto.
  - apply copies_lost. apply IH; assumption.
Qed.
Definition medium_ok (l : list (side * event)) : bool :=
  forallb (fun n => let l1 := firstn n l in
    subsequence (aired (of_side SideA l1)) (heard (of_side SideB l1)) && forallb framed (heard (of_side SideB l1)) &&
    subsequence (aired (of_side SideB l1)) (heard (of_side SideA l1)) && forallb framed (heard (of_side SideA l1))) (seq 0 (Datatypes.S (length l))).
Lemma medium_okb l : medium_ok l = true -> medium length_device length_device l.
Proof.
  intros H l1 l2 E. unfold medium_ok in H. rewrite forallb_forall in H.
  assert (EF : firstn (length l1) l = l1) by (rewrite E, firstn_app, firstn_all, Nat.sub_diag, firstn_O; apply app_nil_r).
  assert (HI : In (length l1) (seq 0 (Datatypes.S (length l)))) by (apply in_seq; rewrite E, app_length; lia).
  specialize (H _ HI). cbv zeta in H. rewrite EF in H. repeat rewrite andb_true_iff in H. destruct H as [[[H1 H2] H3] H4].
  split; apply subsequence_copies; assumption.
Qed.
Lemma reached S hs h : visits (run S) start hs -> In h hs -> exists p w, reachable S p w /\ w_hist w = h.
Proof. intros HV HI. destruct (visits_reach hs _ _ _ _ (reach_here _ _ _ _) HV h HI) as (c & q & v & HR & HH). eauto. Qed.
Lemma link_twice : link SA0 S0 twice.
Proof.
  destruct length_device_ok as (_ & ST & SW). constructor.
  - split; [exact SA0_ok|]. split; assumption.
  - split; [exact S0_ok|]. split; assumption.
  - eapply reached; [exact visited_success|]. right. right. right. left. vm_compute. reflexivity.
  - eapply reached; [exact visited_b|]. do 5 right. left. vm_compute. reflexivity.
  - apply medium_okb. vm_compute. reflexivity.
Qed.
Lemma link_lost : link SA0 S0 lost.
Proof.
  destruct length_device_ok as (_ & ST & SW). constructor.
  - split; [exact SA0_ok|]. split; assumption.
  - split; [exact S0_ok|]. split; assumption.
  - eapply reached; [exact visited_failure|]. do 4 right. left. vm_compute. reflexivity.
  - eapply reached; [exact visited_b|]. do 5 right. left. vm_compute. reflexivity.
  - apply medium_okb. vm_compute. reflexivity.
Qed.
Lemma link_late : link SA0 S0 late.
Proof.
  destruct length_device_ok as (_ & ST & SW). constructor.
  - split; [exact SA0_ok|]. split; assumption.
  - split; [exact S0_ok|]. split; assumption.
  - eapply reached; [exact visited_stale|]. do 7 right. left. vm_compute. reflexivity.
  - eapply reached; [exact visited_b|]. do 3 right. left. vm_compute. reflexivity.
  - apply medium_okb. vm_compute. reflexivity.
Qed.
