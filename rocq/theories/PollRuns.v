(** PollRuns.v -- a family of runs of the CSMA device in which one poll does arbitrarily much (used for C71). *)
From Coq Require Import Lia.
From Verif Require Import Base Sync Spec SpecFrame FrameControl SpecFrames PhyConfig Time Csma SpecCsma CsmaTasks CsmaWorld SpecTasks PropCsma TaskRuns StarveRuns.
From Verif Require Import Async AsyncProofs.

Definition a_poll1 : list event := [Polled; Enable true; NextFrame (Some outgoing); Woken Tx; Woken Rx].
Definition a_poll2 : list event :=
  [Polled; Holds TxGuard false; TryLock TxGuard true; Holds TxGuard true; PrepareTx Tx (mkTx (c_channel config_default) true) on_air true;
   Transmit Tx (Some true); Holds TxGuard true; Holds TxGuard true; Move TxGuard AckGuard; Delay Tx 2288;
   PrepareRx Tx (mkRx (c_channel config_default)) true].
Definition other_frame : list event := [Receive Tx (Some (true, frame)); PrepareRx Tx (mkRx (c_channel config_default)) true].
Definition a_end : list event := [Receive Tx None; DelayDone Tx false; Holds RxGuard false; Lock RxGuard false].
Fixpoint times (n : nat) (s : list event) : list event := match n with O => [] | S n => s ++ times n s end.
Lemma visited_deaf n : visits (run S0) start [a_poll1; a_poll1 ++ a_poll2 ++ times n other_frame ++ a_end].
Proof.
  go true. go (Some outgoing). go tt. go tt.
  poll. tauprep. go false. go true. go true. go true. go (Some true). go true. go true. go tt. go tt. go true.
  match goal with |- visits ?p ?w _ => match w with mkWorld ?a ?b ?c ?d ?hh =>
    assert (H : forall n h, visits p (mkWorld a b c d h) [h ++ times n other_frame ++ a_end]);
    [|change (a_poll1 ++ a_poll2 ++ times n other_frame ++ a_end) with (hh ++ times n other_frame ++ a_end); apply H] end end.
  clear n. induction n as [|n IH]; intros h; cbn [times].
  - go (None : option (bool * list N)). go false. go false. go false.
    match goal with |- visits _ (mkWorld _ _ _ _ ?hh) _ => change hh with (fold_left (fun l e => l ++ [e]) a_end h) end.
    rewrite fold_snoc. poll. apply visits_end.
  - go (Some (true, frame)). go true.
    match goal with |- visits ?p (mkWorld _ _ _ _ ?hh) _ => change hh with (fold_left (fun l e => l ++ [e]) other_frame h) end.
    rewrite fold_snoc, <- app_assoc, app_assoc. apply IH.
Qed.
