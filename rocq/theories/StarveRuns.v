(** StarveRuns.v -- two families of runs of the CSMA device in which a transmit task that waits for the radio does not
    get it for any number of polls (used for C69). *)
From Coq Require Import Lia.
From Verif Require Import Base Sync Spec SpecFrame FrameControl SpecFrames PhyConfig Time Csma SpecCsma CsmaTasks CsmaWorld SpecTasks PropCsma TaskRuns.
From Verif Require Import Async AsyncProofs.

(** A broadcast frame: delivered, not acknowledged. *)
Definition bcast : list N := in_length_device broadcast_frame.
Lemma bcast_decide : rx_decide (s_params S0) (s_config S0) (s_device S0) (s_hw S0) bcast = Done (Some (false, Some 1%N)).
Proof. vm_compute. reflexivity. Qed.
Ltac decided_bcast :=
  match goal with |- visits ?p _ _ => let p' := eval cbv beta in p in change p with p' end.

Definition s_poll4 : list event :=
  [Polled; Holds TxGuard false; TryLock TxGuard false; SignalReady true; SignalSend; TryLock TxGuard false; SignalReady false;
   Receive Rx (Some (true, bcast)); Received (mkFb bcast true); Release RxGuard; ReceivedDone false].
Definition asleep : list event := [Polled; SignalReady false; ReceivedDone false].
Fixpoint cycles (n : nat) (cyc h : list event) : list (list event) :=
  match n with O => [] | S n => h :: cycles n cyc (h ++ cyc) end.
Lemma visited_asleep n : visits (run S0) start (poll1 :: (poll1 ++ poll2) :: (poll1 ++ poll2 ++ poll3) :: cycles n asleep (poll1 ++ poll2 ++ poll3 ++ s_poll4)).
Proof.
  go true. go (None : option FrameBuffer). go tt.
  poll. go (None : option FrameBuffer). go false. go true. go true. go true. go (None : option (bool * list N)). go false.
  poll. go (Some outgoing). go tt. go (None : option (bool * list N)). go false.
  poll. tauprep. go false. go false. go true. go tt. go false. go false. go (Some (true, bcast)). go tt.
  decided_bcast. go tt. go false.
  match goal with |- visits ?p ?w _ => match w with mkWorld ?a ?b ?c ?d _ =>
    assert (H : forall n h, visits p (mkWorld a b c d h) (cycles n asleep h)); [|apply H] end end.
  clear n. induction n as [|n IH]; intros h; [apply visits_end|]. cbn [cycles].
  poll. go false. go false.
  match goal with |- visits ?p (mkWorld ?a ?b ?c ?d ?hh) _ => change hh with (((h ++ [Polled]) ++ [SignalReady false]) ++ [ReceivedDone false]);
    replace (((h ++ [Polled]) ++ [SignalReady false]) ++ [ReceivedDone false]) with (h ++ asleep) by (unfold asleep; rewrite <- !app_assoc; reflexivity) end.
  exact (IH (h ++ asleep)).
Qed.

Lemma fold_snoc {A} (c h : list A) : fold_left (fun l e => l ++ [e]) c h = h ++ c.
Proof. revert h. induction c as [|e c IH]; intros h; cbn; [symmetry; apply app_nil_r|]. rewrite IH, <- app_assoc. reflexivity. Qed.
Definition s_poll4' : list event :=
  [Polled; Holds TxGuard false; TryLock TxGuard false; SignalReady true; SignalSend; TryLock TxGuard false; SignalReady false;
   Receive Rx (Some (true, bcast)); Received (mkFb bcast true); Release RxGuard; ReceivedDone true; Woken Rx].
Definition next_reception : list event :=
  [Polled; SignalReady false; Holds RxGuard false; Lock RxGuard true; Holds RxGuard true; PrepareRx Rx (mkRx (c_channel config_default)) true;
   Receive Rx (Some (true, bcast)); Received (mkFb bcast true); Release RxGuard; ReceivedDone true; Woken Rx].
Lemma visited_busy n : visits (run S0) start (poll1 :: (poll1 ++ poll2) :: (poll1 ++ poll2 ++ poll3) :: cycles n next_reception (poll1 ++ poll2 ++ poll3 ++ s_poll4')).
Proof.
  go true. go (None : option FrameBuffer). go tt.
  poll. go (None : option FrameBuffer). go false. go true. go true. go true. go (None : option (bool * list N)). go false.
  poll. go (Some outgoing). go tt. go (None : option (bool * list N)). go false.
  poll. tauprep. go false. go false. go true. go tt. go false. go false. go (Some (true, bcast)). go tt. decided_bcast. go tt. go true. go tt.
  match goal with |- visits ?p ?w _ => match w with mkWorld ?a ?b ?c ?dd _ =>
    assert (H : forall n d h, d RxGuard = false -> visits p (mkWorld a b c d h) (cycles n next_reception h)); [|apply H; reflexivity] end end.
  clear n. induction n as [|n IH]; intros d h HD; [apply visits_end|]. cbn [cycles].
  poll. go false. repeat tau.
  eapply visits_step; [hnf; exists false; split; [unfold sem, happens; cbn [next_state w_held record]; rewrite HD; reflexivity|hnf; reflexivity]|].
  go true. go true. go true. go (Some (true, bcast)). go tt. decided_bcast. go tt. go true. go tt.
  match goal with |- visits ?p (mkWorld ?a ?b ?c ?d ?hh) _ => 
    change hh with (fold_left (fun l e => l ++ [e]) next_reception h) end.
  rewrite fold_snoc.
  apply IH. reflexivity.
Qed.
