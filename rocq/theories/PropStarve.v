(** PropStarve.v -- C69: how long a transmit task that waits for the radio can be kept waiting. Vocabulary: SpecTasks.v. *)
From Coq Require Import Lia.
From Verif Require Import Base Sync Spec SpecFrame FrameControl SpecFrames PhyConfig Time Csma SpecCsma CsmaTasks CsmaWorld TaskLogic SpecTasks
  TxAutomaton TxProofs RxAutomaton RxProofs CsmaGlobal TxLog RxLog TxFacts LockFacts HandOver PropCsma TaskRuns StarveRuns.
From Verif Require Import Async AsyncProofs.

(** how often the device is polled in [s] *)
Definition polls (s : list event) : nat := length (filter (fun e => match e with Polled => true | _ => false end) s).

(** In every device there is a number of polls after which a transmit task that waits for the radio has got it. *)
Definition C69_statement : Prop :=
  forall S, setup_ok S -> exists bound, forall c p w h s, reachable S (Pend c p) w -> w_hist w = h ++ Polled :: s -> tx_waits h ->
  (bound <= polls (Polled :: s))%nat -> In (TryLock TxGuard true) s.

(** It is false, in two ways. After a frame was received and the lock was released, an upper layer that takes its time
    in Driver::received keeps the transmit task waiting although no one has the radio; and nothing wakes the device. *)
Fixpoint times (n : nat) (s : list event) : list event := match n with O => [] | S n => s ++ times n s end.
Lemma times_snoc n s : times n s ++ s = s ++ times n s.
Proof. induction n as [|n IH]; cbn; [rewrite app_nil_r; reflexivity|]. rewrite <- app_assoc, IH. reflexivity. Qed.
Lemma in_cycles n c : forall h, In (h ++ times n c) (cycles (Datatypes.S n) c h).
Proof.
  induction n as [|n IH]; intros h; cbn [times]; [left; rewrite app_nil_r; reflexivity|]. right. specialize (IH (h ++ c)). rewrite <- app_assoc in IH. exact IH.
Qed.
Lemma reached_cycle n c h0 h : (forall n, visits (run S0) start (poll1 :: (poll1 ++ poll2) :: h0 :: cycles n c h)) ->
  exists d p w, reachable S0 (Pend d p) w /\ w_hist w = h ++ times n c.
Proof.
  intros HV. destruct (visits_reach _ _ _ _ _ (reach_here _ _ _ _) (HV (Datatypes.S n)) (h ++ times n c)) as (d & p & w & HR & HH); [right; right; right; apply in_cycles|].
  exists d, p, w. split; [exact HR|exact HH].
Qed.
Lemma times_polls n c : polls (times n c) = (n * polls c)%nat.
Proof. unfold polls. induction n as [|n IH]; cbn [times]; [reflexivity|]. rewrite filter_app, app_length, IH. reflexivity. Qed.
Lemma times_in n c e : In e (times n c) -> In e c.
Proof. induction n as [|n IH]; cbn [times]; [intros []|]. rewrite in_app_iff. intros [H|H]; auto. Qed.

Theorem C69_slow_driver : forall n, exists c p w h s, reachable S0 (Pend c p) w /\ w_hist w = h ++ s /\ tx_waits h /\ polls s = n /\
  (forall e, In e s -> e = Polled \/ e = SignalReady false \/ e = ReceivedDone false) /\
  mx_locked (w_radio w) = false /\ (n <> 0%nat -> self_woken (w_hist w) = false).
Proof.
  intros n. destruct (reached_cycle n asleep _ _ visited_asleep) as (c & p & w & HR & HH).
  exists c, p, w, (poll1 ++ poll2 ++ poll3 ++ s_poll4), (times n asleep). split; [exact HR|]. split; [exact HH|]. split; [reflexivity|].
  split; [rewrite times_polls; unfold polls; cbn; lia|]. split.
  - intros e HE. apply times_in in HE. cbn in HE. destruct HE as [<-|[<-|[<-|[]]]]; auto.
  - destruct (reachable_known S0 S0_ok _ _ HR) as (g & l & HA & (L1 & _) & HG & _). rewrite L1.
    assert (HC : forall c, cells (w_hist w) c = false).
    { rewrite HH. clear. intros c. assert (X : forall h, cells h c = false -> cells (h ++ times n asleep) c = false).
      { induction n as [|n IH]; intros h HX; cbn [times]; [rewrite app_nil_r; exact HX|]. rewrite app_assoc. apply IH. unfold cells in *. rewrite fold_left_app. cbn. exact HX. }
      apply X. destruct c; reflexivity. }
    split.
    + assert (HX := fun c => cells_law S0 _ _ HA c). cbn [snd] in HX. destruct g as [|sec [[m gd] rq] r].
      * apply HG.
      * destruct HG as (H1 & H2 & H3 & -> & _). rewrite <- H1, <- H2, <- H3, <- !HX, !HC. reflexivity.
    + intros HN. rewrite HH. clear - HN. destruct n as [|n]; [congruence|]. cbn [times]. rewrite <- times_snoc, app_assoc. unfold self_woken. rewrite fold_left_app. reflexivity.
Qed.
Print Assumptions C69_slow_driver.

(** When frames keep arriving, the receive task starts over each time before the transmit task is looked at. *)
Theorem C69_receptions : forall n, exists c p w h s, reachable S0 (Pend c p) w /\ w_hist w = h ++ s /\ tx_waits h /\ polls s = n /\
  ~ In (TryLock TxGuard true) s /\ (n <> 0%nat -> self_woken (w_hist w) = true) /\
  (forall d, ~ In (ReceivedDone d) s \/ d = true).
Proof.
  intros n. destruct (reached_cycle n next_reception _ _ visited_busy) as (c & p & w & HR & HH).
  exists c, p, w, (poll1 ++ poll2 ++ poll3 ++ s_poll4'), (times n next_reception). split; [exact HR|]. split; [exact HH|]. split; [reflexivity|].
  split; [rewrite times_polls; unfold polls; cbn; lia|]. split; [intros HE; apply times_in in HE; cbn in HE; repeat (destruct HE as [HE|HE]; [discriminate HE|]); exact HE|]. split.
  - intros HN. rewrite HH. destruct n as [|n]; [congruence|]. cbn [times]. rewrite <- times_snoc, app_assoc. unfold self_woken. rewrite fold_left_app. reflexivity.
  - intros [|]; [right; reflexivity|left]. intros HE. apply times_in in HE. cbn in HE. repeat (destruct HE as [HE|HE]; [discriminate HE|]); exact HE.
Qed.
Print Assumptions C69_receptions.

Theorem C69_refuted : ~ C69_statement.
Proof.
  intros H. destruct (H S0 S0_ok) as (bound & HB). destruct (C69_slow_driver (Datatypes.S bound)) as (c & p & w & h & s & HR & HH & HW & HP & HE & _).
  assert (HR' := HR). destruct s as [|e s]; [discriminate|]. 
  destruct (reached_cycle (Datatypes.S bound) asleep _ _ visited_asleep) as (c' & p' & w' & HR2 & HH2).
  specialize (HB c' p' w' (poll1 ++ poll2 ++ poll3 ++ s_poll4) ([SignalReady false; ReceivedDone false] ++ times bound asleep) HR2).
  destruct (in_app_or _ _ _ (HB HH2 eq_refl ltac:(change (Polled :: [SignalReady false; ReceivedDone false] ++ times bound asleep) with (times (Datatypes.S bound) asleep); rewrite times_polls; unfold polls; cbn; lia))) as [HI|HI].
  - repeat (destruct HI as [HI|HI]; [discriminate HI|]). exact HI.
  - apply times_in in HI. repeat (destruct HI as [HI|HI]; [discriminate HI|]). exact HI.
Qed.
Print Assumptions C69_refuted.

(** These are the only ways: as long as it has not got the radio, in any two polls in a row a frame was being handed to
    the upper layer (or acknowledged) at the start of the first, or was received in the first. *)
Theorem C69_why_partial : forall S c p w h a s1 s2, setup_ok S -> reachable S (Pend c p) w ->
  w_hist w = h ++ a ++ Polled :: s1 ++ Polled :: s2 -> ~ In Polled s1 -> ~ In Polled s2 -> tx_waits h ->
  ~ In (TryLock TxGuard true) (a ++ Polled :: s1 ++ Polled :: s2) ->
  delivering (h ++ a) = true \/ exists r, In (Receive Rx (Some r)) s1.
Proof.
  intros S c p w h a s1 s2 OK HR HH N1 N2 HW NT. assert (HX := suspended S OK c p w HR). rewrite HH in HX.
  replace ((h ++ a ++ Polled :: s1 ++ Polled :: s2) ++ [Polled]) with ((h ++ a) ++ Polled :: s1 ++ Polled :: s2 ++ [Polled]) in HX
    by (rewrite <- !app_assoc; cbn; rewrite <- app_assoc; reflexivity).
  assert (H1 : history S ((h ++ a) ++ [Polled])).
  { destruct HX as (y & HX). change (Polled :: s1 ++ Polled :: s2 ++ [Polled]) with ([Polled] ++ (s1 ++ Polled :: s2 ++ [Polled])) in HX. rewrite app_assoc in HX.
    destruct (accepted_prefix _ _ _ _ _ HX) as (z & HZ & _). exists z. exact HZ. }
  assert (HWA : tx_waits (h ++ a)).
  { destruct (at_rest _ _ H1) as (g & l & HA & HG & HC & HRR).
    assert (X : forall h, ~ In (TryLock TxGuard true) h -> forall last, last <> None -> last <> Some (TryLock TxGuard true) ->
       fold_left (fun last e => if asks e then Some e else last) h last <> None /\ fold_left (fun last e => if asks e then Some e else last) h last <> Some (TryLock TxGuard true)).
    { clear. induction h as [|e h IH]; intros HN last H1 H2; cbn; [auto|]. apply IH; [intros X; apply HN; right; exact X|destruct (asks e); [discriminate|exact H1]|].
      destruct (asks e); [|exact H2]. intros [= ->]. apply HN. left. reflexivity. }
    assert (Y : last_such asks (h ++ a) <> None /\ last_such asks (h ++ a) <> Some (TryLock TxGuard true)).
    { unfold last_such. rewrite fold_left_app. unfold tx_waits, last_such in HW. rewrite HW. apply X; [intros Z; apply NT; apply in_or_app; left; exact Z|discriminate|discriminate]. }
    destruct Y as [Y1 Y2]. destruct g as [|sec [[m gd] rq] r]; [destruct HC as (_ & Z & _); congruence|].
    destruct HC as (_ & _ & _ & _ & _ & _ & C7 & _). destruct HRR as [[-> | ->] _]; cbn [asked] in C7; [destruct C7; congruence|exact C7]. }
  destruct (delivering (h ++ a)) eqn:ED; [left; reflexivity|right].
  assert (D : (exists r, In (Receive Rx (Some r)) s1) \/ forall r, ~ In (Receive Rx (Some r)) s1).
  { clear. induction s1 as [|e s IH]; [right; intros r []|]. destruct IH as [(r & IH)|IH]; [left; exists r; right; exact IH|].
    assert (DE : (exists r, e = Receive Rx (Some r)) \/ forall r, e <> Receive Rx (Some r)) by (destruct e; try (right; discriminate); destruct t; try (right; discriminate); destruct r as [r|]; [left; eauto|right; discriminate]).
    destruct DE as [(r & ->)|DE]; [left; exists r; left; reflexivity|right]. intros r [X|X]; [exact (DE r X)|exact (IH r X)]. }
  destruct D as [D|D]; [exact D|exfalso]. apply NT. apply in_or_app. right. right.
  assert (X := handed_over S (h ++ a) s1 s2 HX N1 N2 HWA ED D). apply in_app_or in X. apply in_or_app. destruct X as [X|X]; [left; exact X|right; right; exact X].
Qed.
Print Assumptions C69_why_partial.

(** The hypotheses are met in both runs; each is a case of one alternative only. *)
Example C69_cases :
  (exists c p w h, reachable S0 (Pend c p) w /\ w_hist w = h ++ [] ++ Polled :: [SignalReady false; ReceivedDone false] ++ Polled :: [SignalReady false; ReceivedDone false] /\
     tx_waits h /\ delivering h = true) /\
  (exists c p w h, reachable S0 (Pend c p) w /\ w_hist w = h ++ [] ++ next_reception ++ next_reception /\ tx_waits h /\ delivering h = false /\
     In (Receive Rx (Some (true, bcast))) next_reception).
Proof.
  split.
  - destruct (reached_cycle 2 asleep _ _ visited_asleep) as (c & p & w & HR & HH). exists c, p, w, (poll1 ++ poll2 ++ poll3 ++ s_poll4). split; [exact HR|]. split; [exact HH|]. split; reflexivity.
  - destruct (reached_cycle 2 next_reception _ _ visited_busy) as (c & p & w & HR & HH). exists c, p, w, (poll1 ++ poll2 ++ poll3 ++ s_poll4'). split; [exact HR|]. split; [exact HH|]. split; [reflexivity|]. split; [reflexivity|]. cbn. tauto.
Qed.
