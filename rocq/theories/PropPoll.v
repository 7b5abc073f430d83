(** PropPoll.v -- C71: how much a single poll of the device does. *)
From Coq Require Import Lia.
From Verif Require Import Base Sync Spec SpecFrame FrameControl SpecFrames PhyConfig Time Csma SpecCsma CsmaTasks CsmaWorld SpecTasks SpecPoll
  Brief BriefTasks PropCsma TaskRuns StarveRuns PollRuns.
From Verif Require Import Async AsyncProofs.

(** For every device there is a number of operations (calls and polls of the radio, the driver, the timer, the locks, the
    signal and the random number generator) that no poll exceeds. *)
Definition C71_statement : Prop :=
  forall U, exists bound, forall p w h s, reachable U p w -> w_hist w = h ++ Polled :: s -> ~ In Polled s -> length s <= bound.

(** It is false: while the transmit task waits for an acknowledgement, each other frame the radio delivers keeps it in
    the same poll; in particular the timeout is not looked at. *)
Lemma times_length n s : length (times n s) = n * length s.
Proof. induction n as [|n IH]; cbn [times]; [reflexivity|]. rewrite app_length, IH. lia. Qed.
Lemma times_in n s e : In e (times n s) -> In e s.
Proof. induction n as [|n IH]; cbn [times]; [intros []|]. rewrite in_app_iff. intros [H|H]; auto. Qed.
Theorem C71_refuted : forall n, exists c p w h s, reachable S0 (Pend c p) w /\ w_hist w = h ++ Polled :: s /\ ~ In Polled s /\
  exists s1 s2 s3, s = s1 ++ s2 ++ s3 /\ length s2 = 2 * n /\
    (forall e, In e s2 -> e = Receive Tx (Some (true, frame)) \/ e = PrepareRx Tx (mkRx (c_channel config_default)) true) /\
    ~ In (DelayDone Tx false) (s1 ++ s2) /\ ~ In (DelayDone Tx true) (s1 ++ s2).
Proof.
  intros n. destruct (visits_reach _ _ _ _ _ (reach_here _ _ _ _) (visited_deaf n) (a_poll1 ++ a_poll2 ++ times n other_frame ++ a_end)) as (c & p & w & HR & HH); [right; left; reflexivity|].
  exists c, p, w, a_poll1, (tl a_poll2 ++ times n other_frame ++ a_end). split; [exact HR|]. split; [exact HH|].
  assert (HT : forall e, In e (times n other_frame) -> In e other_frame) by (intros e; apply times_in).
  assert (NP : forall e, e = Polled \/ e = DelayDone Tx false \/ e = DelayDone Tx true -> ~ In e (tl a_poll2 ++ times n other_frame)).
  { intros e He HI. apply in_app_iff in HI. destruct HI as [HI|HI].
    - cbn in HI. destruct He as [->| [->| ->]]; repeat (destruct HI as [HI|HI]; [discriminate|]); exact HI.
    - apply HT in HI. cbn in HI. destruct He as [->| [->| ->]]; destruct HI as [HI|[HI|[]]]; discriminate. }
  split.
  - rewrite app_assoc. intros HI. apply in_app_iff in HI. destruct HI as [HI|HI]; [exact (NP Polled (or_introl eq_refl) HI)|].
    cbn in HI. repeat (destruct HI as [HI|HI]; [discriminate|]). exact HI.
  - exists (tl a_poll2), (times n other_frame), a_end. split; [reflexivity|]. split; [rewrite times_length; cbn [length other_frame]; lia|]. split.
    + intros e HE. apply HT in HE. cbn in HE. destruct HE as [<-|[<-|[]]]; auto.
    + split; apply NP; auto.
Qed.
Print Assumptions C71_refuted.
Theorem C71_statement_refuted : ~ C71_statement.
Proof.
  intros H. destruct (H S0) as (bound & HB).
  destruct (C71_refuted (Datatypes.S bound)) as (c & p & w & h & s & HR & HH & HN & s1 & s2 & s3 & -> & HL & _).
  specialize (HB _ _ _ _ HR HH HN). rewrite !app_length, HL in HB. lia.
Qed.
Print Assumptions C71_statement_refuted.

(** ** the invariant *)
Lemma flag_sound w e v f : happens w e = Some v -> (f = true -> ch_ready (w_chan w) = true) ->
  allowed f e /\ (flag e f = true -> ch_ready (w_chan v) = true).
Proof.
  unfold happens. destruct (next_state w e) as [v'|] eqn:E; [|discriminate]. injection 1 as <-. intros HF. cbn [record w_chan].
  split.
  - intros ->. destruct f; [|reflexivity]. specialize (HF eq_refl). cbn [next_state] in E. unfold send_ready_poll, has_item in E. rewrite HF in E.
    destruct (ch_send (w_chan w)) as [u|]; [destruct (Nat.eqb u waker)|]; discriminate.
  - destruct e; cbn [flag next_state] in *; try discriminate; try (injection E as <-; exact HF).
    all: try (repeat match goal with o : option _ |- _ => destruct o as [[? ?]|] end;
        repeat (match type of E with context [if ?b then _ else _] => destruct b end); try discriminate; injection E as <-; exact HF).
    + destruct (lock_poll waker (w_radio w)) as [[r m] x]. destruct (Bool.eqb ok r); [|discriminate]. injection E as <-. exact HF.
    + destruct (try_lock (w_radio w)) as [r m]. destruct (Bool.eqb ok r); [|discriminate]. injection E as <-. exact HF.
    + destruct (lock_poll waker (w_rng w)) as [[r m] x]. destruct (Bool.eqb ok r); [|discriminate]. injection E as <-. exact HF.
    + intros Hf. specialize (HF Hf). unfold send_ready_poll in E. unfold has_item in E. rewrite HF in E.
      destruct (ch_send (w_chan w)) as [u|]; [destruct (Nat.eqb u waker)|]; destruct ok; try discriminate; injection E as <-; first [exact HF|reflexivity].
    + intros _. unfold send in E. destruct (ch_ready (w_chan w)); [destruct (ch_slot (w_chan w)); try discriminate|]; injection E as <-; reflexivity.
Qed.
Lemma happens_hist w e v : happens w e = Some v -> w_hist v = w_hist w ++ [e] /\ e <> Polled.
Proof.
  unfold happens. destruct (next_state w e) as [v'|] eqn:E; [|discriminate]. injection 1 as <-. cbn [record w_hist].
  split; [|intros ->; discriminate]. f_equal.
  destruct e; cbn [next_state] in E; try discriminate; try (injection E as <-; reflexivity);
    try (repeat match goal with o : option _ |- _ => destruct o as [[? ?]|] end;
        repeat (match type of E with context [if ?b then _ else _] => destruct b end); try discriminate; injection E as <-; reflexivity).
  - destruct (lock_poll waker (w_radio w)) as [[r m] x]. destruct (Bool.eqb ok r); [|discriminate]. injection E as <-. reflexivity.
  - destruct (try_lock (w_radio w)) as [r m]. destruct (Bool.eqb ok r); [|discriminate]. injection E as <-. reflexivity.
  - destruct (lock_poll waker (w_rng w)) as [[r m] x]. destruct (Bool.eqb ok r); [|discriminate]. injection E as <-. reflexivity.
  - destruct (send_ready_poll waker (w_chan w)) as [[r m] x]. destruct (Bool.eqb ok r); [|discriminate]. injection E as <-. reflexivity.
  - destruct (send tt (w_chan w)) as [[[[? ?] ?] ?]|]; [|discriminate]. injection E as <-. reflexivity.
  - destruct (receive_poll waker (w_chan w)) as [[[r ?] ?]|]; [|discriminate]. destruct (Bool.eqb ok _); [|discriminate]. injection E as <-. reflexivity.
Qed.

Section Device.
Variable U : Setup.
Notation K := (poll_steps U).
Definition holds (n : nat) (f : bool) (p : future Empty_set) (w : world) : Prop :=
  n <= K /\ (f = true -> ch_ready (w_chan w) = true) /\ Brief 5 K n f p (fun _ _ _ => True).
Lemma holds_step n f p w p' w' : holds n f p w -> mstep sem between p w p' w' ->
  (exists c r, p = Pend c r /\ w_hist w' = w_hist w ++ [Polled] /\ holds K false p' w') \/
  ((forall c r, p <> Pend c r) /\ exists n' f' l, holds n' f' p' w' /\ w_hist w' = w_hist w ++ l /\ length l <= 1 /\ ~ In Polled l /\ 1 + n' <= n + K * deliveries l).
Proof.
  intros (Hn & HF & HB) HS. destruct p as [[]|p|X o k|c p|]; cbn in HS.
  - destruct HS as (-> & ->). right. split; [discriminate|]. destruct (HB 1) as (n' & -> & _). exists n', f, [].
    split; [|rewrite app_nil_r; cbn; repeat split; auto; lia]. split; [lia|]. split; [exact HF|]. intros m. destruct (HB (Datatypes.S m)) as (x & E & H). injection E as <-. exact H.
  - destruct HS as (b & HS & ->). unfold sem in HS. destruct (flag_sound _ _ _ _ HS HF) as (HA & HF'). destruct (happens_hist _ _ _ HS) as (HH & HP).
    right. split; [discriminate|]. destruct (HB 1) as (n' & -> & _). exists (after K (o b) n'), (flag (o b) f), [o b].
    split; [|split; [exact HH|split; [cbn; lia|split; [intros [X0|[]]; auto|]]]].
    + split; [unfold after; destruct (refills (o b)); lia|]. split; [exact HF'|]. intros m. destruct (HB (Datatypes.S m)) as (x & E & H). injection E as <-. exact (H b HA).
    + unfold after, deliveries. cbn [filter]. unfold refills. destruct (o b) as [| | | | | |t [r|]| | | | | | | | | | | | | | | | | | |]; try destruct t; cbn [length]; lia.
  - destruct HS as (-> & ->). left. exists c, p. split; [reflexivity|]. split; [reflexivity|]. split; [lia|]. split; [discriminate|].
    intros m. destruct (HB (Datatypes.S m)) as (_ & H). exact H.
  - destruct HS.
Qed.
Lemma last_poll_snoc h s h0 l : h ++ Polled :: s = h0 ++ l -> ~ In Polled s -> ~ In Polled l -> exists s0, h0 = h ++ Polled :: s0 /\ s = s0 ++ l.
Proof.
  intros E Hs Hl. revert s h0 E Hs Hl. induction l as [|e l IH] using rev_ind; intros s h0 E Hs Hl; [exists s; rewrite app_nil_r in E; rewrite app_nil_r; auto|].
  destruct s as [|e' s _] using rev_ind.
  - rewrite app_assoc in E. apply app_inj_tail in E. destruct E as [_ <-]. destruct Hl. apply in_app_iff. right. left. reflexivity.
  - rewrite app_assoc in E. change (h ++ Polled :: s ++ [e']) with (h ++ (Polled :: s) ++ [e']) in E. rewrite app_assoc in E. apply app_inj_tail in E. destruct E as [E <-].
    destruct (IH _ _ E) as (s0 & -> & ->); [intros HI; apply Hs, in_app_iff; auto|intros HI; apply Hl, in_app_iff; auto|].
    exists s0. rewrite app_assoc. auto.
Qed.
Lemma deliveries_app a b : deliveries (a ++ b) = deliveries a + deliveries b.
Proof. unfold deliveries. rewrite filter_app, app_length. reflexivity. Qed.
Lemma reachable_holds p w : reachable U p w -> exists n f, holds n f p w /\
  forall h s, w_hist w = h ++ Polled :: s -> ~ In Polled s -> length s + n <= K * Datatypes.S (deliveries s).
Proof.
  induction 1 as [|q v q' v' HR IH HS].
  - exists K, false. split; [split; [lia|split; [discriminate|apply brief_run]]|]. intros h s E Hs. cbn in E.
    destruct h as [|e h]; [|destruct h; discriminate]. injection E as <-. cbn. lia.
  - destruct IH as (n & f & HH & HI). destruct (holds_step _ _ _ _ _ _ HH HS) as [(c & r & -> & EH & HH')|(_ & n' & f' & l & HH' & EH & HL & HP & HN)].
    + exists K, false. split; [exact HH'|]. intros h s E Hs. rewrite EH in E.
      destruct s as [|e s _] using rev_ind; [cbn; lia|].
      change (h ++ Polled :: s ++ [e]) with (h ++ (Polled :: s) ++ [e]) in E. rewrite app_assoc in E. apply app_inj_tail in E. destruct E as [_ <-].
      destruct Hs. apply in_app_iff. right. left. reflexivity.
    + exists n', f'. split; [exact HH'|]. intros h s E Hs. rewrite EH in E. symmetry in E. destruct (last_poll_snoc _ _ _ _ E Hs HP) as (s0 & E0 & ->).
      specialize (HI h s0 E0). rewrite app_length, deliveries_app. assert (HI' := HI ltac:(intros X; apply Hs, in_app_iff; auto)). nia.
Qed.
Lemma within_holds n f p w m p' w' : holds n f p w -> within_poll m p w p' w' ->
  exists n' f' l, holds n' f' p' w' /\ w_hist w' = w_hist w ++ l /\ length l <= m /\ ~ In Polled l /\ m + n' <= n + K * deliveries l.
Proof.
  intros HH HW. induction HW as [p w|m p w q v q' v' HW IH HN HS].
  - exists n, f, []. rewrite app_nil_r. cbn. repeat split; auto; try apply HH; lia.
  - destruct (IH HH) as (n1 & f1 & l1 & HH1 & E1 & L1 & P1 & N1).
    destruct (holds_step _ _ _ _ _ _ HH1 HS) as [(c & r & -> & _)|(_ & n' & f' & l & HH' & EH & HL & HP & HN')]; [destruct (HN c r); reflexivity|].
    exists n', f', (l1 ++ l). split; [exact HH'|]. split; [rewrite EH, E1, <- app_assoc; reflexivity|]. split; [rewrite app_length; lia|].
    split; [intros X; apply in_app_iff in X; tauto|]. rewrite deliveries_app. nia.
Qed.
Lemma bound_eq : K = poll_bound U.
Proof.
  unfold poll_steps, tx_steps, frame_steps, try_steps, cca_steps, rx_steps, poll_bound.
  generalize (N.to_nat (p_retries (s_params U))), (N.to_nat (p_backoffs (s_params U))). intros r b.
  replace (b - 1) with (max 1 b - 1) by lia. replace (r - 1) with (max 1 r - 1) by lia.
  assert (1 <= max 1 b) by lia. assert (1 <= max 1 r) by lia. revert H H0. generalize (max 1 r), (max 1 b). intros x y Hy Hx. nia.
Qed.
End Device.

(** What holds: [poll_bound] operations for each frame delivered to the transmit task in that poll, and one more time. *)
Theorem C71_operations_partial : forall U p w h s, reachable U p w -> w_hist w = h ++ Polled :: s -> ~ In Polled s ->
  length s <= poll_bound U * (1 + deliveries s).
Proof. intros U p w h s HR E Hs. destruct (reachable_holds U p w HR) as (n & f & _ & H). specialize (H h s E Hs). rewrite bound_eq in H. lia. Qed.
Print Assumptions C71_operations_partial.
(** The same with the program's internal steps, so that without such frames every poll ends. *)
Theorem C71_steps_partial : forall U p w n p' w', reachable U p w -> within_poll n p w p' w' ->
  exists s, w_hist w' = w_hist w ++ s /\ ~ In Polled s /\ n <= poll_bound U * (1 + deliveries s).
Proof.
  intros U p w m p' w' HR HW. destruct (reachable_holds U p w HR) as (n & f & HH & _).
  destruct (within_holds U n f p w m p' w' HH HW) as (n' & f' & l & _ & E & _ & HP & HN).
  exists l. split; [exact E|]. split; [exact HP|]. destruct HH as (HK & _). rewrite bound_eq in *. nia.
Qed.
Print Assumptions C71_steps_partial.

(** With the crate's parameters; and a poll from TaskRuns.v. *)
Example C71_default : poll_bound S0 = 1053.
Proof. reflexivity. Qed.
Example C71_case : exists p w h s, reachable S0 p w /\ w_hist w = h ++ Polled :: s /\ ~ In Polled s /\ deliveries s = 2 /\ length s = 14.
Proof.
  destruct (suspensions (upto 10)) as (c & p & w & HR & HH); [cbn; tauto|]. exists (Pend c p), w, (upto 9), (tl poll10).
  split; [exact HR|]. split; [exact HH|]. split; [|split; reflexivity]. cbn. intros H. repeat (destruct H as [H|H]; [discriminate|]). exact H.
Qed.
