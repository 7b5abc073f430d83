(** TasksLive.v -- the device never panics, and the environment can always answer (used in proofs of C64). *)
From Coq Require Import Lia.
From Verif Require Import Base BaseProofs Sync Spec PhyConfig Time Csma CsmaTasks CsmaWorld TaskLogic SpecTasks TxAutomaton TxProofs RxAutomaton RxProofs CsmaGlobal.
From Verif Require Import Async AsyncProofs RadioFutures.

Section Ops.
(** a property of all operations of a future, including its destructors *)
Variable good : forall B, op B -> Prop.
Fixpoint ops (n : nat) {A} (p : future A) : Prop :=
  match n with
  | O => True
  | S n =>
      match p with
      | Ret _ | Fail => True
      | Tau p => ops n p
      | Vis o k => good _ o /\ forall b, ops n (k b)
      | Pend c p => Forall (good unit) c /\ ops n p
      end
  end.
Definition Ops {A} (p : future A) : Prop := forall n, ops n p.
Lemma ops_less n : forall m A (p : future A), m <= n -> ops n p -> ops m p.
Proof.
  induction n as [|n IH]; intros m A p H HF; [assert (m = 0) by lia; subst; exact I|]. destruct m as [|m]; [exact I|].
  assert (H' : m <= n) by lia. destruct p; cbn in *; auto; destruct HF; split; auto.
Qed.
Lemma ops_bind A B (p : future A) (k : A -> future B) : Ops p -> (forall a, Ops (k a)) -> Ops (bind p k).
Proof.
  intros HP HK n. specialize (HP n). revert p HP. induction n as [|n IH]; intros p HP; [exact I|]. destruct p as [a|p|X o f|c p|].
  - rewrite bind_ret. exact (HK a (S n)).
  - rewrite bind_tau. exact (IH _ HP).
  - rewrite bind_vis. destruct HP as [H1 H2]. split; [exact H1|]. intros b. exact (IH _ (H2 b)).
  - rewrite bind_pend. destruct HP as [H1 H2]. split; [exact H1|]. exact (IH _ H2).
  - rewrite bind_fail. exact I.
Qed.
Lemma ops_iter X A (body : X -> future (X + A)) x : (forall x, Ops (body x)) -> Ops (iter body x).
Proof.
  intros HB. assert (H : forall n p, ops n p -> ops n (iter_from body p)).
  { induction n as [|n IH]; intros p HP; [exact I|]. destruct p as [r|p|B o f|c p|].
    - rewrite iter_from_ret. destruct r as [y|a]; [|exact I]. cbn. apply IH. apply HB.
    - rewrite iter_from_tau. exact (IH _ HP).
    - rewrite iter_from_vis. destruct HP as [H1 H2]. split; [exact H1|]. intros b. exact (IH _ (H2 b)).
    - rewrite iter_from_pend. destruct HP as [H1 H2]. split; [exact H1|]. exact (IH _ H2).
    - rewrite iter_from_fail. exact I. }
  intros n. apply H. apply HB.
Qed.
Lemma ops_scoped A c (p : future A) : Forall (good unit) c -> Ops p -> Ops (scoped c p).
Proof.
  intros HC HP n. specialize (HP n). revert p HP. induction n as [|n IH]; intros p HP; [exact I|]. destruct p as [a|p|X o f|c' p|].
  - rewrite scoped_ret. exact I.
  - rewrite scoped_tau. exact (IH _ HP).
  - rewrite scoped_vis. destruct HP as [H1 H2]. split; [exact H1|]. intros b. exact (IH _ (H2 b)).
  - rewrite scoped_pend. destruct HP as [H1 H2]. split; [apply Forall_app; auto|]. exact (IH _ H2).
  - rewrite scoped_fail. exact I.
Qed.
Lemma ops_cleanup A c (p : future A) : Forall (good unit) c -> Ops p -> Ops (cleanup c p).
Proof.
  intros HC HP. induction HC as [|o c H HC IH]; [exact HP|]. intros [|n]; [exact I|]. split; [exact H|]. intros _. apply IH.
Qed.
Lemma ops_select A B (p : future A) (q : future B) : Ops p -> Ops q -> Ops (select p q).
Proof.
  intros HP HQ n. unfold select.
  enough (H : (forall p c q, Ops p -> Forall (good unit) c -> Ops q -> ops n (select_first (A := A) (B := B) p c q)) /\
              (forall c p q, Forall (good unit) c -> Ops p -> Ops q -> ops n (select_second (A := A) (B := B) c p q))) by (apply H; auto).
  clear p q HP HQ. induction n as [|n [IH1 IH2]]; [split; intros; exact I|]. split.
  - intros p c q HP HC HQ. destruct p as [a|p|X o f|c' p|].
    + rewrite select_first_ret. apply ops_cleanup; [exact HC|]. intros [|k]; exact I.
    + rewrite select_first_tau. apply IH1; auto. intros k. exact (HP (S k)).
    + rewrite select_first_vis. split; [apply (HP 1)|]. intros b. apply IH1; auto. intros k. exact (proj2 (HP (S k)) b).
    + rewrite select_first_pend. apply IH2; [apply (HP 1)| |exact HQ]. intros k. exact (proj2 (HP (S k))).
    + rewrite select_first_fail. exact I.
  - intros c p q HC HP HQ. destruct q as [a|q|X o f|c' q|].
    + rewrite select_second_ret. apply ops_cleanup; [exact HC|]. intros [|k]; exact I.
    + rewrite select_second_tau. apply IH2; auto. intros k. exact (HQ (S k)).
    + rewrite select_second_vis. split; [apply (HQ 1)|]. intros b. apply IH2; auto. intros k. exact (proj2 (HQ (S k)) b).
    + rewrite select_second_pend. split; [apply Forall_app; split; [exact HC|apply (HQ 1)]|]. apply IH1; [exact HP|apply (HQ 1)|]. intros k. exact (proj2 (HQ (S k))).
    + rewrite select_second_fail. exact I.
Qed.
Definition child_ops {A} (r : child A) : Prop := match r with Running c p => Forall (good unit) c /\ Ops p | Finished _ => True end.
Lemma ops_join A B (p : future A) (q : future B) : Ops p -> Ops q -> Ops (join p q).
Proof.
  intros HP HQ n. unfold join.
  enough (H : (forall p r, Ops p -> child_ops r -> ops n (join_first (A := A) (B := B) p r)) /\
              (forall l q, child_ops l -> Ops q -> ops n (join_second (A := A) (B := B) l q))) by (apply H; [exact HP|split; auto]).
  clear p q HP HQ. induction n as [|n [IH1 IH2]]; [split; intros; exact I|]. split.
  - intros p r HP HR. destruct p as [a|p|X o f|c' p|].
    + rewrite join_first_ret. destruct r as [c q|b]; [|exact I]. cbn. apply IH2; [exact I|apply HR].
    + rewrite join_first_tau. apply IH1; auto. intros k. exact (HP (S k)).
    + rewrite join_first_vis. split; [apply (HP 1)|]. intros b. apply IH1; auto. intros k. exact (proj2 (HP (S k)) b).
    + rewrite join_first_pend. assert (HP' : Ops p) by (intros k; exact (proj2 (HP (S k)))). destruct r as [c q|b].
      * cbn. apply IH2; [split; [apply (HP 1)|exact HP']|apply HR].
      * split; [apply (HP 1)|]. apply IH1; auto.
    + rewrite join_first_fail. exact I.
  - intros l q HL HQ. destruct q as [a|q|X o f|c' q|].
    + rewrite join_second_ret. destruct l as [c p|b]; [|exact I]. cbn. destruct HL as [H1 H2]. split; [exact H1|]. apply IH1; [exact H2|exact I].
    + rewrite join_second_tau. apply IH2; auto. intros k. exact (HQ (S k)).
    + rewrite join_second_vis. split; [apply (HQ 1)|]. intros b. apply IH2; auto. intros k. exact (proj2 (HQ (S k)) b).
    + rewrite join_second_pend. assert (HQ' : Ops q) by (intros k; exact (proj2 (HQ (S k)))). destruct l as [c p|a].
      * destruct HL as [H1 H2]. split; [apply Forall_app; split; [exact H1|apply (HQ 1)]|]. apply IH1; [exact H2|split; [apply (HQ 1)|exact HQ']].
      * split; [apply (HQ 1)|]. apply IH2; [exact I|exact HQ'].
    + rewrite join_second_fail. exact I.
Qed.
Lemma ops_ret A (a : A) : Ops (Ret a).
Proof. intros [|n]; exact I. Qed.
Lemma ops_fail A : Ops (Fail (A := A)).
Proof. intros [|n]; exact I. Qed.
Lemma ops_ask B (o : op B) : good B o -> Ops (ask o).
Proof. intros H [|n]; [exact I|]. split; [exact H|]. intros b. apply ops_ret. Qed.
Lemma ops_awaits (o : op bool) : good bool o -> Ops (awaits o).
Proof.
  intros H n. enough (G : ops n (awaits o) /\ ops n (Pend (Op := op) [] (awaits o))) by apply G. induction n as [|n [I1 I2]]; [split; exact I|]. split.
  - unfold awaits. rewrite await_ready_eq. split; [exact H|]. intros [|]; [apply ops_ret|exact I2].
  - split; [constructor|exact I1].
Qed.
Lemma ops_awaiting B (o : op (option B)) : good (option B) o -> Ops (awaiting o).
Proof.
  intros H n. enough (G : ops n (awaiting o) /\ ops n (Pend (Op := op) [] (awaiting o))) by apply G. induction n as [|n [I1 I2]]; [split; exact I|]. split.
  - unfold awaiting. rewrite await_eq. split; [exact H|]. intros [b|]; [apply ops_ret|exact I2].
  - split; [constructor|exact I1].
Qed.
End Ops.

(** ** The environment can answer *)
Definition answered (B : Type) (o : op B) : Prop := forall w, chan_ok (w_chan w) -> exists b w', happens w (o b) = Some w'.
Lemma answered_call e : (forall w, chan_ok (w_chan w) -> next_state w e <> None) -> answered unit (fun _ => e).
Proof. intros H w HC. specialize (H w HC). unfold happens. destruct (next_state w e) as [v|]; [|congruence]. exists tt. eauto. Qed.
Lemma answered_any B (o : op B) b : (forall w, chan_ok (w_chan w) -> next_state w (o b) <> None) -> answered B o.
Proof. intros H w HC. specialize (H w HC). unfold happens. exists b. destruct (next_state w (o b)) as [v|]; [|congruence]. eauto. Qed.
Lemma answered_lock c : answered bool (Lock c).
Proof. intros w _. unfold happens. cbn [next_state]. destruct (lock_poll waker (w_radio w)) as [[r m] x]. exists r. rewrite eqb_reflx. eauto. Qed.
Lemma answered_try c : answered bool (TryLock c).
Proof. intros w _. unfold happens. cbn [next_state]. destruct (try_lock (w_radio w)) as [r m]. exists r. rewrite eqb_reflx. eauto. Qed.
Lemma answered_holds c : answered bool (Holds c).
Proof. intros w _. unfold happens. cbn [next_state]. exists (w_held w c). rewrite eqb_reflx. eauto. Qed.
Lemma answered_rng : answered bool RngLock.
Proof. intros w _. unfold happens. cbn [next_state]. destruct (lock_poll waker (w_rng w)) as [[r m] x]. exists r. rewrite eqb_reflx. eauto. Qed.
Lemma answered_ready : answered bool SignalReady.
Proof. intros w _. unfold happens. cbn [next_state]. destruct (send_ready_poll waker (w_chan w)) as [[r m] x]. exists r. rewrite eqb_reflx. eauto. Qed.
Lemma answered_send : answered unit (fun _ => SignalSend).
Proof.
  intros w HC. unfold happens. cbn [next_state]. unfold send. destruct (ch_ready (w_chan w)) eqn:E; [|exists tt; eauto].
  rewrite (HC E). exists tt. eauto.
Qed.
Lemma answered_received : answered bool SignalReceived.
Proof.
  intros w HC. unfold happens. cbn [next_state]. unfold receive_poll. destruct (ch_ready (w_chan w)) eqn:E.
  - rewrite (HC E). exists true. cbn. eauto.
  - exists false. cbn. eauto.
Qed.
Lemma answered_random : answered N Random.
Proof. apply (answered_any _ _ 0%N). intros w _. discriminate. Qed.
Ltac answers :=
  lazymatch goal with
  | |- answered _ (Lock _) => apply answered_lock
  | |- answered _ (TryLock _) => apply answered_try
  | |- answered _ (Holds _) => apply answered_holds
  | |- answered _ RngLock => apply answered_rng
  | |- answered _ SignalReady => apply answered_ready
  | |- answered _ (fun _ => SignalSend) => apply answered_send
  | |- answered _ SignalReceived => apply answered_received
  | |- answered _ Random => apply answered_random
  | |- answered bool _ => apply (answered_any _ _ true); intros w _; discriminate
  | |- answered unit (fun _ => Release ?c) => apply answered_call; intros w _; cbn; destruct (w_held w c); discriminate
  | |- answered unit _ => unfold destructor; apply answered_call; intros w _; cbn; try destruct (w_held w _); discriminate
  | |- answered (option _) _ => apply (answered_any _ _ None); intros w _; discriminate
  end.
Section Tasks.
Variable S : Setup.
Lemma ops_call e : answered unit (fun _ => e) -> Ops answered (call e).
Proof. intros H. unfold call. exact (ops_ask answered unit (fun _ => e) H). Qed.
Lemma ops_lift A (o : outcome A) : Ops answered (lift o).
Proof. destruct o; [apply ops_ret|apply ops_fail]. Qed.
Lemma ops_unwrap c : Ops answered (unwrap_guard c).
Proof. unfold unwrap_guard. apply ops_bind; [apply ops_ask; answers|]. intros [|]; [apply ops_ret|apply ops_fail]. Qed.
Lemma ops_transmit t c b : Ops answered (transmit t c b).
Proof. unfold transmit, radio_future. apply ops_scoped; [constructor; [answers|constructor]|]. apply ops_bind; [apply (ops_awaits answered); answers|]. intros _. apply (ops_awaiting answered). answers. Qed.
Lemma ops_receive t c : Ops answered (receive t c).
Proof. unfold receive, radio_future. apply ops_scoped; [constructor; [answers|constructor]|]. apply ops_bind; [apply (ops_awaits answered); answers|]. intros _. apply (ops_awaiting answered). answers. Qed.
Lemma ops_yield t : Ops answered (yield_now t).
Proof. unfold yield_now, yield_now_with. intros [|n]; [exact I|]. split; [answers|]. intros _. destruct n; [exact I|]. split; [constructor|]. apply ops_ret. Qed.
Ltac opstep :=
  lazymatch goal with
  | |- Ops _ (bind _ _) => apply ops_bind
  | |- Ops _ (Ret _) => apply ops_ret
  | |- Ops _ Fail => apply ops_fail
  | |- Ops _ (call _) => apply ops_call; answers
  | |- Ops _ (ask _) => apply ops_ask; answers
  | |- Ops _ (awaits _) => apply ops_awaits; answers
  | |- Ops _ (awaiting _) => apply ops_awaiting; answers
  | |- Ops _ (iter _ _) => apply ops_iter
  | |- Ops _ (lift _) => apply ops_lift
  | |- Ops _ (unwrap_guard _) => apply ops_unwrap
  | |- Ops _ (transmit _ _ _) => apply ops_transmit
  | |- Ops _ (receive _ _) => apply ops_receive
  | |- Ops _ (yield_now _) => apply ops_yield
  | |- Ops _ (select _ _) => apply ops_select
  | |- Ops _ (join _ _) => apply ops_join
  | |- Ops _ (scoped _ _) => apply ops_scoped; [repeat constructor; answers|]
  | |- Ops _ (if ?x then _ else _) => destruct x
  | |- Ops _ (match ?x with _ => _ end) => destruct x
  | |- forall x, _ => let y := fresh "y" in intros y; try (destruct y as [? ?])
  end.
Lemma ops_acquire c : Ops answered (acquire_lock c).
Proof. unfold acquire_lock. repeat opstep. Qed.
Lemma ops_report e : Ops answered (report e).
Proof. unfold report. repeat opstep. Qed.
Lemma ops_delay t d : Ops answered (delay t d).
Proof. unfold delay. repeat opstep. Qed.
Lemma ops_backoff be : Ops answered (perform_backoff S be).
Proof. unfold perform_backoff. repeat (opstep || apply ops_delay). Qed.
Lemma ops_cca b : Ops answered (transmit_cca S b).
Proof. unfold transmit_cca. repeat (opstep || apply ops_acquire || apply ops_backoff). Qed.
Lemma ops_ack s : Ops answered (await_ack S s).
Proof. unfold await_ack, wait_for_valid_ack. repeat (opstep || apply ops_acquire). Qed.
Lemma ops_prepare b : Ops answered (prepare_frame S b).
Proof. unfold prepare_frame. repeat (opstep || apply ops_report). Qed.
Lemma ops_frame b q : Ops answered (send_frame S b q).
Proof. unfold send_frame. repeat (opstep || apply ops_cca || apply ops_ack || apply ops_report || apply ops_delay). Qed.
Lemma ops_tx : Ops answered (transmit_package_task S).
Proof. unfold transmit_package_task. repeat (opstep || apply ops_prepare || apply ops_frame). Qed.
Lemma ops_acknowledge b q t : Ops answered (acknowledge S b q t).
Proof. unfold acknowledge. repeat (opstep || apply ops_delay). Qed.
Lemma ops_rx : Ops answered (receive_frame_task S).
Proof. unfold receive_frame_task, receive_once. repeat (opstep || apply ops_acknowledge). Qed.
Theorem ops_run : Ops answered (run S).
Proof. unfold run. repeat (opstep || apply ops_tx || apply ops_rx). Qed.

Lemma ops_reach p w : reachable S p w -> Ops answered p.
Proof.
  intros HR. induction HR as [|q v q' v' HR IH HS]; [exact ops_run|]. destruct q as [a|q|B o k|c q|]; cbn in HS; try contradiction.
  - destruct HS as [-> _]. intros n. exact (IH (Datatypes.S n)).
  - destruct HS as (b & _ & ->). intros n. exact (proj2 (IH (Datatypes.S n)) b).
  - destruct HS as [-> _]. intros n. exact (proj2 (IH (Datatypes.S n))).
Qed.
Theorem always_steps : setup_ok S -> forall p w, reachable S p w -> p <> Fail /\ (forall a, p <> Ret a) /\ exists p' w', mstep sem between p w p' w'.
Proof.
  intros OK p w HR. destruct (reachable_known S OK p w HR) as (g & l & HA & HL & HG & _ & HF). assert (HO := ops_reach _ _ HR).
  split; [intros ->; exact (Fine_fail_inv _ _ _ _ _ _ HF)|]. split; [intros []|]. destruct p as [a|q|B o k|c q|].
  - destruct a.
  - exists q, w. split; reflexivity.
  - destruct (proj1 (HO 1) w) as (b & w' & HW); [apply HL|]. exists (k b), w'. exists b. split; [exact HW|reflexivity].
  - exists q, (record w Polled). split; reflexivity.
  - destruct (Fine_fail_inv _ _ _ _ _ _ HF).
Qed.
End Tasks.
