(** AttendTasks.v -- the device polls everything it waits for, in every history (proofs of C77). *)
From Coq Require Import Lia.
From Verif Require Import Base BaseProofs Sync Spec PhyConfig Csma CsmaTasks CsmaWorld SpecTasks SpecAttend TaskLogic CsmaGlobal TxFacts TasksLive Attend.
From Verif Require Import Async AsyncProofs RadioFutures.

Definition Att (a : awaited) {A} (p : future A) : Prop := Afine a any p Quiet quiet.
Lemma att_bind a A B (p : future A) (k : A -> future B) : Att a p -> (forall x, Att a (k x)) -> Att a (bind p k).
Proof. intros HP HK. apply Afine_bind. eapply Afine_mono; [|exact HP]. intros x s ->. apply HK. Qed.
Lemma att_iter a X A (body : X -> future (X + A)) x : (forall x, Att a (body x)) -> Att a (iter body x).
Proof. intros HB. apply Afine_iter. intros y. eapply Afine_mono; [|exact (HB y)]. intros [z|z] s ->; reflexivity. Qed.
Lemma att_scoped a A c (p : future A) : Att a p -> Att a (scoped c p).
Proof. intros H. apply Afine_scoped. intros n. eapply afine_mono; [| |exact (H n)]; auto. Qed.
Lemma att_calm a A (p : future A) : Ops (calm a) p -> Att a p.
Proof. intros H. exact (Afine_any a (quiets a) _ _ _ _ (Afine_calm a A p H)). Qed.
Lemma att_awaits a o : effect_of a (o false) = Waits -> effect_of a (o true) = Ends -> Att a (awaits o).
Proof. intros E0 E1. apply Afine_awaits; [exact E0|exact I|]. intros s. unfold anext. rewrite E1. reflexivity. Qed.
Lemma att_awaiting a B (o : option B -> event) : effect_of a (o None) = Waits -> (forall b, effect_of a (o (Some b)) = Ends) -> Att a (awaiting o).
Proof. intros E0 E1. apply Afine_awaiting; [exact E0|exact I|]. intros s b. unfold anext. rewrite E1. reflexivity. Qed.
Lemma att_begins a A e (o : bool -> event) (k : unit -> future A) : effect_of a e = Begins -> effect_of a (o false) = Waits -> effect_of a (o true) = Ends ->
  (forall x, Att a (k x)) -> Att a (bind (call e) (fun _ => bind (awaits o) k)).
Proof.
  intros E E0 E1 HK. apply Afine_bind, Afine_call. unfold anext. rewrite E. apply Afine_bind. apply Afine_awaits; [exact E0|exact I|].
  intros s. unfold anext. rewrite E1. apply HK.
Qed.

Ltac kinds a := destruct a as [| |k| | | | | | |k]; try destruct k.
Ltac still := let b := fresh in intros b; cbn; try reflexivity; try (lazymatch type of b with option _ => destruct b as [b|] | _ => destruct b end; reflexivity).
Section Calm.
Variable a : awaited.
Lemma c_call e : calm a unit (fun _ => e) -> Ops (calm a) (call e).
Proof. intros H. unfold call. exact (ops_ask _ unit (fun _ => e) H). Qed.
Lemma c_lift A (o : outcome A) : Ops (calm a) (lift o).
Proof. destruct o; [apply ops_ret|apply ops_fail]. Qed.
Lemma c_yield t : calm a unit (fun _ => Woken t) -> Ops (calm a) (yield_now t).
Proof. intros H. unfold yield_now, yield_now_with. intros [|n]; [exact I|]. split; [exact H|]. intros _. destruct n; [exact I|]. split; [constructor|]. apply ops_ret. Qed.
End Calm.
Ltac cstep :=
  lazymatch goal with
  | |- Ops _ (bind _ _) => apply ops_bind
  | |- Ops _ (Ret _) => apply ops_ret
  | |- Ops _ Fail => apply ops_fail
  | |- Ops _ (call _) => apply c_call; still; fail
  | |- Ops _ (ask _) => apply ops_ask; still; fail
  | |- Ops _ (awaits _) => apply ops_awaits; still; fail
  | |- Ops _ (awaiting _) => apply ops_awaiting; still; fail
  | |- Ops _ (await_ready _) => apply (ops_awaits _); still; fail
  | |- Ops _ (await _) => apply (ops_awaiting _); still; fail
  | |- Ops _ (iter _ _) => apply ops_iter
  | |- Ops _ (lift _) => apply c_lift
  | |- Ops _ (yield_now _) => apply c_yield; still; fail
  | |- Ops _ (select _ _) => apply ops_select
  | |- Ops _ (join _ _) => apply ops_join
  | |- Ops _ (scoped _ _) => apply ops_scoped; [repeat constructor; still; fail|]
  | |- Ops _ (unwrap_guard _) => unfold unwrap_guard
  | |- Ops _ (transmit _ _ _) => unfold transmit, radio_future
  | |- Ops _ (receive _ _) => unfold receive, radio_future
  | |- Ops _ (acquire_lock _) => unfold acquire_lock
  | |- Ops _ (report _) => unfold report
  | |- Ops _ (delay _ _) => unfold delay
  | |- Ops _ (perform_backoff _ _) => unfold perform_backoff
  | |- Ops _ (transmit_cca _ _) => unfold transmit_cca
  | |- Ops _ (wait_for_valid_ack _ _) => unfold wait_for_valid_ack
  | |- Ops _ (prepare_frame _ _) => unfold prepare_frame
  | |- Ops _ (await_ack _ _) => unfold await_ack
  | |- Ops _ (send_frame _ _ _) => unfold send_frame
  | |- Ops _ (transmit_package_task _) => unfold transmit_package_task
  | |- Ops _ (acknowledge _ _ _ _) => unfold acknowledge
  | |- Ops _ (receive_once _ _) => unfold receive_once
  | |- Ops _ (receive_frame_task _) => unfold receive_frame_task
  | |- Ops _ (if ?x then _ else _) => destruct x
  | |- Ops _ (match ?x with _ => _ end) => destruct x
  | |- forall x, _ => let y := fresh "y" in intros y; try (match type of y with prod _ _ => destruct y as [? ?] end)
  end.
Ltac calmly := solve [repeat cstep].

Section Tasks.
Variable U : Setup.
(** the other task does not touch it *)
Lemma rx_calm a : match a with AEnable | AFrame | ARadio Tx | ARng | ARoom | AReport | ATimer Tx => True | _ => False end -> Ops (calm a) (receive_frame_task U).
Proof. kinds a; intros []; calmly. Qed.
Lemma tx_calm a : match a with AEnable | ARadio Rx | ALock | ASignal | AUpper | ATimer Rx => True | _ => False end -> Ops (calm a) (transmit_package_task U).
Proof. kinds a; intros []; calmly. Qed.

(** the radio's futures *)
Lemma radio_quiets a t e (o : bool -> event) B (r : option B -> event) : e = Cancel t -> a = ARadio t ->
  effect_of a (o false) = Waits -> effect_of a (r None) = Waits -> (forall b, effect_of a (r (Some b)) = Ends) ->
  Afine a (quiets a) (radio_future (Op := op) (destructor e) o r) Quiet quiet.
Proof.
  intros -> -> E0 E1 E2. unfold radio_future. apply Afine_scoped. assert (HC : quiets (ARadio t) ([] ++ [destructor (Cancel t)]) Seen) by (destruct t; reflexivity).
  apply Afine_bind. apply (Afine_awaits _ _ o); [exact E0|exact HC|]. intros s. apply (Afine_awaiting _ _ _ r); [exact E1|exact HC|].
  intros s' b. unfold anext. rewrite E2. reflexivity.
Qed.
Lemma transmit_quiets t c b : Afine (ARadio t) (quiets (ARadio t)) (transmit t c b) Quiet quiet.
Proof. apply radio_quiets with (t := t); auto; destruct t; reflexivity. Qed.
Lemma receive_quiets t c : Afine (ARadio t) (quiets (ARadio t)) (receive t c) Quiet quiet.
Proof. apply radio_quiets with (t := t); auto; destruct t; reflexivity. Qed.

Ltac waits := first [apply att_awaits; [reflexivity|reflexivity] | apply att_awaiting; [reflexivity|intros ?; reflexivity] | apply att_calm; calmly].
Ltac astep :=
  first [solve [apply att_calm; calmly] |
  lazymatch goal with
  | |- Att _ (bind (call (Report _)) (fun _ => bind (awaits _) _)) => apply att_begins; [reflexivity|reflexivity|reflexivity|]
  | |- Att _ (bind (call (Delay _ _)) (fun _ => bind (awaits _) _)) => apply att_begins; [reflexivity|reflexivity|reflexivity|]
  | |- Att _ (bind _ _) => apply att_bind
  | |- Att _ (awaits _) => waits
  | |- Att _ (awaiting _) => waits
  | |- Att _ (iter _ _) => apply att_iter
  | |- Att _ (scoped _ _) => apply att_scoped
  | |- Att _ (transmit ?t _ _) => exact (Afine_any _ _ _ _ _ _ (transmit_quiets _ _ _))
  | |- Att _ (receive ?t _) => exact (Afine_any _ _ _ _ _ _ (receive_quiets _ _))
  | |- Att _ (join _ _) => first [apply Afine_join_left; [|calmly] | apply Afine_join_right; [calmly|]]
  | |- Afine ?a any ?p Quiet quiet => change (Att a p)
  | |- Att _ (if ?x then _ else _) => destruct x
  | |- Att _ (match ?x with _ => _ end) => destruct x
  | |- forall x, _ => let y := fresh "y" in intros y; try (match type of y with prod _ _ => destruct y as [? ?] end)
  end].
Lemma att_report a e : Att a (report e).
Proof.
  unfold report. kinds a; try (apply att_calm; calmly).
  apply Afine_bind, Afine_call. apply Afine_awaits; [reflexivity|exact I|]. intros s. reflexivity.
Qed.
Lemma att_delay a t d : Att a (delay t d).
Proof.
  unfold delay. destruct t; kinds a; try (apply att_calm; calmly);
  (apply Afine_bind, Afine_call; apply Afine_awaits; [reflexivity|exact I|]; intros s; reflexivity).
Qed.
Ltac step := first [apply att_report | apply att_delay | astep].
Ltac each := match goal with |- Att ?a _ => kinds a; repeat step end.
Lemma att_acquire a c : Att a (acquire_lock c).
Proof. unfold acquire_lock. each. Qed.
Lemma att_backoff a be : Att a (perform_backoff U be).
Proof. unfold perform_backoff. each. Qed.
Lemma att_prepare a b : Att a (prepare_frame U b).
Proof. unfold prepare_frame. each. Qed.
Ltac step1 := first [apply att_acquire | apply att_backoff | apply att_prepare | step].
Ltac each1 := match goal with |- Att ?a _ => kinds a; repeat step1 end.
Lemma att_cca_backoff a n be : Att a (bind (call (Report (CcaBackoff n))) (fun _ => join (perform_backoff U be) (awaits ReportDone))).
Proof.
  kinds a; try (apply att_bind; [apply att_calm; calmly|]; intros ?; apply Afine_join_left; [apply att_backoff|calmly]).
  apply Afine_bind, Afine_call. apply Afine_join_right; [calmly|]. apply Afine_awaits; [reflexivity|exact I|]. intros s. reflexivity.
Qed.
Lemma bind_assoc A B C (p : future A) (f : A -> future B) (g : B -> future C) a : Att a (bind (bind p f) g) -> Att a (bind p (fun x => bind (f x) g)).
Proof.
  unfold Att. assert (G : forall n s p, afine a any n (bind (bind p f) g) s quiet -> afine a any n (bind p (fun x => bind (f x) g)) s quiet); [|intros H n; exact (G n _ _ (H n))].
  clear p. induction n as [|n IH]; intros s p H; [exact I|]. destruct p as [x|p|X o k|c p|].
  - rewrite bind_ret in H |- *. exact H.
  - rewrite bind_tau in H |- *. rewrite bind_tau in H. exact (IH _ _ H).
  - rewrite bind_vis in H |- *. rewrite bind_vis in H. intros b. exact (IH _ _ (H b)).
  - rewrite bind_pend in H |- *. rewrite bind_pend in H. destruct H as (HD & s' & E & HF). split; [exact HD|]. exists s'. split; [exact E|exact (IH _ _ HF)].
  - rewrite bind_fail. exact I.
Qed.
Lemma att_cca a b : Att a (transmit_cca U b).
Proof.
  unfold transmit_cca. destruct (65536 <=? _)%N; [apply att_calm; calmly|]. apply att_iter. intros [n be]. destruct (n <=? _)%N; [|apply att_calm; calmly].
  apply att_bind; [apply att_acquire|]. intros _. apply att_bind; [apply att_calm; kinds a; calmly|]. intros _.
  apply att_bind; [kinds a; repeat step1|]. intros [|]; [apply att_calm; calmly|].
  apply att_bind; [apply att_calm; kinds a; calmly|]. intros _. destruct (n =? _)%N; [apply att_calm; calmly|].
  apply bind_assoc. apply att_bind; [apply att_cca_backoff|]. intros [be' u]. apply att_calm. calmly.
Qed.
(** waiting for an acknowledgement *)
Lemma gentle_calm a A (p : future A) (Q : A -> status -> Prop) : Ops (calm a) p -> (forall x s, Q x s) -> Gentle a p Q.
Proof.
  intros H HQ n. specialize (H n). revert p H. induction n as [|n IH]; intros p H s; [exact I|]. destruct p as [x|p|B o k|c p|]; cbn in *; auto.
  - destruct H as [H1 H2]. intros b. apply IH. apply H2.
  - destruct H as [H1 H2]. split; [exact H1|]. intros s'. apply IH. exact H2.
Qed.
Lemma wait_quiets seq : Afine (ARadio Tx) (quiets (ARadio Tx)) (wait_for_valid_ack U seq) Quiet quiet.
Proof.
  unfold wait_for_valid_ack. apply Afine_iter. intros _. apply Afine_bind. eapply Afine_mono; [|apply receive_quiets]. intros [ok buf] s ->.
  destruct (negb ok); [apply Afine_ret; reflexivity|]. apply Afine_bind. eapply Afine_mono; [|apply Afine_calm; calmly]. intros y s ->. apply Afine_ret. destruct y; reflexivity.
Qed.
Lemma att_await_ack a seq : Att a (await_ack U seq).
Proof.
  unfold await_ack. apply att_bind; [apply att_acquire|]. intros _. apply att_bind; [apply att_calm; calmly|]. intros d. apply att_bind; [apply att_calm; calmly|]. intros d2.
  apply att_bind; [apply att_calm; kinds a; calmly|]. intros _. apply att_bind; [apply att_calm; kinds a; calmly|]. intros _.
  kinds a; try (apply att_calm; calmly).
  - apply att_bind; [|intros [?|?]; apply att_calm; calmly]. apply att_scoped. apply att_bind; [apply att_calm; calmly|]. intros _. apply Afine_select_left; [apply wait_quiets|calmly].
  - apply Afine_bind. apply Afine_scoped. apply Afine_bind, Afine_call. cbn [anext effect_of task_eqb].
    eapply Afine_mono; [|apply (Afine_any _ any); apply (Afine_select_right _ _ _ _ _ (fun _ _ => True)); [reflexivity|reflexivity|apply gentle_calm; [calmly|auto]|exact I]].
    intros r s _. apply Afine_bind, Afine_call. apply Afine_ret. reflexivity.
Qed.
Lemma att_send a b q : Att a (send_frame U b q).
Proof.
  unfold send_frame. apply att_bind; [|intros _; apply att_calm; kinds a; calmly]. apply att_scoped.
  destruct (65536 <=? _)%N; [apply att_calm; calmly|]. apply att_iter. intros i. destruct (i <=? _)%N; [|apply att_calm; calmly].
  apply att_bind; [apply att_cca|]. intros [|]; cbn [negb]; [|apply att_bind; [apply att_report|intros _; apply att_calm; calmly]].
  destruct q as [s|]; [|apply att_calm; calmly]. apply att_bind; [apply att_await_ack|]. intros [|]; [apply att_calm; calmly|].
  apply att_bind; [apply att_calm; kinds a; calmly|]. intros _. apply att_bind; [apply att_delay|]. intros _.
  destruct (i =? _)%N; (apply att_bind; [apply att_report|intros _; apply att_calm; calmly]).
Qed.
Lemma att_tx a : Att a (transmit_package_task U).
Proof.
  unfold transmit_package_task. apply att_iter. intros _. apply att_bind; [kinds a; repeat step|]. intros fb.
  apply att_bind; [apply att_calm; kinds a; calmly|]. intros _. apply att_bind; [apply att_prepare|]. intros [buf q].
  apply att_bind; [apply att_send|]. intros _. apply att_calm. calmly.
Qed.
(** the receive task *)
Lemma att_acknowledge a sa q b : Att a (acknowledge U sa q b).
Proof. unfold acknowledge. each1. Qed.
Lemma gentle_ret a A (x : A) (Q : A -> status -> Prop) : (forall s, Q x s) -> Gentle a (Ret x) Q.
Proof. intros H [|n] s; [exact I|]. apply H. Qed.
Lemma receive_gentle c : Gentle ASignal (receive Rx c) quiet.
Proof.
  intros n s. unfold receive, radio_future.
  assert (H2 : forall n, (forall s, gentle ASignal n (scoped [destructor (Cancel Rx)] (await (Receive Rx))) s quiet) /\ (forall s, gentle ASignal n (scoped [destructor (Cancel Rx)] (Pend [] (await (Receive Rx)))) s quiet)).
  { clear n s. induction n as [|n [IH1 IH2]]; [split; intros; exact I|]. split; intros s.
    - rewrite await_eq, scoped_vis. intros [r|]; [rewrite scoped_ret; destruct n; [exact I|]; destruct r as [ok buf]; reflexivity|]. apply IH2.
    - rewrite scoped_pend. split; [constructor; [intros []; reflexivity|constructor]|]. exact IH1. }
  assert (H1 : forall n, (forall s, gentle ASignal n (scoped [destructor (Cancel Rx)] (bind (await_ready (PrepareRx Rx c)) (fun _ => await (Receive Rx)))) s quiet) /\ (forall s, gentle ASignal n (scoped [destructor (Cancel Rx)] (bind (Pend [] (await_ready (PrepareRx Rx c))) (fun _ => await (Receive Rx)))) s quiet)).
  { clear n s. induction n as [|n [IH1 IH2]]; [split; intros; exact I|]. split; intros s.
    - rewrite await_ready_eq, bind_vis, scoped_vis. intros [|]; [rewrite bind_ret; apply H2|]. apply IH2.
    - rewrite bind_pend, scoped_pend. split; [constructor; [intros []; reflexivity|constructor]|]. exact IH1. }
  apply H1.
Qed.
Lemma att_listen a c : Att a (select (receive Rx c) (awaits SignalReceived)).
Proof.
  kinds a; try (apply att_calm; calmly).
  - apply Afine_select_left; [apply receive_quiets|calmly].
  - apply Afine_select_right; [reflexivity|reflexivity|apply receive_gentle|reflexivity].
Qed.
Lemma att_deliver a buf sa q b : Att a (bind (call (Received buf)) (fun _ => join (acknowledge U sa q b) (awaits ReceivedDone))).
Proof.
  kinds a; try (apply att_bind; [apply att_calm; calmly|]; intros ?; apply Afine_join_left; [apply att_acknowledge|calmly]).
  apply Afine_bind, Afine_call. apply Afine_join_right; [calmly|]. apply Afine_awaits; [reflexivity|exact I|]. intros s. reflexivity.
Qed.
Lemma att_rx a : Att a (receive_frame_task U).
Proof.
  unfold receive_frame_task. apply att_scoped. apply att_iter. intros b. unfold receive_once.
  apply att_bind; [apply att_calm; kinds a; calmly|]. intros _. apply att_bind; [apply att_calm; kinds a; calmly|]. intros h.
  apply att_bind; [destruct h; kinds a; repeat step|]. intros _. apply att_bind; [apply att_calm; kinds a; calmly|]. intros _.
  apply att_bind; [apply att_listen|]. assert (HR : Att a (bind (call (Release RxGuard)) (fun _ => Ret (inl (B := Empty_set) b)))) by (apply att_calm; kinds a; calmly).
  intros [[[|] buf]|u]; [|exact HR..]. apply att_bind; [apply att_calm; calmly|]. intros [[sa q]|]; [|apply att_calm; calmly].
  apply bind_assoc. apply att_bind; [apply att_deliver|]. intros [t u]. apply att_calm. calmly.
Qed.
Theorem att_run a : Att a (run U).
Proof.
  unfold run. apply att_bind; [kinds a; repeat step|]. intros _. apply att_bind; [|intros ?; apply att_calm; calmly]. apply Afine_select_tasks.
  kinds a; try (right; split; [apply tx_calm; exact I|apply att_rx]); left; (split; [apply att_tx|apply rx_calm; exact I]).
Qed.

(** ** Histories *)
Definition status_step (a : awaited) (s : option status) (e : event) : option status :=
  match s with None => None | Some s => match e with Polled => again s | _ => Some (anext a s e) end end.
Definition status_of (a : awaited) (h : list event) : option status := fold_left (status_step a) h (Some Quiet).
Lemma no_effect_polled a : effect_of a Polled = Nothing.
Proof. kinds a; reflexivity. Qed.
Lemma never_polled w e w' : happens w e = Some w' -> e <> Polled.
Proof. intros H ->. discriminate. Qed.
Lemma reachable_status a p w : reachable U p w -> exists s, status_of a (w_hist w) = Some s /\ Afine a any p s quiet.
Proof.
  intros HR. unfold reachable in HR. induction HR as [|q v q' v' HR (s & HS & HF) HM].
  - exists Quiet. split; [reflexivity|exact (att_run a)].
  - destruct q as [x|q|B o k|c q|]; cbn in HM.
    + destruct HM.
    + destruct HM as [-> ->]. exists s. split; [exact HS|exact (Afine_tau_inv _ _ _ _ _ _ HF)].
    + destruct HM as (b & HM & ->). unfold sem in HM. exists (anext a s (o b)). split; [|exact (Afine_vis_inv _ _ _ _ _ _ _ _ HF b)].
      rewrite (happens_hist _ _ _ HM). unfold status_of in *. rewrite fold_left_app, HS. cbn. assert (N := never_polled _ _ _ HM). destruct (o b); congruence || reflexivity.
    + destruct HM as [-> HB]. unfold between in HB. subst v'. destruct (Afine_pend_inv _ _ _ _ _ _ _ HF) as (_ & s' & E & HF'). exists s'. split; [|exact HF'].
      cbn [record w_hist]. unfold status_of in *. rewrite fold_left_app, HS. exact E.
    + destruct HM.
Qed.
(** at a suspension nothing is owed *)
Lemma suspended_status a c p w : reachable U (Pend c p) w -> exists s, status_of a (w_hist w) = Some s /\ s <> Owed.
Proof.
  intros HR. destruct (reachable_status a _ _ HR) as (s & HS & HF). exists s. split; [exact HS|]. destruct (Afine_pend_inv _ _ _ _ _ _ _ HF) as (_ & s' & E & _). destruct s; discriminate.
Qed.
Lemma waits_status a h s : status_of a h = Some s -> waits_for a h = match s with Quiet => false | _ => true end.
Proof.
  revert s. induction h as [|e h IH] using rev_ind; intros s H; [injection H as <-; reflexivity|]. unfold status_of, waits_for in *. rewrite fold_left_app in H |- *. cbn in H |- *.
  destruct (fold_left (status_step a) h (Some Quiet)) as [s0|]; [|discriminate]. rewrite (IH _ eq_refl). cbn in H. unfold wait_step.
  destruct e; try (injection H as <-; unfold anext; destruct (effect_of a _); destruct s0; reflexivity). rewrite no_effect_polled. destruct s0; cbn in H; try discriminate; injection H as <-; reflexivity.
Qed.
(** once owed it is attended *)
Lemma owed_attended a s : forall r, fold_left (status_step a) s (Some Owed) = Some r -> ~ In Polled s -> r <> Owed -> attended a s.
Proof.
  induction s as [|e s IH]; intros r H NP NO; [cbn in H; congruence|]. cbn [fold_left] in H.
  assert (E : status_step a (Some Owed) e = Some (anext a Owed e)) by (destruct e; try reflexivity; destruct NP; left; reflexivity). rewrite E in H. unfold anext in H.
  assert (NP' : ~ In Polled s) by (intros X; apply NP; right; exact X).
  destruct (effect_of a e) eqn:EE; [| |exists e; split; [left; reflexivity|auto]..];
    (destruct (IH _ H NP' NO) as (e' & HI & HE); exists e'; split; [right; exact HI|exact HE]).
Qed.
Theorem all_attended a c p w h s : reachable U (Pend c p) w -> w_hist w = h ++ Polled :: s -> ~ In Polled s -> waits_for a h = true -> attended a s.
Proof.
  intros HR HH NP HW. destruct (suspended_status a _ _ _ HR) as (r & HS & NO). rewrite HH in HS. unfold status_of in HS. rewrite fold_left_app in HS.
  destruct (fold_left (status_step a) h (Some Quiet)) as [s0|] eqn:E0.
  - rewrite (waits_status a h s0 E0) in HW. cbn in HS. destruct s0; [discriminate| |].
    + exact (owed_attended _ _ _ HS NP NO).
    + exfalso. cbn in HS. clear - HS. assert (X : fold_left (status_step a) s None = None) by (induction s; auto). congruence.
  - exfalso. assert (X : forall l, fold_left (status_step a) l None = None) by (intros l; induction l; auto). rewrite X in HS. discriminate.
Qed.
Theorem begun_attended a c p w h e s : reachable U (Pend c p) w -> w_hist w = h ++ e :: s -> ~ In Polled s -> effect_of a e = Begins -> attended a s.
Proof.
  intros HR HH NP HE. destruct (suspended_status a _ _ _ HR) as (r & HS & NO). rewrite HH in HS. unfold status_of in HS. rewrite fold_left_app in HS.
  destruct (fold_left (status_step a) h (Some Quiet)) as [s0|] eqn:E0.
  - cbn in HS. assert (E : status_step a (Some s0) e = Some Owed).
    { cbn. destruct e; try (unfold anext; rewrite HE; reflexivity). rewrite no_effect_polled in HE. discriminate. }
    cbn in E. rewrite E in HS. exact (owed_attended _ _ _ HS NP NO).
  - exfalso. assert (X : forall l, fold_left (status_step a) l None = None) by (intros l; induction l; auto). rewrite X in HS. discriminate.
Qed.
End Tasks.
