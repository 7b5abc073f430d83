(** WakeProofs.v -- the transmit task wakes itself at most once for each frame it takes (proofs of C76). *)
From Coq Require Import Lia.
From Verif Require Import Base BaseProofs Sync Spec PhyConfig Csma CsmaTasks CsmaWorld SpecTasks SpecAir TaskLogic CsmaGlobal TxFacts AirCounts TasksLive.
From Verif Require Import Async AsyncProofs RadioFutures.

(** [true]: a frame was taken and the task has not woken itself since *)
Definition wnext (s : bool) (e : event) : option bool :=
  match e with
  | NextFrame (Some _) => if s then None else Some true
  | Woken Tx => if s then Some false else None
  | _ => Some s
  end.
Definition neutral (B : Type) (o : op B) : Prop := forall b, match o b with NextFrame _ | Woken Tx => False | _ => True end.
Fixpoint wfine (n : nat) {A} (p : future A) (s : bool) (Q : A -> bool -> Prop) : Prop :=
  match n with
  | O => True
  | S n =>
      match p with
      | Ret a => Q a s
      | Tau p => wfine n p s Q
      | Vis o k => forall b, exists s', wnext s (o b) = Some s' /\ wfine n (k b) s' Q
      | Pend _ p => wfine n p s Q
      | Fail => True
      end
  end.
Definition Wfine {A} (p : future A) (s : bool) (Q : A -> bool -> Prop) : Prop := forall n, wfine n p s Q.
Lemma neutral_next B (o : op B) s b : neutral B o -> wnext s (o b) = Some s.
Proof. intros H. specialize (H b). destruct (o b); try reflexivity; try destruct H. destruct t; [destruct H|reflexivity]. Qed.
Lemma neutral_wfine A (p : future A) s : Ops neutral p -> Wfine p s (fun _ s' => s' = s).
Proof.
  intros H n. specialize (H n). revert p H. induction n as [|n IH]; intros p H; [exact I|]. destruct p as [a|p|B o k|c p|]; cbn in *.
  - reflexivity.
  - exact (IH _ H).
  - destruct H as [H1 H2]. intros b. exists s. split; [apply neutral_next; exact H1|]. exact (IH _ (H2 b)).
  - apply IH. apply H.
  - exact I.
Qed.
Lemma wfine_bind A B (p : future A) (k : A -> future B) s (Q : B -> bool -> Prop) :
  Wfine p s (fun a s' => Wfine (k a) s' Q) -> Wfine (bind p k) s Q.
Proof.
  intros H n. specialize (H n). revert p s H. induction n as [|n IH]; intros p s H; [exact I|]. destruct p as [a|p|X o f|c p|].
  - rewrite bind_ret. exact (H (S n)).
  - rewrite bind_tau. exact (IH _ _ H).
  - rewrite bind_vis. intros b. destruct (H b) as (s' & E & HF). exists s'. split; [exact E|exact (IH _ _ HF)].
  - rewrite bind_pend. exact (IH _ _ H).
  - rewrite bind_fail. exact I.
Qed.
Lemma wfine_mono n : forall A (p : future A) s (Q Q' : A -> bool -> Prop), (forall a s, Q a s -> Q' a s) -> wfine n p s Q -> wfine n p s Q'.
Proof.
  induction n as [|n IH]; intros A p s Q Q' H; [auto|]. destruct p; cbn; eauto.
  intros HF b. destruct (HF b) as (s' & E & HF'). exists s'. split; [exact E|]. exact (IH _ _ _ _ _ H HF').
Qed.
Lemma wfine_iter X A (body : X -> future (X + A)) (Q : A -> bool -> Prop) :
  (forall x, Wfine (body x) false (fun r s' => match r with inl _ => s' = false | inr a => Q a s' end)) -> forall x, Wfine (iter body x) false Q.
Proof.
  intros HB. assert (H : forall n p s, wfine n p s (fun r s' => match r with inl _ => s' = false | inr a => Q a s' end) -> wfine n (iter_from body p) s Q).
  { induction n as [|n IH]; intros p s H; [exact I|]. destruct p as [r|p|B o f|c p|].
    - rewrite iter_from_ret. destruct r as [x'|a]; [|exact H]. cbn in H |- *. subst s. apply IH. apply HB.
    - rewrite iter_from_tau. exact (IH _ _ H).
    - rewrite iter_from_vis. intros b. destruct (H b) as (s' & E & HF). exists s'. split; [exact E|exact (IH _ _ HF)].
    - rewrite iter_from_pend. exact (IH _ _ H).
    - rewrite iter_from_fail. exact I. }
  intros x n. apply H. apply HB.
Qed.
Lemma wfine_next_frame A (k : FrameBuffer -> future A) Q : (forall f, Wfine (k f) true Q) -> Wfine (bind (awaiting NextFrame) k) false Q.
Proof.
  intros H. apply wfine_bind. intros n. assert (G : forall n, wfine n (awaiting NextFrame) false (fun f s' => Wfine (k f) s' Q) /\
     wfine n (Pend (Op := op) [] (awaiting NextFrame)) false (fun f s' => Wfine (k f) s' Q)); [|apply G].
  clear n. induction n as [|n [IH1 IH2]]; [split; exact I|]. split; [|exact IH1]. unfold awaiting. rewrite await_eq. intros [f|].
  - exists true. split; [reflexivity|]. destruct n; [exact I|]. exact (H f).
  - exists false. split; [reflexivity|exact IH2].
Qed.
(** next to a future that does neither *)
Lemma wfine_select (p q : future Empty_set) s Q : Wfine p s (fun _ _ => True) -> Ops neutral q -> Wfine (select p q) s Q.
Proof.
  intros HP HQ n. unfold select.
  enough (H : (forall p c q s, Wfine p s (fun _ _ => True) -> Ops neutral q -> wfine n (select_first (A := Empty_set) (B := Empty_set) p c q) s Q) /\
              (forall c p q s, Wfine p s (fun _ _ => True) -> Ops neutral q -> wfine n (select_second (A := Empty_set) (B := Empty_set) c p q) s Q)) by (apply H; auto).
  clear p q s HP HQ. induction n as [|n [IH1 IH2]]; [split; intros; exact I|]. split.
  - intros p c q s HP HQ. destruct p as [[]|p|X o f|c' p|].
    + rewrite select_first_tau. apply IH1; auto. intros k. exact (HP (S k)).
    + rewrite select_first_vis. intros b. destruct (HP 1 b) as (s' & E & _). exists s'. split; [exact E|]. apply IH1; [|exact HQ]. intros k.
      destruct (HP (S k) b) as (s2 & E2 & HF). rewrite E in E2. injection E2 as <-. exact HF.
    + rewrite select_first_pend. apply IH2; auto. intros k. exact (HP (S k)).
    + rewrite select_first_fail. exact I.
  - intros c p q s HP HQ. destruct q as [[]|q|X o f|c' q|].
    + rewrite select_second_tau. apply IH2; auto. intros k. exact (HQ (S k)).
    + rewrite select_second_vis. intros b. exists s. split; [apply neutral_next, (HQ 1)|]. apply IH2; auto. intros k. exact (proj2 (HQ (S k)) b).
    + rewrite select_second_pend. apply IH1; auto. intros k. exact (proj2 (HQ (S k))).
    + rewrite select_second_fail. exact I.
Qed.

Ltac quiet := first [exact (fun _ => I)|let b := fresh in intros b; cbn; exact I].
Section Tasks.
Variable S : Setup.
Lemma n_call e : neutral unit (fun _ => e) -> Ops neutral (call e).
Proof. intros H. unfold call. exact (ops_ask neutral unit (fun _ => e) H). Qed.
Lemma n_lift A (o : outcome A) : Ops neutral (lift o).
Proof. destruct o; [apply ops_ret|apply ops_fail]. Qed.
Lemma n_unwrap c : Ops neutral (unwrap_guard c).
Proof. unfold unwrap_guard. apply ops_bind; [apply ops_ask; quiet|]. intros [|]; [apply ops_ret|apply ops_fail]. Qed.
Lemma n_transmit t c b : Ops neutral (transmit t c b).
Proof. unfold transmit, radio_future. apply ops_scoped; [constructor; [quiet|constructor]|]. apply ops_bind; [apply (ops_awaits neutral); quiet|]. intros _. apply (ops_awaiting neutral). quiet. Qed.
Lemma n_receive t c : Ops neutral (receive t c).
Proof. unfold receive, radio_future. apply ops_scoped; [constructor; [quiet|constructor]|]. apply ops_bind; [apply (ops_awaits neutral); quiet|]. intros _. apply (ops_awaiting neutral). quiet. Qed.
Lemma n_yield : Ops neutral (yield_now Rx).
Proof. unfold yield_now, yield_now_with. intros [|n]; [exact I|]. split; [quiet|]. intros _. destruct n; [exact I|]. split; [constructor|]. apply ops_ret. Qed.
Ltac nstep :=
  lazymatch goal with
  | |- Ops _ (bind _ _) => apply ops_bind
  | |- Ops _ (Ret _) => apply ops_ret
  | |- Ops _ Fail => apply ops_fail
  | |- Ops _ (call _) => apply n_call; quiet
  | |- Ops _ (ask _) => apply ops_ask; quiet
  | |- Ops _ (awaits _) => apply ops_awaits; quiet
  | |- Ops _ (awaiting _) => apply ops_awaiting; quiet
  | |- Ops _ (iter _ _) => apply ops_iter
  | |- Ops _ (lift _) => apply n_lift
  | |- Ops _ (unwrap_guard _) => apply n_unwrap
  | |- Ops _ (transmit _ _ _) => apply n_transmit
  | |- Ops _ (receive _ _) => apply n_receive
  | |- Ops _ (yield_now _) => apply n_yield
  | |- Ops _ (select _ _) => apply ops_select
  | |- Ops _ (join _ _) => apply ops_join
  | |- Ops _ (scoped _ _) => apply ops_scoped; [repeat constructor; quiet|]
  | |- Ops _ (if ?x then _ else _) => destruct x
  | |- Ops _ (match ?x with _ => _ end) => destruct x
  | |- forall x, _ => let y := fresh "y" in intros y; try (destruct y as [? ?])
  end.
Lemma n_acquire c : Ops neutral (acquire_lock c).
Proof. unfold acquire_lock. repeat nstep. Qed.
Lemma n_report e : Ops neutral (report e).
Proof. unfold report. repeat nstep. Qed.
Lemma n_delay t d : Ops neutral (delay t d).
Proof. unfold delay. repeat nstep. Qed.
Lemma n_backoff be : Ops neutral (perform_backoff S be).
Proof. unfold perform_backoff. repeat (nstep || apply n_delay). Qed.
Lemma n_cca b : Ops neutral (transmit_cca S b).
Proof. unfold transmit_cca. repeat (nstep || apply n_acquire || apply n_backoff). Qed.
Lemma n_ack s : Ops neutral (await_ack S s).
Proof. unfold await_ack, wait_for_valid_ack. repeat (nstep || apply n_acquire). Qed.
Lemma n_prepare b : Ops neutral (prepare_frame S b).
Proof. unfold prepare_frame. repeat (nstep || apply n_report). Qed.
Lemma n_frame b q : Ops neutral (send_frame S b q).
Proof. unfold send_frame. repeat (nstep || apply n_cca || apply n_ack || apply n_report || apply n_delay). Qed.
Lemma n_acknowledge b q t : Ops neutral (acknowledge S b q t).
Proof. unfold acknowledge. repeat (nstep || apply n_delay). Qed.
Lemma n_rx : Ops neutral (receive_frame_task S).
Proof. unfold receive_frame_task, receive_once. repeat (nstep || apply n_acknowledge). Qed.

Lemma wfine_tx : Wfine (transmit_package_task S) false (fun _ _ => True).
Proof.
  unfold transmit_package_task. apply wfine_iter. intros _. apply wfine_next_frame. intros f. apply wfine_bind.
  intros [|n]; [exact I|]. unfold yield_now, yield_now_with. intros []. exists false. split; [reflexivity|]. destruct n; [exact I|]. destruct n; [exact I|].
  intros m. revert m. apply wfine_bind. assert (H := neutral_wfine _ (prepare_frame S (fb_buffer f)) false (n_prepare _)).
  intros m. eapply wfine_mono; [|exact (H m)]. intros [b q] s ->. clear H. apply wfine_bind. assert (H := neutral_wfine _ (send_frame S b q) false (n_frame _ _)).
  intros k. eapply wfine_mono; [|exact (H k)]. intros u s ->. intros [|j]; [exact I|]. reflexivity.
Qed.
Lemma wfine_run : Wfine (run S) false (fun _ _ => True).
Proof.
  unfold run. apply wfine_bind. assert (HE : Ops neutral (awaits Enable)) by (apply ops_awaits; quiet). assert (H := neutral_wfine _ _ false HE).
  intros n. eapply wfine_mono; [|exact (H n)]. intros u s ->. apply wfine_bind. apply wfine_select; [exact wfine_tx|exact n_rx].
Qed.
Definition taking (e : event) : bool := match e with NextFrame (Some _) => true | _ => false end.
Lemma wnext_counts s e s' h : wnext s e = Some s' -> count (wakes Tx) h + one s = count taking h ->
  count (wakes Tx) (h ++ [e]) + one s' = count taking (h ++ [e]).
Proof.
  intros E H. rewrite !count_snoc. destruct e; cbn [wnext wakes taking] in *; try (injection E as <-; lia).
  - destruct t; cbn [task_eqb]; [destruct s; [|discriminate]|]; injection E as <-; cbn [one] in *; lia.
  - destruct r; [destruct s; [discriminate|]|]; injection E as <-; cbn [one] in *; lia.
Qed.
Lemma wakes_tx_state p w : reachable S p w -> exists s, Wfine p s (fun _ _ => True) /\ count (wakes Tx) (w_hist w) + one s = count taking (w_hist w).
Proof.
  intros HR. unfold reachable in HR. induction HR as [|q v q' v' HR (s & HF & HC) HS].
  - exists false. split; [exact wfine_run|reflexivity].
  - destruct q as [a|q|B o k|c q|]; cbn in HS.
    + destruct HS.
    + destruct HS as [-> ->]. exists s. split; [|exact HC]. intros n. exact (HF (Datatypes.S n)).
    + destruct HS as (b & HS & ->). unfold sem in HS. destruct (HF 1 b) as (s' & E & _). exists s'. split.
      * intros n. destruct (HF (Datatypes.S n) b) as (s2 & E2 & HF2). rewrite E in E2. injection E2 as <-. exact HF2.
      * rewrite (happens_hist _ _ _ HS). exact (wnext_counts _ _ _ _ E HC).
    + destruct HS as [-> HB]. unfold between in HB. subst v'. exists s. split; [intros n; exact (HF (Datatypes.S n))|].
      cbn [record w_hist]. exact (wnext_counts _ Polled _ _ eq_refl HC).
    + destruct HS.
Qed.
Lemma taking_taken h : count taking h = taken h.
Proof. induction h as [|e h IH]; [reflexivity|]. unfold count in *. destruct e; cbn; try exact IH. destruct r; cbn; [f_equal|]; exact IH. Qed.
Theorem wakes_tx p w : reachable S p w -> count (wakes Tx) (w_hist w) <= taken (w_hist w) /\ taken (w_hist w) <= count (wakes Tx) (w_hist w) + 1.
Proof. intros HR. destruct (wakes_tx_state p w HR) as (s & _ & H). rewrite <- taking_taken. destruct s; cbn [one] in H; lia. Qed.
End Tasks.
