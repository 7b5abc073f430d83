(** RngFacts.v -- a backoff begins at once, and the lock of the random number generator is never contended (proofs of C78, C79). *)
From Coq Require Import Lia.
From Verif Require Import Base BaseProofs Sync Spec PhyConfig Time Csma CsmaTasks CsmaWorld SpecTasks TaskLogic CsmaGlobal TxFacts TasksLive Monitor AttendTasks.
From Verif Require Import Async AsyncProofs RadioFutures.

(** quiet; the channel was busy; the radio was released; a backoff was reported; the lock was not free; locked; drawn; unlocked *)
Inductive rstate := RQ | RF | RG | RB | RBW | RL | RD (r : N) | RU (r : N).
Definition rnext (s : rstate) (e : event) : option rstate :=
  match s with
  | RQ => match e with
          | Transmit Tx (Some false) => Some RF
          | Report (CcaBackoff _) | RngLock _ | Random _ | RngUnlock => None
          | _ => Some RQ
          end
  | RF => match e with Release TxGuard => Some RG | _ => None end
  | RG => match e with
          | Report (CcaBackoff _) => Some RB
          | Report _ => Some RQ
          | _ => None
          end
  | RB => match e with RngLock true => Some RL | RngLock false => Some RBW | _ => None end
  | RBW => match e with
           | Polled => Some RB
           | Transmit Tx (Some false) | Report (CcaBackoff _) | RngLock _ | Random _ | RngUnlock => None
           | _ => Some RBW
           end
  | RL => match e with Random r => Some (RD r) | _ => None end
  | RD r => match e with RngUnlock => Some (RU r) | _ => None end
  | RU _ => match e with Delay Tx _ => Some RQ | _ => None end
  end.
Definition rrest (s : rstate) : Prop := s = RQ \/ s = RBW.
Lemma rrest_polled s s' : rnext s Polled = Some s' -> rrest s.
Proof. unfold rrest. destruct s; cbn; intros E; try discriminate; auto. Qed.
Notation plain := (aside rnext rrest).
Notation RM := (Mfine rnext).
Lemma plain_of B (o : op B) : (forall b, match o b with Transmit Tx (Some false) | Report (CcaBackoff _) | RngLock _ | Random _ | RngUnlock | Polled => False | _ => True end) -> plain B o.
Proof.
  intros H s b [-> | ->]; specialize (H b); destruct (o b) as [| | | |t0 [[|]|]| | | | | | | | | | | | | | | | | |e0| | |]; cbn in *; try reflexivity; try contradiction; try (destruct t0; [contradiction|reflexivity]);
    try (destruct t0; reflexivity); destruct e0; try contradiction; reflexivity.
Qed.
Ltac plain_op := apply plain_of; let b := fresh in intros b; cbn; try exact I.
Lemma p_yield t : Ops plain (yield_now t).
Proof. unfold yield_now, yield_now_with. intros [|n]; [exact I|]. split; [plain_op|]. intros _. destruct n; [exact I|]. split; [constructor|]. apply ops_ret. Qed.
Ltac pstep :=
  lazymatch goal with
  | |- Ops _ (bind _ _) => apply ops_bind
  | |- Ops _ (Ret _) => apply ops_ret
  | |- Ops _ Fail => apply ops_fail
  | |- Ops _ (call _) => apply (ops_ask _ unit); plain_op; fail
  | |- Ops _ (ask _) => apply ops_ask; plain_op; fail
  | |- Ops _ (awaits _) => apply ops_awaits; plain_op; fail
  | |- Ops _ (awaiting _) => apply ops_awaiting; plain_op; fail
  | |- Ops _ (await_ready _) => apply (ops_awaits _); plain_op; fail
  | |- Ops _ (await _) => apply (ops_awaiting _); plain_op; fail
  | |- Ops _ (iter _ _) => apply ops_iter
  | |- Ops _ (lift ?o) => destruct o; [apply ops_ret|apply ops_fail]
  | |- Ops _ (yield_now _) => apply p_yield
  | |- Ops _ (select _ _) => apply ops_select
  | |- Ops _ (join _ _) => apply ops_join
  | |- Ops _ (scoped _ _) => apply ops_scoped; [repeat constructor; plain_op; fail|]
  | |- Ops _ (unwrap_guard _) => unfold unwrap_guard
  | |- Ops _ (transmit _ _ _) => unfold transmit, radio_future
  | |- Ops _ (receive _ _) => unfold receive, radio_future
  | |- Ops _ (acquire_lock _) => unfold acquire_lock
  | |- Ops _ (report _) => unfold report
  | |- Ops _ (delay _ _) => unfold delay
  | |- Ops _ (wait_for_valid_ack _ _) => unfold wait_for_valid_ack
  | |- Ops _ (prepare_frame _ _) => unfold prepare_frame
  | |- Ops _ (await_ack _ _) => unfold await_ack
  | |- Ops _ (acknowledge _ _ _ _) => unfold acknowledge
  | |- Ops _ (receive_once _ _) => unfold receive_once
  | |- Ops _ (receive_frame_task _) => unfold receive_frame_task
  | |- Ops _ (if ?x then _ else _) => destruct x
  | |- Ops _ (match ?x with _ => _ end) => destruct x
  | |- forall x, _ => let y := fresh "y" in intros y; try (match type of y with prod _ _ => destruct y as [? ?] end)
  end.
Ltac plainly := solve [repeat pstep].

Section Tasks.
Variable U : Setup.
Lemma quiet_plain A (p : future A) : Ops plain p -> RM p RQ (fun _ s => s = RQ).
Proof. apply Mfine_aside; [left; reflexivity|reflexivity]. Qed.
Lemma seq_plain A B (p : future A) (k : A -> future B) (Q : B -> rstate -> Prop) : Ops plain p -> (forall x, RM (k x) RQ Q) -> RM (bind p k) RQ Q.
Proof. intros HP HK. apply Mfine_bind. eapply Mfine_mono; [|exact (quiet_plain _ _ HP)]. intros x s ->. apply HK. Qed.
Lemma r_backoff be : RM (perform_backoff U be) RB (home RQ).
Proof.
  unfold perform_backoff. destruct (65536 <=? _)%N; [apply Mfine_fail|]. destruct (32 <=? _)%N; [apply Mfine_fail|]. apply Mfine_bind.
  apply Mfine_awaits with (J := fun s => s = RB); [reflexivity| |].
  - intros s ->. exists RBW, RB. auto.
  - intros s ->. exists RL. split; [reflexivity|]. apply Mfine_bind. apply Mfine_ask. intros r. exists (RD r). split; [reflexivity|]. apply Mfine_bind.
    eapply Mfine_call; [reflexivity|]. apply Mfine_bind. destruct (duration_mul _ _ _) as [d|]; [|apply Mfine_fail]. apply Mfine_ret. apply Mfine_bind. unfold delay. apply Mfine_bind.
    eapply Mfine_call; [reflexivity|]. eapply Mfine_mono; [|apply quiet_plain; plainly]. intros x s ->. apply Mfine_ret. reflexivity.
Qed.
Lemma r_transmit c b : RM (transmit Tx c b) RQ (fun sent s => s = if sent : bool then RQ else RF).
Proof.
  unfold transmit, radio_future. apply Mfine_scoped. apply seq_plain; [plainly|]. intros _. apply (Mfine_awaiting _ (fun s => s = RQ)); [reflexivity| |].
  - intros s ->. exists RQ, RQ. auto.
  - intros s [|] ->; eexists; (split; [reflexivity|reflexivity]).
Qed.
Lemma r_cca b : RM (transmit_cca U b) RQ (fun ok s => s = if ok : bool then RQ else RG).
Proof.
  unfold transmit_cca. destruct (65536 <=? _)%N; [apply Mfine_fail|]. apply (Mfine_iter _ _ _ _ (fun s => s = RQ)); [|reflexivity]. intros [n be] s ->.
  destruct (n <=? _)%N; [|apply Mfine_ret; reflexivity]. apply seq_plain; [plainly|]. intros _. apply seq_plain; [plainly|]. intros _. apply Mfine_bind.
  eapply Mfine_mono; [|apply r_transmit]. intros [|] s ->; [apply Mfine_ret; reflexivity|]. apply Mfine_bind. eapply Mfine_call; [reflexivity|].
  destruct (n =? _)%N; [apply Mfine_ret; reflexivity|]. apply Mfine_bind. eapply Mfine_call; [reflexivity|]. apply Mfine_bind.
  eapply Mfine_mono; [|apply (Mfine_join_left rnext rrest rrest_polled RQ eq_refl); [apply r_backoff|plainly]]. intros [be' u] s E. red in E. subst s. apply Mfine_ret. reflexivity.
Qed.
Lemma r_send b q : RM (send_frame U b q) RQ (fun _ s => s = RQ).
Proof.
  unfold send_frame. apply Mfine_bind. apply Mfine_scoped.
  assert (HE : RM (call (Release TxGuard)) RQ (fun _ s => s = RQ)) by (eapply Mfine_call; reflexivity).
  destruct (65536 <=? _)%N; [apply Mfine_fail|]. apply (Mfine_iter _ _ _ _ (fun s => s = RQ)); [|reflexivity]. intros i s ->.
  destruct (i <=? _)%N; [|apply Mfine_ret; exact HE]. apply Mfine_bind. eapply Mfine_mono; [|apply r_cca]. intros [|] s ->; cbn [negb].
  - destruct q as [sq|]; [|apply Mfine_ret; exact HE]. apply seq_plain; [plainly|]. intros [|]; [apply Mfine_ret; exact HE|]. apply seq_plain; [plainly|]. intros _.
    apply seq_plain; [plainly|]. intros _. destruct (i =? _)%N; (apply seq_plain; [plainly|]; intros _; apply Mfine_ret); [exact HE|reflexivity].
  - apply Mfine_bind. unfold report. apply Mfine_bind. eapply Mfine_call; [reflexivity|]. eapply Mfine_mono; [|apply quiet_plain; plainly]. intros x s ->. apply Mfine_ret. exact HE.
Qed.
Lemma r_run : RM (run U) RQ (fun _ _ => True).
Proof.
  unfold run. apply seq_plain; [plainly|]. intros _. apply Mfine_bind. apply (Mfine_select_left rnext rrest rrest_polled); [|plainly].
  unfold transmit_package_task. apply (Mfine_iter _ _ _ _ (fun s => s = RQ)); [|reflexivity]. intros _ s ->. apply seq_plain; [plainly|]. intros fb. apply seq_plain; [apply p_yield|]. intros _.
  apply seq_plain; [plainly|]. intros [b q]. apply Mfine_bind. eapply Mfine_mono; [|apply r_send]. intros x s ->. apply Mfine_ret. reflexivity.
Qed.

(** ** Histories *)
Definition locked_in (s : rstate) : bool := match s with RL | RD _ => true | _ => false end.
Lemma rng_changes w e w' : happens w e = Some w' -> mx_locked (w_rng w') = match e with RngLock _ => true | RngUnlock => false | _ => mx_locked (w_rng w) end /\
  (forall b, e = RngLock b -> b = negb (mx_locked (w_rng w))).
Proof.
  unfold happens. destruct (next_state w e) as [v|] eqn:E; [|discriminate]. intros [= <-]. cbn [record w_rng].
  assert (K : (forall b, e <> RngLock b) -> e <> RngUnlock -> mx_locked (w_rng v) = mx_locked (w_rng w)).
  { intros N1 N2. destruct e; cbn [next_state] in E; try congruence;
    repeat match type of E with
    | (let '(_, _) := ?x in _) = _ => destruct x
    | (if ?x then _ else _) = _ => destruct x
    | match ?x with _ => _ end = _ => destruct x
    end; try congruence; injection E as <-; reflexivity. }
  destruct e; try (split; [apply K; congruence|congruence]).
  - cbn [next_state] in E. unfold lock_poll in E. split.
    + destruct (mx_locked (w_rng w)); [destruct (mx_waker (w_rng w)) as [u|]; [destruct (u =? waker)|]|]; cbn in E; destruct ok; cbn in E; try discriminate; injection E as <-; reflexivity.
    + intros b [= <-]. destruct (mx_locked (w_rng w)); [destruct (mx_waker (w_rng w)) as [u|]; [destruct (u =? waker)|]|]; cbn in E; destruct ok; cbn in E; try discriminate; reflexivity.
  - cbn [next_state] in E. injection E as <-. split; [|congruence]. cbn. unfold guard_drop. destruct (mx_waker (w_rng w)); reflexivity.
Qed.
Lemma reachable_rng p w : reachable U p w -> exists s, mrun rnext RQ (w_hist w) = Some s /\ RM p s (fun _ _ => True) /\ mx_locked (w_rng w) = locked_in s /\ s <> RBW.
Proof.
  intros HR. unfold reachable in HR. induction HR as [|q v q' v' HR (s & HS & HF & HL & HB) HM].
  - exists RQ. split; [reflexivity|]. split; [exact r_run|]. split; [reflexivity|discriminate].
  - destruct q as [x|q|B o k|c q|]; cbn in HM.
    + destruct HM.
    + destruct HM as [-> ->]. exists s. split; [exact HS|]. split; [exact (Mfine_tau_inv _ _ _ _ _ HF)|]. auto.
    + destruct HM as (b & HM & ->). unfold sem in HM. destruct (Mfine_vis_inv _ _ _ _ _ _ _ HF b) as (s' & E & HF'). exists s'.
      destruct (rng_changes _ _ _ HM) as [L1 L2]. split; [|split; [exact HF'|]].
      * rewrite (happens_hist _ _ _ HM), mrun_app, HS. cbn. rewrite E. reflexivity.
      * clear - L1 L2 E HL HB. revert L1 L2 E. generalize (o b). intros e L1 L2 E. rewrite L1, ?HL. assert (L3 : forall b, e = RngLock b -> b = negb (locked_in s)) by (rewrite <- HL; exact L2). clear - L3 E HB.
        destruct s; try congruence; destruct e; cbn in E; try discriminate;
          repeat match type of E with match ?x with _ => _ end = _ => destruct x; try discriminate end; injection E as <-; (first [specialize (L3 _ eq_refl); discriminate | split; [reflexivity|discriminate]]).
    + destruct HM as [-> HB']. unfold between in HB'. subst v'. destruct (Mfine_pend_inv _ _ _ _ _ _ HF) as (s' & E & HF'). exists s'. cbn [record w_hist w_rng]. split; [|split; [exact HF'|]].
      * rewrite mrun_app, HS. cbn. rewrite E. reflexivity.
      * destruct s; cbn in E; try discriminate; injection E as <-; try congruence. split; [exact HL|discriminate].
    + destruct HM.
Qed.

(** no [RngLock false] in a history *)
Lemma run_of p w h1 e h2 : reachable U p w -> w_hist w = h1 ++ e :: h2 -> exists s1 s2 s, mrun rnext RQ h1 = Some s1 /\ rnext s1 e = Some s2 /\ mrun rnext s2 h2 = Some s.
Proof. intros HR HH. destruct (reachable_rng p w HR) as (s & HS & _). rewrite HH in HS. destruct (mrun_split _ _ _ _ _ _ HS) as (s1 & s2 & A & B & C). eauto 6. Qed.
Lemma rest_of c p w h1 e h2 : reachable U (Pend c p) w -> w_hist w = h1 ++ e :: h2 -> exists s1 s2, mrun rnext RQ h1 = Some s1 /\ rnext s1 e = Some s2 /\ mrun rnext s2 h2 = Some RQ.
Proof.
  intros HR HH. destruct (reachable_rng _ w HR) as (s & HS & HF & _ & HB). rewrite HH in HS. destruct (mrun_split _ _ _ _ _ _ HS) as (s1 & s2 & A & B & C).
  destruct (Mfine_pend_inv _ _ _ _ _ _ HF) as (s' & E & _). destruct s; try discriminate E; [|congruence]. eauto 6.
Qed.
Lemma never_contended h w p : reachable U p w -> w_hist w = h -> ~ In (RngLock false) h.
Proof.
  intros HR. revert h. unfold reachable in HR. induction HR as [|q v q' v' HR IH HM]; intros h <- HI; [destruct HI as [HI|[]]; discriminate|].
  specialize (IH _ eq_refl). destruct q as [x|q|B o k|c q|]; cbn in HM.
  - destruct HM.
  - destruct HM as [-> ->]. exact (IH HI).
  - destruct HM as (b & HM & ->). unfold sem in HM. rewrite (happens_hist _ _ _ HM) in HI. apply in_app_or in HI. destruct HI as [HI|[HI|[]]]; [exact (IH HI)|].
    destruct (reachable_rng _ _ HR) as (s & HS & HF & HL & HB). destruct (Mfine_vis_inv _ _ _ _ _ _ _ HF b) as (s' & E & _). rewrite HI in E.
    destruct (rng_changes _ _ _ HM) as [_ L2]. specialize (L2 _ HI). rewrite HL in L2. destruct s; cbn in E, L2; discriminate.
  - destruct HM as [-> HB]. unfold between in HB. subst v'. cbn in HI. apply in_app_or in HI. destruct HI as [HI|[HI|[]]]; [exact (IH HI)|discriminate].
  - destruct HM.
Qed.
(** ** C78 *)
Theorem busy_reported c p w h1 h2 : reachable U (Pend c p) w -> w_hist w = h1 ++ Transmit Tx (Some false) :: h2 -> exists e h3, h2 = Release TxGuard :: Report e :: h3.
Proof.
  intros HR HH. destruct (rest_of _ _ _ _ _ _ HR HH) as (s1 & s2 & _ & E & HM). assert (s2 = RF) as -> by (destruct s1; cbn in E; try discriminate; congruence).
  destruct h2 as [|e h2]; [discriminate|]. destruct e as [| | | | | | | | | | |cc| | | | | | | | | | | | | |]; cbn in HM; try discriminate. destruct cc; try discriminate.
  destruct h2 as [|e h2]; [discriminate|]. destruct e; cbn in HM; try discriminate. eauto.
Qed.
Theorem backoff_at_once c p w h1 n h2 : reachable U (Pend c p) w -> w_hist w = h1 ++ Report (CcaBackoff n) :: h2 ->
  exists r us h3, h2 = RngLock true :: Random r :: RngUnlock :: Delay Tx us :: h3.
Proof.
  intros HR HH. assert (NC := never_contended _ _ _ HR HH). destruct (rest_of _ _ _ _ _ _ HR HH) as (s1 & s2 & _ & E & HM).
  assert (s2 = RB) as -> by (destruct s1; cbn in E; try discriminate; congruence).
  destruct h2 as [|e h2]; [discriminate|]. destruct e as [| | | | | | | | | | | | |ok| | | | | | | | | | | |]; cbn in HM; try discriminate.
  destruct ok; [|exfalso; apply NC; apply in_or_app; right; right; left; reflexivity].
  destruct h2 as [|e h2]; [discriminate|]. destruct e as [| | | | | | | | | | | | | |r| | | | | | | | | | |]; cbn in HM; try discriminate.
  destruct h2 as [|e h2]; [discriminate|]. destruct e; cbn in HM; try discriminate.
  destruct h2 as [|e h2]; [discriminate|]. destruct e as [| | | | | | | | | | | | | | | | | | | | | | | |t us|]; cbn in HM; try discriminate. destruct t; [|discriminate]. eauto.
Qed.
(** ** C79 *)
Theorem rng_uncontended p w h1 b h2 : reachable U p w -> w_hist w = h1 ++ RngLock b :: h2 -> b = true /\ exists r, agree h2 [Random r; RngUnlock].
Proof.
  intros HR HH. assert (NC := never_contended _ _ _ HR HH). destruct b; [|exfalso; apply NC; apply in_or_app; right; left; reflexivity]. split; [reflexivity|].
  destruct (run_of _ _ _ _ _ HR HH) as (s1 & s2 & s & _ & E & HM). assert (s2 = RL) as -> by (destruct s1; cbn in E; try discriminate; congruence).
  destruct h2 as [|e h2]; [exists 0%N, [Random 0; RngUnlock]; left; reflexivity|]. destruct e as [| | | | | | | | | | | | | |r| | | | | | | | | | |]; cbn in HM; try discriminate. exists r.
  destruct h2 as [|e h2]; [exists [RngUnlock]; left; reflexivity|]. destruct e; cbn in HM; try discriminate. exists h2. right. reflexivity.
Qed.
Theorem drawn_locked p w h1 r h2 : reachable U p w -> w_hist w = h1 ++ Random r :: h2 -> exists h0, h1 = h0 ++ [RngLock true].
Proof.
  intros HR HH. destruct (run_of _ _ _ _ _ HR HH) as (s1 & s2 & s & HS & E & _). assert (s1 = RL) as -> by (destruct s1; cbn in E; try discriminate; congruence).
  destruct h1 as [|e h1 _] using rev_ind; [discriminate|]. exists h1. f_equal. f_equal. rewrite mrun_app in HS. destruct (mrun rnext RQ h1) as [s0|]; [|discriminate]. cbn in HS.
  destruct (rnext s0 e) as [s3|] eqn:E3; [|discriminate]. injection HS as ->. clear - E3. destruct s0, e; cbn in E3; try discriminate; repeat match type of E3 with match ?x with _ => _ end = _ => destruct x; try discriminate end; reflexivity.
Qed.
Theorem rng_free c p w : reachable U (Pend c p) w -> mx_locked (w_rng w) = false.
Proof.
  intros HR. destruct (reachable_rng _ w HR) as (s & HS & HF & HL & HB). destruct (Mfine_pend_inv _ _ _ _ _ _ HF) as (s' & E & _). rewrite HL. destruct s; try discriminate E; reflexivity.
Qed.
End Tasks.
