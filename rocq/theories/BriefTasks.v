(** BriefTasks.v -- how many steps the tasks of CsmaTasks.v take at a stretch (Brief.v). *)
From Coq Require Import List Lia.
Import ListNotations.
From Verif Require Import Base PhyConfig Time Csma.
From Verif Require Import Async AsyncProofs RadioFutures CsmaTasks Brief.

Definition yes {A} (a : A) : Prop := True.
Ltac some := intros; exact I.
(** [sub c]: the first part of a sequence takes [c] steps *)
Lemma seq d c c1 c2 A B (p : future A) (k : A -> future B) R R' :
  takes d c1 p R -> c1 + c2 <= c -> (forall a, R a -> takes d c2 (k a) R') -> takes d c (bind p k) R'.
Proof. intros H1 Hc H2. eapply takes_weaken; [apply le_n|exact Hc|intros a HX; exact HX|]. eapply takes_bind; [exact H1|exact H2]. Qed.
Lemma more d d' c c' A (p : future A) R : takes d' c' p R -> d' <= d -> c' <= c -> takes d c p yes.
Proof. intros H Hd Hc. eapply takes_weaken; [exact Hd|exact Hc|some|exact H]. Qed.
Lemma more' d d' c c' A (p : future A) (R : A -> Prop) : takes d' c' p R -> d' <= d -> c' <= c -> takes d c p R.
Proof. intros H Hd Hc. eapply takes_weaken; [exact Hd|exact Hc|intros a HX; exact HX|exact H]. Qed.

Lemma takes_unwrap d c : takes d 1 (unwrap_guard c) yes.
Proof. eapply (seq _ _ 1 0); [apply takes_ask|lia|]. intros [|] _; [apply takes_ret; exact I|apply takes_fail]. Qed.
Lemma takes_report d e : takes d 2 (report e) yes.
Proof. eapply (seq _ _ 1 1); [apply takes_call|lia|]. intros _ _. apply takes_awaits. Qed.
Lemma takes_delay d t z : takes d 2 (delay t z) yes.
Proof. eapply (seq _ _ 1 1); [apply takes_call|lia|]. intros _ _. apply takes_awaits. Qed.
Lemma takes_radio t A (pr : bool -> event) (o : option A -> event) :
  takes 1 2 (radio_future (Op := op) (destructor (Cancel t)) pr o) yes.
Proof.
  unfold radio_future. apply (takes_scoped 0 2 _ [destructor (Cancel t)]).
  eapply (seq _ _ 1 1); [apply (takes_awaits 0 pr)|lia|]. intros _ _. apply (takes_awaiting 0 _ o).
Qed.

(** csma/utils.rs: the lock is tried at most twice in a row, because the second time there is no room for a signal *)
Lemma takes_acquire d c : takes d 7 (acquire_lock c) yes.
Proof.
  unfold acquire_lock. eapply (seq _ _ 1 6); [apply takes_ask|lia|]. intros held _. destruct held; [apply takes_ret; exact I|].
  set (body := fun _ : unit => do ok <- ask (TryLock c); if ok then Ret (inr tt) else awaits SignalReady ;; call SignalSend ;; Ret (inl tt)).
  pose (W := iter_from body (awaits SignalReady ;; call SignalSend ;; Ret (inl tt))).
  enough (H : forall m, (forall n, 2 <= n -> brief d 6 m n true (iter body tt) (fun _ _ _ => True)) /\
                        (forall n, 5 <= n -> brief d 6 m n false W (fun _ _ _ => True)) /\
                        (forall n, 1 <= n -> brief d 6 m n true W (fun _ _ _ => True)) /\
                        (brief d 6 m 6 false (iter body tt) (fun _ _ _ => True))).
  { intros [|] m; [apply H; lia|apply H]. }
  induction m as [m IH] using (well_founded_induction Wf_nat.lt_wf).
  destruct m as [|m]; [repeat split; intros; exact I|].
  assert (HI : forall n f, (f = true -> 2 <= n) -> (f = false -> 6 <= n) -> brief d 6 (S m) n f (iter body tt) (fun _ _ _ => True)).
  { intros n f H1 H2. assert (Hn : 2 <= n) by (destruct f; [auto|specialize (H2 eq_refl); lia]). unfold iter, body at 2. unfold ask at 1, act. rewrite bind_vis, iter_from_vis. destruct n as [|n]; [lia|]. exists n. split; [reflexivity|].
    intros ok HA. rewrite bind_ret. destruct ok; [rewrite iter_from_ret; apply brief_ret; exact I|]. cbn [flag after refills].
    destruct f; [apply (IH m); lia|apply (IH m); [lia|specialize (H2 eq_refl); lia]]. }
  assert (HW : forall n f, (f = true -> 1 <= n) -> (f = false -> 5 <= n) -> brief d 6 (S m) n f W (fun _ _ _ => True)).
  { intros n f H1 H2. assert (Hn : 1 <= n) by (destruct f; [auto|specialize (H2 eq_refl); lia]). unfold W, awaits. rewrite await_ready_eq, bind_vis, iter_from_vis. destruct n as [|n]; [lia|]. exists n. split; [reflexivity|].
    intros ok HA. destruct ok.
    - specialize (HA eq_refl). subst f. specialize (H2 eq_refl). rewrite bind_ret. destruct m as [|m]; [exact I|].
      unfold call, act. rewrite bind_vis, iter_from_vis. cbn [flag after refills]. destruct n as [|n]; [lia|]. exists n. split; [reflexivity|]. intros [] _.
      rewrite bind_ret. destruct m as [|m]; [exact I|]. rewrite iter_from_ret. cbn [flag after refills].
      destruct n as [|n]; [lia|]. exists n. split; [reflexivity|]. apply (IH m); lia.
    - rewrite bind_pend. destruct m as [|m]; [exact I|]. rewrite iter_from_pend. split; [cbn; lia|].
      change (brief d 6 m 6 false W (fun _ _ _ => True)). apply (IH m); lia. }
  split; [intros n Hn; apply HI; [auto|discriminate]|]. split; [intros n Hn; apply HW; [discriminate|auto]|]. split; [intros n Hn; apply HW; [auto|discriminate]|].
  apply HI; [discriminate|auto].
Qed.

Section Tasks.
Variable U : Setup.
Notation P := (s_params U).
Notation backoffs := (N.to_nat (p_backoffs P)).
Notation retries := (N.to_nat (p_retries P)).

Lemma takes_backoff d be : takes d 5 (perform_backoff U be) yes.
Proof.
  unfold perform_backoff. destruct (65536 <=? be + 1)%N; [apply takes_fail|]. cbv zeta. destruct (32 <=? _)%N; [apply takes_fail|].
  eapply (seq _ _ 1 4); [apply takes_awaits|lia|]. intros _ _. eapply (seq _ _ 1 3); [apply takes_ask|lia|]. intros r _.
  eapply (seq _ _ 1 2); [apply takes_call|lia|]. intros _ _. eapply (seq _ _ 0 2); [apply takes_lift|lia|]. intros z _.
  eapply (seq _ _ 2 0); [apply takes_delay|lia|]. intros _ _. apply takes_ret. exact I.
Qed.
Definition cca_steps : nat := 19 + (backoffs - 1) * 20.
Lemma takes_cca buf : takes 1 cca_steps (transmit_cca U buf) yes.
Proof.
  unfold transmit_cca. destruct (65536 <=? p_backoffs P + 1)%N; [apply takes_fail|].
  pose (mu := fun s : N * N => (backoffs - N.to_nat (fst s))%nat).
  change cca_steps with (19 + mu (1%N, p_min_be P) * 20). apply (takes_iter 1 19 _ _ _ mu). intros [n be].
  destruct (n <=? p_backoffs P)%N eqn:En; [|apply takes_ret; exact I]. apply N.leb_le in En.
  eapply (seq _ _ 7 12); [apply takes_acquire|lia|]. intros _ _. eapply (seq _ _ 1 11); [apply takes_unwrap|lia|]. intros _ _.
  eapply (seq _ _ 2 9); [apply takes_radio|lia|]. intros sent _. destruct sent; [apply takes_ret; exact I|].
  eapply (seq _ _ 1 8); [apply takes_call|lia|]. intros _ _. destruct (n =? p_backoffs P)%N eqn:Ee; [apply takes_ret; exact I|]. apply N.eqb_neq in Ee.
  eapply (seq _ _ 1 7); [apply takes_call|lia|]. intros _ _.
  eapply (seq _ _ 7 0); [apply (takes_join 1 5); apply takes_backoff|lia|]. intros [be' x] _. apply takes_ret. unfold mu. cbn [fst]. lia.
Qed.
Lemma takes_wait seq : takes 1 3 (wait_for_valid_ack U seq) yes.
Proof.
  intros f. unfold wait_for_valid_ack. apply (Brief_iter 1 3 2); [|lia]. clear f. intros _ n f Hn.
  apply Brief_bind. unfold receive, radio_future. intros m. apply (brief_scoped m 0 3 n f _ [destructor (Cancel Tx)]). revert m.
  match goal with |- forall m, brief 0 3 m n f ?p ?Q => change (Brief 0 3 n f p Q) end. apply Brief_bind.
  match goal with |- Brief _ _ _ _ _ ?Q => assert (HQ : forall n' f', 1 <= n' -> Q tt n' f') end.
  2: { intros m. eapply brief_weaken; [apply le_n|apply le_n|apply le_n| |apply (takes_frame 0 0 3 1 1 f _ _ yes (takes_awaits 0 _)); [lia|lia|exact Hn]]. intros [] n' f' [H _]. apply HQ. exact H. }
  intros n' f' Hn'.
  enough (G : forall m n f, 1 <= n -> brief 0 3 m n f (awaiting (Receive Tx)) (fun r n' f' => n' = 3)).
  { intros m. eapply brief_weaken; [| | | |apply (G m); exact Hn']; auto. clear. intros [ok buf] n f -> . 
    destruct ok; cbn [negb]; [|intros [|m]; [exact I|exists 3; split; [lia|lia]]].
    apply Brief_bind. destruct (is_ack_for (s_device U) seq buf) as [ack|]; [|intros [|m]; exact I].
    intros [|m]; [exact I|]. exists 3. split; [lia|]. intros [|m']; [exact I|]. exists 3. split; [lia|]. destruct ack; [exact I|lia]. }
  clear. induction m as [m IH] using (well_founded_induction Wf_nat.lt_wf). intros n f Hn. destruct m as [|m]; [exact I|].
  unfold awaiting. rewrite await_eq. destruct n as [|n]; [lia|]. exists n. split; [reflexivity|]. intros [r|] HA.
  - apply brief_ret. reflexivity.
  - destruct m as [|m]; [exact I|]. split; [cbn; lia|]. apply (IH m); lia.
Qed.
Lemma takes_prepare d buf : takes d 4 (prepare_frame U buf) yes.
Proof.
  unfold prepare_frame. eapply (seq _ _ 0 4); [apply takes_lift|lia|]. intros [r b] _.
  eapply (seq _ _ 2 2 _ _ _ _ yes); [|lia|].
  { destruct r as [[[s x]|]|[|]]; try (apply takes_ret; exact I);
      (eapply (seq _ _ 2 0); [apply takes_report|lia|]; intros _ _; apply takes_ret; exact I). }
  intros s _. eapply (seq _ _ 0 2); [apply takes_lift|lia|]. intros [r' b'] _.
  eapply (seq _ _ 2 0 _ _ _ _ yes); [|lia|intros _ _; apply takes_ret; exact I].
  destruct r' as [[]|[|]]; [apply takes_ret; exact I|apply takes_report|apply takes_report].
Qed.
Lemma takes_await_ack s : takes 2 17 (await_ack U s) yes.
Proof.
  unfold await_ack. eapply (seq _ _ 7 10); [apply takes_acquire|lia|]. intros _ _.
  eapply (seq _ _ 0 10); [apply takes_lift|lia|]. intros z1 _. eapply (seq _ _ 0 10); [apply takes_lift|lia|]. intros z2 _.
  eapply (seq _ _ 1 9); [apply takes_unwrap|lia|]. intros _ _. eapply (seq _ _ 1 8); [apply takes_call|lia|]. intros _ _.
  eapply (seq _ _ 7 1 _ _ _ _ yes); [|lia|].
  { apply (takes_scoped 1 7 _ [destructor (Release AckGuard)]). eapply (seq _ _ 1 6); [apply takes_call|lia|]. intros _ _.
    eapply more; [apply (takes_select 1 3); apply takes_wait|lia|lia]. }
  intros r _. eapply (seq _ _ 1 0); [apply takes_call|lia|]. intros _ _. apply takes_ret. exact I.
Qed.
Definition try_steps : nat := cca_steps + 22.
Definition frame_steps : nat := try_steps + (retries - 1) * S try_steps + 1.
Lemma takes_send buf s : takes 3 frame_steps (send_frame U buf s) yes.
Proof.
  unfold send_frame, frame_steps. eapply (seq _ _ (try_steps + (retries - 1) * S try_steps) 1 _ _ _ _ yes); [|lia|intros _ _; apply takes_call].
  apply (takes_scoped 2 _ _ [destructor (Release TxGuard)]).
  destruct (65536 <=? p_retries P + 1)%N; [apply takes_fail|].
  pose (mu := fun i : N => (retries - N.to_nat i)%nat).
  change (retries - 1) with (mu 1%N). apply (takes_iter 2 try_steps _ _ _ mu). intros i.
  destruct (i <=? p_retries P)%N eqn:Ei; [|apply takes_ret; exact I]. apply N.leb_le in Ei.
  eapply (seq _ _ cca_steps 22 _ _ _ _ yes); [eapply more'; [apply takes_cca|lia|lia]|unfold try_steps; lia|]. intros ok _.
  destruct ok; cbn [negb].
  - destruct s as [s|]; [|apply takes_ret; exact I]. eapply (seq _ _ 17 5); [apply takes_await_ack|lia|]. intros acked _.
    destruct acked; [apply takes_ret; exact I|]. eapply (seq _ _ 1 4); [apply takes_call|lia|]. intros _ _.
    eapply (seq _ _ 2 2); [apply takes_delay|lia|]. intros _ _. destruct (i =? p_retries P)%N eqn:Ee.
    + eapply (seq _ _ 2 0); [apply takes_report|lia|]. intros _ _. apply takes_ret. exact I.
    + apply N.eqb_neq in Ee. eapply (seq _ _ 2 0); [apply takes_report|lia|]. intros _ _. apply takes_ret. unfold mu. lia.
  - eapply (seq _ _ 2 20); [apply takes_report|lia|]. intros _ _. apply takes_ret. exact I.
Qed.

(** after a yield the next poll has begun *)
Lemma Brief_yield d K n f t A (k : unit -> future A) (Q : A -> nat -> bool -> Prop) : 1 <= n -> Brief d K K false (k tt) Q -> Brief d K n f (bind (yield_now t) k) Q.
Proof.
  intros Hn H. apply Brief_bind. unfold yield_now, yield_now_with. intros [|m]; [exact I|]. destruct n as [|n]; [lia|]. exists n. split; [reflexivity|].
  intros [] _. destruct m as [|m]; [exact I|]. split; [cbn; lia|]. apply brief_ret. exact H.
Qed.
Definition tx_steps : nat := frame_steps + 7.
Lemma brief_tx f : Brief 3 tx_steps tx_steps f (transmit_package_task U) (fun _ _ _ => True).
Proof.
  unfold transmit_package_task. apply (Brief_iter 3 tx_steps 2); [|unfold tx_steps; lia]. clear f. intros _ n f Hn.
  apply Brief_bind. intros m. eapply brief_weaken; [apply le_n|apply le_n|apply le_n| |apply (takes_frame 3 3 tx_steps 1 1 f _ _ yes (takes_awaiting 3 _ NextFrame)); [lia|unfold tx_steps; lia|exact Hn]].
  clear. intros fb n f [Hn _]. apply Brief_yield; [exact Hn|]. apply Brief_bind. intros m.
  eapply brief_weaken; [apply le_n|apply le_n|apply le_n| |apply (takes_frame 3 3 tx_steps 4 (frame_steps + 3) false _ _ yes (takes_prepare 3 _)); unfold tx_steps; lia].
  clear. intros [buf seq] n f [Hn _]. apply Brief_bind. intros m.
  eapply brief_weaken; [apply le_n|apply le_n|apply le_n| |apply (takes_frame 3 3 tx_steps frame_steps 3 f _ _ yes (takes_send _ _)); unfold tx_steps; lia].
  clear. intros _ n f [Hn _] [|m]; [exact I|]. exists n. split; [lia|lia].
Qed.
Lemma takes_acknowledge b s a : takes 1 5 (acknowledge U b s a) yes.
Proof.
  unfold acknowledge. destruct b; [destruct s as [s|]|].
  - eapply (seq _ _ 0 5); [apply takes_lift|lia|]. intros a' _. eapply (seq _ _ 0 5); [apply takes_lift|lia|]. intros z _.
    eapply (seq _ _ 2 3); [apply takes_delay|lia|]. intros _ _. eapply (seq _ _ 1 2); [apply takes_unwrap|lia|]. intros _ _.
    eapply (seq _ _ 2 0); [apply takes_radio|lia|]. intros _ _. apply takes_ret. exact I.
  - apply takes_ret. exact I.
  - eapply (seq _ _ 1 0 _ _ _ _ yes); [apply takes_call|lia|]. intros _ _. apply takes_ret. exact I.
Qed.
Definition rx_steps : nat := 18.
Lemma brief_rx f : Brief 2 rx_steps rx_steps f (receive_frame_task U) (fun _ _ _ => True).
Proof.
  intros m. unfold receive_frame_task. apply (brief_scoped m 1 rx_steps rx_steps f _ [destructor (Release RxGuard)]). revert m.
  match goal with |- forall m, brief 1 ?K m ?n f ?p ?Q => change (Brief 1 K n f p Q) end.
  apply (Brief_iter 1 rx_steps 1); [|unfold rx_steps; lia]. clear f. intros a n f Hn. unfold receive_once.
  apply Brief_yield; [exact Hn|]. intros m.
  assert (T : takes 1 16 (do held <- ask (Holds RxGuard);
    (if held then Ret tt else awaits (Lock RxGuard)) ;;
    unwrap_guard RxGuard ;;
    do r <- select (receive Rx (mkRx (c_channel (s_config U)))) (awaits SignalReceived);
    match r with
    | inl (true, buf) =>
        do d <- lift (rx_decide P (s_config U) (s_device U) (s_hw U) buf);
        match d with
        | None => Ret (inl a)
        | Some (should_ack, seq) =>
            call (Received (mkFb buf true)) ;;
            do (tx_ack, _) <- join (acknowledge U should_ack seq a) (awaits ReceivedDone);
            Ret (inl tx_ack)
        end
    | _ => call (Release RxGuard) ;; Ret (inl a)
    end) (yes (A := list N + Empty_set))).
  { eapply (seq _ _ 1 15); [apply takes_ask|lia|]. intros held _.
    eapply (seq _ _ 1 14 _ _ _ _ yes); [destruct held; [apply takes_ret; exact I|apply takes_awaits]|lia|]. intros _ _.
    eapply (seq _ _ 1 13); [apply takes_unwrap|lia|]. intros _ _.
    eapply (seq _ _ 5 8); [apply (takes_select 1 2 _ _ _ yes); apply takes_radio|lia|].
    assert (TR : takes 1 8 (call (Release RxGuard) ;; Ret (inl a)) (yes (A := list N + Empty_set))).
    { eapply (seq _ _ 1 7); [apply takes_call|lia|]. intros _ _. apply takes_ret. exact I. }
    intros [[[|] buf]|[]] _; [|exact TR|exact TR].
    eapply (seq _ _ 0 8); [apply takes_lift|lia|]. intros [[sa sq]|] _; [|apply takes_ret; exact I].
    eapply (seq _ _ 1 7); [apply takes_call|lia|]. intros _ _.
    eapply (seq _ _ 7 0); [apply (takes_join 1 5 _ _ _ yes); apply takes_acknowledge|lia|]. intros [ta x] _. apply takes_ret. exact I. }
  eapply brief_weaken; [apply le_n|apply le_n|apply le_n| |apply (takes_frame 1 1 rx_steps 16 2 false _ _ _ T); unfold rx_steps; lia].
  intros [r|[]] n' f' [H _]. lia.
Qed.

(** the whole device *)
Definition poll_steps : nat := 1 + (tx_steps + (1 + rx_steps)).
Theorem brief_run f : Brief 5 poll_steps poll_steps f (run U) (fun _ _ _ => True).
Proof.
  unfold run. apply Brief_bind. intros m.
  eapply brief_weaken; [apply le_n|apply le_n|apply le_n| |apply (takes_frame 5 5 poll_steps 1 (tx_steps + (1 + rx_steps)) f _ _ yes (takes_awaits 5 Enable)); unfold poll_steps; lia].
  clear. intros _ n f [Hn _]. apply Brief_bind. intros m.
  eapply brief_weaken; [| | | |apply (Brief_select 3 2 tx_steps rx_steps tx_steps f _ _ _ _ (fun _ _ _ => True) (brief_tx f) (brief_rx false))]; auto.
  - unfold poll_steps. lia.
  - intros _ n' f' _ [|m']; exact I.
Qed.
End Tasks.
