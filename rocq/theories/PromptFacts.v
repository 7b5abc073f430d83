(** PromptFacts.v -- acknowledgements are begun at once, and the device listens for them at once (proofs of C78). *)
From Coq Require Import Lia.
From Verif Require Import Base BaseProofs Sync Spec PhyConfig Time Csma CsmaTasks CsmaWorld SpecTasks TaskLogic TxAutomaton TxProofs RxAutomaton RxProofs CsmaGlobal TxLog RxLog TxFacts LockFacts HandOver
  AirFacts TasksLive Monitor AttendTasks RngFacts.
From Verif Require Import Async AsyncProofs RadioFutures.

(** ** Receiving *)
Section Rx.
Variable S : Setup.
Hypothesis OK : setup_ok S.
Ltac rx_split E :=
  repeat match type of E with
    | (if ?x then _ else _) = _ => destruct x eqn:?; try discriminate
    | match ?x with _ => _ end = _ => destruct x eqn:?; try discriminate
    | Some (mkRxState (if ?x then _ else _) _ _) = _ => destruct x eqn:?; try discriminate
    | Some (mkRxState (match ?x with _ => _ end) _ _) = _ => destruct x eqn:?; try discriminate
    end.
(** it owes the delay before the acknowledgement *)
Definition owes_delay (r : rxstate) : Prop := match r_control r with RDeliver _ (true, Some _) | RAck _ => True | _ => False end.
Lemma owes_delay_step r e r' : owes_delay r -> rx_next S r e = Some r' -> e <> Polled /\ (e = Delay Rx (ack_delay_us S) \/ owes_delay r').
Proof.
  intros H E. destruct r as [c held busy]. unfold owes_delay in H. cbn [r_control] in H.
  destruct e; cbn [rx_next] in E; try discriminate; try (match goal with t : task |- _ => destruct t; try discriminate end);
    try (match goal with x : cell |- _ => destruct x; try discriminate end); try (injection E as <-; split; [discriminate|right; exact H]);
    destruct c; try discriminate; try contradiction; rx_split E; try (injection E as <-; split; [discriminate|]); try contradiction; try (right; exact I).
  left. congruence.
Qed.
Lemma owes_accepts h : forall b t r l y, owes_delay r -> accepts S (Active b t r, l) (h ++ [Polled]) = Some y -> (b = true) ->
  exists h3 h4, h = h3 ++ Delay Rx (ack_delay_us S) :: h4 /\ ~ In Polled h3.
Proof.
  induction h as [|e h IH]; intros b t r l y HL HA ->; cbn [app accepts] in HA; (destruct (both_next S _ _) as [z|] eqn:E; [|discriminate]);
    apply both_next_inv in E; destruct E as (g' & l' & -> & EG & EL); apply gnext_active in EG;
    destruct EG as [(EP & t' & r' & ET & ER & ->)|[(NP & EO & X & t' & ET & ->)|(NP & EO & r' & ER & ->)]]; try discriminate; try (destruct (NP eq_refl));
    try (destruct (owes_delay_step _ _ _ HL ER) as [X _]; destruct (X eq_refl)).
  - destruct (owes_delay_step _ _ _ HL ER) as [X [-> |HL']]; [exists [], h; auto|].
    destruct (IH _ _ _ _ _ HL' HA eq_refl) as (h3 & h4 & -> & HN). exists (e :: h3), h4. split; [reflexivity|]. intros [Y|Y]; auto.
Qed.
Theorem delay_at_once c p w h1 buf s h2 : reachable S (Pend c p) w -> w_hist w = h1 ++ Receive Rx (Some (true, buf)) :: h2 -> acked_with S buf s ->
  exists h3 h4, h2 = h3 ++ Delay Rx (ack_delay_us S) :: h4 /\ ~ In Polled h3.
Proof.
  intros HR HH HW. assert (HX := suspended S OK c p w HR). rewrite HH, <- app_assoc in HX. cbn [app] in HX.
  destruct (history_split S _ _ _ HX) as (g & l & g' & l' & HA & HG & EG & EL & y & HY). destruct g as [|sec t r]; [discriminate EG|].
  apply gnext_active in EG. destruct EG as [(X & _)|[(_ & X & _)|(_ & _ & r1 & ER & ->)]]; [discriminate..|].
  apply (owes_accepts _ _ _ _ _ _) with (2 := HY); [|reflexivity].
  destruct l as [lk lh ls]. cbn [law_next] in EL. destruct (buffer_okb buf) eqn:EB; [|discriminate].
  assert (HO : octets buf).
  { unfold buffer_okb in EB. apply andb_prop in EB. destruct EB as [_ EB]. apply Forall_forall. intros x Hx. rewrite forallb_forall in EB. apply N.ltb_lt. exact (EB x Hx). }
  destruct (decide_spec S OK buf HO) as [D1 D2]. destruct r as [c0 held busy]. cbn [rx_next] in ER. destruct c0; try discriminate. destruct (held && busy) eqn:EH; [|discriminate].
  injection ER as <-. unfold owes_delay. cbn [r_control]. destruct (decide S buf) as [[a q]|] eqn:ED.
  - destruct (D2 a q eq_refl) as [_ D3]. apply D3 in HW. destruct HW as [-> ->]. exact I.
  - exfalso. apply (D1 eq_refl). destruct HW as (o & b & r & X1 & X2 & _). exists o, b, r. auto.
Qed.
End Rx.

(** Tactics: [ok_op] shows that an operation is of no interest *)
Lemma o_yield (g : forall B, op B -> Prop) t : g unit (fun _ => Woken t) -> Ops g (yield_now t).
Proof. intros H. unfold yield_now, yield_now_with. intros [|n]; [exact I|]. split; [exact H|]. intros _. destruct n; [exact I|]. split; [constructor|]. apply ops_ret. Qed.
Ltac ostep ok_op :=
  lazymatch goal with
  | |- Ops _ (bind _ _) => apply ops_bind
  | |- Ops _ (Ret _) => apply ops_ret
  | |- Ops _ Fail => apply ops_fail
  | |- Ops _ (call _) => apply (ops_ask _ unit); ok_op; fail
  | |- Ops _ (ask _) => apply ops_ask; ok_op; fail
  | |- Ops _ (awaits _) => apply ops_awaits; ok_op; fail
  | |- Ops _ (awaiting _) => apply ops_awaiting; ok_op; fail
  | |- Ops _ (await_ready _) => apply (ops_awaits _); ok_op; fail
  | |- Ops _ (await _) => apply (ops_awaiting _); ok_op; fail
  | |- Ops _ (iter _ _) => apply ops_iter
  | |- Ops _ (lift ?o) => destruct o; [apply ops_ret|apply ops_fail]
  | |- Ops _ (yield_now _) => apply o_yield; ok_op; fail
  | |- Ops _ (select _ _) => apply ops_select
  | |- Ops _ (join _ _) => apply ops_join
  | |- Ops _ (scoped _ _) => apply ops_scoped; [repeat constructor; ok_op; fail|]
  | |- Ops _ (unwrap_guard _) => unfold unwrap_guard
  | |- Ops _ (transmit _ _ _) => unfold transmit, radio_future
  | |- Ops _ (receive _ _) => unfold receive, radio_future
  | |- Ops _ (acquire_lock _) => unfold acquire_lock
  | |- Ops _ (report _) => unfold report
  | |- Ops _ (delay _ _) => unfold delay
  | |- Ops _ (perform_backoff _ _) => unfold perform_backoff
  | |- Ops _ (transmit_cca _ _) => unfold transmit_cca
  | |- Ops _ (wait_for_valid_ack _ _) => unfold wait_for_valid_ack
  | |- Ops _ (prepare_frame _ _) => unfold prepare_frame
  | |- Ops _ (await_ack _ _) => unfold await_ack
  | |- Ops _ (send_frame _ _ _) => unfold send_frame
  | |- Ops _ (transmit_package_task _) => unfold transmit_package_task
  | |- Ops _ (acknowledge _ _ _ _) => unfold acknowledge
  | |- Ops _ (receive_once _ _) => unfold receive_once
  | |- Ops _ (receive_frame_task _) => unfold receive_frame_task
  | |- Ops _ (if ?x then _ else _) => destruct x
  | |- Ops _ (match ?x with _ => _ end) => destruct x
  | |- forall x, _ => let y := fresh "y" in intros y; try (match type of y with prod _ _ => destruct y as [? ?] end)
  end.

(** ** The acknowledgement after the delay *)
Definition dnext (due : bool) (e : event) : option bool :=
  match e with
  | DelayDone Rx true => if due then None else Some true
  | PrepareTx Rx _ _ _ => Some false
  | Holds RxGuard _ => Some due
  | _ => if due then None else Some false
  end.
Definition drest (s : bool) : Prop := s = false.
Lemma drest_polled s s' : dnext s Polled = Some s' -> drest s.
Proof. destruct s; [discriminate|reflexivity]. Qed.
Lemma drest_after s s' : dnext s Polled = Some s' -> drest s'.
Proof. destruct s; [discriminate|]. intros [= <-]. reflexivity. Qed.
Notation dplain := (aside dnext drest).
Lemma dplain_of B (o : op B) : (forall b, match o b with DelayDone Rx true => False | _ => True end) -> dplain B o.
Proof.
  intros H s b ->. specialize (H b). destruct (o b) as [| | |t0 ? ? ?| | | | | | |c0 ?| | | | | | | | | | | | | | |t0 d0]; cbn in *; try reflexivity;
    [destruct t0; reflexivity|destruct c0; reflexivity|destruct t0; [reflexivity|destruct d0; [contradiction|reflexivity]]].
Qed.
Ltac dplain_op := apply dplain_of; let b := fresh in intros b; cbn; try exact I.
Ltac dplainly := solve [repeat ostep dplain_op].
Section Due.
Variable U : Setup.
Notation DM := (Mfine dnext).
Lemma d_quiet A (p : future A) : Ops dplain p -> DM p false (fun _ s => s = false).
Proof. apply Mfine_aside; reflexivity. Qed.
Lemma d_seq A B (p : future A) (k : A -> future B) (Q : B -> bool -> Prop) : Ops dplain p -> (forall x, DM (k x) false Q) -> DM (bind p k) false Q.
Proof. intros HP HK. apply Mfine_bind. eapply Mfine_mono; [|exact (d_quiet _ _ HP)]. intros x s ->. apply HK. Qed.
Lemma d_acknowledge a q b : DM (acknowledge U a q b) false (home false).
Proof.
  unfold acknowledge. destruct a; [|apply d_quiet; dplainly]. destruct q as [s|]; [|apply d_quiet; dplainly].
  apply d_seq; [dplainly|]. intros t. apply d_seq; [dplainly|]. intros d. apply Mfine_bind. unfold delay. apply d_seq; [dplainly|]. intros _.
  apply Mfine_awaits with (J := fun s => s = false); [reflexivity| |].
  - intros s0 ->. exists false, false. auto.
  - intros s0 ->. exists true. split; [reflexivity|]. apply Mfine_bind. unfold unwrap_guard. apply Mfine_bind. apply Mfine_ask. intros [|]; [|exists true; split; [reflexivity|apply Mfine_fail]].
    exists true. split; [reflexivity|]. apply Mfine_ret. apply Mfine_bind. unfold transmit, radio_future. apply Mfine_scoped.
    apply Mfine_bind. apply (Mfine_awaits _ (fun _ => True)); [exact I| |].
    + intros s1 _. exists false, false. auto.
    + intros s1 _. exists false. split; [reflexivity|]. eapply Mfine_mono; [|apply d_quiet; dplainly]. intros x s2 ->. apply Mfine_ret. reflexivity.
Qed.
Lemma d_rx : DM (receive_frame_task U) false (fun _ _ => True).
Proof.
  unfold receive_frame_task. apply Mfine_scoped. apply (Mfine_iter _ _ _ _ (fun s => s = false)); [|reflexivity]. intros t s ->. unfold receive_once.
  apply d_seq; [dplainly|]. intros _. apply d_seq; [dplainly|]. intros h. apply d_seq; [dplainly|]. intros _. apply d_seq; [dplainly|]. intros _. apply d_seq; [dplainly|].
  assert (HR : DM (bind (call (Release RxGuard)) (fun _ => Ret (inl (B := Empty_set) t))) false (fun r s' => match r with inl _ => s' = false | inr _ => True end))
    by (apply d_seq; [dplainly|]; intros _; apply Mfine_ret; reflexivity).
  intros [[[|] buf]|u]; [|exact HR..]. apply d_seq; [dplainly|]. intros [[a q]|]; [|apply Mfine_ret; reflexivity]. apply d_seq; [dplainly|]. intros _.
  apply Mfine_bind. eapply Mfine_mono; [|apply (Mfine_join_left dnext drest drest_polled false eq_refl); [apply d_acknowledge|dplainly]]. intros [x y] s E. red in E. subst s. apply Mfine_ret. reflexivity.
Qed.
Lemma d_run : DM (run U) false (fun _ _ => True).
Proof.
  unfold run. apply d_seq; [dplainly|]. intros _. apply Mfine_bind. apply (Mfine_select_right dnext drest); [reflexivity|exact drest_after|dplainly|exact d_rx].
Qed.
Lemma reachable_due p w : reachable U p w -> exists s, mrun dnext false (w_hist w) = Some s /\ DM p s (fun _ _ => True).
Proof.
  intros HR. unfold reachable in HR. induction HR as [|q v q' v' HR (s & HS & HF) HM].
  - exists false. split; [reflexivity|]. exact d_run.
  - destruct q as [x|q|B o k|c q|]; cbn in HM.
    + destruct HM.
    + destruct HM as [-> ->]. exists s. split; [exact HS|]. exact (Mfine_tau_inv _ _ _ _ _ HF).
    + destruct HM as (b & HM & ->). unfold sem in HM. destruct (Mfine_vis_inv _ _ _ _ _ _ _ HF b) as (s' & E & HF'). exists s'. split; [|exact HF'].
      rewrite (happens_hist _ _ _ HM), mrun_app, HS. cbn [mrun]. rewrite E. reflexivity.
    + destruct HM as [-> HB']. unfold between in HB'. subst v'. destruct (Mfine_pend_inv _ _ _ _ _ _ HF) as (s' & E & HF'). exists s'. cbn [record w_hist]. split; [|exact HF'].
      rewrite mrun_app, HS. cbn [mrun]. rewrite E. reflexivity.
    + destruct HM.
Qed.
Theorem ack_at_once c p w h1 h2 : reachable U (Pend c p) w -> w_hist w = h1 ++ DelayDone Rx true :: h2 ->
  exists h3 cf b d h4, h2 = h3 ++ PrepareTx Rx cf b d :: h4 /\ ~ In Polled h3.
Proof.
  intros HR HH. destruct (reachable_due _ w HR) as (s & HS & HF). rewrite HH in HS. destruct (mrun_split _ _ _ _ _ _ HS) as (s1 & s2 & _ & E & HM).
  destruct (Mfine_pend_inv _ _ _ _ _ _ HF) as (s' & E' & _). assert (s = false) as -> by (destruct s; [discriminate|reflexivity]).
  assert (s2 = true) as -> by (destruct s1; cbn in E; congruence). clear - HM.
  induction h2 as [|e h2 IH]; [discriminate|]. cbn [mrun] in HM.
  destruct e as [| | |t0 cf bb dd| | | | | | |c0 ?| | | | | | | | | | | | | | |t0 d0]; cbn [dnext] in HM; try discriminate.
  - destruct t0; [discriminate|]. exists [], cf, bb, dd, h2. auto.
  - destruct c0; try discriminate. destruct (IH HM) as (h3 & cf & bb & d & h4 & -> & HN). exists (Holds RxGuard b :: h3), cf, bb, d, h4. split; [reflexivity|]. intros [X|X]; [discriminate|exact (HN X)].
  - destruct t0; [discriminate|]. destruct d0; discriminate.
Qed.
End Due.
