(** TxLog.v -- histories accepted by the transmit task's automaton have the form SpecTasks.v demands. *)
From Coq Require Import Lia.
From Verif Require Import Base BaseProofs Spec SpecFrame SpecAddressing FrameControl SpecFrames PhyConfig Csma SpecCsma CsmaProofs CsmaTasks CsmaWorld TaskLogic
  SpecTasks TxAutomaton TxProofs RxAutomaton RxProofs CsmaGlobal.

Section Log.
Variable S : Setup.
Notation P := (s_params S).
Notation cfg := (s_config S).
Notation dv := (s_device S).
Hypothesis OK : setup_ok S.
Notation R := (p_retries P).
Notation B := (p_backoffs P).

Lemma ack_requested_of buf r buf' : octets buf -> set_ack_request_if_possible cfg dv buf = Done (r, buf') ->
  ack_requested S buf buf' (match r with TxOk (Some (s, _)) => Some s | _ => None end) (errors_of r).
Proof.
  intros HO E. destruct OK as (HDV & _). destruct (holds_cases dv buf HO) as [(o & b & f & HH & HA)|HN].
  - destruct (set_ack_accepts cfg dv buf o b f HDV HO HH HA) as [H1 H2].
    destruct (ack_requestable_dec cfg b f HA) as [HR|HR].
    + destruct (H1 HR) as (buf2 & E2 & HC). rewrite E in E2. injection E2 as -> ->.
      assert (X : match match sequence_number f b with Some s => Some (s, N.of_nat (length b)) | None => None end with Some (s, _) => Some s | None => None end = sequence_number f b)
        by (destruct (sequence_number f b); reflexivity).
      rewrite X. eapply ar_yes; eassumption.
    + rewrite (H2 HR) in E. injection E as <- <-. eapply ar_no; eassumption.
  - destruct (set_ack_rejects cfg dv buf HDV HO) as [H1 H2]. destruct (dev_data dv buf) as [[o n]|] eqn:ED.
    + assert (HH : holds dv buf o (window buf o n)) by (exists n; auto).
      assert (HX : ~ exists r, acceptable (window buf o n) r) by (intros (f & HA); apply HN; eauto).
      rewrite (H2 _ _ HH HX) in E. injection E as <- <-. eapply ar_no_frame; eassumption.
    + rewrite (H1 eq_refl) in E. injection E as <- <-. apply ar_no_device_frame. intros (o & b & n & X & _). congruence.
Qed.
Lemma pan_overwritten_of buf r buf' : octets buf -> overwrite_pan_id P cfg dv buf = Done (r, buf') ->
  pan_overwritten S buf buf' (errors_of r).
Proof.
  intros HO E. destruct OK as (HDV & _ & _ & HPAN & _). destruct (holds_cases dv buf HO) as [(o & b & f & HH & HA)|HN].
  - destruct (overwrite_accepts P cfg dv buf o b f HPAN HDV HO HH HA) as [H1 H2].
    destruct (dst_view b f HA) as (d & HD & _). inversion HD as [dp sp L HL|HNA]; subst.
    + rewrite (H1 dp sp L HL) in E. injection E as <- <-. eapply po_fields; eassumption.
    + rewrite (H2 HNA) in E. injection E as <- <-. eapply po_no_fields; eassumption.
  - destruct (overwrite_rejects P cfg dv buf HDV HO) as [H1 H2]. destruct (dev_data dv buf) as [[o n]|] eqn:ED.
    + assert (HH : holds dv buf o (window buf o n)) by (exists n; auto).
      assert (HX : ~ exists r, acceptable (window buf o n) r) by (intros (f & HA); apply HN; eauto).
      rewrite (H2 _ _ HH HX) in E. injection E as <- <-. eapply po_no_frame; eassumption.
    + rewrite (H1 eq_refl) in E. injection E as <- <-. apply po_no_device_frame. intros (o & b & n & X & _). congruence.
Qed.
Lemma plan_prepared buf b q es : octets buf -> plan S buf = (b, q, es) -> prepared S buf b q es.
Proof.
  intros HO. destruct OK as (HDV & _ & _ & HPAN & _). unfold plan.
  destruct (set_ack_total cfg dv buf HDV HO) as (r1 & buf1 & E1 & HO1 & _).
  destruct (overwrite_total P cfg dv buf1 HPAN HDV HO1) as (r2 & buf2 & E2 & _). rewrite E1, E2. intros [= <- <- <-].
  exists buf1, (errors_of r1), (errors_of r2). split; [apply ack_requested_of; assumption|]. split; [apply pan_overwritten_of; assumption|reflexivity].
Qed.

(** what may still come *)
Definition rest_ack (i : N) (b : list N) (s : N) (acked : bool) (l : list event) : Prop :=
  if acked then l = []
  else (i = R /\ l = [Report AckFailed]) \/ ((i < R)%N /\ exists l', l = Report (AckRetry i) :: l' /\ tries S b (Some s) (i + 1) l').
Definition rest_attempt (i n : N) (b : list N) (q : option N) (l : list event) : Prop :=
  exists l1 ok l2, l = l1 ++ l2 /\ csma_log S b n l1 ok /\ outcome_log S b q i ok l2.
Definition rest_busy (i n : N) (b : list N) (q : option N) (l : list event) : Prop :=
  (n = B /\ l = [Report CcaFailed]) \/
  ((n < B)%N /\ exists r l', (r < 2 ^ 32)%N /\ l = Report (CcaBackoff n) :: Random r :: Delay Tx (backoff_us S n r) :: DelayDone Tx true :: l' /\
     rest_attempt i (n + 1) b q l').
Definition rest (m : course) (l : list event) : Prop :=
  match m with
  | Idle => l = []
  | Reports es b q => exists l', l = map Report es ++ l' /\ tries S b q 1 l'
  | Attempt i n b q => rest_attempt i n b q l
  | OnAir i n b q => (exists l', l = Transmit Tx (Some true) :: l' /\ outcome_log S b q i true l') \/
                     (exists l', l = Transmit Tx (Some false) :: l' /\ rest_busy i n b q l')
  | Busy i n b q => rest_busy i n b q l
  | Backoff i n b q => exists r l', (r < 2 ^ 32)%N /\ l = Random r :: Delay Tx (backoff_us S n r) :: DelayDone Tx true :: l' /\ rest_attempt i (n + 1) b q l'
  | Drawn i n us b q => exists l', l = Delay Tx us :: DelayDone Tx true :: l' /\ rest_attempt i (n + 1) b q l'
  | BackingOff i n b q => exists l', l = DelayDone Tx true :: l' /\ rest_attempt i (n + 1) b q l'
  | SentFrame i b s => exists l1 acked l2, l = l1 ++ l2 /\ ack_log S s l1 acked /\ rest_ack i b s acked l2
  | Listening i b s => exists l1 acked l2, l = l1 ++ l2 /\ listen_log S s l1 acked /\ rest_ack i b s acked l2
  | Expired i b s => exists l2, l = Delay Tx (pause_us S) :: DelayDone Tx true :: l2 /\ rest_ack i b s false l2
  | Pausing i b s => exists l2, l = DelayDone Tx true :: l2 /\ rest_ack i b s false l2
  | Judged i b s => rest_ack i b s false l
  end.
Definition in_limits (m : course) : Prop :=
  match m with
  | Idle | Reports _ _ _ => True
  | Attempt i n _ _ | OnAir i n _ _ | Busy i n _ _ => (1 <= i <= R)%N /\ (1 <= n <= B)%N
  | Backoff i n _ _ | Drawn i n _ _ _ | BackingOff i n _ _ => (1 <= i <= R)%N /\ (1 <= n < B)%N
  | SentFrame i _ _ | Listening i _ _ | Expired i _ _ | Pausing i _ _ | Judged i _ _ => (1 <= i <= R)%N
  end.

Lemma rest_ack_outcome i b s l1 acked l2 : ack_log S s l1 acked -> rest_ack i b s acked l2 -> outcome_log S b (Some s) i true (l1 ++ l2).
Proof.
  intros HA HR. destruct acked; cbn in HR.
  - subst l2. rewrite app_nil_r. eapply out_acked; eauto.
  - destruct HR as [[-> ->]|(HI & l' & -> & HT)]; [eapply out_failed; eauto|eapply out_retry; eauto].
Qed.
Lemma outcome_exists b q i : (1 <= i <= R)%N -> exists l, outcome_log S b q i true l.
Proof.
  intros HI. destruct q as [s|]; [|exists []; apply out_sent; reflexivity].
  assert (HA : ack_log S s [Delay Tx (ack_timeout_us S); DelayDone Tx true; Delay Tx (pause_us S); DelayDone Tx true] false)
    by (constructor; apply listen_timeout).
  remember (N.to_nat (R - i)) as k eqn:EK. revert i HI EK. induction k as [|k IH]; intros i HI EK.
  - assert (i = R) by lia. subst i. eexists. eapply out_failed; eauto.
  - destruct (IH (i + 1)%N) as (l & HL); [lia|lia|]. eexists. eapply out_retry; [lia|reflexivity|exact HA|].
    eapply tries_one; [|exact HL]. apply csma_sent. destruct OK as (_ & _ & _ & _ & HB & _). lia.
Qed.
Lemma rest_attempt_exists i n b q : (1 <= i <= R)%N -> (1 <= n <= B)%N -> exists l, rest_attempt i n b q l.
Proof.
  intros HI HN. destruct (outcome_exists b q i HI) as (l & HL). do 4 eexists. split; [reflexivity|]. split; [apply csma_sent; lia|exact HL].
Qed.
Lemma rest_ack_exists i b s : (1 <= i <= R)%N -> exists l, rest_ack i b s false l.
Proof.
  intros HI. destruct (N.eq_dec i R) as [->|N]; [eexists; left; split; reflexivity|].
  destruct (rest_attempt_exists (i + 1) 1 b (Some s)) as (l & l1 & ok & l2 & -> & HC & HO); [lia|destruct OK as (_ & _ & _ & _ & HB & _); lia|].
  eexists. right. split; [lia|]. eexists. split; [reflexivity|]. eapply tries_one; eassumption.
Qed.
Lemma rest_exists m : in_limits m -> exists l, rest m l.
Proof.
  assert (HB := OK). assert (HR := OK). destruct HB as (_ & _ & _ & _ & HB & _). destruct HR as (_ & _ & _ & _ & _ & HR & _).
  destruct m; cbn [in_limits rest].
  - eauto.
  - intros _. destruct (rest_attempt_exists 1 1 b q) as (l & l1 & ok & l2 & -> & HC & HO); [lia|lia|]. eexists. eexists. split; [reflexivity|]. eapply tries_one; eassumption.
  - intros [H1 H2]. apply rest_attempt_exists; assumption.
  - intros [H1 H2]. destruct (outcome_exists b q i H1) as (l & HL). eexists. left. eauto.
  - intros [H1 H2]. destruct (N.eq_dec n B) as [->|NE]; [eexists; left; eauto|].
    destruct (rest_attempt_exists i (n + 1) b q) as (l & HL); [lia|lia|]. eexists. right. split; [lia|]. exists 0%N, l. split; [reflexivity|]. split; [reflexivity|exact HL].
  - intros [H1 H2]. destruct (rest_attempt_exists i (n + 1) b q) as (l & HL); [lia|lia|]. eexists. exists 0%N, l. split; [reflexivity|]. split; [reflexivity|exact HL].
  - intros [H1 H2]. destruct (rest_attempt_exists i (n + 1) b q) as (l & HL); [lia|lia|]. eauto.
  - intros [H1 H2]. destruct (rest_attempt_exists i (n + 1) b q) as (l & HL); [lia|lia|]. eauto.
  - intros H. destruct (rest_ack_exists i b s H) as (l & HL). do 4 eexists. split; [reflexivity|]. split; [constructor; apply listen_timeout|exact HL].
  - intros H. destruct (rest_ack_exists i b s H) as (l & HL). do 4 eexists. split; [reflexivity|]. split; [apply listen_timeout|exact HL].
  - intros H. destruct (rest_ack_exists i b s H) as (l & HL). eauto.
  - intros H. destruct (rest_ack_exists i b s H) as (l & HL). eauto.
  - intros H. apply rest_ack_exists; assumption.
Qed.

Definition logged (e : event) : list event := if tx_step e then [e] else [].
(** one step inside a frame *)
Ltac step_done := cbn [logged tx_step app]; split; [assumption|auto].
Lemma rest_step m e m' : m <> Idle -> in_limits m -> course_next S m e = Some m' -> owner e = Some Tx ->
  (forall t b, e = Receive t (Some b) -> octets (snd b)) -> (forall n, e = Random n -> (n < 2 ^ 32)%N) ->
  in_limits m' /\ forall l, rest m' l -> rest m (logged e ++ l).
Proof.
  intros NI HL E HO HRcv HRnd. assert (HRe := OK). destruct HRe as (HDV & _ & _ & _ & HB & HRe & _).
  destruct e; cbn [course_next] in E; try (injection E as <-; split; [exact HL|intros l HR; exact HR]; fail); cbn [owner] in HO.
  - (* PrepareTx *) injection HO as ->. destruct m; try discriminate. destruct (txconfig_dec c (cca_config S)) as [->|]; [|discriminate].
    destruct (octets_dec buf b) as [->|]; [|discriminate]. injection E as <-. destruct done; [|split; [exact HL|intros l HR; exact HR]]. cbn [in_limits rest] in HL |- *. split; [exact HL|].
    intros l HR. destruct HR as [(l' & -> & HX)|(l' & -> & HX)].
    + exists [PrepareTx Tx (cca_config S) b true; Transmit Tx (Some true)], true, l'. split; [reflexivity|]. split; [apply csma_sent; lia|exact HX].
    + destruct HX as [[-> ->]|(Hn & r & l2 & Hr & -> & l1 & ok & l3 & -> & HC & HX)].
      * exists [PrepareTx Tx (cca_config S) b true; Transmit Tx (Some false)], false, [Report CcaFailed]. split; [reflexivity|]. split; [apply csma_failed|apply out_busy].
      * eexists. exists ok, l3. split; [|split; [apply (csma_again S b n r l1 ok Hn Hr HC)|exact HX]]. reflexivity.
  - (* Transmit *) injection HO as ->. destruct m; try discriminate. destruct sent as [[|]|]; injection E as <-; cbn [in_limits] in HL |- *.
    + destruct q as [s|]; cbn [in_limits rest] in *.
      * split; [lia|]. intros l HR. left. destruct HR as (l1 & acked & l2 & -> & HA & HX). eexists. split; [reflexivity|]. eapply rest_ack_outcome; eassumption.
      * split; [trivial|]. intros l ->. left. eexists. split; [reflexivity|]. apply out_sent. reflexivity.
    + split; [exact HL|]. intros l HR. right. exists l. split; [reflexivity|exact HR].
    + split; [exact HL|intros l HR; exact HR].
  - (* PrepareRx *) destruct m; try discriminate. destruct (rxconfig_dec c (listen_config S)); [|discriminate]. injection E as <-.
    split; [exact HL|intros l HR; exact HR].
  - (* Receive *) injection HO as ->. destruct m; try discriminate. destruct r as [r|]; injection E as <-; [|split; [exact HL|intros l HR; exact HR]]. cbn [in_limits] in HL.
    destruct r as [ok buf]. assert (HOb := HRcv Tx (ok, buf) eq_refl). cbn [snd] in HOb.
    destruct (is_ack_for_spec dv s buf HDV HOb) as (x & EX & HX). unfold is_ack. rewrite EX.
    destruct (ok && x) eqn:EO.
    + assert (Y : ok && match x with true => true | false => false end = true) by (destruct x; exact EO). rewrite Y.
      split; [exact I|]. cbn [rest]. intros l ->. exists [Receive Tx (Some (ok, buf))], true, []. split; [reflexivity|]. apply andb_true_iff in EO. destruct EO as [-> ->].
      split; [apply listen_heard; apply HX; reflexivity|reflexivity].
    + assert (Y : ok && match x with true => true | false => false end = false) by (destruct x; exact EO). rewrite Y. cbn [rest].
      split; [exact HL|]. intros l (l1 & acked & l2 & -> & HA & HR). exists (Receive Tx (Some (ok, buf)) :: l1), acked, l2. split; [reflexivity|].
      split; [|exact HR]. apply listen_other; [|exact HA]. intros [-> HK]. apply HX in HK. subst x. discriminate.
  - (* TryLock *) destruct m; try discriminate. injection E as <-. split; [exact HL|intros l HR; exact HR].
  - (* Random *) destruct m; try discriminate. injection E as <-. cbn [in_limits rest] in HL |- *. split; [exact HL|].
    intros l (l' & -> & HX). exists n, l'. split; [apply HRnd; reflexivity|]. split; [reflexivity|exact HX].
  - (* NextFrame *) destruct m; try discriminate. destruct (NI eq_refl).
  - (* Report *) destruct m as [|es b q| | |i n b q| | | | | | | |i b s]; try discriminate.
    + destruct es as [|e1 es]; [discriminate|]. destruct es as [|e2 es].
      * destruct (error_dec e e1) as [->|]; [|discriminate]. injection E as <-. cbn [in_limits rest]. split; [lia|].
        intros l (l1 & ok & l2 & -> & HC & HX). eexists. split; [reflexivity|]. eapply tries_one; eassumption.
      * destruct (error_dec e e1) as [->|]; [|discriminate]. injection E as <-. cbn [in_limits rest]. split; [trivial|]. intros l (l' & -> & HT).
        exists l'. split; [reflexivity|exact HT].
    + cbn [in_limits] in HL. destruct (N.eqb_spec n B) as [->|NE].
      * destruct (error_dec e CcaFailed) as [->|]; [|discriminate]. injection E as <-. cbn [in_limits rest]. split; [trivial|]. intros l ->. left. auto.
      * destruct (error_dec e (CcaBackoff n)) as [->|]; [|discriminate]. injection E as <-. cbn [in_limits rest]. split; [lia|]. intros l HR. right.
        split; [lia|]. destruct HR as (r & l' & Hr & -> & HX). exists r, l'. auto.
    + cbn [in_limits] in HL. destruct (N.eqb_spec i R) as [->|NE].
      * destruct (error_dec e AckFailed) as [->|]; [|discriminate]. injection E as <-. cbn [in_limits rest]. split; [trivial|]. intros l ->. left. auto.
      * destruct (error_dec e (AckRetry i)) as [->|]; [|discriminate]. injection E as <-. cbn [in_limits rest].
        split; [lia|]. intros l HR. right. split; [lia|].
        destruct HR as (l1 & ok & l2 & -> & HC & HX). eexists. split; [reflexivity|]. eapply tries_one; eassumption.
  - (* Delay *) injection HO as ->. destruct m as [| | | | | |i n us' b q| |i b s| |i b s| |]; try discriminate.
    + destruct (Z.eq_dec us us') as [->|]; [|discriminate]. injection E as <-. cbn [in_limits rest] in HL |- *. split; [exact HL|]. intros l (l' & -> & HX). exists l'. auto.
    + destruct (Z.eq_dec us (ack_timeout_us S)) as [->|]; [|discriminate]. injection E as <-. cbn [in_limits rest] in HL |- *. split; [exact HL|].
      intros l (l1 & acked & l2 & -> & HA & HX). exists (Delay Tx (ack_timeout_us S) :: l1), acked, l2. split; [reflexivity|]. split; [constructor; exact HA|exact HX].
    + destruct (Z.eq_dec us (pause_us S)) as [->|]; [|discriminate]. injection E as <-. cbn [in_limits rest] in HL |- *. split; [exact HL|]. intros l (l' & -> & HX). exists l'. auto.
  - (* DelayDone *) injection HO as ->. destruct m as [| | | | | | |i n b q| |i b s| |i b s|]; try discriminate; destruct done; injection E as <-; try (split; [exact HL|intros l HR; exact HR]; fail).
    + cbn [in_limits rest] in HL |- *. split; [lia|]. intros l HR. exists l. auto.
    + cbn [in_limits rest] in HL |- *. split; [exact HL|]. intros l (l2 & -> & HX).
      exists [DelayDone Tx true; Delay Tx (pause_us S); DelayDone Tx true], false, l2. split; [reflexivity|]. split; [apply listen_timeout|exact HX].
    + cbn [in_limits rest] in HL |- *. split; [exact HL|]. intros l HR. exists l. auto.
Qed.

Definition course_inv (m : course) (l : list event) : Prop :=
  exists ls l', l = concat ls ++ l' /\ Forall (frame_log S) ls /\
    match m with Idle => l' = [] | _ => in_limits m /\ forall l'', rest m l'' -> frame_log S (l' ++ l'') end.
Lemma course_inv_log m l : course_inv m l -> frames_log S l.
Proof.
  intros (ls & l' & -> & HF & HM). exists ls, l'. split; [reflexivity|]. split; [exact HF|].
  destruct m; try (destruct HM as [HL HM]; right; destruct (rest_exists _ HL) as (l2 & HR); eauto; fail). left. exact HM.
Qed.
Lemma course_step m e m' l : course_next S m e = Some m' -> owner e = Some Tx ->
  (forall t b, e = Receive t (Some b) -> octets (snd b)) -> (forall n, e = Random n -> (n < 2 ^ 32)%N) ->
  (forall f, e = NextFrame (Some f) -> octets (fb_buffer f)) ->
  course_inv m l -> course_inv m' (l ++ logged e).
Proof.
  intros E HO HRcv HRnd HNext (ls & l' & -> & HF & HM).
  assert (DI : m = Idle \/ m <> Idle) by (destruct m; auto; right; discriminate). destruct DI as [->|NI].
  - subst l'. rewrite app_nil_r. destruct e; cbn [course_next] in E; try discriminate;
      try (injection E as <-; exists ls, []; rewrite !app_nil_r; auto; fail).
    destruct r as [fb|]; injection E as <-; [|exists ls, []; rewrite !app_nil_r; auto].
    unfold begin. destruct (plan S (fb_buffer fb)) as [[b q] es] eqn:EP. assert (HP := plan_prepared _ _ _ _ (HNext fb eq_refl) EP).
    cbn [logged tx_step]. destruct es as [|e1 es].
    + exists ls, [NextFrame (Some fb)]. split; [reflexivity|]. split; [exact HF|]. split.
      * cbn [in_limits]. assert (HB := OK). destruct HB as (_ & _ & _ & _ & HB & HR & _). lia.
      * intros l2 (l3 & ok & l4 & -> & HC & HX). cbn [app]. apply (frame_taken S fb b q [] _ HP). eapply tries_one; eassumption.
    + exists ls, [NextFrame (Some fb)]. split; [reflexivity|]. split; [exact HF|]. split; [exact I|].
      intros l2 (l3 & -> & HT). apply (frame_taken S fb b q (e1 :: es) _ HP HT).
  - assert (HM' : in_limits m /\ forall l'', rest m l'' -> frame_log S (l' ++ l'')) by (destruct m; try exact HM; contradiction).
    clear HM. destruct HM' as [HL HM].
    destruct (rest_step _ _ _ NI HL E HO HRcv HRnd) as [HL' STEP].
    assert (DI : m' = Idle \/ m' <> Idle) by (destruct m'; auto; right; discriminate). destruct DI as [->|NI'].
    + exists (ls ++ [l' ++ logged e]), [].
      rewrite concat_app. cbn [concat]. rewrite !app_nil_r, app_assoc. split; [reflexivity|]. split; [|reflexivity]. apply Forall_app. split; [exact HF|].
      constructor; [apply HM; rewrite <- (app_nil_r (logged e)); apply STEP; reflexivity|constructor].
    + exists ls, (l' ++ logged e). rewrite app_assoc. split; [reflexivity|]. split; [exact HF|].
      assert (X : in_limits m' /\ forall l'', rest m' l'' -> frame_log S ((l' ++ logged e) ++ l'')).
      { split; [exact HL'|]. intros l2 HR. rewrite <- app_assoc. apply HM, STEP, HR. }
      destruct m'; try exact X. contradiction.
Qed.

Lemma logged_other e : owner e <> Some Tx -> logged e = [].
Proof. unfold logged. destruct e; cbn; try reflexivity; try (destruct t; congruence); congruence. Qed.
Lemma tx_log_snoc h e : tx_log (h ++ [e]) = tx_log h ++ logged e.
Proof. unfold tx_log, logged. rewrite filter_app. cbn. destruct (tx_step e); reflexivity. Qed.

Definition state_inv (h : list event) (x : both) : Prop :=
  match fst x with Enabling => tx_log h = [] | Active _ (m, _, _) _ => course_inv m (tx_log h) end.
Lemma law_facts l e l' : law_next l e = Some l' ->
  (forall t b, e = Receive t (Some b) -> octets (snd b)) /\ (forall n, e = Random n -> (n < 2 ^ 32)%N) /\
  (forall f, e = NextFrame (Some f) -> octets (fb_buffer f)).
Proof.
  destruct l as [k h s]. intros E. split; [|split].
  - intros t [ok b] ->. cbn [law_next] in E. destruct (buffer_okb b) eqn:EB; [|discriminate]. apply buffer_octets. exact EB.
  - intros n ->. cbn [law_next] in E. destruct (N.ltb_spec n (2 ^ 32)); [assumption|discriminate].
  - intros f ->. cbn [law_next] in E. destruct (buffer_okb (fb_buffer f)) eqn:EB; [|discriminate]. apply buffer_octets. exact EB.
Qed.
Lemma state_inv_accepts h x : accepts S both_start h = Some x -> state_inv h x.
Proof.
  apply accepts_ind; [reflexivity|]. clear h x. intros h [g l] e y _ HI HN. apply both_next_inv in HN. destruct HN as (g' & l' & -> & EG & EL).
  unfold state_inv in *. cbn [fst] in *. rewrite tx_log_snoc. destruct g as [|sec [[m gd] rq] r].
  - apply gnext_enabling in EG. destruct EG as [EO EG]. rewrite HI, logged_other by congruence. destruct EG as [->| ->]; [reflexivity|].
    exists [], []. auto.
  - apply gnext_active in EG. destruct EG as [(-> & [[m' gd'] rq'] & r' & ET & _ & ->)|[(NP & EO & -> & [[m' gd'] rq'] & ET & ->)|(NP & EO & r' & _ & ->)]].
    + unfold tx_next in ET. destruct (course_next S m Polled) as [m2|] eqn:EC; [|discriminate]. destruct (guards_next gd Polled); [|discriminate].
      destruct (request_next rq Polled); [|discriminate]. injection ET as <- _ _. cbn [course_next] in EC. injection EC as <-.
      rewrite logged_other, app_nil_r by discriminate. exact HI.
    + unfold tx_next in ET. destruct (course_next S m e) as [m2|] eqn:EC; [|discriminate]. destruct (guards_next gd e); [|discriminate].
      destruct (request_next rq e); [|discriminate]. injection ET as <- _ _. destruct (law_facts _ _ _ EL) as (F1 & F2 & F3).
      eapply course_step; eassumption.
    + rewrite logged_other, app_nil_r by congruence. exact HI.
Qed.

(** The transmit task takes one frame after the other, each with the course of SpecTasks.v. *)
Theorem transmissions p w : reachable S p w -> frames_log S (tx_log (w_hist w)).
Proof.
  intros HR. destruct (reachable_known S OK p w HR) as (g & l & HA & _). assert (HI := state_inv_accepts _ _ HA). unfold state_inv in HI. cbn [fst] in HI.
  destruct g as [|sec [[m gd] rq] r]; [|exact (course_inv_log _ _ HI)]. rewrite HI. exists [], []. auto.
Qed.
End Log.
