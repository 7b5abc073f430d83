(** TxFacts.v -- consequences of the courses of SpecTasks.v, and single futures of the transmit path in any
    environment. *)
From Coq Require Import Lia.
From Verif Require Import Base BaseProofs Sync Spec SpecFrame SpecFrames PhyConfig Time Csma SpecCsma CsmaProofs CsmaTasks CsmaWorld TaskLogic
  SpecTasks TxAutomaton TxProofs CsmaGlobal TxLog.
From Verif Require Import Async AsyncProofs RadioFutures.

(** ** Summaries *)
Lemma outcomes_app l l' : outcomes (l ++ l') = outcomes l ++ outcomes l'.
Proof. induction l as [|e l IH]; [reflexivity|]. destruct e; cbn; try exact IH. destruct t; [|exact IH]. destruct sent; cbn; rewrite IH; reflexivity. Qed.
Lemma reported_app l l' : reported (l ++ l') = reported l ++ reported l'.
Proof. induction l as [|e l IH]; [reflexivity|]. destruct e; cbn; try exact IH. rewrite IH. reflexivity. Qed.
Lemma verdicts_app l l' : verdicts (l ++ l') = verdicts l ++ verdicts l'.
Proof. unfold verdicts. rewrite reported_app, filter_app. reflexivity. Qed.
Lemma times_sent_app l l' : times_sent (l ++ l') = times_sent l + times_sent l'.
Proof. unfold times_sent. rewrite outcomes_app, filter_app, app_length. reflexivity. Qed.
Lemma taken_app l l' : taken (l ++ l') = taken l + taken l'.
Proof. induction l as [|e l IH]; [reflexivity|]. destruct e; cbn; try exact IH. destruct r; cbn; rewrite IH; reflexivity. Qed.
Lemma verdicts_backoffs k n : filter (fun e => match e with CcaBackoff _ => false | _ => true end) (map CcaBackoff (count_up n k)) = [].
Proof. revert n. induction k as [|k IH]; intros n; cbn; auto. Qed.

Section Facts.
Variable S : Setup.
Notation P := (s_params S).
Notation cfg := (s_config S).
Notation dv := (s_device S).
Notation R := (p_retries P).
Notation B := (p_backoffs P).

Lemma csma_facts b n l ok : csma_log S b n l ok -> (1 <= n <= B)%N ->
  exists k, outcomes l = repeat false k ++ (if ok then [true] else []) /\
    (if ok then (n + N.of_nat k <= B)%N /\ reported l = map CcaBackoff (count_up n k)
     else (n + N.of_nat k = B + 1)%N /\ reported l = map CcaBackoff (count_up n (k - 1))).
Proof.
  induction 1 as [n Hn|_|n r l ok Hn Hr HL IH]; intros HB.
  - exists 0. cbn. split; [reflexivity|]. split; [lia|reflexivity].
  - exists 1. cbn. split; [reflexivity|]. split; [lia|reflexivity].
  - destruct IH as (k & E & HK); [lia|]. exists (Datatypes.S k). cbn [app outcomes reported repeat]. rewrite E. split; [reflexivity|]. destruct ok.
    + destruct HK as [H1 H2]. split; [lia|]. rewrite H2. reflexivity.
    + destruct HK as [H1 H2]. split; [lia|]. rewrite H2. cbn [Nat.sub]. destruct k as [|k]; [cbn in *; lia|].
      replace (Datatypes.S k - 0) with (Datatypes.S k) by lia. cbn [Nat.sub count_up map]. rewrite Nat.sub_0_r. reflexivity.
Qed.
Lemma csma_buffer b n l ok : csma_log S b n l ok -> forall t c b' d, In (PrepareTx t c b' d) l -> c = cca_config S /\ b' = b.
Proof.
  induction 1; intros t c b' d HI; cbn in HI; repeat (destruct HI as [HI|HI]; [try discriminate; injection HI as _ <- <- _; auto|]); try destruct HI.
  eapply IHcsma_log; eassumption.
Qed.
Lemma times_sent_repeat k : length (filter (fun ok : bool => ok) (repeat false k)) = 0.
Proof. induction k; cbn; auto. Qed.
Lemma csma_sends b n l ok : csma_log S b n l ok -> (1 <= n <= B)%N -> times_sent l = (if ok then 1 else 0) /\ verdicts l = [].
Proof.
  intros HC HN. destruct (csma_facts b n l ok HC HN) as (k & E & HK). unfold times_sent, verdicts. rewrite E, filter_app, app_length, times_sent_repeat.
  destruct ok; destruct HK as [_ ->]; rewrite verdicts_backoffs; auto.
Qed.
Lemma listen_facts s l acked : listen_log S s l acked -> outcomes l = [] /\ reported l = [] /\
  (acked = true -> exists l0 buf, l = l0 ++ [Receive Tx (Some (true, buf))] /\ acknowledges S s buf).
Proof.
  induction 1 as [buf HA|ok buf l acked HN HL (E1 & E2 & HK)|].
  - split; [reflexivity|]. split; [reflexivity|]. intros _. exists [], buf. auto.
  - split; [exact E1|]. split; [exact E2|]. intros ->. destruct (HK eq_refl) as (l0 & b0 & -> & HA). exists (Receive Tx (Some (ok, buf)) :: l0), b0. auto.
  - split; [reflexivity|]. split; [reflexivity|]. discriminate.
Qed.
Lemma ack_facts s l acked : ack_log S s l acked -> times_sent l = 0 /\ verdicts l = [] /\
  (acked = true -> exists l0 buf, l = l0 ++ [Receive Tx (Some (true, buf))] /\ acknowledges S s buf).
Proof.
  destruct 1 as [l acked HL]. destruct (listen_facts s l acked HL) as (E1 & E2 & HK). unfold times_sent, verdicts. cbn [outcomes reported]. rewrite E1, E2.
  split; [reflexivity|]. split; [reflexivity|]. intros ->. destruct (HK eq_refl) as (l0 & b0 & -> & HA). exists (Delay Tx (ack_timeout_us S) :: l0), b0. auto.
Qed.

Scheme tries_mut := Induction for tries Sort Prop
  with outcome_mut := Induction for outcome_log Sort Prop.

(** How a frame may end, [i] the first of its transmissions that are looked at. *)
Definition verdict_of (b : list N) (q : option N) (i : N) (l : list event) : Prop := exists k, (i + N.of_nat k <= R)%N /\ (q = None -> k = 0) /\
  ((verdicts l = map AckRetry (count_up i k) /\ times_sent l = k + 1 /\
      forall s, q = Some s -> exists l0 buf, l = l0 ++ [Receive Tx (Some (true, buf))] /\ acknowledges S s buf) \/
   (verdicts l = map AckRetry (count_up i k) ++ [CcaFailed] /\ times_sent l = k) \/
   (verdicts l = map AckRetry (count_up i k) ++ [AckFailed] /\ times_sent l = k + 1 /\ (i + N.of_nat k = R)%N /\ q <> None)).
Lemma tries_facts b q i l : tries S b q i l -> (1 <= B)%N -> (i <= R)%N -> verdict_of b q i l.
Proof.
  intros HT HB. revert i l HT.
  apply (tries_mut S b q (fun i l _ => (i <= R)%N -> verdict_of b q i l)
    (fun i ok l _ => (i <= R)%N -> forall l0, times_sent l0 = (if ok then 1 else 0) -> verdicts l0 = [] -> verdict_of b q i (l0 ++ l))).
  - intros i l1 ok l2 HC HO IH Hi. destruct (csma_sends _ _ _ _ HC) as [E1 E2]; [lia|]. apply IH; assumption.
  - intros i Hi l0 E1 E2. exists 0. split; [lia|]. split; [reflexivity|]. right; left. rewrite verdicts_app, times_sent_app, E1, E2. auto.
  - intros i -> Hi l0 E1 E2. exists 0. split; [lia|]. split; [reflexivity|]. left. rewrite app_nil_r, E1, E2. repeat split. discriminate.
  - intros i s l -> HA Hi l0 E1 E2. destruct (ack_facts _ _ _ HA) as (F1 & F2 & HK). exists 0. split; [lia|]. split; [reflexivity|]. left.
    rewrite verdicts_app, times_sent_app, E1, E2, F1, F2. repeat split. intros s' [= <-]. destruct (HK eq_refl) as (l1 & buf & -> & HX).
    exists (l0 ++ l1), buf. rewrite app_assoc. auto.
  - intros s l -> HA Hi l0 E1 E2. destruct (ack_facts _ _ _ HA) as (F1 & F2 & _). exists 0. split; [lia|]. split; [reflexivity|]. right; right.
    rewrite !verdicts_app, !times_sent_app, E1, E2, F1, F2. repeat split; [lia|discriminate].
  - intros i s l l' Hi -> HA HT IH _ l0 E1 E2. destruct (ack_facts _ _ _ HA) as (F1 & F2 & _). destruct IH as (k & Hk & _ & HK); [lia|].
    exists (Datatypes.S k). split; [lia|]. split; [discriminate|].
    change (Report (AckRetry i) :: l') with ([Report (AckRetry i)] ++ l'). rewrite !verdicts_app, !times_sent_app, E1, E2, F1, F2.
    change (verdicts [Report (AckRetry i)]) with [AckRetry i]. change (times_sent [Report (AckRetry i)]) with 0. cbn [app count_up map].
    destruct HK as [(H1 & H2 & H3)|[(H1 & H2)|(H1 & H2 & H3 & H4)]]; rewrite H1, H2.
    + left. split; [reflexivity|]. split; [lia|]. intros s' E. destruct (H3 s' E) as (l1 & buf & -> & HX). exists (l0 ++ l ++ [Report (AckRetry i)] ++ l1), buf.
      rewrite <- !app_assoc. auto.
    + right; left. split; [reflexivity|lia].
    + right; right. split; [reflexivity|]. split; [lia|]. split; [lia|discriminate].
Qed.
End Facts.

(** ** Single futures *)
Lemma adequate L (possible : L -> event -> Prop) next D (I : world -> L -> Prop) (between : world -> world -> Prop) A (p : future A) s Q w p' w' :
  (forall w s e w', I w s -> happens w e = Some w' -> possible s e /\ forall s', next s e = Some s' -> I w' s') ->
  (forall w s w' s', I w s -> between w w' -> next s Polled = Some s' -> I w' s') ->
  Fine possible next D p s Q -> I w s -> reach sem between p w p' w' -> exists s', I w' s' /\ Fine possible next D p' s' Q.
Proof.
  intros HV HB HF HI HR. induction HR as [|q v q' v' HR (s1 & HI1 & HF1) HS]; [eauto|].
  destruct q as [a|q|X o k|c q|]; cbn in HS.
  - destruct HS.
  - destruct HS as [-> ->]. exists s1. apply Fine_tau_inv in HF1. auto.
  - destruct HS as (b & HS & ->). unfold sem in HS. destruct (HV _ _ _ _ HI1 HS) as [HP HN].
    destruct (Fine_vis_inv _ _ _ _ _ _ _ _ _ HF1 b HP) as (s2 & E & HF2). exists s2. split; [apply HN; exact E|exact HF2].
  - destruct HS as [-> HS]. destruct (Fine_pend_inv _ _ _ _ _ _ _ _ HF1) as (_ & s2 & E & HF2). exists s2. split; [eapply HB; eassumption|exact HF2].
  - destruct HS.
Qed.
Lemma held_step w e w' : happens w e = Some w' -> forall c, w_held w' c = cell_step (w_held w) e c.
Proof.
  unfold happens. destruct (next_state w e) as [v|] eqn:E; [|discriminate]. intros [= <-] c. cbn [record w_held].
  destruct e; cbn [next_state] in E; try discriminate; try (injection E as <-; reflexivity).
  - destruct r as [[a b]|]; [destruct (buffer_okb b); [|discriminate]|]; injection E as <-; reflexivity.
  - destruct (lock_poll waker (w_radio w)) as [[r m] x]. destruct (Bool.eqb ok r) eqn:EK; [|discriminate]. apply Bool.eqb_prop in EK. subst r.
    injection E as <-. destruct ok; reflexivity.
  - destruct (try_lock (w_radio w)) as [r m]. destruct (Bool.eqb ok r) eqn:EK; [|discriminate]. apply Bool.eqb_prop in EK. subst r.
    injection E as <-. destruct ok; reflexivity.
  - destruct (Bool.eqb b (w_held w c0)); [|discriminate]. injection E as <-. reflexivity.
  - destruct (w_held w c0) eqn:EH; injection E as <-; [reflexivity|]. cbn [cell_step]. unfold set_cell. destruct (cell_eqb c0 c) eqn:EC; [|reflexivity].
    destruct c0, c; try discriminate; exact EH.
  - destruct (lock_poll waker (w_rng w)) as [[r m] x]. destruct (Bool.eqb ok r); [|discriminate]. injection E as <-. reflexivity.
  - destruct (n <? _)%N; [|discriminate]. injection E as <-. reflexivity.
  - destruct (send_ready_poll waker (w_chan w)) as [[r m] x]. destruct (Bool.eqb ok r); [|discriminate]. injection E as <-. reflexivity.
  - destruct (send tt (w_chan w)) as [[[[? ?] ?] ?]|]; [|discriminate]. injection E as <-. reflexivity.
  - destruct (receive_poll waker (w_chan w)) as [[[r ?] ?]|]; [|discriminate]. destruct (Bool.eqb ok _); [|discriminate]. injection E as <-. reflexivity.
  - destruct r as [f|]; [destruct (buffer_okb (fb_buffer f)); [|discriminate]|]; injection E as <-; reflexivity.
Qed.
Lemma happens_facts w e w' : happens w e = Some w' ->
  (forall t ok b, e = Receive t (Some (ok, b)) -> buffer_okb b = true) /\ (forall n, e = Random n -> (n < 2 ^ 32)%N) /\
  (forall f, e = NextFrame (Some f) -> buffer_okb (fb_buffer f) = true) /\ (forall c b, e = Holds c b -> b = w_held w c) /\ e <> Polled.
Proof.
  unfold happens. destruct (next_state w e) as [v|] eqn:E; [|discriminate]. intros _. repeat split.
  - intros t ok b ->. cbn [next_state] in E. destruct (buffer_okb b); [reflexivity|discriminate].
  - intros n ->. cbn [next_state] in E. destruct (N.ltb_spec n (2 ^ 32)); [assumption|discriminate].
  - intros f ->. cbn [next_state] in E. destruct (buffer_okb (fb_buffer f)); [reflexivity|discriminate].
  - intros c b ->. cbn [next_state] in E. destruct (Bool.eqb b (w_held w c)) eqn:EB; [|discriminate]. apply Bool.eqb_prop in EB. exact EB.
  - intros ->. discriminate.
Qed.
Lemma tx_possible_happens w e w' m g r : happens w e = Some w' -> w_held w TxGuard = g_tx g -> tx_possible (m, g, r) e.
Proof.
  intros HE HG. destruct (happens_facts _ _ _ HE) as (F1 & F2 & F3 & F4 & F5). destruct e; cbn [tx_possible]; try exact I.
  - congruence.
  - destruct r0 as [[ok b]|]; [|exact I]. eapply F1; reflexivity.
  - destruct c; try exact I. cbn [fst snd]. rewrite <- HG. apply F4. reflexivity.
  - apply F2. reflexivity.
  - destruct r0; [|exact I]. apply F3. reflexivity.
Qed.
Lemma tx_log_elsewhere w w' : elsewhere w w' -> tx_log (w_hist w') = tx_log (w_hist w).
Proof.
  intros ((es & -> & HF) & _). unfold tx_log. rewrite filter_app. assert (X : filter tx_step es = []); [|rewrite X; apply app_nil_r].
  induction HF as [|e es HE HF IH]; [reflexivity|]. cbn. assert (X := logged_other e HE). unfold logged in X. destruct (tx_step e); [discriminate|exact IH].
Qed.
Lemma held_tx w e w' S m g r m' g' r' : happens w e = Some w' -> tx_next S (m, g, r) e = Some (m', g', r') ->
  w_held w TxGuard = g_tx g -> w_held w AckGuard = g_ack g -> w_held w' TxGuard = g_tx g' /\ w_held w' AckGuard = g_ack g'.
Proof.
  intros HE HN H1 H2. assert (HC := tx_cells S _ _ _ _ _ _ _ HN). rewrite !(held_step _ _ _ HE). destruct e; cbn [cell_step];
    try (destruct HC as [-> ->]; auto; fail).
  - destruct HC.
  - destruct HC as (-> & E1 & E2 & E3 & E4). destruct ok; cbn; rewrite ?H1, ?H2, E3, E4; auto.
  - destruct HC as [(-> & E1 & E2)|(-> & E1 & E2)]; cbn; rewrite ?H1, ?H2, E1, E2; auto.
  - destruct HC as (-> & -> & E1 & E2 & E3 & E4). cbn. rewrite H1, E1, E3, E4. auto.
Qed.

Section Single.
Variable S : Setup.
Hypothesis OK : setup_ok S.
Notation P := (s_params S).
Notation dv := (s_device S).
Notation B := (p_backoffs P).

(** transmit_cca; transmission number 0 marks that it is not part of a frame's course *)
Definition so_far (b : list N) (m : course) (l : list event) : Prop :=
  let after n l0 := (n <= B)%N /\ (forall l2 ok, csma_log S b n l2 ok -> csma_log S b 1 (l0 ++ l2) ok) in
  match m with
  | Attempt 0 n b' _ => b' = b /\ after n l
  | OnAir 0 n b' _ => b' = b /\ exists l0, l = l0 ++ [PrepareTx Tx (cca_config S) b true] /\ after n l0
  | Busy 0 n b' _ => b' = b /\ exists l0, l = l0 ++ [PrepareTx Tx (cca_config S) b true; Transmit Tx (Some false)] /\ after n l0
  | Backoff 0 n b' _ => b' = b /\ exists l0, (n < B)%N /\ l = l0 ++ [PrepareTx Tx (cca_config S) b true; Transmit Tx (Some false); Report (CcaBackoff n)] /\ after n l0
  | Drawn 0 n us b' _ => b' = b /\ exists l0 r, (n < B)%N /\ (r < 2 ^ 32)%N /\ us = backoff_us S n r /\
      l = l0 ++ [PrepareTx Tx (cca_config S) b true; Transmit Tx (Some false); Report (CcaBackoff n); Random r] /\ after n l0
  | BackingOff 0 n b' _ => b' = b /\ exists l0 r, (n < B)%N /\ (r < 2 ^ 32)%N /\
      l = l0 ++ [PrepareTx Tx (cca_config S) b true; Transmit Tx (Some false); Report (CcaBackoff n); Random r; Delay Tx (backoff_us S n r)] /\ after n l0
  | SentFrame 0 _ _ => csma_log S b 1 l true
  | _ => True
  end.
Definition q_some (m : course) : Prop := match m with Attempt 0 _ _ q | OnAir 0 _ _ q | Busy 0 _ _ q | Backoff 0 _ _ q | Drawn 0 _ _ _ q | BackingOff 0 _ _ q => q <> None | _ => True end.
Lemma so_far_step b m e m' l : course_next S m e = Some m' -> owner e = Some Tx -> (forall n, e = Random n -> (n < 2 ^ 32)%N) ->
  so_far b m l -> q_some m -> so_far b m' (l ++ logged e) /\ q_some m'.
Proof.
  intros E HO HRnd HJ HQ. destruct e; cbn [course_next] in E; try (injection E as <-; cbn [logged tx_step]; rewrite app_nil_r; auto; fail); cbn [owner] in HO.
  - injection HO as ->. destruct m; try discriminate. destruct (txconfig_dec c (cca_config S)) as [->|]; [|discriminate].
    destruct (octets_dec buf b0) as [->|]; [|discriminate]. injection E as <-. destruct done; [|cbn [logged tx_step]; rewrite app_nil_r; auto].
    destruct i; [|split; exact I]. cbn [so_far q_some logged tx_step] in *. split; [|exact HQ]. destruct HJ as [-> HJ]. split; [reflexivity|]. exists l. auto.
  - injection HO as ->. destruct m; try discriminate. destruct sent as [[|]|]; injection E as <-; [| |cbn [logged tx_step]; rewrite app_nil_r; auto];
      (destruct i; [|destruct q; split; exact I]); cbn [so_far q_some] in *; destruct HJ as [-> (l0 & -> & HN & HA)].
    + destruct q as [s|]; [|congruence]. split; [|exact I]. cbn [logged tx_step]. rewrite <- app_assoc. apply HA. apply csma_sent. exact HN.
    + split; [|exact HQ]. split; [reflexivity|]. cbn [logged tx_step]. exists l0. rewrite <- app_assoc. auto.
  - destruct m; try discriminate. destruct (rxconfig_dec c (listen_config S)); [|discriminate]. injection E as <-. cbn [logged tx_step]. rewrite app_nil_r. auto.
  - destruct m; try discriminate. destruct r as [r|]; injection E as <-; [|split; exact I]. destruct (is_ack S s r); split; exact I.
  - destruct m; try discriminate. injection E as <-. cbn [logged tx_step]. rewrite app_nil_r. auto.
  - destruct m; try discriminate. injection E as <-. destruct i; [|split; exact I]. cbn [so_far q_some logged tx_step] in *. split; [|exact HQ].
    destruct HJ as [-> (l0 & HL & -> & HA)]. split; [reflexivity|]. exists l0, n. rewrite <- app_assoc. split; [exact HL|]. split; [apply HRnd; reflexivity|].
    split; [reflexivity|]. auto.
  - destruct m; try discriminate. destruct r as [f|]; injection E as <-; [|split; exact I]. unfold begin. destruct (plan S (fb_buffer f)) as [[b' q'] [|e1 es]]; split; exact I.
  - destruct m as [|es b' q| | |i n b' q| | | | | | | |i b' s]; try discriminate.
    + destruct es as [|e1 [|e2 es]]; [discriminate| |]; destruct (error_dec e e1); try discriminate; injection E as <-; split; exact I.
    + destruct (N.eqb_spec n B) as [->|NE]; [destruct (error_dec e CcaFailed); [|discriminate]; injection E as <-; split; exact I|].
      destruct (error_dec e (CcaBackoff n)) as [->|]; [|discriminate]. injection E as <-. destruct i; [|split; exact I]. cbn [so_far q_some logged tx_step] in *.
      split; [|exact HQ]. destruct HJ as [-> (l0 & -> & HN & HA)]. split; [reflexivity|]. exists l0. split; [lia|]. rewrite <- app_assoc. auto.
    + destruct (i =? p_retries P)%N; [destruct (error_dec e AckFailed); [|discriminate]; injection E as <-; split; exact I|].
      destruct (error_dec e (AckRetry i)); [|discriminate]. injection E as <-. cbn [so_far q_some]. destruct (i + 1)%N eqn:X; [lia|]. split; exact I.
  - injection HO as ->. destruct m as [| | | | | |i n us' b' q| |i b' s| |i b' s| |]; try discriminate.
    + destruct (Z.eq_dec us us') as [->|]; [|discriminate]. injection E as <-. destruct i; [|split; exact I]. cbn [so_far q_some logged tx_step] in *.
      split; [|exact HQ]. destruct HJ as [-> (l0 & r & H1 & H2 & -> & -> & HA)]. split; [reflexivity|]. exists l0, r. rewrite <- app_assoc. auto.
    + destruct (Z.eq_dec us (ack_timeout_us S)); [|discriminate]. injection E as <-. split; exact I.
    + destruct (Z.eq_dec us (pause_us S)); [|discriminate]. injection E as <-. split; exact I.
  - injection HO as ->. destruct m as [| | | | | | |i n b' q| |i b' s| |i b' s|]; try discriminate; destruct done; injection E as <-; try (split; exact I);
      try (cbn [logged tx_step]; rewrite app_nil_r; auto; fail).
    destruct i; [|split; exact I]. cbn [so_far q_some logged tx_step] in *. split; [|exact HQ]. destruct HJ as [-> (l0 & r & H1 & H2 & -> & HN & HA)].
    split; [reflexivity|]. split; [lia|]. intros l2 ok HC. rewrite <- !app_assoc. apply HA. cbn [app]. apply (csma_again S b n r l2 ok H1 H2 HC).
Qed.

Theorem transmit_cca_log b w ok w' : w_held w AckGuard = false ->
  reach sem elsewhere (transmit_cca S b) w (Ret ok) w' ->
  exists l, tx_log (w_hist w') = tx_log (w_hist w) ++ l /\ csma_log S b 1 l ok /\ (w_held w' TxGuard = ok /\ w_held w' AckGuard = false).
Proof.
  intros HA HR.
  set (I := fun (v : world) (s : txstate) => let '(m, g, r) := s in
    w_held v TxGuard = g_tx g /\ w_held v AckGuard = g_ack g /\ exists l, tx_log (w_hist v) = tx_log (w_hist w) ++ l /\ so_far b m l /\ q_some m).
  assert (HF : Fine tx_possible (tx_next S) in_send (transmit_cca S b) (Attempt 0 1 b (Some 0%N), mkGuards (w_held w TxGuard) false false, NoRequest) (cca_done S 0 b (Some 0%N))).
  { apply Fine_last. apply cca_fine; [exact OK|]. intros r s HD. apply Fine_ret. exact HD. }
  assert (HX : exists s', I w' s' /\ Fine tx_possible (tx_next S) in_send (Ret ok) s' (cca_done S 0 b (Some 0%N))).
  { refine (adequate _ _ _ _ I elsewhere _ _ _ _ w (Ret ok) w' _ _ HF _ HR).
  - intros v [[m g] r] e v' (H1 & H2 & l & HL & HS & HQ) HE. split; [eapply tx_possible_happens; eassumption|]. intros [[m' g'] r'] EN.
    destruct (held_tx _ _ _ _ _ _ _ _ _ _ HE EN H1 H2) as [H1' H2']. split; [exact H1'|]. split; [exact H2'|].
    exists (l ++ logged e). rewrite (happens_hist _ _ _ HE), tx_log_snoc, HL, app_assoc. split; [reflexivity|].
    assert (NP : e <> Polled) by (apply (happens_facts _ _ _ HE)). assert (EO := tx_owner S _ _ _ NP EN).
    unfold tx_next in EN. destruct (course_next S m e) as [m2|] eqn:EC; [|discriminate]. destruct (guards_next g e); [|discriminate]. destruct (request_next r e); [|discriminate].
    injection EN as <- _ _. eapply so_far_step; [exact EC|exact EO|apply (happens_facts _ _ _ HE)|exact HS|exact HQ].
  - intros v [[m g] r] v' [[m' g'] r'] (H1 & H2 & l & HL & HS & HQ) HB EN. assert (HC := tx_cells S _ _ _ _ _ _ _ EN). cbn in HC. destruct HC as [E1 E2].
    assert (HB' := HB). destruct HB' as (_ & X1 & X2). split; [congruence|]. split; [congruence|]. exists l. rewrite (tx_log_elsewhere _ _ HB). split; [exact HL|].
    unfold tx_next in EN. cbn [course_next] in EN. destruct (guards_next g Polled); [|discriminate]. destruct (request_next r Polled); [|discriminate]. injection EN as <- _ _. auto.
  - split; [reflexivity|]. split; [exact HA|]. exists []. rewrite app_nil_r. split; [reflexivity|]. cbn [so_far q_some]. split; [|discriminate].
    split; [reflexivity|]. assert (HB := OK). destruct HB as (_ & _ & _ & _ & HB & _). split; [lia|]. auto. }
  destruct HX as (s' & HI & HF').
  - apply Fine_ret_inv in HF'. unfold cca_done in HF'. subst s'. destruct ok; cbn [I] in HI; destruct HI as (H1 & H2 & l & HL & HS & _); exists l.
    + cbn [so_far g_tx locked g_ack] in *. auto.
    + cbn [so_far] in HS. destruct HS as (_ & l0 & -> & _ & HC). cbn [g_tx free g_ack] in *. split; [exact HL|]. split; [|auto]. apply HC. apply csma_failed.
Qed.

(** wait_for_valid_ack *)
Inductive waiting := Hearing | Heard.
Definition wait_next (s : N) (st : waiting) (e : event) : option waiting :=
  match st, e with
  | Hearing, Receive Tx (Some r) => Some (if is_ack S s r then Heard else Hearing)
  | Hearing, (PrepareRx Tx _ _ | Receive Tx None | Polled) => Some Hearing
  | _, _ => None
  end.
Definition wait_possible (st : waiting) (e : event) : Prop := match e with Receive _ (Some (_, b)) => buffer_okb b = true | _ => True end.
Lemma wait_fine s : Fine wait_possible (wait_next s) (fun _ _ => True) (wait_for_valid_ack S s) Hearing (fun _ st => st = Heard).
Proof.
  assert (HB := OK). destruct HB as (HDV & _). unfold wait_for_valid_ack. apply (Fine_iter _ _ _ _ _ _ (fun _ st => st = Hearing)); [|reflexivity].
  intros [] st ->. apply Fine_bind. unfold receive, radio_future. apply Fine_scoped. eapply Fine_awaits; [reflexivity|exact I|reflexivity|].
  intros _. eexists. split; [reflexivity|]. apply Fine_last. eapply Fine_awaiting; [reflexivity|exact I|reflexivity|].
  intros [ok buf] HP. cbn in HP. destruct (buffer_octets _ HP) as [HO _]. eexists. split; [reflexivity|]. apply Fine_ret.
  unfold is_ack. destruct ok; cbn [negb andb].
  - destruct (is_ack_for_spec dv s buf HDV HO) as (x & E & _). eapply Fine_lift; [exact E|]. rewrite E. apply Fine_ret. destruct x; reflexivity.
  - apply Fine_ret. reflexivity.
Qed.
Theorem wait_log s w p w' : reach sem elsewhere (wait_for_valid_ack S s) w p w' ->
  exists l, tx_log (w_hist w') = tx_log (w_hist w) ++ l /\ p <> Fail /\
    ((unheard S s l /\ (forall x, p <> Ret x)) \/ (heard_in S s l /\ (forall c q, p <> Pend c q))).
Proof.
  intros HR. assert (HB := OK). destruct HB as (HDV & _).
  set (I := fun (v : world) (st : waiting) => exists l, tx_log (w_hist v) = tx_log (w_hist w) ++ l /\ match st with Hearing => unheard S s l | Heard => heard_in S s l end).
  assert (HX : exists s', I w' s' /\ Fine wait_possible (wait_next s) (fun _ _ => True) p s' (fun _ st => st = Heard)).
  { refine (adequate _ _ _ _ I elsewhere _ _ _ _ w p w' _ _ (wait_fine s) _ HR).
  - intros v st e v' (l & HL & HS) HE. destruct (happens_facts _ _ _ HE) as (F1 & _). split.
    { destruct e; try exact Logic.I. destruct r as [[ok b]|]; [|exact Logic.I]. eapply F1. reflexivity. }
    intros st' EN. exists (l ++ logged e). rewrite (happens_hist _ _ _ HE), tx_log_snoc, HL, app_assoc. split; [reflexivity|].
    destruct st; [|discriminate]. destruct e; try discriminate; cbn [wait_next] in EN.
    + destruct t; [|discriminate]. injection EN as <-. cbn [logged tx_step]. rewrite app_nil_r. exact HS.
    + destruct t; [|discriminate]. destruct r as [[ok buf]|]; [|injection EN as <-; cbn [logged tx_step]; rewrite app_nil_r; exact HS].
      cbn [logged tx_step]. assert (HO := proj1 (buffer_octets _ (F1 _ _ _ eq_refl))).
      destruct (is_ack_for_spec dv s buf HDV HO) as (x & EX & HX). unfold is_ack in EN. rewrite EX in EN. injection EN as <-.
      destruct ok, x; cbn [andb].
      * exists l, buf. split; [reflexivity|]. split; [exact HS|]. apply HX. reflexivity.
      * apply Forall_app. split; [exact HS|]. constructor; [|constructor]. exists true, buf. split; [reflexivity|]. intros [_ K]. apply HX in K. discriminate.
      * apply Forall_app. split; [exact HS|]. constructor; [|constructor]. exists false, buf. split; [reflexivity|]. intros [K _]. discriminate.
      * apply Forall_app. split; [exact HS|]. constructor; [|constructor]. exists false, buf. split; [reflexivity|]. intros [K _]. discriminate.
  - intros v st v' st' (l & HL & HS) HB EN. exists l. rewrite (tx_log_elsewhere _ _ HB). split; [exact HL|].
    destruct st; [|discriminate]. cbn in EN. injection EN as <-. exact HS.
  - exists []. rewrite app_nil_r. split; [reflexivity|constructor]. }
  destruct HX as (st & HI & HF').
  - destruct HI as (l & HL & HS). exists l. split; [exact HL|]. split; [intros ->; exact (Fine_fail_inv _ _ _ _ _ _ HF')|]. destruct st.
    + left. split; [exact HS|]. intros x ->. apply Fine_ret_inv in HF'. discriminate.
    + right. split; [exact HS|]. intros c q ->. destruct (Fine_pend_inv _ _ _ _ _ _ _ _ HF') as (_ & st' & EN & _). discriminate.
Qed.
End Single.
