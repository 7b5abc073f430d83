(** TxProofs.v -- the transmit task follows TxAutomaton.v. *)
From Coq Require Import ZArith NArith Lia.
From Verif Require Import Base BaseProofs Spec SpecFrame SpecFrames PhyConfig Time Csma SpecCsma CsmaProofs CsmaTasks CsmaWorld TaskLogic SpecTasks TxAutomaton.
From Verif Require Import Async AsyncProofs RadioFutures.

Lemma if_same {A B} (d : forall a b : A, {a = b} + {a <> b}) a (x y : B) : (if d a a then x else y) = x.
Proof. destruct (d a a); [reflexivity|congruence]. Qed.

Section Tx.
Variable S : Setup.
Notation P := (s_params S).
Notation cfg := (s_config S).
Notation dv := (s_device S).
Notation next := (tx_next S).
Notation drop := tx_drop.
Notation FineT := (Fine tx_possible next).
Hypothesis OK : setup_ok S.

Definition free : guards := mkGuards false false false.
Definition locked : guards := mkGuards true false false.
Definition acking : guards := mkGuards false true false.

(** suspended inside send_frame: radio_guard is in scope *)
Definition in_send (c : list (op unit)) (s : txstate) : Prop := drop (c ++ [destructor (Release TxGuard)]) s.

Lemma in_send_free m r : in_send [] (m, free, r).
Proof.
  reflexivity.
Qed.
Lemma course_ignores m e : match e with Holds _ _ | SignalReady _ | SignalSend | Release _ | Move _ _ | ReportDone _ | Polled | Woken _ | RngLock _ | RngUnlock | Cancel _ => True | _ => False end ->
  course_next S m e = Some m.
Proof. destruct e; intros H; try destruct H; reflexivity. Qed.

Lemma acquire_fine A m t (k : unit -> future A) Q : t = true \/ (exists i n b q, m = Attempt i n b q) ->
  FineT in_send (k tt) (m, locked, NoRequest) Q -> FineT in_send (bind (acquire_lock TxGuard) k) (m, mkGuards t false false, NoRequest) Q.
Proof.
  intros HM HK. apply Fine_bind. unfold acquire_lock. apply Fine_ask. intros b HP. cbn in HP. subst b.
  eexists. split; [reflexivity|]. destruct t; [apply Fine_ret; exact HK|]. destruct HM as [HM|(i & n & b & q & ->)]; [discriminate|].
  apply (Fine_iter _ _ _ _ _ _ (fun _ s => s = (Attempt i n b q, free, NoRequest) \/ s = (Attempt i n b q, free, Signalled))); [|left; reflexivity].
  intros [] s Hs. apply Fine_ask. intros ok _.
  exists (Attempt i n b q, mkGuards ok false false, if ok then NoRequest else Wanting). split; [destruct Hs as [->| ->]; reflexivity|].
  destruct ok; [apply Fine_ret|].
  - exact HK.
  - eapply Fine_awaits; [reflexivity|apply in_send_free|reflexivity|]. intros _. eexists. split; [reflexivity|].
    eapply Fine_call; [reflexivity|]. apply Fine_ret. right. reflexivity.
Qed.

Lemma transmit_fine A i n b q (k : bool -> future A) Q :
  (forall r, FineT in_send (k r) ((if r then match q with None => Idle | Some s => SentFrame i b s end else Busy i n b q), locked, NoRequest) Q) ->
  FineT in_send (bind (transmit Tx (cca_config S) b) k) (Attempt i n b q, locked, NoRequest) Q.
Proof.
  intros HK. apply Fine_bind. unfold transmit, radio_future. apply Fine_scoped.
  apply (Fine_awaits_inv _ _ _ _ _ _ (fun s => exists busy, s = (Attempt i n b q, mkGuards true false busy, NoRequest))); [exists false; reflexivity| |].
  - intros s (busy & ->). eexists. eexists. split; [|split; [|split]].
    + cbn. rewrite !if_same. reflexivity.
    + reflexivity.
    + reflexivity.
    + exists true. reflexivity.
  - intros s (busy & ->) _. eexists. split; [cbn; rewrite !if_same; reflexivity|]. apply Fine_last.
    eapply Fine_awaiting; [reflexivity|reflexivity|reflexivity|].
    intros r _. exists ((if r then match q with None => Idle | Some s => SentFrame i b s end else Busy i n b q), locked, NoRequest).
    split; [destruct r; reflexivity|]. apply Fine_ret. apply HK.
Qed.
Lemma report_fine A (D : list (op unit) -> txstate -> Prop) m m' e (k : unit -> future A) Q :
  course_next S m (Report e) = Some m' -> D [] (m', free, NoRequest) ->
  FineT D (k tt) (m', free, NoRequest) Q -> FineT D (bind (report e) k) (m, free, NoRequest) Q.
Proof.
  intros E HD HK. apply Fine_bind. unfold report. eapply Fine_call; [unfold tx_next; rewrite E; reflexivity|].
  apply Fine_last. eapply Fine_awaits; [reflexivity|exact HD|reflexivity|]. intros _. eexists. split; [reflexivity|].
  apply Fine_ret. exact HK.
Qed.
Lemma delay_fine A (D : list (op unit) -> txstate -> Prop) m m1 m2 us (k : unit -> future A) Q :
  course_next S m (Delay Tx (as_u32 us)) = Some m1 -> course_next S m1 (DelayDone Tx false) = Some m1 -> D [] (m1, free, NoRequest) ->
  course_next S m1 (DelayDone Tx true) = Some m2 ->
  FineT D (k tt) (m2, free, NoRequest) Q -> FineT D (bind (delay Tx us) k) (m, free, NoRequest) Q.
Proof.
  intros E E1 HD E2 HK. apply Fine_bind. unfold delay. eapply Fine_call; [unfold tx_next; rewrite E; reflexivity|].
  apply Fine_last. eapply Fine_awaits; [unfold tx_next; rewrite E1; reflexivity|exact HD|reflexivity|]. intros _. eexists.
  split; [unfold tx_next; rewrite E2; reflexivity|]. apply Fine_ret. exact HK.
Qed.

Lemma wrap64_small z : (- 2 ^ 63 <= z < 2 ^ 63)%Z -> wrap64 z = z.
Proof. intros H. unfold wrap64. rewrite Z.mod_small; lia. Qed.
Lemma arith_small p z : (- 2 ^ 63 <= z < 2 ^ 63)%Z -> arith p z = Done z.
Proof.
  intros H. unfold arith, i64_ok. destruct (Z.leb_spec (- 2 ^ 63) z); [|lia]. destruct (Z.ltb_spec z (2 ^ 63)); [|lia]. reflexivity.
Qed.

Lemma backoff_fine A i n be b q (k : N -> future A) Q : (1 <= n)%N -> (be < 65535)%N -> N.min (be + 1) (p_max_be P) = exponent S n ->
  FineT in_send (k (exponent S n)) (Attempt i (n + 1) b q, free, NoRequest) Q ->
  FineT in_send (bind (perform_backoff S be) k) (Backoff i n b q, free, NoRequest) Q.
Proof.
  intros Hn Hbe Ebe HK. destruct OK as (_ & _ & _ & _ & _ & _ & _ & HM & HU & _). apply Fine_bind. unfold perform_backoff.
  destruct (N.leb_spec 65536 (be + 1)); [lia|]. rewrite Ebe.
  assert (HE : (exponent S n < 32)%N) by (unfold exponent; lia).
  destruct (N.leb_spec 32 (exponent S n)); [lia|].
  eapply Fine_awaits; [reflexivity|apply in_send_free|reflexivity|]. intros _. eexists. split; [reflexivity|].
  apply Fine_ask. intros r HR. cbn in HR. eexists. split; [reflexivity|].
  eapply Fine_call; [reflexivity|].
  assert (HR2 : (0 <= Z.of_N (r mod 2 ^ exponent S n) < 2 ^ 32)%Z).
  { split; [lia|]. assert (r mod 2 ^ exponent S n <= r)%N by (apply N.mod_le; apply N.pow_nonzero; lia).
    assert (Hr : (r < 4294967296)%N) by exact HR. lia. }
  eapply Fine_lift.
  { unfold duration_mul. rewrite wrap64_small by lia. apply arith_small. nia. }
  eapply delay_fine.
  - cbn [course_next]. unfold backoff_us. rewrite if_same. reflexivity.
  - reflexivity.
  - apply in_send_free.
  - reflexivity.
  - apply Fine_ret. exact HK.
Qed.

(** transmit_cca *)
Definition cca_done (i : N) (b : list N) (q : option N) (ok : bool) (s : txstate) : Prop :=
  s = if ok then (match q with None => Idle | Some sq => SentFrame i b sq end, locked, NoRequest)
      else (Busy i (p_backoffs P) b q, free, NoRequest).
Lemma cca_fine A i b q t (k : bool -> future A) Q :
  (forall ok s, cca_done i b q ok s -> FineT in_send (k ok) s Q) ->
  FineT in_send (bind (transmit_cca S b) k) (Attempt i 1 b q, mkGuards t false false, NoRequest) Q.
Proof.
  intros HK. apply Fine_bind. unfold transmit_cca.
  destruct OK as (_ & _ & _ & _ & HB & _ & HMin & HM & _).
  destruct (N.leb_spec 65536 (p_backoffs P + 1)); [lia|].
  apply (Fine_iter _ _ _ _ _ _ (fun x s => exists t, s = (Attempt i (fst x) b q, mkGuards t false false, NoRequest) /\
      (1 <= fst x <= p_backoffs P)%N /\ (snd x < 65535)%N /\ N.min (snd x + 1) (p_max_be P) = exponent S (fst x))).
  2:{ exists t. cbn [fst snd]. split; [reflexivity|]. split; [lia|]. split; [exact HMin|reflexivity]. }
  intros [n be] s (t' & -> & Hn & Hbe & Ebe). cbn [fst snd] in *.
  destruct (N.leb_spec n (p_backoffs P)); [|lia].
  apply acquire_fine; [right; eauto|]. unfold unwrap_guard. apply Fine_bind. apply Fine_ask. intros h Hh. cbn in Hh. subst h. eexists. split; [reflexivity|].
  apply Fine_ret. apply transmit_fine. intros [|].
  - apply Fine_ret. apply HK. reflexivity.
  - eapply Fine_call; [reflexivity|]. destruct (N.eqb_spec n (p_backoffs P)) as [->|NE].
    + apply Fine_ret. apply HK. reflexivity.
    + eapply Fine_call.
      { cbn -[N.eqb]. destruct (N.eqb_spec n (p_backoffs P)); [contradiction|]. rewrite if_same. reflexivity. }
      apply Fine_bind. apply Fine_join_awaits.
      { intros [[m g] r] x. cbn. destruct r; reflexivity. }
      apply Fine_last. eapply backoff_fine; [apply Hn|exact Hbe|exact Ebe|]. apply Fine_ret.
      split; [apply in_send_free|]. split; [reflexivity|].
      apply Fine_ret. exists false. cbn [fst snd]. split; [reflexivity|]. split; [lia|].
      unfold exponent. split; lia.
Qed.

(** waiting for an acknowledgement *)
Definition listening (busy : bool) : guards := mkGuards false true busy.
Definition heard (i : N) (b : list N) (s : N) (r : unit + unit) (st : txstate) : Prop :=
  st = (match r with inl _ => Idle | inr _ => Expired i b s end, acking, NoRequest).
Lemma buffer_octets b : buffer_okb b = true -> octets b /\ length b = 128.
Proof.
  unfold buffer_okb. intros H. apply andb_true_iff in H. destruct H as [HL HF]. apply Nat.eqb_eq in HL. split; [|exact HL].
  apply Forall_forall. intros x Hx. rewrite forallb_forall in HF. apply N.ltb_lt. exact (HF x Hx).
Qed.
Lemma ack_fine A i b s (k : bool -> future A) Q :
  (forall acked : bool, FineT in_send (k acked) (if acked then Idle else Expired i b s, free, NoRequest) Q) ->
  FineT in_send (bind (await_ack S s) k) (SentFrame i b s, locked, NoRequest) Q.
Proof.
  intros HK. destruct OK as (HDV & _ & _ & _ & _ & _ & _ & _ & _ & HA & HSI). apply Fine_bind. unfold await_ack. apply acquire_fine; [left; reflexivity|].
  eapply Fine_lift; [unfold duration_add; apply arith_small; lia|].
  eapply Fine_lift; [unfold duration_add; apply arith_small; lia|].
  unfold unwrap_guard. apply Fine_bind. apply Fine_ask. intros h Hh. cbn in Hh. subst h. eexists. split; [reflexivity|].
  apply Fine_ret. eapply Fine_call; [reflexivity|]. apply Fine_bind. apply Fine_scoped.
  eapply Fine_call; [cbn -[as_u32]; unfold ack_timeout_us; rewrite if_same; reflexivity|].
  eapply Fine_mono; [|apply (Fine_select_awaits _ (fun st H => H) next _ _ _ _ _ (heard i b s))].
  - intros [[]|[]] st ->.
    + eapply Fine_call; [reflexivity|]. apply Fine_ret. exact (HK true).
    + eapply Fine_call; [reflexivity|]. apply Fine_ret. exact (HK false).
  - unfold wait_for_valid_ack.
    apply (Fine_iter _ _ _ _ _ _ (fun _ st => exists busy, st = (Listening i b s, listening busy, NoRequest))); [|exists false; reflexivity].
    intros [] st (busy0 & ->). apply Fine_bind. unfold receive, radio_future. apply Fine_scoped.
    assert (HD : forall c st1, st1 = (Listening i b s, listening true, NoRequest) -> c = [destructor (Cancel Tx)] ->
      (forall s1, next st1 (DelayDone Tx false) = Some s1 -> in_send (c ++ [destructor (Release AckGuard)]) s1) /\
      (tx_possible st1 (DelayDone Tx true) -> exists s1 s2, next st1 (DelayDone Tx true) = Some s1 /\ lrun next c s1 = Some s2 /\ heard i b s (inr tt) s2)).
    { intros c st1 -> ->. split.
      - intros s1 E. cbn in E. injection E as <-. reflexivity.
      - intros _. do 2 eexists. split; [reflexivity|]. split; reflexivity. }
    apply (Fine_awaits_inv _ _ _ _ _ _ (fun st => exists busy, st = (Listening i b s, listening busy, NoRequest))); [exists busy0; reflexivity| |].
    + intros st (busy & ->). eexists. eexists. split; [|split; [|split]].
      * cbn. rewrite if_same. reflexivity.
      * apply HD; reflexivity.
      * reflexivity.
      * exists true. reflexivity.
    + intros st (busy & ->) _. eexists. split; [cbn; rewrite if_same; reflexivity|]. apply Fine_last.
      eapply Fine_awaiting; [reflexivity|apply HD; reflexivity|reflexivity|].
      intros [ok buf] HP. cbn in HP. destruct (buffer_octets _ HP) as [HO _].
      exists (if is_ack S s (ok, buf) then Idle else Listening i b s, acking, NoRequest). split; [reflexivity|].
      apply Fine_ret. unfold is_ack. destruct ok; cbn [negb andb].
      * destruct (is_ack_for_spec dv s buf HDV HO) as (x & E & _). eapply Fine_lift; [exact E|]. rewrite E. apply Fine_ret.
        destruct x; [reflexivity|]. exists false. reflexivity.
      * apply Fine_ret. exists false. reflexivity.
Qed.

Lemma prepare_fine A buf (k : list N * option N -> future A) Q : octets buf -> length buf = 128 ->
  (forall b q, fst (plan S buf) = (b, q) -> FineT drop (k (b, q)) (Attempt 1 1 b q, free, NoRequest) Q) ->
  FineT drop (bind (prepare_frame S buf) k) (begin S buf, free, NoRequest) Q.
Proof.
  intros HO HL HK. destruct OK as (HDV & _ & _ & HPAN & _).
  destruct (set_ack_total cfg dv buf HDV HO) as (r1 & buf1 & E1 & HO1 & HL1).
  destruct (overwrite_total P cfg dv buf1 HPAN HDV HO1) as (r2 & buf2 & E2 & HO2 & HL2).
  unfold begin, plan in *. rewrite E1, E2 in *. cbn [fst] in HK. apply Fine_bind. unfold prepare_frame.
  eapply Fine_lift; [exact E1|].
  set (q := match r1 with TxOk (Some (s, _)) => Some s | _ => None end) in *.
  specialize (HK _ _ eq_refl).
  assert (HX : forall m, drop [] (m, free, NoRequest)) by (intros m; reflexivity).
  assert (G : FineT drop (do (r, buf0) <- lift (overwrite_pan_id P cfg dv buf1) ;
      (match r with TxOk tt => Ret tt | TxErr InvalidIEEEFrame => report InvalidIEEEStructure | TxErr InvalidDeviceFrame => report InvalidDeviceStructure end ;;
       Ret (buf0, q))) (match errors_of r2 with [] => Attempt 1 1 buf2 q | es => Reports es buf2 q end, free, NoRequest)
       (fun a st => FineT drop (k a) st Q)).
  { eapply Fine_lift; [exact E2|]. destruct r2 as [[]|[|]]; cbn [errors_of].
    - apply Fine_bind. apply Fine_ret. apply Fine_ret. exact HK.
    - eapply report_fine; [cbn; rewrite if_same; reflexivity|apply HX|]. apply Fine_ret. exact HK.
    - eapply report_fine; [cbn; rewrite if_same; reflexivity|apply HX|]. apply Fine_ret. exact HK. }
  destruct r1 as [[[s n]|]|[|]]; cbn [errors_of app] in *; subst q.
  - apply Fine_bind, Fine_ret. destruct (errors_of r2); exact G.
  - apply Fine_bind, Fine_ret. destruct (errors_of r2); exact G.
  - apply Fine_bind. eapply report_fine; [|apply HX|apply Fine_ret; exact G].
    destruct (errors_of r2); cbn; rewrite if_same; reflexivity.
  - apply Fine_bind. eapply report_fine; [|apply HX|apply Fine_ret; exact G].
    destruct (errors_of r2); cbn; rewrite if_same; reflexivity.
Qed.

Lemma send_fine A b q (k : unit -> future A) Q :
  FineT drop (k tt) (Idle, free, NoRequest) Q ->
  FineT drop (bind (send_frame S b q) k) (Attempt 1 1 b q, free, NoRequest) Q.
Proof.
  intros HK. apply Fine_bind. unfold send_frame. apply Fine_bind. apply Fine_scoped.
  destruct OK as (_ & _ & _ & _ & _ & HR & _). destruct (N.leb_spec 65536 (p_retries P + 1)); [lia|].
  apply (Fine_iter _ _ _ _ _ _ (fun i st => exists t, st = (Attempt i 1 b q, mkGuards t false false, NoRequest) /\ (1 <= i <= p_retries P)%N)).
  2:{ exists false. split; [reflexivity|lia]. }
  assert (HQ : forall t, FineT drop (call (Release TxGuard)) (Idle, mkGuards t false false, NoRequest) (fun a st => FineT drop (k a) st Q)).
  { intros t. apply Fine_last. eapply Fine_call with (s' := (Idle, free, NoRequest)); [destruct t; reflexivity|]. apply Fine_ret. exact HK. }
  intros i st (t & -> & Hi). destruct (N.leb_spec i (p_retries P)); [|lia].
  apply cca_fine. intros ok st ->. destruct ok; cbn [negb].
  2:{ eapply report_fine; [cbn -[N.eqb]; rewrite N.eqb_refl, if_same; reflexivity|apply in_send_free|]. apply Fine_ret. apply (HQ false). }
  destruct q as [s|]; [|apply Fine_ret; apply HQ]. apply ack_fine. intros [|]; [apply Fine_ret; apply (HQ false)|].
  eapply Fine_call; [reflexivity|].
  eapply delay_fine; [cbn -[as_u32 duration_max]; unfold pause_us; change 192%Z with turnaround_us; rewrite if_same; reflexivity|reflexivity|apply in_send_free|reflexivity|].
  destruct (N.eqb_spec i (p_retries P)) as [->|NE].
  - eapply report_fine; [cbn -[N.eqb]; rewrite N.eqb_refl, if_same; reflexivity|apply in_send_free|]. apply Fine_ret. apply (HQ false).
  - eapply report_fine; [|apply in_send_free|].
    + cbn -[N.eqb]. destruct (N.eqb_spec i (p_retries P)); [contradiction|]. rewrite if_same. reflexivity.
    + apply Fine_ret. exists false. split; [reflexivity|lia].
Qed.

Theorem tx_fine : FineT drop (transmit_package_task S) (Idle, free, NoRequest) never.
Proof.
  unfold transmit_package_task. apply (Fine_iter _ _ _ _ _ _ (fun _ st => st = (Idle, free, NoRequest))); [|reflexivity].
  intros [] st ->. eapply Fine_awaiting; [reflexivity|reflexivity|reflexivity|].
  intros fb HP. cbn in HP. destruct (buffer_octets _ HP) as [HO HL]. eexists. split; [reflexivity|].
  eapply Fine_yield; [reflexivity|reflexivity|reflexivity|].
  apply prepare_fine; [exact HO|exact HL|]. intros b q _. apply send_fine. apply Fine_ret. reflexivity.
Qed.
End Tx.
