(** AirCounts.v -- how often receptions are given up and the device wakes itself (proofs of C75, C76). *)
From Coq Require Import Lia.
From Verif Require Import Base BaseProofs Sync Spec PhyConfig Csma CsmaTasks CsmaWorld TaskLogic
  SpecTasks SpecAir TxAutomaton TxProofs RxAutomaton RxProofs CsmaGlobal TxLog RxLog TxFacts LockFacts HandOver TasksLive.
From Verif Require Import Async AsyncProofs.

Lemma count_snoc f h e : count f (h ++ [e]) = count f h + (if f e then 1 else 0).
Proof. unfold count. rewrite filter_app, app_length. cbn. destruct (f e); reflexivity. Qed.
Lemma unwanted_from_snoc e h : forall h0, unwanted_from h0 (h ++ [e]) = unwanted_from h0 h + (if gives_up e && negb (wants_radio (h0 ++ h)) then 1 else 0).
Proof.
  induction h as [|e' h IH]; intros h0; cbn [app unwanted_from]; [rewrite app_nil_r; lia|]. rewrite IH, <- app_assoc. cbn [app]. lia.
Qed.
Lemma unwanted_snoc h e : unwanted (h ++ [e]) = unwanted h + (if gives_up e && negb (wants_radio h) then 1 else 0).
Proof. apply unwanted_from_snoc. Qed.
Lemma asked_wants rq h : asked rq (last_such asks h) -> wants_radio h = match rq with NoRequest => false | _ => true end.
Proof. unfold wants_radio. destruct rq; cbn [asked]; [intros [-> | ->]; reflexivity|intros [-> | ->]; reflexivity|intros ->; reflexivity..]. Qed.

Section Facts.
Variable S : Setup.
Hypothesis OK : setup_ok S.

Definition one (b : bool) : nat := if b then 1 else 0.
Definition cancelling (r : rxstate) : bool := match r_control r with RCancel => true | _ => false end.
(** between waking itself and the end of a reception *)
Definition engaged (r : rxstate) : bool :=
  match r_control r with RYielded | RHead | RLock | RLocking | RReady | RPrepare | RReceive | RAsk _ | RWait _ | RCancel => true | _ => false end.
(** at most two signals per acquisition *)
Definition spent (rq : request) (sec signal locked : bool) (s k : nat) : Prop :=
  match rq with
  | NoRequest => s <= 2 * k
  | Waiting => s <= 2 * k + 1
  | Wanting => if sec then s <= 2 * k + 1 else s <= 2 * k \/ (s <= 2 * k + 1 /\ (signal = true \/ locked = false))
  | Signalling => if sec then s <= 2 * k + 1 else s <= 2 * k \/ (s <= 2 * k + 1 /\ locked = false)
  | Signalled => if sec then s <= 2 * k + 2 else (s <= 2 * k + 1 /\ signal = true) \/ (s <= 2 * k + 2 /\ locked = false)
  end.
Definition counted (h : list event) (x : both) : Prop :=
  match x with
  | (Enabling, l) => count gives_up h = 0 /\ count signals h = 0 /\ count acquires h = 0 /\ unwanted h = 0 /\ count completes h = 0 /\ count (wakes Rx) h = 0 /\ l_signal l = false
  | (Active sec (m, g, rq) r, l) =>
      count gives_up h + one (cancelling r) + one (l_signal l) <= count signals h /\
      (match rq with NoRequest => unwanted h + one (cancelling r) + one (l_signal l) | _ => unwanted h end) <= count acquires h /\
      count (wakes Rx) h = count completes h + count gives_up h + one (engaged r) /\
      spent rq sec (l_signal l) (l_locked l) (count signals h) (count acquires h)
  end.

Lemma tx_counts e : owner e = Some Tx -> gives_up e = false /\ completes e = false /\ wakes Rx e = false.
Proof. destruct e; cbn; intros H; try discriminate; auto; destruct t; try discriminate; auto. Qed.
Lemma rx_counts e : owner e = Some Rx -> signals e = false /\ acquires e = false.
Proof. destruct e; cbn; intros H; try discriminate; auto. destruct c; try discriminate; auto. Qed.
Lemma rx_step_counts c held busy e r' : rx_next S (mkRxState c held busy) e = Some r' -> e <> Polled ->
  one (cancelling r') + one (gives_up e) = one (cancelling (mkRxState c held busy)) + one (match e with SignalReceived true => true | _ => false end) /\
  one (engaged r') + one (gives_up e) + one (completes e) = one (engaged (mkRxState c held busy)) + one (wakes Rx e) /\
  (gives_up e = true -> cancelling (mkRxState c held busy) = true).
Proof.
  intros E NP. destruct e; cbn [rx_next] in E; try discriminate; try congruence; try (match goal with t : task |- _ => destruct t; try discriminate end);
    try (match goal with x : cell |- _ => destruct x; try discriminate end); try (injection E as <-; cbn; auto; fail); destruct c; try discriminate;
    repeat match type of E with
    | (if ?x then _ else _) = _ => destruct x eqn:?; try discriminate
    | match ?x with _ => _ end = _ => destruct x eqn:?; try discriminate
    | Some (mkRxState (if ?x then _ else _) _ _) = _ => destruct x eqn:?; try discriminate
    | Some (mkRxState (match ?x with _ => _ end) _ _) = _ => destruct x eqn:?; try discriminate
    end; injection E as <-; subst; cbn; auto.
Qed.
Lemma request_keeps rq e rq' : request_next rq e = Some rq' ->
  match e with
  | TryLock _ ok => (rq = NoRequest \/ rq = Signalled) /\ rq' = if ok then NoRequest else Wanting
  | SignalReady ok => rq = Wanting /\ rq' = if ok then Signalling else Waiting
  | SignalSend => rq = Signalling /\ rq' = Signalled
  | Polled => (rq = NoRequest /\ rq' = NoRequest) \/ (rq = Waiting /\ rq' = Wanting)
  | _ => rq' = rq
  end.
Proof. destruct e, rq; cbn; intros E; try discriminate E; injection E as <-; auto. Qed.

Lemma counted_accepts h x : accepts S both_start h = Some x -> counted h x.
Proof.
  revert h x. apply (accepts_ind S counted); [cbn; auto 10|]. intros h [g l] e y HA HI HN. assert (HC := calm_accepts S _ _ HA).
  assert (HG := guards_agree_accepts S _ _ _ guards_agree_start HA).
  apply both_next_inv in HN. destruct HN as (g' & l' & -> & EG & EL). assert (LS := law_signal _ _ _ EL). assert (LC := law_cells _ _ _ EL).
  destruct g as [|sec [[m gd] rq] r].
  - destruct HI as (H1 & H2 & H3 & H4 & H5 & H6 & H7). apply gnext_enabling in EG. destruct EG as [EO EG].
    assert (X : gives_up e = false /\ signals e = false /\ acquires e = false /\ completes e = false /\ wakes Rx e = false /\ l_signal l' = l_signal l).
    { destruct e; try discriminate EO; cbn; auto 10. }
    destruct X as (X1 & X2 & X3 & X4 & X5 & X6). destruct EG as [-> | ->]; unfold counted; rewrite ?count_snoc, ?unwanted_snoc, X1, X2, X3, X4, X5, X6, H1, H2, H3, H4, H5, H6, H7; cbn; auto 10.
  - destruct HI as (H1 & H2 & H3 & H4). destruct HC as (C1 & C2 & C3 & C4 & C5 & C6 & C7 & C8). destruct HG as (G1 & G2 & G3 & G4 & G5 & G6).
    apply gnext_active in EG. destruct EG as [(-> & [[m' gd'] rq'] & r' & ET & ER & ->)|[(NP & EO & -> & [[m' gd'] rq'] & ET & ->)|(NP & EO & r' & ER & ->)]]; unfold counted.
    + (* Polled *) rewrite !count_snoc, unwanted_snoc. cbn [gives_up signals acquires completes wakes andb]. rewrite !Nat.add_0_r, LS. destruct LC as [LC _]. rewrite LC.
      destruct (tx_request S _ _ _ _ _ _ _ ET) as [X _]. apply request_keeps in X. cbn in X.
      assert (RR : cancelling r' = false /\ engaged r' = engaged r /\ (r_control r <> RCancel) /\ (rq = Waiting -> l_signal l = false -> r_held r = false)).
      { assert (HP : rq = Waiting -> patient (l_signal l) r) by exact C3. destruct r as [c held busy]. cbn [rx_next r_control r_held] in *.
        destruct c; try discriminate; injection ER as <-; try destruct receiving; (repeat split; try reflexivity; try discriminate);
          intros HQ HS; specialize (HP HQ); unfold patient in HP; rewrite HS in HP; cbn in HP; solve [exact HP|destruct HP]. }
      destruct RR as (R1 & R2 & R3 & R4). rewrite R1, R2. cbn [one]. split; [clear - H1; lia|]. split.
      { clear - H2 X. destruct X as [[-> ->]|[-> ->]]; lia. }
      split; [exact H3|]. destruct X as [[-> ->]|[-> ->]]; [exact H4|]. cbn [spent] in *. right. split; [exact H4|]. destruct (l_signal l) eqn:ES; [auto|]. right.
      destruct (C1 ltac:(discriminate)) as [Z1 Z2]. rewrite G4, Z1, Z2, (R4 eq_refl eq_refl). reflexivity.
    + (* the transmit task *) destruct (tx_counts _ EO) as (T1 & T2 & T3). rewrite !count_snoc, unwanted_snoc, T1, T2, T3. cbn [andb]. rewrite !Nat.add_0_r.
      destruct (tx_request S _ _ _ _ _ _ _ ET) as [X _]. apply request_keeps in X.
      assert (HF := C2 eq_refl). assert (R1 : cancelling r = false) by (unfold cancelling; destruct (r_control r); reflexivity || destruct HF). rewrite R1 in *. cbn [one] in *.
      assert (SAME : rq' = rq -> signals e = false -> acquires e = false -> l_signal l' = l_signal l -> (l_locked l' = l_locked l \/ l_locked l' = false) ->
        count gives_up h + 0 + one (l_signal l') <= count signals h + (if signals e then 1 else 0) /\
        match rq' with NoRequest => unwanted h + 0 + one (l_signal l') | _ => unwanted h end <= count acquires h + (if acquires e then 1 else 0) /\
        count (wakes Rx) h = count completes h + count gives_up h + one (engaged r) /\
        spent rq' false (l_signal l') (l_locked l') (count signals h + (if signals e then 1 else 0)) (count acquires h + (if acquires e then 1 else 0))).
      { intros -> -> -> -> HL. rewrite !Nat.add_0_r in *. split; [exact H1|]. split; [exact H2|]. split; [exact H3|].
        destruct HL as [-> | ->]; [exact H4|]. destruct rq; cbn [spent] in *; tauto. }
      destruct e; try discriminate EO; try congruence; try (apply SAME; auto; try exact LS; try (destruct LC as [-> _]; auto; fail); reflexivity).
      * apply (tx_cells S) in ET. destruct ET.
      * (* TryLock *) apply (tx_cells S) in ET. destruct ET as (-> & _). destruct X as [X ->]. destruct LC as (-> & L2 & _). cbn [signals acquires]. rewrite LS, !Nat.add_0_r in *.
        destruct (l_locked l) eqn:EK; cbn [negb] in *.
        { split; [exact H1|]. rewrite Nat.add_0_r. split; [clear - H2 X; destruct X as [-> | ->]; lia|]. split; [exact H3|]. cbn [spent]. destruct X as [-> | ->]; cbn [spent] in H4; [auto|].
          destruct H4 as [[H4 H5]|[_ H5]]; [auto|discriminate]. }
        { split; [exact H1|]. split; [clear - H2 X; destruct (l_signal l); cbn [one] in *; destruct X as [-> | ->]; lia|]. split; [exact H3|]. cbn [spent]. clear - H4 X. destruct X as [-> | ->]; cbn [spent] in H4; lia. }
      * (* Release *) apply SAME; auto. destruct LC as [-> _]. destruct (l_held l c); auto.
      * (* SignalReady *) destruct X as [-> ->]. destruct LS as [-> L2]. destruct LC as [L1 _]. cbn [signals acquires]. rewrite L1, L2, !Nat.add_0_r in *. cbn [spent] in H4.
        split; [exact H1|]. split; [destruct (negb _); exact H2|]. split; [exact H3|]. destruct (l_signal l); cbn [negb spent]; [clear - H4; lia|]. destruct H4 as [H4|[H4 [H5|H5]]]; [auto|discriminate|auto].
      * (* SignalSend *) destruct X as [-> ->]. destruct LC as [L1 _]. cbn [signals acquires]. rewrite L1, LS, !Nat.add_0_r in *. cbn [spent one] in *.
        split; [clear - H1; destruct (l_signal l); cbn [one] in H1; lia|]. split; [exact H2|]. split; [exact H3|]. clear - H4. destruct H4 as [H4|[H4 H5]]; [left|right]; split; auto; lia.
    + (* the receive task *) destruct (rx_counts _ EO) as [T1 T2]. rewrite !count_snoc, unwanted_snoc, T1, T2, !Nat.add_0_r.
      destruct r as [c held busy]. destruct (rx_step_counts _ _ _ _ _ ER NP) as (R1 & R2 & R3). rewrite (asked_wants _ _ C7).
      assert (SG : one (l_signal l') + one (match e with SignalReceived true => true | _ => false end) <= one (l_signal l)).
      { clear - LS EO. destruct e; try discriminate EO; try (rewrite LS; cbn [one]; lia). destruct LS as [-> ->]. destruct (l_signal l); cbn; lia. }
      fold (one (gives_up e)). fold (one (completes e)). fold (one (wakes Rx e)).
      split; [clear - H1 R1 SG; lia|]. split.
      { clear - H2 R1 SG. destruct rq; cbn [negb]; rewrite ?andb_true_r, ?andb_false_r; fold (one (gives_up e)); lia. }
      split; [clear - H3 R2; lia|]. clear - H4. destruct rq; cbn [spent] in *; try exact H4; destruct sec; lia.
Qed.

Theorem gives_up_signalled h : history S h -> count gives_up h <= count signals h /\ count signals h <= 2 * count acquires h + 2 /\ unwanted h <= count acquires h.
Proof.
  intros ([g l] & HA). assert (H := counted_accepts _ _ HA). destruct g as [|sec [[m gd] rq] r].
  - destruct H as (H1 & H2 & H3 & H4 & _). lia.
  - destruct H as (H1 & H2 & H3 & H4). split; [lia|]. split.
    + destruct rq; cbn [spent] in H4; try destruct sec; lia.
    + destruct rq; lia.
Qed.
Theorem wakes_rx h : history S h -> count (wakes Rx) h <= count completes h + count gives_up h + 1.
Proof.
  intros ([g l] & HA). assert (H := counted_accepts _ _ HA). destruct g as [|sec [[m gd] rq] r].
  - destruct H as (H1 & H2 & H3 & H4 & H5 & H6 & _). lia.
  - destruct H as (H1 & H2 & H3 & H4). rewrite H3. destruct (engaged r); cbn; lia.
Qed.
(** the transmit task signals only while it wants the radio *)
Theorem signals_wanted h1 h2 : history S (h1 ++ SignalSend :: h2) -> wants_radio h1 = true.
Proof.
  intros HH. destruct (history_split S _ _ _ HH) as (g & l & g' & l' & HA & HG & EG & EL & y & HY). assert (HC := calm_accepts S _ _ HA).
  destruct g as [|sec [[m gd] rq] r]; [discriminate EG|]. apply gnext_active in EG. destruct EG as [(X & _)|[(_ & _ & _ & t' & ET & _)|(_ & X & _)]]; [discriminate| |discriminate].
  destruct HC as (_ & _ & _ & _ & _ & _ & C7 & _). rewrite (asked_wants _ _ C7). unfold tx_next in ET. destruct (course_next S m _); [|discriminate]. destruct (guards_next gd _); [|discriminate].
  destruct rq; cbn in ET; try discriminate. reflexivity.
Qed.
End Facts.
