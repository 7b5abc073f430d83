(** HandOver.v -- how the two tasks hand the radio over, in every history (used in proofs of C63). *)
From Coq Require Import Lia.
From Verif Require Import Base BaseProofs Sync Spec PhyConfig Csma CsmaTasks CsmaWorld TaskLogic SpecTasks TxAutomaton TxProofs RxAutomaton RxProofs CsmaGlobal TxLog RxLog TxFacts LockFacts.
From Verif Require Import Async AsyncProofs.

Section Facts.
Variable S : Setup.
Hypothesis OK : setup_ok S.

Lemma law_signal l e l' : law_next l e = Some l' ->
  match e with
  | SignalReady ok => ok = negb (l_signal l) /\ l_signal l' = l_signal l
  | SignalSend => l_signal l' = true
  | SignalReceived ok => ok = l_signal l /\ l_signal l' = false
  | _ => l_signal l' = l_signal l
  end.
Proof.
  destruct l as [k h s]. cbn [l_signal]. intros E. destruct e; cbn [law_next] in E;
    try (injection E as <-; cbn [l_signal]; auto; fail).
  - destruct r as [[a b]|]; [destruct (buffer_okb b); [|discriminate]|]; injection E as <-; auto.
  - destruct (eqb ok (negb k)) eqn:EK; [|discriminate]. injection E as <-. destruct ok; auto.
  - destruct (eqb ok (negb k)) eqn:EK; [|discriminate]. injection E as <-. destruct ok; auto.
  - destruct (eqb b (h c)); [|discriminate]. injection E as <-; auto.
  - injection E as <-. destruct (h c); auto.
  - destruct (n <? _)%N; [|discriminate]. injection E as <-; auto.
  - destruct (eqb ok (negb s)) eqn:EK; [|discriminate]. apply eqb_prop in EK. injection E as <-; auto.
  - destruct (eqb ok s) eqn:EK; [|discriminate]. apply eqb_prop in EK. injection E as <-; auto.
  - destruct r as [f|]; [destruct (buffer_okb (fb_buffer f)); [|discriminate]|]; injection E as <-; auto.
Qed.

(** where the receive task continues when polled *)
Definition fresh (c : control) : Prop :=
  match c with RYield | RHead | RLock | RPrepare | RReceive | RAckDelay _ | RAckPrepare _ | RAckAir _ | RDone => True | _ => False end.
Definition handing (c : control) : bool :=
  match c with RFree | RAck _ | RAckDelay _ | RAckSend _ | RAckPrepare _ | RAckAir _ | RDone => true | _ => false end.
Definition patient (signal : bool) (r : rxstate) : Prop :=
  if signal then match r_control r with RWait _ | RLocking | RCancel => False | _ => True end
  else match r_control r with RCancel | RRelease => True | RYield | RYielded => r_held r = false | _ => False end.
Definition asked (rq : request) (last : option event) : Prop :=
  match rq with
  | NoRequest => last = None \/ last = Some (TryLock TxGuard true)
  | Wanting => last = Some (TryLock TxGuard false) \/ last = Some (SignalReady false)
  | Waiting => last = Some (SignalReady false)
  | Signalling => last = Some (SignalReady true)
  | Signalled => last = Some SignalSend
  end.
Definition calm (h : list event) (x : both) : Prop :=
  match x with
  | (Enabling, l) => delivering h = false /\ last_such asks h = None /\ last_such locks h = None
  | (Active sec (m, g, rq) r, l) =>
      (rq <> NoRequest -> g_tx g = false /\ g_ack g = false) /\
      (sec = false -> fresh (r_control r)) /\
      (rq = Waiting -> patient (l_signal l) r) /\
      delivering h = handing (r_control r) /\
      (r_control r = RYielded -> self_woken h = true) /\
      (r_control r = RLocking -> sec = true /\ g_tx g || g_ack g = true) /\
      asked rq (last_such asks h) /\
      (last_such locks h = Some (Lock RxGuard false) -> r_control r = RLocking \/ r_control r = RLock)
  end.

Lemma last_snoc f h e : last_such f (h ++ [e]) = if f e then Some e else last_such f h.
Proof. unfold last_such. rewrite fold_left_app. reflexivity. Qed.
Lemma delivering_snoc h e : delivering (h ++ [e]) = match e with Received _ => true | Woken Rx => false | _ => delivering h end.
Proof. unfold delivering. rewrite fold_left_app. reflexivity. Qed.
Lemma self_woken_snoc h e : self_woken (h ++ [e]) = match e with Polled => false | Woken _ => true | _ => self_woken h end.
Proof. unfold self_woken. rewrite fold_left_app. reflexivity. Qed.

Lemma tx_request m g rq e m' g' rq' : tx_next S (m, g, rq) e = Some (m', g', rq') ->
  (request_next rq e = Some rq') /\ (rq' <> NoRequest -> (rq <> NoRequest -> g_tx g = false /\ g_ack g = false) -> g_tx g' = false /\ g_ack g' = false).
Proof.
  intros E. assert (HC := tx_cells S _ _ _ _ _ _ _ E). unfold tx_next in E. destruct (course_next S m e) as [m2|]; [|discriminate]. destruct (guards_next g e) as [g2|] eqn:EG; [|discriminate].
  destruct (request_next rq e) as [rq2|] eqn:ER; [|discriminate]. injection E as <- <- <-. split; [reflexivity|]. intros HN HG.
  assert (X : rq <> NoRequest -> (forall c ok, e <> TryLock c ok) -> g_tx g2 = false /\ g_ack g2 = false).
  { intros NR NT. destruct (HG NR) as [G1 G2]. destruct e; try (destruct HC as [-> ->]; auto; fail).
    - destruct HC.
    - destruct (NT c ok eq_refl).
    - destruct HC as [(_ & -> & ->)|(_ & -> & ->)]; auto.
    - destruct HC as (_ & _ & Z & _). congruence. }
  assert (Y : forall R, rq = R -> R <> NoRequest -> R <> Signalled -> forall c ok, e <> TryLock c ok) by (intros R -> N1 N2 c ok ->; destruct R; try congruence; discriminate ER).
  destruct rq; [|apply X; [discriminate|apply (Y _ eq_refl); discriminate] | apply X; [discriminate|apply (Y _ eq_refl); discriminate] | apply X; [discriminate|apply (Y _ eq_refl); discriminate] |].
  - destruct e; cbn in ER; try discriminate; try (injection ER as <-; congruence). injection ER as <-. destruct ok; [congruence|]. destruct HC as (_ & _ & _ & -> & ->). auto.
  - destruct (HG ltac:(discriminate)) as [G1 G2]. destruct e; try (apply X; [discriminate|intros cx okx Z; discriminate Z]; fail).
    destruct HC as (_ & _ & _ & -> & ->). destruct ok; [|auto]. cbn in ER. injection ER as <-. congruence.
Qed.
Lemma asked_step rq e rq' last : request_next rq e = Some rq' -> (forall c ok, e = TryLock c ok -> c = TxGuard) -> owner e = Some Tx \/ e = Polled -> asked rq last ->
  asked rq' (if asks e then Some e else last).
Proof.
  intros E HC HO HA. destruct e; try (cbn in HO; destruct HO; discriminate); cbn [asks];
    try (destruct rq; cbn in E; try discriminate; injection E as <-; exact HA).
  - destruct rq; cbn in E; try discriminate; injection E as <-; cbn [asked]; auto.
  - rewrite (HC _ _ eq_refl). destruct rq; cbn in E; try discriminate; injection E as <-; destruct ok; cbn; auto.
  - destruct rq; cbn in E; try discriminate; injection E as <-; destruct ok; cbn; auto.
  - destruct rq; cbn in E; try discriminate; injection E as <-; cbn; auto.
Qed.
Lemma locks_owner e : locks e = true -> owner e = Some Rx.
Proof. destruct e; try discriminate. destruct c; try discriminate. reflexivity. Qed.
Lemma asks_owner e : asks e = true -> owner e = Some Tx.
Proof. destruct e; try discriminate; try reflexivity. destruct c; try discriminate. reflexivity. Qed.
Lemma tx_delivering e h : owner e = Some Tx -> delivering (h ++ [e]) = delivering h.
Proof. intros H. rewrite delivering_snoc. destruct e; try reflexivity; try discriminate. destruct t; [reflexivity|discriminate]. Qed.

Lemma rx_moves c held busy e r' l l' : rx_next S (mkRxState c held busy) e = Some r' -> law_next l e = Some l' -> e <> Polled ->
  (patient (l_signal l) (mkRxState c held busy) -> (held = false -> l_locked l = false) -> patient (l_signal l') r') /\
  (forall h, delivering h = handing c -> delivering (h ++ [e]) = handing (r_control r')) /\
  (forall h, (c = RYielded -> self_woken h = true) -> r_control r' = RYielded -> self_woken (h ++ [e]) = true) /\
  (r_control r' = RLocking -> c = RLocking \/ l_locked l = true /\ held = false /\ r_held r' = false) /\
  (forall h, (last_such locks h = Some (Lock RxGuard false) -> c = RLocking \/ c = RLock) ->
     last_such locks (h ++ [e]) = Some (Lock RxGuard false) -> r_control r' = RLocking \/ r_control r' = RLock).
Proof.
  intros E EL NP. assert (LS := law_signal _ _ _ EL). assert (LC := law_cells _ _ _ EL).
  destruct e; cbn [rx_next] in E; try discriminate; try (destruct t; try discriminate); try (match goal with x : cell |- _ => destruct x; try discriminate end);
   try congruence; try (destruct c; try discriminate);
    repeat match type of E with
    | (if ?x then _ else _) = _ => destruct x eqn:?; try discriminate
    | match ?x with _ => _ end = _ => destruct x eqn:?; try discriminate
    | Some (mkRxState (if ?x then _ else _) _ _) = _ => destruct x eqn:?; try discriminate
    | Some (mkRxState (match ?x with _ => _ end) _ _) = _ => destruct x eqn:?; try discriminate
    end; injection E as <-;
  (split; [|split; [intros hh Hd; rewrite delivering_snoc; cbn in *; congruence |split; [intros hh Hs; rewrite self_woken_snoc; cbn; try discriminate; try reflexivity; try (intros; auto; fail)|
     split; [cbn [r_control r_held]; try discriminate; try (intros; left; assumption); auto |intros hh Hl; rewrite last_snoc; cbn in *; try discriminate; try (intros; auto; fail); intros Hx; try (destruct (Hl Hx); try discriminate; auto)]]]]);
  try (rewrite LS; unfold patient; cbn [r_control r_held]; destruct (l_signal l); auto; fail).
  - intros HP _. rewrite LS. unfold patient in *. cbn [r_control r_held] in *. destruct (l_signal l); [exact I|destruct HP].
  - intros HP _. rewrite LS. unfold patient in *. cbn [r_control r_held] in *. destruct (l_signal l); [exact I|destruct HP].
  - intros HP HK. rewrite (HK eq_refl) in LC. destruct LC as [X _]. discriminate X.
  - intros _. right. destruct LC as [X _]. destruct (l_locked l); [auto|discriminate].
  - intros _ _. destruct LS as [_ ->]. exact I.
  - intros HP _. destruct LS as [X ->]. rewrite <- X in HP. destruct HP.
Qed.
Lemma calm_step h x e y : guards_agree x -> calm h x -> both_next S x e = Some y -> calm (h ++ [e]) y.
Proof.
  intros HG HC HN. destruct x as [g l]. apply both_next_inv in HN. destruct HN as (g' & l' & -> & EG & EL). destruct g as [|sec [[m gd] rq] r].
  - destruct HC as (H1 & H2 & H3). apply gnext_enabling in EG. destruct EG as [EO EG].
    assert (D : delivering (h ++ [e]) = false) by (rewrite delivering_snoc; destruct e; try exact H1; try discriminate).
    assert (L1 : last_such asks (h ++ [e]) = None) by (rewrite last_snoc; destruct (asks e) eqn:X; [apply asks_owner in X; congruence|exact H2]).
    assert (L2 : last_such locks (h ++ [e]) = None) by (rewrite last_snoc; destruct (locks e) eqn:X; [apply locks_owner in X; congruence|exact H3]).
    destruct EG as [->| ->]; cbn [calm]; [auto|]. cbn [rx_start r_control g_tx g_ack free]. rewrite D, L1, L2.
    repeat split; auto; try discriminate; try congruence. cbn. auto.
  - destruct HG as (G1 & G2 & G3 & G4 & G5 & G6). destruct HC as (C1 & C2 & C3 & C4 & C5 & C6 & C7 & C8). assert (LS := law_signal _ _ _ EL). apply gnext_active in EG.
    destruct EG as [(-> & [[m' gd'] rq'] & r' & ET & ER & ->)|[(NP & EO & -> & [[m' gd'] rq'] & ET & ->)|(NP & EO & r' & ER & ->)]]; cbn [calm].
    + assert (X := tx_request _ _ _ _ _ _ _ ET). destruct X as [X1 X2]. assert (RR : r_held r' = r_held r) by exact (rx_cells S _ _ _ ER).
      assert (FR : fresh (r_control r') /\ handing (r_control r') = handing (r_control r) /\ r_control r' <> RYielded /\ r_control r' <> RLocking /\
         (r_control r = RLocking \/ r_control r = RLock -> r_control r' = RLock)).
      { destruct r as [c held busy]. cbn [rx_next] in ER. destruct c; try discriminate; injection ER as <-; cbn [r_control fresh handing];
          (split; [try destruct receiving; exact I|]; split; [try destruct receiving; reflexivity|]; split; [try destruct receiving; discriminate|]; split; [try destruct receiving; discriminate|];
           intros [Z|Z]; try discriminate Z; try reflexivity). }
      destruct FR as (F1 & F2 & F3 & F4 & F5).
      split; [auto|]. split; [auto|]. split; [intros ->; destruct rq; discriminate|].
      split; [rewrite delivering_snoc, F2; exact C4|]. split; [intros Z; contradiction|]. split; [intros Z; contradiction|].
      split; [rewrite last_snoc; apply (asked_step _ _ _ _ X1); [intros; discriminate|auto|exact C7]|].
      rewrite last_snoc. cbn [locks]. intros Z. right. auto.
    + assert (X := tx_request _ _ _ _ _ _ _ ET). destruct X as [X1 X2].
      split; [auto|]. split; [auto|]. split.
      { intros ->. assert (HF := C2 eq_refl). destruct e; try (destruct rq; discriminate X1); try (destruct rq; try discriminate X1; rewrite LS; apply C3; reflexivity).
        - destruct rq, ok; discriminate.
        - destruct rq, ok; try discriminate. destruct LS as [Y ->]. destruct (l_signal l); [|discriminate]. unfold patient. destruct (r_control r); try exact I; destruct HF. }
      split; [rewrite tx_delivering by exact EO; exact C4|]. split.
      { intros Z. rewrite self_woken_snoc. assert (Y := C5 Z). destruct e; try exact Y; try congruence. }
      split; [intros Z; destruct (C6 Z); discriminate|].
      split; [rewrite last_snoc; apply (asked_step _ _ _ _ X1); [|auto|exact C7]|].
      { intros c ok ->. apply (tx_cells S) in ET. apply ET. }
      rewrite last_snoc. destruct (locks e) eqn:Z; [apply locks_owner in Z; congruence|exact C8].
    + destruct r as [c held busy]. cbn [r_control r_held] in *. destruct (rx_moves _ _ _ _ _ _ _ ER EL NP) as (M1 & M2 & M3 & M4 & M5).
      split; [auto|]. split; [discriminate|]. split.
      { intros Z. apply M1; [auto|]. intros ->. rewrite G4. destruct (C1 ltac:(rewrite Z; discriminate)) as [-> ->]. reflexivity. }
      split; [auto|]. split; [auto|]. split.
      { intros Z. split; [reflexivity|]. destruct (M4 Z) as [Y|(Y1 & -> & _)]; [apply C6; exact Y|]. rewrite Y1, orb_false_r in G4. auto. }
      split; [|apply M5; exact C8]. rewrite last_snoc. destruct (asks e) eqn:Z; [apply asks_owner in Z; congruence|exact C7].
Qed.
Lemma calm_accepts h x : accepts S both_start h = Some x -> calm h x.
Proof.
  revert h x. apply (accepts_ind S (fun h x => calm h x)); [repeat split|]. intros h x e y HA HC HN. eapply calm_step; [|exact HC|exact HN].
  exact (guards_agree_accepts S _ _ _ guards_agree_start HA).
Qed.

(** ** Suspensions *)
Lemma suspended c p w : reachable S (Pend c p) w -> history S (w_hist w ++ [Polled]).
Proof.
  intros HR. destruct (reachable_known S OK _ _ HR) as (g & l & HA & _ & _ & _ & HF). destruct (Fine_pend_inv _ _ _ _ _ _ _ _ HF) as [_ (g' & EG & _)].
  exists (g', l). rewrite (accepts_snoc _ _ _ _ _ HA). unfold both_next. cbn [fst snd]. rewrite EG. destruct l; reflexivity.
Qed.
Definition rests (c : control) : Prop :=
  match c with RYielded | RLocking | RWait _ | RAckDelay _ | RAckPrepare _ | RAckAir _ | RDone => True | _ => False end.
Lemma at_rest h : history S (h ++ [Polled]) -> exists g l, accepts S both_start h = Some (g, l) /\ guards_agree (g, l) /\ calm h (g, l) /\
  match g with Enabling => True | Active _ (_, _, rq) r => (rq = NoRequest \/ rq = Waiting) /\ rests (r_control r) end.
Proof.
  intros (y & HY). destruct (accepted_prefix _ _ _ _ _ HY) as ([g l] & HA & HN). exists g, l. split; [exact HA|]. split; [exact (guards_agree_accepts S _ _ _ guards_agree_start HA)|].
  split; [exact (calm_accepts _ _ HA)|]. destruct g as [|sec [[m gd] rq] r]; [exact I|]. cbn [accepts] in HN. destruct (both_next S _ Polled) as [z|] eqn:E; [|discriminate].
  apply both_next_inv in E. destruct E as (g' & l' & -> & EG & _). apply gnext_active in EG.
  destruct EG as [(_ & [[m' gd'] rq'] & r' & ET & ER & ->)|[(X & _)|(X & _)]]; [|congruence..]. split.
  - destruct (tx_request _ _ _ _ _ _ _ ET) as [X _]. destruct rq; try discriminate; auto.
  - destruct r as [c held busy]. cbn [r_control]. destruct c; try discriminate ER; exact I.
Qed.
Lemma waiting_rest h : history S (h ++ [Polled]) -> tx_waits h -> exists sec m g r l,
  accepts S both_start h = Some (Active sec (m, g, Waiting) r, l) /\ g_tx g = false /\ g_ack g = false /\ delivering h = handing (r_control r) /\ patient (l_signal l) r /\
  rests (r_control r) /\ (r_control r = RYielded -> self_woken h = true).
Proof.
  intros HH HW. destruct (at_rest _ HH) as (g & l & HA & HG & HC & HR). unfold tx_waits in HW. destruct g as [|sec [[m gd] rq] r].
  - destruct HC as (_ & X & _). congruence.
  - destruct HR as [HQ HR]. destruct HC as (C1 & C2 & C3 & C4 & C5 & C6 & C7 & C8). rewrite HW in C7.
    assert (rq = Waiting) as -> by (destruct HQ as [-> | ->]; [destruct C7; discriminate|reflexivity]).
    destruct (C1 ltac:(discriminate)). exists sec, m, gd, r, l. auto 10.
Qed.
(** the device is polled again, or the upper layer has a frame *)
Theorem waits_woken h : history S (h ++ [Polled]) -> tx_waits h -> delivering h = true \/ self_woken h = true.
Proof.
  intros HH HW. destruct (waiting_rest _ HH HW) as (sec & m & g & r & l & HA & _ & _ & HD & HP & HR & HS). rewrite HD. unfold patient in HP.
  destruct (r_control r); try destruct HR; auto; destruct (l_signal l); destruct HP.
Qed.
Theorem wants_waits h1 h2 : history S ((h1 ++ TryLock TxGuard false :: h2) ++ [Polled]) -> ~ In (TryLock TxGuard true) h2 -> tx_waits (h1 ++ TryLock TxGuard false :: h2).
Proof.
  intros HH HN. destruct (at_rest _ HH) as (g & l & HA & HG & HC & HR).
  assert (X : forall h, ~ In (TryLock TxGuard true) h -> forall last, last <> None -> last <> Some (TryLock TxGuard true) ->
     fold_left (fun last e => if asks e then Some e else last) h last <> None /\ fold_left (fun last e => if asks e then Some e else last) h last <> Some (TryLock TxGuard true)).
  { clear. induction h as [|e h IH]; intros HN last H1 H2; cbn; [auto|]. apply IH; [intros X; apply HN; right; exact X|destruct (asks e); [discriminate|exact H1]|].
    destruct (asks e); [|exact H2]. intros [= ->]. apply HN. left. reflexivity. }
  assert (Y : last_such asks (h1 ++ TryLock TxGuard false :: h2) <> None /\ last_such asks (h1 ++ TryLock TxGuard false :: h2) <> Some (TryLock TxGuard true)).
  { unfold last_such. rewrite fold_left_app. cbn. apply X; [exact HN|discriminate|discriminate]. }
  destruct Y as [Y1 Y2]. destruct g as [|sec [[m gd] rq] r]; [destruct HC as (_ & Z & _); congruence|].
  destruct HC as (_ & _ & _ & _ & _ & _ & C7 & _). destruct HR as [[-> | ->] _]; cbn [asked] in C7; [destruct C7; congruence|exact C7].
Qed.

(** ** Two polls *)
Definition listening (c : control) : Prop := match c with RHead | RLock | RReady | RPrepare | RReceive | RAsk _ => True | _ => False end.
Definition dead (sec : bool) (rq : request) : Prop := sec = true /\ rq <> NoRequest /\ rq <> Waiting.
Definition phase (x : both) : Prop :=
  match x with
  | (Enabling, _) => False
  | (Active sec (m, g, rq) r, l) => g_tx g = false /\ g_ack g = false /\
      ((sec = false /\ r_control r = RHead /\ (rq = Wanting /\ (l_signal l = true \/ r_held r = false) \/ (rq = Signalling \/ rq = Signalled) /\ r_held r = false)) \/
       dead sec rq \/
       (rq = Waiting /\ l_signal l = true /\ listening (r_control r)) \/
       (rq = Waiting /\ l_signal l = false /\ (r_control r = RCancel \/ r_control r = RRelease)) \/
       (rq = Waiting /\ l_signal l = false /\ r_held r = false /\ (r_control r = RYield \/ r_control r = RYielded)))
  end.
Definition last_phase (x : both) : Prop :=
  match x with
  | (Enabling, _) => False
  | (Active sec (m, g, rq) r, l) => g_tx g = false /\ g_ack g = false /\
      ((sec = false /\ r_control r = RHead /\ r_held r = false /\ (rq = Wanting /\ l_signal l = false \/ rq = Signalling \/ rq = Signalled)) \/ dead sec rq)
  end.
Lemma tx_free_step m g rq e m' g' rq' : tx_next S (m, g, rq) e = Some (m', g', rq') -> g_tx g = false -> g_ack g = false -> rq <> NoRequest -> e <> TryLock TxGuard true ->
  rq' <> NoRequest /\ g_tx g' = false /\ g_ack g' = false.
Proof.
  intros E G1 G2 NR NT. destruct (tx_request _ _ _ _ _ _ _ E) as [ER X]. assert (NR' : rq' <> NoRequest).
  { intros ->. apply (tx_cells S) in E. destruct rq; [congruence|..]; destruct e; try discriminate; try (destruct ok; discriminate). cbn in ER. destruct ok; [|discriminate].
    destruct E as [-> _]. congruence. }
  split; [exact NR'|]. auto.
Qed.
Lemma phase_step x e y : guards_agree x -> phase x -> both_next S x e = Some y -> e <> Polled -> (forall r, e <> Receive Rx (Some r)) -> e <> TryLock TxGuard true -> phase y.
Proof.
  intros HG HP HN NP NR NT. destruct x as [g l]. apply both_next_inv in HN. destruct HN as (g' & l' & -> & EG & EL). destruct g as [|sec [[m gd] rq] r]; [destruct HP|].
  assert (LS := law_signal _ _ _ EL). destruct HG as (_ & _ & _ & G4 & _ & _). destruct HP as (P1 & P2 & HP). rewrite P1, P2 in G4. cbn in G4. apply gnext_active in EG.
  destruct EG as [(X & _)|[(_ & EO & -> & [[m' gd'] rq'] & ET & ->)|(_ & EO & r' & ER & ->)]]; [congruence|..]; cbn [phase].
  - assert (HQ : rq <> NoRequest).
    { destruct HP as [(_ & _ & [(X & _)|([X|X] & _)])|[(_ & X & _)|[(X & _)|[(X & _)|(X & _)]]]]; congruence. }
    destruct (tx_free_step _ _ _ _ _ _ _ ET P1 P2 HQ NT) as (Q1 & Q2 & Q3). split; [exact Q2|]. split; [exact Q3|].
    destruct (tx_request _ _ _ _ _ _ _ ET) as [X _]. assert (LC := law_cells _ _ _ EL).
    destruct HP as [(_ & HC & HP)|[(Z & _)|HP]]; [|discriminate|].
    + destruct HP as [(-> & HP)|(HP & HH)].
      * destruct e; try discriminate; try (injection X as <-; left; rewrite LS; auto; fail).
        destruct LS as [-> LS]. cbn in X. injection X as <-. destruct (l_signal l) eqn:E; cbn [negb].
        { right; right; left. rewrite HC. cbn. auto. }
        { left. destruct HP as [HP|HP]; [discriminate|]. auto 10. }
      * destruct HP as [-> | ->]; (destruct e; try discriminate; try (injection X as <-; left; auto 10; fail)).
        destruct LC as (LC & _). rewrite G4, HH in LC. subst ok. cbn in X. injection X as <-. congruence.
    + assert (rq = Waiting) as -> by (destruct HP as [(X1 & _)|[(X1 & _)|(X1 & _)]]; exact X1).
      destruct e; try discriminate; injection X as <-; right; right; rewrite LS; exact HP.
  - split; [exact P1|]. split; [exact P2|].
    destruct HP as [(_ & HC & HP)|[(_ & Z1 & Z2)|HP]].
    + right; left. destruct HP as [(-> & _)|([-> | ->] & _)]; split; split || reflexivity; discriminate.
    + right; left. split; auto.
    + right; right. destruct r as [c held busy]. cbn [r_control r_held] in *. assert (LC := law_cells _ _ _ EL).
      destruct HP as [(-> & HS & HL)|[(-> & HS & HL)|(-> & HS & HH & HL)]].
      * destruct e; try discriminate EO; try (injection EO as ->); try (destruct c; try discriminate ER; fail); cbn [rx_next] in ER;
          try (injection ER as <-; left; rewrite LS; auto; fail); try (destruct (NR _ eq_refl)); destruct c; try discriminate; try destruct HL; try destruct c0; try discriminate;
          repeat match type of ER with
          | (if ?x then _ else _) = _ => destruct x eqn:?; try discriminate
          | match ?x with _ => _ end = _ => destruct x eqn:?; try discriminate
          | Some (mkRxState (if ?x then _ else _) _ _) = _ => destruct x eqn:?; try discriminate
          end; try (injection ER as <-; left; rewrite LS; cbn; auto; fail).
        all: try (exfalso; exact (NR _ eq_refl)).
        { exfalso. destruct LC as [X _]. rewrite G4 in X. subst held. discriminate. }
        { injection ER as <-. right; left. destruct LS as [_ ->]. cbn. auto. }
        { exfalso. destruct LS as [X _]. congruence. }
      * destruct HL as [-> | ->]; (destruct e; try discriminate EO; try (injection EO as ->); cbn [rx_next] in ER; try discriminate; try destruct c; try discriminate);
          repeat match type of ER with (if ?x then _ else _) = _ => destruct x eqn:?; try discriminate end; injection ER as <-; rewrite LS; cbn; auto 10.
      * destruct HL as [-> | ->]; (destruct e; try discriminate EO; try (injection EO as ->); cbn [rx_next] in ER; try discriminate; try destruct c; try discriminate);
          repeat match type of ER with (if ?x then _ else _) = _ => destruct x eqn:?; try discriminate end; injection ER as <-; rewrite LS; cbn; auto 10.
Qed.
Lemma last_phase_step x e y : guards_agree x -> last_phase x -> both_next S x e = Some y -> e <> TryLock TxGuard true -> last_phase y.
Proof.
  intros HG HP HN NT. destruct x as [g l]. apply both_next_inv in HN. destruct HN as (g' & l' & -> & EG & EL). destruct g as [|sec [[m gd] rq] r]; [destruct HP|].
  assert (LS := law_signal _ _ _ EL). destruct HG as (_ & _ & _ & G4 & _ & _). destruct HP as (P1 & P2 & HP). rewrite P1, P2 in G4. cbn in G4. apply gnext_active in EG.
  destruct EG as [(-> & [[m' gd'] rq'] & r' & ET & ER & ->)|[(NP & EO & -> & [[m' gd'] rq'] & ET & ->)|(NP & EO & r' & ER & ->)]]; cbn [last_phase].
  - exfalso. apply tx_request in ET. destruct ET as [X _]. destruct HP as [(_ & _ & _ & [(-> & _)|[-> | ->]])|(_ & Z1 & Z2)]; try discriminate. destruct rq; try discriminate; congruence.
  - assert (HQ : rq <> NoRequest) by (destruct HP as [(_ & _ & _ & [(-> & _)|[-> | ->]])|(Z & _)]; discriminate).
    destruct (tx_free_step _ _ _ _ _ _ _ ET P1 P2 HQ NT) as (Q1 & Q2 & Q3). split; [exact Q2|]. split; [exact Q3|].
    destruct (tx_request _ _ _ _ _ _ _ ET) as [X _]. assert (LC := law_cells _ _ _ EL).
    destruct HP as [(_ & HC & HH & HP)|(Z & _)]; [|discriminate]. left. split; [reflexivity|]. split; [exact HC|]. split; [exact HH|].
    destruct HP as [(-> & HS)|[-> | ->]]; (destruct e; try discriminate; try (injection X as <-; rewrite ?LS; auto; fail)).
    + destruct LS as [-> _]. rewrite HS in X. injection X as <-. auto.
    + destruct LC as (LC & _). rewrite G4, HH in LC. subst ok. injection X as <-. congruence.
  - split; [exact P1|]. split; [exact P2|]. right. destruct HP as [(_ & _ & _ & [(-> & _)|[-> | ->]])|(Z1 & Z2 & Z3)]; split; auto; split; auto; discriminate.
Qed.
Lemma phase_accepts s : forall x y, guards_agree x -> phase x -> accepts S x s = Some y -> ~ In Polled s -> (forall r, ~ In (Receive Rx (Some r)) s) -> ~ In (TryLock TxGuard true) s ->
  phase y /\ guards_agree y.
Proof.
  induction s as [|e s IH]; intros x y HG HP HA N1 N2 N3; cbn in HA; [injection HA as <-; auto|]. destruct (both_next S x e) as [z|] eqn:E; [|discriminate].
  apply (IH z y); auto.
  - exact (guards_agree_step S _ _ _ HG E).
  - eapply phase_step; [exact HG|exact HP|exact E|..].
    + intros ->. apply N1. left. reflexivity.
    + intros r ->. apply (N2 r). left. reflexivity.
    + intros ->. apply N3. left. reflexivity.
  - intros X. apply N1. right. exact X.
  - intros r X. apply (N2 r). right. exact X.
  - intros X. apply N3. right. exact X.
Qed.
Lemma last_phase_accepts s : forall x y, guards_agree x -> last_phase x -> accepts S x s = Some y -> ~ In (TryLock TxGuard true) s -> last_phase y.
Proof.
  induction s as [|e s IH]; intros x y HG HP HA N3; cbn in HA; [injection HA as <-; auto|]. destruct (both_next S x e) as [z|] eqn:E; [|discriminate].
  apply (IH z y); auto.
  - exact (guards_agree_step S _ _ _ HG E).
  - eapply last_phase_step; [exact HG|exact HP|exact E|]. intros ->. apply N3. left. reflexivity.
  - intros X. apply N3. right. exact X.
Qed.
Lemma in_dec_try s : In (TryLock TxGuard true) s \/ ~ In (TryLock TxGuard true) s.
Proof.
  induction s as [|e s [IH|IH]]; [right; intros []|left; right; exact IH|].
  assert (D : e = TryLock TxGuard true \/ e <> TryLock TxGuard true) by (destruct e; try (right; discriminate); destruct c; try (right; discriminate); destruct ok; [left; reflexivity|right; discriminate]).
  destruct D as [->|D]; [left; left; reflexivity|]. right. intros [X|X]; contradiction.
Qed.
Theorem handed_over h s1 s2 : history S (h ++ Polled :: s1 ++ Polled :: s2 ++ [Polled]) -> ~ In Polled s1 -> ~ In Polled s2 ->
  tx_waits h -> delivering h = false -> (forall r, ~ In (Receive Rx (Some r)) s1) -> In (TryLock TxGuard true) (s1 ++ s2).
Proof.
  intros HH N1 N2 HW HD NR. rewrite in_app_iff. destruct (in_dec_try s1) as [HI|HI]; [auto|]. destruct (in_dec_try s2) as [HJ|HJ]; [auto|]. exfalso.
  assert (H1 : history S (h ++ [Polled])).
  { destruct HH as (y & HH). change (Polled :: s1 ++ Polled :: s2 ++ [Polled]) with ([Polled] ++ (s1 ++ Polled :: s2 ++ [Polled])) in HH. rewrite app_assoc in HH.
    destruct (accepted_prefix _ _ _ _ _ HH) as (z & HZ & _). exists z. exact HZ. }
  destruct (waiting_rest _ H1 HW) as (sec & m & g & r & l & HA & G1 & G2 & HD' & HP & HR & _). rewrite HD in HD'.
  assert (HC : r_control r = RYielded /\ (l_signal l = true \/ r_held r = false)).
  { unfold patient in HP. destruct (r_control r); try discriminate HD'; try destruct HR; destruct (l_signal l); try destruct HP; auto. }
  destruct HC as [HC HS]. destruct HH as (y & HH). destruct (accepted_prefix _ _ _ _ _ HH) as (z & HZ & HT). rewrite HA in HZ. injection HZ as <-.
  assert (HG := guards_agree_accepts S _ _ _ guards_agree_start HA).
  cbn [accepts] in HT. destruct (both_next S _ Polled) as [z1|] eqn:E1; [|discriminate]. assert (HG1 := guards_agree_step S _ _ _ HG E1).
  assert (HP1 : phase z1).
  { apply both_next_inv in E1. destruct E1 as (g' & l' & -> & EG & EL). apply law_signal in EL. apply gnext_active in EG.
    destruct EG as [(_ & [[m' gd'] rq'] & r' & ET & ER & ->)|[(X & _)|(X & _)]]; [|congruence..]. cbn [phase].
    destruct (tx_free_step _ _ _ _ _ _ _ ET G1 G2 ltac:(discriminate) ltac:(discriminate)) as (_ & Q2 & Q3). split; [exact Q2|]. split; [exact Q3|]. left.
    destruct (tx_request _ _ _ _ _ _ _ ET) as [X _]. injection X as <-. destruct r as [c held busy]. cbn [r_control r_held] in *. subst c. injection ER as <-. cbn [r_control r_held].
    rewrite EL. auto. }
  destruct (accepted_prefix _ _ _ _ _ HT) as (z2 & HZ2 & HT2). destruct (phase_accepts _ _ _ HG1 HP1 HZ2 N1 NR HI) as [HP2 HG2].
  cbn [accepts] in HT2. destruct (both_next S z2 Polled) as [z3|] eqn:E3; [|discriminate]. assert (HG3 := guards_agree_step S _ _ _ HG2 E3).
  assert (HP3 : last_phase z3).
  { destruct z2 as [g2 l2]. apply both_next_inv in E3. destruct E3 as (g' & l' & -> & EG & EL). apply law_signal in EL. destruct g2 as [|sec2 [[m2 gd2] rq2] r2]; [destruct HP2|]. apply gnext_active in EG.
    destruct EG as [(_ & [[m' gd'] rq'] & r' & ET & ER & ->)|[(X & _)|(X & _)]]; [|congruence..]. cbn [last_phase]. cbn [phase] in HP2. destruct HP2 as (Q1 & Q2 & HP2).
    destruct (tx_request _ _ _ _ _ _ _ ET) as [X _]. destruct r2 as [c2 held2 busy2]. cbn [r_control r_held] in *.
    destruct HP2 as [(_ & HX & HP2)|[(_ & Z1 & Z2)|[(-> & _ & HX)|[(-> & _ & [-> | ->])|(-> & HS2 & HH2 & [-> | ->])]]]]; try discriminate ER.
    - exfalso. destruct HP2 as [(-> & _)|([-> | ->] & _)]; discriminate.
    - exfalso. destruct rq2; try discriminate; congruence.
    - exfalso. destruct c2; try destruct HX; discriminate.
    - destruct (tx_free_step _ _ _ _ _ _ _ ET Q1 Q2 ltac:(discriminate) ltac:(discriminate)) as (_ & Q2' & Q3'). split; [exact Q2'|]. split; [exact Q3'|]. left.
      injection X as <-. injection ER as <-. cbn [r_control r_held]. rewrite EL. auto 10. }
  destruct (accepted_prefix _ _ _ _ _ HT2) as (z4 & HZ4 & HT4). assert (HP4 := last_phase_accepts _ _ _ HG3 HP3 HZ4 HJ).
  cbn [accepts] in HT4. destruct (both_next S z4 Polled) as [z5|] eqn:E5; [|discriminate].
  destruct z4 as [g4 l4]. apply both_next_inv in E5. destruct E5 as (g' & l' & -> & EG & EL). destruct g4 as [|sec4 [[m4 gd4] rq4] r4]; [destruct HP4|]. apply gnext_active in EG.
  destruct EG as [(_ & [[m' gd'] rq'] & r' & ET & ER & ->)|[(X & _)|(X & _)]]; [|congruence..]. apply tx_request in ET. destruct ET as [X _]. cbn [last_phase] in HP4.
  destruct HP4 as (_ & _ & [(_ & _ & _ & [(-> & _)|[-> | ->]])|(_ & Z1 & Z2)]); try discriminate. destruct rq4; try discriminate; congruence.
Qed.

(** ** The receive task *)
Theorem rx_waits_held c p w : reachable S (Pend c p) w -> rx_waits (w_hist w) ->
  (cells (w_hist w) TxGuard = true \/ cells (w_hist w) AckGuard = true) /\ mx_waker (w_radio w) = Some waker.
Proof.
  intros HR HW. assert (HS := suspended _ _ _ HR). destruct (at_rest _ HS) as (g & l & HA & HG & HC & HT).
  destruct (reachable_known S OK _ _ HR) as (g0 & l0 & HA0 & _ & _ & HK & _). rewrite HA in HA0. injection HA0 as <- <-. unfold rx_waits in HW.
  destruct g as [|sec [[m gd] rq] r]; [destruct HC as (_ & _ & X); congruence|]. destruct HC as (_ & _ & _ & _ & _ & C6 & _ & C8).
  destruct (cells_guards _ _ _ _ _ _ _ _ HA) as (-> & -> & _). destruct HT as [_ HT].
  assert (X : r_control r = RLocking) by (destruct (C8 HW) as [X|X]; [exact X|rewrite X in HT; destruct HT]).
  destruct (C6 X) as [_ Y]. split; [apply orb_prop; exact Y|]. apply (HK X).
Qed.
Definition locks_phase (x : both) : Prop :=
  match x with
  | (Enabling, _) => False
  | (Active sec (_, g, _) r, l) => (sec = false /\ r_control r = RLock /\ r_held r = false) \/ (sec = true /\ r_control r = RLock) \/
      (sec = true /\ r_control r = RLocking /\ g_tx g || g_ack g = true)
  end.
Lemma locks_phase_step x e y : guards_agree x -> locks_phase x -> both_next S x e = Some y -> e <> Polled -> e <> Lock RxGuard true -> locks_phase y.
Proof.
  intros HG HP HN NP NT. destruct x as [g l]. apply both_next_inv in HN. destruct HN as (g' & l' & -> & EG & EL). destruct g as [|sec [[m gd] rq] r]; [destruct HP|].
  destruct HG as (_ & _ & _ & G4 & _ & _). assert (LC := law_cells _ _ _ EL). apply gnext_active in EG.
  destruct EG as [(X & _)|[(_ & EO & -> & [[m' gd'] rq'] & ET & ->)|(_ & EO & r' & ER & ->)]]; [congruence|..]; cbn [locks_phase] in *.
  - destruct HP as [HP|[[X _]|[X _]]]; try discriminate. left. exact HP.
  - destruct r as [c held busy]. cbn [r_control r_held] in *.
    assert (HX : r' = mkRxState c held busy /\ (exists d, e = ReceivedDone d) \/ c = RLock /\ held = false /\ e = Lock RxGuard false /\ r' = mkRxState RLocking held busy).
    { assert (c = RLock \/ c = RLocking) as [-> | ->] by (destruct HP as [(_ & X & _)|[(_ & X)|(_ & X & _)]]; auto);
      destruct e; try discriminate; try (injection EO as ->); try discriminate; cbn [rx_next] in ER; try discriminate; try (injection ER as <-; eauto; fail); destruct c; try discriminate.
      destruct held; try discriminate. destruct busy; try discriminate. destruct ok; [congruence|]. injection ER as <-. auto. }
    destruct HX as [(-> & d & ->)|(-> & -> & -> & ->)].
    + cbn [r_control r_held]. destruct HP as [(_ & X & _)|[(_ & X)|(_ & X & Y)]]; auto.
    + right; right. cbn [r_control]. split; [reflexivity|]. split; [reflexivity|]. destruct LC as (X & _). rewrite G4, orb_false_r in X. destruct (g_tx gd || g_ack gd); [reflexivity|discriminate].
Qed.
Lemma in_dec_lock s : In (Lock RxGuard true) s \/ ~ In (Lock RxGuard true) s.
Proof.
  induction s as [|e s [IH|IH]]; [right; intros []|left; right; exact IH|].
  assert (D : e = Lock RxGuard true \/ e <> Lock RxGuard true) by (destruct e; try (right; discriminate); destruct c; try (right; discriminate); destruct ok; [left; reflexivity|right; discriminate]).
  destruct D as [->|D]; [left; left; reflexivity|]. right. intros [X|X]; contradiction.
Qed.
Theorem rx_locks h s : history S (h ++ Polled :: s ++ [Polled]) -> ~ In Polled s -> rx_waits h ->
  In (Lock RxGuard true) s \/ cells (h ++ Polled :: s) TxGuard = true \/ cells (h ++ Polled :: s) AckGuard = true.
Proof.
  intros HH N1 HW. destruct (in_dec_lock s) as [HI|HI]; [auto|]. right.
  assert (H1 : history S (h ++ [Polled])).
  { destruct HH as (y & HH). change (Polled :: s ++ [Polled]) with ([Polled] ++ (s ++ [Polled])) in HH. rewrite app_assoc in HH.
    destruct (accepted_prefix _ _ _ _ _ HH) as (z & HZ & _). exists z. exact HZ. }
  destruct (at_rest _ H1) as (g & l & HA & HG & HC & HT). unfold rx_waits in HW. destruct g as [|sec [[m gd] rq] r]; [destruct HC as (_ & _ & X); congruence|]. destruct HC as (_ & _ & _ & _ & _ & C6 & _ & C8).
  destruct HT as [_ HT]. assert (X : r_control r = RLocking) by (destruct (C8 HW) as [X|X]; [exact X|rewrite X in HT; destruct HT]).
  destruct HH as (y & HH). change (Polled :: s ++ [Polled]) with ((Polled :: s) ++ [Polled]) in HH. rewrite app_assoc in HH. destruct (accepted_prefix _ _ _ _ _ HH) as (z & HZ & HE).
  assert (HZ' := HZ). destruct (accepted_prefix _ _ _ _ _ HZ) as (x & HX & HT2). rewrite HA in HX. injection HX as <-. cbn [accepts] in HT2. destruct (both_next S _ Polled) as [z1|] eqn:E1; [|discriminate].
  assert (HG1 := guards_agree_step S _ _ _ HG E1).
  assert (HP1 : locks_phase z1).
  { apply both_next_inv in E1. destruct E1 as (g' & l' & -> & EG & EL). apply gnext_active in EG. destruct EG as [(_ & [[m' gd'] rq'] & r' & ET & ER & ->)|[(Y & _)|(Y & _)]]; [|congruence..].
    destruct r as [c held busy]. cbn [r_control] in X. subst c. injection ER as <-. cbn [locks_phase r_control r_held]. left. split; [reflexivity|]. split; [reflexivity|].
    destruct HG as (_ & _ & _ & _ & G5 & G6). cbn [r_held] in *. destruct (C6 eq_refl) as [_ Y]. apply orb_prop in Y. destruct Y as [Y|Y]; [apply G5; exact Y|apply G6; exact Y]. }
  assert (HP : locks_phase z).
  { clear - HG1 HP1 HT2 N1 HI. revert z1 HG1 HP1 HT2. induction s as [|e s IH]; intros x HG HP HA; cbn in HA; [injection HA as <-; exact HP|]. destruct (both_next S x e) as [z1|] eqn:E; [|discriminate].
    apply (IH ltac:(intros X; apply N1; right; exact X) ltac:(intros X; apply HI; right; exact X) z1); [exact (guards_agree_step S _ _ _ HG E)| |exact HA].
    eapply locks_phase_step; [exact HG|exact HP|exact E|intros ->; apply N1; left; reflexivity|intros ->; apply HI; left; reflexivity]. }
  destruct z as [g2 l2]. destruct g2 as [|sec2 [[m2 gd2] rq2] r2]; [destruct HP|]. destruct (cells_guards _ _ _ _ _ _ _ _ HZ') as (-> & -> & _).
  cbn [accepts] in HE. destruct (both_next S _ Polled) as [z3|] eqn:E3; [|discriminate]. apply both_next_inv in E3. destruct E3 as (g' & l' & -> & EG & EL). apply gnext_active in EG.
  destruct EG as [(_ & t' & r' & ET & ER & ->)|[(Y & _)|(Y & _)]]; [|congruence..]. destruct r2 as [c held busy]. cbn [locks_phase r_control r_held] in HP.
  destruct HP as [(_ & -> & _)|[(_ & ->)|(_ & _ & Y)]]; try discriminate ER. apply orb_prop. exact Y.
Qed.
End Facts.
