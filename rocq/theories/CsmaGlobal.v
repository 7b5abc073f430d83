(** CsmaGlobal.v -- every history of the device is accepted by the automata of the two tasks and by the laws of the mutex
    and the channel (used in proofs; see SpecTasks.v for the properties). *)
From Coq Require Import Lia.
From Verif Require Import Base Sync Csma CsmaTasks CsmaWorld TaskLogic SpecTasks TxAutomaton TxProofs RxAutomaton RxProofs.
From Verif Require Import Async AsyncProofs.

Section Global.
Variable S : Setup.

(** ** The program *)
Inductive gstate := Enabling | Active (second : bool) (t : txstate) (r : rxstate).
Definition gnext (g : gstate) (e : event) : option gstate :=
  match g with
  | Enabling => match e with
                | Polled | Enable false => Some Enabling
                | Enable true => Some (Active false (Idle, free, NoRequest) rx_start)
                | _ => None
                end
  | Active second t r =>
      match e with
      | Polled => match tx_next S t Polled, rx_next S r Polled with Some t, Some r => Some (Active false t r) | _, _ => None end
      | _ => match owner e with
             | Some Tx => if second then None else match tx_next S t e with Some t => Some (Active false t r) | None => None end
             | Some Rx => match rx_next S r e with Some r => Some (Active true t r) | None => None end
             | None => None
             end
      end
  end.
Definition gpossible (g : gstate) (e : event) : Prop :=
  e <> Polled /\ match g with Enabling => True | Active _ t r => tx_possible t e /\ rx_possible r e end.
Definition gdrop (c : list (op unit)) (g : gstate) : Prop :=
  match g with Enabling => c = [] | Active _ t r => exists c1 c2, c = c1 ++ c2 /\ tx_drop c1 t /\ rx_drop c2 r end.

Lemma tx_owner t e t' : e <> Polled -> tx_next S t e = Some t' -> owner e = Some Tx.
Proof.
  intros NP. destruct t as [[m g] r]. unfold tx_next. destruct (course_next S m e); [|discriminate].
  destruct (guards_next g e) eqn:E; [|discriminate]. intros _.
  destruct e; cbn in E |- *; try discriminate; try congruence; try reflexivity; try (destruct t; [reflexivity|discriminate]);
    try (destruct c0; try reflexivity; discriminate).
Qed.
Lemma rx_owner r e r' : e <> Polled -> rx_next S r e = Some r' -> owner e = Some Rx.
Proof.
  intros NP. destruct r as [c h b]. unfold rx_next. intros E.
  destruct e; try discriminate; try congruence; try reflexivity; try (destruct t; [discriminate|reflexivity]); try (destruct c0; try reflexivity; discriminate).
Qed.
Lemma gnext_tx t r e t' : e <> Polled -> tx_next S t e = Some t' -> gnext (Active false t r) e = Some (Active false t' r).
Proof.
  intros NP E. assert (O := tx_owner _ _ _ NP E). unfold gnext. rewrite O, E. destruct e; congruence || reflexivity.
Qed.
Lemma gnext_rx b t r e r' : e <> Polled -> rx_next S r e = Some r' -> gnext (Active b t r) e = Some (Active true t r').
Proof.
  intros NP E. assert (O := rx_owner _ _ _ NP E). unfold gnext. rewrite O, E. destruct e; congruence || reflexivity.
Qed.

Theorem run_fine : setup_ok S -> Fine gpossible gnext gdrop (run S) Enabling never.
Proof.
  intros OK. unfold run. eapply Fine_awaits; [reflexivity|reflexivity|reflexivity|]. intros _. eexists. split; [reflexivity|].
  apply Fine_bind. eapply Fine_mono; [|apply (Fine_parallel tx_possible (tx_next S) (tx_drop) rx_possible (rx_next S) rx_drop
    (Active false) (Active true) gpossible gnext gdrop)].
  - intros a s [].
  - intros s1 s2 e (_ & H & _). exact H.
  - intros s1 s2 e (_ & _ & H). exact H.
  - intros s H. exact H.
  - intros s H. exact H.
  - intros s1 s2 e s1' NP E. apply gnext_tx; assumption.
  - intros s1 s2 e s2' NP E. apply gnext_rx; assumption.
  - intros c1 c2 s1 s2 H1 H2. exists c1, c2. auto.
  - intros s1 s2 s1' s2' E1 E2. cbn. rewrite E1, E2. reflexivity.
  - intros s1 s2 e (_ & _ & H). exact H.
  - intros s1 s2 e s2' NP E. apply gnext_rx; assumption.
  - intros c1 c2 s1 s2 H1 H2. exists c1, c2. auto.
  - intros s1 s2 s1' s2' E1 E2. cbn. rewrite E1, E2. reflexivity.
  - apply tx_fine. exact OK.
  - apply rx_fine. exact OK.
Qed.

(** ** The mutex, the channel, the buffers *)
Record law := mkLaw { l_locked : bool; l_held : cell -> bool; l_signal : bool }.
Definition law_next (l : law) (e : event) : option law :=
  let (locked, held, signal) := l in
  match e with
  | Lock c ok | TryLock c ok =>
      if Bool.eqb ok (negb locked) then Some (if ok then mkLaw true (set_cell c true held) signal else l) else None
  | Holds c b => if Bool.eqb b (held c) then Some l else None
  | Release c => Some (if held c then mkLaw false (set_cell c false held) signal else l)
  | Move c c' => Some (mkLaw locked (set_cell c false (set_cell c' (held c) held)) signal)
  | Random n => if (n <? 2 ^ 32)%N then Some l else None
  | SignalReady ok => if Bool.eqb ok (negb signal) then Some l else None
  | SignalSend => Some (mkLaw locked held true)
  | SignalReceived ok => if Bool.eqb ok signal then Some (mkLaw locked held false) else None
  | Receive _ (Some (_, b)) => if buffer_okb b then Some l else None
  | NextFrame (Some f) => if buffer_okb (fb_buffer f) then Some l else None
  | _ => Some l
  end.
Definition law_start : law := mkLaw false (fun _ => false) false.

Definition chan_ok (c : ChannelState unit) : Prop := ch_ready c = true -> ch_slot c = SInit tt.
Definition law_of (w : world) (l : law) : Prop :=
  mx_locked (w_radio w) = l_locked l /\ (forall c, w_held w c = l_held l c) /\ ch_ready (w_chan w) = l_signal l /\ chan_ok (w_chan w).

Lemma set_cell_ext c b h h' : (forall x, h x = h' x) -> forall x : cell, set_cell c b h x = set_cell c b h' x.
Proof. intros H x. unfold set_cell. destruct (cell_eqb c x); auto. Qed.

Lemma law_follows w l e w' : law_of w l -> happens w e = Some w' -> exists l', law_next l e = Some l' /\ law_of w' l'.
Proof.
  intros HW HE. destruct l as [k h s]. unfold happens in HE. destruct (next_state w e) as [v|] eqn:E; [|discriminate]. injection HE as <-.
  unfold law_of in *. cbn [record w_radio w_held w_chan l_locked l_held l_signal] in *. destruct HW as (HK & HH & HS & HC).
  destruct e; try (injection E as <-; eexists; split; [reflexivity|]; cbn [w_radio w_held w_chan l_locked l_held l_signal]; auto; fail); try discriminate; cbn [next_state law_next] in E |- *.
  - (* Receive *) destruct r as [[a b]|]; [|injection E as <-; eexists; split; [reflexivity|]; auto].
    destruct (buffer_okb b); [|discriminate]. injection E as <-. eexists; split; [reflexivity|]; auto.
  - (* Lock *) unfold lock_poll in E. rewrite HK in E. destruct k; cbn [negb].
    + assert (X : ok = false /\ mx_locked (w_radio v) = true /\ w_held v = w_held w /\ w_chan v = w_chan w).
      { destruct (mx_waker (w_radio w)) as [u|]; [destruct (u =? waker)|]; destruct ok; cbn in E; try discriminate; injection E as <-; auto. }
      destruct X as (-> & -> & -> & ->). eexists; split; [reflexivity|]. auto.
    + destruct ok; cbn in E; [|discriminate]. injection E as <-. eexists; split; [reflexivity|]. cbn. repeat split; auto using set_cell_ext.
  - (* TryLock *) unfold try_lock in E. rewrite HK in E. destruct k; cbn [negb].
    + destruct ok; cbn in E; [discriminate|]. injection E as <-. eexists; split; [reflexivity|]. auto.
    + destruct ok; cbn in E; [|discriminate]. injection E as <-. eexists; split; [reflexivity|]. cbn. repeat split; auto using set_cell_ext.
  - (* Holds *) rewrite HH in E. destruct (eqb b (h c)); [|discriminate]. injection E as <-. eexists; split; [reflexivity|]; auto.
  - (* Release *) rewrite HH in E. destruct (h c); injection E as <-; (eexists; split; [reflexivity|]); cbn; auto.
    unfold guard_drop. destruct (mx_waker (w_radio w)); cbn; repeat split; auto using set_cell_ext.
  - (* Move *) injection E as <-. eexists; split; [reflexivity|]. cbn. rewrite HH. repeat split; auto using set_cell_ext.
  - (* RngLock *) destruct (lock_poll waker (w_rng w)) as [[r m] x]. destruct (eqb ok r); [|discriminate]. injection E as <-. eexists; split; [reflexivity|]; auto.
  - (* Random *) destruct (n <? _)%N; [|discriminate]. injection E as <-. eexists; split; [reflexivity|]; auto.
  - (* SignalReady *) unfold send_ready_poll, has_item in E. rewrite HS in E. destruct s.
    + assert (X : ok = false /\ w_radio v = w_radio w /\ w_held v = w_held w /\ ch_ready (w_chan v) = ch_ready (w_chan w) /\ ch_slot (w_chan v) = ch_slot (w_chan w)).
      { destruct (ch_send (w_chan w)) as [u|]; [destruct (u =? waker)|]; destruct ok; cbn in E; try discriminate; injection E as <-; cbn; auto. }
      destruct X as (-> & -> & -> & E1 & E2). eexists; split; [reflexivity|]. unfold chan_ok in *. rewrite E1, E2. auto.
    + destruct ok; cbn in E; [|discriminate]. injection E as <-. eexists; split; [reflexivity|]. auto.
  - (* SignalSend *) unfold send in E. rewrite HS in E. assert (X : v = mkWorld (w_radio w) (w_rng w) (mkChannel true None (ch_send (w_chan w)) (SInit tt)) (w_held w) (w_hist w)).
    { destruct s; [|injection E as <-; reflexivity]. destruct (ch_slot (w_chan w)); try discriminate. injection E as <-. reflexivity. }
    subst v. eexists; split; [reflexivity|]. cbn. repeat split; auto.
  - (* SignalReceived *) unfold receive_poll in E. rewrite HS in E. destruct s.
    + rewrite (HC HS) in E. destruct ok; cbn in E; [|discriminate]. injection E as <-. eexists; split; [reflexivity|]. cbn. repeat split; auto. intros X; discriminate X.
    + destruct ok; cbn in E; [discriminate|]. injection E as <-. eexists; split; [reflexivity|]. cbn. repeat split; auto. intros X; discriminate X.
  - (* NextFrame *) destruct r as [f|]; [|injection E as <-; eexists; split; [reflexivity|]; auto].
    destruct (buffer_okb (fb_buffer f)); [|discriminate]. injection E as <-. eexists; split; [reflexivity|]; auto.
Qed.

(** ** Both *)
Definition both := (gstate * law)%type.
Definition both_next (x : both) (e : event) : option both :=
  match gnext (fst x) e, law_next (snd x) e with Some g, Some l => Some (g, l) | _, _ => None end.
Fixpoint accepts (x : both) (h : list event) : option both :=
  match h with [] => Some x | e :: h => match both_next x e with Some x => accepts x h | None => None end end.
Definition both_start : both := (Enabling, law_start).
Lemma accepts_app x h h' : accepts x (h ++ h') = match accepts x h with Some y => accepts y h' | None => None end.
Proof. revert x. induction h as [|e h IH]; intros x; cbn; [reflexivity|]. destruct (both_next x e); [apply IH|reflexivity]. Qed.
Lemma accepts_snoc x h e y : accepts x h = Some y -> accepts x (h ++ [e]) = both_next y e.
Proof. intros E. rewrite accepts_app, E. cbn. destruct (both_next y e); reflexivity. Qed.

(** The guards the automata know of are those that are held, at most one of them, and only then the mutex is locked. *)
Definition guards_agree (x : both) : Prop :=
  match x with
  | (Enabling, l) => l_locked l = false /\ forall c, l_held l c = false
  | (Active _ (_, g, _) r, l) =>
      l_held l TxGuard = g_tx g /\ l_held l AckGuard = g_ack g /\ l_held l RxGuard = r_held r /\
      l_locked l = (g_tx g || g_ack g || r_held r) /\
      (g_tx g = true -> g_ack g = false /\ r_held r = false) /\ (g_ack g = true -> r_held r = false)
  end.
Lemma tx_cells m g r e m' g' r' : tx_next S (m, g, r) e = Some (m', g', r') ->
  match e with
  | TryLock c ok => c = TxGuard /\ g_tx g = false /\ g_ack g = false /\ g_tx g' = ok /\ g_ack g' = false
  | Release c => (c = TxGuard /\ g_tx g' = false /\ g_ack g' = g_ack g) \/ (c = AckGuard /\ g_tx g' = g_tx g /\ g_ack g' = false)
  | Move c c' => c = TxGuard /\ c' = AckGuard /\ g_tx g = true /\ g_ack g = false /\ g_tx g' = false /\ g_ack g' = true
  | Lock _ _ => False
  | _ => g_tx g' = g_tx g /\ g_ack g' = g_ack g
  end.
Proof.
  unfold tx_next. destruct (course_next S m e) as [m2|]; [|discriminate]. destruct (guards_next g e) as [g2|] eqn:E; [|discriminate].
  destruct (request_next r e) as [r2|]; [|discriminate]. intros [= <- <- <-]. destruct g as [a b busy]. unfold guards_next in E. cbn [g_tx g_ack g_busy] in *.
  destruct e; try discriminate; try (destruct t; try discriminate); try (destruct c; try discriminate); try (destruct c'; try discriminate);
    destruct a; destruct b; destruct busy; cbn in E; try discriminate E; injection E as <-; cbn; auto 10.
Qed.
Lemma rx_cells r e r' : rx_next S r e = Some r' ->
  match e with
  | Lock c ok => c = RxGuard /\ r_held r = false /\ r_held r' = ok
  | Release c => c = RxGuard /\ r_held r' = false
  | TryLock _ _ | Move _ _ => False
  | _ => r_held r' = r_held r
  end.
Proof.
  destruct r as [c held busy]. unfold rx_next. intros E.
  destruct e; try discriminate; try (destruct t; try discriminate); try (destruct c0; try discriminate); cbn [r_held];
    try (injection E as <-; reflexivity);
    destruct c; try discriminate; destruct held; try discriminate; destruct busy; try discriminate;
    repeat match type of E with
    | (if ?x then _ else _) = _ => destruct x; try discriminate
    | match ?x with _ => _ end = _ => destruct x; try discriminate
    end; try (injection E as <-; cbn; auto).
Qed.

Lemma law_cells l e l' : law_next l e = Some l' ->
  match e with
  | Lock c ok | TryLock c ok => ok = negb (l_locked l) /\ l_locked l' = true /\ l_held l' = if ok then set_cell c true (l_held l) else l_held l
  | Release c => l_locked l' = (if l_held l c then false else l_locked l) /\ l_held l' = if l_held l c then set_cell c false (l_held l) else l_held l
  | Move c c' => l_locked l' = l_locked l /\ l_held l' = set_cell c false (set_cell c' (l_held l c) (l_held l))
  | _ => l_locked l' = l_locked l /\ l_held l' = l_held l
  end.
Proof.
  destruct l as [k h s]. cbn [l_locked l_held]. intros E. destruct e; cbn [law_next] in E;
    try (injection E as <-; cbn [l_locked l_held]; auto; fail).
  - destruct r as [[a b]|]; [destruct (buffer_okb b); [|discriminate]|]; injection E as <-; auto.
  - destruct (eqb ok (negb k)) eqn:EK; [|discriminate]. apply eqb_prop in EK. injection E as <-. destruct ok; cbn [l_locked l_held]; auto.
    destruct k; [auto|discriminate].
  - destruct (eqb ok (negb k)) eqn:EK; [|discriminate]. apply eqb_prop in EK. injection E as <-. destruct ok; cbn [l_locked l_held]; auto.
    destruct k; [auto|discriminate].
  - destruct (eqb b (h c)); [|discriminate]. injection E as <-; auto.
  - injection E as <-. destruct (h c); auto.
  - destruct (n <? _)%N; [|discriminate]. injection E as <-; auto.
  - destruct (eqb ok (negb s)); [|discriminate]. injection E as <-; auto.
  - destruct (eqb ok s); [|discriminate]. injection E as <-; auto.
  - destruct r as [f|]; [destruct (buffer_okb (fb_buffer f)); [|discriminate]|]; injection E as <-; auto.
Qed.

Lemma gnext_active sec t r e g' : gnext (Active sec t r) e = Some g' ->
  (e = Polled /\ exists t' r', tx_next S t Polled = Some t' /\ rx_next S r Polled = Some r' /\ g' = Active false t' r') \/
  (e <> Polled /\ owner e = Some Tx /\ sec = false /\ exists t', tx_next S t e = Some t' /\ g' = Active false t' r) \/
  (e <> Polled /\ owner e = Some Rx /\ exists r', rx_next S r e = Some r' /\ g' = Active true t r').
Proof.
  unfold gnext. intros E. assert (NP : e = Polled \/ e <> Polled) by (destruct e; auto; right; discriminate). destruct NP as [->|NP].
  - left. split; [reflexivity|]. destruct (tx_next S t Polled) as [t'|]; [|discriminate]. destruct (rx_next S r Polled) as [r'|]; [|discriminate].
    injection E as <-. eauto 10.
  - right. assert (E' : match owner e with
             | Some Tx => if sec then None else match tx_next S t e with Some t => Some (Active false t r) | None => None end
             | Some Rx => match rx_next S r e with Some r => Some (Active true t r) | None => None end
             | None => None
             end = Some g') by (destruct e; congruence || exact E).
    destruct (owner e) as [[|]|]; [| |discriminate].
    + left. destruct sec; [discriminate|]. destruct (tx_next S t e) as [t'|]; [|discriminate]. injection E' as <-. eauto 10.
    + right. destruct (rx_next S r e) as [r'|]; [|discriminate]. injection E' as <-. eauto 10.
Qed.
Lemma both_next_inv g l e y : both_next (g, l) e = Some y -> exists g' l', y = (g', l') /\ gnext g e = Some g' /\ law_next l e = Some l'.
Proof.
  unfold both_next. cbn [fst snd]. destruct (gnext g e) as [g'|]; [|discriminate]. destruct (law_next l e) as [l'|]; [|discriminate].
  intros [= <-]. eauto.
Qed.
Lemma gnext_enabling e g' : gnext Enabling e = Some g' ->
  owner e = None /\ (g' = Enabling \/ g' = Active false (Idle, free, NoRequest) rx_start).
Proof. destruct e; try discriminate; [intros [= <-]; auto|]. destruct done; intros [= <-]; auto. Qed.

Lemma guards_agree_step x e y : guards_agree x -> both_next x e = Some y -> guards_agree y.
Proof.
  destruct x as [g l]. intros HG HE. apply both_next_inv in HE. destruct HE as (g' & l' & -> & EG & EL). apply law_cells in EL.
  destruct g as [|sec [[m gd] rq] r].
  - apply gnext_enabling in EG. destruct EG as [EO EG]. cbn [guards_agree] in HG.
    assert (X : l_locked l' = l_locked l /\ l_held l' = l_held l) by (destruct e; try discriminate; exact EL).
    destruct X as [X1 X2]. destruct EG as [->| ->]; cbn [guards_agree]; rewrite X1, X2; [exact HG|]. destruct HG as [-> HG]. rewrite !HG.
    repeat split; intros X; discriminate X.
  - cbn [guards_agree] in HG. destruct l as [k h s]. destruct l' as [k' h' s']. cbn [l_held l_locked] in HG, EL. destruct HG as (H1 & H2 & H3 & H4 & H5 & H6).
    apply gnext_active in EG. destruct EG as [(-> & [[m' gd'] rq'] & r' & ET & ER & ->)|[(NP & EO & -> & [[m' gd'] rq'] & ET & ->)|(NP & EO & r' & ER & ->)]].
    + apply tx_cells in ET. apply rx_cells in ER. destruct ET as [E1 E2]. destruct EL as [-> ->]. cbn [guards_agree l_held l_locked]. rewrite E1, E2, ER. auto 10.
    + apply tx_cells in ET. cbn [guards_agree l_held l_locked].
      destruct e; try (destruct EL as [-> ->]; destruct ET as [-> ->]; auto 10; fail); try contradiction.
      * destruct ET as (-> & E1 & E2 & E3 & E4). destruct EL as (-> & -> & ->). rewrite E1, E2 in *. cbn in H4. rewrite E3, E4.
        destruct k; cbn; [rewrite ?H1, ?H2, ?H3; auto 10|]. rewrite H2, H3, <- H4. auto 10.
      * destruct EL as [-> ->]. destruct ET as [(-> & E1 & E2)|(-> & E1 & E2)]; rewrite E1, E2.
        { rewrite H1. destruct (g_tx gd) eqn:Eg; cbn.
          - destruct (H5 eq_refl) as [X Y]. rewrite H2, H3, X, Y. auto 10.
          - rewrite H1, H2, H3, H4. auto 10. }
        { rewrite H2. destruct (g_ack gd) eqn:Eg; cbn.
          - destruct (g_tx gd); [destruct (H5 eq_refl); discriminate|]. rewrite H1, H3, (H6 eq_refl). auto 10.
          - rewrite H1, H2, H3, H4. auto 10. }
      * destruct ET as (-> & -> & E1 & E2 & E3 & E4). destruct EL as [-> ->]. cbn. rewrite E3, E4, H1, H3, E1. destruct (H5 E1) as [_ ->].
        rewrite H4, E1. auto 10.
    + apply rx_cells in ER. cbn [guards_agree l_held l_locked].
      destruct e; try (destruct EL as [-> ->]; rewrite ER; auto 10; fail); try contradiction.
      * destruct ER as (-> & E1 & E2). destruct EL as (-> & -> & ->). rewrite E1 in *.
        rewrite E2. destruct k; cbn; [rewrite ?H1, ?H2, ?H3, <- H4; auto 10|].
        destruct (g_tx gd); [discriminate H4|]. destruct (g_ack gd); [discriminate H4|]. cbn in *. rewrite H1, H2. repeat split; try reflexivity; try (intros X); discriminate.
      * destruct ER as (-> & E1). destruct EL as [-> ->]. rewrite E1, H3. destruct (r_held r); cbn; rewrite ?H1, ?H2, ?H3.
        { destruct (g_tx gd); [destruct (H5 eq_refl); discriminate|]. destruct (g_ack gd); [specialize (H6 eq_refl); discriminate|]. auto 10. }
        { repeat split; auto; apply H5; assumption. }
Qed.

Lemma possible_of g l e l' : guards_agree (g, l) -> e <> Polled -> law_next l e = Some l' -> gpossible g e.
Proof.
  intros HG NP E. split; [exact NP|]. destruct g as [|sec [[m gd] rq] r]; [exact I|]. cbn [guards_agree] in HG. destruct l as [k h s]. cbn [l_held l_locked] in HG.
  destruct HG as (H1 & H2 & H3 & _). split; destruct e; cbn [tx_possible rx_possible fst snd]; try exact I; try congruence; cbn [law_next] in E.
  - destruct r0 as [[a b]|]; [|exact I]. destruct (buffer_okb b); [reflexivity|discriminate].
  - destruct c; try exact I. destruct (eqb b (h TxGuard)) eqn:EB; [|discriminate]. apply eqb_prop in EB. congruence.
  - destruct (n <? _)%N eqn:EN; [|discriminate]. apply N.ltb_lt. exact EN.
  - destruct r0 as [f|]; [|exact I]. destruct (buffer_okb (fb_buffer f)); [reflexivity|discriminate].
  - destruct r0 as [[a b]|]; [|exact I]. destruct (buffer_okb b); [reflexivity|discriminate].
  - destruct c; try exact I. destruct (eqb b (h RxGuard)) eqn:EB; [|discriminate]. apply eqb_prop in EB. congruence.
Qed.
Lemma next_state_hist w e v : next_state w e = Some v -> w_hist v = w_hist w.
Proof.
  destruct e; cbn [next_state]; intros E; try discriminate; try (injection E as <-; reflexivity).
  - destruct r as [[a b]|]; [destruct (buffer_okb b); [|discriminate]|]; injection E as <-; reflexivity.
  - destruct (lock_poll waker (w_radio w)) as [[r m] x]. destruct (eqb ok r); [|discriminate]. injection E as <-. reflexivity.
  - destruct (try_lock (w_radio w)) as [r m]. destruct (eqb ok r); [|discriminate]. injection E as <-. reflexivity.
  - destruct (eqb b (w_held w c)); [|discriminate]. injection E as <-. reflexivity.
  - destruct (w_held w c); injection E as <-; reflexivity.
  - destruct (lock_poll waker (w_rng w)) as [[r m] x]. destruct (eqb ok r); [|discriminate]. injection E as <-. reflexivity.
  - destruct (n <? _)%N; [|discriminate]. injection E as <-. reflexivity.
  - destruct (send_ready_poll waker (w_chan w)) as [[r m] x]. destruct (eqb ok r); [|discriminate]. injection E as <-. reflexivity.
  - destruct (send tt (w_chan w)) as [[[[? ?] ?] ?]|]; [|discriminate]. injection E as <-. reflexivity.
  - destruct (receive_poll waker (w_chan w)) as [[[r ?] ?]|]; [|discriminate]. destruct (eqb ok _); [|discriminate]. injection E as <-. reflexivity.
  - destruct r as [f|]; [destruct (buffer_okb (fb_buffer f)); [|discriminate]|]; injection E as <-; reflexivity.
Qed.
Lemma happens_hist w e w' : happens w e = Some w' -> w_hist w' = w_hist w ++ [e].
Proof.
  unfold happens. destruct (next_state w e) as [v|] eqn:E; [|discriminate]. intros [= <-]. cbn [record w_hist]. rewrite (next_state_hist _ _ _ E). reflexivity.
Qed.
Lemma happens_not_polled w w' : happens w Polled <> Some w'.
Proof. discriminate. Qed.

(** While the receive task waits for the lock, the mutex has its waker. *)
Definition locking (g : gstate) : Prop := match g with Active _ _ r => r_control r = RLocking | Enabling => False end.
Definition second_runs (g : gstate) : bool := match g with Active b _ _ => b | Enabling => false end.
Definition waker_kept (w : world) (g : gstate) : Prop := locking g -> second_runs g = true /\ mx_waker (w_radio w) = Some waker.
Lemma rx_locking r e r' : rx_next S r e = Some r' -> r_control r' = RLocking -> e = Lock RxGuard false \/ (r_control r = RLocking /\ exists d, e = ReceivedDone d).
Proof.
  destruct r as [c held busy]. destruct r' as [c' held' busy']. cbn [r_control]. intros E ->. destruct e; cbn [rx_next] in E; try discriminate;
    try (destruct t; try discriminate); try (match goal with x : cell |- _ => destruct x; try discriminate end).
  all: try (right; injection E as -> _ _; eauto; fail).
  all: destruct c; try discriminate.
  all: repeat match type of E with
    | (if ?x then _ else _) = _ => destruct x; try discriminate
    | match ?x with _ => _ end = _ => destruct x; try discriminate
    | Some (mkRxState (if ?x then _ else _) _ _) = _ => destruct x; try discriminate
    | Some (mkRxState (match ?x with _ => _ end) _ _) = _ => destruct x; try discriminate
    end; try (left; reflexivity).
Qed.
Lemma locking_step g e g' : gnext g e = Some g' -> locking g' -> e = Lock RxGuard false \/ (exists sec t r t', g = Active sec t r /\ tx_next S t e = Some t' /\ sec = false /\ e <> Polled /\ g' = Active false t' r) \/ (locking g /\ (exists d, e = ReceivedDone d)).
Proof.
  destruct g as [|sec t r].
  - intros E. apply gnext_enabling in E. destruct E as [_ [->| ->]]; cbn; [intros []|discriminate].
  - intros E HL. apply gnext_active in E. destruct E as [(-> & t' & r' & ET & ER & ->)|[(NP & EO & -> & t' & ET & ->)|(NP & EO & r' & ER & ->)]]; cbn [locking] in HL |- *.
    + destruct (rx_locking _ _ _ ER HL) as [X|(_ & d & X)]; discriminate.
    + right; left. exists false, t, r, t'. auto.
    + destruct (rx_locking _ _ _ ER HL) as [X|X]; auto.
Qed.

Lemma waker_kept_step w g e w' g' : waker_kept w g -> happens w e = Some w' -> gnext g e = Some g' -> waker_kept w' g'.
Proof.
  intros HW HE EG HL. destruct (locking_step _ _ _ EG HL) as [->|[(sec & t & r & t' & -> & ET & -> & NP & ->)|(HL' & d & ->)]].
  - split.
    + destruct g as [|sec t r]; [apply gnext_enabling in EG; destruct EG; discriminate|]. apply gnext_active in EG.
      destruct EG as [(X & _)|[(_ & X & _)|(_ & _ & r' & _ & ->)]]; [discriminate|discriminate|reflexivity].
    + unfold happens in HE. cbn [next_state] in HE. unfold lock_poll in HE. destruct (mx_locked (w_radio w)); [|discriminate].
      destruct (mx_waker (w_radio w)) as [u|]; [destruct (u =? waker)|]; cbn in HE; injection HE as <-; reflexivity.
  - exfalso. destruct (HW HL) as [X _]. discriminate X.
  - destruct (HW HL') as [H1 H2]. split.
    + destruct g as [|sec t r]; [destruct HL'|]. apply gnext_active in EG.
      destruct EG as [(X & _)|[(_ & X & _)|(_ & _ & r' & _ & ->)]]; [discriminate|discriminate|reflexivity].
    + injection HE as <-. exact H2.
Qed.

(** What is known of every reachable state. *)
Definition known (p : future Empty_set) (w : world) : Prop :=
  exists g l, accepts both_start (w_hist w) = Some (g, l) /\ law_of w l /\ guards_agree (g, l) /\ waker_kept w g /\
    Fine gpossible gnext gdrop p g never.
Theorem reachable_known : setup_ok S -> forall p w, reachable S p w -> known p w.
Proof.
  intros OK p w HR. unfold reachable in HR. induction HR as [|q v q' v' HR (g & l & HA & HL & HG & HK & HF) HS].
  - exists Enabling, law_start. split; [reflexivity|]. split; [repeat split; discriminate|]. split; [split; reflexivity|]. split; [intros []|].
    apply run_fine. exact OK.
  - destruct q as [a|q|B o k|c q|]; cbn in HS.
    + destruct HS.
    + destruct HS as [-> ->]. exists g, l. apply Fine_tau_inv in HF. auto.
    + destruct HS as (b & HS & ->). unfold sem in HS. destruct (law_follows v l (o b) v' HL HS) as (l' & EL & HL').
      assert (NP : o b <> Polled) by (intros X; rewrite X in HS; exact (happens_not_polled _ _ HS)).
      destruct (Fine_vis_inv _ _ _ _ _ _ _ _ _ HF b (possible_of g l _ l' HG NP EL)) as (g' & EG & HF').
      assert (EB : both_next (g, l) (o b) = Some (g', l')) by (unfold both_next; cbn [fst snd]; rewrite EG, EL; reflexivity).
      exists g', l'. split; [rewrite (happens_hist _ _ _ HS); rewrite (accepts_snoc _ _ _ _ HA); exact EB|]. split; [exact HL'|].
      split; [exact (guards_agree_step _ _ _ HG EB)|]. split; [exact (waker_kept_step _ _ _ _ _ HK HS EG)|exact HF'].
    + destruct HS as [-> HB]. unfold between in HB. subst v'. destruct (Fine_pend_inv _ _ _ _ _ _ _ _ HF) as (HD & g' & EG & HF').
      assert (EB : both_next (g, l) Polled = Some (g', l)) by (unfold both_next; cbn [fst snd]; rewrite EG; destruct l; reflexivity).
      exists g', l. split; [cbn [record w_hist]; rewrite (accepts_snoc _ _ _ _ HA); exact EB|]. split; [exact HL|].
      split; [exact (guards_agree_step _ _ _ HG EB)|]. split; [|exact HF'].
      intros HL2. destruct (locking_step _ _ _ EG HL2) as [X|[(? & ? & ? & ? & _ & _ & _ & X & _)|(_ & d & X)]]; [discriminate|congruence|discriminate].
    + destruct HS.
Qed.

(** Every prefix of the history is accepted too. *)
Lemma accepted_prefix x h h' y : accepts x (h ++ h') = Some y -> exists z, accepts x h = Some z /\ accepts z h' = Some y.
Proof. rewrite accepts_app. destruct (accepts x h) as [z|]; [eauto|discriminate]. Qed.
Lemma guards_agree_accepts h : forall x y, guards_agree x -> accepts x h = Some y -> guards_agree y.
Proof.
  induction h as [|e h IH]; intros x y HG; cbn; [intros [= <-]; exact HG|]. destruct (both_next x e) as [z|] eqn:E; [|discriminate].
  apply IH. exact (guards_agree_step _ _ _ HG E).
Qed.
Lemma guards_agree_start : guards_agree both_start.
Proof. split; reflexivity. Qed.

Lemma accepts_ind (I : list event -> both -> Prop) : I [] both_start ->
  (forall h x e y, accepts both_start h = Some x -> I h x -> both_next x e = Some y -> I (h ++ [e]) y) ->
  forall h x, accepts both_start h = Some x -> I h x.
Proof.
  intros H0 HS h. induction h as [|e h IH] using rev_ind; intros x E.
  - injection E as <-. exact H0.
  - destruct (accepted_prefix _ _ _ _ E) as (z & E1 & E2). cbn in E2. destruct (both_next z e) as [y|] eqn:EB; [|discriminate].
    injection E2 as <-. eapply HS; [exact E1|apply IH; exact E1|exact EB].
Qed.
End Global.
