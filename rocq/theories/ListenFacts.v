(** ListenFacts.v -- after a frame was sent, the radio is given back or the device listens at once (proofs of C78). *)
From Coq Require Import Lia.
From Verif Require Import Base BaseProofs Sync Spec PhyConfig Time Csma CsmaTasks CsmaWorld SpecTasks TaskLogic CsmaGlobal TxFacts TasksLive Monitor AttendTasks RngFacts PromptFacts.
From Verif Require Import Async AsyncProofs RadioFutures.

(** nothing special; TxGuard is known to hold the guard; sent; the guard was moved; the timer runs; impossible *)
Inductive lstate := LQ | LH | L0 | L1 | L2 | LX.
Definition lnext (s : lstate) (e : event) : option lstate :=
  match s with
  | LQ => match e with Holds TxGuard true => Some LH | Transmit Tx (Some true) => None | _ => Some LQ end
  | LH => match e with
          | Release TxGuard | Move _ _ | Holds TxGuard false => Some LQ
          | Transmit Tx (Some true) => Some L0
          | _ => Some LH
          end
  | L0 => match e with
          | Holds TxGuard true => Some L0
          | Holds TxGuard false => Some LX
          | Release TxGuard => Some LQ
          | Move TxGuard AckGuard => Some L1
          | _ => None
          end
  | L1 => match e with Delay Tx _ => Some L2 | _ => None end
  | L2 => match e with PrepareRx Tx _ _ => Some LQ | _ => None end
  | LX => Some LX
  end.
Definition lrest (s : lstate) : Prop := s = LQ \/ s = LH \/ s = LX.
Lemma lrest_polled s s' : lnext s Polled = Some s' -> lrest s.
Proof. unfold lrest. destruct s; cbn; intros E; try discriminate; auto. Qed.
Notation lplain := (aside lnext lrest).
Notation LM := (Mfine lnext).
Lemma lplain_of B (o : op B) : (forall b, match o b with Holds TxGuard _ | Transmit Tx (Some true) | Release TxGuard | Move _ _ => False | _ => True end) -> lplain B o.
Proof.
  intros H s b HS. specialize (H b). destruct HS as [-> | [-> | ->]]; destruct (o b) as [| | | |t0 [[|]|]| | | | | |c0 b0|c0|c0 c1| | | | | | | | | | | | |]; cbn in *; try reflexivity;
    try (destruct t0; [contradiction|reflexivity]); try (destruct t0; reflexivity); try contradiction; destruct c0; try contradiction; reflexivity.
Qed.
Ltac lplain_op := apply lplain_of; let b := fresh in intros b; cbn; try exact I.
Ltac lplainly := solve [repeat ostep lplain_op].
Lemma l_dead A (p : future A) (Q : A -> lstate -> Prop) : (forall x, Q x LX) -> LM p LX Q.
Proof.
  intros HQ n. revert p. induction n as [|n IH]; intros p; [exact I|]. destruct p as [x|p|B o k|c p|]; cbn; auto.
  - intros b. exists LX. auto.
  - exists LX. auto.
Qed.
Lemma l_quiet A (p : future A) s : lrest s -> Ops lplain p -> LM p s (fun _ s' => s' = s).
Proof. intros HS. apply Mfine_aside; [exact HS|]. destruct HS as [-> | [-> | ->]]; reflexivity. Qed.
Lemma l_seq A B (p : future A) (k : A -> future B) s (Q : B -> lstate -> Prop) : lrest s -> Ops lplain p -> (forall x, LM (k x) s Q) -> LM (bind p k) s Q.
Proof. intros HS HP HK. apply Mfine_bind. eapply Mfine_mono; [|exact (l_quiet _ _ _ HS HP)]. intros x s' ->. apply HK. Qed.
Definition resting {A} (x : A) (s : lstate) : Prop := lrest s.
Lemma l_then A B (p : future A) (k : A -> future B) s (Q : B -> lstate -> Prop) : LM p s resting -> (forall x s, lrest s -> LM (k x) s Q) -> LM (bind p k) s Q.
Proof. intros HP HK. apply Mfine_bind. eapply Mfine_mono; [|exact HP]. intros x s' HS. exact (HK x s' HS). Qed.
Lemma l_plain A (p : future A) s : lrest s -> Ops lplain p -> LM p s resting.
Proof. intros HS HP. eapply Mfine_mono; [|exact (l_quiet _ _ _ HS HP)]. intros x s' ->. exact HS. Qed.
Ltac rests := unfold lrest; auto.

Section Tasks.
Variable U : Setup.
Lemma l_call e s : lrest s -> (forall s, lrest s -> exists s', lnext s e = Some s' /\ lrest s') -> LM (call e) s resting.
Proof. intros HS H. destruct (H s HS) as (s' & E & HS'). eapply Mfine_call; [exact E|exact HS']. Qed.
Lemma l_release s : lrest s -> LM (call (Release TxGuard)) s resting.
Proof. intros HS. apply l_call; [exact HS|]. intros s' [-> | [-> | ->]]; eexists; (split; [reflexivity|rests]). Qed.
Lemma l_acquire s : lrest s -> LM (acquire_lock TxGuard) s resting.
Proof.
  intros HS. unfold acquire_lock. apply l_then.
  - apply Mfine_ask. intros b. destruct HS as [-> | [-> | ->]], b; eexists; (split; [reflexivity|unfold resting; rests]).
  - intros [|] s' HS'; [apply Mfine_ret; exact HS'|]. apply l_plain; [exact HS'|lplainly].
Qed.
Lemma l_unwrap s : lrest s -> LM (unwrap_guard TxGuard) s (fun _ s => s = LH \/ s = LX).
Proof.
  intros HS. unfold unwrap_guard. apply Mfine_bind. apply Mfine_ask. intros [|]; destruct HS as [-> | [-> | ->]]; eexists; (split; [reflexivity|]); try apply Mfine_fail; apply Mfine_ret; auto.
Qed.
Lemma l_transmit c b : LM (transmit Tx c b) LH (fun sent s => s = if sent : bool then L0 else LH).
Proof.
  unfold transmit, radio_future. apply Mfine_scoped. apply l_seq; [rests|lplainly|]. intros _. apply (Mfine_awaiting _ (fun s => s = LH)); [reflexivity| |].
  - intros s ->. exists LH, LH. auto.
  - intros s [|] ->; eexists; (split; reflexivity).
Qed.
Lemma l_cca b s : lrest s -> LM (transmit_cca U b) s (fun ok s => if ok : bool then s = L0 \/ lrest s else lrest s).
Proof.
  intros HS. unfold transmit_cca. destruct (65536 <=? _)%N; [apply Mfine_fail|]. apply (Mfine_iter _ _ _ _ lrest); [|exact HS]. clear s HS. intros [n be] s HS.
  destruct (n <=? _)%N; [|apply Mfine_ret; auto]. apply l_then; [apply l_acquire; exact HS|]. clear s HS. intros ? s HS. cbv beta in HS. apply Mfine_bind.
  eapply Mfine_mono; [|apply l_unwrap; exact HS]. clear s HS. intros _ s [-> | ->]; [|apply l_dead; intros [?|[|]]; rests]. apply Mfine_bind.
  eapply Mfine_mono; [|apply l_transmit]. intros [|] s ->; [apply Mfine_ret; auto|]. apply l_then; [apply l_release; rests|]. intros _ s HS.
  destruct (n =? _)%N; [apply Mfine_ret; exact HS|]. apply l_seq; [exact HS|lplainly|]. intros _. apply l_seq; [exact HS|lplainly|]. intros [be' u]. apply Mfine_ret. exact HS.
Qed.
Lemma l_wait seq s : s = L2 \/ lrest s -> LM (wait_for_valid_ack U seq) s resting.
Proof.
  unfold wait_for_valid_ack. apply (Mfine_iter _ _ _ _ (fun s => s = L2 \/ lrest s)). clear s. intros ? s HS. cbv beta in HS. apply l_then.
  - unfold receive, radio_future. apply Mfine_scoped. apply Mfine_bind. apply (Mfine_awaits _ (fun s => s = L2 \/ lrest s)); [exact HS| |]; clear s HS.
    + intros s [-> | [-> | [-> | ->]]]; do 2 eexists; (split; [reflexivity|]); (split; [reflexivity|]); rests.
    + intros s [-> | [-> | [-> | ->]]]; eexists; (split; [reflexivity|]); (apply l_plain; [rests|lplainly]).
  - clear s HS. intros [ok buf] s HS. destruct (negb ok); [apply Mfine_ret; auto|]. apply l_seq; [exact HS|lplainly|]. intros [|]; apply Mfine_ret; [exact HS|auto].
Qed.
Lemma l_await seq s : s = L0 \/ lrest s -> LM (await_ack U seq) s resting.
Proof.
  intros HS. unfold await_ack. apply Mfine_bind.
  assert (HA : LM (acquire_lock TxGuard) s (fun _ s => s = L0 \/ lrest s)).
  { destruct HS as [-> |HS]; [|eapply Mfine_mono; [|apply l_acquire; exact HS]; auto]. unfold acquire_lock. apply Mfine_bind. apply Mfine_ask. intros [|].
    - exists L0. split; [reflexivity|]. apply Mfine_ret. auto.
    - exists LX. split; [reflexivity|]. apply l_dead. rests. }
  eapply Mfine_mono; [|exact HA]. clear s HS HA. intros ? s HS. cbv beta in HS. destruct (duration_add _ _ _) as [d|]; [|cbn [lift]; rewrite bind_fail; apply Mfine_fail]. cbn [lift]. rewrite bind_ret.
  destruct (duration_add _ _ _) as [d2|]; [|cbn [lift]; rewrite bind_fail; apply Mfine_fail]. cbn [lift]. rewrite bind_ret. apply Mfine_bind.
  assert (HU : LM (unwrap_guard TxGuard) s (fun _ s => s = L0 \/ lrest s)).
  { destruct HS as [-> |HS]; [|eapply Mfine_mono; [|apply l_unwrap; exact HS]; rests; intros x s0 [-> | ->]; auto]. unfold unwrap_guard. apply Mfine_bind. apply Mfine_ask. intros [|].
    - exists L0. split; [reflexivity|]. apply Mfine_ret. auto.
    - exists LX. split; [reflexivity|]. apply Mfine_fail. }
  eapply Mfine_mono; [|exact HU]. clear s HS HU. intros ? s HS. cbv beta in HS. apply Mfine_bind.
  assert (HM : LM (call (Move TxGuard AckGuard)) s (fun _ s => s = L1 \/ lrest s)).
  { destruct HS as [-> | [-> | [-> | ->]]]; (eapply Mfine_call; [reflexivity|]); rests. }
  eapply Mfine_mono; [|exact HM]. clear s HS HM. intros ? s HS. cbv beta in HS. apply l_then.
  - apply Mfine_scoped. apply Mfine_bind.
    assert (HD : LM (call (Delay Tx (as_u32 d2))) s (fun _ s => s = L2 \/ lrest s)).
    { destruct HS as [-> | [-> | [-> | ->]]]; (eapply Mfine_call; [reflexivity|]); rests. }
    eapply Mfine_mono; [|exact HD]. clear s HS HD. intros ? s HS. cbv beta in HS. apply (Mfine_select_any lnext lrest lrest_polled); [lplainly|apply l_wait; exact HS|lplainly].
  - clear s HS. intros r s HS. apply l_seq; [exact HS|lplainly|]. intros _. apply Mfine_ret. exact HS.
Qed.
Lemma l_send b q s : lrest s -> LM (send_frame U b q) s resting.
Proof.
  intros HS. unfold send_frame. apply Mfine_bind. apply Mfine_scoped.
  assert (HE : forall s, s = L0 \/ lrest s -> LM (call (Release TxGuard)) s resting).
  { intros s' [-> |HS']; [eapply Mfine_call; [reflexivity|unfold resting; rests]|apply l_release; exact HS']. }
  destruct (65536 <=? _)%N; [apply Mfine_fail|]. apply (Mfine_iter _ _ _ _ lrest); [|exact HS]. clear s HS. intros i s HS.
  destruct (i <=? _)%N; [|apply Mfine_ret; apply HE; auto]. apply Mfine_bind. eapply Mfine_mono; [|apply l_cca; exact HS]. clear s HS. intros [|] s HS; cbn [negb].
  - destruct q as [sq|]; [|apply Mfine_ret; apply HE; exact HS]. apply l_then; [apply l_await; exact HS|]. clear s HS. intros [|] s HS; [apply Mfine_ret; apply HE; auto|].
    apply l_then; [apply l_release; exact HS|]. clear s HS. intros _ s HS.
    apply l_seq; [exact HS|lplainly|]. intros _. destruct (i =? _)%N; (apply l_seq; [exact HS|lplainly|]; intros _; apply Mfine_ret); [apply HE; auto|exact HS].
  - apply l_seq; [exact HS|lplainly|]. intros _. apply Mfine_ret. apply HE. auto.
Qed.
Lemma l_run : LM (run U) LQ (fun _ _ => True).
Proof.
  unfold run. apply l_seq; [rests|lplainly|]. intros _. apply Mfine_bind. apply (Mfine_select_left lnext lrest lrest_polled); [|lplainly].
  unfold transmit_package_task. apply (Mfine_iter _ _ _ _ lrest); [|rests]. intros _ s HS. apply l_seq; [exact HS|lplainly|]. intros fb. apply l_seq; [exact HS|lplainly|]. intros _.
  apply l_seq; [exact HS|lplainly|]. intros [b q]. apply l_then; [apply l_send; exact HS|]. intros x s' HS'. apply Mfine_ret. exact HS'.
Qed.

(** ** Histories *)
Lemma tx_guard_changes w e w' : happens w e = Some w' -> w_held w' TxGuard = match e with
    | Lock TxGuard true | TryLock TxGuard true => true
    | Release TxGuard | Move TxGuard _ => false
    | Move c TxGuard => w_held w c
    | _ => w_held w TxGuard end /\ (forall b, e = Holds TxGuard b -> b = w_held w TxGuard).
Proof.
  unfold happens. destruct (next_state w e) as [v|] eqn:E; [|discriminate]. intros [= <-]. cbn [record w_held]. split.
  - destruct e; cbn [next_state] in E; try congruence;
    repeat match type of E with
    | (let '(_, _) := ?x in _) = _ => destruct x eqn:?
    | (if ?x then _ else _) = _ => destruct x eqn:?
    | match ?x with _ => _ end = _ => destruct x eqn:?
    end; try congruence; injection E as <-; cbn [w_held]; try reflexivity;
    repeat match goal with H : Bool.eqb ?x ?y = true |- _ => apply Bool.eqb_prop in H; subst end;
    try (destruct c; try destruct c'; unfold set_cell; cbn [cell_eqb]; repeat match goal with |- context [if ?x then _ else _] => destruct x eqn:?; cbn [cell_eqb] end; congruence).
  - intros b ->. cbn [next_state] in E. destruct (Bool.eqb b (w_held w TxGuard)) eqn:EB; [|discriminate]. apply Bool.eqb_prop in EB. exact EB.
Qed.
Definition held_in (s : lstate) : bool := match s with LH | L0 => true | _ => false end.
Lemma reachable_listen p w : reachable U p w -> exists s, mrun lnext LQ (w_hist w) = Some s /\ LM p s (fun _ _ => True) /\ (held_in s = true -> w_held w TxGuard = true) /\ s <> LX.
Proof.
  intros HR. unfold reachable in HR. induction HR as [|q v q' v' HR (s & HS & HF & HL & HB) HM].
  - exists LQ. split; [reflexivity|]. split; [exact l_run|]. split; discriminate.
  - destruct q as [x|q|B o k|c q|]; cbn in HM.
    + destruct HM.
    + destruct HM as [-> ->]. exists s. split; [exact HS|]. split; [exact (Mfine_tau_inv _ _ _ _ _ HF)|]. auto.
    + destruct HM as (b & HM & ->). unfold sem in HM. destruct (Mfine_vis_inv _ _ _ _ _ _ _ HF b) as (s' & E & HF'). exists s'.
      destruct (tx_guard_changes _ _ _ HM) as [C1 C2]. split; [|split; [exact HF'|]].
      * rewrite (happens_hist _ _ _ HM), mrun_app, HS. cbn [mrun]. rewrite E. reflexivity.
      * clear - C1 C2 E HL HB. revert C1 C2 E. generalize (o b). intros e C1 C2 E. rewrite C1. clear C1.
        destruct s; try congruence; cbn [held_in] in HL; try (specialize (HL eq_refl)); destruct e as [| | | |t0 [[|]|]| | | |c0 b0|c0 b0|c0 b0|c0|c0 c1| | | | | | | | | | | | |]; cbn [lnext] in E; try discriminate;
          repeat match type of E with match ?x with _ => _ end = _ => destruct x; try discriminate end; injection E as <-; cbn [held_in];
          try (specialize (C2 _ eq_refl)); (split; [try discriminate; try congruence; try (destruct c0, b0); auto|discriminate || congruence]).
    + destruct HM as [-> HB']. unfold between in HB'. subst v'. destruct (Mfine_pend_inv _ _ _ _ _ _ HF) as (s' & E & HF'). exists s'. cbn [record w_hist w_held]. split; [|split; [exact HF'|]].
      * rewrite mrun_app, HS. cbn [mrun]. rewrite E. reflexivity.
      * destruct s; cbn in E; try discriminate; injection E as <-; try congruence; split; try discriminate; exact HL.
    + destruct HM.
Qed.
Theorem listens_at_once c p w h1 h2 : reachable U (Pend c p) w -> w_hist w = h1 ++ Transmit Tx (Some true) :: h2 ->
  exists h3 h4, h2 = h3 ++ h4 /\ ~ In Polled h3 /\ (In (Release TxGuard) h3 \/ exists us cf d, In (Delay Tx us) h3 /\ In (PrepareRx Tx cf d) h3).
Proof.
  intros HR HH. destruct (reachable_listen _ w HR) as (s & HS & HF & _ & HB). rewrite HH in HS. destruct (mrun_split _ _ _ _ _ _ HS) as (s1 & s2 & _ & E & HM).
  destruct (Mfine_pend_inv _ _ _ _ _ _ HF) as (s' & E' & _). assert (HE : s = LQ \/ s = LH) by (destruct s; try discriminate E'; auto; congruence).
  assert (HX : forall h, mrun lnext LX h <> Some s) by (intros h X; assert (forall h, mrun lnext LX h = Some LX) as Y by (intros h'; induction h'; auto); rewrite Y in X; congruence).
  assert (s2 = L0) as -> by (destruct s1; cbn in E; try congruence; injection E as <-; destruct (HX _ HM)). clear - HM HE HX.
  induction h2 as [|e h2 IH]; [injection HM as <-; destruct HE; discriminate|]. cbn [mrun] in HM.
  destruct e as [| | | | | | | | | |c0 [|]|c0|c0 c1| | | | | | | | | | | | |]; cbn [lnext] in HM; try discriminate.
  - destruct c0; try discriminate. destruct (IH HM) as (h3 & h4 & -> & HN & HI). exists (Holds TxGuard true :: h3), h4. split; [reflexivity|]. split; [intros [X|X]; [discriminate|exact (HN X)]|].
    destruct HI as [HI|(us & cf & d & H1 & H2)]; [left; right; exact HI|right; exists us, cf, d; split; right; assumption].
  - destruct c0; try discriminate. destruct (HX _ HM).
  - destruct c0; try discriminate. exists [Release TxGuard], h2. split; [reflexivity|]. split; [intros [X|[]]; discriminate|]. left. left. reflexivity.
  - destruct c0; try discriminate. destruct c1; try discriminate. destruct h2 as [|e h2]; [injection HM as <-; destruct HE; discriminate|]. cbn [mrun] in HM.
    destruct e as [| | | | | | | | | | | | | | | | | | | | | | | |t0 us|]; cbn [lnext] in HM; try discriminate. destruct t0; [|discriminate].
    destruct h2 as [|e h2]; [injection HM as <-; destruct HE; discriminate|]. cbn [mrun] in HM. destruct e as [| | | | |t0 cf d| | | | | | | | | | | | | | | | | | | |]; cbn [lnext] in HM; try discriminate. destruct t0; [|discriminate].
    exists [Move TxGuard AckGuard; Delay Tx us; PrepareRx Tx cf d], h2. split; [reflexivity|]. split; [intros [X|[X|[X|[]]]]; discriminate|]. right. exists us, cf, d. cbn. auto.
Qed.
End Tasks.
