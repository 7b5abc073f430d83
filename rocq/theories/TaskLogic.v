(** TaskLogic.v -- proving that a future's events follow an automaton. [next s e]: the automaton's state after [e], None
    if [e] is not allowed in [s]. [fine n D p s Q]: for n steps, whatever the environment answers, all events of [p]
    started in [s] are allowed, [p] does not panic, wherever it is suspended (with destructors c, in state s') [D c s']
    holds, and if it ends with [a] in [s'] then [Q a s']. *)
From Coq Require Import List.
Import ListNotations.
From Verif Require Import Async AsyncProofs RadioFutures CsmaTasks.

Section Logic.
Context {L : Type}.
(** the answers the environment can give *)
Variable possible : L -> event -> Prop.

Section Automaton.
Variable next : L -> event -> option L.

Section Suspension.
Variable D : list (op unit) -> L -> Prop.

Fixpoint fine (n : nat) {A} (p : future A) (s : L) (Q : A -> L -> Prop) : Prop :=
  match n with
  | O => True
  | S n =>
      match p with
      | Ret a => Q a s
      | Tau p => fine n p s Q
      | Vis o k => forall b, possible s (o b) -> exists s', next s (o b) = Some s' /\ fine n (k b) s' Q
      | Pend c p => D c s /\ exists s', next s Polled = Some s' /\ fine n p s' Q
      | Fail => False
      end
  end.
Definition Fine {A} (p : future A) (s : L) (Q : A -> L -> Prop) : Prop := forall n, fine n p s Q.

Lemma fine_mono n : forall A (p : future A) s (Q Q' : A -> L -> Prop), (forall a s, Q a s -> Q' a s) -> fine n p s Q -> fine n p s Q'.
Proof.
  induction n as [|n IH]; intros A p s Q Q' H; [auto|]. destruct p; cbn.
  - apply H.
  - apply IH, H.
  - intros HF b HP. destruct (HF b HP) as (s' & E & HF'). exists s'. split; [exact E|]. exact (IH _ _ _ _ _ H HF').
  - intros (HD & s' & E & HF). split; [exact HD|]. exists s'. split; [exact E|]. exact (IH _ _ _ _ _ H HF).
  - auto.
Qed.
Lemma fine_less n : forall m A (p : future A) s (Q : A -> L -> Prop), m <= n -> fine n p s Q -> fine m p s Q.
Proof.
  induction n as [|n IH]; intros m A p s Q H HF; [assert (m = 0) by (inversion H; reflexivity); subst; exact I|].
  destruct m as [|m]; [exact I|]. assert (H' : m <= n) by (apply le_S_n, H). destruct p; cbn in *.
  - exact HF.
  - exact (IH _ _ _ _ _ H' HF).
  - intros b HP. destruct (HF b HP) as (s' & E & HF'). exists s'. split; [exact E|]. exact (IH _ _ _ _ _ H' HF').
  - destruct HF as (HD & s' & E & HF). split; [exact HD|]. exists s'. split; [exact E|]. exact (IH _ _ _ _ _ H' HF).
  - exact HF.
Qed.
Lemma Fine_mono A (p : future A) s (Q Q' : A -> L -> Prop) : (forall a s, Q a s -> Q' a s) -> Fine p s Q -> Fine p s Q'.
Proof. intros H HF n. exact (fine_mono n _ _ _ _ _ H (HF n)). Qed.

Lemma Fine_ret A (a : A) s (Q : A -> L -> Prop) : Q a s -> Fine (Ret a) s Q.
Proof. intros H [|n]; [exact I|exact H]. Qed.
Lemma Fine_tau A (p : future A) s (Q : A -> L -> Prop) : Fine p s Q -> Fine (Tau p) s Q.
Proof. intros H [|n]; [exact I|exact (H n)]. Qed.
Lemma Fine_vis A B (o : op B) (k : B -> future A) s (Q : A -> L -> Prop) :
  (forall b, possible s (o b) -> exists s', next s (o b) = Some s' /\ Fine (k b) s' Q) -> Fine (Vis o k) s Q.
Proof.
  intros H [|n]; [exact I|]. intros b HP. destruct (H b HP) as (s' & E & HF). exists s'. split; [exact E|apply HF].
Qed.
Lemma Fine_pend A c (p : future A) s s' (Q : A -> L -> Prop) : D c s -> next s Polled = Some s' -> Fine p s' Q -> Fine (Pend c p) s Q.
Proof. intros HD E H [|n]; [exact I|]. split; [exact HD|]. exists s'. split; [exact E|apply H]. Qed.

(** inversions *)
Lemma Fine_tau_inv A (p : future A) s (Q : A -> L -> Prop) : Fine (Tau p) s Q -> Fine p s Q.
Proof. intros H n. exact (H (S n)). Qed.
Lemma Fine_ret_inv A (a : A) s (Q : A -> L -> Prop) : Fine (Ret a) s Q -> Q a s.
Proof. intros H. exact (H 1). Qed.
Lemma Fine_pend_inv A c (p : future A) s (Q : A -> L -> Prop) : Fine (Pend c p) s Q ->
  D c s /\ exists s', next s Polled = Some s' /\ Fine p s' Q.
Proof.
  intros H. destruct (H 1) as (HD & s' & E & _). split; [exact HD|]. exists s'. split; [exact E|].
  intros n. destruct (H (S n)) as (_ & s2 & E2 & HF). rewrite E in E2. injection E2 as <-. exact HF.
Qed.
Lemma Fine_vis_inv A B (o : op B) (k : B -> future A) s (Q : A -> L -> Prop) : Fine (Vis o k) s Q ->
  forall b, possible s (o b) -> exists s', next s (o b) = Some s' /\ Fine (k b) s' Q.
Proof.
  intros H b HP. destruct (H 1 b HP) as (s' & E & _). exists s'. split; [exact E|]. intros n.
  destruct (H (S n) b HP) as (s2 & E2 & HF). rewrite E in E2. injection E2 as <-. exact HF.
Qed.
Lemma Fine_fail_inv A s (Q : A -> L -> Prop) : ~ Fine Fail s Q.
Proof. intros H. exact (H 1). Qed.

Lemma Fine_bind A B (p : future A) (k : A -> future B) s (Q : B -> L -> Prop) :
  Fine p s (fun a s' => Fine (k a) s' Q) -> Fine (bind p k) s Q.
Proof.
  intros H n. specialize (H n). revert p s H. induction n as [|n IH]; intros p s H; [exact I|].
  destruct p as [a|p|X o f|c p|].
  - rewrite bind_ret. exact (H (S n)).
  - rewrite bind_tau. exact (IH _ _ H).
  - rewrite bind_vis. intros b HP. destruct (H b HP) as (s' & E & HF). exists s'. split; [exact E|exact (IH _ _ HF)].
  - rewrite bind_pend. destruct H as (HD & s' & E & HF). split; [exact HD|]. exists s'. split; [exact E|exact (IH _ _ HF)].
  - destruct H.
Qed.

Lemma Fine_iter X A (body : X -> future (X + A)) (I : X -> L -> Prop) (Q : A -> L -> Prop) :
  (forall x s, I x s -> Fine (body x) s (fun r s' => match r with inl x' => I x' s' | inr a => Q a s' end)) ->
  forall x s, I x s -> Fine (iter body x) s Q.
Proof.
  intros HB.
  assert (H : forall n p s, fine n p s (fun r s' => match r with inl x' => I x' s' | inr a => Q a s' end) -> fine n (iter_from body p) s Q).
  { induction n as [|n IH]; intros p s H; [exact Logic.I|]. destruct p as [r|p|B o f|c p|].
    - rewrite iter_from_ret. destruct r as [x'|a]; [|exact H]. cbn. apply IH. apply HB. exact H.
    - rewrite iter_from_tau. exact (IH _ _ H).
    - rewrite iter_from_vis. intros b HP. destruct (H b HP) as (s' & E & HF). exists s'. split; [exact E|exact (IH _ _ HF)].
    - rewrite iter_from_pend. destruct H as (HD & s' & E & HF). split; [exact HD|]. exists s'. split; [exact E|exact (IH _ _ HF)].
    - destruct H. }
  intros x s HI n. apply H. apply HB. exact HI.
Qed.

(** one operation *)
Lemma Fine_ask A B (o : B -> event) (k : B -> future A) s (Q : A -> L -> Prop) :
  (forall b, possible s (o b) -> exists s', next s (o b) = Some s' /\ Fine (k b) s' Q) -> Fine (bind (ask o) k) s Q.
Proof.
  intros H. apply Fine_bind. apply Fine_vis. intros b HP. destruct (H b HP) as (s' & E & HF). exists s'. split; [exact E|].
  apply Fine_ret. exact HF.
Qed.
Lemma Fine_call A e (k : unit -> future A) s s' (Q : A -> L -> Prop) :
  next s e = Some s' -> Fine (k tt) s' Q -> Fine (bind (call e) k) s Q.
Proof.
  intros E H. apply Fine_bind. apply Fine_vis. intros [] HP. exists s'. split; [exact E|]. apply Fine_ret. exact H.
Qed.
(** a future that is polled until ready; [s] before each poll, [s1] while suspended *)
Lemma Fine_awaiting A B (o : option B -> event) (k : B -> future A) s s1 (Q : A -> L -> Prop) :
  next s (o None) = Some s1 -> D [] s1 -> next s1 Polled = Some s ->
  (forall b, possible s (o (Some b)) -> exists s', next s (o (Some b)) = Some s' /\ Fine (k b) s' Q) ->
  Fine (bind (awaiting o) k) s Q.
Proof.
  intros E HD EP H. apply Fine_bind. intros n.
  assert (G : forall n, fine n (awaiting o) s (fun b s' => Fine (k b) s' Q) /\
                        fine n (Pend (Op := op) [] (awaiting o)) s1 (fun b s' => Fine (k b) s' Q)).
  { clear n. induction n as [|n [IH1 IH2]]; [split; exact I|]. split.
    - unfold awaiting. rewrite await_eq. intros [b|] HP.
      + destruct (H b HP) as (s' & Es & HF). exists s'. split; [exact Es|]. apply Fine_ret. exact HF.
      + exists s1. split; [exact E|]. exact IH2.
    - split; [exact HD|]. exists s. split; [exact EP|exact IH1]. }
  apply G.
Qed.
Lemma Fine_awaits A (o : bool -> event) (k : unit -> future A) s s1 (Q : A -> L -> Prop) :
  next s (o false) = Some s1 -> D [] s1 -> next s1 Polled = Some s ->
  (possible s (o true) -> exists s', next s (o true) = Some s' /\ Fine (k tt) s' Q) ->
  Fine (bind (awaits o) k) s Q.
Proof.
  intros E HD EP H. apply Fine_bind. intros n.
  assert (G : forall n, fine n (awaits o) s (fun b s' => Fine (k b) s' Q) /\
                        fine n (Pend (Op := op) [] (awaits o)) s1 (fun b s' => Fine (k b) s' Q)).
  { clear n. induction n as [|n [IH1 IH2]]; [split; exact I|]. split.
    - unfold awaits. rewrite await_ready_eq. intros [|] HP.
      + destruct (H HP) as (s' & Es & HF). exists s'. split; [exact Es|]. apply Fine_ret. exact HF.
      + exists s1. split; [exact E|]. exact IH2.
    - split; [exact HD|]. exists s. split; [exact EP|exact IH1]. }
  apply G.
Qed.
(** the same when the state differs between polls: [J] holds before each *)
Lemma Fine_awaiting_inv A B (o : option B -> event) (k : B -> future A) (J : L -> Prop) s (Q : A -> L -> Prop) :
  J s ->
  (forall s, J s -> exists s1 s2, next s (o None) = Some s1 /\ D [] s1 /\ next s1 Polled = Some s2 /\ J s2) ->
  (forall s b, J s -> possible s (o (Some b)) -> exists s', next s (o (Some b)) = Some s' /\ Fine (k b) s' Q) ->
  Fine (bind (awaiting o) k) s Q.
Proof.
  intros HJ HN H. apply Fine_bind. intros n.
  assert (G : forall n s, (J s -> fine n (awaiting o) s (fun b s' => Fine (k b) s' Q)) /\
                        (D [] s -> (exists s2, next s Polled = Some s2 /\ J s2) -> fine n (Pend (Op := op) [] (awaiting o)) s (fun b s' => Fine (k b) s' Q))).
  { clear n s HJ. induction n as [|n IH]; [split; intros; exact I|]. intros s. split.
    - intros HJ. unfold awaiting. rewrite await_eq. intros [b|] HP.
      + destruct (H s b HJ HP) as (s' & Es & HF). exists s'. split; [exact Es|]. apply Fine_ret. exact HF.
      + destruct (HN s HJ) as (s1 & s2 & E & HD & EP & HJ2). exists s1. split; [exact E|]. apply (IH s1); [exact HD|eauto].
    - intros HD (s2 & EP & HJ). split; [exact HD|]. exists s2. split; [exact EP|]. apply (IH s2). exact HJ. }
  apply (G n s). exact HJ.
Qed.
Lemma Fine_awaits_inv A (o : bool -> event) (k : unit -> future A) (J : L -> Prop) s (Q : A -> L -> Prop) :
  J s ->
  (forall s, J s -> exists s1 s2, next s (o false) = Some s1 /\ D [] s1 /\ next s1 Polled = Some s2 /\ J s2) ->
  (forall s, J s -> possible s (o true) -> exists s', next s (o true) = Some s' /\ Fine (k tt) s' Q) ->
  Fine (bind (awaits o) k) s Q.
Proof.
  intros HJ HN H. apply Fine_bind. intros n.
  assert (G : forall n s, (J s -> fine n (awaits o) s (fun b s' => Fine (k b) s' Q)) /\
                        (D [] s -> (exists s2, next s Polled = Some s2 /\ J s2) -> fine n (Pend (Op := op) [] (awaits o)) s (fun b s' => Fine (k b) s' Q))).
  { clear n s HJ. induction n as [|n IH]; [split; intros; exact I|]. intros s. split.
    - intros HJ. unfold awaits. rewrite await_ready_eq. intros [|] HP.
      + destruct (H s HJ HP) as (s' & Es & HF). exists s'. split; [exact Es|]. apply Fine_ret. exact HF.
      + destruct (HN s HJ) as (s1 & s2 & E & HD & EP & HJ2). exists s1. split; [exact E|]. apply (IH s1); [exact HD|eauto].
    - intros HD (s2 & EP & HJ). split; [exact HD|]. exists s2. split; [exact EP|]. apply (IH s2). exact HJ. }
  apply (G n s). exact HJ.
Qed.
Lemma Fine_yield A t (k : unit -> future A) s s1 s2 (Q : A -> L -> Prop) :
  next s (Woken t) = Some s1 -> D [] s1 -> next s1 Polled = Some s2 -> Fine (k tt) s2 Q ->
  Fine (bind (yield_now t) k) s Q.
Proof.
  intros E HD EP H. apply Fine_bind. unfold yield_now, yield_now_with. apply Fine_vis. intros [] _. exists s1. split; [exact E|].
  eapply Fine_pend; [exact HD|exact EP|]. apply Fine_ret. exact H.
Qed.
Lemma Fine_lift A B (o : Base.outcome A) (k : A -> future B) s (Q : B -> L -> Prop) a :
  o = Base.Done a -> Fine (k a) s Q -> Fine (bind (lift o) k) s Q.
Proof. intros -> H. apply Fine_bind. apply Fine_ret. exact H. Qed.
(** an expression without a continuation, as the last statement *)
Lemma Fine_last A (p : future A) s (Q : A -> L -> Prop) : Fine (bind p (fun a => Ret a)) s Q -> Fine p s Q.
Proof.
  intros H n. specialize (H n). revert p s H. induction n as [|n IH]; intros p s H; [exact I|].
  destruct p as [a|p|X o f|c p|].
  - rewrite bind_ret in H. exact H.
  - rewrite bind_tau in H. exact (IH _ _ H).
  - rewrite bind_vis in H. intros b HP. destruct (H b HP) as (s' & E & HF). exists s'. split; [exact E|exact (IH _ _ HF)].
  - rewrite bind_pend in H. destruct H as (HD & s' & E & HF). split; [exact HD|]. exists s'. split; [exact E|exact (IH _ _ HF)].
  - rewrite bind_fail in H. exact H.
Qed.
End Suspension.

(** a weaker demand on suspension points *)
Lemma fine_suspension (D D' : list (op unit) -> L -> Prop) n : forall A (p : future A) s (Q : A -> L -> Prop),
  (forall c s, D c s -> D' c s) -> fine D n p s Q -> fine D' n p s Q.
Proof.
  induction n as [|n IH]; intros A p s Q H; [auto|]. destruct p; cbn; auto.
  - intros HF b HP. destruct (HF b HP) as (s' & E & HF'). exists s'. split; [exact E|]. exact (IH _ _ _ _ H HF').
  - intros (HD & s' & E & HF). split; [auto|]. exists s'. split; [exact E|]. exact (IH _ _ _ _ H HF).
Qed.

Lemma Fine_scoped (D : list (op unit) -> L -> Prop) A c (p : future A) s (Q : A -> L -> Prop) :
  Fine (fun c' s' => D (c' ++ c) s') p s Q -> Fine D (scoped c p) s Q.
Proof.
  intros H n. specialize (H n). revert p s H. induction n as [|n IH]; intros p s H; [exact I|].
  destruct p as [a|p|X o f|c' p|].
  - rewrite scoped_ret. exact H.
  - rewrite scoped_tau. exact (IH _ _ H).
  - rewrite scoped_vis. intros b HP. destruct (H b HP) as (s' & E & HF). exists s'. split; [exact E|exact (IH _ _ HF)].
  - rewrite scoped_pend. destruct H as (HD & s' & E & HF). split; [exact HD|]. exists s'. split; [exact E|exact (IH _ _ HF)].
  - destruct H.
Qed.

(** join with a future that is polled until ready and that does not concern the automaton *)
Lemma Fine_join_awaits (D : list (op unit) -> L -> Prop) A (p : future A) (o : bool -> event) s (Q : A * unit -> L -> Prop) :
  (forall s b, next s (o b) = Some s) ->
  Fine D p s (fun a s' => D [] s' /\ next s' Polled = Some s' /\ Q (a, tt) s') -> Fine D (join p (awaits o)) s Q.
Proof.
  intros HO H n. specialize (H n).
  assert (G : forall n a s, D [] s /\ next s Polled = Some s /\ Q (a, tt) s -> fine D n (join_second (Finished a) (awaits o)) s Q).
  { clear n p s H. intros n a s (HD & HP & HQ).
    assert (X : forall n, fine D n (join_second (Finished a) (awaits o)) s Q /\ fine D n (join_second (Op := op) (Finished a) (Pend [] (awaits o))) s Q).
    { clear n. induction n as [|n [IH1 IH2]]; [split; exact I|]. split.
      - unfold awaits at 1. rewrite await_ready_eq, join_second_vis. intros b _. exists s. split; [apply HO|]. destruct b.
        + rewrite join_second_ret. apply Fine_ret. exact HQ.
        + exact IH2.
      - rewrite join_second_pend. split; [exact HD|]. exists s. split; [exact HP|exact IH1]. }
    apply X. }
  assert (F : forall n p s, fine D n p s (fun a s' => D [] s' /\ next s' Polled = Some s' /\ Q (a, tt) s') ->
     fine D n (join_first p (Finished tt)) s Q).
  { clear p s H n. induction n as [|n IH]; intros p s H; [exact I|]. destruct p as [a|p|X o' f|c p|].
    - rewrite join_first_ret. apply H.
    - rewrite join_first_tau. exact (IH _ _ H).
    - rewrite join_first_vis. intros b HPo. destruct (H b HPo) as (s' & E & HF). exists s'. split; [exact E|exact (IH _ _ HF)].
    - rewrite join_first_pend. destruct H as (HD & s' & E & HF). split; [exact HD|]. exists s'. split; [exact E|exact (IH _ _ HF)].
    - destruct H. }
  unfold join. revert p s H.
  induction n as [n IH] using (well_founded_induction Wf_nat.lt_wf). intros p s H.
  destruct n as [|n]; [exact I|]. destruct p as [a|p|X o' f|c p|].
  - rewrite join_first_ret. apply (G n a s H).
  - rewrite join_first_tau. apply (IH n (le_n _) p s H).
  - rewrite join_first_vis. intros b HPo. destruct (H b HPo) as (s' & E & HF). exists s'. split; [exact E|exact (IH n (le_n _) _ _ HF)].
  - rewrite join_first_pend. destruct H as (HD & s' & E & HF). cbn.
    destruct n as [|n]; [exact I|]. unfold awaits. rewrite await_ready_eq, join_second_vis. intros b _. exists s. split; [apply HO|].
    destruct n as [|n]; [exact I|]. destruct b.
    + rewrite join_second_ret. split; [exact HD|]. exists s'. split; [exact E|]. apply F.
      apply (fine_less D (S (S n))); [do 2 constructor; constructor|exact HF].
    + rewrite join_second_pend. split; [rewrite app_nil_r; exact HD|]. exists s'. split; [exact E|].
      apply (IH n); [constructor; constructor; constructor|]. apply (fine_less D (S (S n))); [do 2 constructor; constructor|exact HF].
  - destruct H.
Qed.
End Automaton.

(** select with a future that is polled until ready: [o false] happens at each suspension of [p]; when it is ready, [p] is
    dropped *)
Definition with_poll (next : L -> event -> option L) (o : bool -> event) : L -> event -> option L :=
  fun s e => match e with
             | Polled => match next s (o false) with Some s => next s Polled | None => None end
             | _ => next s e
             end.
Fixpoint lrun (next : L -> event -> option L) (c : list (op unit)) (s : L) : option L :=
  match c with [] => Some s | o :: c => match next s (o tt) with Some s => lrun next c s | None => None end end.
Lemma lrun_app next c c' s : lrun next (c ++ c') s = match lrun next c s with Some s => lrun next c' s | None => None end.
Proof. revert s. induction c as [|o c IH]; intros s; cbn; [reflexivity|]. destruct (next s (o tt)); [apply IH|reflexivity]. Qed.

Lemma fine_cleanup (next : L -> event -> option L) D A c (r : A) (Q : A -> L -> Prop) : forall n s s',
  lrun next c s = Some s' -> Q r s' -> fine next D n (cleanup (Op := op) c (Ret r)) s Q.
Proof.
  induction c as [|o c IH]; intros n s s' E H; cbn in *.
  - injection E as <-. apply Fine_ret. exact H.
  - destruct n as [|n]; [exact I|]. intros [] _. destruct (next s (o tt)) as [s1|] eqn:E1; [|discriminate].
    exists s1. split; [reflexivity|]. eapply IH; eassumption.
Qed.

Hypothesis never_polls : forall s, ~ possible s Polled.

Lemma Fine_select_awaits (next : L -> event -> option L) (D : list (op unit) -> L -> Prop) A (p : future A) (o : bool -> event) s
    (Q : A + unit -> L -> Prop) :
  Fine (with_poll next o)
       (fun c s => (forall s1, next s (o false) = Some s1 -> D c s1) /\
                   (possible s (o true) -> exists s1 s2, next s (o true) = Some s1 /\ lrun next c s1 = Some s2 /\ Q (inr tt) s2))
       p s (fun a s' => Q (inl a) s') ->
  Fine next D (select p (awaits o)) s Q.
Proof.
  intros H n. specialize (H n). unfold select. revert p s H.
  induction n as [n IH] using (well_founded_induction Wf_nat.lt_wf). intros p s H.
  destruct n as [|n]; [exact I|]. destruct p as [a|p|X o' f|c p|].
  - rewrite select_first_ret. cbn [cleanup]. exact H.
  - rewrite select_first_tau. apply (IH n (le_n _) p s H).
  - rewrite select_first_vis. intros b HPo. destruct (H b HPo) as (s' & E & HF). exists s'. split.
    + unfold with_poll in E. destruct (o' b) eqn:Eo; try exact E. destruct (never_polls _ HPo).
    + exact (IH n (le_n _) _ _ HF).
  - rewrite select_first_pend. destruct H as ((HD & HR) & s' & E & HF). cbn [with_poll] in E. cbn.
    destruct (next s (o false)) as [s1|] eqn:E1; [|discriminate].
    destruct n as [|n]; [exact I|]. unfold awaits. rewrite await_ready_eq, select_second_vis. intros b HP.
    destruct b.
    + destruct (HR HP) as (s2 & s3 & E2 & E3 & HQ). exists s2. split; [exact E2|]. rewrite select_second_ret.
      eapply fine_cleanup; eassumption.
    + exists s1. split; [exact E1|]. destruct n as [|n]; [exact I|]. rewrite select_second_pend.
      split; [rewrite app_nil_r; exact (HD _ eq_refl)|]. exists s'. split; [exact E|].
      apply (IH n); [constructor; constructor; constructor|].
      apply (fine_less _ _ (S (S n))); [do 2 constructor; constructor|exact HF].
  - destruct H.
Qed.
End Logic.

(** Two tasks side by side ([select] in run): each follows its own automaton. [gnext] moves the one the event belongs to. *)
Section Parallel.
Context {L1 L2 G : Type}.
Variables (possible1 : L1 -> event -> Prop) (next1 : L1 -> event -> option L1) (D1 : list (op unit) -> L1 -> Prop).
Variables (possible2 : L2 -> event -> Prop) (next2 : L2 -> event -> option L2) (D2 : list (op unit) -> L2 -> Prop).
(** the states of the pair while the first, the second task runs *)
Variables (first_runs second_runs : L1 -> L2 -> G).
Variables (possible : G -> event -> Prop) (next : G -> event -> option G) (D : list (op unit) -> G -> Prop).
Hypothesis possible_first : forall s1 s2 e, possible (first_runs s1 s2) e -> possible1 s1 e.
Hypothesis possible_second : forall s1 s2 e, possible (second_runs s1 s2) e -> possible2 s2 e.
Hypothesis possible_polled1 : forall s, ~ possible1 s Polled.
Hypothesis possible_polled2 : forall s, ~ possible2 s Polled.
Hypothesis next_first : forall s1 s2 e s1', e <> Polled -> next1 s1 e = Some s1' -> next (first_runs s1 s2) e = Some (first_runs s1' s2).
Hypothesis next_second : forall s1 s2 e s2', e <> Polled -> next2 s2 e = Some s2' -> next (second_runs s1 s2) e = Some (second_runs s1 s2').
Hypothesis D_both : forall c1 c2 s1 s2, D1 c1 s1 -> D2 c2 s2 -> D (c1 ++ c2) (second_runs s1 s2).
Hypothesis next_polled : forall s1 s2 s1' s2', next1 s1 Polled = Some s1' -> next2 s2 Polled = Some s2' ->
  next (second_runs s1 s2) Polled = Some (first_runs s1' s2').
(** the second task takes over within the same poll: its first event is possible, and moves the pair *)
Hypothesis hand_possible : forall s1 s2 e, possible (first_runs s1 s2) e -> possible2 s2 e.
Hypothesis hand_next : forall s1 s2 e s2', e <> Polled -> next2 s2 e = Some s2' -> next (first_runs s1 s2) e = Some (second_runs s1 s2').
Hypothesis hand_D : forall c1 c2 s1 s2, D1 c1 s1 -> D2 c2 s2 -> D (c1 ++ c2) (first_runs s1 s2).
Hypothesis hand_polled : forall s1 s2 s1' s2', next1 s1 Polled = Some s1' -> next2 s2 Polled = Some s2' ->
  next (first_runs s1 s2) Polled = Some (first_runs s1' s2').

Definition never {A : Type} (x : Empty_set) (s : A) : Prop := False.
Lemma Fine_parallel (p q : future Empty_set) s1 s2 : Fine possible1 next1 D1 p s1 never -> Fine possible2 next2 D2 q s2 never ->
  Fine possible next D (select p q) (first_runs s1 s2) (fun _ _ => False).
Proof.
  intros HP HQ n. unfold select.
  enough (H : (forall p c q s1 s2, Fine possible1 next1 D1 p s1 never -> Fine possible2 next2 D2 q s2 never ->
                fine possible next D n (select_first p c q) (first_runs s1 s2) (fun _ _ => False)) /\
              (forall c p q s1 s1' s2, D1 c s1 -> next1 s1 Polled = Some s1' -> Fine possible1 next1 D1 p s1' never ->
                Fine possible2 next2 D2 q s2 never ->
                fine possible next D n (select_second c p q) (first_runs s1 s2) (fun _ _ => False) /\
                fine possible next D n (select_second c p q) (second_runs s1 s2) (fun _ _ => False)))
    by (apply H; assumption).
  clear p q s1 s2 HP HQ. induction n as [|n [IH1 IH2]]; [split; intros; [|split]; exact I|]. split.
  - intros p c q s1 s2 HP HQ. destruct p as [a|p|X o f|c' p|].
    + destruct a.
    + rewrite select_first_tau. apply IH1; [apply Fine_tau_inv; exact HP|exact HQ].
    + rewrite select_first_vis. intros b HPo. destruct (Fine_vis_inv _ _ _ _ _ _ _ _ _ HP b (possible_first _ _ _ HPo)) as (s' & E & HF).
      exists (first_runs s' s2). split; [|apply IH1; assumption]. apply next_first; [|exact E].
      intros Ep. rewrite Ep in HPo. apply possible_first in HPo. exact (possible_polled1 _ HPo).
    + rewrite select_first_pend. destruct (Fine_pend_inv _ _ _ _ _ _ _ _ HP) as (HD & s' & E & HF).
      exact (proj1 (IH2 c' p q s1 s' s2 HD E HF HQ)).
    + destruct (Fine_fail_inv _ _ _ _ _ _ HP).
  - intros c p q s1 s1' s2 HD E HP HQ. destruct q as [a|q|X o f|c' q|].
    + destruct a.
    + rewrite select_second_tau. apply Fine_tau_inv in HQ. exact (IH2 c p q s1 s1' s2 HD E HP HQ).
    + rewrite select_second_vis. split.
      * intros b HPo. destruct (Fine_vis_inv _ _ _ _ _ _ _ _ _ HQ b (hand_possible _ _ _ HPo)) as (s' & E' & HF).
        exists (second_runs s1 s'). split; [|exact (proj2 (IH2 c p (f b) s1 s1' s' HD E HP HF))].
        apply hand_next; [|exact E']. intros Ep. rewrite Ep in HPo. apply hand_possible in HPo. exact (possible_polled2 _ HPo).
      * intros b HPo. destruct (Fine_vis_inv _ _ _ _ _ _ _ _ _ HQ b (possible_second _ _ _ HPo)) as (s' & E' & HF).
        exists (second_runs s1 s'). split; [|exact (proj2 (IH2 c p (f b) s1 s1' s' HD E HP HF))].
        apply next_second; [|exact E']. intros Ep. rewrite Ep in HPo. apply possible_second in HPo. exact (possible_polled2 _ HPo).
    + rewrite select_second_pend. destruct (Fine_pend_inv _ _ _ _ _ _ _ _ HQ) as (HD2 & s' & E' & HF). split.
      * split; [apply hand_D; assumption|]. exists (first_runs s1' s'). split; [apply hand_polled; assumption|]. apply IH1; assumption.
      * split; [apply D_both; assumption|]. exists (first_runs s1' s'). split; [apply next_polled; assumption|]. apply IH1; assumption.
    + destruct (Fine_fail_inv _ _ _ _ _ _ HQ).
Qed.
End Parallel.
