(** Monitor.v -- the events of a future, watched by an automaton: [next s e] is its state after [e], None if [e] is not allowed
    (used in proofs). Like TaskLogic.v, but panics are allowed and children of select and join that the automaton does not
    care about are skipped. *)
From Coq Require Import Lia.
From Verif Require Import Base CsmaTasks CsmaWorld TasksLive.
From Verif Require Import Async AsyncProofs RadioFutures.

Section Monitor.
Context {L : Type}.
Variable next : L -> event -> option L.

Fixpoint mfine (n : nat) {A} (p : future A) (s : L) (Q : A -> L -> Prop) : Prop :=
  match n with
  | O => True
  | S n =>
      match p with
      | Ret x => Q x s
      | Tau p => mfine n p s Q
      | Vis o k => forall b, exists s', next s (o b) = Some s' /\ mfine n (k b) s' Q
      | Pend c p => exists s', next s Polled = Some s' /\ mfine n p s' Q
      | Fail => True
      end
  end.
Definition Mfine {A} (p : future A) (s : L) (Q : A -> L -> Prop) : Prop := forall n, mfine n p s Q.

Lemma mfine_mono n : forall A (p : future A) s (Q Q' : A -> L -> Prop), (forall x s, Q x s -> Q' x s) -> mfine n p s Q -> mfine n p s Q'.
Proof.
  induction n as [|n IH]; intros A p s Q Q' HQ H; [exact I|]. destruct p as [x|p|X o k|c p|]; cbn in *; auto.
  - exact (IH _ _ _ _ _ HQ H).
  - intros b. destruct (H b) as (s' & E & H'). exists s'. split; [exact E|]. exact (IH _ _ _ _ _ HQ H').
  - destruct H as (s' & E & H'). exists s'. split; [exact E|]. exact (IH _ _ _ _ _ HQ H').
Qed.
Lemma Mfine_mono A (p : future A) s (Q Q' : A -> L -> Prop) : (forall x s, Q x s -> Q' x s) -> Mfine p s Q -> Mfine p s Q'.
Proof. intros HQ H n. exact (mfine_mono n _ _ _ _ _ HQ (H n)). Qed.
Lemma Mfine_ret A (x : A) s (Q : A -> L -> Prop) : Q x s -> Mfine (Ret x) s Q.
Proof. intros H [|n]; [exact I|exact H]. Qed.
Lemma Mfine_fail A s (Q : A -> L -> Prop) : Mfine (Fail (A := A)) s Q.
Proof. intros [|n]; exact I. Qed.
Lemma Mfine_bind A B (p : future A) (k : A -> future B) s (Q : B -> L -> Prop) : Mfine p s (fun x s' => Mfine (k x) s' Q) -> Mfine (bind p k) s Q.
Proof.
  intros H n. specialize (H n). revert p s H. induction n as [|n IH]; intros p s H; [exact I|]. destruct p as [x|p|X o f|c p|].
  - rewrite bind_ret. exact (H (S n)).
  - rewrite bind_tau. exact (IH _ _ H).
  - rewrite bind_vis. intros b. destruct (H b) as (s' & E & H'). exists s'. split; [exact E|exact (IH _ _ H')].
  - rewrite bind_pend. destruct H as (s' & E & HF). exists s'. split; [exact E|exact (IH _ _ HF)].
  - rewrite bind_fail. exact I.
Qed.
Lemma Mfine_iter X A (body : X -> future (X + A)) (J : L -> Prop) (Q : A -> L -> Prop) :
  (forall x s, J s -> Mfine (body x) s (fun r s' => match r with inl _ => J s' | inr b => Q b s' end)) -> forall x s, J s -> Mfine (iter body x) s Q.
Proof.
  intros HB. assert (H : forall n p s, mfine n p s (fun r s' => match r with inl _ => J s' | inr b => Q b s' end) -> mfine n (iter_from body p) s Q).
  { induction n as [|n IH]; intros p s H; [exact I|]. destruct p as [r|p|B o f|c p|].
    - rewrite iter_from_ret. destruct r as [x'|b]; [|exact H]. cbn in H |- *. apply IH. apply HB. exact H.
    - rewrite iter_from_tau. exact (IH _ _ H).
    - rewrite iter_from_vis. intros b. destruct (H b) as (s' & E & H'). exists s'. split; [exact E|exact (IH _ _ H')].
    - rewrite iter_from_pend. destruct H as (s' & E & HF). exists s'. split; [exact E|exact (IH _ _ HF)].
    - rewrite iter_from_fail. exact I. }
  intros x s HJ n. apply H. apply HB. exact HJ.
Qed.
Lemma Mfine_scoped A c (p : future A) s (Q : A -> L -> Prop) : Mfine p s Q -> Mfine (scoped c p) s Q.
Proof.
  intros H n. specialize (H n). revert p s H. induction n as [|n IH]; intros p s H; [exact I|]. destruct p as [x|p|X o f|c' p|].
  - rewrite scoped_ret. exact H.
  - rewrite scoped_tau. exact (IH _ _ H).
  - rewrite scoped_vis. intros b. destruct (H b) as (s' & E & H'). exists s'. split; [exact E|exact (IH _ _ H')].
  - rewrite scoped_pend. destruct H as (s' & E & HF). exists s'. split; [exact E|exact (IH _ _ HF)].
  - rewrite scoped_fail. exact I.
Qed.
Lemma Mfine_ask B (o : op B) s (Q : B -> L -> Prop) : (forall b, exists s', next s (o b) = Some s' /\ Q b s') -> Mfine (ask o) s Q.
Proof. intros H [|n]; [exact I|]. intros b. destruct (H b) as (s' & E & HQ). exists s'. split; [exact E|]. apply Mfine_ret. exact HQ. Qed.
Lemma Mfine_call e s s' (Q : unit -> L -> Prop) : next s e = Some s' -> Q tt s' -> Mfine (call e) s Q.
Proof. intros E H. apply Mfine_ask. intros []. eauto. Qed.
(** polled until ready; [J] holds before each poll *)
Lemma Mfine_awaits (J : L -> Prop) (o : bool -> event) s (Q : unit -> L -> Prop) : J s ->
  (forall s, J s -> exists s1 s2, next s (o false) = Some s1 /\ next s1 Polled = Some s2 /\ J s2) ->
  (forall s, J s -> exists s', next s (o true) = Some s' /\ Q tt s') -> Mfine (awaits o) s Q.
Proof.
  intros HJ HN H n.
  enough (G : forall s, (J s -> mfine n (awaits o) s Q) /\ ((exists s2, next s Polled = Some s2 /\ J s2) -> mfine n (Pend (Op := op) [] (awaits o)) s Q)) by (apply G; exact HJ).
  clear s HJ. induction n as [|n IH]; intros s; [split; intros; exact I|]. split.
  - intros HJ. unfold awaits. rewrite await_ready_eq. intros [|].
    + destruct (H s HJ) as (s' & E & HQ). exists s'. split; [exact E|]. apply Mfine_ret. exact HQ.
    + destruct (HN s HJ) as (s1 & s2 & E & EP & HJ2). exists s1. split; [exact E|]. apply (IH s1). eauto.
  - intros (s2 & EP & HJ). exists s2. split; [exact EP|]. apply (IH s2). exact HJ.
Qed.
Lemma Mfine_awaiting (J : L -> Prop) B (o : option B -> event) s (Q : B -> L -> Prop) : J s ->
  (forall s, J s -> exists s1 s2, next s (o None) = Some s1 /\ next s1 Polled = Some s2 /\ J s2) ->
  (forall s b, J s -> exists s', next s (o (Some b)) = Some s' /\ Q b s') -> Mfine (awaiting o) s Q.
Proof.
  intros HJ HN H n.
  enough (G : forall s, (J s -> mfine n (awaiting o) s Q) /\ ((exists s2, next s Polled = Some s2 /\ J s2) -> mfine n (Pend (Op := op) [] (awaiting o)) s Q)) by (apply G; exact HJ).
  clear s HJ. induction n as [|n IH]; intros s; [split; intros; exact I|]. split.
  - intros HJ. unfold awaiting. rewrite await_eq. intros [b|].
    + destruct (H s b HJ) as (s' & E & HQ). exists s'. split; [exact E|]. apply Mfine_ret. exact HQ.
    + destruct (HN s HJ) as (s1 & s2 & E & EP & HJ2). exists s1. split; [exact E|]. apply (IH s1). eauto.
  - intros (s2 & EP & HJ). exists s2. split; [exact EP|]. apply (IH s2). exact HJ.
Qed.

(** [rest]: the states in which a future may be suspended; [aside]: operations that change nothing there *)
Variable rest : L -> Prop.
Hypothesis rest_polled : forall s s', next s Polled = Some s' -> rest s.
Definition aside (B : Type) (o : op B) : Prop := forall s b, rest s -> next s (o b) = Some s.
Lemma Mfine_aside A (p : future A) s : rest s -> next s Polled = Some s -> Ops aside p -> Mfine p s (fun _ s' => s' = s).
Proof.
  intros HS EP H n. specialize (H n). revert p H. induction n as [|n IH]; intros p H; [exact I|]. destruct p as [x|p|B o k|c p|]; cbn in *; auto.
  - destruct H as [H1 H2]. intros b. exists s. split; [exact (H1 s b HS)|]. exact (IH _ (H2 b)).
  - destruct H as [H1 H2]. exists s. split; [exact EP|exact (IH _ H2)].
Qed.
Lemma Mfine_tau_inv A (p : future A) s (Q : A -> L -> Prop) : Mfine (Tau p) s Q -> Mfine p s Q.
Proof. intros H n. exact (H (S n)). Qed.
Lemma Mfine_vis_inv A B (o : op B) (k : B -> future A) s (Q : A -> L -> Prop) : Mfine (Vis o k) s Q -> forall b, exists s', next s (o b) = Some s' /\ Mfine (k b) s' Q.
Proof.
  intros H b. destruct (H 1 b) as (s' & E & _). exists s'. split; [exact E|]. intros n. destruct (H (S n) b) as (s2 & E2 & HF). rewrite E in E2. injection E2 as <-. exact HF.
Qed.
Lemma Mfine_pend_inv A c (p : future A) s (Q : A -> L -> Prop) : Mfine (Pend c p) s Q -> exists s', next s Polled = Some s' /\ Mfine p s' Q.
Proof.
  intros H. destruct (H 1) as (s' & E & _). exists s'. split; [exact E|]. intros n. destruct (H (S n)) as (s2 & E2 & HF). rewrite E in E2. injection E2 as <-. exact HF.
Qed.
Lemma ops_tau g A (p : future A) : Ops g (Tau p) -> Ops g p.
Proof. intros H n. exact (H (S n)). Qed.
Lemma ops_vis g A B (o : op B) (k : B -> future A) : Ops g (Vis o k) -> g B o /\ forall b, Ops g (k b).
Proof. intros H. split; [exact (proj1 (H 1))|]. intros b n. exact (proj2 (H (S n)) b). Qed.
Lemma ops_pend g A c (p : future A) : Ops g (Pend c p) -> Forall (g unit) c /\ Ops g p.
Proof. intros H. split; [exact (proj1 (H 1))|]. intros n. exact (proj2 (H (S n))). Qed.

(** next to a future the automaton does not care about; [p] ends in a state [s0] that stays *)
Variable s0 : L.
Hypothesis s0_polled : next s0 Polled = Some s0.
Definition home {A} (x : A) (s : L) : Prop := s = s0.
Lemma Mfine_join_left A B (p : future A) (q : future B) s : Mfine p s home -> Ops aside q -> Mfine (join p q) s home.
Proof.
  intros HP HQ n. unfold join. assert (R0 : rest s0) by exact (rest_polled _ _ s0_polled).
  enough (H : (forall p r s, Mfine p s home -> child_ops aside r -> mfine n (join_first (A := A) (B := B) p r) s home) /\
              (forall c p q s s', Mfine p s' home -> next s Polled = Some s' -> Ops aside q -> mfine n (join_second (A := A) (B := B) (Running c p) q) s home) /\
              (forall x q, Ops aside q -> mfine n (join_second (A := A) (B := B) (Finished x) q) s0 home))
    by (apply H; [exact HP|split; [constructor|exact HQ]]).
  clear p q s HP HQ. induction n as [|n (IH1 & IH2 & IH3)]; [split; [|split]; intros; exact I|]. split; [|split].
  - intros p r s HP HR. destruct p as [x|p|X o f|c' p|].
    + rewrite join_first_ret. assert (E : s = s0) by exact (HP 1). subst s. destruct r as [c q|b]; [|reflexivity]. cbn. apply IH3. apply HR.
    + rewrite join_first_tau. apply IH1; [exact (Mfine_tau_inv _ _ _ _ HP)|exact HR].
    + rewrite join_first_vis. intros b. destruct (Mfine_vis_inv _ _ _ _ _ _ HP b) as (s' & E & HF). exists s'. split; [exact E|]. apply IH1; assumption.
    + rewrite join_first_pend. destruct (Mfine_pend_inv _ _ _ _ _ HP) as (s' & E & HF). destruct r as [c q|b].
      * cbn. exact (IH2 _ _ _ _ _ HF E (proj2 HR)).
      * exists s'. split; [exact E|]. apply IH1; [exact HF|exact I].
    + rewrite join_first_fail. exact I.
  - intros c p q s s' HP E HQ. destruct q as [x|q|X o f|c' q|].
    + rewrite join_second_ret. exists s'. split; [exact E|]. apply IH1; [exact HP|exact I].
    + rewrite join_second_tau. exact (IH2 _ _ _ _ _ HP E (ops_tau _ _ _ HQ)).
    + rewrite join_second_vis. destruct (ops_vis _ _ _ _ _ HQ) as [H1 H2]. intros b. exists s. split; [exact (H1 s b (rest_polled _ _ E))|]. exact (IH2 _ _ _ _ _ HP E (H2 b)).
    + rewrite join_second_pend. destruct (ops_pend _ _ _ _ HQ) as [H1 H2]. exists s'. split; [exact E|]. apply IH1; [exact HP|split; assumption].
    + rewrite join_second_fail. exact I.
  - intros x q HQ. destruct q as [y|q|X o f|c' q|].
    + rewrite join_second_ret. reflexivity.
    + rewrite join_second_tau. apply IH3. exact (ops_tau _ _ _ HQ).
    + rewrite join_second_vis. destruct (ops_vis _ _ _ _ _ HQ) as [H1 H2]. intros b. exists s0. split; [exact (H1 s0 b R0)|]. apply IH3. exact (H2 b).
    + rewrite join_second_pend. destruct (ops_pend _ _ _ _ HQ) as [H1 H2]. exists s0. split; [exact s0_polled|]. apply IH3. exact H2.
    + rewrite join_second_fail. exact I.
Qed.
(** two tasks that do not end *)
Lemma Mfine_select_left (p q : future Empty_set) s (Q : Empty_set + Empty_set -> L -> Prop) : Mfine p s (fun _ _ => True) -> Ops aside q -> Mfine (select p q) s Q.
Proof.
  intros HP HQ n. unfold select.
  enough (H : (forall p c q s, Mfine p s (fun _ _ => True) -> Ops aside q -> mfine n (select_first (A := Empty_set) (B := Empty_set) p c q) s Q) /\
              (forall c p q s s', Mfine p s' (fun _ _ => True) -> next s Polled = Some s' -> Ops aside q -> mfine n (select_second (A := Empty_set) (B := Empty_set) c p q) s Q))
    by (apply H; assumption).
  clear p q s HP HQ. induction n as [|n [IH1 IH2]]; [split; intros; exact I|]. split.
  - intros p c q s HP HQ. destruct p as [[]|p|X o f|c' p|].
    + rewrite select_first_tau. apply IH1; [exact (Mfine_tau_inv _ _ _ _ HP)|exact HQ].
    + rewrite select_first_vis. intros b. destruct (Mfine_vis_inv _ _ _ _ _ _ HP b) as (s' & E & HF). exists s'. split; [exact E|]. apply IH1; assumption.
    + rewrite select_first_pend. destruct (Mfine_pend_inv _ _ _ _ _ HP) as (s' & E & HF). exact (IH2 _ _ _ _ _ HF E HQ).
    + rewrite select_first_fail. exact I.
  - intros c p q s s' HP E HQ. destruct q as [[]|q|X o f|c' q|].
    + rewrite select_second_tau. exact (IH2 _ _ _ _ _ HP E (ops_tau _ _ _ HQ)).
    + rewrite select_second_vis. destruct (ops_vis _ _ _ _ _ HQ) as [H1 H2]. intros b. exists s. split; [exact (H1 s b (rest_polled _ _ E))|]. exact (IH2 _ _ _ _ _ HP E (H2 b)).
    + rewrite select_second_pend. destruct (ops_pend _ _ _ _ HQ) as [H1 H2]. exists s'. split; [exact E|]. exact (IH1 _ _ _ _ HP H2).
    + rewrite select_second_fail. exact I.
Qed.

(** the same for the second one; nothing it waits in is disturbed by the first *)
Lemma Mfine_select_right (p q : future Empty_set) s (Q : Empty_set + Empty_set -> L -> Prop) : rest s -> (forall s s', next s Polled = Some s' -> rest s') ->
  Ops aside p -> Mfine q s (fun _ _ => True) -> Mfine (select p q) s Q.
Proof.
  intros HS HP0 HP HQ n. unfold select.
  enough (H : (forall p c q s, rest s -> Ops aside p -> Mfine q s (fun _ _ => True) -> mfine n (select_first (A := Empty_set) (B := Empty_set) p c q) s Q) /\
              (forall c p q s, Ops aside p -> Mfine q s (fun _ _ => True) -> mfine n (select_second (A := Empty_set) (B := Empty_set) c p q) s Q))
    by (apply H; assumption).
  clear p q s HS HP HQ. induction n as [|n [IH1 IH2]]; [split; intros; exact I|]. split.
  - intros p c q s HS HP HQ. destruct p as [[]|p|X o f|c' p|].
    + rewrite select_first_tau. apply IH1; [exact HS|exact (ops_tau _ _ _ HP)|exact HQ].
    + rewrite select_first_vis. destruct (ops_vis _ _ _ _ _ HP) as [H1 H2]. intros b. exists s. split; [exact (H1 s b HS)|]. apply IH1; [exact HS|exact (H2 b)|exact HQ].
    + rewrite select_first_pend. destruct (ops_pend _ _ _ _ HP) as [H1 H2]. cbn. exact (IH2 _ _ _ _ H2 HQ).
    + rewrite select_first_fail. exact I.
  - intros c p q s HP HQ. destruct q as [[]|q|X o f|c' q|].
    + rewrite select_second_tau. apply IH2; [exact HP|exact (Mfine_tau_inv _ _ _ _ HQ)].
    + rewrite select_second_vis. intros b. destruct (Mfine_vis_inv _ _ _ _ _ _ HQ b) as (s' & E & HF). exists s'. split; [exact E|]. apply IH2; assumption.
    + rewrite select_second_pend. destruct (Mfine_pend_inv _ _ _ _ _ HQ) as (s' & E & HF). exists s'. split; [exact E|]. apply IH1; [exact (HP0 _ _ E)|exact HP|exact HF].
    + rewrite select_second_fail. exact I.
Qed.
(** two futures of which the first one may begin in any state *)
Lemma mfine_cleanup n A (x : A) s (Q : A -> L -> Prop) c : rest s -> Forall (aside unit) c -> Q x s -> mfine n (cleanup c (Ret x)) s Q.
Proof.
  intros HS HC HQ. revert n. induction HC as [|o c HO HC IH]; intros [|n]; try exact I; [exact HQ|]. cbn. intros b. exists s. split; [exact (HO s b HS)|]. apply IH.
Qed.
Lemma Mfine_select_any A B (p : future A) (q : future B) s : Ops aside p -> Mfine p s (fun _ s => rest s) -> Ops aside q -> Mfine (select p q) s (fun _ s => rest s).
Proof.
  intros HO HP HQ n. unfold select.
  enough (H : (forall p c q s, Ops aside p -> Mfine p s (fun _ s => rest s) -> Forall (aside unit) c -> Ops aside q -> mfine n (select_first (A := A) (B := B) p c q) s (fun _ s => rest s)) /\
              (forall c p q s s', Ops aside p -> Mfine p s' (fun _ s => rest s) -> next s Polled = Some s' -> Forall (aside unit) c -> Ops aside q -> mfine n (select_second (A := A) (B := B) c p q) s (fun _ s => rest s)))
    by (apply H; try assumption; constructor).
  clear p q s HO HP HQ. induction n as [|n [IH1 IH2]]; [split; intros; exact I|]. split.
  - intros p c q s HO HP HC HQ. destruct p as [x|p|X o f|c' p|].
    + rewrite select_first_ret. apply mfine_cleanup; [exact (HP 1)|exact HC|exact (HP 1)].
    + rewrite select_first_tau. apply IH1; [exact (ops_tau _ _ _ HO)|exact (Mfine_tau_inv _ _ _ _ HP)|exact HC|exact HQ].
    + rewrite select_first_vis. destruct (ops_vis _ _ _ _ _ HO) as [H1 H2]. intros b. destruct (Mfine_vis_inv _ _ _ _ _ _ HP b) as (s' & E & HF). exists s'. split; [exact E|].
      apply IH1; [exact (H2 b)|exact HF|exact HC|exact HQ].
    + rewrite select_first_pend. destruct (ops_pend _ _ _ _ HO) as [H1 H2]. destruct (Mfine_pend_inv _ _ _ _ _ HP) as (s' & E & HF). exact (IH2 _ _ _ _ _ H2 HF E H1 HQ).
    + rewrite select_first_fail. exact I.
  - intros c p q s s' HO HP E HC HQ. destruct q as [x|q|X o f|c' q|].
    + rewrite select_second_ret. assert (HS := rest_polled _ _ E). apply mfine_cleanup; assumption.
    + rewrite select_second_tau. exact (IH2 _ _ _ _ _ HO HP E HC (ops_tau _ _ _ HQ)).
    + rewrite select_second_vis. destruct (ops_vis _ _ _ _ _ HQ) as [H1 H2]. intros b. exists s. split; [exact (H1 s b (rest_polled _ _ E))|]. exact (IH2 _ _ _ _ _ HO HP E HC (H2 b)).
    + rewrite select_second_pend. destruct (ops_pend _ _ _ _ HQ) as [H1 H2]. exists s'. split; [exact E|]. apply IH1; assumption.
    + rewrite select_second_fail. exact I.
Qed.

(** ** Histories *)
Fixpoint mrun (s : L) (h : list event) : option L := match h with [] => Some s | e :: h => match next s e with Some s' => mrun s' h | None => None end end.
Lemma mrun_app s h h' : mrun s (h ++ h') = match mrun s h with Some s' => mrun s' h' | None => None end.
Proof. revert s. induction h as [|e h IH]; intros s; cbn; [reflexivity|]. destruct (next s e); [apply IH|reflexivity]. Qed.
Lemma mrun_split s h e h' r : mrun s (h ++ e :: h') = Some r -> exists s1 s2, mrun s h = Some s1 /\ next s1 e = Some s2 /\ mrun s2 h' = Some r.
Proof. rewrite mrun_app. cbn. destruct (mrun s h) as [s1|]; [|discriminate]. destruct (next s1 e) as [s2|] eqn:E; [|discriminate]. eauto. Qed.
End Monitor.
