(** Attend.v -- whenever the device is polled it polls everything it waits for (proofs of C77). For a fixed [a]: [Quiet] not
    waiting for it, [Seen] waiting, and polled since the device was, [Owed] waiting, and not yet polled. *)
From Coq Require Import Lia.
From Verif Require Import Base BaseProofs Sync Spec PhyConfig Csma CsmaTasks CsmaWorld SpecTasks SpecAttend TasksLive.
From Verif Require Import Async AsyncProofs RadioFutures.

Inductive status := Quiet | Seen | Owed.
Section Logic.
Variable a : awaited.
Definition anext (s : status) (e : event) : status :=
  match effect_of a e with Nothing => s | Begins => Owed | Waits => Seen | Ends => Quiet end.
(** the next poll *)
Definition again (s : status) : option status := match s with Quiet => Some Quiet | Seen => Some Owed | Owed => None end.

(** [D c s]: suspended with destructors [c] *)
Fixpoint afine (D : list (op unit) -> status -> Prop) (n : nat) {A} (p : future A) (s : status) (Q : A -> status -> Prop) : Prop :=
  match n with
  | O => True
  | S n =>
      match p with
      | Ret x => Q x s
      | Tau p => afine D n p s Q
      | Vis o k => forall b, afine D n (k b) (anext s (o b)) Q
      | Pend c p => D c s /\ exists s', again s = Some s' /\ afine D n p s' Q
      | Fail => True
      end
  end.
Definition Afine D {A} (p : future A) (s : status) (Q : A -> status -> Prop) : Prop := forall n, afine D n p s Q.
Definition any (c : list (op unit)) (s : status) : Prop := True.
(** nothing is waited for after the destructors *)
Definition arun (c : list (op unit)) (s : status) : status := fold_left (fun s (o : op unit) => anext s (o tt)) c s.
Definition quiets (c : list (op unit)) (s : status) : Prop := arun c s = Quiet.
Definition quiet {A} (x : A) (s : status) : Prop := s = Quiet.

Lemma afine_mono n : forall (D D' : list (op unit) -> status -> Prop) A (p : future A) s (Q Q' : A -> status -> Prop),
  (forall c s, D c s -> D' c s) -> (forall x s, Q x s -> Q' x s) -> afine D n p s Q -> afine D' n p s Q'.
Proof.
  induction n as [|n IH]; intros D D' A p s Q Q' HD HQ H; [exact I|]. destruct p as [x|p|X o k|c p|]; cbn in *.
  - auto.
  - exact (IH _ _ _ _ _ _ _ HD HQ H).
  - intros b. exact (IH _ _ _ _ _ _ _ HD HQ (H b)).
  - destruct H as (H1 & s' & E & H). split; [auto|]. exists s'. split; [exact E|]. exact (IH _ _ _ _ _ _ _ HD HQ H).
  - exact I.
Qed.
Lemma afine_less n : forall m (D : list (op unit) -> status -> Prop) A (p : future A) s (Q : A -> status -> Prop), m <= n -> afine D n p s Q -> afine D m p s Q.
Proof.
  induction n as [|n IH]; intros m D A p s Q Hm H; [assert (m = 0) by lia; subst; exact I|]. destruct m as [|m]; [exact I|].
  assert (Hm' : m <= n) by lia. destruct p as [x|p|X o k|c p|]; cbn in *; auto.
  destruct H as (H1 & s' & E & H). split; [exact H1|]. exists s'. split; [exact E|]. exact (IH _ _ _ _ _ _ Hm' H).
Qed.
Lemma Afine_mono (D : list (op unit) -> status -> Prop) A (p : future A) s (Q Q' : A -> status -> Prop) : (forall x s, Q x s -> Q' x s) -> Afine D p s Q -> Afine D p s Q'.
Proof. intros HQ H n. exact (afine_mono n D D _ _ _ _ _ (fun _ _ X => X) HQ (H n)). Qed.
Lemma Afine_ret (D : list (op unit) -> status -> Prop) A (x : A) s (Q : A -> status -> Prop) : Q x s -> Afine D (Ret x) s Q.
Proof. intros H [|n]; [exact I|exact H]. Qed.
Lemma Afine_fail (D : list (op unit) -> status -> Prop) A s (Q : A -> status -> Prop) : Afine D (Fail (A := A)) s Q.
Proof. intros [|n]; exact I. Qed.
Lemma Afine_bind (D : list (op unit) -> status -> Prop) A B (p : future A) (k : A -> future B) s (Q : B -> status -> Prop) :
  Afine D p s (fun x s' => Afine D (k x) s' Q) -> Afine D (bind p k) s Q.
Proof.
  intros H n. specialize (H n). revert p s H. induction n as [|n IH]; intros p s H; [exact I|]. destruct p as [x|p|X o f|c p|].
  - rewrite bind_ret. exact (H (S n)).
  - rewrite bind_tau. exact (IH _ _ H).
  - rewrite bind_vis. intros b. exact (IH _ _ (H b)).
  - rewrite bind_pend. destruct H as (HD & s' & E & HF). split; [exact HD|]. exists s'. split; [exact E|exact (IH _ _ HF)].
  - rewrite bind_fail. exact I.
Qed.
Lemma Afine_iter (D : list (op unit) -> status -> Prop) X A (body : X -> future (X + A)) (Q : A -> status -> Prop) :
  (forall x, Afine D (body x) Quiet (fun r s' => match r with inl _ => s' = Quiet | inr b => Q b s' end)) -> forall x, Afine D (iter body x) Quiet Q.
Proof.
  intros HB. assert (H : forall n p s, afine D n p s (fun r s' => match r with inl _ => s' = Quiet | inr b => Q b s' end) -> afine D n (iter_from body p) s Q).
  { induction n as [|n IH]; intros p s H; [exact I|]. destruct p as [r|p|B o f|c p|].
    - rewrite iter_from_ret. destruct r as [x'|b]; [|exact H]. cbn in H |- *. subst s. apply IH. apply HB.
    - rewrite iter_from_tau. exact (IH _ _ H).
    - rewrite iter_from_vis. intros b. exact (IH _ _ (H b)).
    - rewrite iter_from_pend. destruct H as (HD & s' & E & HF). split; [exact HD|]. exists s'. split; [exact E|exact (IH _ _ HF)].
    - rewrite iter_from_fail. exact I. }
  intros x n. apply H. apply HB.
Qed.
Lemma Afine_scoped (D : list (op unit) -> status -> Prop) A c (p : future A) s (Q : A -> status -> Prop) : Afine (fun c' s' => D (c' ++ c) s') p s Q -> Afine D (scoped c p) s Q.
Proof.
  intros H n. specialize (H n). revert p s H. induction n as [|n IH]; intros p s H; [exact I|]. destruct p as [x|p|X o f|c' p|].
  - rewrite scoped_ret. exact H.
  - rewrite scoped_tau. exact (IH _ _ H).
  - rewrite scoped_vis. intros b. exact (IH _ _ (H b)).
  - rewrite scoped_pend. destruct H as (HD & s' & E & HF). split; [exact HD|]. exists s'. split; [exact E|exact (IH _ _ HF)].
  - rewrite scoped_fail. exact I.
Qed.
Lemma Afine_ask (D : list (op unit) -> status -> Prop) B (o : op B) s (Q : B -> status -> Prop) : (forall b, Q b (anext s (o b))) -> Afine D (ask o) s Q.
Proof. intros H [|n]; [exact I|]. intros b. apply Afine_ret. exact (H b). Qed.
Lemma Afine_call (D : list (op unit) -> status -> Prop) e s (Q : unit -> status -> Prop) : Q tt (anext s e) -> Afine D (call e) s Q.
Proof. intros H [|n]; [exact I|]. intros []. apply Afine_ret. exact H. Qed.

(** polled until ready *)
Lemma Afine_awaits (D : list (op unit) -> status -> Prop) (o : bool -> event) s (Q : unit -> status -> Prop) : effect_of a (o false) = Waits -> D [] Seen ->
  (forall s, Q tt (anext s (o true))) -> Afine D (awaits o) s Q.
Proof.
  intros E HD H n. revert s.
  enough (G : (forall s, afine D n (awaits o) s Q) /\ afine D n (Pend (Op := op) [] (awaits o)) Seen Q) by (intros; apply G).
  induction n as [|n [IH1 IH2]]; [split; intros; exact I|]. split.
  - intros s. unfold awaits. rewrite await_ready_eq. intros [|]; [apply Afine_ret, H|]. unfold anext. rewrite E. exact IH2.
  - split; [exact HD|]. exists Owed. split; [reflexivity|]. apply IH1.
Qed.
Lemma Afine_awaiting (D : list (op unit) -> status -> Prop) B (o : option B -> event) s (Q : B -> status -> Prop) : effect_of a (o None) = Waits -> D [] Seen ->
  (forall s b, Q b (anext s (o (Some b)))) -> Afine D (awaiting o) s Q.
Proof.
  intros E HD H n. revert s.
  enough (G : (forall s, afine D n (awaiting o) s Q) /\ afine D n (Pend (Op := op) [] (awaiting o)) Seen Q) by (intros; apply G).
  induction n as [|n [IH1 IH2]]; [split; intros; exact I|]. split.
  - intros s. unfold awaiting. rewrite await_eq. intros [b|]; [apply Afine_ret, H|]. unfold anext. rewrite E. exact IH2.
  - split; [exact HD|]. exists Owed. split; [reflexivity|]. apply IH1.
Qed.

(** a future that does not touch [a] *)
Definition calm (B : Type) (o : op B) : Prop := forall b, effect_of a (o b) = Nothing.
Lemma anext_calm B (o : op B) s b : calm B o -> anext s (o b) = s.
Proof. intros H. unfold anext. rewrite H. reflexivity. Qed.
Lemma arun_calm c s : Forall (calm unit) c -> arun c s = s.
Proof. intros H. revert s. induction H as [|o c H HC IH]; intros s; [reflexivity|]. cbn. rewrite (anext_calm _ _ _ _ H). apply IH. Qed.
Lemma Afine_calm A (p : future A) : Ops calm p -> Afine quiets p Quiet quiet.
Proof.
  intros H n. specialize (H n). revert p H. induction n as [|n IH]; intros p H; [exact I|]. destruct p as [x|p|B o k|c p|]; cbn in *.
  - reflexivity.
  - exact (IH _ H).
  - destruct H as [H1 H2]. intros b. rewrite (anext_calm _ _ _ _ H1). exact (IH _ (H2 b)).
  - destruct H as [H1 H2]. split; [exact (arun_calm _ _ H1)|]. exists Quiet. split; [reflexivity|]. exact (IH _ H2).
  - exact I.
Qed.
Lemma Afine_any (D : list (op unit) -> status -> Prop) A (p : future A) s (Q : A -> status -> Prop) : Afine D p s Q -> Afine any p s Q.
Proof. intros H n. exact (afine_mono n D any _ _ _ _ _ (fun _ _ _ => I) (fun _ _ X => X) (H n)). Qed.
Lemma afine_cleanup (D : list (op unit) -> status -> Prop) A c (x : A) (Q : A -> status -> Prop) : forall n s, Q x (arun c s) -> afine D n (cleanup (Op := op) c (Ret x)) s Q.
Proof.
  induction c as [|o c IH]; intros n s H; cbn in *; [apply Afine_ret; exact H|]. destruct n as [|n]; [exact I|]. intros []. apply IH. exact H.
Qed.

(** next to such a future *)
Lemma Afine_tau_inv (D : list (op unit) -> status -> Prop) A (p : future A) s Q : Afine D (Tau p) s Q -> Afine D p s Q.
Proof. intros H n. exact (H (S n)). Qed.
Lemma Afine_vis_inv (D : list (op unit) -> status -> Prop) A B (o : op B) (k : B -> future A) s Q : Afine D (Vis o k) s Q -> forall b, Afine D (k b) (anext s (o b)) Q.
Proof. intros H b n. exact (H (S n) b). Qed.
Lemma Afine_pend_inv (D : list (op unit) -> status -> Prop) A c (p : future A) s Q : Afine D (Pend c p) s Q -> D c s /\ exists s', again s = Some s' /\ Afine D p s' Q.
Proof.
  intros H. destruct (H 1) as (HD & s' & E & _). split; [exact HD|]. exists s'. split; [exact E|]. intros n. destruct (H (S n)) as (_ & s2 & E2 & HF). rewrite E in E2. injection E2 as <-. exact HF.
Qed.
Lemma ops_tau_inv g A (p : future A) : Ops g (Tau p) -> Ops g p.
Proof. intros H n. exact (H (S n)). Qed.
Lemma ops_vis_inv g A B (o : op B) (k : B -> future A) : Ops g (Vis o k) -> g B o /\ forall b, Ops g (k b).
Proof. intros H. split; [exact (proj1 (H 1))|]. intros b n. exact (proj2 (H (S n)) b). Qed.
Lemma ops_pend_inv g A c (p : future A) : Ops g (Pend c p) -> Forall (g unit) c /\ Ops g p.
Proof. intros H. split; [exact (proj1 (H 1))|]. intros n. exact (proj2 (H (S n))). Qed.

(** [p] is waited for, [q] does not touch [a]; if [q] is first, [p]'s destructors end the wait *)
Lemma Afine_select_left A B (p : future A) (q : future B) s : Afine quiets p s quiet -> Ops calm q -> Afine any (select p q) s quiet.
Proof.
  intros HP HQ n. unfold select.
  enough (H : (forall p c q s, Afine quiets p s quiet -> Ops calm q -> Forall (calm unit) c -> afine any n (select_first (A := A) (B := B) p c q) s quiet) /\
              (forall c p q s s', Afine quiets p s' quiet -> quiets c s -> again s = Some s' -> Ops calm q -> afine any n (select_second (A := A) (B := B) c p q) s quiet))
    by (apply H; auto).
  clear p q s HP HQ. induction n as [|n [IH1 IH2]]; [split; intros; exact I|]. split.
  - intros p c q s HP HQ HC. destruct p as [x|p|X o f|c' p|].
    + rewrite select_first_ret. apply afine_cleanup. rewrite (arun_calm _ _ HC). exact (HP 1).
    + rewrite select_first_tau. apply IH1; [exact (Afine_tau_inv _ _ _ _ _ HP)|exact HQ|exact HC].
    + rewrite select_first_vis. intros b. apply IH1; [exact (Afine_vis_inv _ _ _ _ _ _ _ HP b)|exact HQ|exact HC].
    + rewrite select_first_pend. destruct (Afine_pend_inv _ _ _ _ _ _ HP) as (HD & s' & E & HF). exact (IH2 _ _ _ _ _ HF HD E HQ).
    + rewrite select_first_fail. exact I.
  - intros c p q s s' HP HD E HQ. destruct q as [x|q|X o f|c' q|].
    + rewrite select_second_ret. apply afine_cleanup. exact HD.
    + rewrite select_second_tau. exact (IH2 _ _ _ _ _ HP HD E (ops_tau_inv _ _ _ HQ)).
    + rewrite select_second_vis. destruct (ops_vis_inv _ _ _ _ _ HQ) as [H1 H2]. intros b. rewrite (anext_calm _ _ _ _ H1). exact (IH2 _ _ _ _ _ HP HD E (H2 b)).
    + rewrite select_second_pend. destruct (ops_pend_inv _ _ _ _ HQ) as [H1 H2]. split; [exact I|]. exists s'. split; [exact E|]. exact (IH1 _ _ _ _ HP H2 H1).
    + rewrite select_second_fail. exact I.
Qed.
(** the same for tasks that do not end *)
Lemma Afine_select_tasks (p q : future Empty_set) : (Afine any p Quiet quiet /\ Ops calm q) \/ (Ops calm p /\ Afine any q Quiet quiet) -> Afine any (select p q) Quiet quiet.
Proof.
  intros H n. unfold select.
  assert (HL : forall n, (forall p c q s, Afine any p s quiet -> Ops calm q -> afine any n (select_first (A := Empty_set) (B := Empty_set) p c q) s quiet) /\
              (forall c p q s s', Afine any p s' quiet -> again s = Some s' -> Ops calm q -> afine any n (select_second (A := Empty_set) (B := Empty_set) c p q) s quiet)).
  { clear p q n H. induction n as [|n [IH1 IH2]]; [split; intros; exact I|]. split.
    - intros p c q s HP HQ. destruct p as [[]|p|X o f|c' p|].
      + rewrite select_first_tau. apply IH1; [exact (Afine_tau_inv _ _ _ _ _ HP)|exact HQ].
      + rewrite select_first_vis. intros b. apply IH1; [exact (Afine_vis_inv _ _ _ _ _ _ _ HP b)|exact HQ].
      + rewrite select_first_pend. destruct (Afine_pend_inv _ _ _ _ _ _ HP) as (_ & s' & E & HF). exact (IH2 _ _ _ _ _ HF E HQ).
      + rewrite select_first_fail. exact I.
    - intros c p q s s' HP E HQ. destruct q as [[]|q|X o f|c' q|].
      + rewrite select_second_tau. exact (IH2 _ _ _ _ _ HP E (ops_tau_inv _ _ _ HQ)).
      + rewrite select_second_vis. destruct (ops_vis_inv _ _ _ _ _ HQ) as [H1 H2]. intros b. rewrite (anext_calm _ _ _ _ H1). exact (IH2 _ _ _ _ _ HP E (H2 b)).
      + rewrite select_second_pend. destruct (ops_pend_inv _ _ _ _ HQ) as [H1 H2]. split; [exact I|]. exists s'. split; [exact E|]. exact (IH1 _ _ _ _ HP H2).
      + rewrite select_second_fail. exact I. }
  assert (HR : forall n, (forall p c q s, Ops calm p -> Afine any q s quiet -> afine any n (select_first (A := Empty_set) (B := Empty_set) p c q) s quiet) /\
              (forall c p q s, Ops calm p -> Afine any q s quiet -> afine any n (select_second (A := Empty_set) (B := Empty_set) c p q) s quiet)).
  { clear p q n H HL. induction n as [|n [IH1 IH2]]; [split; intros; exact I|]. split.
    - intros p c q s HP HQ. destruct p as [[]|p|X o f|c' p|].
      + rewrite select_first_tau. apply IH1; [exact (ops_tau_inv _ _ _ HP)|exact HQ].
      + rewrite select_first_vis. destruct (ops_vis_inv _ _ _ _ _ HP) as [H1 H2]. intros b. rewrite (anext_calm _ _ _ _ H1). exact (IH1 _ _ _ _ (H2 b) HQ).
      + rewrite select_first_pend. destruct (ops_pend_inv _ _ _ _ HP) as [H1 H2]. exact (IH2 _ _ _ _ H2 HQ).
      + rewrite select_first_fail. exact I.
    - intros c p q s HP HQ. destruct q as [[]|q|X o f|c' q|].
      + rewrite select_second_tau. exact (IH2 _ _ _ _ HP (Afine_tau_inv _ _ _ _ _ HQ)).
      + rewrite select_second_vis. intros b. exact (IH2 _ _ _ _ HP (Afine_vis_inv _ _ _ _ _ _ _ HQ b)).
      + rewrite select_second_pend. destruct (Afine_pend_inv _ _ _ _ _ _ HQ) as (_ & s' & E & HF). split; [exact I|]. exists s'. split; [exact E|]. exact (IH1 _ _ _ _ HP HF).
      + rewrite select_second_fail. exact I. }
  destruct H as [[H1 H2]|[H1 H2]]; [apply HL|apply HR]; assumption.
Qed.
(** [q] is waited for; [p] at most ends the wait, and where it is first, [Q] holds *)
Fixpoint gentle (n : nat) {A} (p : future A) (s : status) (Q : A -> status -> Prop) : Prop :=
  match n with
  | O => True
  | S n =>
      match p with
      | Ret x => Q x s
      | Tau p => gentle n p s Q
      | Vis o k => forall b, gentle n (k b) (anext s (o b)) Q
      | Pend c p => Forall (calm unit) c /\ forall s, gentle n p s Q
      | Fail => True
      end
  end.
Definition Gentle {A} (p : future A) (Q : A -> status -> Prop) : Prop := forall n s, gentle n p s Q.
Lemma Afine_select_right A (p : future A) (o : bool -> event) s (Q : A + unit -> status -> Prop) :
  effect_of a (o false) = Waits -> effect_of a (o true) = Ends -> Gentle p (fun x s' => Q (inl x) s') -> Q (inr tt) Quiet -> Afine any (select p (awaits o)) s Q.
Proof.
  intros E0 E1 HP HQ n. unfold select.
  enough (H : (forall p s, (forall m, gentle m p s (fun x s' => Q (inl x) s')) -> afine any n (select_first p [] (awaits o)) s Q) /\
              (forall c p s, Forall (calm unit) c -> Gentle p (fun x s' => Q (inl x) s') ->
                 afine any n (select_second c p (awaits o)) s Q /\ afine any n (select_second c p (Pend (Op := op) [] (awaits o))) Seen Q))
    by (apply H; intros m; apply HP).
  clear p s HP. induction n as [|n [IH1 IH2]]; [split; intros; [|split]; exact I|]. split.
  - intros p s HP. destruct p as [x|p|X o' f|c' p|].
    + rewrite select_first_ret. exact (HP 1).
    + rewrite select_first_tau. apply IH1. intros m. exact (HP (S m)).
    + rewrite select_first_vis. intros b. apply IH1. intros m. exact (HP (S m) b).
    + rewrite select_first_pend. apply IH2; [exact (proj1 (HP 1))|]. intros m s1. exact (proj2 (HP (S m)) s1).
    + rewrite select_first_fail. exact I.
  - intros c p s HC HP. split.
    + unfold awaits. rewrite await_ready_eq, select_second_vis. intros [|].
      * rewrite select_second_ret. apply afine_cleanup. rewrite (arun_calm _ _ HC). unfold anext. rewrite E1. exact HQ.
      * unfold anext. rewrite E0. apply (IH2 c p s HC HP).
    + rewrite select_second_pend. split; [exact I|]. exists Owed. split; [reflexivity|]. apply IH1. intros m. apply HP.
Qed.
Lemma Afine_join_left A B (p : future A) (q : future B) s : Afine any p s quiet -> Ops calm q -> Afine any (join p q) s quiet.
Proof.
  intros HP HQ n. unfold join.
  enough (H : (forall p r s, Afine any p s quiet -> child_ops calm r -> afine any n (join_first (A := A) (B := B) p r) s quiet) /\
              (forall c p q s s', Afine any p s' quiet -> again s = Some s' -> Ops calm q -> afine any n (join_second (A := A) (B := B) (Running c p) q) s quiet) /\
              (forall x q, Ops calm q -> afine any n (join_second (A := A) (B := B) (Finished x) q) Quiet quiet))
    by (apply H; [exact HP|split; [constructor|exact HQ]]).
  clear p q s HP HQ. induction n as [|n (IH1 & IH2 & IH3)]; [split; [|split]; intros; exact I|]. split; [|split].
  - intros p r s HP HR. destruct p as [x|p|X o f|c' p|].
    + rewrite join_first_ret. assert (E : s = Quiet) by exact (HP 1). subst s. destruct r as [c q|b]; [|reflexivity]. cbn. apply IH3. apply HR.
    + rewrite join_first_tau. apply IH1; [exact (Afine_tau_inv _ _ _ _ _ HP)|exact HR].
    + rewrite join_first_vis. intros b. apply IH1; [exact (Afine_vis_inv _ _ _ _ _ _ _ HP b)|exact HR].
    + rewrite join_first_pend. destruct (Afine_pend_inv _ _ _ _ _ _ HP) as (HD & s' & E & HF). destruct r as [c q|b].
      * cbn. exact (IH2 _ _ _ _ _ HF E (proj2 HR)).
      * split; [exact I|]. exists s'. split; [exact E|]. apply IH1; [exact HF|exact I].
    + rewrite join_first_fail. exact I.
  - intros c p q s s' HP E HQ. destruct q as [x|q|X o f|c' q|].
    + rewrite join_second_ret. split; [exact I|]. exists s'. split; [exact E|]. apply IH1; [exact HP|exact I].
    + rewrite join_second_tau. exact (IH2 _ _ _ _ _ HP E (ops_tau_inv _ _ _ HQ)).
    + rewrite join_second_vis. destruct (ops_vis_inv _ _ _ _ _ HQ) as [H1 H2]. intros b. rewrite (anext_calm _ _ _ _ H1). exact (IH2 _ _ _ _ _ HP E (H2 b)).
    + rewrite join_second_pend. destruct (ops_pend_inv _ _ _ _ HQ) as [H1 H2]. split; [exact I|]. exists s'. split; [exact E|]. apply IH1; [exact HP|split; assumption].
    + rewrite join_second_fail. exact I.
  - intros x q HQ. destruct q as [y|q|X o f|c' q|].
    + rewrite join_second_ret. reflexivity.
    + rewrite join_second_tau. apply IH3. exact (ops_tau_inv _ _ _ HQ).
    + rewrite join_second_vis. destruct (ops_vis_inv _ _ _ _ _ HQ) as [H1 H2]. intros b. rewrite (anext_calm _ _ _ _ H1). apply IH3. exact (H2 b).
    + rewrite join_second_pend. destruct (ops_pend_inv _ _ _ _ HQ) as [H1 H2]. split; [exact I|]. exists Quiet. split; [reflexivity|]. apply IH3. exact H2.
    + rewrite join_second_fail. exact I.
Qed.
Lemma Afine_join_right A B (p : future A) (q : future B) s : Ops calm p -> Afine any q s quiet -> Afine any (join p q) s quiet.
Proof.
  intros HP HQ n. unfold join.
  enough (H : (forall p c q s, Ops calm p -> Afine any q s quiet -> afine any n (join_first (A := A) (B := B) p (Running c q)) s quiet) /\
              (forall p b, Ops calm p -> afine any n (join_first (A := A) (B := B) p (Finished b)) Quiet quiet) /\
              (forall l q s, child_ops calm l -> Afine any q s quiet -> afine any n (join_second (A := A) (B := B) l q) s quiet))
    by (apply H; assumption).
  clear p q s HP HQ. induction n as [|n (IH1 & IH2 & IH3)]; [split; [|split]; intros; exact I|]. split; [|split].
  - intros p c q s HP HQ. destruct p as [x|p|X o f|c' p|].
    + rewrite join_first_ret. cbn. apply IH3; [exact I|exact HQ].
    + rewrite join_first_tau. apply IH1; [exact (ops_tau_inv _ _ _ HP)|exact HQ].
    + rewrite join_first_vis. destruct (ops_vis_inv _ _ _ _ _ HP) as [H1 H2]. intros b. rewrite (anext_calm _ _ _ _ H1). apply IH1; [exact (H2 b)|exact HQ].
    + rewrite join_first_pend. cbn. apply IH3; [exact (ops_pend_inv _ _ _ _ HP)|exact HQ].
    + rewrite join_first_fail. exact I.
  - intros p b HP. destruct p as [x|p|X o f|c' p|].
    + rewrite join_first_ret. reflexivity.
    + rewrite join_first_tau. apply IH2. exact (ops_tau_inv _ _ _ HP).
    + rewrite join_first_vis. destruct (ops_vis_inv _ _ _ _ _ HP) as [H1 H2]. intros y. rewrite (anext_calm _ _ _ _ H1). apply IH2. exact (H2 y).
    + rewrite join_first_pend. destruct (ops_pend_inv _ _ _ _ HP) as [H1 H2]. split; [exact I|]. exists Quiet. split; [reflexivity|]. apply IH2. exact H2.
    + rewrite join_first_fail. exact I.
  - intros l q s HL HQ. destruct q as [x|q|X o f|c' q|].
    + rewrite join_second_ret. assert (E : s = Quiet) by exact (HQ 1). subst s. destruct l as [c p|y]; [|reflexivity]. destruct HL as [H1 H2]. split; [exact I|]. exists Quiet. split; [reflexivity|]. apply IH2. exact H2.
    + rewrite join_second_tau. apply IH3; [exact HL|exact (Afine_tau_inv _ _ _ _ _ HQ)].
    + rewrite join_second_vis. intros b. apply IH3; [exact HL|exact (Afine_vis_inv _ _ _ _ _ _ _ HQ b)].
    + rewrite join_second_pend. destruct (Afine_pend_inv _ _ _ _ _ _ HQ) as (_ & s' & E & HF). destruct l as [c p|y].
      * destruct HL as [H1 H2]. split; [exact I|]. exists s'. split; [exact E|]. apply IH1; assumption.
      * split; [exact I|]. exists s'. split; [exact E|]. apply IH3; [exact I|exact HF].
    + rewrite join_second_fail. exact I.
Qed.
End Logic.
