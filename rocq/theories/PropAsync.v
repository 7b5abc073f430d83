(** PropAsync.v -- C55-C58: select, join, yield_now, and the radio's futures. [sem] (what operations do to the world
    [W]) and the futures are arbitrary. Vocabulary: SpecAsync.v. *)
From Coq Require Import List Lia Arith.
Import ListNotations.
From Verif Require Import Async SpecAsync AsyncProofs RadioFutures.

(** ** C55 *)
(** One poll of select, in every case; [select p q] is the state before the first poll, in which the second child has
    no destructors to run. *)
Theorem C55_select_poll : forall (Op : Type -> Type) (W : Type) (sem : forall B, Op B -> W -> B -> W -> Prop) A B
    (p : prog (Op := Op) A) c (q : prog (Op := Op) B) w r w',
  polls sem (select_first p c q) w r w' <-> select_poll sem select_first p c q w r w'.
Proof. intros. apply select_first_polls. Qed.
Theorem C55_select_start : forall (Op : Type -> Type) (W : Type) (sem : forall B, Op B -> W -> B -> W -> Prop) A B
    (p : prog (Op := Op) A) (q : prog (Op := Op) B) w r w',
  polls sem (select p q) w r w' <-> select_poll sem select_first p [] q w r w'.
Proof. intros. apply select_first_polls. Qed.
Print Assumptions C55_select_start.

(** Whole lives of a select: [both_pending n] polls, each of them polling [p] and then [q], all pending, with anything
    ([between]) happening between two polls ... *)
Section Life.
Context {Op : Type -> Type} {W : Type} (sem : forall B, Op B -> W -> B -> W -> Prop) (between : W -> W -> Prop).
(** [n] polls, all pending; before each of them [between] *)
Inductive pending_polls {A} : nat -> prog (Op := Op) A -> W -> prog (Op := Op) A -> W -> Prop :=
| no_poll p w : pending_polls 0 p w p w
| one_more n p w p1 w1 w2 c p2 w3 : pending_polls n p w p1 w1 -> between w1 w2 -> polls sem p1 w2 (Pending c p2) w3 ->
    pending_polls (S n) p w p2 w3.
Inductive alternate {A B} : nat -> prog (Op := Op) A -> prog (Op := Op) B -> W ->
    prog (Op := Op) A -> list (Op unit) -> prog (Op := Op) B -> W -> Prop :=
| alternate_none p q w : alternate 0 p q w p [] q w
| alternate_more n p q w p1 c1 q1 w1 w2 c2 p2 w3 c3 q2 w4 : alternate n p q w p1 c1 q1 w1 -> between w1 w2 ->
    polls sem p1 w2 (Pending c2 p2) w3 -> polls sem q1 w3 (Pending c3 q2) w4 -> alternate (S n) p q w p2 c3 q2 w4.

(** ... is what a select that is still pending has done ... *)
Theorem C55_pending_life : forall A B (p : prog (Op := Op) A) (q : prog (Op := Op) B) n w s w',
  pending_polls n (select p q) w s w' <->
  exists p1 c q1, alternate n p q w p1 c q1 w' /\ s = select_first p1 c q1.
Proof.
  intros A B p q n w s w'. split.
  - remember (select p q) as s0 eqn:E. intros H. induction H as [s0 w|n s0 w s1 w1 w2 c s2 w3 H IH HB HP]; subst s0.
    + exists p, [], q. split; [constructor|reflexivity].
    + destruct (IH eq_refl) as (p1 & c1 & q1 & HA & ->). apply select_first_polls in HP. inversion HP; subst.
      eexists _, _, _. split; [econstructor; eassumption|reflexivity].
  - intros (p1 & c & q1 & HA & ->).
    induction HA as [p q w|n p q w p1 c1 q1 w1 w2 c2 p2 w3 c3 q2 w4 HA IH HB HP HQ]; [constructor|].
    econstructor; [exact IH|exact HB|]. apply select_first_polls. eapply neither_ready; eassumption.
Qed.
(** ... and one that completes with the first (second) child's value at its [n+1]-st poll has polled the first child
    [n+1] times and the second [n] ([n+1]) times; each only before its own completion. *)
Theorem C55_complete_life : forall A B (p : prog (Op := Op) A) (q : prog (Op := Op) B) n w s w1 w2 x w3,
  pending_polls n (select p q) w s w1 -> between w1 w2 -> polls sem s w2 (Ready x) w3 ->
  exists p1 c q1, alternate n p q w p1 c q1 w1 /\
    match x with
    | inl a => exists v, polls sem p1 w2 (Ready a) v /\ drops sem c v w3
    | inr b => exists c' p2 v v', polls sem p1 w2 (Pending c' p2) v /\ polls sem q1 v (Ready b) v' /\ drops sem c' v' w3
    end.
Proof.
  intros A B p q n w s w1 w2 x w3 H HB HP. apply C55_pending_life in H. destruct H as (p1 & c & q1 & HA & ->).
  exists p1, c, q1. split; [exact HA|]. apply select_first_polls in HP. inversion HP; subst.
  - eexists. split; eassumption.
  - eexists _, _, _, _. split; [eassumption|]. split; eassumption.
Qed.

(** ** C56 *)
(** The children of a join after [n] pending polls: each is polled until it finishes, and not afterwards (child_poll). *)
Inductive join_children {A B} : nat -> child (Op := Op) A -> child (Op := Op) B -> W ->
    child (Op := Op) A -> child (Op := Op) B -> W -> Prop :=
| join_none l r w : join_children 0 l r w l r w
| join_more n l r w l1 r1 w1 w2 l2 w3 r2 w4 : join_children n l r w l1 r1 w1 -> between w1 w2 ->
    child_poll sem l1 w2 l2 w3 -> child_poll sem r1 w3 r2 w4 -> (forall a b, ~ (l2 = Finished a /\ r2 = Finished b)) ->
    join_children (S n) l r w l2 r2 w4.
Theorem C56_pending_life : forall A B (p : prog (Op := Op) A) (q : prog (Op := Op) B) n w s w',
  pending_polls n (join p q) w s w' <->
  exists l r, join_children n (Running [] p) (Running [] q) w l r w' /\ s = join_of l r.
Proof.
  intros A B p q n w s w'. split.
  - remember (join p q) as s0 eqn:E. intros H.
    cut (exists l r, join_children n (Running [] p) (Running [] q) w l r w' /\ s = join_of l r /\ (forall a b, ~ (l = Finished a /\ r = Finished b))).
    { intros (l & r & H1 & H2 & _). exists l, r. auto. }
    induction H as [s0 w|n s0 w s1 w1 w2 c s2 w3 H IH HB HP]; subst s0.
    + exists (Running [] p), (Running [] q). split; [constructor|]. split; [reflexivity|]. intros a b [X _]; discriminate.
    + destruct (IH eq_refl) as (l & r & HA & -> & HN). apply join_polls in HP; [|exact HN]. inversion HP; subst.
      eexists _, _. split; [econstructor; eassumption|]. split; [reflexivity|assumption].
  - intros (l & r & HA & ->).
    cut (pending_polls n (join p q) w (join_of l r) w' /\ (forall a b, ~ (l = Finished a /\ r = Finished b))); [tauto|].
    change (join p q) with (join_of (Running [] p) (Running [] q)).
    assert (N0 : forall a b, ~ (Running [] p = Finished a /\ Running [] q = Finished b)) by (intros a b [X _]; discriminate).
    revert N0. generalize (Running [] p) (Running [] q) HA. clear HA. intros l0 r0 HA.
    induction HA as [l r w|n l r w l1 r1 w1 w2 l2 w3 r2 w4 HA IH HB HP HQ HN]; intros N0; [split; [constructor|exact N0]|].
    destruct (IH N0) as [IH1 IH2]. split; [|exact HN]. econstructor; [exact IH1|exact HB|]. apply join_polls; [exact IH2|].
    eapply not_yet; eassumption.
Qed.
(** It is ready exactly in the poll in which the second of them finishes, with both values. *)
Theorem C56_complete_life : forall A B (p : prog (Op := Op) A) (q : prog (Op := Op) B) n w l r w1 w2 a b w3,
  join_children n (Running [] p) (Running [] q) w l r w1 -> (forall a b, ~ (l = Finished a /\ r = Finished b)) -> between w1 w2 ->
  (polls sem (join_of l r) w2 (Ready (a, b)) w3 <->
   exists v, child_poll sem l w2 (Finished a) v /\ child_poll sem r v (Finished b) w3).
Proof.
  intros A B p q n w l r w1 w2 a b w3 _ HN _. rewrite join_polls by exact HN. split.
  - intros H. inversion H; subst. eexists. split; eassumption.
  - intros (v & HL & HR). eapply both_finished; eassumption.
Qed.
End Life.
(** One poll of join, in every case. *)
Theorem C56_join_poll : forall (Op : Type -> Type) (W : Type) (sem : forall B, Op B -> W -> B -> W -> Prop) A B
    (l : child (Op := Op) A) (r : child (Op := Op) B) w x w',
  (forall a b, ~ (l = Finished a /\ r = Finished b)) ->
  polls sem (join_of l r) w x w' <-> join_poll sem join_of l r w x w'.
Proof. intros. apply join_polls. assumption. Qed.
Theorem C56_join_start : forall (Op : Type -> Type) (W : Type) (sem : forall B, Op B -> W -> B -> W -> Prop) A B
    (p : prog (Op := Op) A) (q : prog (Op := Op) B) w x w',
  polls sem (join p q) w x w' <-> join_poll sem join_of (Running [] p) (Running [] q) w x w'.
Proof. intros. apply (join_polls sem A B (Running [] p) (Running [] q)). intros a b [X _]; discriminate. Qed.
Print Assumptions C56_join_start.

(** ** C57 *)
(** The first poll wakes the own waker and is pending, the second is ready and does nothing. *)
Theorem C57_yield_now : forall (Op : Type -> Type) (W : Type) (sem : forall B, Op B -> W -> B -> W -> Prop)
    (wake : Op unit) w x w',
  polls sem (yield_now_with wake) w x w' ->
    sem _ wake w tt w' /\ exists rest, x = Pending [] rest /\ (forall v y v', polls sem rest v y v' <-> y = Ready tt /\ v' = v).
Proof.
  intros Op W sem wake w x w' H. unfold yield_now_with in H. apply polls_vis in H. destruct H as ([] & w1 & HS & HP).
  apply polls_pend in HP. destruct HP as [-> ->]. split; [exact HS|]. exists (Ret tt). split; [reflexivity|].
  intros. apply polls_ret.
Qed.
Theorem C57_yield_now_polls : forall (Op : Type -> Type) (W : Type) (sem : forall B, Op B -> W -> B -> W -> Prop)
    (wake : Op unit) w w', sem _ wake w tt w' -> exists rest, polls sem (yield_now_with wake) w (Pending [] rest) w'.
Proof.
  intros. exists (Ret tt). unfold yield_now_with. apply polls_vis. exists tt, w'. split; [assumption|]. apply polls_pend. auto.
Qed.

(** ** C58 *)
(** The life of a future: polled any number of times, possibly dropped. *)
Inductive stage {Op : Type -> Type} (A : Type) : Type :=
| Unpolled (p : prog (Op := Op) A)                         (* created *)
| Suspended (c : list (Op unit)) (p : prog (Op := Op) A)   (* its last poll was Pending *)
| Completed (a : A)                                        (* its last poll was Ready *)
| Crashed                                                  (* its last poll panicked *)
| DroppedUnpolled
| DroppedSuspended.
Arguments Unpolled {Op A} p. Arguments Suspended {Op A} c p. Arguments Completed {Op A} a.
Arguments Crashed {Op A}. Arguments DroppedUnpolled {Op A}. Arguments DroppedSuspended {Op A}.
Definition after {Op A} (r : polled (Op := Op) A) : stage A :=
  match r with Ready a => Completed a | Pending c p => Suspended c p | Panicked => Crashed end.
Inductive life {Op : Type -> Type} {W : Type} (sem : forall B, Op B -> W -> B -> W -> Prop) (between : W -> W -> Prop)
    {A} (p : prog (Op := Op) A) (w : W) : stage (Op := Op) A -> W -> Prop :=
| born : life sem between p w (Unpolled p) w
| first_poll w1 w2 r w3 : life sem between p w (Unpolled p) w1 -> between w1 w2 -> polls sem p w2 r w3 -> life sem between p w (after r) w3
| next_poll c p1 w1 w2 r w3 : life sem between p w (Suspended c p1) w1 -> between w1 w2 -> polls sem p1 w2 r w3 ->
    life sem between p w (after r) w3
| drop_unpolled w1 w2 : life sem between p w (Unpolled p) w1 -> between w1 w2 -> life sem between p w DroppedUnpolled w2
| drop_suspended c p1 w1 w2 w3 : life sem between p w (Suspended c p1) w1 -> between w1 w2 -> drops sem c w2 w3 ->
    life sem between p w DroppedSuspended w3.

(** [cancels w] counts the calls of cancel_current_opperation so far: the radio's other methods and the rest of the
    program do not call it. *)
Theorem C58_cancel : forall (Op : Type -> Type) (W : Type) (sem : forall B, Op B -> W -> B -> W -> Prop) (between : W -> W -> Prop)
    (cancels : W -> nat) A (cancel : Op unit) (prepare : Op bool) (operate : Op (option A)),
  (forall w w', sem _ cancel w tt w' -> cancels w' = S (cancels w)) ->
  (forall w b w', sem _ prepare w b w' -> cancels w' = cancels w) ->
  (forall w b w', sem _ operate w b w' -> cancels w' = cancels w) ->
  (forall w w', between w w' -> cancels w' = cancels w) ->
  forall w s w', life sem between (radio_future cancel prepare operate) w s w' ->
    s <> Crashed /\ cancels w' = match s with DroppedSuspended => S (cancels w) | _ => cancels w end.
Proof.
  intros Op W sem between cancels A cancel prepare operate HC HP HO HB.
  (* the states the future can be suspended in *)
  set (wait2 := await operate). set (wait1 := bind (await_ready prepare) (fun _ => wait2)).
  assert (P2 : forall w r w', polls sem (scoped [cancel] wait2) w r w' ->
     cancels w' = cancels w /\ ((exists a, r = Ready a) \/ (exists p, r = Pending [cancel] p /\ (p = scoped [cancel] wait1 \/ p = scoped [cancel] wait2)))).
  { intros w r w' H. unfold wait2 in H. rewrite await_eq, scoped_vis in H. apply polls_vis in H. destruct H as (b & w1 & HS & H).
    apply HO in HS. destruct b as [a|].
    - rewrite scoped_ret in H. apply polls_ret in H. destruct H as [-> ->]. split; [exact HS|]. left. eauto.
    - rewrite scoped_pend in H. apply polls_pend in H. destruct H as [-> ->]. split; [exact HS|]. right. eexists. split; [reflexivity|]. right. reflexivity. }
  assert (P1 : forall w r w', polls sem (scoped [cancel] wait1) w r w' ->
     cancels w' = cancels w /\ ((exists a, r = Ready a) \/ (exists p, r = Pending [cancel] p /\ (p = scoped [cancel] wait1 \/ p = scoped [cancel] wait2)))).
  { intros w r w' H. unfold wait1 in H. rewrite await_ready_eq, bind_vis, scoped_vis in H. apply polls_vis in H. destruct H as (b & w1 & HS & H).
    apply HP in HS. destruct b.
    - rewrite bind_ret in H. apply P2 in H. destruct H as [E H]. split; [congruence|exact H].
    - rewrite bind_pend, scoped_pend in H. apply polls_pend in H. destruct H as [-> ->]. split; [exact HS|]. right.
      eexists. split; [reflexivity|]. left. reflexivity. }
  intros w s w' H.
  cut (match s with
       | Unpolled _ => cancels w' = cancels w
       | Suspended c p => cancels w' = cancels w /\ c = [cancel] /\ (p = scoped [cancel] wait1 \/ p = scoped [cancel] wait2)
       | Completed _ | DroppedUnpolled => cancels w' = cancels w
       | Crashed => False
       | DroppedSuspended => cancels w' = S (cancels w)
       end).
  { destruct s; intros X; (split; [discriminate||contradiction|]); tauto. }
  induction H as [|w1 w2 r w3 H IH HBt HPo|c p1 w1 w2 r w3 H IH HBt HPo|w1 w2 H IH HBt|c p1 w1 w2 w3 H IH HBt HD].
  - reflexivity.
  - apply HB in HBt. apply P1 in HPo. destruct HPo as [E [[a ->]|(p & -> & Hp)]]; cbn [after].
    + congruence.
    + split; [congruence|auto].
  - apply HB in HBt. destruct IH as (E0 & -> & Hp).
    assert (X : cancels w3 = cancels w2 /\ ((exists a, r = Ready a) \/ (exists p, r = Pending [cancel] p /\ (p = scoped [cancel] wait1 \/ p = scoped [cancel] wait2)))).
    { destruct Hp as [->| ->]; auto. }
    destruct X as [E [[a ->]|(p & -> & Hp')]]; cbn [after].
    + congruence.
    + split; [congruence|auto].
  - apply HB in HBt. congruence.
  - apply HB in HBt. destruct IH as (E0 & -> & Hp). cbn in HD. destruct HD as (w4 & HS & ->). apply HC in HS. congruence.
Qed.

(** What its polls do: [prepare] until the radio is ready, then -- in the same poll -- [operate] until it has a result;
    [prepare] is never called again after it succeeded. *)
Theorem C58_polls : forall (Op : Type -> Type) (W : Type) (sem : forall B, Op B -> W -> B -> W -> Prop)
    A (cancel : Op unit) (prepare : Op bool) (operate : Op (option A)),
  let fut := radio_future cancel prepare operate in
  exists operating : prog (Op := Op) A,
    (forall w r w', polls sem fut w r w' <->
       (sem _ prepare w false w' /\ r = Pending [cancel] fut) \/
       (exists v, sem _ prepare w true v /\ polls sem operating v r w')) /\
    (forall w r w', polls sem operating w r w' <->
       (sem _ operate w None w' /\ r = Pending [cancel] operating) \/
       (exists a, sem _ operate w (Some a) w' /\ r = Ready a)).
Proof.
  intros Op W sem A cancel prepare operate. cbn zeta. exists (scoped [cancel] (await operate)). split; intros w r w'.
  - split.
    + intros H. unfold radio_future in H at 1. rewrite await_ready_eq, bind_vis, scoped_vis in H. apply polls_vis in H.
      destruct H as (b & v & HS & H). destruct b.
      * rewrite bind_ret in H. right. exists v. split; assumption.
      * rewrite bind_pend, scoped_pend in H. apply polls_pend in H. destruct H as [-> ->]. left. split; [exact HS|reflexivity].
    + intros H. unfold radio_future at 1. rewrite await_ready_eq, bind_vis, scoped_vis. apply polls_vis.
      destruct H as [[HS ->]|(v & HS & H)].
      * exists false, w'. split; [exact HS|]. rewrite bind_pend, scoped_pend. apply polls_pend. split; reflexivity.
      * exists true, v. split; [exact HS|]. rewrite bind_ret. exact H.
  - split.
    + intros H. rewrite (await_eq _ operate), scoped_vis in H. apply polls_vis in H. destruct H as ([a|] & v & HS & H).
      * rewrite scoped_ret in H. apply polls_ret in H. destruct H as [-> ->]. right. exists a. split; [exact HS|reflexivity].
      * rewrite scoped_pend in H. apply polls_pend in H. destruct H as [-> ->]. left. split; [exact HS|reflexivity].
    + intros H. rewrite (await_eq _ operate), scoped_vis. apply polls_vis. destruct H as [[HS ->]|(a & HS & ->)].
      * exists None, w'. split; [exact HS|]. rewrite scoped_pend. apply polls_pend. split; reflexivity.
      * exists (Some a), w'. split; [exact HS|]. rewrite scoped_ret. apply polls_ret. split; reflexivity.
Qed.

(** A concrete radio: the world is the number of cancellations and of polls left until the radio is done. *)
Inductive demo_op : Type -> Type := DCancel : demo_op unit | DPrepare : demo_op bool | DOperate : demo_op (option nat).
Definition demo_sem B (o : demo_op B) : nat * nat -> B -> nat * nat -> Prop :=
  match o with
  | DCancel => fun w b w' => w' = (S (fst w), snd w)
  | DPrepare => fun w b w' => b = true /\ w' = w
  | DOperate => fun w b w' => match snd w with O => b = Some 7 /\ w' = w | S k => b = None /\ w' = (fst w, k) end
  end.
Definition demo_idle (w w' : nat * nat) : Prop := w' = w.
Example C58_hypotheses :
  (forall w w', demo_sem _ DCancel w tt w' -> fst w' = S (fst w)) /\
  (forall w b w', demo_sem _ DPrepare w b w' -> fst w' = fst w) /\
  (forall w b w', demo_sem _ DOperate w b w' -> fst w' = fst w) /\
  (forall w w', demo_idle w w' -> fst w' = fst w).
Proof.
  repeat split; cbn; intros.
  - subst; reflexivity.
  - destruct H as [_ ->]; reflexivity.
  - destruct (snd w); destruct H as [_ ->]; reflexivity.
  - rewrite H; reflexivity.
Qed.
Definition demo := radio_future DCancel DPrepare DOperate.
(** with two polls of waiting: dropped after the first poll, or completed by the third *)
Lemma demo_wait w k : polls demo_sem (scoped [DCancel] (await DOperate)) (w, S k) (Pending [DCancel] (scoped [DCancel] (await DOperate))) (w, k).
Proof.
  rewrite (await_eq _ DOperate) at 1. rewrite scoped_vis. apply polls_vis. exists None, (w, k). split; [split; reflexivity|].
  rewrite scoped_pend. apply polls_pend. split; reflexivity.
Qed.
Lemma demo_ready w : polls demo_sem (scoped [DCancel] (await DOperate)) (w, 0) (Ready 7) (w, 0).
Proof.
  rewrite await_eq, scoped_vis. apply polls_vis. exists (Some 7), (w, 0). split; [split; reflexivity|].
  rewrite scoped_ret. apply polls_ret. split; reflexivity.
Qed.
Lemma demo_start w k r w' : polls demo_sem (scoped [DCancel] (await DOperate)) (w, k) r w' -> polls demo_sem demo (w, k) r w'.
Proof.
  intros H. unfold demo, radio_future. rewrite await_ready_eq, bind_vis, scoped_vis. apply polls_vis. exists true, (w, k).
  split; [split; reflexivity|]. rewrite bind_ret. exact H.
Qed.
Example C58_dropped : life demo_sem demo_idle demo (0, 2) DroppedSuspended (1, 1).
Proof.
  apply (drop_suspended _ _ _ _ [DCancel] (scoped [DCancel] (await DOperate)) (0, 1) (0, 1));
    [|reflexivity|exists (1, 1); split; [reflexivity|reflexivity]].
  apply (first_poll _ _ _ _ (0, 2) (0, 2) (Pending _ _)); [apply born|reflexivity|apply demo_start, demo_wait].
Qed.
Example C58_completed : life demo_sem demo_idle demo (0, 2) (Completed 7) (0, 0).
Proof.
  apply (next_poll _ _ _ _ [DCancel] (scoped [DCancel] (await DOperate)) (0, 0) (0, 0) (Ready 7)); [|reflexivity|apply demo_ready].
  apply (next_poll _ _ _ _ [DCancel] (scoped [DCancel] (await DOperate)) (0, 1) (0, 1) (Pending _ _)); [|reflexivity|apply demo_wait].
  apply (first_poll _ _ _ _ (0, 2) (0, 2) (Pending _ _)); [apply born|reflexivity|apply demo_start, demo_wait].
Qed.

(** Examples for C55 and C56: children that complete at their first or second poll. *)
Definition later {A} (a : A) : prog (Op := demo_op) A := Pend [] (Ret a).
Definition now {A} (a : A) : prog (Op := demo_op) A := Ret a.
Example C55_first_wins : polls demo_sem (select (now 1) (now 2)) (0, 0) (Ready (inl 1)) (0, 0).
Proof. apply C55_select_start. eapply first_ready; [apply polls_ret; split; reflexivity|reflexivity]. Qed.
Example C55_second_wins : polls demo_sem (select (later 1) (now 2)) (0, 0) (Ready (inr 2)) (0, 0).
Proof.
  apply C55_select_start. eapply second_ready; [apply polls_pend; split; reflexivity|apply polls_ret; split; reflexivity|reflexivity].
Qed.
Example C56_waits_for_both : exists s, polls demo_sem (join (later 1) (now 2)) (0, 0) (Pending [] s) (0, 0) /\
  polls demo_sem s (0, 0) (Ready (1, 2)) (0, 0).
Proof.
  exists (join_of (Running [] (Ret 1)) (Finished 2)). split.
  - apply C56_join_start. apply (not_yet demo_sem join_of _ _ _ (Running [] (Ret 1)) (Finished 2) (0, 0)).
    + constructor. apply polls_pend. split; reflexivity.
    + constructor. apply polls_ret. split; reflexivity.
    + intros a b [X _]; discriminate.
  - apply C56_join_poll; [intros a b [X _]; discriminate|]. eapply both_finished; constructor. apply polls_ret. split; reflexivity.
Qed.

Example C57_case : exists s, polls (Op := fun _ => unit) (fun B _ (n : nat) (_ : B) m => m = S n) (yield_now_with tt) 0 (Pending [] s) 1 /\
  polls (Op := fun _ => unit) (fun B _ (n : nat) (_ : B) m => m = S n) s 5 (Ready tt) 5.
Proof.
  destruct (C57_yield_now_polls (fun _ => unit) nat (fun B _ (n : nat) (_ : B) m => m = S n) tt 0 1 eq_refl) as (s & H). exists s. split; [exact H|].
  destruct (C57_yield_now _ _ _ _ _ _ _ H) as (_ & s' & E & K). injection E as <-. apply K. split; reflexivity.
Qed.

Print Assumptions C55_select_poll.
Print Assumptions C55_pending_life.
Print Assumptions C55_complete_life.
Print Assumptions C56_join_poll.
Print Assumptions C56_pending_life.
Print Assumptions C56_complete_life.
Print Assumptions C57_yield_now.
Print Assumptions C57_yield_now_polls.
Print Assumptions C58_polls.
Print Assumptions C58_cancel.
