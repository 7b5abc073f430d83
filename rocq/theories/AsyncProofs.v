(** AsyncProofs.v -- how polls of composed futures decompose. *)
From Coq Require Import List Lia Arith.
Import ListNotations.
From Verif Require Import Async SpecAsync.

Section Proofs.
Context {Op : Type -> Type} {W : Type}.
Variable sem : forall B : Type, Op B -> W -> B -> W -> Prop.
Notation prog := (prog (Op := Op)).
Notation child := (child (Op := Op)).

(** unfolding equations *)
Lemma select_first_ret A B (a : A) c (q : prog B) : select_first (Ret a) c q = cleanup c (Ret (inl a)).
Proof. rewrite (frob_eq (select_first _ _ _)). cbn. destruct c; reflexivity. Qed.
Lemma select_first_tau A B (p : prog A) c (q : prog B) : select_first (Tau p) c q = Tau (select_first p c q).
Proof. rewrite (frob_eq (select_first _ _ _)). reflexivity. Qed.
Lemma select_first_vis A B X (o : Op X) (k : X -> prog A) c (q : prog B) :
  select_first (Vis o k) c q = Vis o (fun b => select_first (k b) c q).
Proof. rewrite (frob_eq (select_first _ _ _)). reflexivity. Qed.
Lemma select_first_pend A B c' (p : prog A) c (q : prog B) :
  select_first (Pend c' p) c q = Tau (select_second c' p q).
Proof. rewrite (frob_eq (select_first _ _ _)). reflexivity. Qed.
Lemma select_first_fail A B c (q : prog B) : select_first (Fail : prog A) c q = Fail.
Proof. rewrite (frob_eq (select_first _ _ _)). reflexivity. Qed.
Lemma select_second_ret A B c (p : prog A) (b : B) : select_second c p (Ret b) = cleanup c (Ret (inr b)).
Proof. rewrite (frob_eq (select_second _ _ _)). cbn. destruct c; reflexivity. Qed.
Lemma select_second_tau A B c (p : prog A) (q : prog B) : select_second c p (Tau q) = Tau (select_second c p q).
Proof. rewrite (frob_eq (select_second _ _ _)). reflexivity. Qed.
Lemma select_second_vis A B X c (p : prog A) (o : Op X) (k : X -> prog B) :
  select_second c p (Vis o k) = Vis o (fun b => select_second c p (k b)).
Proof. rewrite (frob_eq (select_second _ _ _)). reflexivity. Qed.
Lemma select_second_pend A B c (p : prog A) c' (q : prog B) :
  select_second c p (Pend c' q) = Pend (c ++ c') (select_first p c' q).
Proof. rewrite (frob_eq (select_second _ _ _)). reflexivity. Qed.
Lemma select_second_fail A B c (p : prog A) : select_second c p (Fail : prog B) = Fail.
Proof. rewrite (frob_eq (select_second _ _ _)). reflexivity. Qed.

Lemma join_first_ret A B (a : A) (r : child B) :
  join_first (Ret a) r = match r with Running c q => Tau (join_second (Finished a) q) | Finished b => Ret (a, b) end.
Proof. rewrite (frob_eq (join_first _ _)). destruct r; reflexivity. Qed.
Lemma join_first_tau A B (p : prog A) (r : child B) : join_first (Tau p) r = Tau (join_first p r).
Proof. rewrite (frob_eq (join_first _ _)). reflexivity. Qed.
Lemma join_first_vis A B X (o : Op X) (k : X -> prog A) (r : child B) :
  join_first (Vis o k) r = Vis o (fun b => join_first (k b) r).
Proof. rewrite (frob_eq (join_first _ _)). reflexivity. Qed.
Lemma join_first_pend A B c (p : prog A) (r : child B) :
  join_first (Pend c p) r = match r with Running _ q => Tau (join_second (Running c p) q)
                                       | Finished b => Pend c (join_first p (Finished b)) end.
Proof. rewrite (frob_eq (join_first _ _)). destruct r; reflexivity. Qed.
Lemma join_first_fail A B (r : child B) : join_first (Fail : prog A) r = Fail.
Proof. rewrite (frob_eq (join_first _ _)). reflexivity. Qed.
Lemma join_second_ret A B (l : child A) (b : B) :
  join_second l (Ret b) = match l with Running c p => Pend c (join_first p (Finished b)) | Finished a => Ret (a, b) end.
Proof. rewrite (frob_eq (join_second _ _)). destruct l; reflexivity. Qed.
Lemma join_second_tau A B (l : child A) (q : prog B) : join_second l (Tau q) = Tau (join_second l q).
Proof. rewrite (frob_eq (join_second _ _)). reflexivity. Qed.
Lemma join_second_vis A B X (l : child A) (o : Op X) (k : X -> prog B) :
  join_second l (Vis o k) = Vis o (fun b => join_second l (k b)).
Proof. rewrite (frob_eq (join_second _ _)). reflexivity. Qed.
Lemma join_second_pend A B (l : child A) c (q : prog B) :
  join_second l (Pend c q) = match l with Running c' p => Pend (c' ++ c) (join_first p (Running c q))
                                        | Finished a => Pend c (join_second (Finished a) q) end.
Proof. rewrite (frob_eq (join_second _ _)). destruct l; reflexivity. Qed.
Lemma join_second_fail A B (l : child A) : join_second l (Fail : prog B) = Fail.
Proof. rewrite (frob_eq (join_second _ _)). reflexivity. Qed.

Lemma bind_ret A B (a : A) (k : A -> prog B) : bind (Ret a) k = k a.
Proof. transitivity (frob (k a)); [rewrite (frob_eq (bind _ _)); reflexivity|symmetry; apply frob_eq]. Qed.
Lemma bind_tau A B (p : prog A) (k : A -> prog B) : bind (Tau p) k = Tau (bind p k).
Proof. rewrite (frob_eq (bind _ _)). reflexivity. Qed.
Lemma bind_vis A B X (o : Op X) (f : X -> prog A) (k : A -> prog B) :
  bind (Vis o f) k = Vis o (fun b => bind (f b) k).
Proof. rewrite (frob_eq (bind _ _)). reflexivity. Qed.
Lemma bind_pend A B c (p : prog A) (k : A -> prog B) : bind (Pend c p) k = Pend c (bind p k).
Proof. rewrite (frob_eq (bind _ _)). reflexivity. Qed.
Lemma bind_fail A B (k : A -> prog B) : bind Fail k = Fail.
Proof. rewrite (frob_eq (bind _ _)). reflexivity. Qed.

Lemma scoped_ret A c (a : A) : scoped c (Ret a : prog A) = Ret a.
Proof. rewrite (frob_eq (scoped _ _)). reflexivity. Qed.
Lemma scoped_tau A c (p : prog A) : scoped c (Tau p) = Tau (scoped c p).
Proof. rewrite (frob_eq (scoped _ _)). reflexivity. Qed.
Lemma scoped_vis A X c (o : Op X) (k : X -> prog A) : scoped c (Vis o k) = Vis o (fun b => scoped c (k b)).
Proof. rewrite (frob_eq (scoped _ _)). reflexivity. Qed.
Lemma scoped_pend A c c' (p : prog A) : scoped c (Pend c' p) = Pend (c' ++ c) (scoped c p).
Proof. rewrite (frob_eq (scoped _ _)). reflexivity. Qed.
Lemma scoped_fail A c : scoped c (Fail : prog A) = Fail.
Proof. rewrite (frob_eq (scoped _ _)). reflexivity. Qed.

Lemma iter_from_ret S A body (x : S + A) :
  iter_from body (Ret x : prog (S + A)) = match x with inl s => Tau (iter body s) | inr a => Ret a end.
Proof. rewrite (frob_eq (iter_from _ _)). destruct x; reflexivity. Qed.
Lemma iter_from_tau S A body (p : prog (S + A)) : iter_from body (Tau p) = Tau (iter_from body p).
Proof. rewrite (frob_eq (iter_from _ _)). reflexivity. Qed.
Lemma iter_from_vis S A X body (o : Op X) (k : X -> prog (S + A)) :
  iter_from body (Vis o k) = Vis o (fun b => iter_from body (k b)).
Proof. rewrite (frob_eq (iter_from _ _)). reflexivity. Qed.
Lemma iter_from_pend S A body c (p : prog (S + A)) : iter_from body (Pend c p) = Pend c (iter_from body p).
Proof. rewrite (frob_eq (iter_from _ _)). reflexivity. Qed.
Lemma iter_from_fail S A body : iter_from body (Fail : prog (S + A)) = Fail.
Proof. rewrite (frob_eq (iter_from _ _)). reflexivity. Qed.

Lemma await_eq A (o : Op (option A)) :
  await o = Vis o (fun r => match r with Some a => Ret a | None => Pend [] (await o) end).
Proof. exact (frob_eq (await o)). Qed.
Lemma await_ready_eq (o : Op bool) :
  await_ready o = Vis o (fun r : bool => if r then Ret tt else Pend [] (await_ready o)).
Proof. exact (frob_eq (await_ready o)). Qed.

(** polls *)
Lemma poll_more n A (p : prog A) : forall m w r w', n <= m -> poll_in sem n p w r w' -> poll_in sem m p w r w'.
Proof.
  revert p. induction n as [|n IH]; intros p m w r w' H P; [destruct P|].
  destruct m as [|m]; [lia|]. destruct p; cbn in *; try exact P.
  - apply (IH _ m); [lia|exact P].
  - destruct P as [b [w1 [S P]]]. exists b, w1. split; [exact S|]. apply (IH _ m); [lia|exact P].
Qed.
Lemma polls_ret A (a : A) w r w' : polls sem (Ret a) w r w' <-> r = Ready a /\ w' = w.
Proof.
  split; [intros [[|n] P]; cbn in P; [destruct P|exact P]|]. intros P. exists 1. exact P.
Qed.
Lemma polls_tau A (p : prog A) w r w' : polls sem (Tau p) w r w' <-> polls sem p w r w'.
Proof.
  split; [intros [[|n] P]; cbn in P; [destruct P|exists n; exact P]|]. intros [n P]. exists (S n). exact P.
Qed.
Lemma polls_vis A X (o : Op X) (k : X -> prog A) w r w' :
  polls sem (Vis o k) w r w' <-> exists b w1, sem _ o w b w1 /\ polls sem (k b) w1 r w'.
Proof.
  split.
  - intros [[|n] P]; cbn in P; [destruct P|]. destruct P as [b [w1 [S P]]]. exists b, w1. split; [exact S|exists n; exact P].
  - intros [b [w1 [S' [n P]]]]. exists (S n). cbn. exists b, w1. auto.
Qed.
Lemma polls_pend A c (p : prog A) w r w' : polls sem (Pend c p) w r w' <-> r = Pending c p /\ w' = w.
Proof. split; [intros [[|n] P]; cbn in P; [destruct P|exact P]|]. intros P. exists 1. exact P. Qed.
Lemma polls_fail A w (r : polled A) w' : polls sem (Fail : prog A) w r w' <-> r = Panicked /\ w' = w.
Proof. split; [intros [[|n] P]; cbn in P; [destruct P|exact P]|]. intros P. exists 1. exact P. Qed.

Lemma polls_cleanup A c (p : prog A) : forall w r w',
  polls sem (cleanup c p) w r w' <-> exists w1, drops sem c w w1 /\ polls sem p w1 r w'.
Proof.
  induction c as [|o c IH]; intros w r w'; cbn.
  - split; [intros P; exists w; auto|intros [w1 [-> P]]; exact P].
  - rewrite polls_vis. split.
    + intros [[] [w1 [S P]]]. apply IH in P. destruct P as [w2 [D P]]. exists w2. split; [exists w1; auto|exact P].
    + intros [w2 [[w1 [S D]] P]]. exists tt, w1. split; [exact S|]. apply IH. exists w2; auto.
Qed.

(** induction on a poll *)
Lemma polls_ind A (P : prog A -> W -> polled A -> W -> Prop) :
  (forall a w, P (Ret a) w (Ready a) w) ->
  (forall p w r w', polls sem p w r w' -> P p w r w' -> P (Tau p) w r w') ->
  (forall X (o : Op X) k b w w1 r w', sem _ o w b w1 -> polls sem (k b) w1 r w' -> P (k b) w1 r w' -> P (Vis o k) w r w') ->
  (forall c p w, P (Pend c p) w (Pending c p) w) ->
  (forall w, P Fail w Panicked w) ->
  forall p w r w', polls sem p w r w' -> P p w r w'.
Proof.
  intros Hr Ht Hv Hp Hf p w r w' [n H]. revert p w r w' H. induction n as [|n IH]; intros p w r w' H; [destruct H|].
  destruct p; cbn in H.
  - destruct H as [-> ->]. apply Hr.
  - apply Ht; [exists n; exact H|apply IH; exact H].
  - destruct H as [b [w1 [S H]]]. eapply Hv; [exact S|exists n; exact H|apply IH; exact H].
  - destruct H as [-> ->]. apply Hp.
  - destruct H as [-> ->]. apply Hf.
Qed.

(** select *)
Lemma select_second_polls A B c (p : prog A) : forall (q : prog B) w r w',
  polls sem (select_second c p q) w r w' <->
  (exists b w1, polls sem q w (Ready b) w1 /\ drops sem c w1 w' /\ r = Ready (inr b)) \/
  (polls sem q w Panicked w' /\ r = Panicked) \/
  (exists c2 q1, polls sem q w (Pending c2 q1) w' /\ r = Pending (c ++ c2) (select_first p c2 q1)).
Proof.
  assert (F : forall n (q : prog B) w r w', poll_in sem n (select_second c p q) w r w' ->
    (exists b w1, polls sem q w (Ready b) w1 /\ drops sem c w1 w' /\ r = Ready (inr b)) \/
    (polls sem q w Panicked w' /\ r = Panicked) \/
    (exists c2 q1, polls sem q w (Pending c2 q1) w' /\ r = Pending (c ++ c2) (select_first p c2 q1))).
  { induction n as [|n IH]; intros q w r w' H; [destruct H|]. destruct q as [b|q|X o k|c' q|].
    - rewrite select_second_ret in H. assert (H' : polls sem (cleanup c (Ret (inr b : A + B))) w r w') by (exists (S n); exact H).
      apply polls_cleanup in H'. destruct H' as [w1 [D P]]. apply polls_ret in P. destruct P as [-> ->].
      left. exists b, w. split; [apply polls_ret; auto|auto].
    - rewrite select_second_tau in H. cbn in H. apply IH in H. setoid_rewrite polls_tau. exact H.
    - rewrite select_second_vis in H. cbn in H. destruct H as [b [w1 [Hs H]]]. apply IH in H.
      destruct H as [[b' [w2 [P [D E]]]]|[[P E]|[c2 [q1 [P E]]]]].
      + left. exists b', w2. split; [apply polls_vis; eauto|auto].
      + right; left. split; [apply polls_vis; eauto|auto].
      + right; right. exists c2, q1. split; [apply polls_vis; eauto|auto].
    - rewrite select_second_pend in H. cbn in H. destruct H as [-> ->]. right; right. exists c', q.
      split; [apply polls_pend; auto|reflexivity].
    - rewrite select_second_fail in H. cbn in H. destruct H as [-> ->]. right; left. split; [apply polls_fail; auto|reflexivity]. }
  intros q w r w'. split; [intros [n H]; exact (F n q w r w' H)|].
  clear F.
  assert (L : forall r1 (q : prog B) w1 w, polls sem q w r1 w1 ->
     match r1 with
     | Ready b => forall w', drops sem c w1 w' -> polls sem (select_second c p q) w (Ready (inr b)) w'
     | Panicked => polls sem (select_second c p q) w Panicked w1
     | Pending c1 q1 => polls sem (select_second c p q) w (Pending (c ++ c1) (select_first p c1 q1)) w1
     end).
  { intros r1 q0 w1 w0 P. pattern q0, w0, r1, w1. revert q0 w0 r1 w1 P. apply polls_ind.
    - intros a w0 w1 D. rewrite select_second_ret. apply polls_cleanup. exists w1. split; [exact D|apply polls_ret; auto].
    - intros p0 w0 [a|c1 p1|] w1 _ IH; intros; rewrite select_second_tau; apply polls_tau; auto.
    - intros X o k b w0 w1 [a|c1 p1|] w2 Hs _ IH; intros; rewrite select_second_vis; apply polls_vis; exists b, w1; auto.
    - intros c1 p1 w0. rewrite select_second_pend. apply polls_pend. auto.
    - intros w0. rewrite select_second_fail. apply polls_fail. auto. }
  intros [[b [w1 [P [D ->]]]]|[[P ->]|[c2 [q1 [P ->]]]]];
    [exact (L _ _ _ _ P _ D)|exact (L _ _ _ _ P)|exact (L _ _ _ _ P)].
Qed.

Lemma select_first_polls A B c (q : prog B) : forall (p : prog A) w r w',
  polls sem (select_first p c q) w r w' <-> select_poll sem select_first p c q w r w'.
Proof.
  assert (F : forall n (p : prog A) w r w', poll_in sem n (select_first p c q) w r w' ->
     select_poll sem select_first p c q w r w').
  { induction n as [|n IH]; intros p w r w' H; [destruct H|]. destruct p as [a|p|X o k|c' p|].
    - rewrite select_first_ret in H. assert (H' : polls sem (cleanup c (Ret (inl a : A + B))) w r w') by (exists (S n); exact H).
      apply polls_cleanup in H'. destruct H' as [w1 [D P]]. apply polls_ret in P. destruct P as [-> ->].
      eapply first_ready; [apply polls_ret; auto|exact D].
    - rewrite select_first_tau in H. cbn in H. apply IH in H. destruct H.
      + eapply first_ready; [apply polls_tau|]; eassumption.
      + eapply first_panics; apply polls_tau; assumption.
      + eapply second_ready; [apply polls_tau|..]; eassumption.
      + eapply second_panics; [apply polls_tau|]; eassumption.
      + eapply neither_ready; [apply polls_tau|]; eassumption.
    - rewrite select_first_vis in H. cbn in H. destruct H as [b [w1 [Hs H]]]. apply IH in H. destruct H.
      + eapply first_ready; [apply polls_vis; eauto|eassumption].
      + eapply first_panics; apply polls_vis; eauto.
      + eapply second_ready; [apply polls_vis; eauto|..]; eassumption.
      + eapply second_panics; [apply polls_vis; eauto|eassumption].
      + eapply neither_ready; [apply polls_vis; eauto|eassumption].
    - rewrite select_first_pend in H. cbn in H. assert (H' : polls sem (select_second c' p q) w r w') by (exists n; exact H).
      apply select_second_polls in H'. assert (Q : polls sem (Pend c' p) w (Pending c' p) w) by (apply polls_pend; auto).
      destruct H' as [[b [w1 [P [D ->]]]]|[[P ->]|[c2 [q1 [P ->]]]]].
      + eapply second_ready; eassumption.
      + eapply second_panics; eassumption.
      + eapply neither_ready; eassumption.
    - rewrite select_first_fail in H. cbn in H. destruct H as [-> ->]. apply first_panics. apply polls_fail. auto. }
  intros p w r w'. split; [intros [n H]; exact (F n p w r w' H)|]. clear F.
  assert (L : forall r1 (p : prog A) w1 w, polls sem p w r1 w1 ->
     match r1 with
     | Ready a => forall w', drops sem c w1 w' -> polls sem (select_first p c q) w (Ready (inl a)) w'
     | Panicked => polls sem (select_first p c q) w Panicked w1
     | Pending c1 p1 => forall r w', polls sem (select_second c1 p1 q) w1 r w' -> polls sem (select_first p c q) w r w'
     end).
  { intros r1 p0 w1 w0 P. pattern p0, w0, r1, w1. revert p0 w0 r1 w1 P. apply polls_ind.
    - intros a w0 w1 D. rewrite select_first_ret. apply polls_cleanup. exists w1. split; [exact D|apply polls_ret; auto].
    - intros p0 w0 [a|c1 p1|] w1 _ IH; intros; rewrite select_first_tau; apply polls_tau; auto.
    - intros X o k b w0 w1 [a|c1 p1|] w2 Hs _ IH; intros; rewrite select_first_vis; apply polls_vis; exists b, w1; auto.
    - intros c1 p1 w0 r0 w1 P. rewrite select_first_pend. apply polls_tau. exact P.
    - intros w0. rewrite select_first_fail. apply polls_fail. auto. }
  intros H. destruct H as [a w1 w' P D|w' P|c1 p1 w1 b w2 w' P Q D|c1 p1 w1 w' P Q|c1 p1 w1 c2 q1 w' P Q].
  - exact (L _ _ _ _ P _ D).
  - exact (L _ _ _ _ P).
  - apply (L _ _ _ _ P). apply select_second_polls. left. eauto.
  - apply (L _ _ _ _ P). apply select_second_polls. right; left. auto.
  - apply (L _ _ _ _ P). apply select_second_polls. right; right. eauto.
Qed.

(** join *)
Definition join_of {A B} (l : child A) (r : child B) : prog (A * B) :=
  match l, r with
  | Running _ p, r => join_first p r
  | Finished a, Running _ q => join_second (Finished a) q
  | Finished a, Finished b => Ret (a, b)
  end.

Lemma join_second_polls A B (l : child A) : forall (q : prog B) w r w',
  polls sem (join_second l q) w r w' <->
  (polls sem q w Panicked w' /\ r = Panicked) \/
  (exists b, polls sem q w (Ready b) w' /\
     r = match l with Finished a => Ready (a, b) | Running c p => Pending c (join_first p (Finished b)) end) \/
  (exists c q1, polls sem q w (Pending c q1) w' /\
     r = match l with Finished a => Pending c (join_second (Finished a) q1)
                    | Running c' p => Pending (c' ++ c) (join_first p (Running c q1)) end).
Proof.
  intros q w r w'. split.
  - intros [n H]. revert q w r w' H. induction n as [|n IH]; intros q w r w' H; [destruct H|]. destruct q as [b|q|X o k|c' q|].
    + rewrite join_second_ret in H. right; left. exists b. destruct l; cbn in H; destruct H as [-> ->];
        (split; [apply polls_ret; auto|reflexivity]).
    + rewrite join_second_tau in H. cbn in H. apply IH in H. setoid_rewrite polls_tau. exact H.
    + rewrite join_second_vis in H. cbn in H. destruct H as [b [w1 [Hs H]]]. apply IH in H.
      destruct H as [[P E]|[[b' [P E]]|[c2 [q1 [P E]]]]].
      * left. split; [apply polls_vis; eauto|auto].
      * right; left. exists b'. split; [apply polls_vis; eauto|auto].
      * right; right. exists c2, q1. split; [apply polls_vis; eauto|auto].
    + rewrite join_second_pend in H. right; right. exists c', q. destruct l; cbn in H; destruct H as [-> ->];
        (split; [apply polls_pend; auto|reflexivity]).
    + rewrite join_second_fail in H. cbn in H. destruct H as [-> ->]. left. split; [apply polls_fail; auto|reflexivity].
  - assert (L : forall r1 (q : prog B) w1 w, polls sem q w r1 w1 ->
     polls sem (join_second l q) w
       match r1 with
       | Ready b => match l with Finished a => Ready (a, b) | Running c p => Pending c (join_first p (Finished b)) end
       | Panicked => Panicked
       | Pending c q1 => match l with Finished a => Pending c (join_second (Finished a) q1)
                    | Running c' p => Pending (c' ++ c) (join_first p (Running c q1)) end
       end w1).
    { intros r1 q0 w1 w0 P. pattern q0, w0, r1, w1. revert q0 w0 r1 w1 P. apply polls_ind; intros.
      - rewrite join_second_ret. destruct l; [apply polls_pend|apply polls_ret]; auto.
      - rewrite join_second_tau. apply polls_tau. auto.
      - rewrite join_second_vis. apply polls_vis. eauto.
      - rewrite join_second_pend. destruct l; apply polls_pend; auto.
      - rewrite join_second_fail. apply polls_fail. auto. }
    intros [[P ->]|[[b [P ->]]|[c2 [q1 [P ->]]]]]; exact (L _ _ _ _ P).
Qed.

Lemma join_first_polls A B (r : child B) : forall (p : prog A) w x w',
  polls sem (join_first p r) w x w' <->
  (polls sem p w Panicked w' /\ x = Panicked) \/
  (exists a w1, polls sem p w (Ready a) w1 /\
     match r with Finished b => x = Ready (a, b) /\ w' = w1 | Running _ q => polls sem (join_second (Finished a) q) w1 x w' end) \/
  (exists c p1 w1, polls sem p w (Pending c p1) w1 /\
     match r with Finished b => x = Pending c (join_first p1 (Finished b)) /\ w' = w1
                | Running _ q => polls sem (join_second (Running c p1) q) w1 x w' end).
Proof.
  intros p w x w'. split.
  - intros [n H]. revert p w x w' H. induction n as [|n IH]; intros p w x w' H; [destruct H|]. destruct p as [a|p|X o k|c' p|].
    + rewrite join_first_ret in H. right; left. exists a, w. split; [apply polls_ret; auto|].
      destruct r as [c q|b]; [exists n; exact H|exact H].
    + rewrite join_first_tau in H. cbn in H. apply IH in H. setoid_rewrite polls_tau. exact H.
    + rewrite join_first_vis in H. cbn in H. destruct H as [b [w1 [Hs H]]]. apply IH in H.
      destruct H as [[P E]|[[a [w2 [P E]]]|[c2 [q1 [w2 [P E]]]]]].
      * left. split; [apply polls_vis; eauto|auto].
      * right; left. exists a, w2. split; [apply polls_vis; eauto|auto].
      * right; right. exists c2, q1, w2. split; [apply polls_vis; eauto|auto].
    + rewrite join_first_pend in H. right; right. exists c', p, w. split; [apply polls_pend; auto|].
      destruct r as [c q|b]; [exists n; exact H|exact H].
    + rewrite join_first_fail in H. cbn in H. destruct H as [-> ->]. left. split; [apply polls_fail; auto|reflexivity].
  - assert (L : forall r1 (p : prog A) w1 w, polls sem p w r1 w1 ->
     match r1 with
     | Ready a => forall x w', match r with Finished b => x = Ready (a, b) /\ w' = w1
                    | Running _ q => polls sem (join_second (Finished a) q) w1 x w' end -> polls sem (join_first p r) w x w'
     | Panicked => polls sem (join_first p r) w Panicked w1
     | Pending c p1 => forall x w', match r with Finished b => x = Pending c (join_first p1 (Finished b)) /\ w' = w1
                | Running _ q => polls sem (join_second (Running c p1) q) w1 x w' end -> polls sem (join_first p r) w x w'
     end).
    { intros r1 q0 w1 w0 P. pattern q0, w0, r1, w1. revert q0 w0 r1 w1 P. apply polls_ind.
      - intros a w0 x0 w1 P. rewrite join_first_ret. destruct r; [apply polls_tau; exact P|apply polls_ret; exact P].
      - intros p0 w0 [a|c1 p1|] w1 _ IH; intros; rewrite join_first_tau; apply polls_tau; auto.
      - intros X o k b w0 w1 [a|c1 p1|] w2 Hs _ IH; intros; rewrite join_first_vis; apply polls_vis; exists b, w1; auto.
      - intros c p0 w0 x0 w1 P. rewrite join_first_pend. destruct r; [apply polls_tau; exact P|apply polls_pend; exact P].
      - intros w0. rewrite join_first_fail. apply polls_fail. auto. }
    intros [[P ->]|[[a [w1 [P E]]]|[c2 [q1 [w1 [P E]]]]]]; [exact (L _ _ _ _ P)|exact (L _ _ _ _ P _ _ E)|exact (L _ _ _ _ P _ _ E)].
Qed.

Lemma join_polls A B (l : child A) (r : child B) w x w' :
  (forall a b, ~ (l = Finished a /\ r = Finished b)) ->
  polls sem (join_of l r) w x w' <-> join_poll sem join_of l r w x w'.
Proof.
  intros NF. destruct l as [c p|a]; cbn [join_of].
  - rewrite join_first_polls. split.
    + intros [[P ->]|[[a [w1 [P E]]]|[c1 [p1 [w1 [P E]]]]]].
      * apply left_panics. constructor. exact P.
      * assert (CL : child_poll sem (Running c p) w (Finished a) w1) by (constructor; exact P).
        destruct r as [d q|b].
        -- apply join_second_polls in E. destruct E as [[Q ->]|[[b [Q ->]]|[c2 [q1 [Q ->]]]]].
           ++ eapply right_panics; [exact CL|constructor; exact Q].
           ++ eapply both_finished; [exact CL|constructor; exact Q].
           ++ apply (not_yet sem join_of _ _ _ (Finished a) (Running c2 q1) _ _ CL); [constructor; exact Q|].
              intros ? ? [_ X]; discriminate.
        -- destruct E as [-> ->]. eapply both_finished; [exact CL|constructor].
      * assert (CL : child_poll sem (Running c p) w (Running c1 p1) w1) by (constructor; exact P).
        destruct r as [d q|b].
        -- apply join_second_polls in E. destruct E as [[Q ->]|[[b [Q ->]]|[c2 [q1 [Q ->]]]]].
           ++ eapply right_panics; [exact CL|constructor; exact Q].
           ++ pose proof (not_yet sem join_of (Running c p) (Running d q) w (Running c1 p1) (Finished b) w1 w' CL) as N.
              cbn [child_drops join_of] in N. rewrite app_nil_r in N. apply N; [constructor; exact Q|].
              intros ? ? [X _]; discriminate.
           ++ apply (not_yet sem join_of _ _ _ (Running c1 p1) (Running c2 q1) _ _ CL); [constructor; exact Q|].
              intros ? ? [X _]; discriminate.
        -- destruct E as [-> ->].
           pose proof (not_yet sem join_of (Running c p) (Finished b) w (Running c1 p1) (Finished b) w1 w1 CL) as N.
           cbn [child_drops join_of] in N. rewrite app_nil_r in N. apply N; [constructor|].
           intros ? ? [X _]; discriminate.
    + intros H. destruct H as [w' H|l1 w1 w' L R|a b w1 w' L R|l1 r1 w1 w' L R N].
      * inversion H; subst. left. auto.
      * inversion R as [d q ? ? Q]; subst. inversion L; subst.
        -- right; left. do 2 eexists. split; [eassumption|]. apply join_second_polls. left; auto.
        -- right; right. do 3 eexists. split; [eassumption|]. apply join_second_polls. left; auto.
      * inversion L; subst. right; left. do 2 eexists. split; [eassumption|].
        inversion R; subst; [auto|]. apply join_second_polls. right; left. eexists. split; [eassumption|reflexivity].
      * inversion L; subst.
        -- right; left. do 2 eexists. split; [eassumption|]. inversion R; subst.
           ++ exfalso. eapply N; split; reflexivity.
           ++ exfalso. eapply N; split; reflexivity.
           ++ apply join_second_polls. right; right. do 2 eexists. split; [eassumption|]. reflexivity.
        -- right; right. do 3 eexists. split; [eassumption|]. inversion R; subst; cbn [child_drops join_of].
           ++ rewrite app_nil_r. auto.
           ++ apply join_second_polls. right; left. eexists. split; [eassumption|]. rewrite app_nil_r. reflexivity.
           ++ apply join_second_polls. right; right. do 2 eexists. split; [eassumption|]. reflexivity.
  - destruct r as [d q|b]; [|exfalso; eapply NF; split; reflexivity].
    rewrite join_second_polls. assert (CL : child_poll sem (Finished a) w (Finished a) w) by constructor. split.
    + intros [[Q ->]|[[b [Q ->]]|[c2 [q1 [Q ->]]]]].
      * eapply right_panics; [exact CL|constructor; exact Q].
      * eapply both_finished; [exact CL|constructor; exact Q].
      * apply (not_yet sem join_of _ _ _ (Finished a) (Running c2 q1) _ _ CL); [constructor; exact Q|].
        intros ? ? [_ X]; discriminate.
    + intros H. destruct H as [w' H|l1 w1 w' L R|a' b w1 w' L R|l1 r1 w1 w' L R N].
      * inversion H.
      * inversion L; subst. inversion R; subst. left; auto.
      * inversion L; subst. inversion R; subst. right; left. eexists. split; [eassumption|reflexivity].
      * inversion L; subst. inversion R; subst.
        -- exfalso. eapply N; split; reflexivity.
        -- right; right. do 2 eexists. split; [eassumption|]. reflexivity.
Qed.

(** bind: one poll of [p] then, if ready, the rest *)
Lemma bind_polls A B (p : prog A) (k : A -> prog B) w r w' :
  polls sem (bind p k) w r w' <->
  (exists a w1, polls sem p w (Ready a) w1 /\ polls sem (k a) w1 r w') \/
  (exists c p1, polls sem p w (Pending c p1) w' /\ r = Pending c (bind p1 k)) \/
  (polls sem p w Panicked w' /\ r = Panicked).
Proof.
  split.
  - intros [n H]. revert p w r w' H. induction n as [|n IH]; intros p w r w' H; [destruct H|]. destruct p as [a|p|X o f|c p|].
    + rewrite bind_ret in H. left. exists a, w. split; [apply polls_ret; auto|exists (S n); exact H].
    + rewrite bind_tau in H. cbn in H. apply IH in H. setoid_rewrite polls_tau. exact H.
    + rewrite bind_vis in H. cbn in H. destruct H as [b [w1 [Hs H]]]. apply IH in H.
      destruct H as [[a [w2 [P E]]]|[[c2 [q1 [P E]]]|[P E]]].
      * left. exists a, w2. split; [apply polls_vis; eauto|auto].
      * right; left. exists c2, q1. split; [apply polls_vis; eauto|auto].
      * right; right. split; [apply polls_vis; eauto|auto].
    + rewrite bind_pend in H. cbn in H. destruct H as [-> ->]. right; left. exists c, p. split; [apply polls_pend; auto|reflexivity].
    + rewrite bind_fail in H. cbn in H. destruct H as [-> ->]. right; right. split; [apply polls_fail; auto|reflexivity].
  - assert (L : forall r1 (p : prog A) w1 w, polls sem p w r1 w1 ->
     match r1 with
     | Ready a => forall r w', polls sem (k a) w1 r w' -> polls sem (bind p k) w r w'
     | Panicked => polls sem (bind p k) w Panicked w1
     | Pending c p1 => polls sem (bind p k) w (Pending c (bind p1 k)) w1
     end).
    { intros r1 q0 w1 w0 P. pattern q0, w0, r1, w1. revert q0 w0 r1 w1 P. apply polls_ind.
      - intros a w0 r0 w1 P. rewrite bind_ret. exact P.
      - intros p0 w0 [a|c1 p1|] w1 _ IH; intros; rewrite bind_tau; apply polls_tau; auto.
      - intros X o f b w0 w1 [a|c1 p1|] w2 Hs _ IH; intros; rewrite bind_vis; apply polls_vis; exists b, w1; auto.
      - intros c p0 w0. rewrite bind_pend. apply polls_pend. auto.
      - intros w0. rewrite bind_fail. apply polls_fail. auto. }
    intros [[a [w1 [P E]]]|[[c2 [q1 [P ->]]]|[P ->]]]; [exact (L _ _ _ _ P _ _ E)|exact (L _ _ _ _ P)|exact (L _ _ _ _ P)].
Qed.
End Proofs.
