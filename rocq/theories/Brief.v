(** Brief.v -- bounding what a future does within one poll. [brief d K m n f p Q]: for [m] steps, whatever the environment
    answers, [p] takes at most [n] steps before it ends, is suspended, or a radio delivers a frame to the transmit task; from
    there on again at most [K], and so on; where it is suspended it has at most [d] destructors; if it ends with [a] then
    [Q a n' f'] for the [n'] steps left. [f]: a signal was sent in this poll and not received, so there is no room for
    another one. A panic ends the poll. *)
From Coq Require Import List Lia.
Import ListNotations.
From Verif Require Import Async AsyncProofs RadioFutures CsmaTasks.

(** the answers for which the count starts again *)
Definition refills (e : event) : bool := match e with Receive Tx (Some _) => true | _ => false end.
Definition flag (e : event) (f : bool) : bool := match e with SignalSend => true | SignalReceived _ => false | _ => f end.
Definition allowed (f : bool) (e : event) : Prop := e = SignalReady true -> f = false.

Section Logic.
Section Fixed.
Variables (d K : nat).
Definition after (e : event) (n : nat) : nat := if refills e then K else n.

Fixpoint brief (m n : nat) (f : bool) {A} (p : future A) (Q : A -> nat -> bool -> Prop) : Prop :=
  match m with
  | O => True
  | S m =>
      match p with
      | Ret a => exists n', n' <= n /\ Q a n' f
      | Tau p => exists n', n = S n' /\ brief m n' f p Q
      | Vis o k => exists n', n = S n' /\ forall b, allowed f (o b) -> brief m (after (o b) n') (flag (o b) f) (k b) Q
      | Pend c p => length c <= d /\ brief m K false p Q
      | Fail => True
      end
  end.
Definition Brief (n : nat) (f : bool) {A} (p : future A) (Q : A -> nat -> bool -> Prop) : Prop := forall m, brief m n f p Q.
End Fixed.

Lemma after_le K K' e n n' : K <= K' -> n <= n' -> after K e n <= after K' e n'.
Proof. unfold after. destruct (refills e); auto. Qed.
Lemma brief_weaken m : forall d d' K K' n n' f A (p : future A) (Q Q' : A -> nat -> bool -> Prop),
  d <= d' -> K <= K' -> n <= n' -> (forall a n f, Q a n f -> Q' a n f) -> brief d K m n f p Q -> brief d' K' m n' f p Q'.
Proof.
  induction m as [|m IH]; intros d d' K K' n n' f A p Q Q' Hd HK Hn HQ H; [exact I|]. destruct p as [a|p|X o k|c p|]; cbn in *.
  - destruct H as (x & Hx & H). exists x. split; [lia|auto].
  - destruct H as (x & -> & H). destruct n' as [|n']; [lia|]. exists n'. split; [reflexivity|]. eapply IH; [exact Hd|exact HK| |exact HQ|exact H]. lia.
  - destruct H as (x & -> & H). destruct n' as [|n']; [lia|]. exists n'. split; [reflexivity|]. intros b HA. eapply IH; [exact Hd|exact HK| |exact HQ|exact (H b HA)].
    apply after_le; [exact HK|lia].
  - destruct H as (Hc & H). split; [lia|]. eapply IH; [exact Hd|exact HK|exact HK|exact HQ|exact H].
  - exact I.
Qed.
Lemma brief_flag m : forall d K n f A (p : future A) (Q : A -> nat -> bool -> Prop),
  (forall a n f, Q a n false -> Q a n f) -> brief d K m n false p Q -> brief d K m n f p Q.
Proof.
  intros d K n [|] A p Q HQ; [|auto].
  revert n p. induction m as [|m IH]; intros n p H; [exact I|]. destruct p as [a|p|X o k|c p|]; cbn in *.
  - destruct H as (x & Hx & H). exists x. split; [lia|auto].
  - destruct H as (x & -> & H). exists x. split; [reflexivity|]. auto.
  - destruct H as (x & -> & H). exists x. split; [reflexivity|]. intros b HA.
    assert (HA' : allowed false (o b)) by (intros E; reflexivity). specialize (H b HA').
    assert (E : flag (o b) true = flag (o b) false \/ (flag (o b) true = true /\ flag (o b) false = false)) by (destruct (o b); cbn; auto).
    destruct E as [->|[-> E]]; [exact H|]. rewrite E in H. apply IH. exact H.
  - exact H.
  - exact I.
Qed.
(** fewer steps observed *)
Lemma brief_less m : forall m' d K n f A (p : future A) (Q : A -> nat -> bool -> Prop), m' <= m -> brief d K m n f p Q -> brief d K m' n f p Q.
Proof.
  induction m as [|m IH]; intros m' d K n f A p Q Hm H; [assert (m' = 0) by lia; subst; exact I|].
  destruct m' as [|m']; [exact I|]. assert (m' <= m) by lia. destruct p as [a|p|X o k|c p|]; cbn in *; auto.
  - destruct H as (x & -> & H). exists x. split; [reflexivity|]. eapply IH; eassumption.
  - destruct H as (x & -> & H). exists x. split; [reflexivity|]. intros b HA. eapply IH; [eassumption|exact (H b HA)].
  - destruct H as (Hc & H). split; [exact Hc|]. eapply IH; eassumption.
Qed.

(** sequencing: [r] steps are kept for the rest *)
Lemma brief_bind m : forall d K r n f A B (p : future A) (k : A -> future B) (Q : B -> nat -> bool -> Prop),
  brief d K m n f p (fun a n' f' => Brief d (K + r) (n' + r) f' (k a) Q) -> brief d (K + r) m (n + r) f (bind p k) Q.
Proof.
  induction m as [|m IH]; intros d K r n f A B p k Q H; [exact I|]. destruct p as [a|p|X o g|c p|]; cbn in H.
  - rewrite bind_ret. destruct H as (x & Hx & H). eapply brief_weaken; [| | | |exact (H (S m))]; auto. lia.
  - rewrite bind_tau. destruct H as (x & -> & H). exists (x + r). split; [reflexivity|]. apply IH. exact H.
  - rewrite bind_vis. destruct H as (x & -> & H). exists (x + r). split; [reflexivity|]. intros b HA.
    specialize (IH d K r _ _ _ _ _ k Q (H b HA)). unfold after in *. destruct (refills (o b)); exact IH.
  - rewrite bind_pend. destruct H as (Hc & H). split; [exact Hc|]. apply IH. exact H.
  - rewrite bind_fail. exact I.
Qed.
Lemma Brief_bind d K n f A B (p : future A) (k : A -> future B) (Q : B -> nat -> bool -> Prop) :
  Brief d K n f p (fun a n' f' => Brief d K n' f' (k a) Q) -> Brief d K n f (bind p k) Q.
Proof.
  intros H m. replace K with (K + 0) by lia. replace n with (n + 0) by lia. apply brief_bind. eapply brief_weaken; [| | | |exact (H m)]; auto.
  intros a x g HX. rewrite !PeanoNat.Nat.add_0_r. exact HX.
Qed.
Lemma brief_scoped m : forall d K n f A c (p : future A) (Q : A -> nat -> bool -> Prop),
  brief d K m n f p Q -> brief (d + length c) K m n f (scoped c p) Q.
Proof.
  induction m as [|m IH]; intros d K n f A c p Q H; [exact I|]. destruct p as [a|p|X o g|c' p|]; cbn in H.
  - rewrite scoped_ret. exact H.
  - rewrite scoped_tau. destruct H as (x & -> & H). exists x. split; [reflexivity|]. apply IH. exact H.
  - rewrite scoped_vis. destruct H as (x & -> & H). exists x. split; [reflexivity|]. intros b HA. apply IH. exact (H b HA).
  - rewrite scoped_pend. destruct H as (Hc & H). split; [rewrite app_length; lia|]. apply IH. exact H.
  - rewrite scoped_fail. exact I.
Qed.
(** a loop whose body, started with [a] steps, always has more than [a] left when it goes round *)
Lemma Brief_iter d K a X A (body : X -> future (X + A)) (Q : A -> nat -> bool -> Prop) :
  (forall x n f, a <= n -> Brief d K n f (body x) (fun r n' f' => match r with inl _ => a < n' | inr b => Q b n' f' end)) ->
  forall x n f, a <= n -> Brief d K n f (iter body x) Q.
Proof.
  intros HB.
  assert (H : forall m p n f, brief d K m n f p (fun r n' f' => match r with inl _ => a < n' | inr b => Q b n' f' end) -> brief d K m n f (iter_from body p) Q).
  { induction m as [|m IH]; intros p n f H; [exact I|]. destruct p as [r|p|B o g|c p|]; cbn in H.
    - rewrite iter_from_ret. destruct H as (x & Hx & H). destruct r as [x'|b]; [|exists x; auto].
      destruct n as [|n]; [lia|]. exists n. split; [reflexivity|]. apply IH. apply HB. lia.
    - rewrite iter_from_tau. destruct H as (x & -> & H). exists x. split; [reflexivity|]. apply IH. exact H.
    - rewrite iter_from_vis. destruct H as (x & -> & H). exists x. split; [reflexivity|]. intros b HA. apply IH. exact (H b HA).
    - rewrite iter_from_pend. destruct H as (Hc & H). split; [exact Hc|]. apply IH. exact H.
    - rewrite iter_from_fail. exact I. }
  intros x n f Hn m. apply H. apply HB. exact Hn.
Qed.

(** [takes d c p R]: [p] alone never takes more than [c] steps at a stretch, and its result satisfies [R] *)
Definition takes (d c : nat) {A} (p : future A) (R : A -> Prop) : Prop := forall f, Brief d c c f p (fun a _ _ => R a).
Lemma takes_frame d d' K c r f A (p : future A) (R : A -> Prop) : takes d c p R -> d <= d' -> c + r <= K ->
  forall n, c + r <= n -> Brief d' K n f p (fun a n' f' => r <= n' /\ R a).
Proof.
  intros H Hd HK n Hn m. specialize (H f m).
  assert (G : forall n, brief d c m n f p (fun a _ _ => R a) -> brief d (c + r) m (n + r) f p (fun a n' _ => r <= n' /\ R a)).
  { clear. revert f p. induction m as [|m IH]; intros f p n H; [exact I|]. destruct p as [a|p|X o g|c' p|]; cbn in H.
    - destruct H as (x & Hx & H). exists (x + r). split; [lia|]. split; [lia|exact H].
    - destruct H as (x & -> & H). exists (x + r). split; [reflexivity|]. apply IH. exact H.
    - destruct H as (x & -> & H). exists (x + r). split; [reflexivity|]. intros b HA. specialize (IH _ _ _ (H b HA)).
      unfold after in *. destruct (refills (o b)); exact IH.
    - destruct H as (Hc & H). split; [exact Hc|]. apply IH. exact H.
    - exact I. }
  eapply brief_weaken; [exact Hd|exact HK|exact Hn| |exact (G _ H)]. auto.
Qed.
Lemma takes_weaken d d' c c' A (p : future A) (R R' : A -> Prop) : d <= d' -> c <= c' -> (forall a, R a -> R' a) -> takes d c p R -> takes d' c' p R'.
Proof. intros Hd Hc HR H f m. eapply brief_weaken; [exact Hd|exact Hc|exact Hc| |exact (H f m)]. intros; auto. Qed.
Lemma takes_ret d c A (a : A) (R : A -> Prop) : R a -> takes d c (Ret a) R.
Proof. intros H f [|m]; [exact I|]. exists c. auto. Qed.
Lemma takes_fail d c A (R : A -> Prop) : takes d c Fail R.
Proof. intros f [|m]; exact I. Qed.
Lemma takes_bind d c1 c2 A B (p : future A) (k : A -> future B) R R' :
  takes d c1 p R -> (forall a, R a -> takes d c2 (k a) R') -> takes d (c1 + c2) (bind p k) R'.
Proof.
  intros H1 H2 f m. apply brief_bind. eapply brief_weaken; [| | | |exact (H1 f m)]; auto.
  intros a n g HR m'. eapply brief_weaken; [| | | |exact (H2 a HR g m')]; auto; lia.
Qed.
Lemma brief_ret m d K n f A (a : A) (Q : A -> nat -> bool -> Prop) : Q a n f -> brief d K m n f (Ret a) Q.
Proof. intros H. destruct m as [|m]; [exact I|]. exists n. auto. Qed.
Lemma takes_ask d B (o : B -> event) : takes d 1 (ask o) (fun _ => True).
Proof. intros f [|m]; [exact I|]. exists 0. split; [reflexivity|]. intros b HA. apply brief_ret. exact I. Qed.
Lemma takes_call d e : takes d 1 (call e) (fun _ => True).
Proof. apply takes_ask. Qed.
Lemma takes_awaits d (o : bool -> event) : takes d 1 (awaits o) (fun _ => True).
Proof.
  enough (H : forall m f, brief d 1 m 1 f (awaits o) (fun _ _ _ => True) /\ brief d 1 m 1 f (Pend (Op := op) [] (awaits o)) (fun _ _ _ => True)) by (intros f m; apply H).
  induction m as [|m IH]; intros f; [split; exact I|]. split.
  - unfold awaits. rewrite await_ready_eq. exists 0. split; [reflexivity|]. intros [|] HA; [apply brief_ret; exact I|].
    destruct m as [|m]; [exact I|]. exact (proj2 (IH f)).
  - split; [cbn; lia|apply IH].
Qed.
Lemma takes_awaiting d B (o : option B -> event) : takes d 1 (awaiting o) (fun _ => True).
Proof.
  enough (H : forall m f, brief d 1 m 1 f (awaiting o) (fun _ _ _ => True) /\ brief d 1 m 1 f (Pend (Op := op) [] (awaiting o)) (fun _ _ _ => True)) by (intros f m; apply H).
  induction m as [|m IH]; intros f; [split; exact I|]. split.
  - unfold awaiting. rewrite await_eq. exists 0. split; [reflexivity|]. intros [b|] HA; [apply brief_ret; exact I|].
    destruct m as [|m]; [exact I|]. exact (proj2 (IH f)).
  - split; [cbn; lia|apply IH].
Qed.
Lemma takes_lift d A (o : Base.outcome A) : takes d 0 (lift o) (fun _ => True).
Proof. destruct o; [apply takes_ret; exact I|apply takes_fail]. Qed.
Lemma takes_scoped d c A l (p : future A) R : takes d c p R -> takes (d + length l) c (scoped l p) R.
Proof. intros H f m. apply brief_scoped. apply H. Qed.
Lemma brief_cleanup m : forall d K n f A c (a : A) (Q : A -> nat -> bool -> Prop), n <= K -> length c <= n -> (forall n f, Q a n f) -> brief d K m n f (cleanup (Op := op) c (Ret a)) Q.
Proof.
  induction m as [|m IH]; intros d K n f A c a Q HK Hc HQ; [exact I|]. destruct c as [|o c]; cbn [cleanup].
  - exists n. auto.
  - cbn in Hc. destruct n as [|n]; [lia|]. exists n. split; [reflexivity|]. intros b HA. apply IH; [|unfold after; destruct (refills (o b)); lia|exact HQ].
    unfold after. destruct (refills (o b)); lia.
Qed.
Lemma takes_select d c A (p : future A) (o : bool -> event) R : takes d c p R ->
  takes d (c + (2 + d)) (select p (awaits o)) (fun r => match r with inl a => R a | inr _ => True end).
Proof.
  intros H f m. specialize (H f m). unfold select.
  enough (G : forall m n f p, brief d c m n f p (fun a _ _ => R a) ->
    brief d (c + (2 + d)) m (n + (2 + d)) f (select_first p [] (awaits o)) (fun r _ _ => match r with inl a => R a | inr _ => True end)) by (apply G; exact H).
  clear. induction m as [m IH] using (well_founded_induction Wf_nat.lt_wf). intros n f p H. destruct m as [|m]; [exact I|].
  destruct p as [a|p|X o' g|c' p|]; cbn in H.
  - rewrite select_first_ret. destruct H as (x & Hx & H). exists (n + (2 + d)). auto.
  - rewrite select_first_tau. destruct H as (x & -> & H). exists (x + (2 + d)). split; [reflexivity|]. apply IH; [lia|exact H].
  - rewrite select_first_vis. destruct H as (x & -> & H). exists (x + (2 + d)). split; [reflexivity|]. intros b HA. specialize (IH m (le_n _) _ _ _ (H b HA)).
    unfold after in *. destruct (refills (o' b)); exact IH.
  - rewrite select_first_pend. destruct H as (Hc & H). exists (n + (1 + d)). split; [lia|]. destruct m as [|m]; [exact I|].
    unfold awaits. rewrite await_ready_eq, select_second_vis. exists (n + d). split; [lia|]. intros b HA. destruct b.
    + rewrite select_second_ret. assert (E : refills (o true) = refills (o true)) by reflexivity. unfold after. destruct (refills (o true)).
      * apply brief_cleanup; [lia|lia|auto].
      * eapply brief_weaken with (d := d) (K := c + (2 + d)) (n := d); [lia|lia|lia|intros ? ? ? HX; exact HX|]. apply brief_cleanup; [lia|exact Hc|auto].
    + destruct m as [|m]; [exact I|]. rewrite select_second_pend. split; [rewrite app_nil_r; exact Hc|].
      apply (IH m); [lia|]. apply (brief_less (S (S m))); [lia|exact H].
  - rewrite select_first_fail. exact I.
Qed.
Lemma takes_join d c A (p : future A) (o : bool -> event) R : takes d c p R ->
  takes d (c + 2) (join p (awaits o)) (fun r => R (fst r)).
Proof.
  intros H f m. specialize (H f m). unfold join.
  assert (F : forall m n f p, brief d c m n f p (fun a _ _ => R a) ->
    brief d (c + 2) m (n + 2) f (join_first p (Finished tt)) (fun r _ _ => R (fst r))).
  { clear. induction m as [|m IH]; intros n f p H; [exact I|]. destruct p as [a|p|X o' g|c' p|]; cbn in H.
    - rewrite join_first_ret. destruct H as (x & Hx & H). exists 0. split; [lia|exact H].
    - rewrite join_first_tau. destruct H as (x & -> & H). exists (x + 2). split; [reflexivity|]. apply IH. exact H.
    - rewrite join_first_vis. destruct H as (x & -> & H). exists (x + 2). split; [reflexivity|]. intros b HA. specialize (IH _ _ _ (H b HA)).
      unfold after in *. destruct (refills (o' b)); exact IH.
    - rewrite join_first_pend. destruct H as (Hc & H). split; [exact Hc|]. apply IH. exact H.
    - rewrite join_first_fail. exact I. }
  assert (E : forall m n f a, R a -> 1 <= n -> brief d (c + 2) m n f (join_second (Finished a) (awaits o)) (fun r _ _ => R (fst r))).
  { clear. induction m as [m IH] using (well_founded_induction Wf_nat.lt_wf). intros n f a HR Hn. destruct m as [|m]; [exact I|].
    unfold awaits. rewrite await_ready_eq, join_second_vis. destruct n as [|n]; [lia|]. exists n. split; [reflexivity|]. intros [|] HA.
    - rewrite join_second_ret. apply brief_ret. exact HR.
    - destruct m as [|m]; [exact I|]. rewrite join_second_pend. split; [cbn; lia|]. apply (IH m); [lia|exact HR|lia]. }
  enough (G : forall m n f p, brief d c m n f p (fun a _ _ => R a) ->
    brief d (c + 2) m (n + 2) f (join_first p (Running [] (awaits o))) (fun r _ _ => R (fst r))) by (apply G; exact H).
  clear H m f p. induction m as [m IH] using (well_founded_induction Wf_nat.lt_wf). intros n f p H. destruct m as [|m]; [exact I|].
  destruct p as [a|p|X o' g|c' p|]; cbn in H.
  - rewrite join_first_ret. destruct H as (x & Hx & H). exists (n + 1). split; [lia|]. apply E; [exact H|lia].
  - rewrite join_first_tau. destruct H as (x & -> & H). exists (x + 2). split; [reflexivity|]. apply IH; [lia|exact H].
  - rewrite join_first_vis. destruct H as (x & -> & H). exists (x + 2). split; [reflexivity|]. intros b HA. specialize (IH m (le_n _) _ _ _ (H b HA)).
    unfold after in *. destruct (refills (o' b)); exact IH.
  - rewrite join_first_pend. destruct H as (Hc & H). exists (n + 1). split; [lia|]. destruct m as [|m]; [exact I|].
    unfold awaits. rewrite await_ready_eq, join_second_vis. exists n. split; [lia|]. intros [|] HA; (destruct m as [|m]; [exact I|]).
    + rewrite join_second_ret. split; [exact Hc|]. apply F. apply (brief_less (S (S m))); [lia|exact H].
    + rewrite join_second_pend. split; [rewrite app_nil_r; exact Hc|]. apply (IH m); [lia|]. apply (brief_less (S (S m))); [lia|exact H].
  - rewrite join_first_fail. exact I.
Qed.
(** a loop that goes round at most [mu x] times *)
Lemma takes_iter d c X A (body : X -> future (X + A)) (mu : X -> nat) (R : A -> Prop) :
  (forall x, takes d c (body x) (fun r => match r with inl x' => mu x' < mu x | inr a => R a end)) ->
  forall x, takes d (c + mu x * S c) (iter body x) R.
Proof.
  intros HB. enough (G : forall N x, mu x <= N -> takes d (c + N * S c) (iter body x) R) by (intros x; apply G; lia).
  induction N as [N IH] using (well_founded_induction Wf_nat.lt_wf). intros x Hx f m. specialize (HB x f m).
  unfold iter.
  enough (G : forall n p f, brief d c m n f p (fun r _ _ => match r with inl x' => mu x' < mu x | inr a => R a end) ->
    brief d (c + N * S c) m (n + N * S c) f (iter_from body p) (fun a _ _ => R a)) by (apply G; exact HB).
  clear HB f. induction m as [|m IHm]; intros n p g H; [exact I|]. destruct p as [r|p|B o k|c' p|]; cbn in H.
  - rewrite iter_from_ret. destruct H as (y & Hy & H). destruct r as [x'|b]; [|exists y; split; [lia|exact H]].
    assert (HN : mu x' <= N - 1) by lia. destruct N as [|N]; [lia|]. specialize (IH N (le_n _) x' ltac:(lia) g m).
    exists (n + (c + N * S c)). split; [lia|]. eapply brief_weaken; [| | | |exact IH]; auto; lia.
  - rewrite iter_from_tau. destruct H as (y & -> & H). exists (y + N * S c). split; [reflexivity|]. apply IHm. exact H.
  - rewrite iter_from_vis. destruct H as (y & -> & H). exists (y + N * S c). split; [reflexivity|]. intros b HA. specialize (IHm _ _ _ (H b HA)).
    unfold after in *. destruct (refills (o b)); exact IHm.
  - rewrite iter_from_pend. destruct H as (Hc & H). split; [exact Hc|]. apply IHm. exact H.
  - rewrite iter_from_fail. exact I.
Qed.
(** two tasks that do not end *)
Lemma Brief_select d1 d2 K1 K2 n f (p q : future Empty_set) Q1 Q2 Q :
  Brief d1 K1 n f p Q1 -> Brief d2 K2 K2 false q Q2 -> Brief (d1 + d2) (K1 + (1 + K2)) (n + (1 + K2)) f (select p q) Q.
Proof.
  intros HP HQ m. unfold select.
  enough (G : (forall n f p c q, brief d1 K1 m n f p Q1 -> brief d2 K2 m K2 false q Q2 -> brief (d1 + d2) (K1 + (1 + K2)) m (n + (1 + K2)) f (select_first p c q) Q) /\
              (forall n f c p q, length c <= d1 -> n <= K2 -> brief d1 K1 m K1 false p Q1 -> brief d2 K2 m n f q Q2 -> brief (d1 + d2) (K1 + (1 + K2)) m n f (select_second c p q) Q))
    by (apply G; auto).
  clear. induction m as [|m [IH1 IH2]]; [split; intros; exact I|]. split.
  - intros n f p c q HP HQ. destruct p as [[]|p|X o g|c' p|]; cbn [brief] in HP.
    + rewrite select_first_tau. destruct HP as (x & -> & HP). exists (x + (1 + K2)). split; [reflexivity|]. apply IH1; [exact HP|]. apply (brief_less (S m)); [lia|exact HQ].
    + rewrite select_first_vis. destruct HP as (x & -> & HP). exists (x + (1 + K2)). split; [reflexivity|]. intros b HA.
      assert (HQ' : brief d2 K2 m K2 false q Q2) by (apply (brief_less (S m)); [lia|exact HQ]).
      specialize (IH1 _ _ _ c _ (HP b HA) HQ'). unfold after in *. destruct (refills (o b)); exact IH1.
    + rewrite select_first_pend. destruct HP as (Hc & HP). exists (n + K2). split; [lia|].
      eapply brief_weaken with (n := K2); [apply le_n|apply le_n|lia|intros ? ? ? HX; exact HX|].
      apply IH2; [exact Hc|lia|exact HP|]. apply brief_flag; [intros []|]. apply (brief_less (S m)); [lia|exact HQ].
    + rewrite select_first_fail. exact I.
  - intros n f c p q Hc Hn HP HQ. destruct q as [[]|q|X o g|c' q|]; cbn [brief] in HQ.
    + rewrite select_second_tau. destruct HQ as (x & -> & HQ). exists x. split; [reflexivity|]. apply IH2; [exact Hc|lia| |exact HQ]. apply (brief_less (S m)); [lia|exact HP].
    + rewrite select_second_vis. destruct HQ as (x & -> & HQ). exists x. split; [reflexivity|]. intros b HA.
      assert (HP' : brief d1 K1 m K1 false p Q1) by (apply (brief_less (S m)); [lia|exact HP]).
      eapply brief_weaken with (n := after K2 (o b) x); [apply le_n|apply le_n|apply after_le; lia|intros ? ? ? HX; exact HX|].
      apply IH2; [exact Hc| |exact HP'|exact (HQ b HA)]. unfold after. destruct (refills (o b)); lia.
    + rewrite select_second_pend. destruct HQ as (Hc' & HQ). split; [rewrite app_length; lia|]. apply IH1; [|exact HQ]. apply (brief_less (S m)); [lia|exact HP].
    + rewrite select_second_fail. exact I.
Qed.
End Logic.
