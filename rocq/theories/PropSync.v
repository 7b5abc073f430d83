(** C49-C54: the mutex and the channel *)
From Coq Require Import List Bool Arith Lia Permutation.
Import ListNotations.
From Verif Require Import Sync SpecSync SyncProofs.

(** ** C49 Mutual exclusion *)
Theorem C49_at_most_one_guard : forall tr m, mutex_history tr m -> length (guards tr) <= 1.
Proof.
  intros tr m H. pose proof (mi_guards _ _ (mutex_ok _ _ H)) as G.
  destruct (mx_locked m); [destruct G as (g & ->)|destruct G as [-> _]]; cbn; lia.
Qed.
Print Assumptions C49_at_most_one_guard.
Theorem C49_try_lock : forall tr m, mutex_history tr m -> (fst (try_lock m) = true <-> guards tr = []).
Proof.
  intros tr m H. pose proof (mi_guards _ _ (mutex_ok _ _ H)) as G. unfold try_lock.
  destruct (mx_locked m); [destruct G as (g & ->)|destruct G as [-> _]]; cbn; split; congruence.
Qed.
Print Assumptions C49_try_lock.
Theorem C49_lock : forall tr m t, mutex_history tr m -> (fst (fst (lock_poll t m)) = true <-> guards tr = []).
Proof.
  intros tr m t H. pose proof (mi_guards _ _ (mutex_ok _ _ H)) as G. unfold lock_poll.
  destruct (mx_locked m); [destruct G as (g & ->)|destruct G as [-> _]]; [destruct (mx_waker m) as [u|]; [destruct (u =? t)|]|]; cbn; split; congruence.
Qed.
Print Assumptions C49_lock.

(** two tasks, the first holds the lock, the second polls and is cancelled, the first unlocks *)
Definition mutex_example : list mutex_event :=
  [MPoll 0 7 (Some 100); MPoll 1 8 None; MPoll 2 9 None; MWake 8; MTry None; MCancel 2; MDrop 100; MWake 9; MTry (Some 101)].
Example C49_ex : mutex_history mutex_example (mkMutex true None) /\ guards mutex_example = [101].
Proof.
  split; [|reflexivity].
  apply (mh_try [MPoll 0 7 (Some 100); MPoll 1 8 None; MPoll 2 9 None; MWake 8; MTry None; MCancel 2; MDrop 100; MWake 9] (mkMutex false None) true _ (Some 101)); [|reflexivity|reflexivity|intros g _ []].
  apply (mh_drop [MPoll 0 7 (Some 100); MPoll 1 8 None; MPoll 2 9 None; MWake 8; MTry None; MCancel 2] (mkMutex true (Some 9)) 100 _ [9]); [|left; reflexivity|reflexivity].
  apply (mh_cancel [MPoll 0 7 (Some 100); MPoll 1 8 None; MPoll 2 9 None; MWake 8; MTry None]).
  apply (mh_try [MPoll 0 7 (Some 100); MPoll 1 8 None; MPoll 2 9 None; MWake 8] (mkMutex true (Some 9)) false _ None); [|reflexivity|reflexivity|discriminate].
  apply (mh_poll [MPoll 0 7 (Some 100); MPoll 1 8 None] (mkMutex true (Some 8)) 2 9 false _ [8] None); [|reflexivity|reflexivity|discriminate].
  apply (mh_poll [MPoll 0 7 (Some 100)] (mkMutex true None) 1 8 false _ [] None); [|reflexivity|reflexivity|discriminate].
  apply (mh_poll [] mutex_new 0 7 true _ [] (Some 100)); [constructor|reflexivity|reflexivity|intros g _ []].
Qed.

(** ** C50 Wakeups are never lost *)
(** whenever no guard exists, every task whose poll was pending has been woken since that poll *)
Theorem C50_waiters_woken : forall tr m, mutex_history tr m -> guards tr = [] ->
  forall a f t b, tr = a ++ MPoll f t None :: b -> In (MWake t) b.
Proof.
  intros tr m H G a f t b E. destruct (mutex_ok _ _ H) as [MG MW]. destruct (MW a f t b E) as [I|I]; [exact I|].
  destruct (mx_locked m); [destruct MG as (g & K); congruence|destruct MG; congruence].
Qed.
Print Assumptions C50_waiters_woken.
(** a waiter whose waker is replaced by another task's is woken *)
Theorem C50_displaced_woken : forall tr m, mutex_history tr m ->
  forall a f t b f' t' c, tr = a ++ MPoll f t None :: b ++ MPoll f' t' None :: c -> t <> t' -> In (MWake t) (b ++ c).
Proof. exact displaced. Qed.
Print Assumptions C50_displaced_woken.
(** ... and no task is woken without having waited *)
Theorem C50_wakes_only_waiters : forall tr m, mutex_history tr m -> forall a t b, tr = a ++ MWake t :: b -> exists f, In (MPoll f t None) a.
Proof.
  intros tr m H.
  assert (K : (forall u, mx_waker m = Some u -> exists f, In (MPoll f u None) tr) /\
              (forall a t b, tr = a ++ MWake t :: b -> exists f, In (MPoll f t None) a)); [|apply K].
  assert (IA : forall (tr l : list mutex_event) u, (exists f, In (MPoll f u None) tr) -> exists f, In (MPoll f u None) (tr ++ l)).
  { intros tr' l u (f & I). exists f. apply in_or_app. auto. }
  induction H as [|tr m f t b m' w r H [W1 W2] E GR FR|tr m b m' r H [W1 W2] E GR FR|tr m g m' w H [W1 W2] HI E|tr m f H [W1 W2]].
  - split; [discriminate|]. intros [|] ? ? K; discriminate.
  - unfold lock_poll in E. destruct r as [g|]; cbn in GR; subst b.
    + destruct (mx_locked m); [destruct (mx_waker m) as [u|]; [destruct (u =? t)|]; discriminate|]. injection E as <- <-. cbn in *. split; [intros; auto|].
      intros a u c K. apply split_snoc in K. destruct K as [(b' & -> & ->)|(a' & -> & K)]; [eauto|].
      destruct a' as [|x [|? ?]]; cbn in K; injection K as K1 K2; discriminate.
    + destruct (mx_locked m); [|discriminate].
      assert (EQ : mx_waker m' = Some t /\ (forall u, In u w -> mx_waker m = Some u)).
      { destruct (mx_waker m) as [u|]; [destruct (u =? t)|]; injection E as <- <-; split; auto; intros x K; destruct K; subst; auto; contradiction. }
      destruct EQ as [-> Hw]. split.
      { intros u [= <-]. exists f. apply in_or_app. right. left. reflexivity. }
      intros a u c K. apply split_snoc in K. destruct K as [(b' & -> & ->)|(a' & -> & K)]; [eauto|].
      apply IA, W1, Hw. destruct a' as [|x a']; cbn in K; injection K as K1 K2; [discriminate|].
      assert (I : In (MWake u) (map MWake w)) by (rewrite K2; apply in_elt). apply in_map_iff in I. destruct I as (y & [= ->] & I). exact I.
  - assert (EQ : mx_waker m' = mx_waker m) by (unfold try_lock in E; destruct (mx_locked m); injection E as <- <-; reflexivity).
    rewrite EQ. split; [intros; auto|]. intros a u c K. apply split_snoc in K. destruct K as [(b' & -> & ->)|(a' & -> & K)]; [eauto|].
    destruct a' as [|x [|? ?]]; cbn in K; injection K as K1 K2; discriminate.
  - assert (EQ : mx_waker m' = None /\ (forall u, In u w -> mx_waker m = Some u)).
    { unfold guard_drop in E. destruct (mx_waker m) as [u|]; injection E as <- <-; split; auto; intros x K; destruct K; subst; auto; contradiction. }
    destruct EQ as [-> Hw]. split; [discriminate|].
    intros a u c K. apply split_snoc in K. destruct K as [(b' & -> & ->)|(a' & -> & K)]; [eauto|].
    apply IA, W1, Hw. destruct a' as [|x a']; cbn in K; injection K as K1 K2; [discriminate|].
    assert (I : In (MWake u) (map MWake w)) by (rewrite K2; apply in_elt). apply in_map_iff in I. destruct I as (y & [= ->] & I). exact I.
  - split; [intros; auto|]. intros a u c K. apply split_snoc in K. destruct K as [(b' & -> & ->)|(a' & -> & K)]; [eauto|].
    destruct a' as [|x [|? ?]]; cbn in K; injection K as K1 K2; discriminate.
Qed.
Print Assumptions C50_wakes_only_waiters.
Example C50_ex : exists m a b, mutex_history (a ++ MPoll 1 8 None :: b) m /\ guards (a ++ MPoll 1 8 None :: b) = [] /\ length b = 5.
Proof.
  exists (mkMutex false None), [MPoll 0 7 (Some 100)], [MPoll 2 9 None; MWake 8; MTry None; MDrop 100; MWake 9].
  split; [|split; reflexivity].
  apply (mh_drop [MPoll 0 7 (Some 100); MPoll 1 8 None; MPoll 2 9 None; MWake 8; MTry None] (mkMutex true (Some 9)) 100 _ [9]); [|left; reflexivity|reflexivity].
  apply (mh_try [MPoll 0 7 (Some 100); MPoll 1 8 None; MPoll 2 9 None; MWake 8] (mkMutex true (Some 9)) false _ None); [|reflexivity|reflexivity|discriminate].
  apply (mh_poll [MPoll 0 7 (Some 100); MPoll 1 8 None] (mkMutex true (Some 8)) 2 9 false _ [8] None); [|reflexivity|reflexivity|discriminate].
  apply (mh_poll [MPoll 0 7 (Some 100)] (mkMutex true None) 1 8 false _ [] None); [|reflexivity|reflexivity|discriminate].
  apply (mh_poll [] mutex_new 0 7 true _ [] (Some 100)); [constructor|reflexivity|reflexivity|intros g _ []].
Qed.

(** ** C51 The channel delivers the latest message, once *)
Section channel.
Context {T : Type}.

Lemma C51_receive_aux (tr : list (channel_event T)) c t : channel_history tr c ->
  exists c' w, receive_poll t c = Def (unread tr, c', w).
Proof.
  intros H. pose proof (ci_slot _ _ (channel_ok _ _ H)) as I. unfold receive_poll.
  destruct (unread tr) as [v|]; [destruct I as (-> & -> & _)|destruct I as (-> & _)]; eauto.
Qed.
Lemma C51_send_aux (tr : list (channel_event T)) c v : channel_history tr c ->
  exists b c' w d, send v c = Def (b, c', w, d) /\ (b = true <-> unread tr <> None) /\ d = option_list (unread tr).
Proof.
  intros H. pose proof (ci_slot _ _ (channel_ok _ _ H)) as I. unfold send.
  destruct (unread tr) as [x|]; [destruct I as (-> & -> & _)|destruct I as (-> & _)]; do 4 eexists; (split; [reflexivity|]); split; auto; split; congruence.
Qed.
Lemma C51_async_aux (tr : list (channel_event T)) c t v : channel_history tr c ->
  exists r c' w d, send_async_poll t v c = Def (r, c', w, d) /\ (r = None <-> unread tr <> None) /\ (r = None \/ r = Some false) /\ d = [].
Proof.
  intros H. pose proof (ci_slot _ _ (channel_ok _ _ H)) as I. unfold send_async_poll, send_ready_poll, has_item, send.
  destruct (unread tr) as [x|].
  - destruct I as (-> & _). destruct (ch_send c) as [u|]; [destruct (u =? t)|]; do 4 eexists; (split; [reflexivity|]); (split; [split; congruence|]); auto.
  - destruct I as (E & _). rewrite !E. do 4 eexists; (split; [reflexivity|]). split; [split; congruence|]. auto.
Qed.
End channel.

(** A poll of receive() is defined (reads an initialised slot) and yields exactly the unread message. *)
Theorem C51_receive : forall T (tr : list (channel_event T)) c t, channel_history tr c ->
  exists c' w, receive_poll t c = Def (unread tr, c', w).
Proof. intros. apply C51_receive_aux. assumption. Qed.
Print Assumptions C51_receive.
(** send is defined, returns true iff it replaced an unread message, which it drops *)
Theorem C51_send : forall T (tr : list (channel_event T)) c v, channel_history tr c ->
  exists b c' w d, send v c = Def (b, c', w, d) /\ (b = true <-> unread tr <> None) /\ d = option_list (unread tr).
Proof. intros. apply C51_send_aux. assumption. Qed.
Print Assumptions C51_send.
(** between two receptions there is a send: each message is received at most once *)
Theorem C51_has_item : forall T (tr : list (channel_event T)) c, channel_history tr c -> (has_item c = true <-> unread tr <> None).
Proof.
  intros T tr c H. pose proof (ci_slot _ _ (channel_ok _ _ H)) as I. unfold has_item.
  destruct (unread tr); [destruct I as (-> & _)|destruct I as (-> & _)]; split; congruence.
Qed.
Print Assumptions C51_has_item.
Theorem C51_at_most_once : forall T (tr : list (channel_event T)) c, channel_history tr c ->
  forall a f t v b f' t' v' d, tr = a ++ CRecvPoll f t (Some v) :: b ++ CRecvPoll f' t' (Some v') :: d ->
  exists x, In x (sent b) /\ x = v'.
Proof.
  Ltac regroup EQ := match type of EQ with _ = ?a ++ ?x :: ?b ++ ?d => change (x :: b ++ d) with ((x :: b) ++ d) in EQ; rewrite (app_assoc a) in EQ end.
  intros T tr c H.
  assert (U : forall (l : list (channel_event T)) v, fold_left unread_step l None = Some v -> In v (sent l)).
  { intros l v. assert (G : forall l u, fold_left unread_step l u = Some v -> u = Some v \/ In v (sent l)).
    { clear. intros l. induction l as [|e l IH]; intros u E; [left; exact E|]. cbn in E. apply IH in E. destruct E as [E|E].
      - destruct e as [w|? ? w [r|]|? ? [w|]| | | | ]; cbn in E; auto; try discriminate; injection E as ->; right; cbn; auto.
      - right. unfold sent. cbn. apply in_or_app. auto. }
    intros E. destruct (G l None E) as [|]; [discriminate|assumption]. }
  induction H as [|tr c v b c' w d H IH E|tr c s t v r c' w d H IH E|tr c f t r c' w H IH E|tr c f H IH|tr c H IH];
    intros a f0 t0 v0 b0 f1 t1 v1 d0 EQ.
  - destruct a; discriminate.
  - regroup EQ. apply split_snoc in EQ. destruct EQ as [(c0 & E1 & ->)|(a' & E1 & E2)].
    + rewrite <- app_assoc in E1. cbn in E1. eapply IH; eauto.
    + destruct a' as [|x a']; cbn in E2; injection E2 as E2 E3; [discriminate|]. exfalso.
      assert (K : In (CRecvPoll f1 t1 (Some v1)) (map CWake w ++ map CDropped d)) by (rewrite E3; apply in_elt).
      apply in_tail in K; [|exact []]. destruct K as [(? & K)|(? & K)]; discriminate.
  - regroup EQ. apply split_snoc in EQ. destruct EQ as [(c0 & E1 & ->)|(a' & E1 & E2)].
    + rewrite <- app_assoc in E1. cbn in E1. eapply IH; eauto.
    + destruct a' as [|x a']; cbn in E2; injection E2 as E2 E3; [discriminate|]. exfalso.
      assert (K : In (CRecvPoll f1 t1 (Some v1)) (map CWake w ++ map CDropped d)) by (rewrite E3; apply in_elt).
      apply in_tail in K; [|exact []]. destruct K as [(? & K)|(? & K)]; discriminate.
  - regroup EQ. apply split_snoc in EQ. destruct EQ as [(c0 & E1 & ->)|(a' & E1 & E2)].
    + rewrite <- app_assoc in E1. cbn in E1. eapply IH; eauto.
    + destruct a' as [|x a']; cbn in E2.
      * injection E2 as -> -> -> E3. rewrite app_nil_r in E1. exists v1. split; [|reflexivity].
        destruct (C51_receive_aux tr c t1 H) as (c2 & w2 & E4). rewrite E in E4. injection E4 as E4 _ _.
        apply U. rewrite <- E1, unread_app in E4. cbn in E4. symmetry. exact E4.
      * injection E2 as _ E3. exfalso.
        assert (K : In (CRecvPoll f1 t1 (Some v1)) (map CWake w)) by (rewrite E3; apply in_elt). apply in_map_iff in K. destruct K as (? & K & _). discriminate.
  - regroup EQ. apply split_snoc in EQ. destruct EQ as [(c0 & E1 & ->)|(a' & E1 & E2)].
    + rewrite <- app_assoc in E1. cbn in E1. eapply IH; eauto.
    + destruct a' as [|x [|? ?]]; cbn in E2; injection E2 as E2 E3; discriminate.
  - regroup EQ. apply split_snoc in EQ. destruct EQ as [(c0 & E1 & ->)|(a' & E1 & E2)].
    + rewrite <- app_assoc in E1. cbn in E1. eapply IH; eauto.
    + destruct a' as [|x [|? ?]]; cbn in E2; injection E2 as E2 E3; discriminate.
Qed.
Print Assumptions C51_at_most_once.

(** a channel on which 1 and 2 are sent (2 replaces 1), then received, with a waiting asynchronous sender *)
Definition channel_example : list (channel_event nat) :=
  [CRecvPoll 0 5 None; CSend 1 false; CWake 5; CSend 2 true; CDropped 1; CSendPoll 1 6 3 None; CRecvPoll 0 5 (Some 2); CWake 6; CSendPoll 1 6 3 (Some false)].
Lemma channel_example_ok : channel_history channel_example (mkChannel true None None (SInit 3)).
Proof.
  apply (ch_send_poll [CRecvPoll 0 5 None; CSend 1 false; CWake 5; CSend 2 true; CDropped 1; CSendPoll 1 6 3 None; CRecvPoll 0 5 (Some 2); CWake 6] (mkChannel false None None SMoved) 1 6 3 (Some false) _ [] []); [|reflexivity].
  apply (ch_recv_poll [CRecvPoll 0 5 None; CSend 1 false; CWake 5; CSend 2 true; CDropped 1; CSendPoll 1 6 3 None] (mkChannel true None (Some 6) (SInit 2)) 0 5 (Some 2) _ [6]); [|reflexivity].
  apply (ch_send_poll [CRecvPoll 0 5 None; CSend 1 false; CWake 5; CSend 2 true; CDropped 1] (mkChannel true None None (SInit 2)) 1 6 3 None _ [] []); [|reflexivity].
  apply (ch_send_now [CRecvPoll 0 5 None; CSend 1 false; CWake 5] (mkChannel true None None (SInit 1)) 2 true _ [] [1]); [|reflexivity].
  apply (ch_send_now [CRecvPoll 0 5 None] (mkChannel false (Some 5) None SUninit) 1 false _ [5] []); [|reflexivity].
  apply (ch_recv_poll [] channel_new 0 5 None _ []); [constructor|reflexivity].
Qed.
Example C51_ex : exists c, channel_history channel_example c /\ unread channel_example = Some 3 /\ sent channel_example = [1; 2; 3] /\ received channel_example = [2].
Proof. eexists. split; [exact channel_example_ok|]. repeat split. Qed.

(** ** C52 send_async never overwrites *)
(** a send_async future sends exactly when no message is unread, and then replaces and drops nothing *)
Theorem C52_sends_when_empty : forall T (tr : list (channel_event T)) c t v, channel_history tr c ->
  exists r c' w d, send_async_poll t v c = Def (r, c', w, d) /\ (r = None <-> unread tr <> None) /\ (r = None \/ r = Some false) /\ d = [].
Proof. intros. apply C51_async_aux. assumption. Qed.
Print Assumptions C52_sends_when_empty.
(** so with asynchronous senders only, the received messages are the sent ones, in order (except the unread one) *)
Theorem C52_fifo : forall T (tr : list (channel_event T)) c, channel_history tr c -> only_async tr -> never_reset tr ->
  sent tr = received tr ++ option_list (unread tr).
Proof. intros. eapply channel_fifo; eauto. Qed.
Print Assumptions C52_fifo.
Example C52_ex : exists c, channel_history [CSendPoll 1 6 3 (Some false); CRecvPoll 0 5 (Some 3); CSendPoll 1 6 4 (Some false); CSendPoll 1 6 5 None] c /\
  only_async [CSendPoll 1 6 3 (Some false); CRecvPoll 0 5 (Some 3); CSendPoll 1 6 4 (Some false); CSendPoll 1 6 5 None].
Proof.
  exists (mkChannel true None (Some 6) (SInit 4)). split.
  - apply (ch_send_poll [CSendPoll 1 6 3 (Some false); CRecvPoll 0 5 (Some 3); CSendPoll 1 6 4 (Some false)] (mkChannel true None None (SInit 4)) 1 6 5 None _ [] []); [|reflexivity].
    apply (ch_send_poll [CSendPoll 1 6 3 (Some false); CRecvPoll 0 5 (Some 3)] (mkChannel false None None SMoved) 1 6 4 (Some false) _ [] []); [|reflexivity].
    apply (ch_recv_poll [CSendPoll 1 6 3 (Some false)] (mkChannel true None None (SInit 3)) 0 5 (Some 3) _ []); [|reflexivity].
    apply (ch_send_poll [] channel_new 1 6 3 (Some false) _ [] []); [constructor|reflexivity].
  - intros v b K. cbn in K. repeat (destruct K as [K|K]; [discriminate|]). exact K.
Qed.

(** ** C53 Channel wakeups are never lost *)
(** Whenever a message is present, every pending receive() on this channel (no [split] since, no other task has
    called receive() since) has been followed by a wake of its task. *)
Theorem C53_receiver_woken : forall T (tr : list (channel_event T)) c, channel_history tr c ->
  unread tr <> None -> forall a f t b, tr = a ++ CRecvPoll f t None :: b -> ~ In CReset b ->
  (forall f' u r, In (CRecvPoll f' u r) b -> u = t) -> In (CWake t) b.
Proof.
  intros T tr c H HU a f t b E NR HT.
  pose proof (ci_slot _ _ (channel_ok _ _ H)) as I. destruct (unread tr) as [v|] eqn:EU; [|congruence]. destruct I as (_ & _ & I).
  destruct (channel_recv _ _ H a f t b E NR HT) as [K|K]; [exact K|congruence].
Qed.
Print Assumptions C53_receiver_woken.
(** any number of sender tasks: whenever the channel is empty, every pending send_async has been followed by a wake *)
Theorem C53_senders_woken : forall T (tr : list (channel_event T)) c, channel_history tr c ->
  unread tr = None -> forall a s t v b, tr = a ++ CSendPoll s t v None :: b -> ~ In CReset b -> In (CWake t) b.
Proof.
  intros T tr c H HU a s t v b E NR.
  pose proof (ci_slot _ _ (channel_ok _ _ H)) as I. rewrite HU in I. destruct I as (_ & I).
  destruct (channel_send _ _ H a s t v b E NR) as [K|K]; [exact K|congruence].
Qed.
Print Assumptions C53_senders_woken.
(** The restriction to one receiver task is needed: with two, the first is displaced without being woken, and if
    the second is cancelled the message waits while the first sleeps. *)
Theorem C53_two_receiver_tasks_lost : exists (tr : list (channel_event nat)) c a b, channel_history tr c /\
  unread tr = Some 1 /\ tr = a ++ CRecvPoll 0 5 None :: b /\ ~ In (CWake 5) b /\ In (CCancel 1) b.
Proof.
  exists [CRecvPoll 0 5 None; CRecvPoll 1 6 None; CCancel 1; CSend 1 false; CWake 6], (mkChannel true None None (SInit 1)), [], [CRecvPoll 1 6 None; CCancel 1; CSend 1 false; CWake 6].
  split; [|split; [reflexivity|split; [reflexivity|split]]].
  - apply (ch_send_now [CRecvPoll 0 5 None; CRecvPoll 1 6 None; CCancel 1] (mkChannel false (Some 6) None SUninit) 1 false _ [6] []); [|reflexivity].
    apply (ch_cancel [CRecvPoll 0 5 None; CRecvPoll 1 6 None]).
    apply (ch_recv_poll [CRecvPoll 0 5 None] (mkChannel false (Some 5) None SUninit) 1 6 None _ []); [|reflexivity].
    apply (ch_recv_poll [] channel_new 0 5 None _ []); [constructor|reflexivity].
  - intros K. cbn in K. repeat (destruct K as [K|K]; [discriminate|]). exact K.
  - right. left. reflexivity.
Qed.
Print Assumptions C53_two_receiver_tasks_lost.
Example C53_ex : exists c a b, channel_history channel_example c /\ receiver_task 5 channel_example /\ unread channel_example <> None /\
  channel_example = a ++ CRecvPoll 0 5 None :: b.
Proof.
  eexists. exists [], (tl channel_example). split; [exact channel_example_ok|]. split; [|split; [discriminate|reflexivity]].
  intros f u r K. cbn in K. repeat (destruct K as [K|K]; [try discriminate; injection K as <- <- <-; reflexivity|]). destruct K.
Qed.

(** ** C54 Messages are dropped exactly once *)
Definition C54_statement : Prop := forall T (tr : list (channel_event T)) c, channel_history tr c ->
  Permutation (sent tr) (received tr ++ dropped tr ++ option_list (unread tr)).
(** a message pending when split() is called again (or when the channel is dropped) is neither received nor dropped *)
Theorem C54_reset_refuted : ~ C54_statement.
Proof.
  intros H. specialize (H nat [CSend 1 false; CReset] channel_new).
  assert (K : channel_history [CSend 1 false; CReset] (@channel_new nat)).
  { apply (ch_reset [CSend 1 false] (mkChannel true None None (SInit 1))). apply (ch_send_now [] channel_new 1 false _ [] []); [constructor|reflexivity]. }
  apply H in K. cbn in K. apply Permutation_sym, Permutation_nil in K. discriminate.
Qed.
Print Assumptions C54_reset_refuted.
(** Otherwise every message is accounted for exactly once: received, dropped, still unread, or lost in a reset. *)
Theorem C54_accounted_partial : forall T (tr : list (channel_event T)) c, channel_history tr c ->
  Permutation (sent tr) (received tr ++ dropped tr ++ lost tr ++ option_list (unread tr)).
Proof. intros. eapply channel_accounted. eauto. Qed.
Print Assumptions C54_accounted_partial.
Theorem C54_no_reset : forall T (tr : list (channel_event T)) c, channel_history tr c -> never_reset tr ->
  Permutation (sent tr) (received tr ++ dropped tr ++ option_list (unread tr)).
Proof.
  intros T tr c H HR. replace (option_list (unread tr)) with (lost tr ++ option_list (unread tr)); [eapply channel_accounted; eauto|].
  unfold lost. assert (L : forall l u, ~ In (@CReset T) l -> lost_from u l = []); [|rewrite L by exact HR; reflexivity].
  clear. induction l as [|e l IH]; intros u K; [reflexivity|]. destruct e; cbn [lost_from]; try (apply IH; intros Q; apply K; right; exact Q).
  destruct K. left. reflexivity.
Qed.
Print Assumptions C54_no_reset.
Example C54_ex : exists c, channel_history channel_example c /\ never_reset channel_example /\ dropped channel_example = [1].
Proof.
  eexists. split; [exact channel_example_ok|]. split; [|reflexivity].
  intros K. cbn in K. repeat (destruct K as [K|K]; [discriminate|]). exact K.
Qed.
