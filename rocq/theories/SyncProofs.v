(** Invariants of the mutex and the channel *)
From Coq Require Import List Bool Arith Lia Permutation.
Import ListNotations.
From Verif Require Import Sync SpecSync.

Lemma split_snoc {A} (tr l a b : list A) (e : A) : tr ++ l = a ++ e :: b ->
  (exists b', tr = a ++ e :: b' /\ b = b' ++ l) \/ (exists a' , a = tr ++ a' /\ l = a' ++ e :: b).
Proof.
  revert tr. induction a as [|x a IH]; intros tr H.
  - destruct tr as [|y tr]; [right; exists []; auto|]. cbn in H. injection H as -> H. left. exists tr. auto.
  - destruct tr as [|y tr]; [right; exists (x :: a); auto|]. cbn in H. injection H as -> H.
    destruct (IH tr H) as [(b' & -> & ->)|(a' & -> & ->)]; [left; exists b'; auto|right; exists a'; auto].
Qed.

(** ** Mutex *)
Lemma guards_app tr l : guards (tr ++ l) = fold_left guard_step l (guards tr).
Proof. unfold guards. apply fold_left_app. Qed.
Lemma guards_wakes w l : fold_left guard_step (map MWake w) l = l.
Proof. induction w; [reflexivity|exact IHw]. Qed.

Record mutex_inv (tr : list mutex_event) (m : MutexState) : Prop := {
  mi_guards : if mx_locked m then exists g, guards tr = [g] else guards tr = [] /\ mx_waker m = None;
  mi_waiting : forall a f t b, tr = a ++ MPoll f t None :: b -> In (MWake t) b \/ mx_waker m = Some t }.

Lemma in_map_wakes w t a f u b : map MWake w = a ++ MPoll f u None :: b -> In (MWake t) b.
Proof.
  intros H. assert (K : In (MPoll f u None) (map MWake w)) by (rewrite H; apply in_elt).
  apply in_map_iff in K. destruct K as (x & K & _). discriminate.
Qed.

Lemma mutex_ok tr m : mutex_history tr m -> mutex_inv tr m.
Proof.
  induction 1 as [|tr m f t b m' w r H [G W] E GR FR|tr m b m' r H [G W] E GR FR|tr m g m' w H [G W] HI E|tr m f H [G W]].
  - split; [cbn; auto|]. intros [|] ? ? ? K; discriminate.
  - unfold lock_poll in E. destruct m as [[|] k]; cbn [mx_locked mx_waker] in *.
    + destruct r as [g|]; cbn in GR.
      { subst b. destruct k as [u|]; [destruct (u =? t)|]; discriminate. }
      assert (EQ : m' = mkMutex true (Some t) /\ (w = [] /\ (k = None \/ k = Some t) \/ exists u, w = [u] /\ k = Some u)).
      { destruct k as [u|]; [destruct (Nat.eqb_spec u t)|]; injection E as <- <- <-; subst; split; auto; right; eauto. }
      destruct EQ as [-> EQ]. split; cbn [mx_locked mx_waker].
      * destruct G as (g & G). exists g. rewrite guards_app. cbn. rewrite guards_wakes. exact G.
      * intros a f' t' b' K. apply split_snoc in K. destruct K as [(b0 & -> & ->)|(a' & -> & K)].
        -- destruct (W a f' t' b0 eq_refl) as [I|I]; [left; apply in_or_app; auto|].
           destruct EQ as [(-> & [->| ->])|(u & -> & ->)]; [discriminate|right; exact I|].
           injection I as ->. left. apply in_or_app. right. right. left. reflexivity.
        -- destruct a' as [|x a']; cbn in K.
           ++ injection K as -> -> _. right. reflexivity.
           ++ injection K as _ K2. left. eapply in_map_wakes. exact K2.
    + destruct r as [g|]; cbn in GR; injection E as <- <- <-; [|discriminate]. destruct G as [G ->]. split; cbn [mx_locked mx_waker].
      * exists g. rewrite guards_app. cbn. rewrite G. reflexivity.
      * intros a f' t' b' K. apply split_snoc in K. destruct K as [(b0 & -> & ->)|(a' & -> & K)].
        -- destruct (W a f' t' b0 eq_refl) as [I|I]; [|discriminate]. left. apply in_or_app. auto.
        -- destruct a' as [|x a']; cbn in K; injection K as K1 K2; [discriminate|destruct a'; discriminate].
  - unfold try_lock in E. destruct m as [[|] k]; cbn [mx_locked mx_waker] in *; injection E as <- <-.
    + destruct r; cbn in GR; [discriminate|]. split; cbn [mx_locked mx_waker].
      * rewrite guards_app. exact G.
      * intros a f' t' b' K. apply split_snoc in K. destruct K as [(b0 & -> & ->)|(a' & -> & K)].
        -- destruct (W a f' t' b0 eq_refl) as [I|I]; [left; apply in_or_app; auto|right; exact I].
        -- destruct a' as [|x a']; cbn in K; injection K as K1 K2; [discriminate|destruct a'; discriminate].
    + destruct r as [g|]; cbn in GR; [|discriminate]. destruct G as [G ->]. split; cbn [mx_locked mx_waker].
      * exists g. rewrite guards_app. cbn. rewrite G. reflexivity.
      * intros a f' t' b' K. apply split_snoc in K. destruct K as [(b0 & -> & ->)|(a' & -> & K)].
        -- destruct (W a f' t' b0 eq_refl) as [I|I]; [|discriminate]. left. apply in_or_app. auto.
        -- destruct a' as [|x a']; cbn in K; injection K as K1 K2; [discriminate|destruct a'; discriminate].
  - destruct m as [[|] k]; cbn [mx_locked mx_waker] in *; [|destruct G as [G _]; rewrite G in HI; destruct HI].
    destruct G as (g' & G). rewrite G in HI. destruct HI as [->|[]].
    assert (EQ : m' = mkMutex false None /\ w = wakes k) by (unfold guard_drop in E; cbn in E; destruct k; injection E as <- <-; auto).
    destruct EQ as [-> ->]. split; cbn [mx_locked mx_waker].
    + split; [|reflexivity]. rewrite guards_app. cbn [fold_left]. rewrite guards_wakes. unfold guard_step. rewrite G. cbn.
      destruct (Nat.eq_dec g g); [reflexivity|congruence].
    + intros a f' t' b' K. apply split_snoc in K. destruct K as [(b0 & -> & ->)|(a' & -> & K)].
      * destruct (W a f' t' b0 eq_refl) as [I|I]; [left; apply in_or_app; auto|]. subst k. left. apply in_or_app. right. right. left. reflexivity.
      * destruct a' as [|x a']; cbn in K; injection K as K1 K2; [discriminate|]. left. eapply in_map_wakes. exact K2.
  - split; [rewrite guards_app; exact G|]. intros a f' t' b' K. apply split_snoc in K. destruct K as [(b0 & -> & ->)|(a' & -> & K)].
    + destruct (W a f' t' b0 eq_refl) as [I|I]; [left; apply in_or_app; auto|right; exact I].
    + destruct a' as [|x a']; cbn in K; injection K as K1 K2; [discriminate|destruct a'; discriminate].
Qed.

(** every waiter displaced by a different task has been woken *)
Lemma displaced tr m : mutex_history tr m -> forall a f t b f' t' c, tr = a ++ MPoll f t None :: b ++ MPoll f' t' None :: c -> t <> t' -> In (MWake t) (b ++ c).
Proof.
  induction 1 as [|tr m f0 t0 b0 m' w r H IH E GR FR|tr m b0 m' r H IH E GR FR|tr m g m' w H IH HI E|tr m f0 H IH]; intros a f t b f' t' c EQ NE.
  - destruct a; discriminate.
  - rewrite app_comm_cons, app_assoc in EQ. apply split_snoc in EQ. destruct EQ as [(c' & E1 & ->)|(a' & E1 & E2)].
    + rewrite <- app_assoc in E1. cbn in E1. specialize (IH _ _ _ _ _ _ _ E1 NE). rewrite app_assoc. apply in_or_app. left. exact IH.
    + destruct a' as [|x a']; cbn in E2.
      * rewrite app_nil_r in E1. injection E2 as -> -> -> E3. cbn in GR. subst b0.
        destruct (mi_waiting _ _ (mutex_ok _ _ H) a f t b) as [I|I]; [congruence|apply in_or_app; auto|].
        unfold lock_poll in E. rewrite I in E. destruct (mx_locked m); [|discriminate]. destruct (Nat.eqb_spec t t'); [congruence|].
        injection E as <- <-. rewrite <- E3. apply in_or_app. right. left. reflexivity.
      * injection E2 as _ E3. exfalso. assert (K : In (MPoll f' t' None) (map MWake w)) by (rewrite E3; apply in_elt). apply in_map_iff in K. destruct K as (y & K & _). discriminate.
  - rewrite app_comm_cons, app_assoc in EQ. apply split_snoc in EQ. destruct EQ as [(c' & E1 & ->)|(a' & E1 & E2)].
    + rewrite <- app_assoc in E1. cbn in E1. specialize (IH _ _ _ _ _ _ _ E1 NE). rewrite app_assoc. apply in_or_app. left. exact IH.
    + destruct a' as [|x [|? ?]]; cbn in E2; injection E2 as E2 E3; discriminate.
  - rewrite app_comm_cons, app_assoc in EQ. apply split_snoc in EQ. destruct EQ as [(c' & E1 & ->)|(a' & E1 & E2)].
    + rewrite <- app_assoc in E1. cbn in E1. specialize (IH _ _ _ _ _ _ _ E1 NE). rewrite app_assoc. apply in_or_app. left. exact IH.
    + destruct a' as [|x a']; cbn in E2; injection E2 as E2 E3; [discriminate|].
      exfalso. assert (K : In (MPoll f' t' None) (map MWake w)) by (rewrite E3; apply in_elt). apply in_map_iff in K. destruct K as (y & K & _). discriminate.
  - rewrite app_comm_cons, app_assoc in EQ. apply split_snoc in EQ. destruct EQ as [(c' & E1 & ->)|(a' & E1 & E2)].
    + rewrite <- app_assoc in E1. cbn in E1. specialize (IH _ _ _ _ _ _ _ E1 NE). rewrite app_assoc. apply in_or_app. left. exact IH.
    + destruct a' as [|x [|? ?]]; cbn in E2; injection E2 as E2 E3; discriminate.
Qed.

(** ** Channel *)
Section channel.
Context {T : Type}.
Implicit Types (tr : list (channel_event T)) (c : ChannelState T).

Lemma unread_app tr l : unread (tr ++ l) = fold_left unread_step l (unread tr).
Proof. unfold unread. apply fold_left_app. Qed.
Lemma unread_wakes w (d : list T) u : fold_left unread_step (map CWake w ++ map CDropped d) u = u.
Proof. induction w as [|x w IH]; [|exact IH]. induction d as [|x d IH]; [reflexivity|exact IH]. Qed.
Lemma unread_wakes' w (u : option T) : fold_left unread_step (map CWake w) u = u.
Proof. induction w as [|x w IH]; [reflexivity|exact IH]. Qed.

(** state and history agree *)
Record channel_inv tr c : Prop := {
  ci_slot : match unread tr with Some v => ch_ready c = true /\ ch_slot c = SInit v /\ ch_recv c = None
            | None => ch_ready c = false /\ ch_send c = None end }.

Lemma channel_ok tr c : channel_history tr c -> channel_inv tr c.
Proof.
  induction 1 as [|tr c v b c' w d H [I] E|tr c s t v r c' w d H [I] E|tr c f t r c' w H [I] E|tr c f H [I]|tr c H [I]]; constructor.
  - cbn. auto.
  - rewrite unread_app. cbn [fold_left]. rewrite unread_wakes. cbn. unfold send in E.
    destruct (ch_ready c); [destruct (ch_slot c); try discriminate|]; injection E as <- <- <- <-; auto.
  - rewrite unread_app. cbn [fold_left]. rewrite unread_wakes. unfold send_async_poll, send_ready_poll, has_item in E.
    destruct (unread tr) as [u|].
    + destruct I as (I1 & I2 & I3). rewrite I1 in E. destruct (ch_send c) as [x|]; [destruct (x =? t)|]; injection E as <- <- <- <-; cbn; auto.
    + destruct I as (I1 & I2). rewrite I1 in E. unfold send in E. rewrite I1 in E. injection E as <- <- <- <-. cbn. auto.
  - rewrite unread_app. cbn [fold_left]. rewrite unread_wakes'. unfold receive_poll in E.
    destruct (unread tr) as [u|].
    + destruct I as (I1 & I2 & I3). rewrite I1, I2 in E. injection E as <- <- <-. cbn. auto.
    + destruct I as (I1 & I2). rewrite I1 in E. injection E as <- <- <-. cbn. auto.
  - rewrite unread_app. exact I.
  - rewrite unread_app. cbn. auto.
Qed.

Lemma in_tail (l : list (channel_event T)) (w : list nat) (d : list T) e : In e (map CWake w ++ map CDropped d) -> (exists t, e = CWake t) \/ (exists v, e = CDropped v).
Proof.
  intros K. apply in_app_or in K. destruct K as [K|K]; apply in_map_iff in K; destruct K as (x & <- & _); eauto.
Qed.

(** pending polls: woken since, or the waker is stored *)
Definition recv_inv tr c : Prop :=
  forall a f t b, tr = a ++ CRecvPoll f t None :: b -> ~ In CReset b -> (forall f' u r, In (CRecvPoll f' u r) b -> u = t) ->
  In (CWake t) b \/ ch_recv c = Some t.
Definition send_inv tr c : Prop :=
  forall a s t v b, tr = a ++ CSendPoll s t v None :: b -> ~ In CReset b -> In (CWake t) b \/ ch_send c = Some t.

Lemma not_in_app {A} (e : A) l l' : ~ In e (l ++ l') -> ~ In e l.
Proof. intros H K. apply H, in_or_app. auto. Qed.

Ltac last_of K := apply split_snoc in K; let b0 := fresh "b0" in let a' := fresh "a'" in let K2 := fresh "K2" in
  destruct K as [(b0 & -> & ->)|(a' & -> & K2)].

Lemma send_stores (v : T) c b c' w d : send v c = Def (b, c', w, d) -> w = wakes (ch_recv c) /\ ch_recv c' = None /\ ch_send c' = ch_send c.
Proof. unfold send. destruct (ch_ready c); [destruct (ch_slot c); try discriminate|]; intros [= <- <- <- <-]; auto. Qed.
Lemma send_poll_stores t (v : T) c r c' w d : send_async_poll t v c = Def (r, c', w, d) ->
  match r with
  | Some b => send v c = Def (b, c', w, d)
  | None => ch_recv c' = ch_recv c /\ ch_send c' = Some t /\ (forall u, ch_send c = Some u -> In u w \/ u = t) /\ d = []
  end.
Proof.
  unfold send_async_poll, send_ready_poll, has_item. destruct (ch_ready c) eqn:E.
  - destruct (ch_send c) as [u|]; [destruct (Nat.eqb_spec u t)|]; intros [= <- <- <- <-]; cbn; repeat split; auto;
      intros u' [= <-]; auto.
  - destruct (send v c) as [[[[b c1] w1] d1]|]; [|discriminate]. intros [= <- <- <- <-]. reflexivity.
Qed.

Lemma channel_recv tr c : channel_history tr c -> recv_inv tr c.
Proof.
  intros H. induction H as [|tr c v b c' w d H IH E|tr c s t v r c' w d H IH E|tr c f t r c' w H IH E|tr c f H IH|tr c H IH];
    intros a f0 t0 b0 K NR HT.
  - destruct a; discriminate.
  - last_of K.
    + destruct (send_stores _ _ _ _ _ _ E) as (-> & _ & _).
      destruct (IH _ _ _ _ eq_refl (not_in_app _ _ _ NR) ltac:(intros; eapply HT; apply in_or_app; eauto)) as [I|I]; [left; apply in_or_app; auto|].
      left. apply in_or_app. right. right. apply in_or_app. left. rewrite I. left. reflexivity.
    + destruct a' as [|x a']; cbn in K2; injection K2 as K1 K2; [discriminate|]. exfalso.
      assert (In (CRecvPoll f0 t0 None) (map CWake w ++ map CDropped d)) as Q by (rewrite K2; apply in_elt).
      apply in_tail in Q; [|exact []]. destruct Q as [(? & Q)|(? & Q)]; discriminate.
  - apply send_poll_stores in E. last_of K.
    + destruct (IH _ _ _ _ eq_refl (not_in_app _ _ _ NR) ltac:(intros; eapply HT; apply in_or_app; eauto)) as [I|I]; [left; apply in_or_app; auto|].
      destruct r as [b|].
      * destruct (send_stores _ _ _ _ _ _ E) as (-> & _ & _). left. apply in_or_app. right. right. apply in_or_app. left. rewrite I. left. reflexivity.
      * right. destruct E as (-> & _). exact I.
    + destruct a' as [|x a']; cbn in K2; injection K2 as K1 K2; [discriminate|]. exfalso.
      assert (In (CRecvPoll f0 t0 None) (map CWake w ++ map CDropped d)) as Q by (rewrite K2; apply in_elt).
      apply in_tail in Q; [|exact []]. destruct Q as [(? & Q)|(? & Q)]; discriminate.
  - unfold receive_poll in E. last_of K.
    + assert (Ht0 : t = t0) by (eapply HT; apply in_elt).
      destruct (IH _ _ _ _ eq_refl (not_in_app _ _ _ NR) ltac:(intros; eapply HT; apply in_or_app; eauto)) as [I|I]; [left; apply in_or_app; auto|].
      destruct (ch_ready c); [destruct (ch_slot c); try discriminate|]; injection E as <- <- <-; right; cbn; congruence.
    + destruct a' as [|x a']; cbn in K2.
      * injection K2 as -> -> -> _. destruct (ch_ready c); [destruct (ch_slot c); try discriminate|]; injection E as <- <-. right. reflexivity.
      * injection K2 as _ K2. exfalso. assert (In (CRecvPoll f0 t0 None) (map CWake w)) as Q by (rewrite K2; apply in_elt).
        apply in_map_iff in Q. destruct Q as (? & Q & _). discriminate.
  - last_of K.
    + destruct (IH _ _ _ _ eq_refl (not_in_app _ _ _ NR) ltac:(intros; eapply HT; apply in_or_app; eauto)) as [I|I]; [left; apply in_or_app; auto|right; exact I].
    + destruct a' as [|x [|? ?]]; cbn in K2; injection K2 as K1 K2; discriminate.
  - last_of K.
    + destruct NR. apply in_or_app. right. left. reflexivity.
    + destruct a' as [|x [|? ?]]; cbn in K2; injection K2 as K1 K2; discriminate.
Qed.

Lemma channel_send tr c : channel_history tr c -> send_inv tr c.
Proof.
  intros H. induction H as [|tr c v b c' w d H IH E|tr c s t v r c' w d H IH E|tr c f t r c' w H IH E|tr c f H IH|tr c H IH];
    intros a s0 t0 v0 b0 K NR.
  - destruct a; discriminate.
  - destruct (send_stores _ _ _ _ _ _ E) as (_ & _ & Es). last_of K.
    + destruct (IH _ _ _ _ _ eq_refl (not_in_app _ _ _ NR)) as [I|I]; [left; apply in_or_app; auto|right; congruence].
    + destruct a' as [|x a']; cbn in K2; injection K2 as K1 K2; [discriminate|]. exfalso.
      assert (In (CSendPoll s0 t0 v0 None) (map CWake w ++ map CDropped d)) as Q by (rewrite K2; apply in_elt).
      apply in_tail in Q; [|exact []]. destruct Q as [(? & Q)|(? & Q)]; discriminate.
  - apply send_poll_stores in E. last_of K.
    + destruct (IH _ _ _ _ _ eq_refl (not_in_app _ _ _ NR)) as [I|I]; [left; apply in_or_app; auto|].
      destruct r as [b|].
      * destruct (send_stores _ _ _ _ _ _ E) as (_ & _ & Es). right; congruence.
      * destruct E as (_ & E & F & _). destruct (F _ I) as [J| ->]; [|right; exact E].
        left. apply in_or_app. right. right. apply in_or_app. left. apply in_map_iff. eauto.
    + destruct a' as [|x a']; cbn in K2.
      * injection K2 as -> -> -> -> _. destruct E as (_ & E & _). right. exact E.
      * injection K2 as _ K2. exfalso. assert (In (CSendPoll s0 t0 v0 None) (map CWake w ++ map CDropped d)) as Q by (rewrite K2; apply in_elt).
        apply in_tail in Q; [|exact []]. destruct Q as [(? & Q)|(? & Q)]; discriminate.
  - unfold receive_poll in E. last_of K.
    + destruct (IH _ _ _ _ _ eq_refl (not_in_app _ _ _ NR)) as [I|I]; [left; apply in_or_app; auto|].
      destruct (ch_ready c); [destruct (ch_slot c); try discriminate|]; injection E as <- <- <-; [|right; exact I].
      left. apply in_or_app. right. right. rewrite I. left. reflexivity.
    + destruct a' as [|x a']; cbn in K2; injection K2 as K1 K2; [discriminate|].
      exfalso. assert (In (CSendPoll s0 t0 v0 None) (map CWake w)) as Q by (rewrite K2; apply in_elt).
      apply in_map_iff in Q. destruct Q as (? & Q & _). discriminate.
  - last_of K.
    + destruct (IH _ _ _ _ _ eq_refl (not_in_app _ _ _ NR)) as [I|I]; [left; apply in_or_app; auto|right; exact I].
    + destruct a' as [|x [|? ?]]; cbn in K2; injection K2 as K1 K2; discriminate.
  - last_of K.
    + destruct NR. apply in_or_app. right. left. reflexivity.
    + destruct a' as [|x [|? ?]]; cbn in K2; injection K2 as K1 K2; discriminate.
Qed.

(** ** Ownership of messages *)
Lemma lost_app u tr l : lost_from u (tr ++ l) = lost_from u tr ++ lost_from (fold_left unread_step tr u) l.
Proof.
  revert u. induction tr as [|e tr IH]; intros u; [reflexivity|].
  destruct e; cbn [app lost_from fold_left unread_step]; rewrite IH; try reflexivity. rewrite app_assoc. reflexivity.
Qed.
Lemma lost_tail u w (d : list T) : lost_from u (map CWake w ++ map CDropped d) = [].
Proof. induction w as [|x w IH]; [|exact IH]. induction d as [|x d IH]; [reflexivity|exact IH]. Qed.
Lemma lost_tail' (u : option T) w : lost_from u (map CWake w) = [].
Proof. induction w as [|x w IH]; [reflexivity|exact IH]. Qed.
Lemma sent_tail w (d : list T) : sent (map CWake w ++ map CDropped d) = [].
Proof. induction w as [|x w IH]; [|exact IH]. induction d as [|x d IH]; [reflexivity|exact IH]. Qed.
Lemma received_tail w (d : list T) : received (map CWake w ++ map CDropped d) = [].
Proof. induction w as [|x w IH]; [|exact IH]. induction d as [|x d IH]; [reflexivity|exact IH]. Qed.
Lemma dropped_tail w (d : list T) : dropped (map CWake w ++ map CDropped d) = d.
Proof. induction w as [|x w IH]; [|exact IH]. cbn. induction d as [|x d IH]; [reflexivity|]. cbn. f_equal. exact IH. Qed.
Lemma sent_tail' w : sent (map (@CWake T) w) = [].
Proof. induction w as [|x w IH]; [reflexivity|exact IH]. Qed.
Lemma received_tail' w : received (map (@CWake T) w) = [].
Proof. induction w as [|x w IH]; [reflexivity|exact IH]. Qed.
Lemma dropped_tail' w : dropped (map (@CWake T) w) = [].
Proof. induction w as [|x w IH]; [reflexivity|exact IH]. Qed.

Definition accounted tr : Prop := Permutation (sent tr) (received tr ++ dropped tr ++ lost tr ++ option_list (unread tr)).
Lemma channel_accounted tr c : channel_history tr c -> accounted tr.
Proof.
  induction 1 as [|tr c v b c' w d H IH E|tr c s t v r c' w d H IH E|tr c f t r c' w H IH E|tr c f H IH|tr c H IH];
    unfold accounted, lost, sent, received, dropped in *.
  - constructor.
  - pose proof (ci_slot _ _ (channel_ok _ _ H)) as I.
    rewrite unread_app, lost_app, !flat_map_app. cbn [flat_map fold_left lost_from unread_step sent_by received_by dropped_by app].
    fold (sent (map CWake w ++ map CDropped d)) (received (map CWake w ++ map CDropped d)) (dropped (map CWake w ++ map CDropped d)).
    rewrite sent_tail, received_tail, dropped_tail, unread_wakes, lost_tail, !app_nil_r.
    unfold send in E. destruct (unread tr) as [u|]; cbn [option_list] in *.
    + destruct I as (I1 & I2 & _). rewrite I1, I2 in E. injection E as <- <- <- <-.
      etransitivity; [apply Permutation_app_tail; exact IH|].
      rewrite <- !app_assoc. apply Permutation_app_head, Permutation_app_head. rewrite !app_assoc. apply Permutation_app_tail. apply Permutation_app_comm.
    + destruct I as (I1 & _). rewrite I1 in E. injection E as <- <- <- <-. rewrite app_nil_r in *.
      etransitivity; [apply Permutation_app_tail; exact IH|]. rewrite <- !app_assoc. reflexivity.
  - pose proof (ci_slot _ _ (channel_ok _ _ H)) as I. apply send_poll_stores in E.
    rewrite unread_app, lost_app, !flat_map_app. 
    fold (sent tr) (received tr) (dropped tr) in *.
    destruct r as [b|]; cbn [flat_map fold_left lost_from unread_step sent_by received_by dropped_by app].
    all: fold (sent (map CWake w ++ map CDropped d)) (received (map CWake w ++ map CDropped d)) (dropped (map CWake w ++ map CDropped d)).
    all: rewrite sent_tail, received_tail, dropped_tail, unread_wakes, lost_tail, !app_nil_r.
    + unfold send in E. destruct (unread tr) as [u|]; cbn [option_list] in *.
      * destruct I as (I1 & I2 & _). rewrite I1, I2 in E. injection E as <- <- <- <-.
        etransitivity; [apply Permutation_app_tail; exact IH|].
        rewrite <- !app_assoc. apply Permutation_app_head, Permutation_app_head. rewrite !app_assoc. apply Permutation_app_tail. apply Permutation_app_comm.
      * destruct I as (I1 & _). rewrite I1 in E. injection E as <- <- <- <-. rewrite app_nil_r in *.
        etransitivity; [apply Permutation_app_tail; exact IH|]. rewrite <- !app_assoc. reflexivity.
    + destruct E as (_ & _ & _ & ->). rewrite app_nil_r. exact IH.
  - pose proof (ci_slot _ _ (channel_ok _ _ H)) as I.
    rewrite unread_app, lost_app, !flat_map_app. fold (sent tr) (received tr) (dropped tr) in *.
    cbn [flat_map fold_left lost_from unread_step sent_by received_by dropped_by app].
    fold (sent (map (@CWake T) w)) (received (map (@CWake T) w)) (dropped (map (@CWake T) w)).
    rewrite sent_tail', received_tail', dropped_tail', unread_wakes', !app_nil_r.
    rewrite lost_tail', app_nil_r. unfold receive_poll in E. destruct (unread tr) as [u|]; cbn [option_list] in *.
    + destruct I as (I1 & I2 & _). rewrite I1, I2 in E. injection E as <- <- <-. cbn.
      etransitivity; [exact IH|]. rewrite app_nil_r, <- !app_assoc. apply Permutation_app_head. rewrite app_assoc. apply Permutation_app_comm.
    + destruct I as (I1 & _). rewrite I1 in E. injection E as <- <- <-. cbn. rewrite !app_nil_r in *. exact IH.
  - rewrite unread_app, lost_app, !flat_map_app. cbn. rewrite !app_nil_r. exact IH.
  - rewrite unread_app, lost_app, !flat_map_app. cbn. rewrite !app_nil_r. exact IH.
Qed.

(** with asynchronous sends only, what was sent is what was received, then what is unread *)
Lemma channel_fifo tr c : channel_history tr c -> only_async tr -> never_reset tr -> sent tr = received tr ++ option_list (unread tr).
Proof.
  induction 1 as [|tr c v b c' w d H IH E|tr c s t v r c' w d H IH E|tr c f t r c' w H IH E|tr c f H IH|tr c H IH]; intros HA HR.
  - reflexivity.
  - destruct (HA v b). apply in_or_app. right. left. reflexivity.
  - assert (IH' : sent tr = received tr ++ option_list (unread tr)).
    { apply IH; [intros x y K; apply (HA x y)|intros K; apply HR]; apply in_or_app; auto. }
    pose proof (ci_slot _ _ (channel_ok _ _ H)) as I.
    unfold sent, received in *. rewrite unread_app, !flat_map_app. cbn [flat_map fold_left].
    fold (sent (map CWake w ++ map CDropped d)) (received (map CWake w ++ map CDropped d)).
    rewrite sent_tail, received_tail, unread_wakes. unfold send_async_poll, send_ready_poll, has_item in E.
    destruct (unread tr) as [u|].
    + destruct I as (I1 & _). rewrite I1 in E. destruct (ch_send c) as [x|]; [destruct (x =? t)|]; injection E as <- <- <- <-; cbn; rewrite !app_nil_r; exact IH'.
    + destruct I as (I1 & I2). rewrite I1 in E. unfold send in E. rewrite I1 in E. injection E as <- <- <- <-. cbn in *. rewrite IH', !app_nil_r. reflexivity.
  - assert (IH' : sent tr = received tr ++ option_list (unread tr)).
    { apply IH; [intros x y K; apply (HA x y)|intros K; apply HR]; apply in_or_app; auto. }
    pose proof (ci_slot _ _ (channel_ok _ _ H)) as I.
    unfold sent, received in *. rewrite unread_app, !flat_map_app. cbn [flat_map fold_left].
    fold (sent (map (@CWake T) w)) (received (map (@CWake T) w)).
    rewrite sent_tail', received_tail', unread_wakes'. unfold receive_poll in E.
    destruct (unread tr) as [u|].
    + destruct I as (I1 & I2 & _). rewrite I1, I2 in E. injection E as <- <- <-. cbn. rewrite !app_nil_r. exact IH'.
    + destruct I as (I1 & I2). rewrite I1 in E. injection E as <- <- <-. cbn. rewrite !app_nil_r. cbn in IH'. rewrite app_nil_r in IH'. exact IH'.
  - unfold sent, received in *. rewrite unread_app, !flat_map_app. cbn. rewrite !app_nil_r.
    apply IH; [intros x y K; apply (HA x y)|intros K; apply HR]; apply in_or_app; auto.
  - destruct HR. apply in_or_app. right. left. reflexivity.
Qed.
End channel.
