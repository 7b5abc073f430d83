(** C91: the value protected by a mutex *)
From Coq Require Import List Bool Arith Lia.
Import ListNotations.
From Verif Require Import Sync SpecSync SyncProofs PropSync MutexValue SpecMutexValue.

Section Proofs.
Context {T : Type}.
Implicit Types (tr a b : list (value_event T)) (m : Mutex T).
Lemma locks_app tr a : locks (tr ++ a) = locks tr ++ locks a.
Proof. unfold locks. apply flat_map_app. Qed.
Lemma locks_map l : locks (T := T) (map VLock l) = l.
Proof. induction l as [|e l IH]; [reflexivity|]. cbn. f_equal. exact IH. Qed.
Lemma history_locks v0 tr m : value_history v0 tr m -> mutex_history (locks tr) (mv_state m).
Proof.
  intros H. induction H as [|tr m f t b m' w r H IH E G F|tr m b m' r H IH E G F|tr m g m' w H IH HI E|tr m f H IH|tr m g H IH HI|tr m g v H IH HI|tr m v H IH HE].
  - constructor.
  - rewrite locks_app, locks_map. unfold mv_lock in E. destruct (lock_poll t (mv_state m)) as [[b' s] w'] eqn:L. injection E as <- <- <-.
    exact (mh_poll _ _ f t _ _ _ r IH L G F).
  - rewrite locks_app, locks_map. unfold mv_try_lock in E. destruct (try_lock (mv_state m)) as [b' s] eqn:L. injection E as <- <-.
    exact (mh_try _ _ _ _ r IH L G F).
  - rewrite locks_app, locks_map. unfold mv_drop in E. destruct (guard_drop (mv_state m)) as [s w'] eqn:L. injection E as <- <-.
    exact (mh_drop _ _ g _ _ IH HI L).
  - rewrite locks_app, locks_map. exact (mh_cancel _ _ f IH).
  - rewrite locks_app. cbn. rewrite app_nil_r. exact IH.
  - rewrite locks_app. cbn. rewrite app_nil_r. exact IH.
  - rewrite locks_app. cbn. rewrite app_nil_r. exact IH.
Qed.
Lemma one_holder v0 tr m g h : value_history v0 tr m -> In g (holders tr) -> In h (holders tr) -> g = h.
Proof.
  intros H IG IH'. pose proof (C49_at_most_one_guard _ _ (history_locks _ _ _ H)) as L. fold (holders tr) in L.
  destruct (holders tr) as [|x [|y l]]; [destruct IG| |cbn in L; lia]. destruct IG as [<-|[]], IH' as [<-|[]]. reflexivity.
Qed.
Lemma fold_locks (v0 : T) l : fold_left value_step (map VLock l) v0 = v0.
Proof. induction l as [|e l IH]; [reflexivity|exact IH]. Qed.
Lemma value_now v0 tr m : value_history v0 tr m -> mv_value m = value_after v0 tr.
Proof.
  intros H. induction H as [|tr m f t b m' w r H IH E G F|tr m b m' r H IH E G F|tr m g m' w H IH HI E|tr m f H IH|tr m g H IH HI|tr m g v H IH HI|tr m v H IH HE];
    unfold value_after in *; [reflexivity| | | | | | | ]; rewrite fold_left_app.
  - rewrite fold_locks. unfold mv_lock in E. destruct (lock_poll t (mv_state m)) as [[b' s] w'] eqn:L. injection E as <- <- <-. exact IH.
  - rewrite fold_locks. unfold mv_try_lock in E. destruct (try_lock (mv_state m)) as [b' s] eqn:L. injection E as <- <-. exact IH.
  - rewrite fold_locks. unfold mv_drop in E. destruct (guard_drop (mv_state m)) as [s w'] eqn:L. injection E as <- <-. exact IH.
  - rewrite fold_locks. exact IH.
  - exact IH.
  - reflexivity.
  - reflexivity.
Qed.
(** every event of a history was appended to a history *)
Lemma access v0 tr m : value_history v0 tr m -> forall a b,
  (forall g v, tr = a ++ VRead g v :: b -> exists m', value_history v0 a m' /\ In g (holders a) /\ v = mv_value m') /\
  (forall g v, tr = a ++ VWrite g v :: b -> exists m', value_history v0 a m' /\ In g (holders a)) /\
  (forall x v, tr = a ++ VExclusive x v :: b -> exists m', value_history v0 a m' /\ holders a = [] /\ x = mv_value m').
Proof.
  assert (MAP : forall tr l a (e : value_event T) b, tr ++ map VLock l = a ++ e :: b -> (forall x, e <> VLock x) -> exists b', tr = a ++ e :: b' ).
  { intros tr0 l. revert tr0. induction l as [|x l IH] using rev_ind; intros tr0 a b0 b1 E N.
    - cbn in E. rewrite app_nil_r in E. eauto.
    - rewrite map_app, app_assoc in E. destruct b1 as [|y b1 _] using rev_ind.
      + apply app_inj_tail in E. destruct E as [_ E]. destruct (N x (eq_sym E)).
      + rewrite app_comm_cons, app_assoc in E. apply app_inj_tail in E. destruct E as [E _]. exact (IH _ _ _ _ E N). }
  assert (ONE : forall tr (x : value_event T) a e b, tr ++ [x] = a ++ e :: b -> (e = x /\ tr = a /\ b = []) \/ exists b', tr = a ++ e :: b').
  { intros tr0 x a e b E. destruct b as [|y b _] using rev_ind.
    - apply app_inj_tail in E. destruct E as [<- <-]. auto.
    - rewrite app_comm_cons, app_assoc in E. apply app_inj_tail in E. destruct E as [-> _]. eauto. }
  intros H. induction H as [|tr m f t b0 m' w r H IH E G F|tr m b0 m' r H IH E G F|tr m g m' w H IH HI E|tr m f H IH|tr m g H IH HI|tr m g v H IH HI|tr m v H IH HE]; intros a b.
  - split; [|split]; intros ? ? K; destruct a; discriminate K.
  - split; [|split]; intros ? ? K; apply MAP in K; try discriminate; destruct K as [b' K]; exact (proj1 (IH a b') _ _ K) || exact (proj1 (proj2 (IH a b')) _ _ K) || exact (proj2 (proj2 (IH a b')) _ _ K).
  - split; [|split]; intros ? ? K; apply MAP in K; try discriminate; destruct K as [b' K]; exact (proj1 (IH a b') _ _ K) || exact (proj1 (proj2 (IH a b')) _ _ K) || exact (proj2 (proj2 (IH a b')) _ _ K).
  - split; [|split]; intros ? ? K; apply MAP in K; try discriminate; destruct K as [b' K]; exact (proj1 (IH a b') _ _ K) || exact (proj1 (proj2 (IH a b')) _ _ K) || exact (proj2 (proj2 (IH a b')) _ _ K).
  - split; [|split]; intros ? ? K; apply MAP in K; try discriminate; destruct K as [b' K]; exact (proj1 (IH a b') _ _ K) || exact (proj1 (proj2 (IH a b')) _ _ K) || exact (proj2 (proj2 (IH a b')) _ _ K).
  - split; [|split]; intros ? ? K; apply ONE in K; (destruct K as [(K1 & K2 & K3)|[b' K]]; [|exact (proj1 (IH a b') _ _ K) || exact (proj1 (proj2 (IH a b')) _ _ K) || exact (proj2 (proj2 (IH a b')) _ _ K)]); try discriminate K1.
    injection K1 as -> ->. subst a. exists m. auto.
  - split; [|split]; intros ? ? K; apply ONE in K; (destruct K as [(K1 & K2 & K3)|[b' K]]; [|exact (proj1 (IH a b') _ _ K) || exact (proj1 (proj2 (IH a b')) _ _ K) || exact (proj2 (proj2 (IH a b')) _ _ K)]); try discriminate K1.
    injection K1 as -> ->. subst a. exists m. auto.
  - split; [|split]; intros ? ? K; apply ONE in K; (destruct K as [(K1 & K2 & K3)|[b' K]]; [|exact (proj1 (IH a b') _ _ K) || exact (proj1 (proj2 (IH a b')) _ _ K) || exact (proj2 (proj2 (IH a b')) _ _ K)]); try discriminate K1.
    injection K1 as -> ->. subst a. exists m. auto.
Qed.
(** what the holder knows is true *)
Lemma known_locks g l : forall k : option T,
  fold_left (known_step g) (map VLock l) k = if existsb (is_grant g) l then None else k.
Proof.
  induction l as [|e l IH]; intros k; [reflexivity|]. cbn. rewrite IH. destruct (is_grant g e); cbn; [|reflexivity].
  destruct (existsb (is_grant g) l); reflexivity.
Qed.
Lemma wakes_grant g w : existsb (is_grant g) (map MWake w) = false.
Proof. induction w as [|u w IH]; [reflexivity|exact IH]. Qed.
Lemma holders_app tr l : holders (tr ++ map VLock l) = fold_left guard_step l (holders tr).
Proof. unfold holders, guards. rewrite locks_app, locks_map, fold_left_app. reflexivity. Qed.
Lemma wakes_guards w : forall l, fold_left guard_step (map MWake w) l = l.
Proof. induction w as [|u w IH]; intros l; [reflexivity|exact (IH l)]. Qed.
Lemma holders_same tr e : locks [e] = [] -> holders (tr ++ [e]) = holders tr.
Proof. intros E. unfold holders. rewrite locks_app, E, app_nil_r. reflexivity. Qed.
Lemma knows v0 tr m : value_history v0 tr m -> forall g x, In g (holders tr) -> known g tr = Some x -> x = mv_value m.
Proof.
  intros H. induction H as [|tr m f t b m' w r H IH E G F|tr m b m' r H IH E G F|tr m g m' w H IH HI E|tr m f H IH|tr m g H IH HI|tr m g v H IH HI|tr m v H IH HE];
    intros h x; unfold known in *.
  - intros [].
  - rewrite holders_app, fold_left_app, known_locks. cbn [fold_left guard_step existsb]. rewrite wakes_guards, wakes_grant, orb_false_r.
    unfold mv_lock in E. destruct (lock_poll t (mv_state m)) as [[b' s] w'] eqn:L. injection E as <- <- <-. cbn [mv_value].
    destruct r as [g|]; cbn [is_grant add_guard]; [|apply IH]. intros [->|I]; [rewrite Nat.eqb_refl; discriminate|].
    destruct (Nat.eqb_spec g h) as [->|N]; [discriminate|]. apply IH, I.
  - rewrite holders_app, fold_left_app, known_locks. cbn [fold_left guard_step existsb]. rewrite orb_false_r.
    unfold mv_try_lock in E. destruct (try_lock (mv_state m)) as [b' s] eqn:L. injection E as <- <-. cbn [mv_value].
    destruct r as [g|]; cbn [is_grant add_guard]; [|apply IH]. intros [->|I]; [rewrite Nat.eqb_refl; discriminate|].
    destruct (Nat.eqb_spec g h) as [->|N]; [discriminate|]. apply IH, I.
  - rewrite holders_app, fold_left_app, known_locks. cbn [fold_left guard_step existsb]. rewrite wakes_guards, wakes_grant. cbn [is_grant orb].
    unfold mv_drop in E. destruct (guard_drop (mv_state m)) as [s w'] eqn:L. injection E as <- <-. cbn [mv_value].
    intros I. apply in_remove in I. apply IH, I.
  - rewrite holders_app, fold_left_app, known_locks. cbn. apply IH.
  - rewrite holders_same by reflexivity. rewrite fold_left_app. cbn. unfold mv_deref. intros I. destruct (Nat.eqb_spec g h) as [->|N]; [congruence|]. apply IH, I.
  - rewrite holders_same by reflexivity. rewrite fold_left_app. cbn. intros I. rewrite (one_holder _ _ _ _ _ H HI I), Nat.eqb_refl. discriminate.
  - rewrite holders_same by reflexivity. rewrite HE. intros [].
Qed.
Lemma no_updates l : filter (fun e : value_event T => match e with VWrite _ _ | VExclusive _ _ => true | _ => false end) (map VLock l) = [].
Proof. induction l as [|e l IH]; [reflexivity|exact IH]. Qed.
End Proofs.

(** Whoever reads or writes through a guard is the only one who could: there is no other guard. And the owner's access meets no
    guard (the assumptions behind the three unsafe blocks). *)
Theorem C91_exclusive : forall T (v0 : T) tr m, value_history v0 tr m -> forall a b,
  (forall g v, tr = a ++ VRead g v :: b \/ tr = a ++ VWrite g v :: b -> holders a = [g]) /\
  (forall x v, tr = a ++ VExclusive x v :: b -> holders a = []).
Proof.
  intros T v0 tr m H a b. destruct (access _ _ _ H a b) as (R & W & X). split.
  - intros g v E. assert (K : exists m', value_history v0 a m' /\ In g (holders a)).
    { destruct E as [E|E]; [destruct (R _ _ E) as (m' & H1 & H2 & _)|destruct (W _ _ E) as (m' & H1 & H2)]; eauto. }
    destruct K as (m' & H' & I). pose proof (C49_at_most_one_guard _ _ (history_locks _ _ _ H')) as L. fold (holders a) in L.
    destruct (holders a) as [|y [|z l]]; [destruct I| |cbn in L; lia]. destruct I as [->|[]]. reflexivity.
  - intros x v E. destruct (X _ _ E) as (m' & _ & K & _). exact K.
Qed.
Print Assumptions C91_exclusive.
(** Every read sees the last value written, whoever wrote it; locking and unlocking change nothing. *)
Theorem C91_reads : forall T (v0 : T) tr m, value_history v0 tr m ->
  mv_value m = value_after v0 tr /\
  forall a b, (forall g v, tr = a ++ VRead g v :: b -> v = value_after v0 a) /\ (forall x v, tr = a ++ VExclusive x v :: b -> x = value_after v0 a).
Proof.
  intros T v0 tr m H. split; [exact (value_now _ _ _ H)|]. intros a b. destruct (access _ _ _ H a b) as (R & _ & X). split.
  - intros g v E. destruct (R _ _ E) as (m' & H' & _ & ->). exact (value_now _ _ _ H').
  - intros x v E. destruct (X _ _ E) as (m' & H' & _ & ->). exact (value_now _ _ _ H').
Qed.
Print Assumptions C91_reads.
(** While a guard exists nobody else changes the value, however often its task waits in between: what it read is still the value
    when it writes. *)
Theorem C91_stable : forall T (v0 : T) tr m, value_history v0 tr m -> forall g x, In g (holders tr) -> known g tr = Some x -> value_after v0 tr = x.
Proof. intros T v0 tr m H g x I K. rewrite <- (value_now _ _ _ H). symmetry. exact (knows _ _ _ H g x I K). Qed.
Print Assumptions C91_stable.
(** No update is lost: if every write is [f] of what its guard read, the value is [f] applied once per write. *)
Theorem C91_no_lost_update : forall T (f : T -> T) (v0 : T) tr m, value_history v0 tr m -> read_modify_write f tr ->
  mv_value m = times (updates tr) f v0.
Proof.
  intros T f v0 tr m H. rewrite (value_now _ _ _ H). induction H as [|tr m f' t b m' w r H IH E G F|tr m b m' r H IH E G F|tr m g m' w H IH HI E|tr m f' H IH|tr m g H IH HI|tr m g v H IH HI|tr m v H IH HE];
    intros RMW; [reflexivity| | | | | | | ].
  all: match type of RMW with read_modify_write _ (?p ++ ?q) => assert (RMW' : read_modify_write f p) by
         (split; intros a ? ? c K; [apply (proj1 RMW a _ _ (c ++ q))|apply (proj2 RMW a _ _ (c ++ q))]; rewrite K, <- app_assoc; reflexivity) end.
  all: specialize (IH RMW'); unfold value_after, updates in *; rewrite fold_left_app, filter_app, app_length.
  1-4: rewrite fold_locks, no_updates; cbn [length]; rewrite Nat.add_0_r; exact IH.
  - cbn. rewrite Nat.add_0_r. exact IH.
  - cbn. rewrite Nat.add_1_r. cbn [times]. destruct (proj1 RMW tr g v [] eq_refl) as (x & K & ->). f_equal.
    rewrite <- IH. rewrite (knows _ _ _ H g x HI K). exact (value_now _ _ _ H).
  - cbn. rewrite Nat.add_1_r. cbn [times]. rewrite (proj2 RMW tr _ v [] eq_refl). f_equal. rewrite <- IH. exact (value_now _ _ _ H).
Qed.
Print Assumptions C91_no_lost_update.

(** Two tasks increment: both read, modify, and wait in between; the second waits for the lock, polling with its waker. A third
    call of try_lock fails meanwhile. *)
Definition increments : list (value_event nat) :=
  [VLock (MPoll 0 7 (Some 100)); VRead 100 5; VLock (MPoll 1 8 None); VLock (MTry None); VWrite 100 6; VLock (MDrop 100); VLock (MWake 8);
   VLock (MPoll 1 8 (Some 101)); VRead 101 6; VWrite 101 7; VLock (MDrop 101); VExclusive 7 8].
Example C91_ex : exists m, value_history 5 increments m /\ mv_value m = 8.
Proof.
  assert (H0 := vh_new 5).
  assert (H1 := vh_lock 5 _ _ 0 7 true _ [] (Some 100) H0 eq_refl eq_refl (fun g _ F => F)).
  assert (H2 := vh_read 5 _ _ 100 H1 (or_introl eq_refl)).
  assert (H3 := vh_lock 5 _ _ 1 8 false _ [] None H2 eq_refl eq_refl ltac:(discriminate)).
  assert (H4 := vh_try 5 _ _ false _ None H3 eq_refl eq_refl ltac:(discriminate)).
  assert (H5 := vh_write 5 _ _ 100 6 H4 (or_introl eq_refl)).
  assert (H6 := vh_drop 5 _ _ 100 _ [8] H5 (or_introl eq_refl) eq_refl).
  assert (H7 := vh_lock 5 _ _ 1 8 true _ [] (Some 101) H6 eq_refl eq_refl (fun g _ F => F)).
  assert (H8 := vh_read 5 _ _ 101 H7 (or_introl eq_refl)).
  assert (H9 := vh_write 5 _ _ 101 7 H8 (or_introl eq_refl)).
  assert (H10 := vh_drop 5 _ _ 101 _ [] H9 (or_introl eq_refl) eq_refl).
  assert (H11 := vh_exclusive 5 _ _ 8 H10 eq_refl).
  eexists. split; [exact H11|reflexivity].
Qed.
Lemma from_prefixes (P : list (value_event nat) -> value_event nat -> Prop) : forall l pre,
  (forall a e b, l = a ++ e :: b -> P (pre ++ a) e) <-> match l with [] => True | e :: l' => P pre e /\ forall a x b, l' = a ++ x :: b -> P ((pre ++ [e]) ++ a) x end.
Proof.
  intros [|e l] pre; split.
  - auto.
  - intros _ [|? ?] ? ? E; discriminate E.
  - intros H. split; [rewrite <- (app_nil_r pre); exact (H [] e l eq_refl)|]. intros a x b ->. rewrite <- app_assoc. exact (H (e :: a) x b eq_refl).
  - intros [H1 H2] [|y a] x b E; injection E as <- E; [rewrite app_nil_r; exact H1|]. rewrite (app_assoc pre [e] a : pre ++ e :: a = _). exact (H2 a x b E).
Qed.
(** ... as read-modify-writes of the successor: three updates, from 5 to 8. *)
Example C91_case : read_modify_write S increments /\ updates increments = 3.
Proof.
  split; [|reflexivity].
  set (P := fun (a : list (value_event nat)) (e : value_event nat) => match e with
            | VWrite g v => exists x, known g a = Some x /\ v = S x | VExclusive x v => v = S x | _ => True end).
  assert (K : forall a e b, increments = a ++ e :: b -> P ([] ++ a) e).
  { unfold increments.
    repeat (apply (proj2 (from_prefixes P _ _)); split; [cbn; try exact I; try reflexivity; try (eexists; split; reflexivity)|]).
    apply (proj2 (from_prefixes P _ _)). exact I. }
  split; intros a ? ? b E; exact (K a _ b E).
Qed.
