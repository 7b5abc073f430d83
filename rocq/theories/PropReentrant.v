(** PropReentrant.v -- C85: callbacks that use the primitive they are called from. *)
From Verif Require Import Base.
From Verif Require Import Sync Reentrant SpecReentrant.

(** ** The property, which is false for the mutex and for the channel *)
Definition C85_statement : Prop :=
  (forall o m, m_run o (mkCell false m) = Done (mkCell false (fst (m_after o m)), snd (m_after o m))) /\
  (forall T (o : cop T) c, c_good c -> c_run o c = c_after o c).

(** ** Mutex: exactly the operations whose waker uses the mutex panic; all others behave as expected *)
Lemma m_run_eq o s : m_run o s =
  if mc_borrowed s then Panic
  else
    let m := mc_state s in
    match o with
    | MTryLock => if mx_locked m then Done (s, []) else Done (mkCell false (mkMutex true (mx_waker m)), [MLocked])
    | MPoll t cb =>
        if mx_locked m then
          match mx_waker m with
          | Some u =>
              if (u =? t)%nat then Done (mkCell false (mkMutex true (Some t)), [])
              else let* (s, e) := m_runs cb (mkCell true (mkMutex true None)) in
                Done (mkCell false (mkMutex (mx_locked (mc_state s)) (Some t)), MWoke u :: e)
          | None => Done (mkCell false (mkMutex true (Some t)), [])
          end
        else Done (mkCell false (mkMutex true (mx_waker m)), [MLocked])
    | MDrop cb =>
        match mx_waker m with
        | Some u => let* (s, e) := m_runs cb (mkCell true (mkMutex false None)) in Done (mkCell false (mc_state s), MWoke u :: e)
        | None => Done (mkCell false (mkMutex false None), [])
        end
    end.
Proof. destruct o; reflexivity. Qed.
Lemma m_runs_borrowed l m : m_runs l (mkCell true m) = match l with [] => Done (mkCell true m, []) | _ => Panic end.
Proof. destruct l as [|o l]; [reflexivity|]. cbn [m_runs]. rewrite m_run_eq. reflexivity. Qed.
Theorem C85_mutex_partial : forall o m,
  (m_reenters o m -> m_run o (mkCell false m) = Panic) /\
  (~ m_reenters o m -> m_run o (mkCell false m) = Done (mkCell false (fst (m_after o m)), snd (m_after o m))).
Proof.
  intros o [l w]. rewrite m_run_eq. destruct o as [|t cb|cb]; cbn [mc_borrowed mc_state mx_locked mx_waker m_reenters m_after try_lock lock_poll guard_drop].
  - split; [contradiction|]. intros _. destruct l; reflexivity.
  - unfold lock_poll. cbn [mx_locked mx_waker]. destruct l; [|split; [intros [_ H]; contradiction|reflexivity]].
    destruct w as [u|]; [|split; [intros [_ H]; contradiction|reflexivity]].
    destruct (u =? t)%nat; [split; [intros [_ H]; contradiction|reflexivity]|]. rewrite m_runs_borrowed. cbn [snd]. split.
    + intros [H _]. destruct cb; [contradiction|reflexivity].
    + intros H. destruct cb as [|o cb]; [reflexivity|]. exfalso. apply H. split; discriminate.
  - unfold guard_drop. cbn [mx_waker]. destruct w as [u|]; [|split; [intros [_ H]; contradiction|reflexivity]]. rewrite m_runs_borrowed. cbn [snd]. split.
    + intros [H _]. destruct cb; [contradiction|reflexivity].
    + intros H. destruct cb as [|o cb]; [reflexivity|]. exfalso. apply H. split; discriminate.
Qed.
Print Assumptions C85_mutex_partial.
(** task 2 waits; the guard is dropped, and the waker of task 2 polls its lock() at once *)
Theorem C85_mutex_refuted : m_run (MDrop [MPoll 2 []]) (mkCell false (mkMutex true (Some 2))) = Panic /\
  m_after (MDrop [MPoll 2 []]) (mkMutex true (Some 2)) = (mkMutex true None, [MWoke 2; MLocked]).
Proof. split; reflexivity. Qed.
Print Assumptions C85_mutex_refuted.

(** ** Channel *)
Section Induction.
  Context {T : Type} (Q : cop T -> Prop).
  Hypothesis q_has : Q CHasItem.
  Hypothesis q_send : forall v d w, Forall Q d -> Forall Q w -> Q (CSend v d w).
  Hypothesis q_ready : forall t w, Forall Q w -> Q (CReady t w).
  Hypothesis q_receive : forall t w, Forall Q w -> Q (CReceive t w).
  Fixpoint cop_all (o : cop T) : Q o :=
    let fix all (l : list (cop T)) : Forall Q l := match l with [] => Forall_nil Q | o :: l => Forall_cons o (cop_all o) (all l) end in
    match o with
    | CHasItem => q_has
    | CSend v d w => q_send v d w (all d) (all w)
    | CReady t w => q_ready t w (all w)
    | CReceive t w => q_receive t w (all w)
    end.
End Induction.
Definition c_wake {T} (w : option nat) (cb : list (cop T)) (c : ChannelState T) : mem (ChannelState T * list (cev T)) :=
  match w with Some u => mbind (c_runs cb c) (fun q => Def (fst q, CWoke u :: snd q)) | None => Def (c, []) end.
Lemma c_run_eq {T} (o : cop T) c : c_run o c =
  match o with
  | CHasItem => Def (c, [])
  | CSend v on_drop on_wake =>
      mbind
        (if ch_ready c then
           match ch_slot c with
           | SInit old =>
               mbind (c_runs on_drop (mkChannel true (ch_recv c) (ch_send c) SMoved)) (fun p =>
               let c := fst p in
               let c := mkChannel (ch_ready c) (ch_recv c) (ch_send c) (SInit v) in
               mbind (c_wake (ch_recv c) on_wake (mkChannel (ch_ready c) None (ch_send c) (ch_slot c))) (fun q =>
               Def (fst q, CDropped old :: snd p ++ snd q)))
           | _ => UB
           end
         else Def (mkChannel (ch_ready c) (ch_recv c) (ch_send c) (SInit v), []))
        (fun p =>
           let c := fst p in
           let c := mkChannel true (ch_recv c) (ch_send c) (ch_slot c) in
           mbind (c_wake (ch_recv c) on_wake (mkChannel true None (ch_send c) (ch_slot c))) (fun q => Def (fst q, snd p ++ snd q)))
  | CReady t on_wake =>
      if ch_ready c then
        match ch_send c with
        | Some u =>
            if (u =? t)%nat then Def (mkChannel (ch_ready c) (ch_recv c) (Some t) (ch_slot c), [])
            else mbind (c_wake (Some u) on_wake (mkChannel (ch_ready c) (ch_recv c) None (ch_slot c))) (fun q =>
              let c := fst q in Def (mkChannel (ch_ready c) (ch_recv c) (Some t) (ch_slot c), snd q))
        | None => Def (mkChannel (ch_ready c) (ch_recv c) (Some t) (ch_slot c), [])
        end
      else Def (c, [CFree])
  | CReceive t on_wake =>
      if ch_ready c then
        match ch_slot c with
        | SInit v => mbind (c_wake (ch_send c) on_wake (mkChannel false (ch_recv c) None SMoved)) (fun q => Def (fst q, CGot v :: snd q))
        | _ => UB
        end
      else Def (mkChannel false (Some t) (ch_send c) (ch_slot c), [])
  end.
Proof. destruct o; reflexivity. Qed.
Section Afters.
Context {T : Type}.
Fixpoint c_afters (l : list (cop T)) (c : ChannelState T) : mem (ChannelState T * list (cev T)) :=
  match l with
  | [] => Def (c, [])
  | o :: l => mbind (c_after o c) (fun p => mbind (c_afters l (fst p)) (fun q => Def (fst q, snd p ++ snd q)))
  end.
End Afters.
Definition c_callback {T} (d : list T) (on_drop : list (cop T)) (w : list nat) (on_wake : list (cop T)) (c : ChannelState T) :=
  mbind (match d with [] => Def (c, []) | v :: _ => mbind (c_afters on_drop c) (fun q => Def (fst q, CDropped v :: snd q)) end) (fun p =>
  mbind (match w with [] => Def (fst p, []) | u :: _ => mbind (c_afters on_wake (fst p)) (fun q => Def (fst q, CWoke u :: snd q)) end) (fun q =>
  Def (fst q, snd p ++ snd q))).
Lemma c_after_eq {T} (o : cop T) c : c_after o c =
  match o with
  | CHasItem => Def (c, [])
  | CSend v on_drop on_wake => mbind (send v c) (fun r => let '(_, c, w, d) := r in c_callback d on_drop w on_wake c)
  | CReady t on_wake => let '(b, c, w) := send_ready_poll t c in mbind (c_callback [] [] w on_wake c) (fun q => Def (fst q, if b then [CFree] else snd q))
  | CReceive t on_wake => mbind (receive_poll t c) (fun r => let '(v, c, w) := r in
      mbind (c_callback [] [] w on_wake c) (fun q => Def (fst q, match v with Some v => CGot v :: snd q | None => snd q end)))
  end.
Proof. destruct o; reflexivity. Qed.

(** memory safety, whatever wakers do *)
Definition safe {T} (x : mem (ChannelState T * list (cev T))) : Prop := exists c e, x = Def (c, e) /\ c_good c.
Lemma good_full {T} (r s : option nat) (v : T) : r = None -> c_good (mkChannel true r s (SInit v)).
Proof. intros ->. split; [split; [intros _; exists v; reflexivity|reflexivity]|reflexivity]. Qed.
Lemma good_empty {T} (r s : option nat) (x : Slot T) : (forall v, x <> SInit v) -> c_good (mkChannel false r s x).
Proof. intros H. split; [split; [discriminate|intros (v & E); exfalso; exact (H v E)]|discriminate]. Qed.
Lemma good_cases {T} (c : ChannelState T) : c_good c -> (exists s v, c = mkChannel true None s (SInit v)) \/ (exists r s x, c = mkChannel false r s x /\ forall v, x <> SInit v).
Proof.
  destruct c as [b r s x]. intros [[H1 H2] H3]. cbn [ch_ready ch_slot ch_recv] in *. destruct b.
  - left. destruct (H1 eq_refl) as (v & ->). rewrite (H3 eq_refl). exists s, v. reflexivity.
  - right. exists r, s, x. split; [reflexivity|]. intros v ->. assert (F : false = true) by (apply H2; exists v; reflexivity). discriminate F.
Qed.
Lemma runs_safe {T} (l : list (cop T)) : Forall (fun o => tame o -> forall c, c_good c -> safe (c_run o c)) l -> Forall tame l -> forall c, c_good c -> safe (c_runs l c).
Proof.
  induction l as [|o l IH]; intros H HT c HC; [exists c, []; auto|]. inversion_clear H as [|? ? H1 H2]. inversion_clear HT as [|? ? T1 T2].
  cbn [c_runs]. destruct (H1 T1 c HC) as (c1 & e1 & -> & HC1). cbn [mbind fst snd]. destruct (IH H2 T2 c1 HC1) as (c2 & e2 & -> & HC2). exists c2, (e1 ++ e2). auto.
Qed.
Lemma wake_safe {T} w (l : list (cop T)) c : (forall c, c_good c -> safe (c_runs l c)) -> c_good c -> safe (c_wake w l c).
Proof. intros H HC. destruct w as [u|]; [|exists c, []; auto]. cbn [c_wake]. destruct (H c HC) as (c1 & e1 & -> & HC1). exists c1, (CWoke u :: e1). auto. Qed.
Theorem C85_memory_safe_partial : forall T (o : cop T) c, tame o -> c_good c -> exists c' e, c_run o c = Def (c', e) /\ c_good c'.
Proof.
  intros T o c HT HC. change (safe (c_run o c)). revert HT c HC. pattern o. apply cop_all; clear o.
  - intros _ c HC. exists c, []. auto.
  - intros v d w _ Hw HT c HC. inversion HT as [|v' w' HW| |]; subst. rewrite c_run_eq. pose proof (runs_safe w Hw HW) as RW. clear HT HW Hw.
    destruct (good_cases c HC) as [(s & x & ->)|(r & s & x & -> & Hx)]; cbn [ch_ready ch_recv ch_send ch_slot c_runs mbind fst snd c_wake].
    + eexists. eexists. split; [reflexivity|]. apply good_full. reflexivity.
    + destruct (wake_safe r w (mkChannel true None s (SInit v)) RW) as (c1 & e1 & -> & HC1); [apply good_full; reflexivity|]. exists c1, ([] ++ e1). auto.
  - intros t w Hw HT c HC. inversion HT as [| |t' w' HW|]; subst. rewrite c_run_eq. pose proof (runs_safe w Hw HW) as RW. clear HT HW Hw.
    destruct (good_cases c HC) as [(s & x & ->)|(r & s & x & -> & Hx)]; cbn [ch_ready ch_recv ch_send ch_slot]; [|eexists; eexists; split; [reflexivity|apply good_empty, Hx]].
    destruct s as [u|]; [|eexists; eexists; split; [reflexivity|apply good_full; reflexivity]]. destruct (u =? t)%nat; [eexists; eexists; split; [reflexivity|apply good_full; reflexivity]|].
    destruct (wake_safe (Some u) w (mkChannel true None None (SInit x)) RW) as (c1 & e1 & -> & HC1); [apply good_full; reflexivity|]. cbn [mbind fst snd].
    eexists. eexists. split; [reflexivity|]. destruct (good_cases c1 HC1) as [(s1 & x1 & ->)|(r1 & s1 & x1 & -> & Hx1)]; cbn [ch_ready ch_recv ch_slot]; [apply good_full; reflexivity|apply good_empty, Hx1].
  - intros t w Hw HT c HC. inversion HT as [| | |t' w' HW]; subst. rewrite c_run_eq. pose proof (runs_safe w Hw HW) as RW. clear HT HW Hw.
    destruct (good_cases c HC) as [(s & x & ->)|(r & s & x & -> & Hx)]; cbn [ch_ready ch_recv ch_send ch_slot]; [|eexists; eexists; split; [reflexivity|apply good_empty, Hx]].
    destruct (wake_safe s w (mkChannel false None None SMoved) RW) as (c1 & e1 & -> & HC1); [apply good_empty; discriminate|]. cbn [mbind fst snd]. eexists. eexists. split; [reflexivity|exact HC1].
Qed.
Print Assumptions C85_memory_safe_partial.

(** where callbacks behave as expected *)
Definition as_expected {T} (o : cop T) : Prop := forall c, c_good c -> c_run o c = c_after o c.
Lemma harmless_tame {T} (o : cop T) : harmless o -> tame o.
Proof.
  pattern o. apply cop_all; clear o; intros.
  - constructor.
  - inversion H1; subst. constructor. match goal with K : Forall harmless w |- _ => revert K end. clear - H0. intros K. induction K as [|o l K1 K2 IH]; [constructor|]. inversion_clear H0. constructor; [auto|apply IH; assumption].
  - inversion H0; subst. constructor. constructor.
  - inversion H0; subst. constructor. match goal with K : Forall harmless w |- _ => revert K end. clear - H. intros K. induction K as [|o l K1 K2 IH]; [constructor|]. inversion_clear H. constructor; [auto|apply IH; assumption].
Qed.
Lemma runs_expected {T} (l : list (cop T)) : Forall (fun o => harmless o -> as_expected o) l -> Forall harmless l -> forall c, c_good c -> c_runs l c = c_afters l c.
Proof.
  induction l as [|o l IH]; intros H HH c HC; [reflexivity|]. inversion_clear H as [|? ? H1 H2]. inversion_clear HH as [|? ? T1 T2]. cbn [c_runs c_afters].
  rewrite <- (H1 T1 c HC). destruct (C85_memory_safe_partial T o c (harmless_tame _ T1) HC) as (c1 & e1 & -> & HC1). cbn [mbind fst snd]. rewrite (IH H2 T2 c1 HC1). reflexivity.
Qed.
Lemma mbind_def {A} (x : mem (A * list nat)) : mbind x (fun q => Def (fst q, snd q)) = x.
Proof. destruct x as [[]|]; reflexivity. Qed.
Theorem C85_channel_partial : forall T (o : cop T) c, harmless o -> c_good c -> c_run o c = c_after o c.
Proof.
  intros T o. pattern o. apply cop_all; clear o.
  - intros c _ _. reflexivity.
  - intros v d w _ Hw c HT HC. inversion HT as [|v' w' HW| |]; subst. rewrite c_run_eq, c_after_eq.
    assert (RW := runs_expected w (Forall_impl _ (fun o (K : forall c, harmless o -> c_good c -> c_run o c = c_after o c) => fun h c' => K c' h) Hw) HW).
    destruct (good_cases c HC) as [(s & x & ->)|(r & s & x & -> & Hx)]; unfold send; cbn [ch_ready ch_recv ch_send ch_slot c_runs mbind fst snd c_wake wakes c_callback c_afters app].
    + reflexivity.
    + destruct r as [u|]; cbn [c_wake wakes c_callback]; [|reflexivity]. rewrite RW by (apply good_full; reflexivity).
      unfold c_callback. cbn [mbind fst snd app]. destruct (c_afters w _) as [[]|]; reflexivity.
  - intros t w _ c HT HC. inversion HT as [| |t'|]; subst. rewrite c_run_eq, c_after_eq. unfold send_ready_poll, has_item.
    destruct (good_cases c HC) as [(s & x & ->)|(r & s & x & -> & Hx)]; cbn [ch_ready ch_recv ch_send ch_slot]; [|reflexivity].
    destruct s as [u|]; [|reflexivity]. destruct (u =? t)%nat; reflexivity.
  - intros t w Hw c HT HC. inversion HT as [| | |t' w' HW]; subst. rewrite c_run_eq, c_after_eq.
    assert (RW := runs_expected w (Forall_impl _ (fun o (K : forall c, harmless o -> c_good c -> c_run o c = c_after o c) => fun h c' => K c' h) Hw) HW).
    destruct (good_cases c HC) as [(s & x & ->)|(r & s & x & -> & Hx)]; unfold receive_poll; cbn [ch_ready ch_recv ch_send ch_slot mbind]; [|reflexivity].
    destruct s as [u|]; cbn [c_wake wakes c_callback]; [|reflexivity]. rewrite RW by (apply good_empty; discriminate).
    unfold c_callback. cbn [mbind fst snd app]. destruct (c_afters w _) as [[]|]; reflexivity.
Qed.
Print Assumptions C85_channel_partial.

(** a message whose destructor sends: the message being dropped is dropped again *)
Theorem C85_double_drop_refuted : c_good (mkChannel true None None (SInit 1)) /\
  c_run (CSend 2 [CSend 3 [] []] []) (mkChannel true None None (SInit 1)) = UB /\
  c_after (CSend 2 [CSend 3 [] []] []) (mkChannel true None None (SInit 1)) = Def (mkChannel true None None (SInit 3), [CDropped 1; CDropped 2]).
Proof. split; [apply good_full; reflexivity|]. split; reflexivity. Qed.
Print Assumptions C85_double_drop_refuted.
(** a waiting sender is polled again with another waker, and the old one, woken, receives: the sender is left waiting at an empty
    channel without having been woken *)
Theorem C85_lost_wakeup_refuted : let c := mkChannel true None (Some 1) (SInit 7) in
  c_good c /\ c_run (CReady 2 [CReceive 3 []]) c = Def (mkChannel false None (Some 2) SMoved, [CWoke 1; CGot 7]) /\
  c_after (CReady 2 [CReceive 3 []]) c = Def (mkChannel false None None SMoved, [CWoke 1; CGot 7; CWoke 2]).
Proof. cbn zeta. split; [apply good_full; reflexivity|]. split; reflexivity. Qed.
Print Assumptions C85_lost_wakeup_refuted.
Theorem C85_refuted : ~ C85_statement.
Proof. intros [H _]. specialize (H (MDrop [MPoll 2 []]) (mkMutex true (Some 2))). rewrite (proj1 C85_mutex_refuted) in H. discriminate. Qed.
Print Assumptions C85_refuted.
(** harmless and tame operations exist: a receiver's waker that receives at once, from inside send *)
Example C85_harmless_ex : harmless (CSend 5 [] [CReceive 1 []]) /\ c_good (mkChannel false (Some 1) None (@SUninit nat)) /\
  c_run (CSend 5 [] [CReceive 1 []]) (mkChannel false (Some 1) None SUninit) = Def (mkChannel false None None SMoved, [CWoke 1; CGot 5]).
Proof. split; [constructor; constructor; [constructor; constructor|constructor]|]. split; [apply good_empty; discriminate|reflexivity]. Qed.
