(** LockFacts.v -- the radio's lock, backoffs and the hand-over in every history. *)
From Coq Require Import Lia.
From Verif Require Import Base BaseProofs Sync Spec PhyConfig Csma CsmaTasks CsmaWorld TaskLogic SpecTasks TxAutomaton TxProofs RxAutomaton RxProofs CsmaGlobal TxLog RxLog TxFacts.
From Verif Require Import Async AsyncProofs.

Section Facts.
Variable S : Setup.
Notation P := (s_params S).
Notation B := (p_backoffs P).
Hypothesis OK : setup_ok S.

Definition history (h : list event) : Prop := exists x, accepts S both_start h = Some x.
Lemma reachable_history p w : reachable S p w -> history (w_hist w).
Proof. intros HR. destruct (reachable_known S OK p w HR) as (g & l & HA & _). exists (g, l). exact HA. Qed.
(** the states before and after an event of a history *)
Lemma history_split h1 e h2 : history (h1 ++ e :: h2) -> exists g l g' l', accepts S both_start h1 = Some (g, l) /\ guards_agree (g, l) /\
  gnext S g e = Some g' /\ law_next l e = Some l' /\ exists y, accepts S (g', l') h2 = Some y.
Proof.
  intros (y & HA). destruct (accepted_prefix _ _ _ _ _ HA) as ([g l] & H1 & H2). cbn in H2. destruct (both_next S (g, l) e) as [z|] eqn:E; [|discriminate].
  apply both_next_inv in E. destruct E as (g' & l' & -> & EG & EL). exists g, l, g', l'. split; [exact H1|].
  split; [exact (guards_agree_accepts S _ _ _ guards_agree_start H1)|]. eauto.
Qed.

(** ** Cells *)
Lemma cells_snoc h e : cells (h ++ [e]) = cell_step (cells h) e.
Proof. unfold cells. apply fold_left_app. Qed.
Lemma cells_law h x : accepts S both_start h = Some x -> forall c, cells h c = l_held (snd x) c.
Proof.
  revert h x. apply (accepts_ind S (fun h x => forall c, cells h c = l_held (snd x) c)); [reflexivity|]. intros h [g l] e y _ HI HN c. apply both_next_inv in HN. destruct HN as (g' & l' & -> & _ & EL).
  cbn [snd] in *. apply law_cells in EL. rewrite cells_snoc. destruct e; cbn [cell_step]; try (destruct EL as [_ ->]; apply HI).
  - destruct EL as (-> & _ & ->). destruct (negb _); [|apply HI]. unfold set_cell. destruct (cell_eqb c0 c); [reflexivity|apply HI].
  - destruct EL as (-> & _ & ->). destruct (negb _); [|apply HI]. unfold set_cell. destruct (cell_eqb c0 c); [reflexivity|apply HI].
  - destruct EL as [_ ->]. unfold set_cell. destruct (l_held l c0) eqn:EH; [destruct (cell_eqb c0 c); [reflexivity|apply HI]|].
    destruct (cell_eqb c0 c) eqn:EC; [|apply HI]. destruct c0, c; try discriminate; congruence.
  - destruct EL as [_ ->]. unfold set_cell. rewrite !HI. destruct (cell_eqb c0 c); [reflexivity|]. destruct (cell_eqb c' c); reflexivity.
Qed.
Lemma cells_guards h m g rq r sec l : accepts S both_start h = Some (Active sec (m, g, rq) r, l) ->
  cells h TxGuard = g_tx g /\ cells h AckGuard = g_ack g /\ cells h RxGuard = r_held r /\
  (g_tx g = true -> g_ack g = false /\ r_held r = false) /\ (g_ack g = true -> r_held r = false).
Proof.
  intros HA. assert (HG := guards_agree_accepts S _ _ _ guards_agree_start HA). cbn [guards_agree] in HG. destruct HG as (H1 & H2 & H3 & _ & H5 & H6).
  rewrite !(cells_law _ _ HA). cbn [snd]. auto 10.
Qed.

Lemma tx_guarded m g rq e x : tx_next S (m, g, rq) e = Some x -> uses_radio e <> None -> g_tx g = true \/ g_ack g = true.
Proof.
  unfold tx_next. destruct (course_next S m e); [|discriminate]. destruct (guards_next g e) eqn:E; [|discriminate]. intros _ HU.
  destruct g as [a b busy]. cbn [g_tx g_ack]. destruct a; [auto|]. destruct b; [auto|]. destruct e; try (destruct (HU eq_refl)); destruct t; cbn in E; discriminate.
Qed.
Lemma rx_guarded r e x : rx_next S r e = Some x -> uses_radio e <> None -> r_held r = true.
Proof.
  destruct r as [c h b]. intros E HU. cbn [r_held]. destruct h; [reflexivity|]. destruct e; try (destruct (HU eq_refl)); destruct t; cbn [rx_next] in E; try discriminate; destruct c; try discriminate.
  - destruct (txconfig_dec c0 _); [|discriminate]. destruct (octets_dec _ _); discriminate.
  - destruct (rxconfig_dec c0 _); discriminate.
Qed.
Lemma uses_owner e t : uses_radio e = Some t -> owner e = Some t.
Proof. destruct e; cbn; intros H; try discriminate; exact H. Qed.
Theorem radio_guarded h1 e h2 t : history (h1 ++ e :: h2) -> uses_radio e = Some t ->
  exists c, cell_of t c /\ forall c', cells h1 c' = true <-> c' = c.
Proof.
  intros HH HU. destruct (history_split _ _ _ HH) as (g & l & g' & l' & HA & HG & EG & EL & _). assert (HO := uses_owner _ _ HU).
  destruct g as [|sec [[m gd] rq] r]; [apply gnext_enabling in EG; destruct EG; congruence|].
  destruct (cells_guards _ _ _ _ _ _ _ HA) as (C1 & C2 & C3 & X1 & X2). apply gnext_active in EG.
  destruct EG as [(-> & _)|[(NP & EO & _ & t' & ET & _)|(NP & EO & r' & ER & _)]]; [discriminate| |]; assert (t0 := t); rewrite HO in EO; injection EO as ->.
  - destruct (tx_guarded _ _ _ _ _ ET) as [HT|HT]; [congruence| |].
    + exists TxGuard. split; [left; reflexivity|]. destruct (X1 HT) as [Y1 Y2]. intros [| |]; split; intros Z; try discriminate; try reflexivity; congruence.
    + exists AckGuard. split; [right; reflexivity|]. assert (Y := X2 HT). destruct (g_tx gd) eqn:Z0; [destruct (X1 eq_refl); congruence|].
      intros [| |]; split; intros Z; try discriminate; try reflexivity; congruence.
  - assert (HT := rx_guarded _ _ _ ER). rewrite HU in HT. specialize (HT ltac:(discriminate)). exists RxGuard. split; [reflexivity|].
    destruct (g_tx gd) eqn:Z0; [destruct (X1 eq_refl); congruence|]. destruct (g_ack gd) eqn:Z1; [specialize (X2 eq_refl); congruence|].
    intros [| |]; split; intros Z; try discriminate; try reflexivity; congruence.
Qed.

(** ** Operations in progress *)
Lemma in_progress_snoc t h e : in_progress t (h ++ [e]) = progress_step t (in_progress t h) e.
Proof. unfold in_progress. apply fold_left_app. Qed.
Lemma tx_progress m g rq e m' g' rq' : tx_next S (m, g, rq) e = Some (m', g', rq') -> g_busy g' = progress_step Tx (g_busy g) e.
Proof.
  unfold tx_next. destruct (course_next S m e); [|discriminate]. destruct (guards_next g e) as [g2|] eqn:E; [|discriminate]. destruct (request_next rq e) as [rq2|]; [|discriminate].
  intros [= _ <- _]. destruct g as [a b bz]. unfold guards_next in E. cbn [g_tx g_ack g_busy] in *.
  destruct e; try discriminate; try (destruct t; try discriminate); repeat (match goal with x : cell |- _ => destruct x; try discriminate end);
    destruct a, b, bz; cbn in E; try discriminate E; injection E as <-; cbn; try reflexivity;
    try (destruct sent; reflexivity); try (match goal with x : option _ |- _ => destruct x; reflexivity end).
Qed.
Lemma rx_progress r e r' : rx_next S r e = Some r' -> r_busy r' = progress_step Rx (r_busy r) e.
Proof.
  destruct r as [c h b]. cbn [r_busy]. intros E.
  destruct e; cbn [rx_next] in E; try discriminate; try (destruct t; try discriminate); try (match goal with x : cell |- _ => destruct x; try discriminate end);
    try (injection E as <-; reflexivity);
    destruct c; try discriminate;
    repeat match type of E with
    | (if ?x then _ else _) = _ => destruct x eqn:?; try discriminate
    | match ?x with _ => _ end = _ => destruct x eqn:?; try discriminate
    end; try (injection E as <-; cbn; try reflexivity; try destruct d; try reflexivity).
Qed.
Lemma progress_other t e b : owner e <> Some t -> progress_step t b e = b.
Proof. intros H. destruct e; cbn in *; try reflexivity; try (destruct t, t0; cbn; try reflexivity; congruence); destruct t, t0; cbn; destruct sent || destruct r; try reflexivity; congruence. Qed.
Lemma progress_states h x : accepts S both_start h = Some x ->
  match fst x with Enabling => in_progress Tx h = false /\ in_progress Rx h = false
  | Active _ (_, g, _) r => in_progress Tx h = g_busy g /\ in_progress Rx h = r_busy r end.
Proof.
  revert h x. apply (accepts_ind S (fun h x => match fst x with Enabling => in_progress Tx h = false /\ in_progress Rx h = false
  | Active _ (_, g, _) r => in_progress Tx h = g_busy g /\ in_progress Rx h = r_busy r end)); [split; reflexivity|]. intros h [g l] e y _ HI HN. apply both_next_inv in HN. destruct HN as (g' & l' & -> & EG & EL).
  cbn [fst] in *. rewrite !in_progress_snoc. destruct g as [|sec [[m gd] rq] r].
  - apply gnext_enabling in EG. destruct EG as [EO EG]. rewrite !progress_other by congruence. destruct EG as [->| ->]; exact HI.
  - destruct HI as [-> ->]. apply gnext_active in EG. destruct EG as [(-> & [[m' gd'] rq'] & r' & ET & ER & ->)|[(NP & EO & -> & [[m' gd'] rq'] & ET & ->)|(NP & EO & r' & ER & ->)]].
    + rewrite (tx_progress _ _ _ _ _ _ _ ET), (rx_progress _ _ _ ER). auto.
    + rewrite (tx_progress _ _ _ _ _ _ _ ET), (progress_other Rx) by congruence. auto.
    + rewrite (rx_progress _ _ _ ER), (progress_other Tx) by congruence. auto.
Qed.
Theorem radio_prepared h1 e h2 t : history (h1 ++ e :: h2) -> continues e = Some t -> in_progress t h1 = true.
Proof.
  intros HH HU. destruct (history_split _ _ _ HH) as (g & l & g' & l' & HA & HG & EG & EL & _).
  assert (HO : owner e = Some t) by (destruct e; try discriminate; exact HU).
  assert (HP := progress_states _ _ HA). cbn [fst] in HP.
  destruct g as [|sec [[m gd] rq] r]; [apply gnext_enabling in EG; destruct EG; congruence|]. destruct HP as [P1 P2].
  apply gnext_active in EG. destruct EG as [(-> & _)|[(NP & EO & _ & t' & ET & _)|(NP & EO & r' & ER & _)]]; [discriminate| |]; rewrite HO in EO; injection EO as ->.
  - rewrite P1. unfold tx_next in ET. destruct (course_next S m e); [|discriminate]. destruct (guards_next gd e) eqn:E; [|discriminate]. destruct gd as [a b bz]. cbn [g_busy].
    destruct e; try discriminate; injection HU as ->; destruct bz; try reflexivity; cbn in E; rewrite Bool.andb_false_r in E; discriminate.
  - rewrite P2. destruct r as [c h b]. cbn [r_busy]. destruct e; try discriminate; injection HU as ->; cbn [rx_next] in ER; destruct c; try discriminate; destruct b; try reflexivity;
      rewrite Bool.andb_false_r in ER; discriminate.
Qed.

(** ** Without the guard *)
Lemma off_air_free m g rq e x : tx_next S (m, g, rq) e = Some x -> off_air e = true -> g_tx g = false /\ g_ack g = false.
Proof.
  unfold tx_next. destruct (course_next S m e); [|discriminate]. destruct (guards_next g e) eqn:E; [|discriminate]. intros _ HU.
  destruct g as [a b bz]. cbn [g_tx g_ack]. destruct e; try discriminate; destruct a, b; try discriminate; auto.
Qed.
Theorem off_air_unguarded h1 e h2 : history (h1 ++ e :: h2) -> off_air e = true -> tx_cells_free h1.
Proof.
  intros HH HU. destruct (history_split _ _ _ HH) as (g & l & g' & l' & HA & HG & EG & EL & _).
  assert (HO : owner e = Some Tx) by (destruct e; try discriminate; reflexivity).
  destruct g as [|sec [[m gd] rq] r]; [apply gnext_enabling in EG; destruct EG; congruence|].
  destruct (cells_guards _ _ _ _ _ _ _ HA) as (C1 & C2 & _). apply gnext_active in EG.
  destruct EG as [(-> & _)|[(NP & EO & _ & t' & ET & _)|(NP & EO & r' & ER & _)]]; [discriminate| |congruence].
  unfold tx_cells_free. rewrite C1, C2. eapply off_air_free; eassumption.
Qed.

(** ** Backoffs *)
Definition good_course (m : course) : Prop :=
  in_limits S m /\ match m with Reports es _ _ => forall n, ~ In (CcaBackoff n) es | _ => True end.
Lemma plan_errors buf b q es n : plan S buf = (b, q, es) -> ~ In (CcaBackoff n) es.
Proof.
  unfold plan. destruct (set_ack_request_if_possible _ _ _) as [[r1 b1]|]; [|intros [= _ _ <-] []]. destruct (overwrite_pan_id _ _ _ _) as [[r2 b2]|]; [|intros [= _ _ <-] []].
  intros [= _ _ <-] HI. apply in_app_iff in HI.
  assert (X : forall A (r : tx_result A), ~ In (CcaBackoff n) (errors_of r)) by (intros A [?|[|]] HX; cbn in HX; try destruct HX as [HX|[]]; try discriminate; destruct HX).
  destruct HI as [HI|HI]; revert HI; apply X.
Qed.
Lemma good_course_step m e m' : course_next S m e = Some m' -> owner e = Some Tx ->
  (forall t b, e = Receive t (Some b) -> octets (snd b)) -> (forall n, e = Random n -> (n < 2 ^ 32)%N) -> good_course m -> good_course m'.
Proof.
  intros E HO F1 F2 [HL HR]. split.
  - assert (DI : m = Idle \/ m <> Idle) by (destruct m; auto; right; discriminate). destruct DI as [->|NI].
    + destruct e; cbn [course_next] in E; try discriminate; try (injection E as <-; exact I). destruct r as [f|]; injection E as <-; [|exact I].
      unfold begin. destruct (plan S (fb_buffer f)) as [[b q] [|e1 es]]; [|exact I]. cbn [in_limits]. assert (HB := OK). destruct HB as (_ & _ & _ & _ & HB & HR' & _). lia.
    + apply (rest_step S OK _ _ _ NI HL E HO F1 F2).
  - destruct e; cbn [course_next] in E; try (injection E as <-; exact HR); destruct m; try discriminate;
      repeat match type of E with
      | (if ?x then _ else _) = _ => destruct x; try discriminate
      | match ?x with _ => _ end = _ => destruct x eqn:?; try discriminate
      end; try (injection E as <-; try destruct done; try exact I; fail).
    + injection E as <-. destruct q; exact I.
    + injection E as <-. destruct (is_ack S s p); exact I.
    + injection E as <-. destruct r as [f|]; [|exact I]. unfold begin. destruct (plan S (fb_buffer f)) as [[b q] [|e1 es]] eqn:EP; [exact I|].
      intros n. exact (plan_errors _ _ _ _ n EP).
    + injection E as <-. intros n HI. apply (HR n). right. exact HI.
Qed.
Lemma good_course_accepts h x : accepts S both_start h = Some x -> match fst x with Enabling => True | Active _ (m, _, _) _ => good_course m end.
Proof.
  revert h x. apply (accepts_ind S (fun h x => match fst x with Enabling => True | Active _ (m, _, _) _ => good_course m end)); [exact I|]. intros h [g l] e y _ HI HN. apply both_next_inv in HN. destruct HN as (g' & l' & -> & EG & EL).
  cbn [fst] in *. destruct g as [|sec [[m gd] rq] r].
  - apply gnext_enabling in EG. destruct EG as [_ [->| ->]]; [exact I|]. split; exact I.
  - apply gnext_active in EG. destruct EG as [(-> & [[m' gd'] rq'] & r' & ET & ER & ->)|[(NP & EO & -> & [[m' gd'] rq'] & ET & ->)|(NP & EO & r' & ER & ->)]]; [| |exact HI].
    + unfold tx_next in ET. cbn [course_next] in ET. destruct (guards_next gd Polled); [|discriminate]. destruct (request_next rq Polled); [|discriminate]. injection ET as <- _ _. exact HI.
    + unfold tx_next in ET. destruct (course_next S m e) as [m2|] eqn:EC; [|discriminate]. destruct (guards_next gd e); [|discriminate].
      destruct (request_next rq e) as [rq2|]; [|discriminate]. injection ET as <- _ _. destruct (law_facts _ _ _ EL) as (F1 & F2 & _). eapply good_course_step; eassumption.
Qed.

(** after Report (CcaBackoff n): the course, what was logged, and the guards *)
Definition backing (n : N) (m : course) (g : guards) (l : list event) : Prop :=
  (exists i b q, m = Backoff i n b q /\ l = [] /\ g_tx g = false /\ g_ack g = false) \/
  (exists i b q r, m = Drawn i n (backoff_us S n r) b q /\ l = [Random r] /\ (r < 2 ^ 32)%N /\ g_tx g = false /\ g_ack g = false) \/
  (exists i b q r, m = BackingOff i n b q /\ l = [Random r; Delay Tx (backoff_us S n r)] /\ (r < 2 ^ 32)%N /\ g_tx g = false /\ g_ack g = false) \/
  (exists r l', l = [Random r; Delay Tx (backoff_us S n r); DelayDone Tx true] ++ l' /\ (r < 2 ^ 32)%N).
Lemma backing_step n m g rq e m' g' rq' l : tx_next S (m, g, rq) e = Some (m', g', rq') -> owner e = Some Tx \/ e = Polled ->
  (forall n, e = Random n -> (n < 2 ^ 32)%N) -> backing n m g l -> backing n m' g' (l ++ logged e).
Proof.
  intros ET EO F2 HB. assert (HC := tx_cells S _ _ _ _ _ _ _ ET). unfold tx_next in ET. destruct (course_next S m e) as [m2|] eqn:EC; [|discriminate]. destruct (guards_next g e) as [g2|] eqn:EGd; [|discriminate].
  destruct (request_next rq e) as [rq2|]; [|discriminate]. injection ET as <- <- _.
  assert (HG : g_tx g = false -> g_ack g = false -> (forall c ok, e <> TryLock c ok) -> g_tx g2 = false /\ g_ack g2 = false).
  { intros G1 G2 NT. destruct e; try (destruct HC as [-> ->]; auto; fail).
    - destruct HC.
    - destruct (NT c ok eq_refl).
    - destruct HC as [(_ & -> & ->)|(_ & -> & ->)]; auto.
    - destruct HC as (_ & _ & X & _). congruence. }
  destruct HB as [(i & b & q & -> & -> & G1 & G2)|[(i & b & q & r & -> & -> & Hr & G1 & G2)|[(i & b & q & r & -> & -> & Hr & G1 & G2)|(r & l' & -> & Hr)]]].
  - assert (NT : forall c ok, e <> TryLock c ok) by (intros c ok ->; discriminate). destruct (HG G1 G2 NT) as [G1' G2'].
    destruct e; cbn [course_next] in EC; try discriminate; injection EC as <-; try (left; exists i, b, q; auto; fail).
    right; left. exists i, b, q, n0. split; [reflexivity|]. split; [reflexivity|]. split; [apply F2; reflexivity|auto].
  - assert (NT : forall c ok, e <> TryLock c ok) by (intros c ok ->; discriminate). destruct (HG G1 G2 NT) as [G1' G2'].
    destruct e; cbn [course_next] in EC; try discriminate; try (injection EC as <-; right; left; exists i, b, q, r; auto; fail).
    destruct (Z.eq_dec us (backoff_us S n r)) as [->|]; [|discriminate]. injection EC as <-. right; right; left. exists i, b, q, r.
    destruct EO as [EO|EO]; [|discriminate]. cbn in EO. injection EO as ->. auto.
  - assert (NT : forall c ok, e <> TryLock c ok) by (intros c ok ->; discriminate). destruct (HG G1 G2 NT) as [G1' G2'].
    destruct e; cbn [course_next] in EC; try discriminate; try (injection EC as <-; right; right; left; exists i, b, q, r; auto; fail).
    destruct EO as [EO|EO]; [|discriminate]. cbn in EO. injection EO as ->.
    destruct done; injection EC as <-; [|right; right; left; exists i, b, q, r; auto].
    right; right; right. exists r, []. auto.
  - right; right; right. exists r, (l' ++ logged e). auto.
Qed.
Lemma backing_accepts n h : forall sec m g rq r l l0 y, backing n m g l0 -> accepts S (Active sec (m, g, rq) r, l) h = Some y ->
  exists sec' m' g' rq' r' l', y = (Active sec' (m', g', rq') r', l') /\ backing n m' g' (l0 ++ tx_log h).
Proof.
  induction h as [|e h IH]; intros sec m g rq r l l0 y HB HA; cbn in HA.
  - injection HA as <-. do 6 eexists. split; [reflexivity|]. cbn. rewrite app_nil_r. exact HB.
  - destruct (both_next S _ e) as [z|] eqn:E; [|discriminate]. apply both_next_inv in E. destruct E as (g' & l' & -> & EG & EL).
    replace (l0 ++ tx_log (e :: h)) with ((l0 ++ logged e) ++ tx_log h) by (unfold tx_log, logged; cbn; destruct (tx_step e); rewrite <- app_assoc; reflexivity).
    destruct (law_facts _ _ _ EL) as (_ & F2 & _).
    apply gnext_active in EG. destruct EG as [(-> & [[m' gd'] rq'] & r' & ET & ER & ->)|[(NP & EO & -> & [[m' gd'] rq'] & ET & ->)|(NP & EO & r' & ER & ->)]].
    + eapply IH; [|exact HA]. eapply backing_step; [exact ET|auto|exact F2|exact HB].
    + eapply IH; [|exact HA]. eapply backing_step; [exact ET|auto|exact F2|exact HB].
    + eapply IH; [|exact HA]. rewrite logged_other, app_nil_r by congruence. exact HB.
Qed.
Lemma backoff_begins h1 n h2 : history (h1 ++ Report (CcaBackoff n) :: h2) ->
  (1 <= n < B)%N /\ exists sec m g rq r l, accepts S both_start (h1 ++ Report (CcaBackoff n) :: h2) = Some (Active sec (m, g, rq) r, l) /\ backing n m g (tx_log h2).
Proof.
  intros HH. destruct (history_split _ _ _ HH) as (g & l & g' & l' & HA & HG & EG & EL & y & HY).
  assert (HGC := good_course_accepts _ _ HA). cbn [fst] in HGC.
  destruct g as [|sec [[m gd] rq] r]; [discriminate|]. apply gnext_active in EG.
  destruct EG as [(X & _)|[(NP & EO & -> & [[m' gd'] rq'] & ET & ->)|(NP & EO & r' & ER & ->)]]; [discriminate| |discriminate].
  assert (HOFF := off_air_free _ _ _ _ _ ET eq_refl). assert (HC := tx_cells S _ _ _ _ _ _ _ ET). cbn in HC. destruct HC as [C1 C2].
  assert (HX : (1 <= n < B)%N /\ exists i b q, m' = Backoff i n b q).
  { unfold tx_next in ET. destruct (course_next S m (Report (CcaBackoff n))) as [m2|] eqn:EC; [|discriminate]. destruct (guards_next gd _); [|discriminate].
    destruct (request_next rq _); [|discriminate]. injection ET as <- _ _. destruct HGC as [HL HR]. cbn [course_next] in EC. destruct m; try discriminate.
    - destruct es as [|e1 es]; [discriminate|]. assert (X : CcaBackoff n <> e1) by (intros <-; apply (HR n); left; reflexivity).
      destruct es; destruct (error_dec (CcaBackoff n) e1); try contradiction; discriminate.
    - cbn [in_limits] in HL. destruct (N.eqb_spec n0 B); [destruct (error_dec _ _); discriminate|]. destruct (error_dec (CcaBackoff n) (CcaBackoff n0)) as [X|]; [|discriminate].
      injection X as <-. injection EC as <-. split; [lia|eauto].
    - destruct (_ =? _)%N; destruct (error_dec _ _); discriminate. }
  destruct HX as [HN (i & b & q & ->)]. split; [exact HN|].
  destruct (backing_accepts n h2 false (Backoff i n b q) gd' rq' r l' [] y) as (sec' & m2 & g2 & rq2 & r2 & l2 & -> & HB); [|exact HY|].
  { left. exists i, b, q. split; [reflexivity|]. split; [reflexivity|]. destruct HOFF. split; congruence. }
  exists sec', m2, g2, rq2, r2, l2. split; [|exact HB]. destruct HH as (y' & HH). rewrite HH.
  rewrite accepts_app, HA in HH. cbn [accepts] in HH. unfold both_next in HH. cbn [fst snd] in HH.
  rewrite (gnext_tx S _ _ _ _ NP ET), EL in HH. etransitivity; [symmetry; exact HH|exact HY].
Qed.
Theorem backoff_waits h1 n h2 : history (h1 ++ Report (CcaBackoff n) :: h2) ->
  (1 <= n < B)%N /\ exists r, (r < 2 ^ 32)%N /\ agree (tx_log h2) [Random r; Delay Tx (backoff_us S n r); DelayDone Tx true].
Proof.
  intros HH. destruct (backoff_begins _ _ _ HH) as (HN & sec & m & g & rq & r & l & _ & HB). split; [exact HN|].
  destruct HB as [(i & b & q & _ & -> & _)|[(i & b & q & r' & _ & -> & Hr & _)|[(i & b & q & r' & _ & -> & Hr & _)|(r' & l' & -> & Hr)]]].
  - exists 0%N. split; [reflexivity|]. exists [Random 0; Delay Tx (backoff_us S n 0); DelayDone Tx true]. left. reflexivity.
  - exists r'. split; [exact Hr|]. exists [Delay Tx (backoff_us S n r'); DelayDone Tx true]. left. reflexivity.
  - exists r'. split; [exact Hr|]. exists [DelayDone Tx true]. left. reflexivity.
  - exists r'. split; [exact Hr|]. exists l'. right. reflexivity.
Qed.
Theorem backoff_unguarded h1 n h2 : history (h1 ++ Report (CcaBackoff n) :: h2) -> ~ In (DelayDone Tx true) h2 ->
  tx_cells_free (h1 ++ Report (CcaBackoff n) :: h2).
Proof.
  intros HH HN. destruct (backoff_begins _ _ _ HH) as (_ & sec & m & g & rq & r & l & HA & HB). destruct (cells_guards _ _ _ _ _ _ _ HA) as (C1 & C2 & _).
  unfold tx_cells_free. rewrite C1, C2.
  destruct HB as [(i & b & q & _ & _ & G)|[(i & b & q & r' & _ & _ & _ & G)|[(i & b & q & r' & _ & _ & _ & G)|(r' & l' & E & _)]]]; try exact G.
  exfalso. apply HN. assert (X : In (DelayDone Tx true) (tx_log h2)) by (rewrite E; cbn; auto). apply filter_In in X. apply X.
Qed.

(** ** Dropping the device *)
Definition dropping (w : world) (g : guards) (r : bool * bool) : Prop :=
  (forall c, w_held w c = cells (w_hist w) c) /\
  cells (w_hist w) TxGuard = g_tx g /\ cells (w_hist w) AckGuard = g_ack g /\ cells (w_hist w) RxGuard = fst r /\
  mx_locked (w_radio w) = (g_tx g || g_ack g || fst r) /\
  (g_tx g = true -> g_ack g = false /\ fst r = false) /\ (g_ack g = true -> fst r = false) /\
  in_progress Tx (w_hist w) = g_busy g /\ in_progress Rx (w_hist w) = snd r.
Lemma happens_cancel w t : happens w (Cancel t) = Some (record w (Cancel t)).
Proof. reflexivity. Qed.
Lemma happens_release w c : exists w', happens w (Release c) = Some w' /\ w_hist w' = w_hist w ++ [Release c] /\
  (forall c', w_held w' c' = if cell_eqb c c' then false else w_held w c') /\ mx_locked (w_radio w') = if w_held w c then false else mx_locked (w_radio w).
Proof.
  unfold happens. cbn [next_state]. destruct (w_held w c) eqn:E; eexists; (split; [reflexivity|]); cbn [record w_hist w_held w_radio]; (split; [reflexivity|]).
  - split; [reflexivity|]. unfold guard_drop. destruct (mx_waker (w_radio w)); reflexivity.
  - split; [|reflexivity]. intros c'. destruct (cell_eqb c c') eqn:EC; [|reflexivity]. destruct c, c'; try discriminate; exact E.
Qed.
Lemma dropping_tx w g r e g' : dropping w g r -> tx_clean_next g e = Some g' -> exists w', happens w e = Some w' /\ w_hist w' = w_hist w ++ [e] /\ dropping w' g' r /\
  (forall es, orderly (w_hist w ++ [e]) es -> orderly (w_hist w) (e :: es)).
Proof.
  intros HD E. assert (HD' := HD). destruct HD' as (H0 & H1 & H2 & H3 & H4 & H5 & H6 & H7 & H8). destruct e; try discriminate.
  - destruct t; [|discriminate]. cbn in E. exists (record w (Cancel Tx)). split; [reflexivity|]. split; [reflexivity|].
    destruct ((g_tx g || g_ack g) && g_busy g) eqn:EB; [|discriminate]. injection E as <-. apply andb_prop in EB. destruct EB as [EB1 EB2]. split.
    + unfold dropping. cbn [record w_hist w_held w_radio g_tx g_ack g_busy]. rewrite !cells_snoc, !in_progress_snoc. cbn [cell_step progress_step task_eqb]. auto 12.
    + intros es HO. apply orb_prop in EB1. destruct EB1 as [X|X]; [apply orderly_cancel with TxGuard|apply orderly_cancel with AckGuard]; try assumption; try congruence; [left|right]; reflexivity.
  - destruct (happens_release w c) as (w' & HW & HH & HC & HL). exists w'. split; [exact HW|]. split; [exact HH|].
    assert (HX : forall b, dropping w' b r -> g' = b -> dropping w' g' r) by (intros b X ->; exact X).
    destruct c; [discriminate| |]; cbn in E.
    + destruct (g_tx g && g_busy g) eqn:EB; [discriminate|]. injection E as <-. split.
      * unfold dropping. rewrite HH, HL, H0, H1. cbn [g_tx g_ack g_busy]. rewrite !cells_snoc, !in_progress_snoc. cbn [cell_step progress_step]. unfold set_cell. cbn [cell_eqb]. repeat split; auto.
        { intros c'. rewrite HC, H0. destruct c'; reflexivity. }
        { rewrite H4. destruct (g_tx g); [|reflexivity]. destruct (H5 eq_refl) as [-> ->]. reflexivity. }
        { discriminate. } { discriminate. }
      * intros es HO. apply orderly_release; [|exact HO]. cbn [task_of]. rewrite H1, H7. intros X. rewrite X in EB. exact EB.
    + destruct (g_ack g && g_busy g) eqn:EB; [discriminate|]. injection E as <-. split.
      * unfold dropping. rewrite HH, HL, H0, H2. cbn [g_tx g_ack g_busy]. rewrite !cells_snoc, !in_progress_snoc. cbn [cell_step progress_step]. unfold set_cell. cbn [cell_eqb]. repeat split; auto.
        { intros c'. rewrite HC, H0. destruct c'; reflexivity. }
        { rewrite H4. destruct (g_ack g); [|reflexivity]. rewrite (H6 eq_refl). destruct (g_tx g); [destruct (H5 eq_refl); discriminate|reflexivity]. }
        { apply H5. assumption. } { discriminate. }
      * intros es HO. apply orderly_release; [|exact HO]. cbn [task_of]. rewrite H2, H7. intros X. rewrite X in EB. exact EB.
Qed.
Lemma dropping_rx w g r e r' : dropping w g r -> rx_clean_next r e = Some r' -> exists w', happens w e = Some w' /\ w_hist w' = w_hist w ++ [e] /\ dropping w' g r' /\
  (forall es, orderly (w_hist w ++ [e]) es -> orderly (w_hist w) (e :: es)).
Proof.
  intros HD E. destruct r as [held busy]. assert (HD' := HD). destruct HD' as (H0 & H1 & H2 & H3 & H4 & H5 & H6 & H7 & H8). cbn [fst snd] in *. destruct e; try discriminate.
  - destruct t; [discriminate|]. cbn in E. exists (record w (Cancel Rx)). split; [reflexivity|]. split; [reflexivity|].
    destruct (held && busy) eqn:EB; [|discriminate]. injection E as <-. apply andb_prop in EB. destruct EB as [EB1 EB2]. split.
    + unfold dropping. cbn [record w_hist w_held w_radio fst snd]. rewrite !cells_snoc, !in_progress_snoc. cbn [cell_step progress_step task_eqb]. auto 12.
    + intros es HO. apply orderly_cancel with RxGuard; try assumption; try congruence.
  - destruct (happens_release w c) as (w' & HW & HH & HC & HL). exists w'. split; [exact HW|]. split; [exact HH|].
    destruct c; [| discriminate..]; cbn in E.
    destruct busy eqn:EB; [discriminate|]. injection E as <-. split.
    + unfold dropping. rewrite HH, HL, H0, H3. cbn [fst snd]. rewrite !cells_snoc, !in_progress_snoc. cbn [cell_step progress_step]. unfold set_cell. cbn [cell_eqb]. repeat split; auto.
        { intros c'. rewrite HC, H0. destruct c'; reflexivity. }
        { rewrite H4. destruct held; [|reflexivity]. destruct (g_tx g); [destruct (H5 eq_refl); discriminate|]. destruct (g_ack g); [specialize (H6 eq_refl); discriminate|reflexivity]. }
        { apply H5. assumption. }
    + intros es HO. apply orderly_release; [|exact HO]. cbn [task_of]. auto.
Qed.
Lemma drops_tx c : forall w g r g', dropping w g r -> lrun tx_clean_next c g = Some g' ->
  exists w', drops sem c w w' /\ dropping w' g' r /\ exists es, w_hist w' = w_hist w ++ es /\ forall es', orderly (w_hist w ++ es) es' -> orderly (w_hist w) (es ++ es').
Proof.
  induction c as [|o c IH]; intros w g r g' HD HR; cbn in HR |- *.
  - injection HR as <-. exists w. split; [reflexivity|]. split; [exact HD|]. exists []. rewrite app_nil_r. split; [reflexivity|]. auto.
  - destruct (tx_clean_next g (o tt)) as [g1|] eqn:E; [|discriminate]. destruct (dropping_tx _ _ _ _ _ HD E) as (w1 & HW & HH & HD1 & HO).
    destruct (IH _ _ _ _ HD1 HR) as (w2 & HS & HD2 & es & HH2 & HO2). exists w2. split; [exists w1; split; [exact HW|exact HS]|]. split; [exact HD2|].
    exists (o tt :: es). rewrite HH2, HH, <- app_assoc. split; [reflexivity|]. intros es' HE. cbn. apply HO. rewrite HH in HO2. apply HO2. rewrite <- app_assoc. exact HE.
Qed.
Lemma drops_rx c : forall w g r r', dropping w g r -> lrun rx_clean_next c r = Some r' ->
  exists w', drops sem c w w' /\ dropping w' g r' /\ exists es, w_hist w' = w_hist w ++ es /\ forall es', orderly (w_hist w ++ es) es' -> orderly (w_hist w) (es ++ es').
Proof.
  induction c as [|o c IH]; intros w g r g' HD HR; cbn in HR |- *.
  - injection HR as <-. exists w. split; [reflexivity|]. split; [exact HD|]. exists []. rewrite app_nil_r. split; [reflexivity|]. auto.
  - destruct (rx_clean_next r (o tt)) as [g1|] eqn:E; [|discriminate]. destruct (dropping_rx _ _ _ _ _ HD E) as (w1 & HW & HH & HD1 & HO).
    destruct (IH _ _ _ _ HD1 HR) as (w2 & HS & HD2 & es & HH2 & HO2). exists w2. split; [exists w1; split; [exact HW|exact HS]|]. split; [exact HD2|].
    exists (o tt :: es). rewrite HH2, HH, <- app_assoc. split; [reflexivity|]. intros es' HE. cbn. apply HO. rewrite HH in HO2. apply HO2. rewrite <- app_assoc. exact HE.
Qed.
Lemma drops_unique c : forall w w1 w2, drops sem c w w1 -> drops sem c w w2 -> w1 = w2.
Proof.
  induction c as [|o c IH]; intros w w1 w2 H1 H2; cbn in *; [congruence|]. destruct H1 as (v1 & E1 & H1). destruct H2 as (v2 & E2 & H2).
  unfold sem in E1, E2. rewrite E1 in E2. injection E2 as <-. eapply IH; eassumption.
Qed.
Lemma drops_app c c' w w1 w2 : drops sem c w w1 -> drops sem c' w1 w2 -> drops sem (c ++ c') w w2.
Proof. revert w. induction c as [|o c IH]; intros w H1 H2; cbn in *; [subst; exact H2|]. destruct H1 as (v & E & H1). exists v. auto. Qed.
Theorem dropped c p w : reachable S (Pend c p) w ->
  exists w', drops sem c w w' /\ (forall w2, drops sem c w w2 -> w2 = w') /\
    (forall x, cells (w_hist w') x = false) /\ mx_locked (w_radio w') = false /\ (forall t, in_progress t (w_hist w') = false) /\
    exists es, w_hist w' = w_hist w ++ es /\ orderly (w_hist w) es.
Proof.
  intros HR. destruct (reachable_known S OK _ _ HR) as (g & l & HA & HL & HG & _ & HF). destruct (Fine_pend_inv _ _ _ _ _ _ _ _ HF) as [HD _].
  assert (HC := cells_law _ _ HA). assert (HP := progress_states _ _ HA). cbn [snd fst] in *. destruct HL as (L1 & L2 & _).
  destruct g as [|sec [[m gd] rq] r]; cbn [gdrop] in HD.
  - subst c. exists w. split; [reflexivity|]. split; [intros w2 X; exact X|]. destruct HG as [G1 G2]. split; [intros x; rewrite HC; apply G2|]. split; [congruence|].
    destruct HP as [P1 P2]. split; [intros [|]; assumption|]. exists []. rewrite app_nil_r. split; [reflexivity|constructor].
  - destruct HD as (c1 & c2 & -> & D1 & D2). unfold tx_drop in D1. unfold rx_drop in D2. cbn [fst snd] in D1. destruct HP as [P1 P2]. destruct HG as (G1 & G2 & G3 & G4 & G5 & G6).
    assert (X : dropping w gd (r_held r, r_busy r)).
    { unfold dropping. cbn [fst snd]. rewrite !HC. repeat split; auto; try (intros c; rewrite HC; apply L2); try congruence; apply G5; assumption. }
    destruct (drops_tx _ _ _ _ _ X D1) as (w1 & S1 & X1 & es1 & H1 & O1). destruct (drops_rx _ _ _ _ _ X1 D2) as (w2 & S2 & X2 & es2 & H2 & O2).
    assert (SS := drops_app _ _ _ _ _ S1 S2). exists w2. split; [exact SS|]. split; [intros w3 X3; exact (drops_unique _ _ _ _ X3 SS)|].
    destruct X2 as (Y0 & Y1 & Y2 & Y3 & Y4 & _ & _ & Y7 & Y8). cbn [g_tx g_ack g_busy fst snd] in *. split; [intros [| |]; assumption|]. split; [exact Y4|].
    split; [intros [|]; assumption|]. exists (es1 ++ es2). rewrite app_assoc, <- H1. split; [exact H2|]. apply O1. rewrite <- H1.
    rewrite <- (app_nil_r es2). apply O2. constructor.
Qed.
End Facts.
