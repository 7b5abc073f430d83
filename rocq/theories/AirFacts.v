(** AirFacts.v -- proofs of C72-C76 about every history. *)
From Coq Require Import Lia.
From Verif Require Import Base BaseProofs Sync Spec SpecFrame SpecAddressing FrameControl SpecFrames PhyConfig Csma SpecCsma CsmaProofs CsmaTasks CsmaWorld TaskLogic
  SpecTasks SpecAir TxAutomaton TxProofs RxAutomaton RxProofs CsmaGlobal TxLog RxLog TxFacts LockFacts HandOver.
From Verif Require Import Async AsyncProofs.

Section Facts.
Variable S : Setup.
Notation P := (s_params S).
Notation cfg := (s_config S).
Notation dv := (s_device S).
Hypothesis OK : setup_ok S.

(** ** C72 *)
Lemma enabled_snoc h x : accepts S both_start h = Some x ->
  match fst x with
  | Enabling => forallb not_enabled_yet h = true
  | Active _ _ _ => exists h1 h2, h = h1 ++ Enable true :: h2 /\ forallb not_enabled_yet h1 = true /\ existsb enables h2 = false
  end.
Proof.
  revert h x. apply (accepts_ind S (fun h x => match fst x with
  | Enabling => forallb not_enabled_yet h = true
  | Active _ _ _ => exists h1 h2, h = h1 ++ Enable true :: h2 /\ forallb not_enabled_yet h1 = true /\ existsb enables h2 = false end)); [reflexivity|].
  intros h [g l] e y HA HI HN. apply both_next_inv in HN. destruct HN as (g' & l' & -> & EG & EL). cbn [fst] in *. destruct g as [|sec t r].
  - destruct e; try discriminate EG.
    + injection EG as <-. rewrite forallb_app, HI. reflexivity.
    + destruct done; injection EG as <-; [exists h, []; auto|]. rewrite forallb_app, HI. reflexivity.
  - destruct HI as (h1 & h2 & -> & H1 & H2). assert (X : enables e = false /\ exists sec' t' r', g' = Active sec' t' r').
    { apply gnext_active in EG. destruct EG as [(-> & t' & r' & _ & _ & ->)|[(_ & EO & _ & t' & _ & ->)|(_ & EO & r' & _ & ->)]];
      (split; [try reflexivity; try (destruct e; try reflexivity; discriminate)|eauto]). }
    destruct X as [X (sec' & t' & r' & ->)]. exists h1, (h2 ++ [e]). split; [rewrite <- app_assoc; reflexivity|]. split; [exact H1|].
    rewrite existsb_app, H2. cbn. rewrite X. reflexivity.
Qed.
Theorem enabled h : history S h -> enabled_first h.
Proof.
  intros ([g l] & HA). assert (H := enabled_snoc _ _ HA). cbn [fst] in H. destruct g as [|sec t r]; [apply still_enabling; exact H|].
  destruct H as (h1 & h2 & -> & H1 & H2). apply has_enabled; assumption.
Qed.

(** ** C73 *)
Lemma decide_wants buf q : octets buf -> decide S buf = Some (true, q) -> wants_ack S buf.
Proof.
  intros HO. destruct OK as (HDV & _ & HW & _). unfold decide. destruct (holds_cases dv buf HO) as [(o & b & r & HH & HA)|HN].
  - destruct (rx_decide_accepts P cfg dv (s_hw S) buf o b r HDV HO HW HH HA) as [H1 H2].
    assert (HOb : octets b) by (destruct HH as (n & _ & ->); apply window_octets, HO).
    destruct (delivered_dec P cfg (s_hw S) r b HOb HW HA) as [HD|HD].
    + destruct (H1 HD) as (a & E & HK). rewrite E. intros [= -> _]. exists o, b, r. split; [exact HH|]. split; [exact HD|]. apply HK. reflexivity.
    + rewrite (H2 HD). discriminate.
  - rewrite (rx_decide_rejects P cfg dv (s_hw S) buf HDV HO HN). discriminate.
Qed.
(** the decision kept in the state is the right one *)
Definition decided_ok (x : both) : Prop :=
  match fst x with Enabling => True | Active _ _ r => match r_control r with RDeliver buf d => octets buf /\ decide S buf = Some d | _ => True end end.
Ltac rx_split E :=
  repeat match type of E with
    | (if ?x then _ else _) = _ => destruct x eqn:?; try discriminate
    | match ?x with _ => _ end = _ => destruct x eqn:?; try discriminate
    | Some (mkRxState (if ?x then _ else _) _ _) = _ => destruct x eqn:?; try discriminate
    | Some (mkRxState (match ?x with _ => _ end) _ _) = _ => destruct x eqn:?; try discriminate
    end.
Ltac rx_cases E e c :=
  destruct e; cbn [rx_next] in E; try discriminate; try (match goal with t : task |- _ => destruct t; try discriminate end);
  try (match goal with x : cell |- _ => destruct x; try discriminate end); try (destruct c; try discriminate); rx_split E; injection E as <-.
Lemma decided_accepts h x : accepts S both_start h = Some x -> decided_ok x.
Proof.
  revert h x. apply (accepts_ind S (fun _ x => decided_ok x)); [exact I|].
  intros h [g l] e y _ HI HN. apply both_next_inv in HN. destruct HN as (g' & l' & -> & EG & EL). unfold decided_ok in *. cbn [fst] in *. destruct g as [|sec t r].
  - apply gnext_enabling in EG. destruct EG as [_ [->| ->]]; exact I.
  - assert (X : forall r', rx_next S r e = Some r' -> match r_control r' with RDeliver buf d => octets buf /\ decide S buf = Some d | _ => True end).
    { intros r' ER. destruct r as [c held busy]. destruct (match r_control r' with RDeliver _ _ => true | _ => false end) eqn:EK; [|destruct (r_control r'); try exact I; discriminate].
      destruct e; cbn [rx_next] in ER; try discriminate; try (match goal with t : task |- _ => destruct t; try discriminate end);
        try (match goal with x : cell |- _ => destruct x; try discriminate end).
      all: try (injection ER as <-; exact HI). all: destruct c; try discriminate; rx_split ER; injection ER as <-; try discriminate EK.
      cbn [r_control]. destruct l as [lk lh ls]. cbn [law_next] in EL. destruct (buffer_okb l0) eqn:EB; [|discriminate]. split; [|assumption].
      unfold buffer_okb in EB. apply andb_prop in EB. destruct EB as [_ EB]. apply Forall_forall. intros x HX. rewrite forallb_forall in EB. apply N.ltb_lt. exact (EB x HX). }
    apply gnext_active in EG. destruct EG as [(-> & t' & r' & _ & ER & ->)|[(_ & EO & _ & t' & _ & ->)|(_ & EO & r' & ER & ->)]]; [exact (X _ ER)|exact HI|exact (X _ ER)].
Qed.
(** While [f] is being handed over: the guard is given back, or an acknowledgement is wanted. *)
Definition yields (f : FrameBuffer) (r : rxstate) : Prop :=
  wants_ack S (fb_buffer f) \/ r_control r = RFree \/ (r_control r = RDone /\ r_held r = false).
Lemma yields_step f r e r' : yields f r -> rx_next S r e = Some r' -> e <> Woken Rx -> yields f r'.
Proof.
  intros [H|H] E NW; [left; exact H|]. right. destruct r as [c held busy]. cbn [r_control r_held] in *.
  destruct H as [-> | [-> ->]]; (destruct e; cbn [rx_next] in E; try discriminate; try (match goal with t : task |- _ => destruct t; try discriminate; try congruence end);
    try (match goal with x : cell |- _ => destruct x; try discriminate end); rx_split E; injection E as <-; cbn; auto).
Qed.
Lemma yields_accepts f h : forall sec t r l y, yields f r -> ~ In (Woken Rx) h -> accepts S (Active sec t r, l) h = Some y ->
  exists sec' t' r' l', y = (Active sec' t' r', l') /\ yields f r'.
Proof.
  induction h as [|e h IH]; intros sec t r l y HY HN HA; cbn in HA.
  - injection HA as <-. do 4 eexists. split; [reflexivity|exact HY].
  - destruct (both_next S _ e) as [z|] eqn:E; [|discriminate]. apply both_next_inv in E. destruct E as (g' & l' & -> & EG & EL).
    assert (NW : e <> Woken Rx) by (intros ->; apply HN; left; reflexivity). assert (HN' : ~ In (Woken Rx) h) by (intros X; apply HN; right; exact X).
    apply gnext_active in EG. destruct EG as [(-> & t' & r' & ET & ER & ->)|[(NP & EO & -> & t' & ET & ->)|(NP & EO & r' & ER & ->)]];
      (eapply IH; [|exact HN'|exact HA]); [|exact HY|]; eapply yields_step; eassumption.
Qed.
Theorem radio_free_while_handing f h1 h2 : history S ((h1 ++ Received f :: h2) ++ [Polled]) -> ~ In (Woken Rx) h2 ->
  cells (h1 ++ Received f :: h2) RxGuard = true -> wants_ack S (fb_buffer f).
Proof.
  intros HH HN HC. destruct (at_rest S _ HH) as (g & l & HA & HG & _ & HR). assert (HX : history S (h1 ++ Received f :: h2)) by (eexists; exact HA).
  destruct (history_split S _ _ _ HX) as (g0 & l0 & g1 & l1 & HA0 & _ & EG & EL & y & HY). assert (HD := decided_accepts _ _ HA0).
  destruct g0 as [|sec0 t0 r0]; [discriminate EG|]. apply gnext_active in EG. destruct EG as [(X & _)|[(_ & X & _)|(_ & _ & r1 & ER & ->)]]; [discriminate..|].
  assert (Y1 : yields f r1).
  { unfold decided_ok in HD. cbn [fst] in HD. destruct r0 as [c0 h0 b0]. cbn [rx_next r_control] in *. destruct c0; try discriminate.
    destruct HD as [HO HD]. destruct (octets_dec (fb_buffer f) buf) as [<-|]; [|discriminate]. destruct (fb_dirty f); [|discriminate].
    destruct d as [[|] q]; [left; exact (decide_wants _ _ HO HD)|]. injection ER as <-. right. left. reflexivity. }
  destruct (yields_accepts f h2 _ _ _ _ _ Y1 HN HY) as (sec' & t' & r' & l' & -> & Y).
  assert (E : accepts S both_start (h1 ++ Received f :: h2) = Some (Active sec' t' r', l')).
  { rewrite accepts_app, HA0. cbn [accepts]. unfold both_next. cbn [fst snd]. rewrite (gnext_rx S) with (2 := ER) by discriminate. rewrite EL. exact HY. }
  rewrite E in HA. injection HA as <- <-. destruct t' as [[m gd] rq]. destruct (cells_guards S _ _ _ _ _ _ _ E) as (_ & _ & C & _). rewrite C in HC. destruct HR as [_ HR].
  destruct Y as [Y|[Y|[_ Y]]]; [exact Y|rewrite Y in HR; destruct HR|congruence].
Qed.

(** ** C74 *)
(** The transmit task has no chance to receive: it must lock and transmit first. *)
Definition lost (t : txstate) : Prop :=
  let '(m, g, _) := t in match m with SentFrame _ _ _ | Listening _ _ _ => g_tx g || g_ack g = false | _ => True end.
Lemma lost_step t e t' : lost t -> tx_next S t e = Some t' -> e <> Transmit Tx (Some true) -> lost t'.
Proof.
  intros HL E NE. destruct t as [[m g] rq]. destruct t' as [[m' g'] rq']. assert (HC := tx_cells S _ _ _ _ _ _ _ E). unfold tx_next in E.
  destruct (course_next S m e) as [m2|] eqn:EC; [|discriminate]. destruct (guards_next g e) as [g2|] eqn:EG; [|discriminate]. destruct (request_next rq e) as [rq2|]; [|discriminate].
  injection E as -> -> ->. unfold lost in *.
  assert (KEEP : forall i b s, m = SentFrame i b s \/ m = Listening i b s -> g_tx g' || g_ack g' = false).
  { intros i b s HM. assert (HF : g_tx g || g_ack g = false) by (destruct HM as [-> | ->]; exact HL). apply orb_false_elim in HF. destruct HF as [F1 F2].
    destruct e; try (destruct HC as [-> ->]; rewrite F1, F2; reflexivity).
    - destruct HC.
    - exfalso. destruct HM as [-> | ->]; discriminate EC.
    - destruct HC as [(_ & -> & ->)|(_ & -> & ->)]; rewrite ?F1, ?F2; reflexivity.
    - destruct HC as (_ & _ & X & _). congruence. }
  destruct m'; try exact I.
  - (* SentFrame *) destruct e; cbn [course_next] in EC; try (apply (KEEP i b s); left; congruence).
    + destruct m; try discriminate. destruct (txconfig_dec _ _); [|discriminate]. destruct (octets_dec _ _); [|discriminate]. destruct done; discriminate.
    + destruct m; try discriminate. destruct sent as [[|]|]; try discriminate. exfalso. apply NE. destruct t; [reflexivity|discriminate EG].
    + destruct m; try discriminate. destruct (rxconfig_dec _ _); discriminate.
    + destruct m; try discriminate. destruct r as [r|]; [destruct (is_ack S s0 r)|]; discriminate.
    + destruct m; discriminate.
    + destruct m; discriminate.
    + destruct m; try discriminate. destruct r; [unfold begin in EC; destruct (plan S (fb_buffer f)) as [[? ?] [|? ?]]|]; discriminate.
    + destruct m; try discriminate; repeat match type of EC with (if ?x then _ else _) = _ => destruct x; try discriminate | match ?x with _ => _ end = _ => destruct x; try discriminate end.
    + destruct m; try discriminate; destruct (Z.eq_dec _ _); discriminate.
    + destruct m; try discriminate; destruct done; discriminate.
  - (* Listening *) destruct e; cbn [course_next] in EC; try (apply (KEEP i b s); right; congruence).
    + destruct m; try discriminate. destruct (txconfig_dec _ _); [|discriminate]. destruct (octets_dec _ _); [|discriminate]. destruct done; discriminate.
    + destruct m; try discriminate. destruct sent as [[|]|]; try discriminate. destruct q; discriminate.
    + destruct m; try discriminate. destruct (rxconfig_dec _ _); [|discriminate]. injection EC as -> -> ->. apply (KEEP i b s). right. reflexivity.
    + destruct m; try discriminate. destruct r as [r|]; [destruct (is_ack S s0 r); [discriminate|]|]; injection EC as -> -> ->; apply (KEEP i b s); right; reflexivity.
    + destruct m; discriminate.
    + destruct m; discriminate.
    + destruct m; try discriminate. destruct r; [unfold begin in EC; destruct (plan S (fb_buffer f)) as [[? ?] [|? ?]]|]; discriminate.
    + destruct m; try discriminate; repeat match type of EC with (if ?x then _ else _) = _ => destruct x; try discriminate | match ?x with _ => _ end = _ => destruct x; try discriminate end.
    + destruct m; try discriminate; destruct (Z.eq_dec _ _); try discriminate. injection EC as -> -> ->. apply (KEEP i b s). left. reflexivity.
    + destruct m; try discriminate; destruct done; try discriminate. injection EC as -> -> ->. apply (KEEP i b s). right. reflexivity.
Qed.
Lemma lost_accepts h : forall sec t r l y, lost t -> ~ In (Transmit Tx (Some true)) h -> accepts S (Active sec t r, l) h = Some y ->
  exists sec' t' r' l', y = (Active sec' t' r', l') /\ lost t'.
Proof.
  induction h as [|e h IH]; intros sec t r l y HL HN HA; cbn in HA.
  - injection HA as <-. do 4 eexists. split; [reflexivity|exact HL].
  - destruct (both_next S _ e) as [z|] eqn:E; [|discriminate]. apply both_next_inv in E. destruct E as (g' & l' & -> & EG & EL).
    assert (NW : e <> Transmit Tx (Some true)) by (intros ->; apply HN; left; reflexivity). assert (HN' : ~ In (Transmit Tx (Some true)) h) by (intros X; apply HN; right; exact X).
    apply gnext_active in EG. destruct EG as [(-> & t' & r' & ET & ER & ->)|[(NP & EO & -> & t' & ET & ->)|(NP & EO & r' & ER & ->)]];
      (eapply IH; [|exact HN'|exact HA]); [| |exact HL]; eapply lost_step; eassumption.
Qed.
Lemma lost_dec t : lost t \/ (g_tx (snd (fst t)) = true \/ g_ack (snd (fst t)) = true).
Proof.
  destruct t as [[m g] rq]. cbn [fst snd lost]. destruct (g_tx g) eqn:E1; [auto|]. destruct (g_ack g) eqn:E2; [auto|]. left. destruct m; try exact I; reflexivity.
Qed.
Theorem quiet_before_ack h1 h2 r h3 : history S (h1 ++ Transmit Tx (Some true) :: h2 ++ Receive Tx r :: h3) -> ~ In (Transmit Tx (Some true)) h2 ->
  forall e, In e h2 -> uses_radio e <> Some Rx.
Proof.
  intros HH HN e HI HU. apply in_split in HI. destruct HI as (ha & hb & ->).
  assert (H1 : history S ((h1 ++ Transmit Tx (Some true) :: ha) ++ e :: hb ++ Receive Tx r :: h3)).
  { rewrite <- app_assoc in HH |- *. cbn [app] in HH |- *. exact HH. }
  destruct (radio_guarded S _ _ _ _ H1 HU) as (c & HC & HX). cbn [cell_of] in HC. subst c.
  destruct (history_split S _ _ _ H1) as (g & l & g' & l' & HA & HG & EG & EL & y & HY).
  destruct g as [|sec [[m gd] rq] rx]; [apply gnext_enabling in EG; destruct EG as [X _]; apply uses_owner in HU; congruence|].
  destruct (cells_guards S _ _ _ _ _ _ _ HA) as (C1 & C2 & C3 & _).
  destruct (lost_dec (m, gd, rq)) as [HL|HL]; cbn [fst snd] in HL.
  - assert (HT : accepts S (Active sec (m, gd, rq) rx, l) ((e :: hb) ++ Receive Tx r :: h3) = Some y).
    { cbn [app accepts]. unfold both_next. cbn [fst snd]. rewrite EG, EL. exact HY. }
    destruct (accepted_prefix S _ _ _ _ HT) as (z & HZ & HZ2).
    assert (HN2 : ~ In (Transmit Tx (Some true)) (e :: hb)) by (intros X; apply HN; apply in_or_app; right; exact X).
    destruct (lost_accepts (e :: hb) _ _ _ _ _ HL HN2 HZ) as (sec2 & [[m2 gd2] rq2] & r2 & l2 & -> & HL2).
    cbn [accepts] in HZ2. destruct (both_next S _ (Receive Tx r)) as [z2|] eqn:E2; [|discriminate]. apply both_next_inv in E2. destruct E2 as (g3 & l3 & -> & EG3 & _).
    apply gnext_active in EG3. destruct EG3 as [(X & _)|[(_ & _ & _ & t3 & ET & _)|(_ & X & _)]]; [discriminate| |discriminate].
    assert (HM : exists i b s, m2 = Listening i b s).
    { unfold tx_next in ET. destruct (course_next S m2 (Receive Tx r)) eqn:EC; [|discriminate]. destruct m2; try discriminate EC. eauto. }
    destruct HM as (i & b & s & ->). cbn [lost] in HL2. apply orb_false_elim in HL2. destruct HL2 as [F1 F2].
    destruct (tx_guarded S _ _ _ _ _ ET) as [X|X]; [discriminate|congruence|congruence].
  - assert (cells (h1 ++ Transmit Tx (Some true) :: ha) TxGuard = true \/ cells (h1 ++ Transmit Tx (Some true) :: ha) AckGuard = true) as [X|X] by (rewrite C1, C2; exact HL);
      apply HX in X; discriminate.
Qed.

(** Between a reception and its acknowledgement the receive task holds the guard. *)
Definition answering (r : rxstate) : bool :=
  r_held r && match r_control r with RDeliver _ (true, Some _) | RAck _ | RAckDelay _ | RAckSend _ | RAckPrepare _ | RAckAir _ => true | _ => false end.
Lemma answering_step r e r' : answering r = true -> rx_next S r e = Some r' -> (forall x, e <> Transmit Rx (Some x)) -> answering r' = true.
Proof.
  intros H E NE. destruct r as [c held busy]. unfold answering in H. cbn [r_held r_control] in H. apply andb_prop in H. destruct H as [-> H].
  destruct e; cbn [rx_next] in E; try discriminate; try (match goal with t : task |- _ => destruct t; try discriminate end);
    try (match goal with x : cell |- _ => destruct x; try discriminate end); try (injection E as <-; exact H);
    destruct c; try discriminate; rx_split E; try (injection E as <-; try reflexivity; try discriminate H; try exact H); try (exfalso; eapply NE; reflexivity).
Qed.
Lemma answering_accepts h : forall sec t r l y, answering r = true -> (forall x, ~ In (Transmit Rx (Some x)) h) -> accepts S (Active sec t r, l) h = Some y ->
  exists sec' t' r' l', y = (Active sec' t' r', l') /\ answering r' = true.
Proof.
  induction h as [|e h IH]; intros sec t r l y HL HN HA; cbn in HA.
  - injection HA as <-. do 4 eexists. split; [reflexivity|exact HL].
  - destruct (both_next S _ e) as [z|] eqn:E; [|discriminate]. apply both_next_inv in E. destruct E as (g' & l' & -> & EG & EL).
    assert (NW : forall x, e <> Transmit Rx (Some x)) by (intros x ->; apply (HN x); left; reflexivity). assert (HN' : forall x, ~ In (Transmit Rx (Some x)) h) by (intros x X; apply (HN x); right; exact X).
    apply gnext_active in EG. destruct EG as [(-> & t' & r' & ET & ER & ->)|[(NP & EO & -> & t' & ET & ->)|(NP & EO & r' & ER & ->)]];
      (eapply IH; [|exact HN'|exact HA]); [|exact HL|]; eapply answering_step; eassumption.
Qed.
Theorem quiet_before_answer h1 buf s h2 : history S (h1 ++ Receive Rx (Some (true, buf)) :: h2) -> acked_with S buf s ->
  (forall x, ~ In (Transmit Rx (Some x)) h2) -> forall e, In e h2 -> uses_radio e <> Some Tx.
Proof.
  intros HH HW HN e HI HU. apply in_split in HI. destruct HI as (ha & hb & ->).
  assert (H1 : history S ((h1 ++ Receive Rx (Some (true, buf)) :: ha) ++ e :: hb)) by (rewrite <- app_assoc; exact HH).
  destruct (radio_guarded S _ _ _ _ H1 HU) as (c & HC & HX). cbn [cell_of] in HC.
  destruct (history_split S _ _ _ HH) as (g & l & g' & l' & HA & HG & EG & EL & y & HY). destruct g as [|sec t r]; [discriminate EG|].
  apply gnext_active in EG. destruct EG as [(X & _)|[(_ & X & _)|(_ & _ & r1 & ER & ->)]]; [discriminate..|].
  assert (HR : answering r1 = true).
  { destruct l as [lk lh ls]. cbn [law_next] in EL. destruct (buffer_okb buf) eqn:EB; [|discriminate].
    assert (HO : octets buf).
    { unfold buffer_okb in EB. apply andb_prop in EB. destruct EB as [_ EB]. apply Forall_forall. intros x Hx. rewrite forallb_forall in EB. apply N.ltb_lt. exact (EB x Hx). }
    destruct (decide_spec S OK buf HO) as [D1 D2]. destruct r as [c0 held busy]. cbn [rx_next] in ER. destruct c0; try discriminate. destruct (held && busy) eqn:EH; [|discriminate].
    apply andb_prop in EH. destruct EH as [-> _]. injection ER as <-. unfold answering. cbn [r_held r_control]. destruct (decide S buf) as [[a q]|] eqn:ED.
    - destruct (D2 a q eq_refl) as [_ D3]. apply D3 in HW. destruct HW as [-> ->]. reflexivity.
    - exfalso. apply (D1 eq_refl). destruct HW as (o & b & r & X1 & X2 & _). exists o, b, r. auto. }
  destruct (accepted_prefix S _ _ _ _ HY) as (z & HZ & _).
  assert (HN2 : forall x, ~ In (Transmit Rx (Some x)) ha) by (intros x X; apply (HN x); apply in_or_app; left; exact X).
  destruct (answering_accepts ha _ _ _ _ _ HR HN2 HZ) as (sec2 & [[m2 gd2] rq2] & r2 & l2 & -> & HR2).
  assert (E : accepts S both_start (h1 ++ Receive Rx (Some (true, buf)) :: ha) = Some (Active sec2 (m2, gd2, rq2) r2, l2)).
  { rewrite accepts_app, HA. cbn [accepts]. unfold both_next. cbn [fst snd]. rewrite (gnext_rx S) with (2 := ER) by discriminate. rewrite EL. exact HZ. }
  destruct (cells_guards S _ _ _ _ _ _ _ E) as (_ & _ & C & _). unfold answering in HR2. apply andb_prop in HR2. destruct HR2 as [HR2 _].
  assert (X : RxGuard = c) by (apply HX; congruence). subst c. destruct HC; discriminate.
Qed.
End Facts.
