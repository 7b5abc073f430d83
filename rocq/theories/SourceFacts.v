(** SourceFacts.v -- where the octets handed to the radio come from *)
From Coq Require Import Lia.
From Verif Require Import Base Spec PhyConfig Time Csma SpecCsma CsmaTasks CsmaWorld SpecTasks TaskLogic TxAutomaton RxAutomaton CsmaGlobal TxLog RxLog LockFacts.
From Verif Require Import Async.

Section Source.
Variable S : Setup.
Hypothesis OK : setup_ok S.

(** The last event of [h] that meets [f] is [e]. *)
Lemma last_such_snoc f h e : last_such f (h ++ [e]) = if f e then Some e else last_such f h.
Proof. unfold last_such. rewrite fold_left_app. reflexivity. Qed.

Definition takes (e : event) : bool := match e with NextFrame (Some _) => true | _ => false end.
Definition hears (e : event) : bool := match e with Receive Rx (Some _) => true | _ => false end.
Definition octets_of (m : course) : option (list N) :=
  match m with
  | Idle => None
  | Reports _ b _ | Attempt _ _ b _ | OnAir _ _ b _ | Busy _ _ b _ | Backoff _ _ b _ | Drawn _ _ _ b _ | BackingOff _ _ b _
  | SentFrame _ b _ | Listening _ b _ | Expired _ b _ | Pausing _ b _ | Judged _ b _ => Some b
  end.
Definition from_frame (h : list event) (b : list N) : Prop :=
  exists fb q es, last_such takes h = Some (NextFrame (Some fb)) /\ prepared S (fb_buffer fb) b q es.
Definition answers (h : list event) (s : N) : Prop :=
  exists buf, last_such hears h = Some (Receive Rx (Some (true, buf))) /\ acked_with S buf s.
Definition ctl_inv (h : list event) (c : control) : Prop :=
  match c with
  | RDeliver buf (a, q) => last_such hears h = Some (Receive Rx (Some (true, buf))) /\ forall s, a = true -> q = Some s -> acked_with S buf s
  | RAck s | RAckDelay s | RAckSend s | RAckPrepare s | RAckAir s => answers h s
  | _ => True
  end.
Definition src_inv (h : list event) (x : both) : Prop :=
  match fst x with
  | Enabling => True
  | Active _ (m, _, _) r => (forall b, octets_of m = Some b -> from_frame h b) /\ ctl_inv h (r_control r)
  end.
Lemma from_frame_snoc h e b : takes e = false -> from_frame h b -> from_frame (h ++ [e]) b.
Proof. intros HT (fb & q & es & HL & HP). exists fb, q, es. rewrite last_such_snoc, HT. auto. Qed.
Lemma ctl_snoc h e c : hears e = false -> ctl_inv h c -> ctl_inv (h ++ [e]) c.
Proof.
  intros HT. unfold ctl_inv, answers. destruct c; try exact (fun H => H); rewrite last_such_snoc, HT; auto.
Qed.
Lemma course_src m e m' h : course_next S m e = Some m' -> (forall f, e = NextFrame (Some f) -> octets (fb_buffer f)) ->
  (forall b, octets_of m = Some b -> from_frame h b) -> forall b, octets_of m' = Some b -> from_frame (h ++ [e]) b.
Proof.
  intros E HF HI b EB. destruct (takes e) eqn:ET.
  - destruct e; try discriminate. destruct r as [f|]; [|discriminate]. cbn [course_next] in E. destruct m; try discriminate. injection E as <-.
    unfold begin in EB. destruct (plan S (fb_buffer f)) as [[b0 q] es] eqn:EP. assert (HP := plan_prepared S OK _ _ _ _ (HF f eq_refl) EP).
    assert (b = b0) by (destruct es; cbn [octets_of] in EB; congruence). subst b0. exists f, q, es. rewrite last_such_snoc. auto.
  - apply from_frame_snoc; [exact ET|]. apply HI. clear HI HF.
    destruct e; cbn [course_next] in E; try discriminate ET;
      repeat match type of E with
      | context [match ?x with _ => _ end] => destruct x; try discriminate E
      end; injection E as <-; cbn [octets_of] in *; first [discriminate ET | congruence].
Qed.
Lemma control_src r e r' h : rx_next S r e = Some r' -> (forall t b, e = Receive t (Some b) -> octets (snd b)) ->
  ctl_inv h (r_control r) -> ctl_inv (h ++ [e]) (r_control r').
Proof.
  intros E HO HI. destruct r as [c held busy]. cbn [r_control] in HI. destruct (hears e) eqn:EH.
  - destruct e; try discriminate. destruct t; try discriminate. destruct r as [[ok buf]|]; try discriminate. cbn [rx_next] in E.
    destruct c; try discriminate. destruct (held && busy); [|discriminate]. destruct ok; injection E as <-; [|exact I].
    assert (HOb := HO Rx (true, buf) eq_refl). cbn [snd] in HOb. destruct (decide_spec S OK buf HOb) as [_ D]. cbn [r_control].
    destruct (decide S buf) as [[a q]|]; [|exact I]. cbn [ctl_inv]. rewrite last_such_snoc. split; [reflexivity|].
    intros s -> ->. apply (D _ _ eq_refl). auto.
  - assert (HS := ctl_snoc h e c EH HI). clear HI HO.
    destruct e; cbn [rx_next] in E; try discriminate E;
      repeat match type of E with
      | context [if ?x then _ else _] => destruct x; try discriminate E
      | context [match ?x with Tx => _ | Rx => _ end] => destruct x; try discriminate E
      | context [match ?x with RxGuard => _ | _ => _ end] => destruct x; try discriminate E
      | context [match ?x with Some _ => _ | None => _ end] => destruct x; try discriminate E
      | context [match ?x with RYield => _ | _ => _ end] => destruct x; try discriminate E
      | context [match ?x with (_, _) => _ end] => destruct x; try discriminate E
      end; injection E as <-; cbn [r_control ctl_inv] in *; try exact I; try exact HS; try discriminate EH.
    all: try (destruct HS as [HL HA]; exists buf; split; [exact HL|]; apply HA; reflexivity).
Qed.
Lemma src_accepts h x : accepts S both_start h = Some x -> src_inv h x.
Proof.
  apply accepts_ind; [exact I|]. clear h x. intros h [g l] e y _ HI HN. apply both_next_inv in HN. destruct HN as (g' & l' & -> & EG & EL).
  unfold src_inv in *. cbn [fst] in *. destruct (law_facts _ _ _ EL) as (F1 & _ & F3). destruct g as [|sec [[m gd] rq] r].
  - apply gnext_enabling in EG. destruct EG as [EO [-> | ->]]; [exact I|]. split; [discriminate|exact I].
  - destruct HI as [HI HC].
    apply gnext_active in EG. destruct EG as [(-> & [[m' gd'] rq'] & r' & ET & ER & ->)|[(NP & EO & -> & [[m' gd'] rq'] & ET & ->)|(NP & EO & r' & ER & ->)]].
    + unfold tx_next in ET. destruct (course_next S m Polled) as [m2|] eqn:EC; [|discriminate]. destruct (guards_next gd Polled); [|discriminate].
      destruct (request_next rq Polled); [|discriminate]. injection ET as <- _ _. split; [eapply course_src; eassumption|eapply control_src; eassumption].
    + unfold tx_next in ET. destruct (course_next S m e) as [m2|] eqn:EC; [|discriminate]. destruct (guards_next gd e); [|discriminate].
      destruct (request_next rq e); [|discriminate]. injection ET as <- _ _. split; [eapply course_src; eassumption|].
      apply ctl_snoc; [|exact HC]. destruct e; try reflexivity. destruct t; [reflexivity|discriminate EO].
    + split; [|eapply control_src; eassumption]. intros b EB. apply from_frame_snoc; [|apply HI; exact EB]. destruct e; try reflexivity. discriminate EO.
Qed.

Lemma sends_frame p w h1 c b d h2 : reachable S p w -> w_hist w = h1 ++ PrepareTx Tx c b d :: h2 -> from_frame h1 b.
Proof.
  intros HR E. assert (HH := reachable_history S OK p w HR). rewrite E in HH. destruct (history_split S _ _ _ HH) as (g & l & g' & l' & HA & _ & EG & _).
  assert (HI := src_accepts _ _ HA). unfold src_inv in HI. cbn [fst] in HI. destruct g as [|sec [[m gd] rq] r].
  - apply gnext_enabling in EG. destruct EG as [EO _]. discriminate EO.
  - destruct HI as [HI _]. apply gnext_active in EG. destruct EG as [(X & _)|[(_ & _ & _ & [[m' gd'] rq'] & ET & _)|(_ & X & _)]]; [discriminate X| |discriminate X].
    unfold tx_next in ET. destruct (course_next S m (PrepareTx Tx c b d)) as [m2|] eqn:EC; [|discriminate]. cbn [course_next] in EC.
    destruct m; try discriminate. destruct (txconfig_dec c (cca_config S)); [|discriminate]. destruct (octets_dec b b0) as [->|]; [|discriminate].
    apply HI. reflexivity.
Qed.
Lemma sends_ack p w h1 c b d h2 : reachable S p w -> w_hist w = h1 ++ PrepareTx Rx c b d :: h2 -> exists s, answers h1 s /\ b = ack_octets S s.
Proof.
  intros HR E. assert (HH := reachable_history S OK p w HR). rewrite E in HH. destruct (history_split S _ _ _ HH) as (g & l & g' & l' & HA & _ & EG & _).
  assert (HI := src_accepts _ _ HA). unfold src_inv in HI. cbn [fst] in HI. destruct g as [|sec [[m gd] rq] [cc held busy]].
  - apply gnext_enabling in EG. destruct EG as [EO _]. discriminate EO.
  - destruct HI as [_ HI]. apply gnext_active in EG. destruct EG as [(X & _)|[(_ & X & _)|(_ & _ & r' & ER & _)]]; [discriminate X|discriminate X|].
    cbn [rx_next] in ER. destruct cc; try discriminate. destruct (txconfig_dec c (ack_config S)); [|discriminate].
    destruct (octets_dec b (ack_octets S s)) as [->|]; [|discriminate]. exists s. split; [exact HI|reflexivity].
Qed.
End Source.
