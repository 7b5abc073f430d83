(** LinkFacts.v -- two running devices and a medium between them *)
From Coq Require Import Lia.
From Verif Require Import Base BaseProofs Spec SpecFrame FrameControl Addressing SpecAddressing Frames SpecFrames FramesProofs PhyConfig Time Csma SpecCsma CsmaProofs CsmaTasks CsmaWorld
  TaskLogic SpecTasks TxAutomaton RxAutomaton CsmaGlobal TxLog RxLog TxFacts LockFacts SourceFacts PropCsma SpecExchange ExchangeProofs PropExchange PropPrepared PropSource PropTasks.
From Verif Require Import Async.
From Verif Require Import SpecLink.

(** ** Copies *)
Lemma copies_in {A B} (R : A -> B -> Prop) sent got b : copies R sent got -> In b got -> exists a, In a sent /\ R a b.
Proof.
  intros H. induction H as [|a b' sent got HR H IH|a sent got H IH]; intros HI; [destruct HI| |].
  - destruct HI as [<-|HI]; [exists a; split; [left; reflexivity|exact HR]|]. destruct (IH HI) as (x & HX & HY). exists x. split; [right; exact HX|exact HY].
  - destruct (IH HI) as (x & HX & HY). exists x. split; [right; exact HX|exact HY].
Qed.
(** some of them, in order *)
Inductive part {A} : list A -> list A -> Prop :=
| part_nil : part [] []
| part_keep a l l' : part l l' -> part (a :: l) (a :: l')
| part_drop a l l' : part l l' -> part (a :: l) l'.
Lemma copies_part {A B} (R : A -> B -> Prop) sent got got' : copies R sent got -> part got got' -> copies R sent got'.
Proof.
  intros H. revert got'. induction H as [|a b sent got HR H IH|a sent got H IH]; intros got' HP.
  - inversion HP; subst. constructor.
  - inversion HP; subst; [constructor; auto|apply copies_lost; auto].
  - apply copies_lost. auto.
Qed.
Lemma part_nil_r {A} (l : list A) : part l [].
Proof. induction l; constructor; auto. Qed.
Lemma part_app {A} (l : list A) l' m m' : part l l' -> part m m' -> part (l ++ m) (l' ++ m').
Proof. intros H HM. induction H; cbn; try constructor; auto. Qed.
Lemma copies_filter {A B} (R : A -> B -> Prop) (f : A -> bool) sent got : copies R sent got ->
  (forall a b, In b got -> R a b -> In a sent -> f a = true) -> copies R (filter f sent) got.
Proof.
  intros H. induction H as [|a b sent got HR H IH|a sent got H IH]; intros HF; cbn.
  - constructor.
  - rewrite (HF a b) by (auto; left; reflexivity). constructor; [exact HR|]. apply IH. intros x y Hy HX HI. apply (HF x y); auto; right; assumption.
  - assert (X : copies R (filter f sent) got) by (apply IH; intros x y Hy HX HI; apply (HF x y); auto; right; assumption).
    destruct (f a); [apply copies_lost; exact X|exact X].
Qed.
Lemma copies_length {A B} (R : A -> B -> Prop) sent got : copies R sent got -> length got <= length sent.
Proof. intros H. induction H; cbn; lia. Qed.
Lemma copies_map {A B C} (R : B -> C -> Prop) (f : A -> B) (l : list A) got : copies R (map f l) got -> copies (fun a => R (f a)) l got.
Proof.
  revert got. induction l as [|a l IH]; intros got H; inversion H; subst; constructor; auto.
Qed.

(** ** Interleavings *)
Lemma of_side_app x l l' : of_side x (l ++ l') = of_side x l ++ of_side x l'.
Proof. unfold of_side. rewrite filter_app, map_app. reflexivity. Qed.
Lemma of_side_split x l : forall h1 e h2, of_side x l = h1 ++ e :: h2 ->
  exists l1 l2, l = l1 ++ (x, e) :: l2 /\ of_side x l1 = h1 /\ of_side x l2 = h2.
Proof.
  induction l as [|[y f] l IH]; intros h1 e h2 E; [destruct h1; discriminate|].
  unfold of_side in E. cbn [filter fst] in E. destruct (side_eqb x y) eqn:EX.
  - assert (y = x) by (destruct x, y; congruence || discriminate). subst y. cbn [map snd] in E. destruct h1 as [|g h1]; cbn in E; injection E as -> E.
    + exists [], l. split; [reflexivity|]. split; [reflexivity|exact E].
    + destruct (IH h1 e h2 E) as (l1 & l2 & -> & H1 & H2). exists ((x, g) :: l1), l2. split; [reflexivity|]. split; [|exact H2].
      unfold of_side in *. cbn [filter fst]. rewrite EX. cbn. rewrite H1. reflexivity.
  - destruct (IH h1 e h2 E) as (l1 & l2 & -> & H1 & H2). exists ((y, f) :: l1), l2. split; [reflexivity|]. split; [|exact H2].
    unfold of_side in *. cbn [filter fst]. rewrite EX. exact H1.
Qed.

(** ** What was sent and heard *)
(** [aired] with the task that sent *)
Fixpoint sent_from (tx rx : option (list N)) (h : list event) : list (task * list N) :=
  match h with
  | [] => []
  | PrepareTx Tx _ b _ :: h => sent_from (Some b) rx h
  | PrepareTx Rx _ b _ :: h => sent_from tx (Some b) h
  | Transmit t (Some true) :: h =>
      match (match t with Tx => tx | Rx => rx end) with
      | Some b => (t, b) :: sent_from tx rx h
      | None => sent_from tx rx h
      end
  | _ :: h => sent_from tx rx h
  end.
Lemma aired_sent h : forall tx rx, aired_from tx rx h = map snd (sent_from tx rx h).
Proof.
  induction h as [|e h IH]; intros tx rx; [reflexivity|]. cbn [aired_from sent_from]. destruct e; try apply IH.
  - destruct t; apply IH.
  - destruct sent as [[|]|]; try apply IH. destruct (match t with Tx => tx | Rx => rx end); [cbn; rewrite IH; reflexivity|apply IH].
Qed.
Lemma sent_in h : forall tx rx t b, In (t, b) (sent_from tx rx h) ->
  (match t with Tx => tx | Rx => rx end) = Some b \/ exists h1 c d h2, h = h1 ++ PrepareTx t c b d :: h2.
Proof.
  induction h as [|e h IH]; intros tx rx t b HI; [destruct HI|].
  assert (X : forall tx' rx', In (t, b) (sent_from tx' rx' h) ->
     ((match t with Tx => tx' | Rx => rx' end) = Some b -> (match t with Tx => tx | Rx => rx end) = Some b \/ exists c d, e = PrepareTx t c b d) ->
     (match t with Tx => tx | Rx => rx end) = Some b \/ exists h1 c d h2, e :: h = h1 ++ PrepareTx t c b d :: h2).
  { intros tx' rx' HI' K. destruct (IH _ _ _ _ HI') as [E|(h1 & c & d & h2 & ->)].
    - destruct (K E) as [E'|(c & d & ->)]; [left; exact E'|right; exists [], c, d, h; reflexivity].
    - right. exists (e :: h1), c, d, h2. reflexivity. }
  cbn [sent_from] in HI. destruct e; try (apply (X tx rx HI); auto).
  - destruct t0; [apply (X _ _ HI)|apply (X _ _ HI)]; destruct t; intros E; try (left; exact E); right; injection E as <-; eauto.
  - destruct sent as [[|]|]; try (apply (X tx rx HI); auto). destruct (match t0 with Tx => tx | Rx => rx end) as [b'|] eqn:ET; [|apply (X tx rx HI); auto].
    destruct HI as [[= -> ->]|HI]; [left; exact ET|apply (X tx rx HI); auto].
Qed.
Lemma aired_prepared h b : In b (aired h) -> exists t h1 c d h2, h = h1 ++ PrepareTx t c b d :: h2 /\ In (t, b) (sent_from None None h).
Proof.
  unfold aired. rewrite aired_sent. intros HI. apply in_map_iff in HI. destruct HI as ([t b'] & E & HI). cbn in E. subst b'.
  destruct (sent_in _ _ _ _ _ HI) as [E|(h1 & c & d & h2 & E)]; [destruct t; discriminate|]. exists t, h1, c, d, h2. auto.
Qed.
Lemma heard_app h h' : heard (h ++ h') = heard h ++ heard h'.
Proof. induction h as [|e h IH]; [reflexivity|]. cbn. destruct e; try exact IH. destruct r as [[[|] buf]|]; try exact IH. cbn. rewrite IH. reflexivity. Qed.

(** ** Frames of devices *)
Section Device.
Variable S : Setup.
Hypothesis OK : setup_ok S.
Notation dv := (s_device S).
Hypothesis ST : steady dv.
Hypothesis SW : shows_written dv.

Lemma sequence_octet b r s : octets b -> sequence_number r b = Some s -> octet s.
Proof.
  unfold sequence_number, seq_octets. intros HO HS. destruct (fr_sequence_number_suppression r); [discriminate|].
  apply nth_error_In in HS. eapply Forall_forall; [exact HO|]. rewrite <- (firstn_skipn 2 b). apply in_or_app. right.
  rewrite <- (firstn_skipn 1 (skipn 2 b)). apply in_or_app. left. exact HS.
Qed.
Lemma holds_octets buf o b : octets buf -> holds dv buf o b -> octets b.
Proof. intros HO (n & _ & ->). unfold window. apply octets_firstn. apply octets_skipn. exact HO. Qed.
(** the acknowledgement of [s] *)
Lemma ack_frame s : octet s -> exists o rest, holds dv (ack_octets S s) o ([2; 16; s]%N ++ rest) /\ acceptable ([2; 16; s]%N ++ rest) imm_ack_control.
Proof.
  intros HS. assert (HL : length (dev_header dv 3) + 3 <= 128) by apply OK. set (z := repeat 0%N (128 - (length (dev_header dv 3) + 3))).
  destruct (SW 3 [2; 16; s]%N z ltac:(lia) eq_refl) as (m & EM & HM).
  { rewrite !app_length. unfold z. rewrite repeat_length. cbn [length]. lia. }
  exists (length (dev_header dv 3)), (firstn (m - 3) z).
  assert (LE : length ([2; 16; s]%N ++ firstn (m - 3) z) <= 127) by (rewrite app_length, firstn_length; cbn [length]; lia).
  split; [|exact (ack_acceptable s _ HS LE)]. exists m. split; [exact EM|].
  unfold ack_octets, window. fold z. rewrite skipn_app, skipn_all, Nat.sub_diag. cbn [app skipn].
  destruct m as [|[|[|m]]]; try lia. cbn [firstn Nat.sub]. rewrite Nat.sub_0_r. reflexivity.
Qed.
(** editing a frame keeps its type and number *)
Lemma prepared_back buf b q es o w r : octets buf -> prepared S buf b q es -> holds dv b o w -> acceptable w r ->
  exists o0 w0 r0, holds dv buf o0 w0 /\ acceptable w0 r0 /\ fr_frame_type r0 = fr_frame_type r /\ sequence_number r0 w0 = sequence_number r w.
Proof.
  intros HO HP HH HA.
  assert (FR : forall o0 w0 r0, holds dv buf o0 w0 -> acceptable w0 r0 ->
    exists o0 w0 r0, holds dv buf o0 w0 /\ acceptable w0 r0 /\ fr_frame_type r0 = fr_frame_type r /\ sequence_number r0 w0 = sequence_number r w).
  { intros o0 w0 r0 HH0 HA0. destruct (C45_prepared_determined S buf OK HO) as (b1 & q1 & es1 & _ & U).
    destruct (sent (s_params S) (s_config S) dv buf o0 w0 r0) as (a & buf1 & buf2 & b' & ar & E1 & E2 & _ & _ & H1 & H2 & H3 & _); try assumption; try apply OK.
    assert (HP' : prepared S buf buf2 (match a with Some (s, _) => Some s | _ => None end) []).
    { apply (plan_prepared S OK); [exact HO|]. unfold plan. rewrite E1, E2. destruct a as [[? ?]|]; reflexivity. }
    destruct (U _ _ _ HP) as (-> & _). destruct (U _ _ _ HP') as (<- & _).
    destruct (holds_fun _ _ _ _ _ _ HH H1) as [_ ->]. rewrite (acceptable_fun _ _ _ HA H2).
    exists o0, w0, r0. split; [exact HH0|]. split; [exact HA0|]. split; [reflexivity|]. symmetry. exact (sent_sequence _ _ _ _ _ ar H3). }
  destruct HP as (buf1 & es1 & es2 & H1 & H2 & _). inversion H1; subst; try (eapply FR; eassumption).
  - inversion H2; subst; try (eapply FR; eassumption); exists o, w, r; auto.
  - inversion H2; subst; try (eapply FR; eassumption); exists o, w, r; auto.
Qed.

(** ** What an acknowledgement says *)
Definition answered (h : list event) (s : N) : Prop :=
  exists h0 buf h', h = h0 ++ Receive Rx (Some (true, buf)) :: h' /\ In (Received (mkFb buf true)) h' /\ acked_with S buf s /\ octets buf.
Definition ack_inv (h : list event) (x : both) : Prop :=
  match fst x with
  | Enabling => True
  | Active _ _ r =>
      match r_control r with
      | RDeliver buf (a, q) => exists h0 h', h = h0 ++ Receive Rx (Some (true, buf)) :: h' /\ octets buf /\ (forall s, a = true -> q = Some s -> acked_with S buf s)
      | RAck s | RAckDelay s | RAckSend s | RAckPrepare s | RAckAir s => answered h s
      | _ => True
      end
  end.
Lemma answered_snoc h e s : answered h s -> answered (h ++ [e]) s.
Proof.
  intros (h0 & buf & h' & -> & HI & HA). exists h0, buf, (h' ++ [e]). rewrite <- app_assoc. split; [reflexivity|]. split; [apply in_or_app; auto|exact HA].
Qed.
Lemma ack_accepts h x : accepts S both_start h = Some x -> ack_inv h x.
Proof.
  apply accepts_ind; [exact I|]. clear h x. intros h [g l] e y _ HI HN. apply both_next_inv in HN. destruct HN as (g' & l' & -> & EG & EL).
  unfold ack_inv in *. cbn [fst] in *. destruct (law_facts _ _ _ EL) as (F1 & _ & _). destruct g as [|sec t [c held busy]].
  - apply gnext_enabling in EG. destruct EG as [EO [-> | ->]]; exact I.
  - assert (KEEP : match c with
      | RDeliver buf (a, q) => exists h0 h', h ++ [e] = h0 ++ Receive Rx (Some (true, buf)) :: h' /\ octets buf /\ (forall s, a = true -> q = Some s -> acked_with S buf s)
      | RAck s | RAckDelay s | RAckSend s | RAckPrepare s | RAckAir s => answered (h ++ [e]) s
      | _ => True end).
    { cbn [r_control] in HI. destruct c; try exact I; try (apply answered_snoc; exact HI). destruct d as [a q]. destruct HI as (h0 & h' & -> & HX).
      exists h0, (h' ++ [e]). rewrite <- app_assoc. split; [reflexivity|exact HX]. }
    apply gnext_active in EG. destruct EG as [(-> & t' & r' & ET & ER & ->)|[(NP & EO & -> & t' & ET & ->)|(NP & EO & r' & ER & ->)]]; [|exact KEEP|];
      clear EL; destruct r' as [c' held' busy']; cbn [r_control] in *.
    + cbn [rx_next] in ER. destruct c; try discriminate ER; injection ER as <- _ _; try exact I; try exact KEEP. destruct receiving; exact I.
    + destruct e; try discriminate EO; cbn [rx_next] in ER; try discriminate ER; try (destruct t0; discriminate ER);
        try (destruct c; try discriminate ER; injection ER as <- _ _; exact KEEP).
      * (* Woken *) destruct t0; [discriminate|]. destruct c; try discriminate ER; destruct busy; try discriminate ER; injection ER as <- _ _; exact I.
      * (* PrepareTx *) destruct t0; [discriminate|]. destruct c; try discriminate ER. destruct (txconfig_dec c0 (ack_config S)); [|discriminate].
        destruct (octets_dec buf (ack_octets S s)); [|discriminate]. destruct held; [|discriminate]. injection ER as <- _ _. destruct done; exact KEEP.
      * (* Transmit *) destruct t0; [discriminate|]. destruct c; try discriminate ER. destruct (held && busy); [|discriminate]. destruct sent; injection ER as <- _ _; [exact I|exact KEEP].
      * (* PrepareRx *) destruct t0; [discriminate|]. destruct c; try discriminate ER. destruct (rxconfig_dec c0 (listen_config S)); [|discriminate].
        destruct held; [|discriminate]. injection ER as <- _ _. destruct done; exact I.
      * (* Receive *) destruct t0; [discriminate|]. destruct c; try discriminate ER. destruct (held && busy); [|discriminate].
        destruct r as [[[|] buf]|]; injection ER as <- _ _; try exact I. assert (HOb := F1 Rx (true, buf) eq_refl). cbn [snd] in HOb.
        destruct (decide_spec S OK buf HOb) as [_ D]. destruct (decide S buf) as [[a q]|]; [|exact I].
        exists h, []. split; [reflexivity|]. split; [exact HOb|]. intros s -> ->. apply (D _ _ eq_refl). auto.
      * (* Cancel *) destruct t0; [discriminate|]. destruct c; try discriminate ER. destruct (held && busy); [|discriminate]. injection ER as <- _ _. exact I.
      * (* Lock *) destruct c0; try discriminate ER. destruct c; try discriminate ER. destruct held; [discriminate|]. destruct busy; [discriminate|]. destruct ok; injection ER as <- _ _; exact I.
      * (* Holds *) destruct c0; try discriminate ER. destruct c; try discriminate ER; try (injection ER as <- _ _; exact I).
        -- destruct b; injection ER as <- _ _; exact I.
        -- injection ER as <- _ _. exact KEEP.
      * (* Release *) destruct c0; try discriminate ER. destruct c; try discriminate ER; destruct busy; try discriminate ER; injection ER as <- _ _; exact I.
      * (* SignalReceived *) destruct c; try discriminate ER. destruct ok; injection ER as <- _ _; exact I.
      * (* Received *) destruct c; try discriminate ER. destruct f as [fb fd]. cbn [fb_buffer fb_dirty] in ER. destruct (octets_dec fb buf) as [->|]; [|discriminate].
        destruct fd; [|discriminate]. destruct d as [[|] [s|]]; injection ER as <- _ _; try exact I.
        destruct HI as (h0 & h' & -> & HX & HA). exists h0, buf, (h' ++ [Received (mkFb buf true)]). rewrite <- app_assoc. split; [reflexivity|].
        split; [apply in_or_app; right; left; reflexivity|]. split; [apply HA; reflexivity|exact HX].
      * (* Delay *) destruct t0; [discriminate|]. destruct c; try discriminate ER. destruct (Z.eq_dec us (ack_delay_us S)); [|discriminate]. injection ER as <- _ _. exact KEEP.
      * (* DelayDone *) destruct t0; [discriminate|]. destruct c; try discriminate ER. destruct done; injection ER as <- _ _; exact KEEP.
Qed.
Lemma ack_source h1 c b d h2 : history S (h1 ++ PrepareTx Rx c b d :: h2) -> exists s, answered h1 s /\ b = ack_octets S s.
Proof.
  intros HH. destruct (history_split S _ _ _ HH) as (g & l & g' & l' & HA & _ & EG & _).
  assert (HI := ack_accepts _ _ HA). unfold ack_inv in HI. cbn [fst] in HI. destruct g as [|sec t [cc held busy]].
  - apply gnext_enabling in EG. destruct EG as [EO _]. discriminate EO.
  - apply gnext_active in EG. destruct EG as [(X & _)|[(_ & X & _)|(_ & _ & r' & ER & _)]]; [discriminate X|discriminate X|].
    cbn [rx_next] in ER. destruct cc; try discriminate. destruct (txconfig_dec c (ack_config S)); [|discriminate].
    destruct (octets_dec b (ack_octets S s)) as [->|]; [|discriminate]. exists s. split; [exact HI|reflexivity].
Qed.
End Device.

(** ** The course of a frame, once more *)
Section Course.
Variable S : Setup.
Hypothesis OK : setup_ok S.

Definition quiet (l : list event) : Prop := existsb takes l = false.
Lemma quiet_app l l' : quiet l -> quiet l' -> quiet (l ++ l').
Proof. unfold quiet. intros H H'. rewrite existsb_app, H, H'. reflexivity. Qed.
Lemma csma_quiet b n l ok : csma_log S b n l ok -> quiet l.
Proof. induction 1; [reflexivity|reflexivity|]. apply quiet_app; [reflexivity|assumption]. Qed.
Lemma listen_quiet s l a : listen_log S s l a -> quiet l.
Proof. induction 1; [reflexivity| |reflexivity]. assumption. Qed.
Lemma ack_quiet s l a : ack_log S s l a -> quiet l.
Proof. destruct 1 as [l a H]. exact (listen_quiet _ _ _ H). Qed.
Lemma tries_quiet b q i l : tries S b q i l -> quiet l.
Proof.
  revert i l. apply (tries_mut S b q (fun i l _ => quiet l) (fun i ok l _ => quiet l)).
  - intros i l1 ok l2 HC HO IH. apply quiet_app; [eapply csma_quiet; eassumption|exact IH].
  - reflexivity.
  - reflexivity.
  - intros i s l _ HA. eapply ack_quiet; eassumption.
  - intros s l _ HA. apply quiet_app; [eapply ack_quiet; eassumption|reflexivity].
  - intros i s l l' _ _ HA _ IH. apply quiet_app; [eapply ack_quiet; eassumption|exact IH].
Qed.
Lemma frame_quiet l : frame_log S l -> exists fb t, l = NextFrame (Some fb) :: t /\ quiet t.
Proof.
  destruct 1 as [fb b q es l HP HT]. exists fb, (map Report es ++ l). split; [reflexivity|]. apply quiet_app; [|eapply tries_quiet; eassumption].
  clear. induction es as [|e es IH]; [reflexivity|exact IH].
Qed.
(** the last frame of a log *)
Lemma last_take x fb t y fb' t' : quiet t -> quiet t' -> x ++ NextFrame (Some fb) :: t = y ++ NextFrame (Some fb') :: t' -> x = y /\ fb = fb' /\ t = t'.
Proof.
  intros HT HT'. revert y. induction x as [|e x IH]; intros [|e' y] E; cbn in E.
  - injection E as -> ->. auto.
  - injection E as <- E. exfalso. unfold quiet in HT. rewrite E, existsb_app in HT. cbn in HT. rewrite orb_true_r in HT. discriminate.
  - injection E as -> E. exfalso. unfold quiet in HT'. rewrite <- E, existsb_app in HT'. cbn in HT'. rewrite orb_true_r in HT'. discriminate.
  - injection E as -> E. destruct (IH y E) as (-> & -> & ->). auto.
Qed.
Lemma last_frame ls x fb t : Forall (frame_log S) ls -> concat ls = x ++ NextFrame (Some fb) :: t -> quiet t -> frame_log S (NextFrame (Some fb) :: t).
Proof.
  intros HF. induction ls as [|l ls _] using rev_ind; intros E HQ; [destruct x; discriminate|].
  apply Forall_app in HF. destruct HF as [_ HF]. apply Forall_inv in HF. rewrite concat_app in E. cbn [concat] in E. rewrite app_nil_r in E.
  destruct (frame_quiet l HF) as (fb' & t' & -> & HQ'). destruct (last_take _ _ _ _ _ _ HQ' HQ E) as (_ & -> & ->). exact HF.
Qed.
Lemma quiet_tx_log h : quiet h -> quiet (tx_log h).
Proof.
  unfold quiet, tx_log. induction h as [|e h IH]; [reflexivity|]. cbn [existsb filter]. intros H. apply orb_false_iff in H. destruct H as [H1 H2].
  destruct (tx_step e); [|auto]. cbn [existsb]. rewrite H1. auto.
Qed.
Lemma tx_log_app h h' : tx_log (h ++ h') = tx_log h ++ tx_log h'.
Proof. apply filter_app. Qed.
(** when the transmit task asks for the next frame, the course of the one before is complete *)
Lemma complete h1 fb h2 r h3 : history S (h1 ++ NextFrame (Some fb) :: h2 ++ NextFrame r :: h3) -> quiet h2 ->
  frame_log S (NextFrame (Some fb) :: tx_log h2) /\ octets (fb_buffer fb).
Proof.
  intros HH HQ. split.
  - replace (h1 ++ NextFrame (Some fb) :: h2 ++ NextFrame r :: h3) with ((h1 ++ NextFrame (Some fb) :: h2) ++ NextFrame r :: h3) in HH by (rewrite <- app_assoc; reflexivity).
    destruct (history_split S _ _ _ HH) as (g & l & g' & l' & HA & _ & EG & _). assert (HI := state_inv_accepts S OK _ _ HA). unfold state_inv in HI. cbn [fst] in HI.
    destruct g as [|sec [[m gd] rq] rr].
    + apply gnext_enabling in EG. destruct EG as [EO _]. discriminate EO.
    + apply gnext_active in EG. destruct EG as [(X & _)|[(_ & _ & _ & [[m' gd'] rq'] & ET & _)|(_ & X & _)]]; [discriminate X| |discriminate X].
      unfold tx_next in ET. destruct (course_next S m (NextFrame r)) as [m2|] eqn:EC; [|discriminate]. cbn [course_next] in EC.
      destruct m; try discriminate. destruct HI as (ls & l0 & EL & HF & ->). rewrite app_nil_r in EL. rewrite tx_log_app in EL.
      apply (last_frame ls (tx_log h1) fb (tx_log h2) HF); [symmetry; exact EL|apply quiet_tx_log; exact HQ].
  - destruct (history_split S _ _ _ HH) as (g & l & g' & l' & _ & _ & _ & EL & _). destruct (law_facts _ _ _ EL) as (_ & _ & F). exact (F fb eq_refl).
Qed.
(** ... and if nothing was reported as given up, the acknowledgement it waited for was heard *)
Lemma gave_up_reported l : existsb gave_up l = false -> ~ In CcaFailed (reported l) /\ ~ In AckFailed (reported l).
Proof.
  induction l as [|e l IH]; cbn [existsb reported]; intros H; [split; intros []|]. apply orb_false_iff in H. destruct H as [H1 H2]. destruct (IH H2) as [I1 I2].
  destruct e; auto. split; intros [E|E]; auto; subst e; discriminate.
Qed.
Lemma gave_up_tx_log h : existsb gave_up h = false -> existsb gave_up (tx_log h) = false.
Proof.
  unfold tx_log. induction h as [|e h IH]; [reflexivity|]. cbn [existsb filter]. intros H. apply orb_false_iff in H. destruct H as [H1 H2].
  destruct (tx_step e); [|auto]. cbn [existsb]. rewrite H1. auto.
Qed.
Lemma acked h1 fb h2 r h3 b s es : history S (h1 ++ NextFrame (Some fb) :: h2 ++ NextFrame r :: h3) -> quiet h2 ->
  existsb gave_up h2 = false -> prepared S (fb_buffer fb) b (Some s) es ->
  exists h21 buf h22, h2 = h21 ++ Receive Tx (Some (true, buf)) :: h22 /\ acknowledges S s buf.
Proof.
  intros HH HQ HG HP. destruct (complete _ _ _ _ _ HH HQ) as [HF HO].
  destruct (C45_one_outcome S _ OK HF) as (fb' & b' & q & es' & l' & k & E & HP' & _ & _ & HK). injection E as <- E.
  destruct (C45_prepared_determined S (fb_buffer fb) OK HO) as (b0 & q0 & es0 & _ & U).
  destruct (U _ _ _ HP) as (_ & <- & _). destruct (U _ _ _ HP') as (_ & -> & _). clear U.
  assert (HG' := gave_up_tx_log _ HG). rewrite E, existsb_app in HG'. apply orb_false_iff in HG'. destruct HG' as [_ HG'].
  destruct (gave_up_reported _ HG') as [N1 N2].
  assert (VI : forall e, In e (verdicts l') -> In e (reported l')) by (unfold verdicts; intros e HI; apply filter_In in HI; apply HI).
  destruct HK as [(_ & _ & HK)|[(EV & _)|(EV & _)]].
  - destruct (HK s eq_refl) as (l0 & buf & -> & HA).
    assert (HI : In (Receive Tx (Some (true, buf))) (tx_log h2)) by (rewrite E, app_assoc; apply in_or_app; right; left; reflexivity).
    unfold tx_log in HI. apply filter_In in HI. destruct HI as [HI _]. apply in_split in HI. destruct HI as (h21 & h22 & ->). exists h21, buf, h22. auto.
  - destruct N1. apply VI. rewrite EV. apply in_or_app. right. left. reflexivity.
  - destruct N2. apply VI. rewrite EV. apply in_or_app. right. left. reflexivity.
Qed.
(** ** How often is a frame sent? *)
Lemma times_sent_tx_log h : times_sent (tx_log h) = times_sent h.
Proof.
  unfold times_sent. f_equal. f_equal. unfold tx_log. induction h as [|e h IH]; [reflexivity|]. cbn [filter outcomes].
  destruct e; try exact IH; try (destruct t; exact IH); try (destruct t; try exact IH; destruct done; exact IH).
  - destruct t, sent as [x|]; try exact IH. cbn [tx_step outcomes]. rewrite IH. reflexivity.
  - destruct t, r as [x|]; exact IH.
  - destruct r; exact IH.
Qed.
Lemma taken_tx_log h : taken (tx_log h) = taken h.
Proof.
  unfold tx_log. induction h as [|e h IH]; [reflexivity|]. cbn [filter taken].
  destruct e; try exact IH; try (destruct t; exact IH); try (destruct t; try exact IH; destruct done; exact IH).
  - destruct t, sent as [x|]; exact IH.
  - destruct t, r as [x|]; exact IH.
  - destruct r; cbn; rewrite IH; reflexivity.
Qed.
Lemma frames_sent l : frames_log S l -> (N.of_nat (times_sent l) <= p_retries (s_params S) * N.of_nat (taken l))%N.
Proof.
  intros (ls & l' & -> & HF & HL). induction HF as [|x ls Hx HF IH].
  - cbn [concat app]. destruct HL as [->|(l'' & HL)]; [cbn; lia|]. destruct l' as [|e l']; [cbn; lia|].
    assert (HB := C45_bounded S _ OK HL). rewrite times_sent_app in HB. destruct (frame_quiet _ HL) as (fb & t & E & _). injection E as -> E. cbn [taken]. nia.
  - cbn [concat]. rewrite <- app_assoc, times_sent_app, taken_app. assert (HB := C45_bounded S _ OK Hx).
    destruct (frame_quiet _ Hx) as (fb & t & -> & _). cbn [taken] in *. nia.
Qed.
Definition from_tx (x : task * list N) : bool := match fst x with Tx => true | Rx => false end.
Lemma sent_tx h : forall tx rx, length (filter from_tx (sent_from tx rx h)) <= times_sent h.
Proof.
  unfold times_sent. induction h as [|e h IH]; intros tx rx; [cbn; lia|]. cbn [sent_from outcomes]. destruct e; try apply IH.
  - destruct t; apply IH.
  - destruct t, sent as [[|]|]; try apply IH.
    + cbn [filter length]. destruct tx as [b|]; [cbn [filter from_tx fst length]|]; specialize (IH (Some b) rx) || specialize (IH None rx); cbn in *; lia.
    + destruct rx as [b|]; cbn [filter from_tx fst]; apply IH.
Qed.
End Course.
