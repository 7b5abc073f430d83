(** CsmaProofs.v -- lemmas about Csma.v *)
From Verif Require Import Base BaseProofs Spec SpecFrame FrameControl BitProofs FrameControlProofs Addressing SpecAddressing
  AddressingProofs AddressingProofs2 Frames SpecFrames FramesProofs Repr Csma SpecCsma.

Lemma nth_skipn' k i (b : list N) : nth i (skipn k b) 0%N = nth (k + i) b 0%N.
Proof.
  revert b; induction k as [|k IH]; intros b; [reflexivity|].
  destruct b as [|x b]; simpl; [destruct i; reflexivity|apply IH].
Qed.
Lemma pan_at_skipn p b k off : pan_at p (skipn k b) off = pan_at p b (k + off).
Proof. unfold pan_at. destruct p; [|reflexivity]. rewrite !nth_skipn', Nat.add_assoc. reflexivity. Qed.
Lemma addr_at_skipn m b k off : addr_at m (skipn k b) off = addr_at m b (k + off).
Proof. unfold addr_at, window. rewrite skipn_skipn'. reflexivity. Qed.

Lemma destination_fun r b d d' : destination r b d -> destination r b d' -> d = d'.
Proof.
  intros [dp sp L HL|HN] [dp' sp' L' HL'|HN'].
  - destruct (c07_unique r _ _ _ _ L L') as [-> ->]. reflexivity.
  - specialize (HN' _ _ L). lia.
  - specialize (HN _ _ L'). lia.
  - reflexivity.
Qed.

Lemma dst_view b r : acceptable b r -> exists d, destination r b d /\
  data_dst_address b = Done (match d with Some (_, a) => Some a | None => None end) /\
  data_dst_pan_id b = Done (match d with Some (p, _) => p | None => None end).
Proof.
  intros HA. destruct (data_accessors b r HA) as (_ & _ & _ & o & n & i & m & EA & VA & _).
  destruct HA as (HF & [HL HM] & HS & HK).
  unfold data_dst_address, data_dst_pan_id. rewrite EA. cbn [bind].
  destruct VA as [[(dp & sp & L & -> & Hn) ->]|[HN [_ ->]]].
  - exists (Some (pan_at dp b (mhr_size r), addr_at (fr_dst_addressing_mode r) b (mhr_size r + pan_size dp))).
    split; [econstructor; eassumption|].
    destruct (c08_accepted (firstn 2 b) r (skipn (mhr_size r) b) dp sp (fc_is_firstn _ _ HF) L) as (_ & _ & E1 & E2 & _).
    { rewrite skipn_length. lia. }
    rewrite E1, E2, pan_at_skipn, addr_at_skipn, Nat.add_0_r. split; reflexivity.
  - exists None. split; [constructor; exact HN|]. split; reflexivity.
Qed.

Lemma acceptable_fun b r r' : acceptable b r -> acceptable b r' -> r = r'.
Proof.
  intros (HF & _) (HF' & _). destruct HF as (b0 & b1 & rest & -> & _ & _ & HE).
  destruct HF' as (c0 & c1 & rest' & E & _ & _ & HE'). injection E as <- <- <-. eapply fc_encodes_unique; eassumption.
Qed.

Lemma destination_wf r b p a : octets b -> acceptable b r -> destination r b (Some (p, a)) ->
  address_wf a /\ (forall v, p = Some v -> (v < 65536)%N).
Proof.
  intros HO HA HD. inversion HD as [dp sp L HL E1|]; subst. clear HD. unfold layout_size in HL. split.
  - destruct (fr_dst_addressing_mode r); simpl in *; trivial; (split; [|apply octets_rev, octets_firstn, octets_skipn, HO]);
    unfold window; rewrite rev_length, firstn_length, skipn_length; lia.
  - intros v E. unfold pan_at in E. destruct dp; [|discriminate]. injection E as <-.
    assert (A := octets_nth b (mhr_size r) HO). assert (B := octets_nth b (mhr_size r + 1) HO). lia.
Qed.

(** ** is_package_for_us *)
Lemma for_us_spec P hw b r : octets b -> length hw = 8 -> acceptable b r ->
  exists x, is_package_for_us P hw b = Done x /\ (x = true <-> for_us P hw r b).
Proof.
  intros HO HW HA. destruct (dst_view b r HA) as (d & HD & EA & EP).
  assert (HF := proj1 HA). assert (HK := proj2 (proj2 (proj2 HA))). destruct HK as (Kt & Kv & _). getters (fc_is_firstn _ _ HF).
  unfold is_package_for_us. rewrite (data_fc_ok b r HF). cbn [bind]. rewrite Gt. cbn [bind].
  assert (X : exists x, (let* d := data_dst_address b in
    match (match d with Some addr => Some addr | None => if p_implicit_broadcast P then Some ABroadcast else None end) with
    | None => Done false
    | Some addr =>
      let* pan := data_dst_pan_id b in
      let dst_pan_id := match pan with Some p => p | None => broadcast_pan_id end in
      if negb (dst_pan_id =? p_pan_id P)%N && negb (dst_pan_id =? broadcast_pan_id)%N then Done false
      else if is_broadcast addr then Done true
      else match addr with
      | AAbsent => Done false
      | AShort a => let* h := slice_from hw 6 in let* a := slice_to a 2 in Done (bytes_eqb h a)
      | AExtended a => Done (bytes_eqb hw a)
      end end) = Done x /\ (x = true <-> for_us P hw r b)).
  2:{ destruct (fr_frame_type r); try congruence; rewrite Gv; cbn [bind]; destruct (fr_frame_version r); try congruence; exact X. }
  rewrite EA, EP. cbn [bind]. unfold for_us. destruct d as [[p a]|].
  - assert (WF := proj1 (destination_wf r b p a HO HA HD)).
    assert (PQ : (negb (match p with Some p => p | None => broadcast_pan_id end =? p_pan_id P)%N &&
                 negb (match p with Some p => p | None => broadcast_pan_id end =? broadcast_pan_id)%N = false) <->
                 (p = None \/ p = Some 65535%N \/ p = Some (p_pan_id P))).
    { unfold broadcast_pan_id. destruct p as [v|].
      - destruct (N.eqb_spec v (p_pan_id P)); destruct (N.eqb_spec v 65535); subst; cbn [negb andb]; split; intros H; auto;
        try discriminate. destruct H as [H|[H|H]]; congruence.
      - rewrite N.eqb_refl. cbn [negb]. rewrite andb_false_r. split; auto. }
    destruct (negb _ && negb _).
    + exists false. split; [reflexivity|]. split; [discriminate|]. intros [(p' & a' & HD' & H1 & _)|[HD' _]].
      * assert (E := destination_fun _ _ _ _ HD HD'). injection E as <- <-. apply PQ in H1. discriminate.
      * assert (E := destination_fun _ _ _ _ HD HD'). discriminate.
    + assert (HP := proj1 PQ eq_refl). clear PQ.
      assert (Y : exists x, (if is_broadcast a then Done true else match a with
         | AAbsent => Done false
         | AShort a => let* h := slice_from hw 6 in let* a := slice_to a 2 in Done (bytes_eqb h a)
         | AExtended a => Done (bytes_eqb hw a) end) = Done x /\
         (x = true <-> (a = short_broadcast \/ a = AShort (skipn 6 hw) \/ a = AExtended hw))).
      { destruct (is_broadcast a) eqn:EB.
        - exists true. apply is_broadcast_spec in EB. split; [reflexivity|]. unfold short_broadcast. split; auto.
        - assert (NB : a <> short_broadcast) by (intros E; apply is_broadcast_spec in E; congruence).
          destruct a as [|v|v].
          + exists false. split; [reflexivity|]. split; [discriminate|]. intros [H|[H|H]]; discriminate.
          + destruct WF as [W1 _]. rewrite slice_from_ok by lia. cbn [bind]. rewrite slice_to_ok by lia. cbn [bind].
            rewrite firstn_all2 by lia. eexists. split; [reflexivity|]. rewrite bytes_eqb_eq. split.
            * intros ->. auto.
            * intros [H|[H|H]]; try congruence.
          + eexists. split; [reflexivity|]. rewrite bytes_eqb_eq. split.
            * intros ->. auto.
            * intros [H|[H|H]]; try congruence. }
      destruct Y as (x & -> & HX). exists x. split; [reflexivity|]. rewrite HX. split.
      * intros H. left. exists p, a. auto.
      * intros [(p' & a' & HD' & H1 & H2)|[HD' _]].
        -- assert (E := destination_fun _ _ _ _ HD HD'). injection E as <- <-. exact H2.
        -- assert (E := destination_fun _ _ _ _ HD HD'). discriminate.
  - destruct (p_implicit_broadcast P) eqn:EI.
    + exists true. replace (is_broadcast ABroadcast) with true by reflexivity.
      unfold broadcast_pan_id. rewrite N.eqb_refl. cbn [negb]. rewrite andb_false_r. split; [reflexivity|]. split; auto.
    + exists false. split; [reflexivity|]. split; [discriminate|]. intros [(p' & a' & HD' & _)|[_ H]]; [|discriminate].
      assert (E := destination_fun _ _ _ _ HD HD'). discriminate.
Qed.

(** ** the reception decision *)
Lemma slice_window b o n : o + n <= length b -> slice b o (o + n) = Done (window b o n).
Proof. intros H. rewrite slice_ok by lia. unfold window. do 2 f_equal. lia. Qed.
Lemma window_length b o n : o + n <= length b -> length (window b o n) = n.
Proof. intros H. unfold window. rewrite firstn_length, skipn_length. lia. Qed.
Lemma window_octets b o n : octets b -> octets (window b o n).
Proof. intros H. apply octets_firstn, octets_skipn, H. Qed.

Lemma holds_fun dv buf o b o' b' : holds dv buf o b -> holds dv buf o' b' -> o = o' /\ b = b'.
Proof. intros (n & E & ->) (n' & E' & ->). rewrite E in E'. injection E' as <- <-. auto. Qed.

(** a buffer either holds an acceptable frame or it does not *)
Lemma holds_cases dv buf : octets buf ->
  (exists o b r, holds dv buf o b /\ acceptable b r) \/
  ~ (exists o b r, holds dv buf o b /\ acceptable b r).
Proof.
  intros HO. destruct (dev_data dv buf) as [[o n]|] eqn:E.
  - destruct (data_new_result (window buf o n) (window_octets _ _ _ HO)) as [[_ (r & HA)]|[_ HN]].
    + left. exists o, (window buf o n), r. split; [exists n; auto|exact HA].
    + right. intros (o' & b' & r & (n' & E' & ->) & HA). rewrite E in E'. injection E' as <- <-. eauto.
  - right. intros (o & b & r & (n & E' & _) & _). congruence.
Qed.

Lemma rx_decide_accepts P cfg dv hw buf o b r : dev_ok dv -> octets buf -> length hw = 8 ->
  holds dv buf o b -> acceptable b r ->
  (delivered P cfg hw r b -> exists ack, rx_decide P cfg dv hw buf = Done (Some (ack, sequence_number r b)) /\
     (ack = true <-> ack_wanted cfg r b)) /\
  (~ delivered P cfg hw r b -> rx_decide P cfg dv hw buf = Done None).
Proof.
  intros HDV HO HW (n & E & ->) HA. set (b := window buf o n) in *.
  assert (HR := HDV _ _ _ E). assert (HOb : octets b) by (apply window_octets, HO).
  unfold rx_decide. rewrite E. rewrite slice_window by exact HR. cbn [bind]. fold b. rewrite (data_new_accepts b r HA). cbn [bind].
  destruct (for_us_spec P hw b r HOb HW HA) as (us & -> & HU). cbn [bind].
  destruct (dst_view b r HA) as (d & HD & EA & EP).
  destruct (data_accessors b r HA) as (EC & ES & _).
  assert (HF := proj1 HA). getters (fc_is_firstn _ _ HF).
  unfold delivered.
  destruct (negb us && ignore_not_for_us cfg) eqn:EU.
  { apply andb_true_iff in EU. destruct EU as [EU1 EU2]. split; [|reflexivity].
    intros (_ & [H|H] & _); [congruence|]. apply HU in H. subst us. discriminate. }
  assert (HU' : ignore_not_for_us cfg = false \/ for_us P hw r b).
  { destruct (ignore_not_for_us cfg); [right|left; reflexivity]. apply HU. destruct us; [reflexivity|discriminate]. }
  rewrite EC. cbn [bind]. rewrite Gt. cbn [bind]. rewrite EA. cbn [bind]. rewrite Ga. cbn [bind]. rewrite ES. cbn [bind].
  split.
  - intros (_ & _ & HT).
    set (k := fun should_ack : bool => Done (Some (should_ack, nth_error (seq_octets r b) 0))).
    assert (X : exists ack : bool, (if ack_everything cfg then Done true
        else if negb (fr_ack_request r) then Done false
        else match match d with Some (_, a) => Some a | None => None end with
             | Some addr => Done (if is_broadcast addr then ack_broadcast cfg else ack_unicast cfg)
             | None => Done false end) = Done ack /\ (ack = true <-> ack_wanted cfg r b)).
    { unfold ack_wanted. destruct (ack_everything cfg); [exists true; split; [reflexivity|split; auto]|].
      destruct (fr_ack_request r); cbn [negb].
      2:{ exists false. split; [reflexivity|]. split; [discriminate|]. intros [H|[H _]]; discriminate. }
      destruct d as [[p a]|].
      - eexists. split; [reflexivity|]. split.
        + intros H. right. split; [reflexivity|]. exists p, a. split; [exact HD|].
          destruct (is_broadcast a) eqn:EB.
          * left. apply is_broadcast_spec in EB. auto.
          * right. split; [|exact H]. intros C. apply is_broadcast_spec in C. congruence.
        + intros [H|(_ & p' & a' & HD' & H)]; [discriminate|].
          assert (X := destination_fun _ _ _ _ HD HD'). injection X as <- <-.
          destruct (is_broadcast a) eqn:EB.
          * apply is_broadcast_spec in EB. destruct H as [[_ H]|[H _]]; [exact H|]. contradiction.
          * destruct H as [[H _]|[_ H]]; [|exact H]. apply is_broadcast_spec in H. congruence.
      - exists false. split; [reflexivity|]. split; [discriminate|]. intros [H|(_ & p' & a' & HD' & H)]; [discriminate|].
        assert (X := destination_fun _ _ _ _ HD HD'). discriminate. }
    destruct X as (ack & EX & HX). exists ack. split; [|exact HX]. rewrite EX. cbn [bind].
    destruct (fr_frame_type r); try reflexivity. congruence.
  - intros HN. destruct (fr_frame_type r) eqn:ET; try (exfalso; apply HN; split; [exact HA|]; split; [exact HU'|congruence]).
    reflexivity.
Qed.

Lemma rx_decide_rejects P cfg dv hw buf : dev_ok dv -> octets buf ->
  ~ (exists o b r, holds dv buf o b /\ acceptable b r) -> rx_decide P cfg dv hw buf = Done None.
Proof.
  intros HDV HO HN. unfold rx_decide. destruct (dev_data dv buf) as [[o n]|] eqn:E; [|reflexivity].
  rewrite slice_window by (exact (HDV _ _ _ E)). cbn [bind].
  destruct (data_new_result (window buf o n) (window_octets _ _ _ HO)) as [[_ (r & HA)]|[-> _]]; [|reflexivity].
  exfalso. apply HN. exists o, (window buf o n), r. split; [exists n; auto|exact HA].
Qed.

Lemma for_us_dec P hw r b : octets b -> length hw = 8 -> acceptable b r -> for_us P hw r b \/ ~ for_us P hw r b.
Proof.
  intros HO HW HA. destruct (for_us_spec P hw b r HO HW HA) as ([] & _ & H); [left|right]; rewrite <- H; congruence.
Qed.
Lemma delivered_dec P cfg hw r b : octets b -> length hw = 8 -> acceptable b r ->
  delivered P cfg hw r b \/ ~ delivered P cfg hw r b.
Proof.
  intros HO HW HA. unfold delivered.
  assert (T : fr_frame_type r <> FtAck \/ fr_frame_type r = FtAck) by (destruct (fr_frame_type r); first [right; reflexivity|left; discriminate]).
  destruct T as [T|T]; [|right; intros (_ & _ & H); congruence].
  destruct (for_us_dec P hw r b HO HW HA) as [H|H]; [left; split; [exact HA|split; auto]|].
  destruct (ignore_not_for_us cfg); [right; intros (_ & [H'|H'] & _); [discriminate|contradiction]|].
  left. split; [exact HA|split; auto].
Qed.

(** ** acknowledgements *)
Lemma emit_imm_ack s x y z : octet s -> (x, y) = (0, 0)%N \/ (x, y) = (2, 16)%N ->
  frame_emit (new_imm_ack s) [x; y; z] = Done [2; 16; s]%N.
Proof. intros HS [E|E]; injection E as -> ->; reflexivity. Qed.

(** the slice of the ACK buffer the token hands out is fresh or holds an earlier ACK *)
Definition ack_buffer_ok (dv : Device) (t : list N) : Prop :=
  length (dev_header dv 3) + 3 <= length t /\
  (window t (length (dev_header dv 3)) 3 = [0; 0; 0]%N \/
   exists s, window t (length (dev_header dv 3)) 3 = [2; 16; s]%N).

Lemma build_ack_ok dv s t : octet s -> ack_buffer_ok dv t ->
  build_ack dv s t = Done (dev_header dv 3 ++ [2; 16; s]%N ++ skipn (length (dev_header dv 3) + 3) t).
Proof.
  intros HS [HL HW]. unfold build_ack. replace (b_finalize (new_imm_ack s)) with (Ok (new_imm_ack s)) by reflexivity.
  replace (frame_buffer_len (new_imm_ack s)) with (Done 3) by reflexivity. cbn [bind]. unfold consume.
  rewrite slice_window by exact HL. cbn [bind].
  destruct HW as [->|(s' & ->)]; rewrite emit_imm_ack by auto; reflexivity.
Qed.
Lemma build_ack_again dv s t t' : octet s -> ack_buffer_ok dv t -> build_ack dv s t = Done t' ->
  ack_buffer_ok dv t' /\ length t' = length t.
Proof.
  intros HS HT E. rewrite (build_ack_ok dv s t HS HT) in E. injection E as <-. destruct HT as [HL _]. split; [split|].
  - rewrite !app_length. simpl. lia.
  - right. exists s. apply (window_app _ [2; 16; s]%N).
  - rewrite app_length. simpl. rewrite skipn_length. lia.
Qed.

Definition imm_ack_control : FrameControlRepr := start_control FtAck V2006 false.
Lemma imm_ack_acceptable s : octet s -> acceptable [2; 16; s]%N imm_ack_control.
Proof.
  intros HS. split.
  - exists 2%N, 16%N, [s]. split; [reflexivity|]. split; [reflexivity|]. split; [reflexivity|]. split; reflexivity.
  - split; [unfold mhr_size; simpl; lia|]. split; [reflexivity|]. repeat split; discriminate.
Qed.

Lemma is_ack_for_spec dv q buf : dev_ok dv -> octets buf ->
  exists x, is_ack_for dv q buf = Done x /\
    (x = true <-> exists o b r, holds dv buf o b /\ acceptable b r /\ fr_frame_type r = FtAck /\ sequence_number r b = Some q).
Proof.
  intros HDV HO. unfold is_ack_for. destruct (dev_data dv buf) as [[o n]|] eqn:E.
  2:{ exists false. split; [reflexivity|]. split; [discriminate|]. intros (o & b & r & (n & E' & _) & _). congruence. }
  rewrite slice_window by (exact (HDV _ _ _ E)). cbn [bind].
  destruct (data_new_result (window buf o n) (window_octets _ _ _ HO)) as [[-> (r & HA)]|[-> HN]]; cbn [bind].
  - assert (U : forall o' b' r', holds dv buf o' b' -> acceptable b' r' -> b' = window buf o n /\ r' = r).
    { intros o' b' r' (n' & E' & ->) HA'. rewrite E in E'. injection E' as <- <-. split; [reflexivity|].
      eapply acceptable_fun; eassumption. }
    destruct (data_accessors _ r HA) as (-> & ES & _). cbn [bind].
    assert (HF := proj1 HA). getters (fc_is_firstn _ _ HF). rewrite Gt. cbn [bind].
    destruct (fr_frame_type r) eqn:ET; try (exists false; split; [reflexivity|]; split; [discriminate|];
      intros (o' & b' & r' & H1 & H2 & H3 & _); destruct (U _ _ _ H1 H2) as [_ ->]; congruence).
    rewrite ES. cbn [bind]. fold (sequence_number r (window buf o n)). eexists. split; [reflexivity|]. split.
    + intros H. exists o, (window buf o n), r. split; [exists n; auto|]. split; [exact HA|]. split; [exact ET|].
      destruct (sequence_number r (window buf o n)) as [s|]; [|discriminate]. apply N.eqb_eq in H. congruence.
    + intros (o' & b' & r' & H1 & H2 & H3 & H4). destruct (U _ _ _ H1 H2) as [-> ->]. rewrite H4. apply N.eqb_refl.
  - exists false. split; [reflexivity|]. split; [discriminate|]. intros (o' & b' & r' & (n' & E' & ->) & H2 & _).
    rewrite E in E'. injection E' as <- <-. eauto.
Qed.

(** ** editing a frame to be sent *)
Lemma window_write b o n w : o + n <= length b -> length w = n ->
  write_at b o w = Done (firstn o b ++ w ++ skipn (o + n) b).
Proof. intros H E. rewrite write_at_ok by lia. rewrite E. reflexivity. Qed.

Lemma split_window b o n : o + n <= length b -> b = firstn o b ++ window b o n ++ skipn (o + n) b.
Proof.
  intros H. unfold window. rewrite <- skipn_skipn'.
  rewrite (firstn_skipn n (skipn o b)). rewrite firstn_skipn. reflexivity.
Qed.

(** the AR flag of the control field is bit 5 of the first octet *)
Lemma set_ar_octets b0 b1 rest : octet b0 -> octet b1 ->
  exists c0, fc_set_ack_request true (b0 :: b1 :: rest) = Done (c0 :: b1 :: rest) /\ octet c0 /\
    (forall j, (j < 8)%N -> bit j c0 = if (j =? 5)%N then true else bit j b0) /\
    (forall j, j <> 5%N -> bit j (c0 + 256 * b1) = bit j (b0 + 256 * b1)).
Proof.
  intros H0 H1. unfold fc_set_ack_request.
  destruct (fc_or_flag_view 5 true b0 b1 rest eq_refl H0 H1) as (c0 & c1 & O0 & O1 & HE & HF & HB).
  unfold octet in *.
  assert (T : forall x y j, (x < 256)%N -> N.testbit (x + 256 * y) j = if (j <? 8)%N then N.testbit x j else N.testbit y (j - 8)).
  { intros x y j Hx. change 256%N with (2 ^ 8)%N. rewrite (N.mul_comm (2 ^ 8) y), <- N.shiftl_mul_pow2.
    rewrite N.add_nocarry_lxor.
    - rewrite N.lxor_spec. destruct (N.ltb_spec j 8).
      + rewrite N.shiftl_spec_low by assumption. apply xorb_false_r.
      + rewrite N.shiftl_spec_high by lia. rewrite (testbit_high8 x) by assumption. apply xorb_false_l.
    - apply N.bits_inj. intros i. rewrite N.land_spec, N.bits_0. destruct (N.lt_ge_cases i 8).
      + rewrite (N.shiftl_spec_low y) by assumption. apply andb_false_r.
      + rewrite (testbit_high8 x) by assumption. reflexivity. }
  assert (E1 : c1 = b1).
  { apply N.bits_inj. intros j. assert (Q := HB (j + 8)%N ltac:(lia)). rewrite !bit_testbit, !T in Q by assumption.
    destruct (N.ltb_spec (j + 8) 8); [lia|]. replace (j + 8 - 8)%N with j in Q by lia. exact Q. }
  subst c1. exists c0. split; [exact HE|]. split; [exact O0|]. split; [|exact HB]. intros j Hj.
  destruct (N.eqb_spec j 5) as [->|Hn].
  - rewrite !bit_testbit, !T in HF by assumption. cbn [N.ltb N.compare] in HF. rewrite bit_testbit.
    replace (5 <? 8)%N with true in HF by reflexivity. rewrite orb_true_r in HF. exact HF.
  - assert (Q := HB j Hn). rewrite !bit_testbit, !T in Q by assumption. apply N.ltb_lt in Hj. rewrite Hj in Q.
    rewrite !bit_testbit. exact Q.
Qed.

Lemma data_sequence_number_cons b0 b1 rest : data_sequence_number (b0 :: b1 :: rest) =
  if bit 8 (b0 + 256 * b1) then Done None else let* x := idx (b0 :: b1 :: rest) 2 in Done (Some x).
Proof.
  unfold data_sequence_number, data_frame_control. rewrite slice_to_ok by (simpl; lia). cbn [bind firstn].
  unfold fc_sequence_number_suppression, fc_raw. simpl. rewrite N.mul_0_r, N.add_0_r, flag_at_bit. reflexivity.
Qed.

Lemma on_control_two f b0 b1 c0 c1 rest : f [b0; b1] = Done [c0; c1] ->
  on_control f (b0 :: b1 :: rest) = Done (c0 :: c1 :: rest).
Proof.
  intros E. unfold on_control. rewrite slice_to_ok by (simpl; lia). cbn [bind firstn]. rewrite E. cbn [bind].
  rewrite write_at_ok by (simpl; lia). reflexivity.
Qed.

Lemma set_ack_accepts cfg dv buf o b r : dev_ok dv -> octets buf -> holds dv buf o b -> acceptable b r ->
  (ack_requestable cfg r b -> exists buf',
     set_ack_request_if_possible cfg dv buf =
       Done (TxOk (match sequence_number r b with Some s => Some (s, N.of_nat (length b)) | None => None end), buf') /\
     only_ar_changed buf buf' o true) /\
  (~ ack_requestable cfg r b -> set_ack_request_if_possible cfg dv buf = Done (TxOk None, buf)).
Proof.
  intros HDV HO (n & E & ->) HA. set (b := window buf o n) in *.
  assert (HR := HDV _ _ _ E). assert (HOb : octets b) by (apply window_octets, HO).
  assert (HLb : length b = n) by (apply window_length, HR).
  assert (HSP := split_window buf o n HR). fold b in HSP.
  unfold set_ack_request_if_possible, with_frame. rewrite E. rewrite slice_window by exact HR. cbn [bind]. fold b.
  rewrite (data_new_accepts b r HA). cbn [bind].
  destruct (dst_view b r HA) as (d & HD & EA & EP).
  destruct (data_accessors b r HA) as (EC & ES & _).
  assert (HL := proj1 (proj2 HA)).
  assert (HF := proj1 HA). getters (fc_is_firstn _ _ HF). rewrite EC. cbn [bind]. rewrite Gt. cbn [bind].
  destruct HF as (b0 & b1 & rest & Eb & O0 & O1 & HE).
  destruct (set_ar_octets b0 b1 [] O0 O1) as (c0 & SE & SO & SB & SN).
  assert (NO : (let* b' := on_control (fc_set_ack_request false) b in Done (@None (N * N), b')) = Done (None, b)).
  { rewrite Eb, (on_control_two _ b0 b1 b0 b1); [reflexivity|]. apply fc_or_flag_false; assumption. }
  assert (YES : (let* b' := on_control (fc_set_ack_request true) b in
               let* s := data_sequence_number b' in
               Done (match s with Some s => Some (s, N.of_nat (length b) mod 256)%N | None => None end, b'))
            = Done (match sequence_number r b with Some s => Some (s, N.of_nat (length b)) | None => None end, c0 :: b1 :: rest)).
  { rewrite (N.mod_small (N.of_nat (length b))) by lia. rewrite Eb at 1. rewrite (on_control_two _ b0 b1 c0 b1) by exact SE. cbn [bind].
    rewrite data_sequence_number_cons, SN by lia.
    unfold sequence_number. revert ES. generalize (nth_error (seq_octets r b) 0). intros q ES.
    rewrite Eb, data_sequence_number_cons in ES.
    destruct (bit 8 (b0 + 256 * b1)).
    - cbn [bind]. injection ES as <-. reflexivity.
    - destruct rest as [|z rest]; cbn in ES; [discriminate ES|]. injection ES as <-. reflexivity. }
  assert (WNO : (let* (a, b') := (let* b' := on_control (fc_set_ack_request false) b in Done (@None (N * N), b')) in
                 let* buf' := write_at buf o b' in Done (TxOk a, buf')) = Done (TxOk None, buf)).
  { rewrite NO. cbn [bind]. rewrite (window_write buf o n b HR HLb), <- HSP. reflexivity. }
  set (buf' := firstn o buf ++ (c0 :: b1 :: rest) ++ skipn (o + n) buf).
  assert (WYES : (let* (a, b') := (let* b' := on_control (fc_set_ack_request true) b in
               let* s := data_sequence_number b' in
               Done (match s with Some s => Some (s, N.of_nat (length b) mod 256)%N | None => None end, b')) in
                 let* buf' := write_at buf o b' in Done (TxOk a, buf')) = 
                 Done (TxOk (match sequence_number r b with Some s => Some (s, N.of_nat (length b)) | None => None end), buf')).
  { rewrite YES. cbn [bind]. rewrite (window_write buf o n (c0 :: b1 :: rest) HR); [reflexivity|]. rewrite <- HLb, Eb. reflexivity. }
  assert (CH : only_ar_changed buf buf' o true).
  { assert (FL : length (firstn o buf) = o) by (rewrite firstn_length; lia).
    assert (HSP' : buf = firstn o buf ++ (b0 :: b1 :: rest) ++ skipn (o + n) buf) by (rewrite <- Eb; exact HSP).
    assert (N0 : nth o buf 0%N = b0).
    { rewrite HSP', app_nth2 by lia. rewrite FL, Nat.sub_diag. reflexivity. }
    assert (N1 : nth o buf' 0%N = c0).
    { unfold buf'. rewrite app_nth2 by lia. rewrite FL, Nat.sub_diag. reflexivity. }
    unfold only_ar_changed. rewrite N0, N1. split; [|split; [|split; assumption]].
    - assert (Q := f_equal (@length N) HSP'). unfold buf'. rewrite !app_length in *. simpl in *. lia.
    - intros i Hi. assert (Q := f_equal (fun l => nth i l 0%N) HSP'). cbn beta in Q. rewrite Q. unfold buf'. clear Q HSP'.
      destruct (Nat.lt_ge_cases i o).
      + rewrite !app_nth1 by lia. reflexivity.
      + rewrite !(app_nth2 (firstn o buf)) by lia. rewrite FL. destruct (i - o) eqn:EI; [lia|]. reflexivity. }
  rewrite EA. cbn [bind].
  assert (K : (ack_requestable cfg r b /\ (fr_frame_type r = FtData \/ fr_frame_type r = FtMacCommand) /\
      exists p a, d = Some (p, a) /\
       (is_unicast a && ack_unicast cfg = true \/ (is_unicast a && ack_unicast cfg = false /\ is_broadcast a && ack_broadcast cfg = true))) \/
     (~ ack_requestable cfg r b /\ ((fr_frame_type r <> FtData /\ fr_frame_type r <> FtMacCommand) \/ d = None \/
      exists p a, d = Some (p, a) /\ is_unicast a && ack_unicast cfg = false /\ is_broadcast a && ack_broadcast cfg = false))).
  { unfold ack_requestable. destruct d as [[p a]|].
    2:{ right. split; [|auto]. intros (_ & p' & a' & HD' & _). assert (X := destination_fun _ _ _ _ HD HD'). discriminate. }
    assert (TT : (fr_frame_type r = FtData \/ fr_frame_type r = FtMacCommand) \/ (fr_frame_type r <> FtData /\ fr_frame_type r <> FtMacCommand))
      by (destruct (fr_frame_type r); auto; right; split; discriminate).
    destruct TT as [TT|TT]; [|right; split; [|auto]; intros ([H|H] & _); destruct TT; congruence].
    unfold is_unicast. destruct (is_broadcast a) eqn:EB; cbn [negb andb].
    - apply is_broadcast_spec in EB. destruct (ack_broadcast cfg) eqn:EK.
      + left. split; [|split; [exact TT|]]; [split; [exact TT|]; exists p, a; split; [exact HD|]; left; auto|].
        exists p, a. split; [reflexivity|]. right. rewrite EB. auto.
      + right. split; [intros (_ & p' & a' & HD' & H)|right; right; exists p, a; rewrite EB; auto].
        assert (X := destination_fun _ _ _ _ HD HD'). injection X as <- <-. destruct H as [[_ H]|[H _]]; [congruence|contradiction].
    - assert (NB : a <> short_broadcast) by (intros C; apply is_broadcast_spec in C; congruence).
      destruct (ack_unicast cfg) eqn:EK.
      + left. split; [|split; [exact TT|]]; [split; [exact TT|]; exists p, a; split; [exact HD|]; right; auto|].
        exists p, a. split; [reflexivity|]. left. rewrite EB. reflexivity.
      + right. split; [intros (_ & p' & a' & HD' & H)|right; right; exists p, a; rewrite EB; auto].
        assert (X := destination_fun _ _ _ _ HD HD'). injection X as <- <-. destruct H as [[H _]|[_ H]]; [contradiction|congruence]. }
  destruct K as [(K1 & K2 & p & a & -> & K3)|(K1 & K2)]; (split; [intros H|intros H]); try contradiction.
  - exists buf'. split; [|exact CH].
    rewrite <- WYES.
    destruct K2 as [-> | ->]; (destruct K3 as [-> | [-> ->]]; reflexivity).
  - rewrite <- WNO. destruct K2 as [[K2 K2']|[->|(p & a & -> & -> & ->)]]; destruct (fr_frame_type r); try reflexivity; congruence.
Qed.

Lemma set_ack_rejects cfg dv buf : dev_ok dv -> octets buf ->
  (dev_data dv buf = None -> set_ack_request_if_possible cfg dv buf = Done (TxErr InvalidDeviceFrame, buf)) /\
  (forall o b, holds dv buf o b -> ~ (exists r, acceptable b r) ->
     set_ack_request_if_possible cfg dv buf = Done (TxErr InvalidIEEEFrame, buf)).
Proof.
  intros HDV HO. unfold set_ack_request_if_possible, with_frame. split.
  - intros ->. reflexivity.
  - intros o b (n & E & ->) HN. rewrite E, slice_window by exact (HDV _ _ _ E). cbn [bind].
    destruct (data_new_result (window buf o n) (window_octets _ _ _ HO)) as [[_ H]|[-> _]]; [contradiction|]. reflexivity.
Qed.

(** ** PAN ID overwriting *)
Lemma pan_octets_at p l off : octets l -> off + pan_size p <= length l ->
  pan_octets (pan_at p l off) = window l off (pan_size p).
Proof.
  intros HO HL. destruct p; [|reflexivity]. simpl in HL. unfold pan_at, pan_octets, window, pan_size.
  assert (A := octets_nth l off HO). assert (B := octets_nth l (off + 1) HO).
  rewrite (N.mul_comm 256), N.mod_add, N.div_add, N.mod_small, N.div_small by lia. rewrite N.add_0_l.
  clear A B HO. revert l HL. induction off as [|off IH]; intros [|x [|y l]] HL; simpl in *; try lia; try reflexivity;
  apply (IH (y :: l)); simpl; lia.
Qed.
Lemma pan_at_lt p l off v : octets l -> pan_at p l off = Some v -> (v < 65536)%N.
Proof.
  intros HO EV. unfold pan_at in EV. destruct p; [|discriminate].
  assert (X := octets_nth l off HO). assert (Y := octets_nth l (off + 1) HO).
  revert X Y EV. generalize (nth off l 0%N) (nth (off + 1) l 0%N). intros x y X Y EV. injection EV as <-. lia.
Qed.
Lemma addr_octets_at m l off : addr_octets (Some (addr_at m l off)) = window l off (addr_size m).
Proof. destruct m; simpl; try reflexivity; apply rev_involutive. Qed.

Lemma patch_app c pre d post pan : length d = 2 \/ c = false ->
  patch c (length pre) pan (pre ++ d ++ post) = pre ++ (if c then [pan mod 256; pan / 256]%N else d) ++ post.
Proof.
  intros H. unfold patch. destruct c; [|reflexivity]. destruct H as [H|H]; [|discriminate].
  rewrite firstn_app, Nat.sub_diag, firstn_all, app_nil_r. do 2 f_equal.
  rewrite <- H. rewrite skipn_app. rewrite (skipn_all2 pre) by lia.
  replace (length pre + length d - length pre) with (length d) by lia. rewrite skipn_app, skipn_all, Nat.sub_diag. reflexivity.
Qed.

Lemma overwrite_accepts P cfg dv buf o b r : (p_pan_id P < 65536)%N -> dev_ok dv -> octets buf ->
  holds dv buf o b -> acceptable b r ->
  (forall dp sp, layout r dp sp -> mhr_size r + layout_size r dp sp <= length b ->
     overwrite_pan_id P cfg dv buf = Done (TxOk tt,
       patch (overwrite_dst_pan_id cfg && dp) (o + mhr_size r) (p_pan_id P)
       (patch (overwrite_src_pan_id cfg && sp) (o + mhr_size r + pan_size dp + addr_size (fr_dst_addressing_mode r)) (p_pan_id P) buf))) /\
  (no_addressing r b -> overwrite_pan_id P cfg dv buf = Done (TxOk tt, buf)).
Proof.
  intros HPAN HDV HO (n & E & ->) HA. set (b := window buf o n) in *.
  assert (HR := HDV _ _ _ E). assert (HOb : octets b) by (apply window_octets, HO).
  assert (HLb : length b = n) by (apply window_length, HR).
  assert (HSP := split_window buf o n HR). fold b in HSP.
  unfold overwrite_pan_id, with_frame. rewrite E. rewrite slice_window by exact HR. cbn [bind]. fold b.
  rewrite (data_new_accepts b r HA). cbn [bind].
  assert (HK := proj2 (proj2 (proj2 HA))). destruct HK as (_ & _ & Kd & Ks).
  destruct (data_accessors b r HA) as (EC & _ & _ & af & k & _ & _ & EA & VA & _).
  assert (HL := proj1 (proj1 (proj2 HA))).
  assert (HF := proj1 HA). getters (fc_is_firstn _ _ HF). rewrite EA. cbn [bind].
  split.
  - intros dp sp L HLs.
    destruct VA as [[_ ->]|[HN _]]; [|specialize (HN _ _ L); lia].
    set (tl := skipn (mhr_size r) b).
    assert (HLt : length tl = length b - mhr_size r) by apply skipn_length.
    assert (HOt : octets tl) by (apply octets_skipn, HOb).
    set (oa := pan_size dp). set (os := oa + addr_size (fr_dst_addressing_mode r)). set (ob := os + pan_size sp).
    assert (LS : layout_size r dp sp = ob + addr_size (fr_src_addressing_mode r)) by (unfold ob, os, oa, layout_size; lia).
    destruct (c08_accepted (firstn 2 b) r tl dp sp (fc_is_firstn _ _ HF) L) as (_ & _ & E1 & E2 & E3 & E4).
    { rewrite HLt. lia. }
    unfold afr_parse. rewrite E1, E2, E3, E4. cbn [bind ar_src_pan_id ar_dst_pan_id ar_dst_address ar_src_address].
    fold oa. fold os. fold ob.
    set (dst := addr_at (fr_dst_addressing_mode r) tl oa). set (src := addr_at (fr_src_addressing_mode r) tl ob).
    set (dpan := pan_at dp tl 0). set (span := pan_at sp tl os).
    set (q := mkAfRepr dpan (Some dst) span (Some src)).
    set (D := window tl 0 (pan_size dp)). set (A := window tl oa (addr_size (fr_dst_addressing_mode r))).
    set (S := window tl os (pan_size sp)). set (B := window tl ob (addr_size (fr_src_addressing_mode r))).
    set (post := skipn (layout_size r dp sp) tl).
    assert (TL : tl = D ++ A ++ S ++ B ++ post).
    { unfold D, A, S, B, post, window. rewrite LS. unfold ob, os, oa. rewrite <- !skipn_skipn'. cbn [skipn].
      rewrite !firstn_skipn. reflexivity. }
    assert (LD : length D = pan_size dp) by (apply window_length; unfold ob, os, oa in *; lia).
    assert (LA : length A = addr_size (fr_dst_addressing_mode r)) by (apply window_length; unfold ob, os, oa in *; lia).
    assert (LSS : length S = pan_size sp) by (apply window_length; unfold ob, os, oa in *; lia).
    assert (LB : length B = addr_size (fr_src_addressing_mode r)) by (apply window_length; unfold ob, os, oa in *; lia).
    assert (PD : pan_octets dpan = D) by (apply pan_octets_at; [exact HOt|unfold ob, os, oa in *; lia]).
    assert (PS : pan_octets span = S) by (apply pan_octets_at; [exact HOt|unfold ob, os, oa in *; lia]).
    assert (AD : addr_octets (Some dst) = A) by apply addr_octets_at.
    assert (AS : addr_octets (Some src) = B) by apply addr_octets_at.
    assert (WD : address_wf dst).
    { unfold dst, addr_at. destruct (fr_dst_addressing_mode r); simpl in *; trivial; split; try (apply octets_rev, window_octets, HOt); rewrite rev_length; exact LA. }
    assert (WS : address_wf src).
    { unfold src, addr_at. destruct (fr_src_addressing_mode r); simpl in *; trivial; split; try (apply octets_rev, window_octets, HOt); rewrite rev_length; exact LB. }
    assert (BD : forall v, dpan = Some v -> (v < 65536)%N).
    { intros v EV. exact (pan_at_lt _ _ _ _ HOt EV). }
    assert (BS : forall v, span = Some v -> (v < 65536)%N).
    { intros v EV. exact (pan_at_lt _ _ _ _ HOt EV). }
    (* the representation that is written *)
    set (PAN := p_pan_id P) in *.
    set (dpan' := if overwrite_dst_pan_id cfg && dp then Some PAN else dpan).
    set (span' := if overwrite_src_pan_id cfg && sp then Some PAN else span).
    set (D' := if overwrite_dst_pan_id cfg && dp then [PAN mod 256; PAN / 256]%N else D).
    set (S' := if overwrite_src_pan_id cfg && sp then [PAN mod 256; PAN / 256]%N else S).
    set (target := mkAfRepr dpan' (Some dst) span' (Some src)).
    assert (TO : addressing_octets target = D' ++ A ++ S' ++ B).
    { unfold addressing_octets, target. cbn [ar_src_pan_id ar_dst_pan_id ar_dst_address ar_src_address]. rewrite AD, AS.
      unfold dpan', span', D', S'. destruct (overwrite_dst_pan_id cfg && dp), (overwrite_src_pan_id cfg && sp); rewrite ?PD, ?PS; reflexivity. }
    assert (LD' : length D' = length D).
    { unfold D'. destruct dp; [|rewrite andb_false_r; reflexivity]. destruct (overwrite_dst_pan_id cfg); [symmetry; exact LD|reflexivity]. }
    assert (LS' : length S' = length S).
    { unfold S'. destruct sp; [|rewrite andb_false_r; reflexivity]. destruct (overwrite_src_pan_id cfg); [symmetry; exact LSS|reflexivity]. }
    assert (TW : data_set_addressing_fields target b = Done (firstn (mhr_size r) b ++ D' ++ A ++ S' ++ B ++ post)).
    { unfold data_set_addressing_fields. rewrite EC. cbn [bind]. rewrite Gn. cbn [bind]. rewrite <- mhr_seq.
      rewrite slice_to_ok, slice_from_ok by exact HL. cbn [bind]. fold tl.
      rewrite af_write_fields_ok.
      - cbn [bind]. rewrite TO. rewrite <- !app_assoc. do 6 f_equal. unfold post. f_equal. rewrite LS, !app_length. unfold ob, os, oa. lia.
      - unfold target, afr_wf. cbn [ar_src_pan_id ar_dst_pan_id ar_dst_address ar_src_address]. repeat split.
        + unfold dpan'. intros v EV. destruct (overwrite_dst_pan_id cfg && dp); [injection EV as <-; exact HPAN|auto].
        + unfold span'. intros v EV. destruct (overwrite_src_pan_id cfg && sp); [injection EV as <-; exact HPAN|auto].
        + intros a EV. injection EV as <-. exact WD.
        + intros a EV. injection EV as <-. exact WS.
      - rewrite TO, !app_length. unfold ob, os, oa in *. lia. }
    assert (BB : firstn (mhr_size r) b ++ D ++ A ++ S ++ B ++ post = b) by (rewrite <- TL; apply firstn_skipn).
    match goal with |- (let* (a, b') := ?X in _) = _ => assert (XX : X = Done (tt, firstn (mhr_size r) b ++ D' ++ A ++ S' ++ B ++ post)) end.
    { set (differs := fun o : option N => match o with Some p => negb (p =? PAN)%N | None => false end).
      change (match span with Some p => negb (p =? PAN)%N | None => false end) with (differs span).
      assert (DD : overwrite_dst_pan_id cfg && differs dpan = false -> dpan' = dpan /\ D' = D).
      { intros H. assert (X : dpan' = dpan).
        { unfold dpan'. destruct (overwrite_dst_pan_id cfg); [|reflexivity]. cbn [andb] in *. destruct dp; [|reflexivity].
          unfold dpan in *. cbn [pan_at differs] in *. apply negb_false_iff, N.eqb_eq in H. congruence. }
        split; [exact X|]. rewrite <- PD, <- X. unfold dpan', D'. destruct (overwrite_dst_pan_id cfg && dp); [reflexivity|symmetry; exact PD]. }
      assert (DS : overwrite_src_pan_id cfg && differs span = false -> span' = span /\ S' = S).
      { intros H. assert (X : span' = span).
        { unfold span'. destruct (overwrite_src_pan_id cfg); [|reflexivity]. cbn [andb] in *. destruct sp; [|reflexivity].
          unfold span in *. cbn [pan_at differs] in *. apply negb_false_iff, N.eqb_eq in H. congruence. }
        split; [exact X|]. rewrite <- PS, <- X. unfold span', S'. destruct (overwrite_src_pan_id cfg && sp); [reflexivity|symmetry; exact PS]. }
      assert (CD : overwrite_dst_pan_id cfg && differs dpan = true -> dpan' = Some PAN).
      { intros H. apply andb_true_iff in H. destruct H as [H1 H2]. unfold dpan', dpan in *. rewrite H1. destruct dp; [reflexivity|discriminate]. }
      assert (CS : overwrite_src_pan_id cfg && differs span = true -> span' = Some PAN).
      { intros H. apply andb_true_iff in H. destruct H as [H1 H2]. unfold span', span in *. rewrite H1. destruct sp; [reflexivity|discriminate]. }
      destruct (overwrite_src_pan_id cfg && differs span) eqn:EV1; unfold q; cbn [ar_src_pan_id ar_dst_pan_id ar_dst_address ar_src_address orb].
      - change (match dpan with Some p => negb (p =? PAN)%N | None => false end) with (differs dpan).
        assert (X1 := CS eq_refl).
        destruct (overwrite_dst_pan_id cfg && differs dpan) eqn:EV2.
        + assert (X2 := CD eq_refl). cbn [ar_src_pan_id ar_dst_pan_id ar_dst_address ar_src_address].
          replace (mkAfRepr (Some PAN) (Some dst) (Some PAN) (Some src)) with target by (unfold target; congruence). rewrite TW. reflexivity.
        + destruct (DD eq_refl) as [X2 _].
          replace (mkAfRepr dpan (Some dst) (Some PAN) (Some src)) with target by (unfold target; congruence). rewrite TW. reflexivity.
      - change (match dpan with Some p => negb (p =? PAN)%N | None => false end) with (differs dpan).
        destruct (DS eq_refl) as [X1 X1'].
        destruct (overwrite_dst_pan_id cfg && differs dpan) eqn:EV2.
        + assert (X2 := CD eq_refl). cbn [ar_src_pan_id ar_dst_pan_id ar_dst_address ar_src_address].
          replace (mkAfRepr (Some PAN) (Some dst) span (Some src)) with target by (unfold target; congruence). rewrite TW. reflexivity.
        + destruct (DD eq_refl) as [X2 X2']. rewrite X1', X2', BB. reflexivity. }
    rewrite XX. cbn [bind]. clear XX TW.
    rewrite (window_write buf o n _ HR).
    2:{ assert (Q := f_equal (@length N) BB). rewrite !app_length in *. rewrite LD', LS', Q. exact HLb. }
    cbn [bind]. do 2 f_equal.
    assert (HBUF : buf = (firstn o buf ++ firstn (mhr_size r) b) ++ D ++ A ++ S ++ B ++ post ++ skipn (o + n) buf).
    { rewrite HSP at 1. rewrite <- BB at 1. rewrite <- !app_assoc. reflexivity. }
    set (pre := firstn o buf ++ firstn (mhr_size r) b) in *.
    assert (LP : length pre = o + mhr_size r).
    { unfold pre. rewrite app_length, !firstn_length. lia. }
    set (post' := skipn (o + n) buf) in *. clearbody post'. clearbody pre.
    replace (firstn o buf ++ (firstn (mhr_size r) b ++ D' ++ A ++ S' ++ B ++ post) ++ post') with (pre ++ D' ++ A ++ S' ++ B ++ post ++ post').
    2:{ assert (Q : pre = firstn o buf ++ firstn (mhr_size r) b).
        { clear - LP HBUF HSP BB HR HLb HL. apply (f_equal (firstn (length pre))) in HBUF. rewrite firstn_app, Nat.sub_diag, firstn_all, app_nil_r in HBUF.
          rewrite <- HBUF, LP. rewrite HSP at 1. rewrite firstn_app, firstn_firstn, firstn_length.
          rewrite (Nat.min_r (o + mhr_size r) o) by lia. rewrite (Nat.min_l o (length buf)) by lia. f_equal.
          replace (o + mhr_size r - o) with (mhr_size r) by lia. rewrite firstn_app.
          replace (mhr_size r - length b) with 0 by lia. rewrite firstn_O, app_nil_r. reflexivity. }
        rewrite Q, <- !app_assoc. reflexivity. }
    rewrite HBUF.
    rewrite <- LP.
    rewrite (app_assoc D A), (app_assoc pre (D ++ A)).
    replace (length pre + oa + addr_size (fr_dst_addressing_mode r)) with (length (pre ++ D ++ A)) by (unfold oa; rewrite !app_length; lia).
    rewrite (patch_app (overwrite_src_pan_id cfg && sp) (pre ++ D ++ A) S).
    2:{ destruct sp; [left; exact LSS|right; apply andb_false_r]. }
    fold S'. rewrite <- (app_assoc pre (D ++ A)), <- (app_assoc D A).
    rewrite (patch_app (overwrite_dst_pan_id cfg && dp) pre D).
    2:{ destruct dp; [left; exact LD|right; apply andb_false_r]. }
    reflexivity.
  - intros HN. destruct VA as [[(dp & sp & L & -> & H) _]|[_ [_ ->]]]; [specialize (HN _ _ L); lia|].
    cbn [bind]. rewrite (window_write buf o n b HR HLb), <- HSP. reflexivity.
Qed.

Lemma overwrite_rejects P cfg dv buf : dev_ok dv -> octets buf ->
  (dev_data dv buf = None -> overwrite_pan_id P cfg dv buf = Done (TxErr InvalidDeviceFrame, buf)) /\
  (forall o b, holds dv buf o b -> ~ (exists r, acceptable b r) ->
     overwrite_pan_id P cfg dv buf = Done (TxErr InvalidIEEEFrame, buf)).
Proof.
  intros HDV HO. unfold overwrite_pan_id, with_frame. split.
  - intros ->. reflexivity.
  - intros o b (n & E & ->) HN. rewrite E, slice_window by exact (HDV _ _ _ E). cbn [bind].
    destruct (data_new_result (window buf o n) (window_octets _ _ _ HO)) as [[_ H]|[-> _]]; [contradiction|]. reflexivity.
Qed.

(** ** The two edits are total *)
Lemma ack_requestable_dec cfg b r : acceptable b r -> ack_requestable cfg r b \/ ~ ack_requestable cfg r b.
Proof.
  intros HA. destruct (dst_view b r HA) as (d & HD & _). unfold ack_requestable.
  assert (TT : (fr_frame_type r = FtData \/ fr_frame_type r = FtMacCommand) \/ ~ (fr_frame_type r = FtData \/ fr_frame_type r = FtMacCommand))
    by (destruct (fr_frame_type r); auto; right; intros [|]; discriminate).
  destruct TT as [TT|TT]; [|right; tauto].
  destruct d as [[p a]|].
  - assert (DB : a = short_broadcast \/ a <> short_broadcast).
    { destruct (is_broadcast a) eqn:E; [left; apply is_broadcast_spec; exact E|right; intros C; apply is_broadcast_spec in C; congruence]. }
    destruct DB as [DB|DB].
    + destruct (ack_broadcast cfg) eqn:EK; [left; split; [exact TT|]; exists p, a; auto|].
      right. intros (_ & p' & a' & HD' & [[_ H]|[H _]]); [congruence|]. assert (X := destination_fun _ _ _ _ HD HD'). congruence.
    + destruct (ack_unicast cfg) eqn:EK; [left; split; [exact TT|]; exists p, a; auto|].
      right. intros (_ & p' & a' & HD' & [[H _]|[_ H]]); [|congruence]. assert (X := destination_fun _ _ _ _ HD HD'). congruence.
  - right. intros (_ & p' & a' & HD' & _). assert (X := destination_fun _ _ _ _ HD HD'). discriminate.
Qed.

Lemma octets_of_nth l : (forall i, octet (nth i l 0%N)) -> octets l.
Proof. intros H. apply Forall_nth. intros i d Hi. rewrite (nth_indep l d 0%N Hi). apply H. Qed.
Lemma only_ar_octets buf buf' o ar : octets buf -> only_ar_changed buf buf' o ar -> octets buf'.
Proof.
  intros HO (HL & HN & HO' & _). apply octets_of_nth. intros i. destruct (Nat.eq_dec i o) as [->|N]; [exact HO'|].
  rewrite HN by exact N. apply octets_nth, HO.
Qed.
Lemma set_ack_total cfg dv buf : dev_ok dv -> octets buf -> exists r buf',
  set_ack_request_if_possible cfg dv buf = Done (r, buf') /\ octets buf' /\ length buf' = length buf.
Proof.
  intros HDV HO. destruct (holds_cases dv buf HO) as [(o & b & r & HH & HA)|HN].
  - destruct (set_ack_accepts cfg dv buf o b r HDV HO HH HA) as [H1 H2].
    destruct (ack_requestable_dec cfg b r HA) as [HR|HR].
    + destruct (H1 HR) as (buf' & -> & HC). do 2 eexists. split; [reflexivity|]. split; [eapply only_ar_octets; eassumption|apply HC].
    + rewrite (H2 HR). do 2 eexists. split; [reflexivity|]. auto.
  - destruct (set_ack_rejects cfg dv buf HDV HO) as [H1 H2]. destruct (dev_data dv buf) as [[o n]|] eqn:E.
    + rewrite (H2 o (window buf o n)).
      * do 2 eexists. split; [reflexivity|]. auto.
      * exists n. auto.
      * intros (r & HA). apply HN. exists o, (window buf o n), r. split; [exists n; auto|exact HA].
    + rewrite (H1 eq_refl). do 2 eexists. split; [reflexivity|]. auto.
Qed.
Lemma patch_octets c off pan buf : (pan < 65536)%N -> octets buf -> octets (patch c off pan buf).
Proof.
  intros HP HO. unfold patch. destruct c; [|exact HO]. apply Forall_app. split; [apply octets_firstn, HO|].
  apply Forall_app. split; [|apply octets_skipn, HO]. repeat constructor.
  - unfold octet. apply N.mod_lt. discriminate.
  - unfold octet. apply N.div_lt_upper_bound; lia.
Qed.
Lemma patch_length_fits c off pan buf : (c = true -> off + 2 <= length buf) -> length (patch c off pan buf) = length buf.
Proof.
  intros H. unfold patch. destruct c; [|reflexivity]. specialize (H eq_refl). rewrite !app_length, firstn_length, skipn_length. cbn [length]. lia.
Qed.
Lemma overwrite_total P cfg dv buf : (p_pan_id P < 65536)%N -> dev_ok dv -> octets buf -> exists r buf',
  overwrite_pan_id P cfg dv buf = Done (r, buf') /\ octets buf' /\ length buf' = length buf.
Proof.
  intros HPAN HDV HO. destruct (holds_cases dv buf HO) as [(o & b & r & HH & HA)|HN].
  - destruct (overwrite_accepts P cfg dv buf o b r HPAN HDV HO HH HA) as [H1 H2].
    destruct (dst_view b r HA) as (d & HD & _). inversion HD as [dp sp L HL|HNA]; subst.
    + rewrite (H1 dp sp L HL). do 2 eexists. split; [reflexivity|].
      split; [apply patch_octets; [exact HPAN|apply patch_octets; assumption]|].
      destruct HH as (n & E & ->). assert (HR := HDV _ _ _ E). rewrite window_length in HL by exact HR. unfold layout_size in HL.
      assert (HX : forall c p, c && p = true -> pan_size p = 2) by (intros [] []; try discriminate; reflexivity).
      rewrite patch_length_fits; rewrite patch_length_fits; try reflexivity; intros HC; apply HX in HC; lia.
    + rewrite (H2 HNA). do 2 eexists. split; [reflexivity|]. auto.
  - destruct (overwrite_rejects P cfg dv buf HDV HO) as [H1 H2]. destruct (dev_data dv buf) as [[o n]|] eqn:E.
    + rewrite (H2 o (window buf o n)).
      * do 2 eexists. split; [reflexivity|]. auto.
      * exists n. auto.
      * intros (r & HA). apply HN. exists o, (window buf o n), r. split; [exists n; auto|exact HA].
    + rewrite (H1 eq_refl). do 2 eexists. split; [reflexivity|]. auto.
Qed.
