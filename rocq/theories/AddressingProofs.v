(** AddressingProofs.v *)
From Verif Require Import Base BaseProofs Spec SpecFrame BitProofs FrameControl FrameControlProofs
  Addressing SpecAddressing.
From Coq Require Import ZifyBool ZifyNat ZifyN.

(** ** Address *)
Lemma bytes_eqb_eq a b : bytes_eqb a b = true <-> a = b.
Proof.
  revert b; induction a as [|x a IH]; intros [|y b]; simpl; split; try congruence; try reflexivity.
  - rewrite andb_true_iff, N.eqb_eq, IH. intros [-> ->]. reflexivity.
  - intros H; injection H as -> ->. rewrite N.eqb_refl. simpl. apply IH. reflexivity.
Qed.

Lemma address_eqb_eq a b : address_eqb a b = true <-> a = b.
Proof.
  destruct a, b; simpl; split; try congruence; rewrite bytes_eqb_eq; congruence.
Qed.

Lemma is_broadcast_spec a : is_broadcast a = true <-> a = AShort [255; 255]%N.
Proof. apply address_eqb_eq. Qed.

(** ** Presence flags against the standard *)
Lemma flags_spec v d s c dp sp : d <> AmUnknown -> s <> AmUnknown ->
  (address_present_flags v d s c = Some (dp, d, sp, s) <-> ieee_presence v d s c dp sp).
Proof.
  intros Hd Hs. unfold ieee_presence.
  destruct v; cbn [address_present_flags].
  1,2: unfold legacy_presence; destruct d, s, c, dp, sp; try congruence; cbn;
    (split; [intros H; try discriminate H; repeat split; congruence
            |intros (_ & _ & H1 & H2 & H3 & H4); try congruence; try (specialize (H2 eq_refl)); congruence]).
  - split.
    + intros H. split; [exact Hd|]. split; [exact Hs|].
      destruct d, s, c; try congruence; cbn in H; injection H as <- <-;
      first
      [ exists No, No; split; [cbn; tauto|split; reflexivity]
      | exists Any, No; split; [cbn; tauto|split; reflexivity]
      | exists No, Any; split; [cbn; tauto|split; reflexivity]
      | exists Ex, Ex; split; [cbn; tauto|split; reflexivity]
      | exists Sh, Sh; split; [cbn; tauto|split; reflexivity]
      | exists Sh, Ex; split; [cbn; tauto|split; reflexivity]
      | exists Ex, Sh; split; [cbn; tauto|split; reflexivity] ].
    + intros (_ & _ & x & y & HI & H1 & H2). cbn in HI.
      repeat (destruct HI as [HI|HI]; [injection HI as <- <- <- <- <-; cbn in H1, H2; destruct d, s; try discriminate; try congruence; reflexivity|]).
      contradiction.
  - split; [discriminate|intros (_ & _ & [])].
Qed.

Lemma flags_modes v d s c dp d' sp s' :
  address_present_flags v d s c = Some (dp, d', sp, s') -> d' = d /\ s' = s.
Proof. destruct v, d, s, c; cbn; intros H; try discriminate; injection H as <- <- <- <-; auto. Qed.

Lemma flags_total v d s c : d <> AmUnknown -> s <> AmUnknown ->
  (exists dp sp, address_present_flags v d s c = Some (dp, d, sp, s)) \/
  (address_present_flags v d s c = None /\ forall dp sp, ~ ieee_presence v d s c dp sp).
Proof.
  intros Hd Hs. destruct (address_present_flags v d s c) as [[[[dp d'] sp] s']|] eqn:E.
  - destruct (flags_modes _ _ _ _ _ _ _ _ E) as [-> ->]. left; eauto.
  - right. split; [reflexivity|]. intros dp sp H. apply flags_spec in H; [|assumption|assumption]. congruence.
Qed.

(** ** Reading the frame control of an addressing reader *)
(** [fc_view fc v d s c]: the octets [fc] decode to these four values. *)
Definition fc_view (fc : list N) (v : FrameVersion) (d s : AddressingMode) (c : bool) : Prop :=
  fc_frame_version fc = Done v /\ fc_dst_addressing_mode fc = Done d /\
  fc_src_addressing_mode fc = Done s /\ fc_pan_id_compression fc = Done c.

Lemma fc_view_exists fc : 2 <= length fc -> exists v d s c, fc_view fc v d s c.
Proof.
  intros H. destruct fc as [|b0 [|b1 rest]]; simpl in H; try lia.
  destruct (fc_getters _ _ (fc_raw_cons b0 b1 rest)) as (h1 & h2 & h3 & h4 & h5 & h6 & h7 & h8 & h9 & h10).
  do 4 eexists. repeat split; eassumption.
Qed.

Lemma af_flags_view b fc v d s c : fc_view fc v d s c ->
  af_flags (mkAf b fc) = Done (address_present_flags v d s c).
Proof. intros (h1 & h2 & h3 & h4). unfold af_flags. cbn [af_fc]. rewrite h1, h2, h3, h4. reflexivity. Qed.

Lemma size_eq m : AddressingMode_size m = addr_size m.
Proof. destruct m; reflexivity. Qed.

Lemma two_if_eq p : two_if p = pan_size p.
Proof. destruct p; reflexivity. Qed.

Lemma read_pan_ok b off : off + 2 <= length b ->
  (let* s := slice_from b off in let* s := slice_to s 2 in
   let* x := idx s 0 in let* y := idx s 1 in Done (Some (from_le [x; y]))) =
  Done (pan_at true b off).
Proof.
  intros H. rewrite slice_from_ok by lia. cbn [bind].
  rewrite slice_to_ok by (rewrite skipn_length; lia). cbn [bind].
  rewrite !idx_ok by (rewrite firstn_length, skipn_length; lia). cbn [bind from_le].
  unfold pan_at. do 2 f_equal.
  assert (E : forall i, i < 2 -> nth i (firstn 2 (skipn off b)) 0%N = nth (off + i) b 0%N).
  { intros i Hi. rewrite <- (firstn_skipn off b) at 2.
    rewrite app_nth2 by (rewrite firstn_length; lia). rewrite firstn_length, Nat.min_l by lia.
    replace (off + i - off) with i by lia.
    rewrite <- (firstn_skipn 2 (skipn off b)) at 2. rewrite app_nth1 by (rewrite firstn_length, skipn_length; lia).
    reflexivity. }
  rewrite (E 0), (E 1) by lia. rewrite Nat.add_0_r. lia.
Qed.

Lemma read_pan0_ok b : 2 <= length b ->
  (let* s := slice_to b 2 in
   let* x := idx s 0 in let* y := idx s 1 in Done (Some (from_le [x; y]))) =
  Done (pan_at true b 0).
Proof.
  intros H. rewrite <- (read_pan_ok b 0) by lia. unfold slice_from. simpl. reflexivity.
Qed.

Lemma read_address_ok b m off : off + addr_size m <= length b -> m <> AmUnknown ->
  af_read_address b m off = Done (Some (addr_at m b off)).
Proof.
  intros H Hm. destruct m; cbn [af_read_address addr_at addr_size] in *; try congruence.
  - rewrite slice_ok by lia. unfold window. replace (off + 2 - off) with 2 by lia. reflexivity.
  - rewrite slice_ok by lia. unfold window. replace (off + 8 - off) with 8 by lia. reflexivity.
Qed.

(** Everything about an accepted addressing reader. *)
Lemma af_accepted b fc v d s c dp sp :
  fc_view fc v d s c -> ieee_presence v d s c dp sp ->
  pan_size dp + addr_size d + pan_size sp + addr_size s <= length b ->
  let af := mkAf b fc in
  af_new b fc = Done (Ok af) /\
  af_len af = Done (pan_size dp + addr_size d + pan_size sp + addr_size s) /\
  af_dst_pan_id af = Done (pan_at dp b 0) /\
  af_dst_address af = Done (Some (addr_at d b (pan_size dp))) /\
  af_src_pan_id af = Done (pan_at sp b (pan_size dp + addr_size d)) /\
  af_src_address af = Done (Some (addr_at s b (pan_size dp + addr_size d + pan_size sp))).
Proof.
  intros HV HP HL. cbv zeta.
  assert (Hd : d <> AmUnknown) by apply HP. assert (Hs : s <> AmUnknown) by apply HP.
  assert (HF : address_present_flags v d s c = Some (dp, d, sp, s)) by (apply flags_spec; assumption).
  assert (HA := af_flags_view b fc v d s c HV).
  rewrite HF in HA. clear HF HP.
  assert (H1 : af_dst_pan_id (mkAf b fc) = Done (pan_at dp b 0)).
  { unfold af_dst_pan_id. rewrite HA. cbn [bind af_buffer]. destruct dp; [|reflexivity].
    apply read_pan0_ok. simpl in HL. lia. }
  assert (H2 : af_src_pan_id (mkAf b fc) = Done (pan_at sp b (pan_size dp + addr_size d))).
  { unfold af_src_pan_id. rewrite HA. cbn [bind af_buffer]. rewrite size_eq, two_if_eq.
    destruct sp; [|reflexivity]. apply read_pan_ok. simpl in HL. lia. }
  split.
  { unfold af_new, af_check_len. rewrite HA. cbn [bind af_buffer].
    rewrite (size_eq d), (size_eq s), (two_if_eq dp), (two_if_eq sp). apply Nat.leb_le in HL. rewrite HL. reflexivity. }
  split.
  { unfold af_len. rewrite H1, H2. cbn [bind af_fc].
    destruct HV as (_ & -> & -> & _). cbn [bind].
    destruct d, s; try congruence; cbn [bind mode_len]; f_equal; destruct dp, sp; reflexivity. }
  split; [exact H1|]. split.
  { unfold af_dst_address. rewrite HA. cbn [bind af_buffer]. rewrite two_if_eq.
    apply read_address_ok; [lia|exact Hd]. }
  split; [exact H2|].
  unfold af_src_address. rewrite HA. cbn [bind af_buffer]. rewrite (size_eq d), (two_if_eq dp), (two_if_eq sp).
  apply read_address_ok; [lia|exact Hs].
Qed.

Lemma af_rejected b fc v d s c :
  fc_view fc v d s c -> d <> AmUnknown -> s <> AmUnknown ->
  (forall dp sp, ieee_presence v d s c dp sp ->
     length b < pan_size dp + addr_size d + pan_size sp + addr_size s) ->
  af_new b fc = Done Err.
Proof.
  intros HV Hd Hs Hno. unfold af_new, af_check_len. rewrite (af_flags_view b fc v d s c HV).
  destruct (flags_total v d s c Hd Hs) as [(dp & sp & HF)|[HF _]]; rewrite HF; cbn [bind].
  - cbn [af_buffer]. rewrite (size_eq d), (size_eq s), (two_if_eq dp), (two_if_eq sp).
    assert (length b < pan_size dp + addr_size d + pan_size sp + addr_size s) by (apply Hno, flags_spec; assumption).
    destruct (Nat.leb_spec (pan_size dp + addr_size d + pan_size sp + addr_size s) (length b)); [lia|reflexivity].
  - reflexivity.
Qed.

Lemma ieee_presence_fun v d s c dp sp dp' sp' :
  ieee_presence v d s c dp sp -> ieee_presence v d s c dp' sp' -> dp = dp' /\ sp = sp'.
Proof.
  intros H H'. assert (Hd : d <> AmUnknown) by apply H. assert (Hs : s <> AmUnknown) by apply H.
  apply flags_spec in H, H'; try assumption. rewrite H in H'. injection H' as <- <-. auto.
Qed.

(** af_new never panics *)
Lemma af_new_no_panic b fc : 2 <= length fc -> af_new b fc <> Panic.
Proof.
  intros H. destruct (fc_view_exists fc H) as (v & d & s & c & HV).
  unfold af_new, af_check_len. rewrite (af_flags_view b fc v d s c HV). cbn [bind].
  destruct (address_present_flags v d s c) as [[[[dp dm] sp] sm]|]; cbn [bind]; [destruct (_ <=? _)|]; discriminate.
Qed.

(** characterisation of acceptance with known modes *)
Lemma af_new_ok_inv b fc v d s c af :
  fc_view fc v d s c -> d <> AmUnknown -> s <> AmUnknown ->
  af_new b fc = Done (Ok af) ->
  af = mkAf b fc /\ exists dp sp, ieee_presence v d s c dp sp /\
    pan_size dp + addr_size d + pan_size sp + addr_size s <= length b.
Proof.
  intros HV Hd Hs. unfold af_new, af_check_len. rewrite (af_flags_view b fc v d s c HV). cbn [bind].
  destruct (flags_total v d s c Hd Hs) as [(dp & sp & HF)|[HF _]]; rewrite HF; cbn [bind]; [|discriminate].
  cbn [af_buffer]. rewrite (size_eq d), (size_eq s), (two_if_eq dp), (two_if_eq sp).
  destruct (Nat.leb_spec (pan_size dp + addr_size d + pan_size sp + addr_size s) (length b)) as [HL|HL]; [|discriminate].
  intros E; injection E as <-. split; [reflexivity|]. exists dp, sp. split; [apply flags_spec; assumption|exact HL].
Qed.

(** ** In terms of [fc_is] *)
Lemma fc_is_view fc r : fc_is fc r ->
  fc_view fc (fr_frame_version r) (fr_dst_addressing_mode r) (fr_src_addressing_mode r) (fr_pan_id_compression r).
Proof.
  intros H. destruct (fc_is_getters fc r H) as (h1 & h2 & h3 & h4 & h5 & h6 & h7 & h8 & h9 & h10).
  repeat split; assumption.
Qed.

Lemma c08_accepted fc r b dp sp : fc_is fc r -> layout r dp sp -> layout_size r dp sp <= length b ->
  af_new b fc = Done (Ok (mkAf b fc)) /\
  af_len (mkAf b fc) = Done (layout_size r dp sp) /\
  af_dst_pan_id (mkAf b fc) = Done (pan_at dp b 0) /\
  af_dst_address (mkAf b fc) = Done (Some (addr_at (fr_dst_addressing_mode r) b (pan_size dp))) /\
  af_src_pan_id (mkAf b fc) = Done (pan_at sp b (pan_size dp + addr_size (fr_dst_addressing_mode r))) /\
  af_src_address (mkAf b fc) = Done (Some (addr_at (fr_src_addressing_mode r) b
     (pan_size dp + addr_size (fr_dst_addressing_mode r) + pan_size sp))).
Proof.
  intros HF HP HL. exact (af_accepted b fc _ _ _ _ dp sp (fc_is_view fc r HF) HP HL).
Qed.

Lemma c08_rejected fc r b : fc_is fc r ->
  fr_dst_addressing_mode r <> AmUnknown -> fr_src_addressing_mode r <> AmUnknown ->
  (forall dp sp, layout r dp sp -> length b < layout_size r dp sp) ->
  af_new b fc = Done Err.
Proof.
  intros HF Hd Hs H. exact (af_rejected b fc _ _ _ _ (fc_is_view fc r HF) Hd Hs H).
Qed.

(** only the first [len] octets matter *)
Lemma pan_at_prefix p b b' off n : off + pan_size p <= n -> firstn n b = firstn n b' -> n <= length b ->
  n <= length b' -> pan_at p b off = pan_at p b' off.
Proof.
  intros H E HL HL'. destruct p; [|reflexivity]. simpl in H. unfold pan_at.
  assert (Q : forall i, i < n -> nth i b 0%N = nth i b' 0%N).
  { intros i Hi. rewrite <- (firstn_skipn n b), <- (firstn_skipn n b'), E.
    rewrite !app_nth1; [reflexivity| |]; rewrite firstn_length; lia. }
  rewrite (Q off), (Q (off + 1)) by lia. reflexivity.
Qed.

Lemma window_prefix b b' off k n : off + k <= n -> firstn n b = firstn n b' -> window b off k = window b' off k.
Proof.
  intros H E. unfold window. rewrite !firstn_skipn_comm.
  rewrite <- (Nat.min_l (off + k) n) by lia. rewrite <- !firstn_firstn, E. reflexivity.
Qed.

Lemma addr_at_prefix m b b' off n : off + addr_size m <= n -> firstn n b = firstn n b' ->
  addr_at m b off = addr_at m b' off.
Proof.
  intros H E. destruct m; simpl in *; try reflexivity; do 2 f_equal; eapply window_prefix; eassumption.
Qed.

Lemma c08_reads_prefix fc r b b' dp sp : fc_is fc r -> layout r dp sp ->
  layout_size r dp sp <= length b -> layout_size r dp sp <= length b' ->
  firstn (layout_size r dp sp) b = firstn (layout_size r dp sp) b' ->
  afr_parse (mkAf b fc) = afr_parse (mkAf b' fc).
Proof.
  intros HF HP HL HL' E.
  destruct (c08_accepted fc r b dp sp HF HP HL) as (_ & _ & h1 & h2 & h3 & h4).
  destruct (c08_accepted fc r b' dp sp HF HP HL') as (_ & _ & k1 & k2 & k3 & k4).
  unfold afr_parse. rewrite h1, h2, h3, h4, k1, k2, k3, k4. cbn [bind].
  rewrite (pan_at_prefix dp b b' 0 (layout_size r dp sp)) by (try assumption; unfold layout_size; lia).
  rewrite (pan_at_prefix sp b b' _ (layout_size r dp sp)) by (try assumption; unfold layout_size; lia).
  rewrite (addr_at_prefix (fr_dst_addressing_mode r) b b' _ (layout_size r dp sp)) by (try assumption; unfold layout_size; lia).
  rewrite (addr_at_prefix (fr_src_addressing_mode r) b b' _ (layout_size r dp sp)) by (try assumption; unfold layout_size; lia).
  reflexivity.
Qed.

(** ** Writing *)
Lemma pan_octets_to_le p : (p < 65536)%N -> to_le 2 p = pan_octets (Some p).
Proof.
  intros H. simpl. rewrite (N.mod_small (p / 256)); [reflexivity|]. apply N.div_lt_upper_bound; lia.
Qed.

Lemma addr_octets_len a : address_wf a -> length (addr_octets (Some a)) = address_len a.
Proof. destruct a; simpl; intros H; [reflexivity| |]; rewrite rev_length; tauto. Qed.

Lemma write_pan_app pre post p : (forall v, p = Some v -> (v < 65536)%N) ->
  length (pan_octets p) <= length post ->
  write_pan (pre ++ post) (length pre) p =
  Done (pre ++ pan_octets p ++ skipn (length (pan_octets p)) post, length (pre ++ pan_octets p)).
Proof.
  intros Hp HL. destruct p as [v|]; cbn [write_pan].
  - rewrite pan_octets_to_le by auto. rewrite <- (firstn_skipn 2 post) at 1.
    rewrite write_at_app; [|rewrite firstn_length; cbn [pan_octets length] in *; lia]. cbn [bind].
    rewrite app_length. simpl. reflexivity.
  - simpl. rewrite app_nil_r. reflexivity.
Qed.

Lemma as_bytes_octets a : rev (as_bytes a) = addr_octets (Some a).
Proof. destruct a; reflexivity. Qed.

Lemma write_address_app pre post a : (forall x, a = Some x -> address_wf x) ->
  length (addr_octets a) <= length post ->
  write_address (pre ++ post) (length pre) a =
  Done (pre ++ addr_octets a ++ skipn (length (addr_octets a)) post, length (pre ++ addr_octets a)).
Proof.
  intros Hp HL. destruct a as [v|]; cbn [write_address].
  - rewrite as_bytes_octets. rewrite <- (firstn_skipn (length (addr_octets (Some v))) post) at 1.
    rewrite write_at_app; [|rewrite firstn_length; lia]. cbn [bind].
    rewrite app_length. rewrite (addr_octets_len v) by auto. reflexivity.
  - simpl. rewrite app_nil_r. reflexivity.
Qed.

Lemma skipn_skipn' {A} n m (l : list A) : skipn n (skipn m l) = skipn (m + n) l.
Proof.
  revert l; induction m as [|m IH]; intros l; [reflexivity|].
  destruct l as [|x l]; simpl; [apply skipn_nil|apply IH].
Qed.

(** the values of a representation fit the Rust types *)
Definition afr_wf (r : AddressingFieldsRepr) : Prop :=
  (forall v, ar_dst_pan_id r = Some v -> (v < 65536)%N) /\
  (forall v, ar_src_pan_id r = Some v -> (v < 65536)%N) /\
  (forall a, ar_dst_address r = Some a -> address_wf a) /\
  (forall a, ar_src_address r = Some a -> address_wf a).

Lemma af_write_fields_ok b r : afr_wf r -> length (addressing_octets r) <= length b ->
  af_write_fields b r = Done (addressing_octets r ++ skipn (length (addressing_octets r)) b).
Proof.
  intros (H1 & H2 & H3 & H4) HL. unfold addressing_octets in *. rewrite !app_length in HL.
  unfold af_write_fields.
  rewrite (write_pan_app [] b) by (assumption || (clear - HL; lia)). cbn [bind app].
  rewrite write_address_app by (assumption || (rewrite skipn_length; clear - HL; lia)). cbn [bind].
  rewrite app_assoc.
  rewrite write_pan_app by (assumption || (rewrite !skipn_length; clear - HL; lia)). cbn [bind].
  rewrite app_assoc.
  rewrite write_address_app by (assumption || (rewrite !skipn_length; clear - HL; lia)). cbn [bind].
  f_equal. rewrite !skipn_skipn', !app_length, <- !app_assoc, !Nat.add_assoc. reflexivity.
Qed.

Lemma repr_matches_wf r d s dp sp : repr_matches r d s dp sp -> afr_wf r.
Proof.
  intros ((da & sa & E1 & E2 & _ & _ & W1 & W2) & HD & HS). repeat split.
  - intros v E. destruct dp; [destruct HD as (p & Ep & Hp)|congruence]. rewrite Ep in E. injection E as <-. exact Hp.
  - intros v E. destruct sp; [destruct HS as (p & Ep & Hp)|congruence]. rewrite Ep in E. injection E as <-. exact Hp.
  - intros a E. congruence.
  - intros a E. congruence.
Qed.

Lemma mode_len_addr a : address_len a = addr_size (mode_of_address a).
Proof. destruct a; reflexivity. Qed.

Lemma repr_matches_len r d s dp sp : repr_matches r d s dp sp ->
  length (pan_octets (ar_dst_pan_id r)) = pan_size dp /\
  length (addr_octets (ar_dst_address r)) = addr_size d /\
  length (pan_octets (ar_src_pan_id r)) = pan_size sp /\
  length (addr_octets (ar_src_address r)) = addr_size s.
Proof.
  intros ((da & sa & E1 & E2 & M1 & M2 & W1 & W2) & HD & HS).
  rewrite E1, E2, (addr_octets_len da W1), (addr_octets_len sa W2), !mode_len_addr, M1, M2.
  repeat split.
  - destruct dp; [destruct HD as (p & -> & _)|rewrite HD]; reflexivity.
  - destruct sp; [destruct HS as (p & -> & _)|rewrite HS]; reflexivity.
Qed.

Lemma pan_at_app pre p post : (p < 65536)%N -> pan_at true (pre ++ pan_octets (Some p) ++ post) (length pre) = Some p.
Proof.
  intros H. unfold pan_at, pan_octets. rewrite (app_nth2 pre) by lia. rewrite (app_nth2 pre) by lia. rewrite Nat.sub_diag.
  replace (length pre + 1 - length pre) with 1 by lia. simpl.
  f_equal. rewrite N.add_comm. symmetry. apply N.div_mod. lia.
Qed.

Lemma window_app pre w post : window (pre ++ w ++ post) (length pre) (length w) = w.
Proof.
  unfold window. rewrite skipn_app, skipn_all, Nat.sub_diag. simpl.
  rewrite firstn_app, firstn_all, Nat.sub_diag. simpl. apply app_nil_r.
Qed.

Lemma addr_at_app pre a post : address_wf a ->
  addr_at (mode_of_address a) (pre ++ addr_octets (Some a) ++ post) (length pre) = a.
Proof.
  intros W. destruct a as [|v|v]; simpl in *; [reflexivity| |];
    destruct W as [HL _]; f_equal.
  - replace 2 with (length (rev v)) by (rewrite rev_length; exact HL). rewrite window_app. apply rev_involutive.
  - replace 8 with (length (rev v)) by (rewrite rev_length; exact HL). rewrite window_app. apply rev_involutive.
Qed.

Lemma c09_roundtrip fc fr r b dp sp : fc_is fc fr -> layout fr dp sp ->
  repr_matches r (fr_dst_addressing_mode fr) (fr_src_addressing_mode fr) dp sp ->
  layout_size fr dp sp <= length b ->
  length (addressing_octets r) = layout_size fr dp sp /\
  af_write_fields b r = Done (addressing_octets r ++ skipn (layout_size fr dp sp) b) /\
  afr_parse (mkAf (addressing_octets r ++ skipn (layout_size fr dp sp) b) fc) = Done r.
Proof.
  intros HF HP HM HL.
  destruct (repr_matches_len _ _ _ _ _ HM) as (L1 & L2 & L3 & L4).
  assert (LL : length (addressing_octets r) = layout_size fr dp sp).
  { unfold addressing_octets, layout_size. rewrite !app_length. clear - L1 L2 L3 L4. lia. }
  split; [exact LL|]. split.
  { rewrite <- LL. apply af_write_fields_ok; [eapply repr_matches_wf; exact HM|rewrite LL; exact HL]. }
  destruct (c08_accepted fc fr (addressing_octets r ++ skipn (layout_size fr dp sp) b) dp sp HF HP)
    as (_ & _ & h1 & h2 & h3 & h4).
  { rewrite app_length. clear - LL. lia. }
  unfold afr_parse. rewrite h1, h2, h3, h4. cbn [bind]. f_equal.
  destruct HM as ((da & sa & E1 & E2 & M1 & M2 & W1 & W2) & HD & HS).
  set (post := skipn _ b). clearbody post. clear h1 h2 h3 h4 HF HP HL.
  destruct r as [p1 a1 p2 a2]. cbn [ar_dst_pan_id ar_dst_address ar_src_pan_id ar_src_address] in *.
  subst a1 a2. unfold addressing_octets. cbn [ar_dst_pan_id ar_dst_address ar_src_pan_id ar_src_address].
  rewrite <- !app_assoc.
  f_equal.
  - destruct dp; [destruct HD as (p & -> & Hp); apply (pan_at_app [] p); exact Hp|subst p1; reflexivity].
  - f_equal. rewrite <- L1, <- M1. apply addr_at_app. exact W1.
  - destruct sp; [destruct HS as (p & -> & Hp)|subst p2; reflexivity].
    rewrite <- L1, <- L2, <- app_length, app_assoc. apply pan_at_app. exact Hp.
  - f_equal. rewrite <- L1, <- L2, <- L3, <- M2, <- !app_length.
    rewrite !app_assoc. rewrite <- (app_assoc _ _ post). apply addr_at_app. exact W2.
Qed.
