(** PropBeacon.v -- C61: beacon fields. *)
From Verif Require Import Base BaseProofs Spec FrameControl Addressing Macro SpecMacro PropMacro IeContent Beacon BitProofs SlotframeProofs.

(** standard: GTS specification octet: bits 0-2 the number of descriptors; then, if it is not zero, one octet
    with the directions and 3 octets per descriptor *)
Definition std_gts_count (b : list N) : nat := N.to_nat (field 0 3 (nth 0 b 0%N)).
Definition std_gts_size (b : list N) : nat := if std_gts_count b =? 0 then 1 else 2 + 3 * std_gts_count b.
Definition std_slot (b : list N) (i : nat) : list N := firstn 3 (skipn (2 + 3 * i) b).
(** pending address specification: bits 0-2 short, bits 4-6 extended addresses, in this order *)
Definition std_pa_short (b : list N) : nat := N.to_nat (field 0 3 (nth 0 b 0%N)).
Definition std_pa_ext (b : list N) : nat := N.to_nat (field 4 3 (nth 0 b 0%N)).
Definition std_pa_size (b : list N) : nat := 1 + 2 * std_pa_short b + 8 * std_pa_ext b.
Definition std_pa (b : list N) : list Address :=
  map (fun i => AShort (firstn 2 (skipn (1 + 2 * i) b))) (seq 0 (std_pa_short b)) ++
  map (fun i => AExtended (firstn 8 (skipn (1 + 2 * std_pa_short b + 8 * i) b))) (seq 0 (std_pa_ext b)).


Lemma field_first k n b : (k + n <= 8)%N -> octets b -> 1 <= length b -> field k n (from_le b) = field k n (nth 0 b 0%N).
Proof.
  intros K H L. pose proof (field_sub_octet 0 (N.to_nat k) (N.to_nat n) b H ltac:(lia) ltac:(lia)) as E.
  rewrite !N2Nat.id in E. rewrite <- E. f_equal. lia.
Qed.

Lemma records_ok ds : packed 0 ds = true -> forall b, octets b -> rec_size ds <= length b ->
  forall i d, nth_error ds i = Some d -> get ds i b = Done (value_at d (position ds i) b).
Proof.
  intros HP b HO HL i d Hd. destruct (C30_macro_partial ds HP) as [_ H]. apply H; [exact HO| |exact Hd].
  unfold rec_new. destruct (Nat.leb_spec (rec_size ds) (length b)); [reflexivity|lia].
Qed.

Lemma gts_count_ok b : octets b -> 1 <= length b -> gts_count b = Done (std_gts_count b).
Proof.
  intros HO HL. unfold gts_count, get_num. rewrite (records_ok GtsSpecification eq_refl b HO HL 0 _ eq_refl). cbn [bind].
  unfold value_at. cbn [d_ty bts]. change (N.of_nat (position GtsSpecification 0)) with 0%N.
  change (N.of_nat (width (bts TU8 3))) with 3%N. rewrite field_first by (assumption || lia). reflexivity.
Qed.

(** the slots iterator *)
Lemma gts_drain d n : length d = 1 + 3 * n -> n <= 7 -> forall fuel i, i < n -> n - i < fuel ->
  drainS gts_next fuel (mkGts d i false) =
  Done (map (fun j => (skipn (1 + 3 * j) d, bit (N.of_nat j) (nth 0 d 0%N))) (seq i (n - i))).
Proof.
  intros HD H7. induction fuel as [|fuel IH]; intros i Hi Hf; [lia|].
  cbn [drainS]. unfold gts_next at 1. cbn [gi_terminated gi_data gi_count]. change (rec_size GtsSlot) with 3.
  destruct (Nat.leb_spec (length d) (1 + i * 3)); [lia|]. rewrite idx_ok by lia. cbn [bind].
  destruct (Nat.ltb_spec i 8); [|lia]. rewrite slice_from_ok by lia. cbn [bind].
  unfold rec_new. change (rec_size GtsSlot) with 3.
  destruct (Nat.leb_spec 3 (length (skipn (1 + i * 3) d))) as [K|K]; [|rewrite skipn_length in K; lia]. cbn [bind].
  assert (BIT : negb (N.land (N.shiftr (nth 0 d 0) (N.of_nat i)) 1 =? 0)%N = bit (N.of_nat i) (nth 0 d 0%N)).
  { change 1%N with (N.ones 1). rewrite N.land_ones, N.shiftr_div_pow2. change (2 ^ 1)%N with 2%N.
    unfold bit. rewrite <- N.bit0_mod, N.bit0_odd. destruct (N.odd _); reflexivity. }
  rewrite BIT. replace (n - i) with (S (n - S i)) by lia. cbn [seq map]. rewrite (Nat.mul_comm i 3).
  destruct (Nat.leb_spec (length d) (1 + (i + 1) * 3)) as [E|E].
  - replace (n - S i) with 0 by lia. destruct fuel as [|fuel]; [lia|]. cbn [drainS]. unfold gts_next. cbn [gi_terminated bind seq map].
    reflexivity.
  - replace (i + 1) with (S i) by lia. rewrite IH by lia. reflexivity.
Qed.

Lemma firstn_skipn_slot b c i : 2 + 3 * c <= length b -> i < c ->
  firstn 3 (skipn (1 + 3 * i) (firstn (1 + c * 3) (skipn 1 b))) = std_slot b i.
Proof.
  intros HL Hi. rewrite skipn_firstn_comm, firstn_firstn, Nat.min_l by lia.
  rewrite AddressingProofs.skipn_skipn'. reflexivity.
Qed.

Lemma field3_le v : (field 0 3 v <= 7)%N.
Proof. pose proof (field_lt 0 3 v). change (2 ^ 3)%N with 8%N in H. lia. Qed.

(** ** Statement and proofs *)
Definition C61_gts_statement : Prop := forall b, octets b -> rec_new GtsSpecification b = Ok b -> gts_slots b <> Panic.
(** an accepted GTS specification may declare more descriptors than there are octets: slots() panics *)
Theorem C61_gts_bounds_refuted : ~ C61_gts_statement.
Proof. intros H. apply (H [1%N]); [repeat constructor|reflexivity|reflexivity]. Qed.
Print Assumptions C61_gts_bounds_refuted.
(** in particular the specification handed out by GtsInfo is cut to one octet, so its slots are never readable *)
Theorem C61_gts_info_refuted : forall b, octets b -> rec_new GtsInfo b = Ok b -> std_gts_count b <> 0 ->
  exists s, gts_info_spec b = Done (Ok s) /\ gts_slots s = Panic.
Proof.
  intros b HO HN HC. destruct b as [|x b]; [discriminate|]. exists [x]. split; [reflexivity|].
  unfold gts_slots, gts_slots_iter. inversion_clear HO as [|? ? Hx HO'].
  rewrite gts_count_ok by ((constructor; [exact Hx|constructor]) || (simpl; lia)).
  unfold std_gts_count in *. cbn [nth bind] in *. destruct (Nat.eqb_spec (N.to_nat (field 0 3 x)) 0); [contradiction|].
  rewrite slice_from_ok by (simpl; lia). cbn [bind skipn]. rewrite slice_to_panic by (simpl; lia). reflexivity.
Qed.
(** and GtsInfo::length() forgets the directions octet *)
Definition C61_gts_length_statement : Prop := forall b, octets b -> 1 <= length b -> gts_info_length b = Done (std_gts_size b).
Theorem C61_gts_length_refuted : ~ C61_gts_length_statement.
Proof. intros H. specialize (H [1%N] ltac:(repeat constructor) ltac:(simpl; lia)). vm_compute in H. discriminate. Qed.
Print Assumptions C61_gts_length_refuted.
(** Beacon::new panics on every input *)
Theorem C61_beacon_refuted : forall b, beacon_new b = Panic.
Proof. reflexivity. Qed.
Print Assumptions C61_beacon_refuted.

(** with enough octets: exactly the declared slots, in order, each with its direction and fields *)
Theorem C61_gts_partial : forall b, octets b -> 1 <= length b ->
  gts_count b = Done (std_gts_count b) /\
  get GtsSpecification 2 b = Done (VBool (bit 7 (nth 0 b 0%N))) /\
  gts_info_length b = Done (1 + 3 * std_gts_count b) /\
  (length b < std_gts_size b -> gts_slots b = Panic) /\
  (std_gts_size b <= length b -> exists sl, gts_slots b = Done sl /\ length sl = std_gts_count b /\
     forall i, i < std_gts_count b -> exists s, nth_error sl i = Some (s, bit (N.of_nat i) (nth 1 b 0%N)) /\
       firstn 3 s = std_slot b i /\
       slot_short_address s = Done (AShort (firstn 2 (std_slot b i))) /\
       slot_starting_slot s = Done (field 0 4 (nth 2 (std_slot b i) 0%N)) /\
       slot_length s = Done (field 4 4 (nth 2 (std_slot b i) 0%N))).
Proof.
  intros b HO HL. pose proof (field3_le (nth 0 b 0%N)) as H7. split; [apply gts_count_ok; assumption|]. split; [|split; [|split]].
  - rewrite (records_ok GtsSpecification eq_refl b HO HL 2 _ eq_refl). unfold value_at. cbn [d_ty bts].
    change (N.of_nat (position GtsSpecification 2)) with 7%N. do 2 f_equal. rewrite !bit_testbit.
    apply (testbit_from_le 0 b 7 HO); lia.
  - destruct b as [|x b]; [simpl in HL; lia|]. inversion_clear HO as [|? ? Hx HO'].
    unfold gts_info_length. change (gts_info_spec (x :: b)) with (Done (Ok [x])). cbn [bind ok unwrap].
    rewrite gts_count_ok by ((constructor; [exact Hx|constructor]) || (simpl; lia)). cbn [bind]. f_equal.
    change (rec_size GtsSlot) with 3. unfold std_gts_count. cbn [nth]. lia.
  - intros HB. unfold gts_slots, gts_slots_iter. rewrite gts_count_ok by assumption. cbn [bind]. unfold std_gts_size in HB.
    destruct (Nat.eqb_spec (std_gts_count b) 0); [lia|]. rewrite slice_from_ok by lia. cbn [bind].
    rewrite slice_to_panic by (rewrite skipn_length; change (rec_size GtsSlot) with 3; lia). reflexivity.
  - intros HB. unfold gts_slots, gts_slots_iter. rewrite gts_count_ok by assumption. cbn [bind]. unfold std_gts_size in HB.
    destruct (Nat.eqb_spec (std_gts_count b) 0) as [E|E].
    + exists []. rewrite E. split; [reflexivity|]. split; [reflexivity|]. intros i Hi. lia.
    + set (c := std_gts_count b) in *. rewrite slice_from_ok by lia. cbn [bind]. change (rec_size GtsSlot) with 3.
      rewrite slice_to_ok by (rewrite skipn_length; lia). cbn [bind].
      set (d := firstn (1 + c * 3) (skipn 1 b)).
      assert (LD : length d = 1 + 3 * c) by (unfold d; rewrite firstn_length, skipn_length; lia).
      assert (C7 : c <= 7) by (unfold c, std_gts_count; lia).
      rewrite (gts_drain d c LD C7 (S (S (length b))) 0) by lia. rewrite Nat.sub_0_r.
      eexists. split; [reflexivity|]. split; [rewrite map_length, seq_length; reflexivity|].
      intros i Hi. exists (skipn (1 + 3 * i) d).
      assert (N1 : nth 0 d 0%N = nth 1 b 0%N).
      { unfold d. destruct b as [|x [|y b]]; simpl in HB, HL |- *; try lia; reflexivity. }
      split.
      { rewrite nth_error_map. rewrite (nth_error_nth' (seq 0 c) 0 (n := i)) by (rewrite seq_length; exact Hi). rewrite seq_nth by exact Hi. cbn [option_map]. rewrite N1. reflexivity. }
      assert (FS : firstn 3 (skipn (1 + 3 * i) d) = std_slot b i) by (unfold d; apply firstn_skipn_slot; [unfold c; lia|exact Hi]).
      assert (OS : octets (skipn (1 + 3 * i) d)) by (apply octets_skipn; unfold d; apply octets_firstn, octets_skipn, HO).
      assert (L3 : rec_size GtsSlot <= length (skipn (1 + 3 * i) d)) by (change (rec_size GtsSlot) with 3; rewrite skipn_length, LD; lia).
      set (s := skipn (1 + 3 * i) d) in *. clearbody s. split; [exact FS|].
      destruct s as [|s0 [|s1 [|s2 s]]]; try (change (rec_size GtsSlot) with 3 in L3; simpl in L3; lia).
      rewrite <- FS. cbn [firstn nth].
      split; [reflexivity|]. unfold slot_starting_slot, slot_length, get_num.
      rewrite (records_ok GtsSlot eq_refl _ OS L3 1 _ eq_refl), (records_ok GtsSlot eq_refl _ OS L3 2 _ eq_refl).
      unfold value_at. cbn [d_ty bts bind].
      change (position GtsSlot 1) with (8 * 2 + 0). change (position GtsSlot 2) with (8 * 2 + 4). unfold width, bts. cbn [d_bits].
      rewrite !field_sub_octet by (assumption || (simpl; lia)). split; reflexivity.
Qed.
Example C61_gts_ex : gts_slots [0x82; 0x01; 0x34; 0x12; 0x11; 0x78; 0x56; 0x14]%N =
  Done [([0x34; 0x12; 0x11; 0x78; 0x56; 0x14]%N, true); ([0x78; 0x56; 0x14]%N, false)].
Proof. reflexivity. Qed.

(** pending addresses *)
Lemma pa_counts_ok b : octets b -> 1 <= length b -> pa_counts b = Done (std_pa_short b, std_pa_ext b).
Proof.
  intros HO HL. destruct b as [|x b]; [simpl in HL; lia|]. inversion_clear HO as [|? ? Hx HO']. unfold pa_counts, get_rec.
  replace (get PendingAddress 0 (x :: b)) with (Done (VRec (Ok [x]))) by reflexivity. cbn [bind ok unwrap].
  assert (OX : octets [x]) by (constructor; [exact Hx|constructor]).
  unfold get_num. rewrite (records_ok PendingAddressSpecification eq_refl [x] OX (le_n 1) 0 _ eq_refl),
    (records_ok PendingAddressSpecification eq_refl [x] OX (le_n 1) 2 _ eq_refl).
  unfold value_at. cbn [d_ty bts bind].
  change (N.of_nat (position PendingAddressSpecification 0)) with 0%N. change (N.of_nat (position PendingAddressSpecification 2)) with 4%N.
  change (N.of_nat (width (bts TU8 3))) with 3%N. rewrite !field_first by (assumption || (simpl; lia)). reflexivity.
Qed.

Lemma pa_drain : forall s e d fuel, length d = 2 * s + 8 * e -> s + e < fuel ->
  drainS pa_next fuel (mkPa d s e false) =
  Done (map (fun i => AShort (firstn 2 (skipn (2 * i) d))) (seq 0 s) ++ map (fun i => AExtended (firstn 8 (skipn (2 * s + 8 * i) d))) (seq 0 e)).
Proof.
  induction s as [|s IH].
  - induction e as [|e IHe]; intros d fuel HD Hf; (destruct fuel as [|fuel]; [lia|]); cbn [drainS]; unfold pa_next at 1; cbn [pi_terminated pi_short pi_ext pi_data].
    + destruct fuel; reflexivity.
    + destruct (Nat.ltb_spec (length d) 8); [lia|]. rewrite slice_to_ok, slice_from_ok by lia. cbn [bind].
      rewrite IHe by (rewrite ?skipn_length; lia). cbn [bind map seq app]. f_equal.
      rewrite <- (seq_shift e 0), map_map. f_equal.
      apply map_ext. intros i. rewrite AddressingProofs.skipn_skipn'. do 3 f_equal. lia.
  - intros e d fuel HD Hf. destruct fuel as [|fuel]; [lia|]. cbn [drainS]. unfold pa_next at 1. cbn [pi_terminated pi_short pi_ext pi_data].
    destruct (Nat.ltb_spec (length d) 2); [lia|]. rewrite slice_to_ok, slice_from_ok by lia. cbn [bind].
    rewrite IH by (rewrite ?skipn_length; lia). cbn [bind].
    change (seq 0 (S s)) with (0 :: seq 1 s). rewrite <- (seq_shift s 0), map_cons, map_map. f_equal. cbn [app]. f_equal. f_equal.
    + apply map_ext. intros i. rewrite AddressingProofs.skipn_skipn'. do 3 f_equal. lia.
    + apply map_ext. intros i. rewrite AddressingProofs.skipn_skipn'. do 3 f_equal. lia.
Qed.

Theorem C61_pending_partial : forall b, octets b -> 1 <= length b ->
  pa_length b = Done (std_pa_size b) /\
  (std_pa_size b <= length b -> pa_addresses b = Done (std_pa b)) /\
  (length b < std_pa_size b -> pa_addresses b = Panic).
Proof.
  intros b HO HL. assert (EL : pa_length b = Done (std_pa_size b)).
  { unfold pa_length. rewrite pa_counts_ok by assumption. cbn [bind]. f_equal. unfold std_pa_size. lia. }
  split; [exact EL|]. unfold pa_addresses. rewrite EL, pa_counts_ok by assumption. cbn [bind].
  rewrite slice_from_ok by lia. cbn [bind]. unfold std_pa_size. split; intros HB.
  - rewrite slice_to_ok by (rewrite skipn_length; lia). cbn [bind].
    set (d := firstn _ (skipn 1 b)).
    assert (LD : length d = 2 * std_pa_short b + 8 * std_pa_ext b) by (unfold d; rewrite firstn_length, skipn_length; lia).
    rewrite pa_drain by (exact LD || lia). unfold std_pa. f_equal. f_equal.
    + apply map_ext_in. intros i Hi. apply in_seq in Hi. unfold d. rewrite skipn_firstn_comm, firstn_firstn, Nat.min_l by lia.
      rewrite AddressingProofs.skipn_skipn'. reflexivity.
    + apply map_ext_in. intros i Hi. apply in_seq in Hi. unfold d. rewrite skipn_firstn_comm, firstn_firstn, Nat.min_l by lia.
      rewrite AddressingProofs.skipn_skipn'. reflexivity.
  - rewrite slice_to_panic by (rewrite skipn_length; lia). reflexivity.
Qed.
Example C61_pending_ex : pa_addresses [0x11; 1; 2; 1; 2; 3; 4; 5; 6; 7; 8]%N = Done [AShort [1; 2]%N; AExtended [1; 2; 3; 4; 5; 6; 7; 8]%N].
Proof. reflexivity. Qed.

(** superframe specification *)
Theorem C61_superframe : forall b0 b1 rest, octet b0 -> octet b1 -> octets rest ->
  let b := b0 :: b1 :: rest in let v := (b0 + 256 * b1)%N in
  let order w := if (w <=? 14)%N then Some w else None in
  rec_new SuperframeSpecification b = Ok b /\
  beacon_order b = Done (order (field 0 4 v)) /\ superframe_order b = Done (order (field 4 4 v)) /\
  get SuperframeSpecification 2 b = Done (VNum (field 8 4 v)) /\
  get SuperframeSpecification 3 b = Done (VBool (bit 12 v)) /\
  get SuperframeSpecification 5 b = Done (VBool (bit 14 v)) /\
  get SuperframeSpecification 6 b = Done (VBool (bit 15 v)).
Proof.
  intros b0 b1 rest H0 H1 HR b v order.
  assert (HO : octets b) by (constructor; [exact H0|constructor; [exact H1|exact HR]]).
  assert (HL : rec_size SuperframeSpecification <= length b) by (change (rec_size SuperframeSpecification) with 2; simpl; lia).
  assert (TB : forall j, (j < 16)%N -> N.testbit (from_le b) j = N.testbit v j).
  { intros j Hj. unfold b. change (b0 :: b1 :: rest) with ([b0; b1] ++ rest). rewrite from_le_app.
    change (from_le [b0; b1]) with (b0 + 256 * (b1 + 256 * 0))%N. rewrite N.mul_0_r, N.add_0_r. fold v.
    change (256 ^ N.of_nat (length [b0; b1]))%N with (2 ^ 16)%N. rewrite (N.mul_comm (2 ^ 16)).
    rewrite <- (N.mod_pow2_bits_low (v + from_le rest * 2 ^ 16) 16 j Hj), N.mod_add by discriminate.
    apply N.mod_pow2_bits_low. exact Hj. }
  assert (FB : forall k n, (k + n <= 16)%N -> field k n (from_le b) = field k n v).
  { intros k n Hkn. apply N.bits_inj. intros j. rewrite !testbit_field. destruct (N.ltb_spec j n); [|reflexivity]. apply TB. lia. }
  assert (BB : forall k, (k < 16)%N -> bit k (from_le b) = bit k v) by (intros k Hk; rewrite !bit_testbit; apply TB, Hk).
  split; [reflexivity|].
  unfold beacon_order, superframe_order, get_num.
  pose proof (records_ok SuperframeSpecification eq_refl b HO HL) as R.
  rewrite (R 0 _ eq_refl), (R 1 _ eq_refl), (R 2 _ eq_refl), (R 3 _ eq_refl), (R 5 _ eq_refl), (R 6 _ eq_refl).
  unfold value_at. cbn [d_ty bts bind].
  change (N.of_nat (position SuperframeSpecification 0)) with 0%N. change (N.of_nat (position SuperframeSpecification 1)) with 4%N.
  change (N.of_nat (position SuperframeSpecification 2)) with 8%N. change (N.of_nat (position SuperframeSpecification 3)) with 12%N.
  change (N.of_nat (position SuperframeSpecification 5)) with 14%N. change (N.of_nat (position SuperframeSpecification 6)) with 15%N.
  change (N.of_nat (width (bts TU8 4))) with 4%N. rewrite !FB, !BB by lia. repeat split; reflexivity.
Qed.
Theorem C61_orders : forall v, (v <= 15)%N -> order_to (order_from v) = v.
Proof. intros v H. unfold order_to, order_from. destruct (N.leb_spec v 14); [reflexivity|]. lia. Qed.
Print Assumptions C61_orders.
Print Assumptions C61_gts_partial.
Print Assumptions C61_pending_partial.
Print Assumptions C61_superframe.
Print Assumptions C61_gts_info_refuted.
