(** DescProofs.v -- masked updates of 16-bit descriptors; proofs for C23-C25. *)
From Verif Require Import Base BaseProofs Spec SpecFrame BitProofs FrameControl Ie SpecIe IeProofs.
From Coq Require Import ZifyBool ZifyNat ZifyN.

Definition maskN (lo n : N) : N := N.shiftl (N.ones n) lo.
(** [(raw & !mask) | (x & mask)] *)
Definition masked (lo n x raw : N) : N :=
  N.lor (N.land raw (u16_not (maskN lo n))) (N.land x (maskN lo n)).

Lemma testbit_mask lo n j : N.testbit (maskN lo n) j = (lo <=? j)%N && (j <? lo + n)%N.
Proof.
  unfold maskN. destruct (N.leb_spec lo j) as [H|H]; simpl.
  - rewrite N.shiftl_spec_high' by exact H. destruct (N.ltb_spec j (lo + n)).
    + apply N.ones_spec_low. lia.
    + apply N.ones_spec_high. lia.
  - apply N.shiftl_spec_low. exact H.
Qed.

Lemma testbit_masked lo n x raw j : (raw < 65536)%N -> (lo + n <= 16)%N ->
  N.testbit (masked lo n x raw) j =
  if ((lo <=? j) && (j <? lo + n))%N then N.testbit x j else N.testbit raw j.
Proof.
  intros Hr Hl. unfold masked. rewrite N.lor_spec, !N.land_spec, testbit_u16_not, testbit_mask.
  destruct ((lo <=? j) && (j <? lo + n))%N eqn:E.
  - apply andb_true_iff in E. destruct E as [E1 E2]. apply N.leb_le in E1. apply N.ltb_lt in E2.
    destruct (N.ltb_spec j 16); [|lia]. simpl. rewrite andb_false_r, andb_true_r. reflexivity.
  - rewrite xorb_false_r, andb_false_r, orb_false_r. destruct (N.ltb_spec j 16) as [H|H].
    + apply andb_true_r.
    + rewrite (testbit_high16 raw j) by assumption. reflexivity.
Qed.

Lemma masked_lt lo n x raw : (raw < 65536)%N -> (lo + n <= 16)%N -> (masked lo n x raw < 65536)%N.
Proof.
  intros Hr Hl. change 65536%N with (2 ^ 16)%N. apply lt_of_testbit. intros j Hj.
  rewrite testbit_masked by assumption. destruct (N.ltb_spec j (lo + n)); [lia|]. rewrite andb_false_r.
  apply testbit_high16; assumption.
Qed.

Lemma field_masked_in lo n x raw lo' n' : (raw < 65536)%N -> (lo + n <= 16)%N ->
  (lo <= lo')%N -> (lo' + n' <= lo + n)%N ->
  field lo' n' (masked lo n x raw) = field lo' n' x.
Proof.
  intros Hr Hl H1 H2. apply field_ext. intros j Hj. rewrite testbit_masked by assumption.
  destruct (N.leb_spec lo j); [|lia]. destruct (N.ltb_spec j (lo + n)); [|lia]. reflexivity.
Qed.

Lemma field_masked_out lo n x raw lo' n' : (raw < 65536)%N -> (lo + n <= 16)%N ->
  (lo' + n' <= lo \/ lo + n <= lo')%N ->
  field lo' n' (masked lo n x raw) = field lo' n' raw.
Proof.
  intros Hr Hl H. apply field_ext. intros j Hj. rewrite testbit_masked by assumption.
  destruct (N.leb_spec lo j); destruct (N.ltb_spec j (lo + n)); simpl; try reflexivity; lia.
Qed.

Lemma bit_masked_out lo n x raw k : (raw < 65536)%N -> (lo + n <= 16)%N ->
  (k < lo \/ lo + n <= k)%N -> bit k (masked lo n x raw) = bit k raw.
Proof.
  intros Hr Hl H. rewrite !bit_testbit, testbit_masked by assumption.
  destruct (N.leb_spec lo k); destruct (N.ltb_spec k (lo + n)); simpl; try reflexivity; lia.
Qed.

Lemma bit_masked_in lo n x raw k : (raw < 65536)%N -> (lo + n <= 16)%N ->
  (lo <= k < lo + n)%N -> bit k (masked lo n x raw) = bit k x.
Proof.
  intros Hr Hl H. rewrite !bit_testbit, testbit_masked by assumption.
  destruct (N.leb_spec lo k); destruct (N.ltb_spec k (lo + n)); simpl; try reflexivity; lia.
Qed.

Lemma field_small n v : (v < 2 ^ n)%N -> field 0 n v = v.
Proof. intros H. unfold field. rewrite N.pow_0_r, N.div_1_r. apply N.mod_small. exact H. Qed.

Lemma field_u16_shl lo n id : (lo + n <= 16)%N -> (id < 2 ^ n)%N -> field lo n (u16_shl id lo) = id.
Proof.
  intros Hl Hid. apply N.bits_inj. intros j. rewrite testbit_field, testbit_u16_shl.
  destruct (N.ltb_spec j n) as [H|H]; simpl.
  - destruct (N.leb_spec lo (lo + j)); [|lia]. destruct (N.ltb_spec (lo + j) 16); [|lia]. simpl. f_equal. lia.
  - symmetry. apply (testbit_high id n j); [exact Hid|exact H].
Qed.

(** even numbers: 2 * field 1 7 *)
Lemma even_field len : (len < 128)%N -> N.even len = true -> (2 * field 1 7 len)%N = len.
Proof.
  intros H He. rewrite <- land_fe. apply N.eqb_eq.
  apply (sweep 128 (fun len => negb (N.even len) || (N.land len 0xFE =? len)%N)) in H; [|vm_compute; reflexivity].
  rewrite He in H. exact H.
Qed.

(** ** Writing a descriptor *)
Lemma desc_lt b0 b1 rest : octet b0 -> octet b1 -> (desc (b0 :: b1 :: rest) < 65536)%N.
Proof. unfold desc, octet. simpl. lia. Qed.

Lemma ie_write v b0 b1 rest : (v < 65536)%N ->
  exists c0 c1, write_at (b0 :: b1 :: rest) 0 (to_le 2 v) = Done (c0 :: c1 :: rest) /\
    octet c0 /\ octet c1 /\ desc (c0 :: c1 :: rest) = v.
Proof.
  intros Hv. exists (v mod 256)%N, (v / 256 mod 256)%N.
  split; [apply (write_at_app [] [b0; b1] rest); reflexivity|].
  assert (v / 256 < 256)%N by (apply N.div_lt_upper_bound; lia).
  unfold octet, desc. cbn [nth]. rewrite (N.mod_small (v / 256)) by assumption.
  split; [apply N.mod_lt; lia|]. split; [assumption|].
  rewrite N.add_comm. symmetry. apply N.div_mod. lia.
Qed.

Lemma ie_raw_cons b0 b1 rest : ie_raw (b0 :: b1 :: rest) = Done (desc (b0 :: b1 :: rest)).
Proof. apply ie_raw_ok. simpl. lia. Qed.

Lemma hie_set_length_view len b0 b1 rest : octet b0 -> octet b1 ->
  exists c0 c1, hie_set_length len (b0 :: b1 :: rest) = Done (c0 :: c1 :: rest) /\ octet c0 /\ octet c1 /\
    desc (c0 :: c1 :: rest) = masked 1 7 len (desc (b0 :: b1 :: rest)).
Proof.
  intros H0 H1. unfold hie_set_length. rewrite ie_raw_cons. cbn [bind].
  change 0xFE%N with (maskN 1 7). apply ie_write. apply masked_lt; [apply desc_lt; assumption|lia].
Qed.

Lemma hie_set_id_view id b0 b1 rest : octet b0 -> octet b1 ->
  exists c0 c1, hie_set_element_id id (b0 :: b1 :: rest) = Done (c0 :: c1 :: rest) /\ octet c0 /\ octet c1 /\
    desc (c0 :: c1 :: rest) = masked 7 8 (u16_shl id 7) (desc (b0 :: b1 :: rest)).
Proof.
  intros H0 H1. unfold hie_set_element_id. rewrite ie_raw_cons. cbn [bind].
  change 0x7F80%N with (maskN 7 8). apply ie_write. apply masked_lt; [apply desc_lt; assumption|lia].
Qed.

Lemma pie_set_length_view len b0 b1 rest : octet b0 -> octet b1 ->
  exists c0 c1, pie_set_length len (b0 :: b1 :: rest) = Done (c0 :: c1 :: rest) /\ octet c0 /\ octet c1 /\
    desc (c0 :: c1 :: rest) = masked 0 11 len (desc (b0 :: b1 :: rest)).
Proof.
  intros H0 H1. unfold pie_set_length. rewrite ie_raw_cons. cbn [bind].
  change 0x7FF%N with (maskN 0 11). apply ie_write. apply masked_lt; [apply desc_lt; assumption|lia].
Qed.

Lemma nie_set_length_view len id b0 b1 rest : octet b0 -> octet b1 ->
  exists c0 c1, nie_set_length len id (b0 :: b1 :: rest) = Done (c0 :: c1 :: rest) /\ octet c0 /\ octet c1 /\
    desc (c0 :: c1 :: rest) = masked 0 (if sub_is_short id then 8 else 11) len (desc (b0 :: b1 :: rest)).
Proof.
  intros H0 H1. unfold nie_set_length. rewrite ie_raw_cons. cbn [bind].
  destruct (sub_is_short id).
  - change 0xFF%N with (maskN 0 8). apply ie_write. apply masked_lt; [apply desc_lt; assumption|lia].
  - change 0x7FF%N with (maskN 0 11). apply ie_write. apply masked_lt; [apply desc_lt; assumption|lia].
Qed.

(** [(raw & !(mask)) | (id << lo)] with id fitting the mask is the masked update *)
Lemma masked_shl lo n id raw : (lo + n <= 16)%N -> (id < 2 ^ n)%N ->
  N.lor (N.land raw (u16_not (maskN lo n))) (u16_shl id lo) = masked lo n (u16_shl id lo) raw.
Proof.
  intros Hl Hid. unfold masked. f_equal. apply N.bits_inj. intros j.
  rewrite N.land_spec, testbit_mask, testbit_u16_shl.
  destruct (N.leb_spec lo j); [|reflexivity]. destruct (N.ltb_spec j (lo + n)); simpl; [rewrite andb_true_r; reflexivity|].
  rewrite (testbit_high id n (j - lo)) by (exact Hid || lia). rewrite andb_false_r. reflexivity.
Qed.

Lemma or_8000 v : (v < 65536)%N -> N.lor v 0x8000 = masked 15 1 0x8000 v.
Proof.
  intros Hv. apply N.bits_inj. intros j. rewrite N.lor_spec, testbit_masked by (exact Hv || lia).
  change 0x8000%N with (maskN 15 1). rewrite testbit_mask.
  destruct (N.leb_spec 15 j); destruct (N.ltb_spec j (15 + 1)); simpl; rewrite ?orb_false_r, ?orb_true_r; reflexivity.
Qed.

Lemma pie_set_group_view id b0 b1 rest : octet b0 -> octet b1 -> (id < 16)%N ->
  exists c0 c1, pie_set_group_id id (b0 :: b1 :: rest) = Done (c0 :: c1 :: rest) /\ octet c0 /\ octet c1 /\
    desc (c0 :: c1 :: rest) = masked 15 1 0x8000 (masked 11 4 (u16_shl id 11) (desc (b0 :: b1 :: rest))).
Proof.
  intros H0 H1 Hid. unfold pie_set_group_id. rewrite ie_raw_cons. cbn [bind].
  change 0x7800%N with (maskN 11 4). rewrite masked_shl by (lia || exact Hid).
  assert (D := desc_lt b0 b1 rest H0 H1).
  assert (M : (masked 11 4 (u16_shl id 11) (desc (b0 :: b1 :: rest)) < 65536)%N) by (apply masked_lt; [exact D|lia]).
  rewrite or_8000 by exact M. apply ie_write. apply masked_lt; [exact M|lia].
Qed.

Lemma nie_set_sub_short_view id b0 b1 rest : octet b0 -> octet b1 -> (id < 128)%N ->
  exists c0 c1, nie_set_sub_id (SubShort id) (b0 :: b1 :: rest) = Done (c0 :: c1 :: rest) /\ octet c0 /\ octet c1 /\
    desc (c0 :: c1 :: rest) = masked 8 7 (u16_shl id 8) (desc (b0 :: b1 :: rest)).
Proof.
  intros H0 H1 Hid. unfold nie_set_sub_id. rewrite ie_raw_cons. cbn [bind sub_is_short].
  change 0x7F00%N with (maskN 8 7). rewrite masked_shl by (lia || exact Hid).
  apply ie_write. apply masked_lt; [apply desc_lt; assumption|lia].
Qed.

Lemma lor_assoc_8000 a b : N.lor a (N.lor b 0x8000) = N.lor (N.lor a b) 0x8000.
Proof. apply N.lor_assoc. Qed.

Lemma nie_set_sub_long_view id b0 b1 rest : octet b0 -> octet b1 -> (id < 16)%N ->
  exists c0 c1, nie_set_sub_id (SubLong id) (b0 :: b1 :: rest) = Done (c0 :: c1 :: rest) /\ octet c0 /\ octet c1 /\
    desc (c0 :: c1 :: rest) = masked 15 1 0x8000 (masked 11 4 (u16_shl id 11) (desc (b0 :: b1 :: rest))).
Proof.
  intros H0 H1 Hid. unfold nie_set_sub_id. rewrite ie_raw_cons. cbn [bind sub_is_short].
  rewrite lor_assoc_8000.
  change 0x7800%N with (maskN 11 4). rewrite masked_shl by (lia || exact Hid).
  assert (D := desc_lt b0 b1 rest H0 H1).
  assert (M : (masked 11 4 (u16_shl id 11) (desc (b0 :: b1 :: rest)) < 65536)%N) by (apply masked_lt; [exact D|lia]).
  rewrite or_8000 by exact M. apply ie_write. apply masked_lt; [exact M|lia].
Qed.

Lemma mem_lt l n x : forallb (fun y => (y <? n)%N) l = true -> mem x l = true -> (x < n)%N.
Proof.
  intros H Hm. apply existsb_exists in Hm. destruct Hm as (y & Hy & E). apply N.eqb_eq in E. subst y.
  rewrite forallb_forall in H. apply N.ltb_lt. apply H. exact Hy.
Qed.

(** ** C23 *)
Lemma c23_roundtrip id len b0 b1 rest : octet b0 -> octet b1 ->
  mem id header_ids = true -> N.even id = true -> (len < 128)%N -> N.even len = true ->
  exists d1 d2, hie_set_length len (b0 :: b1 :: rest) = Done d1 /\ hie_set_element_id id d1 = Done d2 /\
    skipn 2 d2 = rest /\ octets (firstn 2 d2) /\
    hie_len d2 = Done (N.to_nat len) /\ hie_element_id d2 = Done id.
Proof.
  intros H0 H1 Hm He Hlen Hel. assert (Hid : (id < 128)%N) by (apply (mem_lt header_ids); [reflexivity|exact Hm]).
  destruct (hie_set_length_view len b0 b1 rest H0 H1) as (c0 & c1 & E1 & O0 & O1 & D1).
  destruct (hie_set_id_view id c0 c1 rest O0 O1) as (e0 & e1 & E2 & P0 & P1 & D2).
  assert (L0 := desc_lt b0 b1 rest H0 H1). assert (L1 := desc_lt c0 c1 rest O0 O1).
  exists (c0 :: c1 :: rest), (e0 :: e1 :: rest). split; [exact E1|]. split; [exact E2|].
  split; [reflexivity|]. split; [repeat constructor; assumption|].
  rewrite hie_len_ok, hie_element_id_ok by (simpl; lia).
  assert (F : field 7 8 (desc (e0 :: e1 :: rest)) = id).
  { rewrite D2, field_masked_in by (assumption || lia). apply field_u16_shl; lia. }
  split.
  - f_equal. f_equal. transitivity (2 * field 1 7 len)%N; [f_equal|apply even_field; assumption].
    apply N.bits_inj. intros j. rewrite !testbit_field. destruct (N.ltb_spec j 7) as [Hj|Hj]; [|reflexivity].
    simpl. rewrite D2, testbit_masked by (assumption || lia).
    destruct (N.leb_spec 7 (1 + j)); destruct (N.ltb_spec (1 + j) (7 + 8)); simpl; try lia.
    + (* bit 7: even id, and len < 128 *)
      assert (j = 6)%N by lia. subst j. change (1 + 6)%N with 7%N. rewrite testbit_u16_shl. simpl.
      rewrite (testbit_high len 7 7) by (exact Hlen || lia).
      change (N.testbit id 0 = false). rewrite N.bit0_odd. rewrite <- N.negb_even, He. reflexivity.
    + rewrite D1, testbit_masked by (assumption || lia).
      destruct (N.leb_spec 1 (1 + j)); destruct (N.ltb_spec (1 + j) (1 + 7)); simpl; try reflexivity; lia.
  - rewrite F. unfold HeaderElementId_from. rewrite Hm. reflexivity.
Qed.

(** ** C24 *)
Lemma c24_roundtrip id len b0 b1 rest : octet b0 -> octet b1 ->
  mem id payload_ids = true -> (id < 8)%N -> (len < 1024)%N ->
  exists d1 d2, pie_set_length len (b0 :: b1 :: rest) = Done d1 /\ pie_set_group_id id d1 = Done d2 /\
    skipn 2 d2 = rest /\ octets (firstn 2 d2) /\
    desc d2 = (len + 2048 * id + 32768)%N /\
    pie_length d2 = Done (N.to_nat len) /\ pie_group_id d2 = Done id.
Proof.
  intros H0 H1 Hm Hid Hlen.
  destruct (pie_set_length_view len b0 b1 rest H0 H1) as (c0 & c1 & E1 & O0 & O1 & D1).
  destruct (pie_set_group_view id c0 c1 rest O0 O1) as (e0 & e1 & E2 & P0 & P1 & D2); [lia|].
  assert (L0 := desc_lt b0 b1 rest H0 H1). assert (L1 := desc_lt c0 c1 rest O0 O1).
  assert (L2 : (masked 11 4 (u16_shl id 11) (desc (c0 :: c1 :: rest)) < 65536)%N) by (apply masked_lt; [exact L1|lia]).
  exists (c0 :: c1 :: rest), (e0 :: e1 :: rest). split; [exact E1|]. split; [exact E2|].
  split; [reflexivity|]. split; [repeat constructor; assumption|].
  rewrite pie_length_ok, pie_group_id_ok by (simpl; lia).
  assert (F1 : field 0 11 (desc (e0 :: e1 :: rest)) = len).
  { rewrite D2, !field_masked_out by (assumption || lia). rewrite D1, field_masked_in by (assumption || lia).
    apply field_small. change (2 ^ 11)%N with 2048%N. lia. }
  assert (F2 : field 11 4 (desc (e0 :: e1 :: rest)) = id).
  { rewrite D2, field_masked_out by (assumption || lia). rewrite field_masked_in by (assumption || lia).
    apply field_u16_shl; [lia|]. change (2 ^ 4)%N with 16%N. lia. }
  assert (F3 : field 15 1 (desc (e0 :: e1 :: rest)) = 1%N).
  { rewrite D2, field_masked_in by (assumption || lia). reflexivity. }
  assert (L3 := desc_lt e0 e1 rest P0 P1).
  split.
  { revert F1 F2 F3 L3. generalize (desc (e0 :: e1 :: rest)) as v. intros v. unfold field.
    change (2 ^ 11)%N with 2048%N. change (2 ^ 4)%N with 16%N. change (2 ^ 15)%N with 32768%N.
    change (2 ^ 1)%N with 2%N. change (2 ^ 0)%N with 1%N. rewrite N.div_1_r.
    clear. intros F1 F2 F3 L.
    assert (A1 := N.div_mod v 2048). assert (A2 := N.div_mod (v / 2048) 16).
    assert (A3 : (v / 2048 / 16 = v / 32768)%N) by (rewrite N.div_div by lia; reflexivity).
    assert (A4 : (v / 32768 < 2)%N) by (apply N.div_lt_upper_bound; lia).
    rewrite (N.mod_small (v / 32768)) in F3 by exact A4. lia. }
  split.
  - f_equal. f_equal. transitivity (field 0 10 (field 0 11 (desc (e0 :: e1 :: rest)))).
    + apply N.bits_inj. intros j. rewrite !testbit_field. destruct (N.ltb_spec j 10); [|reflexivity].
      simpl. rewrite !N.add_0_l. destruct (N.ltb_spec j 11); [reflexivity|lia].
    + rewrite F1. apply field_small. exact Hlen.
  - f_equal. replace (field 11 3 (desc (e0 :: e1 :: rest))) with id.
    + unfold PayloadGroupId_from. rewrite Hm. reflexivity.
    + symmetry. transitivity (field 0 3 (field 11 4 (desc (e0 :: e1 :: rest)))).
      * apply N.bits_inj. intros j. rewrite !testbit_field. destruct (N.ltb_spec j 3); [|reflexivity].
        simpl. rewrite !N.add_0_l. destruct (N.ltb_spec j 4); [reflexivity|lia].
      * rewrite F2. apply field_small. exact Hid.
Qed.

(** ** C25 *)
Lemma field_sub lo n m v : (m <= n)%N -> field lo m v = field 0 m (field lo n v).
Proof.
  intros H. apply N.bits_inj. intros j. rewrite !testbit_field. destruct (N.ltb_spec j m); [|reflexivity].
  simpl. rewrite N.add_0_l. destruct (N.ltb_spec j n); [reflexivity|lia].
Qed.

Lemma c25_short id len b0 b1 rest : octet b0 -> octet b1 -> bit 15 (desc (b0 :: b1 :: rest)) = false ->
  mem id nested_short_ids = true -> (id < 64)%N -> (len < 128)%N ->
  exists d1 d2, nie_set_length len (SubShort id) (b0 :: b1 :: rest) = Done d1 /\
    nie_set_sub_id (SubShort id) d1 = Done d2 /\
    skipn 2 d2 = rest /\ octets (firstn 2 d2) /\
    desc d2 = (len + 256 * id)%N /\
    nie_is_long d2 = Done false /\ nie_length d2 = Done (N.to_nat len) /\ nie_sub_id d2 = Done (SubShort id).
Proof.
  intros H0 H1 H15 Hm Hid Hlen.
  destruct (nie_set_length_view len (SubShort id) b0 b1 rest H0 H1) as (c0 & c1 & E1 & O0 & O1 & D1). cbn [sub_is_short] in D1.
  destruct (nie_set_sub_short_view id c0 c1 rest O0 O1) as (e0 & e1 & E2 & P0 & P1 & D2); [lia|].
  assert (L0 := desc_lt b0 b1 rest H0 H1). assert (L1 := desc_lt c0 c1 rest O0 O1).
  exists (c0 :: c1 :: rest), (e0 :: e1 :: rest). split; [exact E1|]. split; [exact E2|].
  split; [reflexivity|]. split; [repeat constructor; assumption|].
  assert (F1 : field 0 8 (desc (e0 :: e1 :: rest)) = len).
  { rewrite D2, field_masked_out by (assumption || lia). rewrite D1, field_masked_in by (assumption || lia).
    apply field_small. change (2 ^ 8)%N with 256%N. lia. }
  assert (F2 : field 8 7 (desc (e0 :: e1 :: rest)) = id).
  { rewrite D2, field_masked_in by (assumption || lia). apply field_u16_shl; [lia|]. change (2 ^ 7)%N with 128%N. lia. }
  assert (F3 : bit 15 (desc (e0 :: e1 :: rest)) = false).
  { rewrite D2, bit_masked_out by (assumption || lia). rewrite D1, bit_masked_out by (assumption || lia). exact H15. }
  assert (L3 := desc_lt e0 e1 rest P0 P1).
  split.
  { revert F1 F2 F3 L3. generalize (desc (e0 :: e1 :: rest)) as v. intros v. unfold field, bit.
    change (2 ^ 8)%N with 256%N. change (2 ^ 7)%N with 128%N. change (2 ^ 15)%N with 32768%N.
    change (2 ^ 0)%N with 1%N. rewrite N.div_1_r.
    clear. intros F1 F2 F3 L.
    assert (A1 := N.div_mod v 256). assert (A2 := N.div_mod (v / 256) 128).
    assert (A3 : (v / 256 / 128 = v / 32768)%N) by (rewrite N.div_div by lia; reflexivity).
    assert (A4 : (v / 32768 < 2)%N) by (apply N.div_lt_upper_bound; lia).
    assert (A5 : (v / 32768 = 0)%N).
    { destruct (N.eq_dec (v / 32768) 1) as [E|E]; [rewrite E in F3; discriminate|lia]. }
    lia. }
  rewrite nie_length_ok by (simpl; lia). unfold nie_is_long, nie_sub_id, nie_is_long. rewrite ie_raw_cons. cbn [bind].
  rewrite flag_at_bit, F3. split; [reflexivity|]. split.
  - f_equal. f_equal. rewrite (field_sub 0 8 7) by lia. rewrite F1. apply field_small. exact Hlen.
  - f_equal. f_equal. change 0x3F%N with (N.ones 6). rewrite field_land, (field_sub 8 7 6) by lia. rewrite F2.
    rewrite (field_small 6 id) by exact Hid. unfold NestedSubIdShort_from. rewrite Hm. reflexivity.
Qed.

Lemma c25_long id len b0 b1 rest : octet b0 -> octet b1 ->
  mem id nested_long_ids = true -> (len < 1024)%N ->
  exists d1 d2, nie_set_length len (SubLong id) (b0 :: b1 :: rest) = Done d1 /\
    nie_set_sub_id (SubLong id) d1 = Done d2 /\
    skipn 2 d2 = rest /\ octets (firstn 2 d2) /\
    desc d2 = (len + 2048 * id + 32768)%N /\
    nie_is_long d2 = Done true /\ nie_length d2 = Done (N.to_nat len) /\ nie_sub_id d2 = Done (SubLong id).
Proof.
  intros H0 H1 Hm Hlen. assert (Hid : (id < 16)%N) by (apply (mem_lt nested_long_ids); [reflexivity|exact Hm]).
  destruct (nie_set_length_view len (SubLong id) b0 b1 rest H0 H1) as (c0 & c1 & E1 & O0 & O1 & D1). cbn [sub_is_short] in D1.
  destruct (nie_set_sub_long_view id c0 c1 rest O0 O1) as (e0 & e1 & E2 & P0 & P1 & D2); [lia|].
  assert (L0 := desc_lt b0 b1 rest H0 H1). assert (L1 := desc_lt c0 c1 rest O0 O1).
  assert (L2 : (masked 11 4 (u16_shl id 11) (desc (c0 :: c1 :: rest)) < 65536)%N) by (apply masked_lt; [exact L1|lia]).
  exists (c0 :: c1 :: rest), (e0 :: e1 :: rest). split; [exact E1|]. split; [exact E2|].
  split; [reflexivity|]. split; [repeat constructor; assumption|].
  assert (F1 : field 0 11 (desc (e0 :: e1 :: rest)) = len).
  { rewrite D2, !field_masked_out by (assumption || lia). rewrite D1, field_masked_in by (assumption || lia).
    apply field_small. change (2 ^ 11)%N with 2048%N. lia. }
  assert (F2 : field 11 4 (desc (e0 :: e1 :: rest)) = id).
  { rewrite D2, field_masked_out by (assumption || lia). rewrite field_masked_in by (assumption || lia).
    apply field_u16_shl; [lia|]. exact Hid. }
  assert (F3 : field 15 1 (desc (e0 :: e1 :: rest)) = 1%N).
  { rewrite D2, field_masked_in by (assumption || lia). reflexivity. }
  assert (F4 : bit 15 (desc (e0 :: e1 :: rest)) = true).
  { rewrite D2, bit_masked_in by (assumption || lia). reflexivity. }
  assert (L3 := desc_lt e0 e1 rest P0 P1).
  split.
  { revert F1 F2 F3 L3. generalize (desc (e0 :: e1 :: rest)) as v. intros v. unfold field.
    change (2 ^ 11)%N with 2048%N. change (2 ^ 4)%N with 16%N. change (2 ^ 15)%N with 32768%N.
    change (2 ^ 1)%N with 2%N. change (2 ^ 0)%N with 1%N. rewrite N.div_1_r.
    clear. intros F1 F2 F3 L.
    assert (A1 := N.div_mod v 2048). assert (A2 := N.div_mod (v / 2048) 16).
    assert (A3 : (v / 2048 / 16 = v / 32768)%N) by (rewrite N.div_div by lia; reflexivity).
    assert (A4 : (v / 32768 < 2)%N) by (apply N.div_lt_upper_bound; lia).
    rewrite (N.mod_small (v / 32768)) in F3 by exact A4. lia. }
  rewrite nie_length_ok by (simpl; lia). unfold nie_is_long, nie_sub_id, nie_is_long. rewrite ie_raw_cons. cbn [bind].
  rewrite flag_at_bit, F4. split; [reflexivity|]. split.
  - f_equal. f_equal. rewrite (field_sub 0 11 10) by lia. rewrite F1. apply field_small. exact Hlen.
  - f_equal. f_equal. change 0xF%N with (N.ones 4). rewrite field_land, F2.
    unfold NestedSubIdLong_from. rewrite Hm. reflexivity.
Qed.

(** ** Membership, reading ids *)
Lemma known_mem (known : list N) id : In id known -> mem id known = true.
Proof. intros H. apply existsb_exists. exists id. split; [exact H|apply N.eqb_refl]. Qed.
Lemma header_id_read v : HeaderElementId_from v = read_as known_header_ids 0x80 v.
Proof. reflexivity. Qed.
Lemma group_id_read v : PayloadGroupId_from v = read_as known_group_ids 0x10 v.
Proof. reflexivity. Qed.
Lemma short_id_read v : NestedSubIdShort_from v = read_as known_short_ids 0x47 v.
Proof. reflexivity. Qed.
Lemma long_id_read v : NestedSubIdLong_from v = read_as known_long_ids 0x0a v.
Proof. reflexivity. Qed.

(** ** One setter at a time *)
Lemma masked_keeps lo n x b0 b1 c0 c1 rest : octet b0 -> octet b1 -> octet c0 -> octet c1 -> (lo + n <= 16)%N ->
  desc (c0 :: c1 :: rest) = masked lo n x (desc (b0 :: b1 :: rest)) ->
  keeps lo n (b0 :: b1 :: rest) (c0 :: c1 :: rest) /\ field lo n (desc (c0 :: c1 :: rest)) = field lo n x.
Proof.
  intros H0 H1 O0 O1 HL D. assert (L0 := desc_lt b0 b1 rest H0 H1). split.
  - split; [reflexivity|]. split; [repeat constructor; assumption|]. intros k Hk. rewrite D. apply bit_masked_out; assumption.
  - rewrite D. apply field_masked_in; try assumption; lia.
Qed.
Lemma masked2_keeps x b0 b1 c0 c1 rest : octet b0 -> octet b1 -> octet c0 -> octet c1 ->
  desc (c0 :: c1 :: rest) = masked 15 1 0x8000 (masked 11 4 x (desc (b0 :: b1 :: rest))) ->
  keeps 11 5 (b0 :: b1 :: rest) (c0 :: c1 :: rest) /\ field 11 4 (desc (c0 :: c1 :: rest)) = field 11 4 x /\
  bit 15 (desc (c0 :: c1 :: rest)) = true.
Proof.
  intros H0 H1 O0 O1 D. assert (L0 := desc_lt b0 b1 rest H0 H1).
  assert (M : (masked 11 4 x (desc (b0 :: b1 :: rest)) < 65536)%N) by (apply masked_lt; [exact L0|lia]).
  split; [|split].
  - split; [reflexivity|]. split; [repeat constructor; assumption|]. intros k Hk. rewrite D.
    rewrite bit_masked_out by (assumption || lia). apply bit_masked_out; assumption || lia.
  - rewrite D, field_masked_out by (assumption || lia). apply field_masked_in; assumption || lia.
  - rewrite D, bit_masked_in by (assumption || lia). reflexivity.
Qed.

Lemma c23_setters id len b0 b1 rest : octet b0 -> octet b1 -> In id known_header_ids -> (len < 256)%N ->
  exists d1 d2, hie_set_length len (b0 :: b1 :: rest) = Done d1 /\ hie_set_element_id id (b0 :: b1 :: rest) = Done d2 /\
    keeps 1 7 (b0 :: b1 :: rest) d1 /\ field 1 7 (desc d1) = (len / 2)%N /\
    keeps 7 8 (b0 :: b1 :: rest) d2 /\ field 7 8 (desc d2) = id.
Proof.
  intros H0 H1 Hid Hlen. assert (L : (id < 128)%N) by (apply (mem_lt known_header_ids); [reflexivity|apply known_mem; exact Hid]).
  destruct (hie_set_length_view len b0 b1 rest H0 H1) as (c0 & c1 & E1 & O0 & O1 & D1).
  destruct (hie_set_id_view id b0 b1 rest H0 H1) as (e0 & e1 & E2 & P0 & P1 & D2).
  exists (c0 :: c1 :: rest), (e0 :: e1 :: rest). split; [exact E1|]. split; [exact E2|].
  apply masked_keeps in D1; try assumption; [|lia]. apply masked_keeps in D2; try assumption; [|lia].
  destruct D1 as [K1 F1], D2 as [K2 F2]. split; [exact K1|]. split; [|split; [exact K2|rewrite F2; apply field_u16_shl; lia]].
  rewrite F1. unfold field. change (2 ^ 1)%N with 2%N. change (2 ^ 7)%N with 128%N. apply N.mod_small.
  apply N.div_lt_upper_bound; lia.
Qed.

Lemma c24_setters id len b0 b1 rest : octet b0 -> octet b1 -> In id known_group_ids -> (len < 2048)%N ->
  exists d1 d2, pie_set_length len (b0 :: b1 :: rest) = Done d1 /\ pie_set_group_id id (b0 :: b1 :: rest) = Done d2 /\
    keeps 0 11 (b0 :: b1 :: rest) d1 /\ field 0 11 (desc d1) = len /\
    keeps 11 5 (b0 :: b1 :: rest) d2 /\ field 11 4 (desc d2) = id /\ bit 15 (desc d2) = true.
Proof.
  intros H0 H1 Hid Hlen. assert (L : (id < 16)%N) by (apply (mem_lt known_group_ids); [reflexivity|apply known_mem; exact Hid]).
  destruct (pie_set_length_view len b0 b1 rest H0 H1) as (c0 & c1 & E1 & O0 & O1 & D1).
  destruct (pie_set_group_view id b0 b1 rest H0 H1 L) as (e0 & e1 & E2 & P0 & P1 & D2).
  exists (c0 :: c1 :: rest), (e0 :: e1 :: rest). split; [exact E1|]. split; [exact E2|].
  apply masked_keeps in D1; try assumption; [|lia]. apply masked2_keeps in D2; try assumption.
  destruct D1 as [K1 F1], D2 as (K2 & F2 & F3). split; [exact K1|]. split; [rewrite F1; apply field_small; exact Hlen|].
  split; [exact K2|]. split; [rewrite F2; apply field_u16_shl; [lia|exact L]|exact F3].
Qed.

Lemma c25_setters_short id len b0 b1 rest : octet b0 -> octet b1 -> In id known_short_ids -> (len < 256)%N ->
  exists d1 d2, nie_set_length len (SubShort id) (b0 :: b1 :: rest) = Done d1 /\
    nie_set_sub_id (SubShort id) (b0 :: b1 :: rest) = Done d2 /\
    keeps 0 8 (b0 :: b1 :: rest) d1 /\ field 0 8 (desc d1) = len /\
    keeps 8 7 (b0 :: b1 :: rest) d2 /\ field 8 7 (desc d2) = id.
Proof.
  intros H0 H1 Hid Hlen. assert (L : (id < 128)%N) by (apply (mem_lt known_short_ids); [reflexivity|apply known_mem; exact Hid]).
  destruct (nie_set_length_view len (SubShort id) b0 b1 rest H0 H1) as (c0 & c1 & E1 & O0 & O1 & D1). cbn [sub_is_short] in D1.
  destruct (nie_set_sub_short_view id b0 b1 rest H0 H1 L) as (e0 & e1 & E2 & P0 & P1 & D2).
  exists (c0 :: c1 :: rest), (e0 :: e1 :: rest). split; [exact E1|]. split; [exact E2|].
  apply masked_keeps in D1; try assumption; [|lia]. apply masked_keeps in D2; try assumption; [|lia].
  destruct D1 as [K1 F1], D2 as [K2 F2]. split; [exact K1|]. split; [rewrite F1; apply field_small; exact Hlen|].
  split; [exact K2|]. rewrite F2; apply field_u16_shl; [lia|exact L].
Qed.

Lemma c25_setters_long id len b0 b1 rest : octet b0 -> octet b1 -> In id known_long_ids -> (len < 2048)%N ->
  exists d1 d2, nie_set_length len (SubLong id) (b0 :: b1 :: rest) = Done d1 /\
    nie_set_sub_id (SubLong id) (b0 :: b1 :: rest) = Done d2 /\
    keeps 0 11 (b0 :: b1 :: rest) d1 /\ field 0 11 (desc d1) = len /\
    keeps 11 5 (b0 :: b1 :: rest) d2 /\ field 11 4 (desc d2) = id /\ bit 15 (desc d2) = true.
Proof.
  intros H0 H1 Hid Hlen. assert (L : (id < 16)%N) by (apply (mem_lt known_long_ids); [reflexivity|apply known_mem; exact Hid]).
  destruct (nie_set_length_view len (SubLong id) b0 b1 rest H0 H1) as (c0 & c1 & E1 & O0 & O1 & D1). cbn [sub_is_short] in D1.
  destruct (nie_set_sub_long_view id b0 b1 rest H0 H1 L) as (e0 & e1 & E2 & P0 & P1 & D2).
  exists (c0 :: c1 :: rest), (e0 :: e1 :: rest). split; [exact E1|]. split; [exact E2|].
  apply masked_keeps in D1; try assumption; [|lia]. apply masked2_keeps in D2; try assumption.
  destruct D1 as [K1 F1], D2 as (K2 & F2 & F3). split; [exact K1|]. split; [rewrite F1; apply field_small; exact Hlen|].
  split; [exact K2|]. split; [rewrite F2; apply field_u16_shl; [lia|exact L]|exact F3].
Qed.
