(** IeContentProofs.v -- lemmas about IeContent.v and the IE writers of ReprIe.v. *)
From Verif Require Import Base BaseProofs FrameControl Spec SpecIe SpecIeContent Ie IeContent ReprIe BitProofs IeProofs DescProofs.

Lemma le_to_le n v : le n v = to_le n v.
Proof. revert v. induction n as [|n IH]; intros v; simpl; [reflexivity|]. rewrite IH. reflexivity. Qed.
Lemma le_length n v : length (le n v) = n.
Proof. rewrite le_to_le. apply to_le_length. Qed.
Lemma le_octets n v : octets (le n v).
Proof. rewrite le_to_le. apply to_le_octets. Qed.
Lemma from_le_le n v : (v < 256 ^ N.of_nat n)%N -> from_le (le n v) = v.
Proof. intros H. rewrite le_to_le. apply from_to_le. exact H. Qed.

(** ** Time Correction *)
Lemma tc_read_sweep v : (v < 65536)%N ->
  Z.shiftr (as_i16 (Z.of_N (u16_shl (N.land v 0xfff) 4))) 4 = signed12 (field 0 12 v) /\
  negb (N.land v 0x8000 =? 0)%N = bit 15 v.
Proof.
  intros H.
  pose proof (sweep 65536 (fun v => Z.eqb (Z.shiftr (as_i16 (Z.of_N (u16_shl (N.land v 0xfff) 4))) 4) (signed12 (field 0 12 v))
     && eqb (negb (N.land v 0x8000 =? 0)%N) (bit 15 v)) ltac:(vm_compute; reflexivity) v H) as K.
  apply andb_true_iff in K. destruct K as [K1 K2]. apply Z.eqb_eq in K1. apply eqb_prop in K2. split; assumption.
Qed.

Lemma desc_lt_gen d : octets d -> (desc d < 65536)%N.
Proof. intros H. unfold desc. pose proof (octets_nth d 0 H). pose proof (octets_nth d 1 H). lia. Qed.

Lemma tc_read d : octets d -> 2 <= length d ->
  tc_time_correction d = Done (signed12 (field 0 12 (desc d))) /\ tc_nack d = Done (bit 15 (desc d)).
Proof.
  intros HO HL. unfold tc_time_correction, tc_nack. rewrite ie_raw_ok by exact HL. cbn [bind].
  destruct (tc_read_sweep (desc d) (desc_lt_gen d HO)) as [-> ->]. split; reflexivity.
Qed.

Lemma as_i16_mod z : as_i16 z = as_i16 (Z.of_N (Z.to_N (z mod 65536))).
Proof.
  unfold as_i16. rewrite Z2N.id by (apply Z.mod_pos_bound; lia). f_equal.
  rewrite Zplus_mod_idemp_l. reflexivity.
Qed.

Lemma tc_write_sweep v : (v < 65536)%N ->
  as_u16 (Z.land (Z.shiftr (as_i16 (Z.shiftl (as_i16 (Z.of_N v)) 4)) 4) 0xfff) = (v mod 4096)%N.
Proof.
  intros H. apply N.eqb_eq.
  apply (sweep 65536 (fun v => (as_u16 (Z.land (Z.shiftr (as_i16 (Z.shiftl (as_i16 (Z.of_N v)) 4)) 4) 0xfff) =? v mod 4096)%N)
    ltac:(vm_compute; reflexivity) v H).
Qed.

Lemma tc_write_val us :
  as_u16 (Z.land (Z.shiftr (as_i16 (Z.shiftl (as_i16 us) 4)) 4) 0xfff) = Z.to_N (us mod 4096).
Proof.
  rewrite (as_i16_mod us), tc_write_sweep.
  - apply N2Z.inj. rewrite N2Z.inj_mod, !Z2N.id by (apply Z.mod_pos_bound; lia). change (Z.of_N 4096) with 4096%Z.
    change 65536%Z with (4096 * 16)%Z. rewrite Z.rem_mul_r by lia.
    rewrite (Z.mul_comm 4096), Z_mod_plus_full. apply Z.mod_mod. lia.
  - apply N2Z.inj_lt. rewrite Z2N.id by (apply Z.mod_pos_bound; lia). apply Z.mod_pos_bound. lia.
Qed.

Lemma nack_sweep v : (v < 65536)%N ->
  N.lor v 0x8000 = (v mod 32768 + 32768)%N /\ N.land v 0x7fff = (v mod 32768)%N.
Proof.
  intros H.
  pose proof (sweep 65536 (fun v => (N.lor v 0x8000 =? v mod 32768 + 32768)%N && (N.land v 0x7fff =? v mod 32768)%N)
     ltac:(vm_compute; reflexivity) v H) as K.
  apply andb_true_iff in K. destruct K as [K1 K2]. apply N.eqb_eq in K1. apply N.eqb_eq in K2. split; assumption.
Qed.

Lemma tc_set b0 b1 rest us : tc_set_time_correction us (b0 :: b1 :: rest) =
  Done (to_le 2 (Z.to_N (us mod 4096)) ++ rest).
Proof. unfold tc_set_time_correction. rewrite tc_write_val. reflexivity. Qed.

Lemma desc_le2 v rest : (v < 65536)%N -> desc (to_le 2 v ++ rest) = v.
Proof.
  intros H. unfold desc. cbn [to_le app nth].
  pose proof (N.div_mod v 256). rewrite (N.mod_small (v / 256)) by (apply N.div_lt_upper_bound; lia). lia.
Qed.

Lemma ie_raw_le2 v rest : (v < 65536)%N -> ie_raw (to_le 2 v ++ rest) = Done v.
Proof. intros H. rewrite ie_raw_ok by (simpl; lia). rewrite desc_le2 by exact H. reflexivity. Qed.

Lemma tc_set_nack_le v rest n : (v < 65536)%N ->
  tc_set_nack n (to_le 2 v ++ rest) = Done (to_le 2 (v mod 32768 + (if n then 32768 else 0)) ++ rest)%N.
Proof.
  intros H. unfold tc_set_nack. rewrite ie_raw_le2 by exact H. cbn [bind].
  destruct (nack_sweep v H) as [E1 E2]. destruct n; rewrite ?E1, ?E2, ?N.add_0_r; reflexivity.
Qed.

Lemma mod4096_lt us : (Z.to_N (us mod 4096) < 4096)%N.
Proof. apply N2Z.inj_lt. rewrite Z2N.id by (apply Z.mod_pos_bound; lia). apply Z.mod_pos_bound. lia. Qed.

Lemma tc_emit us n b0 b1 rest :
  (let* c := tc_set_time_correction us (b0 :: b1 :: rest) in tc_set_nack n c) = Done (time_correction_octets us n ++ rest).
Proof.
  rewrite tc_set. cbn [bind]. pose proof (mod4096_lt us). rewrite tc_set_nack_le by lia.
  unfold time_correction_octets. rewrite (N.mod_small _ 32768) by lia. reflexivity.
Qed.

Lemma signed12_mod us : (-2048 <= us <= 2047)%Z -> signed12 (Z.to_N (us mod 4096)) = us.
Proof.
  intros H. unfold signed12.
  destruct (Z.lt_ge_cases us 0) as [Hn|Hp].
  - replace (us mod 4096)%Z with (us + 4096)%Z.
    + destruct (N.ltb_spec (Z.to_N (us + 4096)) 2048) as [K|K]; [lia|]. lia.
    + replace (us mod 4096)%Z with ((us + 1 * 4096) mod 4096)%Z by (apply Z_mod_plus_full). symmetry. apply Z.mod_small. lia.
  - rewrite Z.mod_small by lia. destruct (N.ltb_spec (Z.to_N us) 2048); lia.
Qed.

Lemma tc_octets_desc us n rest : desc (time_correction_octets us n ++ rest) = (Z.to_N (us mod 4096) + (if n then 32768 else 0))%N.
Proof.
  unfold time_correction_octets. rewrite le_to_le. apply desc_le2. pose proof (mod4096_lt us). destruct n; lia.
Qed.

Lemma tc_read_octets us n :
  tc_time_correction (time_correction_octets us n) = Done (signed12 (Z.to_N (us mod 4096))) /\
  tc_nack (time_correction_octets us n) = Done n.
Proof.
  assert (HO : octets (time_correction_octets us n)) by apply le_octets.
  destruct (tc_read (time_correction_octets us n) HO) as [-> ->]; [unfold time_correction_octets; rewrite le_length; lia|].
  pose proof (tc_octets_desc us n []) as HD. rewrite app_nil_r in HD. rewrite HD. pose proof (mod4096_lt us) as HL.
  revert HL. generalize (Z.to_N (us mod 4096)) as v. intros v HL.
  assert (K : forall n, field 0 12 (v + (if n : bool then 32768 else 0)) = v /\ bit 15 (v + (if n then 32768 else 0)) = n).
  { intros m. pose proof (sweep 4096 (fun v => (field 0 12 (v + (if m then 32768 else 0)) =? v)%N && eqb (bit 15 (v + (if m then 32768 else 0))) m)) as S.
    assert (T : ((field 0 12 (v + (if m then 32768 else 0)) =? v)%N && eqb (bit 15 (v + (if m then 32768 else 0))) m) = true)
      by (apply S; [destruct m; vm_compute; reflexivity|exact HL]).
    apply andb_true_iff in T. destruct T as [T1 T2]. apply N.eqb_eq in T1. apply eqb_prop in T2. split; assumption. }
  destruct (K n) as [-> ->]. split; reflexivity.
Qed.

(** ** TSCH Synchronization *)
Lemma land_ff_shr v k : N.land (N.shiftr v k) 0xff = ((v / 2 ^ k) mod 256)%N.
Proof. change 0xff%N with (N.ones 8). rewrite N.land_ones, N.shiftr_div_pow2. reflexivity. Qed.

Lemma sync_emit asn jm b0 b1 b2 b3 b4 b5 rest :
  (let* c := sync_set_asn asn (b0 :: b1 :: b2 :: b3 :: b4 :: b5 :: rest) in sync_set_join_metric jm c) =
  Done (sync_octets asn jm ++ rest).
Proof.
  unfold sync_set_asn. rewrite !land_ff_shr.
  assert (E0 : N.land asn 0xff = (asn mod 256)%N) by (change 0xff%N with (N.ones 8); apply N.land_ones).
  rewrite E0. unfold sync_octets. cbn [le]. rewrite !N.div_div by lia. reflexivity.
Qed.

Lemma sync_read asn jm rest : (asn < 2 ^ 40)%N ->
  sync_asn (sync_octets asn jm ++ rest) = Done asn /\ sync_join_metric (sync_octets asn jm ++ rest) = Done jm.
Proof.
  intros H. split; [|reflexivity]. unfold sync_asn, sync_octets. cbn [le app idx nth_error bind]. f_equal.
  rewrite !N.shiftl_mul_pow2.
  transitivity (from_le (to_le 5 asn)).
  - cbn [to_le from_le]. lia.
  - apply from_to_le. exact H.
Qed.

(** ** TSCH Timeslot *)
Definition ten_of (t : timings) : list N :=
  map as_u16 [tt_cca_offset t; tt_cca t; tt_tx_offset t; tt_rx_offset t; tt_rx_ack_delay t; tt_tx_ack_delay t;
              tt_rx_wait t; tt_ack_wait t; tt_rx_tx t; tt_max_ack t].

Lemma list25 (d : list N) : 25 <= length d -> exists x0 x1 x2 x3 x4 x5 x6 x7 x8 x9 x10 x11 x12 x13 x14 x15 x16 x17 x18 x19 x20 x21 x22 x23 x24 rest,
  d = x0::x1::x2::x3::x4::x5::x6::x7::x8::x9::x10::x11::x12::x13::x14::x15::x16::x17::x18::x19::x20::x21::x22::x23::x24::rest.
Proof.
  intros H. do 25 (destruct d as [|? d]; [simpl in H; lia|]). repeat eexists.
Qed.

Lemma le3 v : (v < 4294967296)%N -> firstn 3 (to_le 4 v) = le 3 v.
Proof. intros _. reflexivity. Qed.

Lemma ts_set_short t d : tt_long t = false -> length d = 25 ->
  ts_set_timings t d = Done (timeslot_octets (tt_id t) (ten_of t) 2 (as_u32 (tt_max_tx t)) (as_u32 (tt_timeslot_length t))).
Proof.
  intros HL Hd. destruct (list25 d) as (x0 & x1 & x2 & x3 & x4 & x5 & x6 & x7 & x8 & x9 & x10 & x11 & x12 & x13 & x14 & x15 & x16 & x17 & x18 & x19 & x20 & x21 & x22 & x23 & x24 & rest & E); [lia|].
  subst d. simpl in Hd. destruct rest as [|? ?]; [|simpl in Hd; lia].
  unfold ts_set_timings. rewrite HL. unfold tt_long in HL. apply orb_false_iff in HL. destruct HL as [H1 H2].
  apply N.ltb_ge in H1, H2. rewrite !(N.mod_small _ 65536) by lia. reflexivity.
Qed.

Lemma ts_set_long t d : tt_long t = true -> length d = 27 ->
  ts_set_timings t d = Done (timeslot_octets (tt_id t) (ten_of t) 3 (as_u32 (tt_max_tx t)) (as_u32 (tt_timeslot_length t))).
Proof.
  intros HL Hd. destruct (list25 d) as (x0 & x1 & x2 & x3 & x4 & x5 & x6 & x7 & x8 & x9 & x10 & x11 & x12 & x13 & x14 & x15 & x16 & x17 & x18 & x19 & x20 & x21 & x22 & x23 & x24 & rest & E); [lia|].
  subst d. simpl in Hd. destruct rest as [|y0 [|y1 [|? ?]]]; try (simpl in Hd; lia).
  unfold ts_set_timings. rewrite HL. reflexivity.
Qed.

Lemma as_u16_fit z : fits16 z -> Z.of_N (from_le (le 2 (as_u16 z))) = z.
Proof.
  intros H. unfold fits16 in H. unfold as_u16. rewrite Z.mod_small by exact H. rewrite from_le_le.
  - apply Z2N.id. lia.
  - change (256 ^ N.of_nat 2)%N with 65536%N. lia.
Qed.

Lemma as_u32_fit n z : (n = 2 -> fits16 z) -> fits24 z -> 2 <= n <= 3 -> Z.of_N (from_le (le n (as_u32 z))) = z.
Proof.
  intros H2 H Hn. unfold fits24, fits16 in *. unfold as_u32. rewrite Z.mod_small by lia.
  assert (n = 2 \/ n = 3) as [-> | ->] by lia.
  - specialize (H2 eq_refl). rewrite from_le_le by (change (256 ^ N.of_nat 2)%N with 65536%N; lia). apply Z2N.id. lia.
  - rewrite from_le_le by (change (256 ^ N.of_nat 3)%N with 16777216%N; lia). apply Z2N.id. lia.
Qed.

Lemma ts_read id ten n mx len : length ten = 10 -> n = 2 \/ n = 3 -> id <> 0%N ->
  ts_timings (timeslot_octets id ten n mx len) =
  Done (match map (fun v => Z.of_N (from_le (le 2 v))) ten with
        | [a1; a2; a3; a4; a5; a6; a7; a8; a9; a10] =>
          mkTimings id a1 a2 a3 a4 a5 a6 a7 a8 a9 a10 (Z.of_N (from_le (le n mx))) (Z.of_N (from_le (le n len)))
        | _ => timings_default end).
Proof.
  intros HL Hn Hid. do 10 (destruct ten as [|? ten]; [discriminate|]). destruct ten; [|discriminate].
  apply N.eqb_neq in Hid. unfold ts_timings, timeslot_octets, ts_id. cbn [map concat app idx nth_error bind].
  rewrite Hid. destruct Hn as [-> | ->]; reflexivity.
Qed.

Lemma ts_roundtrip t : timings_fit t -> tt_id t <> 0%N ->
  ts_timings (timeslot_octets (tt_id t) (ten_of t) (if tt_long t then 3 else 2) (as_u32 (tt_max_tx t)) (as_u32 (tt_timeslot_length t))) = Done t.
Proof.
  intros (Ho & H10 & Hm & Hl) Hid. rewrite ts_read; [|reflexivity|destruct (tt_long t); auto|exact Hid].
  unfold ten_of. cbn [map].
  rewrite !Forall_cons_iff in H10. destruct H10 as (? & ? & ? & ? & ? & ? & ? & ? & ? & ? & _).
  rewrite !as_u16_fit by assumption.
  assert (S : tt_long t = false -> fits16 (tt_max_tx t) /\ fits16 (tt_timeslot_length t)).
  { unfold tt_long, fits16, fits24, as_u32 in *. intros S. apply orb_false_iff in S. destruct S as [S1 S2].
    apply N.ltb_ge in S1, S2. rewrite Z.mod_small in S1, S2 by lia. lia. }
  rewrite !as_u32_fit; try assumption; try (destruct (tt_long t); [discriminate|intros _; apply S; reflexivity]);
    try (destruct (tt_long t); lia).
  destruct t. reflexivity.
Qed.

Lemma timeslot_octets_length id ten n mx len : length ten = 10 -> length (timeslot_octets id ten n mx len) = 21 + 2 * n.
Proof.
  intros H. do 10 (destruct ten as [|? ten]; [discriminate|]). destruct ten; [|discriminate].
  unfold timeslot_octets. cbn [map concat app]. cbn [le]. cbn [app length]. rewrite app_length, !le_length. lia.
Qed.

Lemma rd_le_ok d off n : off + n <= length d -> exists v, rd_le d off n = Done v.
Proof.
  intros H. unfold rd_le. rewrite slice_from_ok by lia. cbn [bind]. rewrite slice_to_ok by (rewrite skipn_length; lia).
  eexists. reflexivity.
Qed.

Lemma rd_le_panic d off n : length d < off + n -> rd_le d off n = Panic.
Proof.
  intros H. unfold rd_le. destruct (Nat.le_gt_cases off (length d)).
  - rewrite slice_from_ok by assumption. cbn [bind]. rewrite slice_to_panic by (rewrite skipn_length; lia). reflexivity.
  - rewrite slice_from_panic by lia. reflexivity.
Qed.

Lemma ts_timings_panic_iff d : ts_new d = Done (Ok d) ->
  (ts_timings d = Panic <-> nth 0 d 0%N <> 0%N /\ length d = 26).
Proof.
  intros HN. unfold ts_new, ts_id in HN. destruct (Nat.ltb_spec (length d) 1) as [H|H]; [discriminate|].
  rewrite idx_ok in HN by lia. cbn [bind] in HN. unfold ts_timings, ts_id. rewrite idx_ok by lia. cbn [bind].
  destruct (N.eqb_spec (nth 0 d 0%N) 0) as [E|E].
  - split; [discriminate|]. intros [K _]. contradiction.
  - destruct (Nat.leb_spec 25 (length d)) as [HL|HL]; [|discriminate].
    cbn [bind].
    repeat match goal with |- context [rd_le d ?o 2] =>
      let v := fresh "v" in let Hv := fresh "Hv" in
      destruct (rd_le_ok d o 2) as [v Hv]; [lia|]; rewrite Hv; cbn [bind]; clear Hv end.
    destruct (Nat.eqb_spec (length d) 25) as [E25|E25].
    + destruct (rd_le_ok d 21 2) as [v' ->]; [lia|]. cbn [bind]. destruct (rd_le_ok d 23 2) as [v'' Hv'']; [lia|].
      change (21 + 2) with 23. rewrite Hv''. split; [discriminate|lia].
    + destruct (rd_le_ok d 21 3) as [v' ->]; [lia|]. cbn [bind]. change (21 + 3) with 24.
      destruct (Nat.le_gt_cases 27 (length d)).
      * destruct (rd_le_ok d 24 3) as [v'' ->]; [lia|]. split; [discriminate|lia].
      * rewrite rd_le_panic by lia. split; [intros _; split; [exact E|lia]|reflexivity].
Qed.

(** ** Writers on sub-slices *)
Lemma with_slice_app a m c off n f m' : off = length a -> n = length m -> f m = Done m' ->
  with_slice (a ++ m ++ c) off n f = Done (a ++ m' ++ c).
Proof.
  intros -> -> Hf. unfold with_slice. rewrite !app_length.
  destruct (Nat.leb_spec (length a + length m) (length a + (length m + length c))); [|lia].
  rewrite skipn_app, skipn_all, Nat.sub_diag. cbn [app skipn]. rewrite firstn_app, firstn_all, Nat.sub_diag. cbn [firstn].
  rewrite app_nil_r, Hf. cbn [bind]. rewrite firstn_app, firstn_all, Nat.sub_diag. cbn [firstn]. rewrite app_nil_r.
  do 3 f_equal. rewrite app_assoc, skipn_app, app_length, Nat.sub_diag. rewrite <- app_length, skipn_all. reflexivity.
Qed.

Lemma with_from_app a m off f m' : off = length a -> f m = Done m' -> with_from (a ++ m) off f = Done (a ++ m').
Proof.
  intros -> Hf. unfold with_from. rewrite app_length. destruct (Nat.leb_spec (length a) (length a + length m)); [|lia].
  rewrite skipn_app, skipn_all, Nat.sub_diag. cbn [app skipn]. rewrite Hf. cbn [bind].
  rewrite firstn_app, firstn_all, Nat.sub_diag. cbn [firstn]. rewrite app_nil_r. reflexivity.
Qed.

Lemma emit_seq_ok {A} (blen : A -> nat) emit (enc : A -> list N) l :
  (forall x m, In x l -> length m = blen x -> emit x m = Done (enc x)) ->
  (forall x, In x l -> length (enc x) = blen x) ->
  forall a m c off, off = length a -> length m = list_sum (map blen l) ->
  emit_seq blen emit l off (a ++ m ++ c) = Done (a ++ concat (map enc l) ++ c).
Proof.
  induction l as [|x l IH]; intros He Hl a m c off Ho Hm; simpl in Hm.
  - destruct m; [reflexivity|discriminate].
  - cbn [emit_seq map concat].
    rewrite <- (firstn_skipn (blen x) m). set (m1 := firstn (blen x) m). set (m2 := skipn (blen x) m).
    assert (L1 : length m1 = blen x) by (unfold m1; rewrite firstn_length; lia).
    assert (L2 : length m2 = list_sum (map blen l)) by (unfold m2; rewrite skipn_length; lia).
    rewrite <- app_assoc. rewrite (with_slice_app a m1 (m2 ++ c) off (blen x) (emit x) (enc x)); auto;
      [|apply He; [left; reflexivity|exact L1]].
    cbn [bind]. rewrite app_assoc. rewrite IH.
    + rewrite <- !app_assoc. reflexivity.
    + intros y m' Hy. apply He. right. exact Hy.
    + intros y Hy. apply Hl. right. exact Hy.
    + rewrite app_length, (Hl x) by (left; reflexivity). lia.
    + exact L2.
Qed.

Lemma list_sum_concat {A} (blen : A -> nat) (enc : A -> list N) l :
  (forall x, In x l -> length (enc x) = blen x) -> length (concat (map enc l)) = list_sum (map blen l).
Proof.
  induction l as [|x l IH]; intros H; [reflexivity|]. cbn [map concat]. rewrite app_length, (H x) by (left; reflexivity).
  simpl. rewrite IH; [reflexivity|]. intros y Hy. apply H. right. exact Hy.
Qed.

(** ** Numbers at an offset *)
Lemma skipn_nth_cons {A} (d : A) l : forall n, n < length l -> skipn n l = nth n l d :: skipn (S n) l.
Proof.
  induction l as [|x l IH]; intros n H; [cbn [length] in H; lia|]. destruct n as [|n]; [reflexivity|].
  cbn [skipn nth]. rewrite IH by (cbn [length] in H; lia). reflexivity.
Qed.
Lemma num_from_le c n : forall off, off + n <= length c -> from_le (firstn n (skipn off c)) = num c off n.
Proof.
  induction n as [|n IH]; intros off H; [reflexivity|].
  rewrite (skipn_nth_cons 0%N c off) by lia.
  cbn [firstn from_le num]. rewrite IH by lia. reflexivity.
Qed.
Lemma rd_le_num d off n : off + n <= length d -> rd_le d off n = Done (num d off n).
Proof.
  intros H. unfold rd_le. rewrite slice_from_ok by lia. cbn [bind]. rewrite slice_to_ok by (rewrite skipn_length; lia). cbn [bind].
  rewrite num_from_le by exact H. reflexivity.
Qed.
Lemma ts_timings_at c : ts_new c = Done (Ok c) -> ~ (nth 0 c 0%N <> 0%N /\ length c = 26) -> ts_timings c = Done (timings_at c).
Proof.
  intros HN HB. unfold ts_new, ts_id in HN. destruct (Nat.ltb_spec (length c) 1) as [L|L]; [discriminate|]. rewrite idx_ok in HN by lia. cbn [bind] in HN.
  unfold ts_timings, timings_at, ts_id. rewrite idx_ok by lia. cbn [bind]. cbv zeta. destruct (N.eqb_spec (nth 0 c 0%N) 0) as [E|E]; [reflexivity|].
  destruct (Nat.leb_spec 25 (length c)) as [L25|L25]; [|discriminate].
  destruct (Nat.eqb_spec (length c) 25) as [E25|E25]; rewrite !rd_le_num by lia; reflexivity.
Qed.

(** ** The two setters of Time Correction, one at a time *)
Lemma and_7fff v : (v < 65536)%N -> N.land v 0x7fff = masked 15 1 0 v.
Proof.
  intros Hv. apply N.bits_inj. intros j. rewrite N.land_spec, testbit_masked by (exact Hv || lia).
  change 0x7fff%N with (maskN 0 15). rewrite testbit_mask, N.bits_0.
  destruct (N.leb_spec 15 j); destruct (N.ltb_spec j (15 + 1)); destruct (N.leb_spec 0 j); destruct (N.ltb_spec j (0 + 15)); simpl; try lia;
    rewrite ?andb_true_r, ?andb_false_r; try reflexivity.
  symmetry. apply testbit_high16; [exact Hv|lia].
Qed.
Lemma tc_setters us nack b0 b1 rest : octet b0 -> octet b1 ->
  exists d d', tc_set_nack nack (b0 :: b1 :: rest) = Done d /\ keeps 15 1 (b0 :: b1 :: rest) d /\
    bit 15 (desc d) = nack /\
    tc_set_time_correction us (b0 :: b1 :: rest) = Done d' /\ d' = le 2 (Z.to_N (us mod 4096)) ++ rest.
Proof.
  intros H0 H1. assert (L0 := desc_lt b0 b1 rest H0 H1). unfold tc_set_nack. rewrite ie_raw_cons. cbn [bind].
  rewrite or_8000, and_7fff by exact L0.
  replace (if nack then masked 15 1 0x8000 (desc (b0 :: b1 :: rest)) else masked 15 1 0 (desc (b0 :: b1 :: rest)))
    with (masked 15 1 (if nack then 0x8000 else 0)%N (desc (b0 :: b1 :: rest))) by (destruct nack; reflexivity).
  destruct (ie_write (masked 15 1 (if nack then 0x8000 else 0)%N (desc (b0 :: b1 :: rest))) b0 b1 rest) as (c0 & c1 & E & O0 & O1 & D);
    [apply masked_lt; [exact L0|lia]|].
  exists (c0 :: c1 :: rest), (le 2 (Z.to_N (us mod 4096)) ++ rest). split; [exact E|].
  pose proof D as D'. apply masked_keeps in D'; try assumption; [|lia]. split; [exact (proj1 D')|].
  split; [rewrite D, bit_masked_in by (assumption || lia); destruct nack; reflexivity|].
  split; [|reflexivity]. apply tc_set.
Qed.
