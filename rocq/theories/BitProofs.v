(** BitProofs.v -- bit-field lemmas used by the codec proofs. *)
From Verif Require Import Base BaseProofs FrameControl Spec.
From Coq Require Import ZifyBool ZifyNat ZifyN.

Lemma bit_testbit k v : bit k v = N.testbit v k.
Proof. unfold bit. rewrite N.testbit_odd, N.shiftr_div_pow2. reflexivity. Qed.

Lemma flag_at_testbit k v : flag_at k v = N.testbit v k.
Proof.
  unfold flag_at. change 1%N with (N.ones 1) at 1. rewrite N.land_ones.
  rewrite <- N.testbit_spec' with (a := v) (n := k) || idtac.
  rewrite N.shiftr_div_pow2. change (2 ^ 1)%N with 2%N.
  rewrite <- N.testbit_spec'. destruct (N.testbit v k); reflexivity.
Qed.

Lemma flag_at_bit k v : flag_at k v = bit k v.
Proof. rewrite bit_testbit. apply flag_at_testbit. Qed.

Lemma field_land lo n v : N.land (N.shiftr v lo) (N.ones n) = field lo n v.
Proof. unfold field. rewrite N.land_ones, N.shiftr_div_pow2. reflexivity. Qed.

Lemma field_lt lo n v : (field lo n v < 2 ^ n)%N.
Proof. unfold field. apply N.mod_lt. apply N.pow_nonzero. lia. Qed.

Lemma testbit_field lo n v j : N.testbit (field lo n v) j = (j <? n)%N && N.testbit v (lo + j).
Proof.
  rewrite <- field_land, N.land_spec, N.shiftr_spec by lia.
  rewrite N.ones_spec_iff || idtac.
  destruct (N.ltb_spec j n) as [H|H].
  - rewrite N.ones_spec_low, andb_true_r by exact H. simpl. f_equal. lia.
  - rewrite N.ones_spec_high, andb_false_r by exact H. reflexivity.
Qed.

Lemma field_ext lo n v w :
  (forall j, (lo <= j < lo + n)%N -> N.testbit v j = N.testbit w j) -> field lo n v = field lo n w.
Proof.
  intros H. apply N.bits_inj. intros j. rewrite !testbit_field.
  destruct (N.ltb_spec j n) as [Hj|Hj]; simpl; [|reflexivity]. apply H. lia.
Qed.

Lemma testbit_high v n j : (v < 2 ^ n)%N -> (n <= j)%N -> N.testbit v j = false.
Proof.
  intros Hv Hj. destruct (N.eq_dec v 0) as [->|Hz]; [apply N.bits_0|].
  apply N.bits_above_log2. apply N.log2_lt_pow2 in Hv; lia.
Qed.

Lemma testbit_high8 v j : (v < 256)%N -> (8 <= j)%N -> N.testbit v j = false.
Proof. intros Hv Hj. apply (testbit_high v 8); [exact Hv|exact Hj]. Qed.
Lemma testbit_high16 v j : (v < 65536)%N -> (16 <= j)%N -> N.testbit v j = false.
Proof. intros Hv Hj. apply (testbit_high v 16); [exact Hv|exact Hj]. Qed.

Lemma lt_of_testbit v n : (forall j, (n <= j)%N -> N.testbit v j = false) -> (v < 2 ^ n)%N.
Proof.
  intros H.
  assert (Hv : N.land v (N.ones n) = v).
  { apply N.bits_inj. intros j. rewrite N.land_spec. destruct (N.lt_ge_cases j n) as [Hj|Hj].
    - rewrite N.ones_spec_low by exact Hj. apply andb_true_r.
    - rewrite (H j Hj). reflexivity. }
  rewrite <- Hv, N.land_ones. apply N.mod_lt. apply N.pow_nonzero. lia.
Qed.

(** u16 operations *)
Lemma testbit_65535 j : N.testbit 65535 j = (j <? 16)%N.
Proof.
  change 65535%N with (N.ones 16). destruct (N.ltb_spec j 16).
  - apply N.ones_spec_low. lia.
  - apply N.ones_spec_high. lia.
Qed.

Lemma testbit_u16_shl x k j :
  N.testbit (u16_shl x k) j = (k <=? j)%N && (j <? 16)%N && N.testbit x (j - k).
Proof.
  unfold u16_shl. rewrite N.land_spec, testbit_65535.
  destruct (N.leb_spec k j) as [H|H]; simpl.
  - rewrite N.shiftl_spec_high' by exact H. apply andb_comm.
  - rewrite N.shiftl_spec_low by exact H. reflexivity.
Qed.

Lemma testbit_u16_not x j : N.testbit (u16_not x) j = xorb (j <? 16)%N (N.testbit x j).
Proof. unfold u16_not. rewrite N.lxor_spec, testbit_65535. reflexivity. Qed.

Lemma testbit_N_of_bool x j : N.testbit (N_of_bool x) j = x && (j =? 0)%N.
Proof.
  destruct x; simpl.
  - destruct j as [|p]; [reflexivity|]. destruct p; reflexivity.
  - reflexivity.
Qed.

Lemma testbit_or_flag k x raw j : (k < 16)%N ->
  N.testbit (or_flag k x raw) j = N.testbit raw j || (x && (j =? k)%N).
Proof.
  intros Hk. unfold or_flag. rewrite N.lor_spec, testbit_u16_shl, testbit_N_of_bool. f_equal.
  destruct x; simpl; [|rewrite andb_false_r; reflexivity].
  destruct (N.leb_spec k j); destruct (N.ltb_spec j 16); destruct (N.eqb_spec (j - k) 0);
    destruct (N.eqb_spec j k); simpl; try reflexivity; lia.
Qed.

Lemma testbit_put_field k n v raw j : (k + n <= 16)%N -> (raw < 65536)%N ->
  N.testbit (put_field k (N.ones n) v raw) j =
  if ((k <=? j) && (j <? k + n))%N then N.testbit v (j - k) else N.testbit raw j.
Proof.
  intros Hk Hraw. unfold put_field.
  rewrite N.lor_spec, N.land_spec, testbit_u16_not, !testbit_u16_shl, N.land_spec.
  destruct (N.leb_spec k j) as [H1|H1]; simpl.
  - destruct (N.ltb_spec j 16) as [H2|H2]; simpl.
    + destruct (N.ltb_spec j (k + n)) as [H3|H3].
      * rewrite N.ones_spec_low by lia. rewrite andb_true_r. cbn. rewrite andb_false_r. reflexivity.
      * rewrite N.ones_spec_high by lia. rewrite andb_false_r. cbn. rewrite andb_true_r, orb_false_r. reflexivity.
    + destruct (N.ltb_spec j (k + n)); [lia|]. rewrite orb_false_r, andb_false_r.
      symmetry. apply (@testbit_high raw 16); [exact Hraw|exact H2].
  - rewrite orb_false_r, xorb_false_r. destruct (N.ltb_spec j 16); [apply andb_true_r|lia].
Qed.

Lemma put_field_lt k n v raw : (k + n <= 16)%N -> (raw < 65536)%N ->
  (put_field k (N.ones n) v raw < 65536)%N.
Proof.
  intros Hk Hr. change 65536%N with (2 ^ 16)%N. apply lt_of_testbit. intros j Hj.
  rewrite testbit_put_field by assumption.
  destruct (N.leb_spec k j); destruct (N.ltb_spec j (k + n)); simpl; try lia;
    apply (@testbit_high raw 16); assumption.
Qed.

Lemma or_flag_lt k x raw : (k < 16)%N -> (raw < 65536)%N -> (or_flag k x raw < 65536)%N.
Proof.
  intros Hk Hr. change 65536%N with (2 ^ 16)%N. apply lt_of_testbit. intros j Hj.
  rewrite testbit_or_flag by assumption. rewrite (@testbit_high raw 16) by assumption.
  destruct (N.eqb_spec j k); [lia|]. apply andb_false_r.
Qed.

Lemma field_put_field k n v raw : (k + n <= 16)%N -> (raw < 65536)%N -> (v < 2 ^ n)%N ->
  field k n (put_field k (N.ones n) v raw) = v.
Proof.
  intros Hk Hr Hv. apply N.bits_inj. intros j. rewrite testbit_field, testbit_put_field by assumption.
  destruct (N.ltb_spec j n) as [Hj|Hj]; simpl.
  - destruct (N.leb_spec k (k + j)); destruct (N.ltb_spec (k + j) (k + n)); simpl; try lia. f_equal. lia.
  - symmetry. apply (@testbit_high v n); assumption.
Qed.
