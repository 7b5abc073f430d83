(** C59, C60: channel numbers, time arithmetic *)
From Coq Require Import ZArith NArith Lia.
From Verif Require Import Base Time PhyConfig.
Local Open Scope Z_scope.

(** ** C59 Channel numbers *)
Theorem C59_accepts : forall z, (exists c, channel_try_from z = Ok c) <-> 11 <= z <= 26.
Proof.
  intros z. split.
  - intros (c & H). unfold channel_try_from in H.
    repeat match type of H with (match ?x with _ => _ end) = _ => destruct x; try discriminate H end; lia.
  - intros H.
    assert (K : z = 11 \/ z = 12 \/ z = 13 \/ z = 14 \/ z = 15 \/ z = 16 \/ z = 17 \/ z = 18 \/ z = 19 \/ z = 20 \/ z = 21 \/ z = 22 \/ z = 23 \/ z = 24 \/ z = 25 \/ z = 26) by lia.
    repeat (destruct K as [->|K]; [eexists; reflexivity|]). subst. eexists. reflexivity.
Qed.
Print Assumptions C59_accepts.
Theorem C59_inverse : forall z c, channel_try_from z = Ok c <-> z = Z.of_N (channel_u8 c).
Proof.
  intros z c. split.
  - intros H. assert (11 <= z <= 26) as R by (apply C59_accepts; eauto).
    assert (K : z = 11 \/ z = 12 \/ z = 13 \/ z = 14 \/ z = 15 \/ z = 16 \/ z = 17 \/ z = 18 \/ z = 19 \/ z = 20 \/ z = 21 \/ z = 22 \/ z = 23 \/ z = 24 \/ z = 25 \/ z = 26) by lia.
    repeat (destruct K as [->|K]; [injection H as <-; reflexivity|]). subst. injection H as <-. reflexivity.
  - intros ->. destruct c; reflexivity.
Qed.
Print Assumptions C59_inverse.
(** the variants are named after their numbers; the default configurations *)
Theorem C59_numbers : map channel_u8 [Ch11; Ch12; Ch13; Ch14; Ch15; Ch16; Ch17; Ch18; Ch19; Ch20; Ch21; Ch22; Ch23; Ch24; Ch25; Ch26] =
    [11; 12; 13; 14; 15; 16; 17; 18; 19; 20; 21; 22; 23; 24; 25; 26]%N /\
  channel_u8 channel_default = 26%N /\ channel_u8 (tx_channel tx_default) = 26%N /\ tx_cca tx_default = false /\
  channel_u8 (tx_channel tx_default_with_cca) = 26%N /\ tx_cca tx_default_with_cca = true.
Proof. repeat split. Qed.
Print Assumptions C59_numbers.
Example C59_ex : channel_try_from 26 = Ok Ch26 /\ channel_try_from 27 = Err /\ channel_try_from (-11) = Err.
Proof. repeat split. Qed.

(** ** C60 Time arithmetic: on every profile, for all i64 operands *)
Definition fits (z : Z) : Prop := - 2 ^ 63 <= z < 2 ^ 63.
Lemma fits_ok z : i64_ok z = true <-> fits z.
Proof. unfold i64_ok, fits. lia. Qed.
Lemma arith_fits p z : fits z -> arith p z = Done z.
Proof. intros H. unfold arith. rewrite (proj2 (fits_ok z) H). reflexivity. Qed.
Lemma wrap_small n : fits n -> wrap64 n = n.
Proof. unfold fits, wrap64. intros H. rewrite Z.mod_small; lia. Qed.

Theorem C60_add_sub : forall p a b, fits a -> fits b ->
  (fits (a + b) -> duration_add p a b = Done (a + b) /\ instant_add_duration p a b = Done (a + b)) /\
  (fits (a - b) -> duration_sub p a b = Done (a - b) /\ instant_sub p a b = Done (a - b) /\ instant_sub_duration p a b = Done (a - b)).
Proof. intros p a b _ _. split; intros H; repeat split; apply arith_fits; exact H. Qed.
Print Assumptions C60_add_sub.
(** when the result does not fit: a panic with overflow checks, the residue modulo 2^64 without *)
Definition overflows (op : Profile -> outcome Z) (exact : Z) : Prop :=
  op Checked = Panic /\ exists r, op Wrapping = Done r /\ fits r /\ exists k, r = exact + k * 2 ^ 64.
Lemma arith_overflows z : ~ fits z -> overflows (fun p => arith p z) z.
Proof.
  intros H. unfold overflows, arith. destruct (i64_ok z) eqn:E; [apply fits_ok in E; contradiction|].
  split; [reflexivity|]. eexists. split; [reflexivity|]. unfold wrap64, fits.
  pose proof (Z.mod_pos_bound (z + 2 ^ 63) (2 ^ 64) ltac:(lia)). split; [lia|].
  exists (- ((z + 2 ^ 63) / 2 ^ 64)). pose proof (Z.div_mod (z + 2 ^ 63) (2 ^ 64) ltac:(lia)). lia.
Qed.
Theorem C60_overflow : forall a b, fits a -> fits b ->
  (~ fits (a + b) -> overflows (fun p => duration_add p a b) (a + b) /\ overflows (fun p => instant_add_duration p a b) (a + b)) /\
  (~ fits (a - b) -> overflows (fun p => duration_sub p a b) (a - b) /\ overflows (fun p => instant_sub p a b) (a - b) /\
     overflows (fun p => instant_sub_duration p a b) (a - b)) /\
  (0 <= b -> ~ fits (a * b) -> overflows (fun p => duration_mul p a b) (a * b)).
Proof.
  intros a b _ Hb. split; [|split].
  - intros H. split; apply arith_overflows; exact H.
  - intros H. repeat split; apply arith_overflows; exact H.
  - intros _ H. unfold duration_mul. rewrite wrap_small by exact Hb. apply arith_overflows. exact H.
Qed.
Print Assumptions C60_overflow.
(** the larger of two durations *)
Theorem C60_max : forall a b, (duration_max a b = a \/ duration_max a b = b) /\ a <= duration_max a b /\ b <= duration_max a b.
Proof. intros a b. unfold duration_max. lia. Qed.
Print Assumptions C60_max.

(** usize operands, up to 64 bits *)
Definition usize (n : Z) : Prop := 0 <= n < 2 ^ 64.
Definition C60_mul_div_statement : Prop := forall p a n, fits a -> usize n ->
  (fits (a * n) -> duration_mul p a n = Done (a * n)) /\
  (n <> 0 -> duration_div p a n = Done (Z.quot a n)).
(** [rhs as i64] is negative for operands of 2^63 and more: 1us / (2^64-1) is -1us *)
Theorem C60_cast_refuted : ~ C60_mul_div_statement.
Proof.
  intros H. destruct (H Checked 1 (2 ^ 64 - 1)) as [_ K]; [unfold fits; lia|unfold usize; lia|].
  specialize (K ltac:(lia)). vm_compute in K. discriminate.
Qed.
Print Assumptions C60_cast_refuted.
(** with factors below 2^63 (all of them where usize has 32 bits) they agree; division by zero panics *)
Theorem C60_mul_div_partial : forall p a n, fits a -> 0 <= n < 2 ^ 63 ->
  (fits (a * n) -> duration_mul p a n = Done (a * n)) /\
  (n <> 0 -> duration_div p a n = Done (Z.quot a n)) /\ duration_div p a 0 = Panic.
Proof.
  intros p a n Ha Hn. unfold duration_mul, duration_div. rewrite wrap_small by (unfold fits; lia). split; [apply arith_fits|].
  split; [|reflexivity]. intros N. destruct (Z.eqb_spec n 0); [contradiction|]. destruct (Z.eqb_spec n (-1)); [lia|].
  rewrite andb_false_r. reflexivity.
Qed.
Print Assumptions C60_mul_div_partial.
Example C60_ex : duration_mul Checked 320 255 = Done 81600 /\ duration_div Checked 1000 2 = Done 500 /\ duration_div Checked (-7) 2 = Done (-3) /\
  duration_add Checked (2 ^ 63 - 1) 1 = Panic.
Proof. repeat split. Qed.
