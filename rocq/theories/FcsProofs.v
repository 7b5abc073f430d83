(** FcsProofs.v -- GF(2) polynomial lemmas and correctness of the table CRC. *)
From Verif Require Import Base BaseProofs Spec BitProofs FrameControl Frames Fcs SpecFcs.
Local Open Scope N_scope.

(** ** Binary arithmetic *)
Lemma lxor_dd a b : N.lxor (N.double a) (N.double b) = N.double (N.lxor a b).
Proof. destruct a, b; reflexivity. Qed.
Lemma lxor_ds a b : N.lxor (N.double a) (N.succ_double b) = N.succ_double (N.lxor a b).
Proof. destruct a, b; reflexivity. Qed.
Lemma lxor_sd a b : N.lxor (N.succ_double a) (N.double b) = N.succ_double (N.lxor a b).
Proof. destruct a, b; reflexivity. Qed.
Lemma lxor_ss a b : N.lxor (N.succ_double a) (N.succ_double b) = N.double (N.lxor a b).
Proof. destruct a, b; reflexivity. Qed.

Lemma gmul_double q g : gmul (N.double q) g = N.double (gmul q g).
Proof. destruct q; reflexivity. Qed.
Lemma gmul_succ_double q g : gmul (N.succ_double q) g = N.lxor g (N.double (gmul q g)).
Proof. destruct q; simpl; [rewrite N.lxor_0_r; reflexivity|reflexivity]. Qed.

Lemma double_or_succ n : (exists m, n = N.double m) \/ (exists m, n = N.succ_double m).
Proof. destruct n as [|[p|p|]]; [left; exists 0|right; exists (Npos p)|left; exists (Npos p)|right; exists 0]; reflexivity. Qed.

(** equality of xor expressions *)
Ltac xor_eq := apply N.bits_inj; intros ?k; rewrite ?N.lxor_spec, ?N.bits_0;
  repeat match goal with |- context [N.testbit ?a ?k] => destruct (N.testbit a k) end; reflexivity.

Lemma gmul_lxor a b g : gmul (N.lxor a b) g = N.lxor (gmul a g) (gmul b g).
Proof.
  revert b. induction a as [|a IH|a IH] using N.binary_ind; intros b; [reflexivity| |];
    destruct (double_or_succ b) as [[c ->]|[c ->]].
  - rewrite lxor_dd, !gmul_double, lxor_dd, IH. reflexivity.
  - rewrite lxor_ds, gmul_double, !gmul_succ_double, IH, <- lxor_dd. xor_eq.
  - rewrite lxor_sd, gmul_double, !gmul_succ_double, IH, <- lxor_dd. xor_eq.
  - rewrite lxor_ss, gmul_double, !gmul_succ_double, IH, <- lxor_dd. xor_eq.
Qed.

Lemma double_mul n : N.double n = 2 * n.
Proof. destruct n; reflexivity. Qed.
Lemma succ_double_mul n : N.succ_double n = 2 * n + 1.
Proof. destruct n; reflexivity. Qed.

Lemma log2_lxor_lt a b : N.log2 a < N.log2 b -> N.log2 (N.lxor a b) = N.log2 b.
Proof.
  intros H. assert (b <> 0) by (intros ->; simpl in H; lia).
  assert (HT : N.testbit (N.lxor a b) (N.log2 b) = true).
  { rewrite N.lxor_spec, N.bit_log2 by assumption. rewrite N.bits_above_log2 by exact H. reflexivity. }
  apply N.le_antisymm.
  - etransitivity; [apply N.log2_lxor|]. lia.
  - destruct (N.le_gt_cases (N.log2 b) (N.log2 (N.lxor a b))) as [K|K]; [exact K|].
    rewrite N.bits_above_log2 in HT by exact K. discriminate.
Qed.

Lemma log2_pos_nz n : 0 < N.log2 n -> n <> 0.
Proof. intros H ->. simpl in H. lia. Qed.

Lemma pmul_log2 p g : g <> 0 -> pmul p g <> 0 /\ N.log2 (pmul p g) = N.log2 (Npos p) + N.log2 g.
Proof.
  intros Hg. induction p as [p [NZ IH]|p [NZ IH]|]; cbn [pmul].
  - assert (E : N.log2 (N.lxor g (N.double (pmul p g))) = N.log2 (N.pos p~1) + N.log2 g).
    { rewrite log2_lxor_lt; rewrite N.double_spec, N.log2_double by lia; rewrite IH.
      + change (N.pos p~1) with (N.succ_double (Npos p)). rewrite N.succ_double_spec, N.log2_succ_double by lia. lia.
      + lia. }
    split; [|exact E]. apply log2_pos_nz. rewrite E.
    change (N.pos p~1) with (N.succ_double (Npos p)). rewrite N.succ_double_spec, N.log2_succ_double by lia. lia.
  - rewrite N.double_spec. split; [lia|]. rewrite N.log2_double by lia. rewrite IH.
    change (N.pos p~0) with (N.double (Npos p)). rewrite N.double_spec, N.log2_double by lia. lia.
  - auto.
Qed.

Lemma gmul_small q g : g <> 0 -> gmul q g < 2 ^ N.log2 g -> q = 0.
Proof.
  intros Hg H. destruct q as [|p]; [reflexivity|]. cbn [gmul] in H.
  destruct (pmul_log2 p g Hg) as [NZ E]. apply N.log2_lt_pow2 in H; lia.
Qed.

Lemma lxor_lt a b n : a < 2 ^ n -> b < 2 ^ n -> N.lxor a b < 2 ^ n.
Proof.
  intros Ha Hb. apply lt_of_testbit. intros j Hj. rewrite N.lxor_spec, (testbit_high a n), (testbit_high b n) by assumption. reflexivity.
Qed.

Lemma remainder_fun g m r r' : g <> 0 -> is_remainder g m r -> is_remainder g m r' -> r = r'.
Proof.
  intros Hg (q & E & Hr) (q' & E' & Hr').
  assert (EQ : gmul (N.lxor q q') g = N.lxor r r').
  { rewrite gmul_lxor. rewrite E in E'. apply (f_equal (fun x => N.lxor (N.lxor x (gmul q' g)) r)) in E'.
    transitivity (N.lxor (N.lxor (N.lxor (N.lxor (gmul q g) r) (gmul q' g)) r) 0); [xor_eq|]. rewrite E'. xor_eq. }
  assert (Z : N.lxor q q' = 0). { apply (gmul_small _ g Hg). rewrite EQ. apply lxor_lt; assumption. }
  rewrite Z in EQ. cbn [gmul] in EQ. symmetry in EQ. apply N.lxor_eq in EQ. exact EQ.
Qed.

(** ** Streams *)
Definition b2n (x : bool) : N := if x then 1 else 0.
Lemma poly_snoc l x : poly (l ++ [x]) = 2 * poly l + b2n x.
Proof. unfold poly. rewrite fold_left_app. reflexivity. Qed.

Lemma two_add n x : 2 * n + b2n x = if x then N.succ_double n else N.double n.
Proof. destruct x, n; reflexivity. Qed.

Lemma shiftl_double n k : N.shiftl (N.double n) k = N.double (N.shiftl n k).
Proof. rewrite !N.shiftl_mul_pow2, !N.double_spec. lia. Qed.

Lemma poly_app l l' : poly (l ++ l') = N.lxor (N.shiftl (poly l) (N.of_nat (length l'))) (poly l').
Proof.
  induction l' as [|x l' IH] using rev_ind.
  - rewrite app_nil_r. change (N.of_nat (length (@nil bool))) with 0. rewrite N.shiftl_0_r, N.lxor_0_r. reflexivity.
  - rewrite app_assoc, !poly_snoc, IH, app_length, !two_add.
    replace (N.of_nat (length l' + length [x])) with (N.succ (N.of_nat (length l'))) by (simpl; lia).
    rewrite N.shiftl_succ_r. destruct x; rewrite ?lxor_ds, ?lxor_dd; reflexivity.
Qed.

Lemma poly_lt l : poly l < 2 ^ N.of_nat (length l).
Proof.
  induction l as [|x l IH] using rev_ind; [reflexivity|].
  rewrite poly_snoc, app_length. replace (N.of_nat (length l + length [x])) with (N.succ (N.of_nat (length l))) by (simpl; lia).
  rewrite N.pow_succ_r'. unfold b2n. destruct x; lia.
Qed.

Lemma stream_app a b : stream (a ++ b) = stream a ++ stream b.
Proof. apply flat_map_app. Qed.
Lemma stream_length b : (length (stream b) = 8 * length b)%nat.
Proof. induction b as [|x b IH]; [reflexivity|]. cbn [stream flat_map length]. rewrite app_length. fold (stream b). rewrite IH. simpl length. lia. Qed.

(** ** The bitwise register *)
Definition K : N := 0x8408.
Lemma poly_reversed : reverse_bits16 CRC_POLY = K.
Proof. reflexivity. Qed.

Lemma crc_shift_odd v : crc_shift v = N.lxor (N.div2 v) (if N.odd v then K else 0).
Proof.
  unfold crc_shift. rewrite poly_reversed, N.div2_spec. f_equal.
  change 1 with (N.ones 1). rewrite N.land_ones. change (2 ^ 1) with 2. rewrite <- N.bit0_mod, N.bit0_odd.
  destruct (N.odd v); reflexivity.
Qed.

Lemma crc_shift_lxor a b : crc_shift (N.lxor a b) = N.lxor (crc_shift a) (crc_shift b).
Proof.
  rewrite !crc_shift_odd. rewrite <- !N.bit0_odd, N.lxor_spec.
  replace (N.div2 (N.lxor a b)) with (N.lxor (N.div2 a) (N.div2 b)).
  - destruct (N.testbit a 0), (N.testbit b 0); cbn [xorb]; xor_eq.
  - rewrite !N.div2_spec. symmetry. apply N.shiftr_lxor.
Qed.

Lemma crc_shift_double a : crc_shift (2 * a) = a.
Proof. rewrite crc_shift_odd. rewrite N.div2_double, N.odd_mul. simpl. apply N.lxor_0_r. Qed.

Definition bstep (s : N) (m : bool) : N := crc_shift (N.lxor s (b2n m)).
Fixpoint value (l : list bool) : N := match l with [] => 0 | x :: r => b2n x + 2 * value r end.

Lemma lxor_b2n_double x a : N.lxor (b2n x) (2 * a) = b2n x + 2 * a.
Proof. destruct x, a; reflexivity. Qed.

Lemma iter_succ_r {A} n (f : A -> A) x : Nat.iter (S n) f x = Nat.iter n f (f x).
Proof. induction n as [|n IH]; [reflexivity|]. change (Nat.iter (S (S n)) f x) with (f (Nat.iter (S n) f x)). rewrite IH. reflexivity. Qed.

Lemma bsteps_value l s : fold_left bstep l s = Nat.iter (length l) crc_shift (N.lxor s (value l)).
Proof.
  revert s. induction l as [|x l IH]; intros s; [simpl; rewrite N.lxor_0_r; reflexivity|].
  cbn [fold_left value length]. rewrite IH. unfold bstep.
  replace (N.lxor (crc_shift (N.lxor s (b2n x))) (value l)) with (crc_shift (N.lxor s (b2n x + 2 * value l))).
  - rewrite iter_succ_r. reflexivity.
  - rewrite <- lxor_b2n_double, <- N.lxor_assoc, crc_shift_lxor, crc_shift_double. reflexivity.
Qed.

Lemma value_octet x : octet x -> value (octet_bits x) = x.
Proof.
  intros H. apply N.eqb_eq. apply (sweep 256 (fun x => value (octet_bits x) =? x)); [vm_compute; reflexivity|exact H].
Qed.

Lemma iter8_lxor a b : Nat.iter 8 crc_shift (N.lxor a b) = N.lxor (Nat.iter 8 crc_shift a) (Nat.iter 8 crc_shift b).
Proof. cbn [Nat.iter nat_rect]. rewrite !crc_shift_lxor. reflexivity. Qed.

Lemma iter8_high a : Nat.iter 8 crc_shift (256 * a) = a.
Proof.
  cbn [Nat.iter nat_rect].
  replace (256 * a) with (2 * (2 * (2 * (2 * (2 * (2 * (2 * (2 * a)))))))) by lia. rewrite !crc_shift_double. reflexivity.
Qed.

Lemma split8 v : v = N.lxor (N.land v 0xFF) (256 * N.shiftr v 8).
Proof.
  change 256 with (2 ^ 8). rewrite N.mul_comm, <- N.shiftl_mul_pow2. apply N.bits_inj. intros j.
  rewrite N.lxor_spec, N.land_spec. change 0xFF with (N.ones 8).
  destruct (N.lt_ge_cases j 8) as [H|H].
  - rewrite N.ones_spec_low by lia. rewrite N.shiftl_spec_low by exact H. destruct (N.testbit v j); reflexivity.
  - rewrite N.ones_spec_high by exact H. rewrite N.shiftl_spec_high', N.shiftr_spec' by exact H.
    replace (j - 8 + 8) with j by lia. destruct (N.testbit v j); reflexivity.
Qed.

Lemma crc_byte_bits s x : octet x -> crc_byte s x = fold_left bstep (octet_bits x) s.
Proof.
  intros H. rewrite bsteps_value, value_octet by exact H. change (length (octet_bits x)) with 8%nat.
  rewrite (split8 (N.lxor s x)), iter8_lxor, iter8_high. unfold crc_byte. f_equal.
  rewrite N.shiftr_lxor. replace (N.shiftr x 8) with 0; [rewrite N.lxor_0_r; reflexivity|].
  rewrite N.shiftr_div_pow2. symmetry. apply N.div_small. exact H.
Qed.

Lemma crc_bytes_bits b s : octets b -> fold_left crc_byte b s = fold_left bstep (stream b) s.
Proof.
  revert s. induction b as [|x b IH]; intros s H; [reflexivity|]. inversion_clear H as [|? ? Hx Hb].
  cbn [fold_left stream flat_map]. rewrite fold_left_app, <- crc_byte_bits by exact Hx. apply IH. exact Hb.
Qed.

(** ** The register read in transmission order is the remainder *)
Definition rv (s : N) : N := poly (stream (to_le 2 s)).
Definition nstep (r : N) (m : bool) : N :=
  N.lxor (N.lxor (N.double r) (if m then 65536 else 0)) (if xorb (N.testbit r 15) m then G16 else 0).

Definition rvf (s : N) : N := poly (map (N.testbit s) [0; 1; 2; 3; 4; 5; 6; 7; 8; 9; 10; 11; 12; 13; 14; 15]).
Lemma rvf_eq s : rv s = rvf s.
Proof.
  assert (L : forall k v, k < 8 -> bit k (v mod 256) = N.testbit v k).
  { intros k v Hk. rewrite bit_testbit. change 256 with (2 ^ 8). apply N.mod_pow2_bits_low. exact Hk. }
  assert (H : forall k v, k < 8 -> bit k (v / 256 mod 256) = N.testbit v (k + 8)).
  { intros k v Hk. rewrite L by exact Hk. change 256 with (2 ^ 8). apply N.div_pow2_bits. }
  unfold rv, rvf. f_equal. cbn [to_le stream flat_map octet_bits app map].
  rewrite !H, !L by reflexivity. reflexivity.
Qed.

Lemma rv_check : all_below 65536 (fun s => let r := rvf s in let x := bstep s false in let y := bstep s true in
  (rvf x =? nstep r false) && (rvf y =? nstep r true)
  && (x <? 65536) && (y <? 65536) && (r <? 65536) && (rvf r =? s)) = true.
Proof. vm_compute. reflexivity. Qed.

Lemma rv_step s m : s < 65536 -> rv (bstep s m) = nstep (rv s) m /\ bstep s m < 65536.
Proof.
  intros H. pose proof (sweep _ _ rv_check s H) as E. cbv beta zeta in E. rewrite <- !rvf_eq in E. rewrite !andb_true_iff in E.
  destruct E as (((((E1 & E2) & E3) & E4) & E5) & E6).
  apply N.eqb_eq in E1, E2. apply N.ltb_lt in E3, E4. destruct m; auto.
Qed.
Lemma rv_lt s : s < 65536 -> rv s < 65536.
Proof.
  intros H. pose proof (sweep _ _ rv_check s H) as E. cbv beta zeta in E. rewrite <- !rvf_eq in E. rewrite !andb_true_iff in E. apply N.ltb_lt. tauto.
Qed.
Lemma rv_inv s : s < 65536 -> rv (rv s) = s.
Proof.
  intros H. pose proof (sweep _ _ rv_check s H) as E. cbv beta zeta in E. rewrite <- !rvf_eq in E. rewrite !andb_true_iff in E. apply N.eqb_eq. tauto.
Qed.

Lemma register l : fold_left bstep l 0 < 65536 /\
  is_remainder G16 (N.shiftl (poly l) 16) (rv (fold_left bstep l 0)).
Proof.
  induction l as [|x l [IHl (q & E & _)]] using rev_ind.
  - split; [reflexivity|]. exists 0. split; reflexivity.
  - rewrite fold_left_app. cbn [fold_left]. set (s := fold_left bstep l 0) in *.
    destruct (rv_step s x IHl) as [ES HS]. split; [exact HS|].
    exists (if xorb (N.testbit (rv s) 15) x then N.succ_double q else N.double q).
    split; [|change (2 ^ N.log2 G16) with 65536; apply rv_lt; exact HS].
    rewrite poly_snoc, ES. unfold nstep.
    assert (EP : N.shiftl (2 * poly l + b2n x) 16 = N.lxor (N.double (N.shiftl (poly l) 16)) (if x then 65536 else 0)).
    { rewrite <- shiftl_double, (double_mul (poly l)). change 65536 with (N.shiftl 1 16).
      replace (if x then N.shiftl 1 16 else 0) with (N.shiftl (b2n x) 16) by (destruct x; reflexivity).
      rewrite <- N.shiftl_lxor. f_equal. rewrite N.add_comm, <- lxor_b2n_double. apply N.lxor_comm. }
    rewrite EP, E, <- lxor_dd. destruct (xorb (N.testbit (rv s) 15) x);
      rewrite ?gmul_double, ?gmul_succ_double; set (t := if x then 65536 else 0); xor_eq.
Qed.
