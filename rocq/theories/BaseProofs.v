(** BaseProofs.v -- lemmas about the conventions of Base.v. *)
From Verif Require Import Base.
From Coq Require Import ZifyBool ZifyNat ZifyN.

Lemma all_below_spec n f :
  all_below n f = true <-> (forall x, (x < n)%N -> f x = true).
Proof.
  unfold all_below.
  enough (H : fst (N.iter n (fun p => (N.succ (fst p), snd p && f (fst p))) (0%N, true)) = n /\
          (snd (N.iter n (fun p => (N.succ (fst p), snd p && f (fst p))) (0%N, true)) = true <->
           (forall x, (x < n)%N -> f x = true))) by tauto.
  induction n as [|n [IH1 IH2]] using N.peano_ind.
  - simpl. split; [reflexivity|]. split; [intros _ x Hx; lia|reflexivity].
  - rewrite N.iter_succ. cbn [fst snd]. rewrite IH1. split; [reflexivity|].
    rewrite andb_true_iff, IH2. split.
    + intros [Ha Hb] x Hx. destruct (N.eq_dec x n) as [->|Hne]; [exact Hb|apply Ha; lia].
    + intros Ha. split; [intros x Hx; apply Ha; lia|apply Ha; lia].
Qed.

Lemma sweep n f : all_below n f = true -> forall x, (x < n)%N -> f x = true.
Proof. intros H; apply all_below_spec; exact H. Qed.

(** Two-dimensional sweep. *)
Lemma sweep2 n m f :
  all_below n (fun x => all_below m (f x)) = true ->
  forall x y, (x < n)%N -> (y < m)%N -> f x y = true.
Proof.
  intros H x y Hx Hy. exact (sweep _ _ (sweep _ _ H x Hx) y Hy).
Qed.

(** ** slices *)
Lemma slice_ok b lo hi : lo <= hi -> hi <= length b ->
  slice b lo hi = Done (firstn (hi - lo) (skipn lo b)).
Proof.
  intros H1 H2. unfold slice. apply Nat.leb_le in H1, H2. rewrite H1, H2. reflexivity.
Qed.

Lemma slice_panic b lo hi : hi < lo \/ length b < hi -> slice b lo hi = Panic.
Proof.
  intros H. unfold slice.
  destruct (Nat.leb_spec lo hi); destruct (Nat.leb_spec hi (length b)); simpl; try reflexivity; lia.
Qed.

Lemma slice_to_ok b hi : hi <= length b -> slice_to b hi = Done (firstn hi b).
Proof. intros H. unfold slice_to. apply Nat.leb_le in H. rewrite H. reflexivity. Qed.

Lemma slice_to_panic b hi : length b < hi -> slice_to b hi = Panic.
Proof. intros H. unfold slice_to. destruct (Nat.leb_spec hi (length b)); [lia|reflexivity]. Qed.

Lemma slice_from_ok b lo : lo <= length b -> slice_from b lo = Done (skipn lo b).
Proof. intros H. unfold slice_from. apply Nat.leb_le in H. rewrite H. reflexivity. Qed.

Lemma slice_from_panic b lo : length b < lo -> slice_from b lo = Panic.
Proof. intros H. unfold slice_from. destruct (Nat.leb_spec lo (length b)); [lia|reflexivity]. Qed.

Lemma write_at_ok b off bytes : off + length bytes <= length b ->
  write_at b off bytes = Done (firstn off b ++ bytes ++ skipn (off + length bytes) b).
Proof. intros H. unfold write_at. apply Nat.leb_le in H. rewrite H. reflexivity. Qed.

Lemma write_at_panic b off bytes : length b < off + length bytes -> write_at b off bytes = Panic.
Proof. intros H. unfold write_at. destruct (Nat.leb_spec (off + length bytes) (length b)); [lia|reflexivity]. Qed.

(** write in the middle of a concatenation *)
Lemma write_at_app pre old post new :
  length new = length old ->
  write_at (pre ++ old ++ post) (length pre) new = Done (pre ++ new ++ post).
Proof.
  intros Hl. rewrite write_at_ok by (rewrite !app_length; lia).
  rewrite firstn_app, Nat.sub_diag, firstn_all, firstn_O, app_nil_r, Hl.
  rewrite (app_assoc pre old post), skipn_app, app_length, Nat.sub_diag.
  rewrite skipn_all2 by (rewrite app_length; lia). reflexivity.
Qed.

Lemma write_at_app_gen pre old post new off :
  length new = length old -> off = length pre ->
  write_at (pre ++ old ++ post) off new = Done (pre ++ new ++ post).
Proof. intros H ->. now apply write_at_app. Qed.

Lemma write_at_length b off bytes b' : write_at b off bytes = Done b' -> length b' = length b.
Proof.
  unfold write_at. destruct (Nat.leb_spec (off + length bytes) (length b)); [|discriminate].
  intros H'; injection H' as <-. rewrite !app_length, firstn_length, skipn_length. lia.
Qed.

Lemma idx_ok b i : i < length b -> idx b i = Done (nth i b 0%N).
Proof.
  intros H. unfold idx. rewrite (nth_error_nth' b 0%N H). reflexivity.
Qed.

Lemma idx_panic b i : length b <= i -> idx b i = Panic.
Proof. intros H. unfold idx. apply nth_error_None in H. rewrite H. reflexivity. Qed.

Lemma octets_app l1 l2 : octets (l1 ++ l2) <-> octets l1 /\ octets l2.
Proof. apply Forall_app. Qed.


Lemma octets_incl l l' : octets l -> incl l' l -> octets l'.
Proof. intros H Hi. apply Forall_forall. intros x Hx. eapply Forall_forall in H; [exact H|]. apply Hi, Hx. Qed.

Lemma octets_firstn n l : octets l -> octets (firstn n l).
Proof. intros H. rewrite <- (firstn_skipn n l) in H. apply octets_app in H. tauto. Qed.

Lemma octets_skipn n l : octets l -> octets (skipn n l).
Proof. intros H. rewrite <- (firstn_skipn n l) in H. apply octets_app in H. tauto. Qed.

Lemma octets_rev l : octets l -> octets (rev l).
Proof. intros H. apply Forall_rev. exact H. Qed.

Lemma octets_nth l i : octets l -> (nth i l 0 < 256)%N.
Proof.
  intros H. destruct (Nat.lt_ge_cases i (length l)) as [Hi|Hi].
  - eapply Forall_forall in H; [exact H|]. apply nth_In. exact Hi.
  - rewrite nth_overflow by exact Hi. lia.
Qed.

(** ** little-endian *)
Lemma to_le_length n v : length (to_le n v) = n.
Proof. revert v; induction n as [|n IH]; intros v; simpl; [reflexivity|]. rewrite IH. reflexivity. Qed.

Lemma to_le_octets n v : octets (to_le n v).
Proof.
  revert v; induction n as [|n IH]; intros v; simpl; constructor.
  - apply N.mod_lt. lia.
  - apply IH.
Qed.

Lemma from_to_le n v : (v < 256 ^ N.of_nat n)%N -> from_le (to_le n v) = v.
Proof.
  revert v; induction n as [|n IH]; intros v Hv.
  - simpl in *. lia.
  - cbn [to_le from_le]. rewrite IH.
    + rewrite N.add_comm. symmetry. apply N.div_mod. lia.
    + rewrite Nat2N.inj_succ, N.pow_succ_r' in Hv. apply N.div_lt_upper_bound; lia.
Qed.

Lemma from_to_le_mod n v : from_le (to_le n v) = (v mod 256 ^ N.of_nat n)%N.
Proof.
  revert v; induction n as [|n IH]; intros v.
  - simpl. rewrite N.mod_1_r. reflexivity.
  - cbn [to_le from_le]. rewrite IH, Nat2N.inj_succ, N.pow_succ_r'.
    rewrite N.mod_mul_r; [reflexivity|lia|apply N.pow_nonzero; lia].
Qed.

Lemma to_from_le l : octets l -> to_le (length l) (from_le l) = l.
Proof.
  induction l as [|x l IH]; intros H; [reflexivity|].
  inversion_clear H as [|? ? Hx Hl]. unfold octet in Hx. cbn [length from_le to_le].
  f_equal.
  - rewrite (N.mul_comm 256), N.mod_add by lia. apply N.mod_small. exact Hx.
  - rewrite (N.mul_comm 256), N.div_add, (N.div_small x 256), N.add_0_l by lia. apply IH, Hl.
Qed.

Lemma from_le_lt l : octets l -> (from_le l < 256 ^ N.of_nat (length l))%N.
Proof.
  induction l as [|x l IH]; intros H; [simpl; lia|].
  inversion_clear H as [|? ? Hx Hl]. unfold octet in Hx. specialize (IH Hl).
  cbn [length from_le]. rewrite Nat2N.inj_succ, N.pow_succ_r'. lia.
Qed.

Lemma octet_pair_lt b0 b1 : octet b0 -> octet b1 -> (b0 + 256 * b1 < 65536)%N.
Proof. unfold octet. lia. Qed.
