(** PropFcs.v -- property theorems C17, C18 (frames/mod.rs FrameWithFcs). *)
From Verif Require Import Base BaseProofs Spec BitProofs FrameControl Frames Fcs SpecFcs FcsProofs.

Lemma checksum_register c : octets c -> checksum c = fold_left bstep (stream c) 0%N.
Proof.
  intros H. unfold checksum. change (reverse_bits16 CRC_INIT) with 0%N. change CRC_XOROUT with 0%N.
  rewrite N.lxor_0_r. apply crc_bytes_bits. exact H.
Qed.

Lemma rv_octets x y : octet x -> octet y -> rv (from_le [x; y]) = poly (stream [x; y]) /\ (from_le [x; y] < 65536)%N.
Proof.
  intros Hx Hy. unfold octet in *. cbn [from_le]. split; [|lia]. unfold rv. do 2 f_equal. cbn [to_le].
  replace (x + 256 * (y + 256 * 0))%N with (y * 256 + x)%N by lia.
  rewrite N.add_comm, N.mod_add by lia. rewrite N.div_add by lia.
  rewrite (N.div_small x) by exact Hx. rewrite N.add_0_l, !N.mod_small by assumption. reflexivity.
Qed.

Lemma split_last2 (b : list N) : 2 <= length b -> exists c x y, b = c ++ [x; y].
Proof.
  intros H. destruct (exists_last (l := b)) as (b1 & y & ->); [intros ->; simpl in H; lia|].
  rewrite app_length in H. simpl in H.
  destruct (exists_last (l := b1)) as (c & x & ->); [intros ->; simpl in H; lia|].
  exists c, x, y. rewrite <- app_assoc. reflexivity.
Qed.

Lemma fcs_parts c x y : fcs_content (c ++ [x; y]) = Done c /\ fcs_fcs (c ++ [x; y]) = Done (from_le [x; y]) /\
  fcs_calculate (c ++ [x; y]) = Done (checksum c).
Proof.
  assert (L : length (c ++ [x; y]) = length c + 2) by (rewrite app_length; reflexivity).
  assert (EC : fcs_content (c ++ [x; y]) = Done c).
  { unfold fcs_content, usub. rewrite L. destruct (Nat.leb_spec 2 (length c + 2)); [|lia]. cbn [bind].
    replace (length c + 2 - 2) with (length c) by lia. rewrite slice_to_ok by (rewrite L; lia).
    rewrite firstn_app, firstn_all, Nat.sub_diag. cbn [firstn]. rewrite app_nil_r. reflexivity. }
  split; [exact EC|]. split.
  - unfold fcs_fcs, usub. rewrite L. destruct (Nat.leb_spec 2 (length c + 2)); [|lia]. cbn [bind].
    destruct (Nat.leb_spec 1 (length c + 2)); [|lia]. rewrite idx_ok by (rewrite L; lia). cbn [bind].
    rewrite idx_ok by (rewrite L; lia). cbn [bind].
    rewrite app_nth2 by lia. rewrite app_nth2 by lia.
    replace (length c + 2 - 2 - length c) with 0 by lia. replace (length c + 2 - 1 - length c) with 1 by lia. reflexivity.
  - unfold fcs_calculate. rewrite EC. reflexivity.
Qed.

Lemma fcs_new_parts c x y : fcs_new (c ++ [x; y]) =
  Done (if (checksum c =? from_le [x; y])%N then Ok (c ++ [x; y]) else Err).
Proof.
  destruct (fcs_parts c x y) as (E1 & E2 & E3). unfold fcs_new, fcs_check_len, fcs_check. rewrite E3, E2.
  assert (L : length (c ++ [x; y]) = length c + 2) by (rewrite app_length; reflexivity). rewrite L.
  destruct (Nat.ltb_spec (length c + 2) 2); [lia|]. cbn [negb bind]. destruct (_ =? _)%N; reflexivity.
Qed.

Lemma fcs_new_short b : length b < 2 -> fcs_new b = Done Err.
Proof. intros H. unfold fcs_new, fcs_check_len. destruct (Nat.ltb_spec (length b) 2); [reflexivity|lia]. Qed.

Lemma G16_nz : G16 <> 0%N. Proof. discriminate. Qed.

Lemma last2_octets c x y : octets (c ++ [x; y]) -> octets c /\ octet x /\ octet y.
Proof. intros H. apply octets_app in H. destruct H as [Hc H]. inversion_clear H as [|? ? Hx H']. inversion_clear H'. auto. Qed.

(** ** C17 *)
(** The computed FCS, read in transmission order, is the remainder of M(x) * x^16 modulo G16. *)
Theorem C17_checksum_is_remainder : forall c, octets c -> (checksum c < 65536)%N /\
  is_remainder G16 (N.shiftl (poly (stream c)) 16) (poly (stream [(checksum c mod 256)%N; (checksum c / 256)%N])).
Proof.
  intros c H. rewrite (checksum_register c H). destruct (register (stream c)) as [HL HR].
  split; [exact HL|]. unfold rv in HR. cbn [to_le] in HR. rewrite (N.mod_small (_ / 256)) in HR; [exact HR|].
  apply N.div_lt_upper_bound; lia.
Qed.
Print Assumptions C17_checksum_is_remainder.

(** Remainders are unique, so the theorem above determines the checksum. *)
Theorem C17_remainder_unique : forall g m r r', g <> 0%N -> is_remainder g m r -> is_remainder g m r' -> r = r'.
Proof. exact remainder_fun. Qed.
Print Assumptions C17_remainder_unique.

(** new never panics; it accepts exactly the buffers whose last two octets are that remainder. *)
Theorem C17_new_iff : forall b, octets b ->
  (fcs_new b = Done (Ok b) \/ fcs_new b = Done Err) /\
  (fcs_new b = Done (Ok b) <-> exists c x y, b = c ++ [x; y] /\
     is_remainder G16 (N.shiftl (poly (stream c)) 16) (poly (stream [x; y]))).
Proof.
  intros b HO. destruct (Nat.lt_ge_cases (length b) 2) as [HL|HL].
  - rewrite (fcs_new_short b HL). split; [auto|]. split; [discriminate|].
    intros (c & x & y & -> & _). rewrite app_length in HL. simpl in HL. lia.
  - destruct (split_last2 b HL) as (c & x & y & ->). destruct (last2_octets _ _ _ HO) as (Hc & Hx & Hy).
    rewrite fcs_new_parts. destruct (rv_octets x y Hx Hy) as [ER HV].
    destruct (register (stream c)) as [HS HR]. rewrite <- (checksum_register c Hc) in HS, HR.
    destruct (N.eqb_spec (checksum c) (from_le [x; y])) as [E|E].
    + split; [auto|]. split; [intros _|reflexivity]. exists c, x, y. split; [reflexivity|]. rewrite <- ER, <- E. exact HR.
    + split; [auto|]. split; [discriminate|]. intros (c' & x' & y' & EB & HR').
      apply app_inj_tail_iff in EB as EB' || idtac.
      assert (c' = c /\ x' = x /\ y' = y) as (-> & -> & ->).
      { change [x; y] with ([x] ++ [y]) in EB. change [x'; y'] with ([x'] ++ [y']) in EB. rewrite !app_assoc in EB.
        apply app_inj_tail in EB. destruct EB as [EB ->]. apply app_inj_tail in EB. destruct EB as [-> ->]. auto. }
      exfalso. apply E. rewrite <- (rv_inv (checksum c) HS), <- (rv_inv (from_le [x; y]) HV). f_equal.
      rewrite ER. exact (remainder_fun _ _ _ _ G16_nz HR HR').
Qed.
Print Assumptions C17_new_iff.

(** Equivalently: the polynomial of the whole frame is a multiple of G16. *)
Theorem C17_new_iff_divisible : forall b, octets b ->
  (fcs_new b = Done (Ok b) <-> 2 <= length b /\ divides G16 (poly (stream b))).
Proof.
  intros b HO. destruct (C17_new_iff b HO) as [_ HN]. rewrite HN. split.
  - intros (c & x & y & -> & q & E & _). split; [rewrite app_length; simpl; lia|].
    exists q. rewrite stream_app, poly_app. rewrite stream_length. cbn [length]. change (N.of_nat (8 * 2)) with 16%N.
    rewrite E. xor_eq.
  - intros [HL (q & E)]. destruct (split_last2 b HL) as (c & x & y & ->). exists c, x, y. split; [reflexivity|].
    exists q. rewrite stream_app, poly_app, stream_length in E. cbn [length] in E. change (N.of_nat (8 * 2)) with 16%N in E.
    rewrite <- E. split; [xor_eq|]. change (2 ^ N.log2 G16)%N with (2 ^ N.of_nat (length (stream [x; y])))%N. apply poly_lt.
Qed.
Print Assumptions C17_new_iff_divisible.

(** Appending the computed FCS to any content gives an accepted frame with that content and FCS. *)
Theorem C17_append : forall c, octets c ->
  let b := c ++ [(checksum c mod 256)%N; (checksum c / 256)%N] in
  octets b /\ fcs_new b = Done (Ok b) /\ fcs_content b = Done c /\ fcs_fcs b = Done (checksum c) /\
  fcs_calculate b = Done (checksum c) /\ fcs_frame b = frame_new c.
Proof.
  intros c HO b. destruct (C17_checksum_is_remainder c HO) as [HL HR].
  assert (Hx : octet (checksum c mod 256)) by (apply N.mod_lt; lia).
  assert (Hy : octet (checksum c / 256)) by (apply N.div_lt_upper_bound; lia).
  destruct (fcs_parts c (checksum c mod 256) (checksum c / 256)) as (E1 & E2 & E3).
  assert (EV : from_le [(checksum c mod 256)%N; (checksum c / 256)%N] = checksum c).
  { cbn [from_le]. pose proof (N.div_mod (checksum c) 256). lia. }
  assert (HB : octets b) by (apply octets_app; split; [exact HO|]; repeat constructor; assumption).
  split; [exact HB|]. split; [|split; [exact E1|split; [rewrite <- EV; exact E2|split; [exact E3|]]]].
  - apply (C17_new_iff b HB). exists c. eexists. eexists. split; [reflexivity|exact HR].
  - unfold fcs_frame, b. rewrite E1. reflexivity.
Qed.
Print Assumptions C17_append.

Definition fcs_sample : list N :=
  [0x02; 0x2e; 0x8d; 0xcd; 0xab; 0x02; 0x00; 0x02; 0x00; 0x02; 0x00; 0x02; 0x00; 0x02; 0x0f; 0x00; 0x00; 0x7d; 0xd4]%N.
(** the vector of the repository's own test, and the CRC catalogue check value 0x2189 over "123456789" *)
Example C17_example : fcs_new fcs_sample = Done (Ok fcs_sample) /\
  checksum [0x31; 0x32; 0x33; 0x34; 0x35; 0x36; 0x37; 0x38; 0x39]%N = 0x2189%N /\ fcs_new [0x02; 0x2e]%N = Done Err.
Proof. repeat split; vm_compute; reflexivity. Qed.

(** ** C18 *)
Lemma gmul_even q : N.testbit (gmul q G16) 0 = N.testbit q 0.
Proof.
  destruct (double_or_succ q) as [[c ->]|[c ->]].
  - rewrite gmul_double. destruct (gmul c G16), c; reflexivity.
  - rewrite gmul_succ_double. rewrite N.lxor_spec. destruct (gmul c G16), c; reflexivity.
Qed.

Lemma burst_zero j : forall q e, (e < 65536)%N -> gmul q G16 = N.shiftl e (N.of_nat j) -> e = 0%N.
Proof.
  induction j as [|j IH]; intros q e He E.
  - rewrite N.shiftl_0_r in E. assert (q = 0%N) as -> by (apply (gmul_small q G16 G16_nz); rewrite E; exact He).
    symmetry. exact E.
  - rewrite Nat2N.inj_succ, N.shiftl_succ_r in E.
    destruct (double_or_succ q) as [[c ->]|[c ->]].
    + rewrite gmul_double in E. apply (IH c e He). rewrite (double_mul (gmul c G16)) in E. rewrite (double_mul (N.shiftl e (N.of_nat j))) in E. lia.
    + exfalso. pose proof (gmul_even (N.succ_double c)) as G. rewrite E in G.
      destruct (N.shiftl e (N.of_nat j)), c; discriminate G.
Qed.

(** pointwise difference of two streams *)
Fixpoint xstream (l l' : list bool) : list bool :=
  match l, l' with x :: l, y :: l' => xorb x y :: xstream l l' | _, _ => [] end.
Lemma xstream_length l l' : length l = length l' -> length (xstream l l') = length l.
Proof. revert l'; induction l as [|x l IH]; intros [|y l'] H; simpl in *; try discriminate; [reflexivity|]. rewrite IH; lia. Qed.
Lemma poly_cons x l : poly (x :: l) = N.lxor (N.shiftl (b2n x) (N.of_nat (length l))) (poly l).
Proof. change (x :: l) with ([x] ++ l). rewrite poly_app. destruct x; reflexivity. Qed.
Lemma poly_xstream l l' : length l = length l' -> poly (xstream l l') = N.lxor (poly l) (poly l').
Proof.
  revert l'. induction l as [|x l IH]; intros [|y l'] H; simpl in H; try discriminate; [reflexivity|].
  cbn [xstream]. rewrite !poly_cons, IH, xstream_length by lia. replace (length l') with (length l) by lia.
  replace (b2n (xorb x y)) with (N.lxor (b2n x) (b2n y)) by (destruct x, y; reflexivity).
  rewrite N.shiftl_lxor. xor_eq.
Qed.
Lemma nth_xstream l l' i : length l = length l' -> nth i (xstream l l') false = xorb (nth i l false) (nth i l' false).
Proof.
  revert l' i. induction l as [|x l IH]; intros [|y l'] i H; simpl in H; try discriminate; [destruct i; reflexivity|].
  destruct i as [|i]; [reflexivity|]. simpl. apply IH. lia.
Qed.
Lemma all_false_poly l : (forall i, nth i l false = false) -> poly l = 0%N.
Proof.
  induction l as [|x l IH]; intros H; [reflexivity|]. rewrite poly_cons, IH by (intros i; apply (H (S i))).
  pose proof (H 0) as Hx. cbn [nth] in Hx. subst x. cbn [b2n]. rewrite N.shiftl_0_l. reflexivity.
Qed.
Lemma poly_zero_all l : poly l = 0%N -> forall i, nth i l false = false.
Proof.
  induction l as [|x l IH] using rev_ind; intros H i; [destruct i; reflexivity|].
  rewrite poly_snoc in H. assert (poly l = 0%N /\ x = false) as [H1 ->] by (unfold b2n in H; destruct x; [lia|split; [lia|reflexivity]]).
  destruct (Nat.lt_ge_cases i (length l)) as [Hi|Hi].
  - rewrite app_nth1 by exact Hi. apply IH. exact H1.
  - rewrite app_nth2 by exact Hi. destruct (i - length l) as [|[|k]]; reflexivity.
Qed.

(** a stream that is zero outside [k, k + w) is a shifted polynomial of fewer than w bits *)
Lemma burst_poly l k w : (forall i, nth i l false = true -> k <= i < k + w) ->
  exists e j, (e < 2 ^ N.of_nat w)%N /\ poly l = N.shiftl e (N.of_nat j).
Proof.
  intros H. set (m := firstn w (skipn k l)).
  assert (HS : l = firstn k l ++ m ++ skipn w (skipn k l)) by (unfold m; rewrite !firstn_skipn; reflexivity).
  assert (Z1 : poly (firstn k l) = 0%N).
  { apply all_false_poly. intros i. destruct (nth i (firstn k l) false) eqn:E; [|reflexivity]. exfalso.
    destruct (Nat.lt_ge_cases i (length (firstn k l))) as [Hi|Hi]; [|rewrite nth_overflow in E by exact Hi; discriminate].
    assert (E' : nth i l false = true) by (rewrite HS, app_nth1 by exact Hi; exact E).
    apply H in E'. rewrite firstn_length in Hi. lia. }
  assert (Z2 : poly (skipn w (skipn k l)) = 0%N).
  { apply all_false_poly. intros i. destruct (nth i (skipn w (skipn k l)) false) eqn:E; [|reflexivity]. exfalso.
    assert (E' : nth (k + (w + i)) l false = true).
    { rewrite <- E, <- (firstn_skipn k l) at 1. rewrite E.
      destruct (Nat.lt_ge_cases (k + w) (length l)) as [Hk|Hk].
      - rewrite app_nth2 by (rewrite firstn_length; lia). rewrite firstn_length, Nat.min_l by lia.
        replace (k + (w + i) - k) with (w + i) by lia.
        rewrite <- (firstn_skipn w (skipn k l)). rewrite app_nth2 by (rewrite firstn_length; lia).
        rewrite firstn_length, Nat.min_l by (rewrite skipn_length; lia). replace (w + i - w) with i by lia. exact E.
      - exfalso. rewrite (skipn_all2 (skipn k l)) in E by (rewrite skipn_length; lia). destruct i; discriminate. }
    apply H in E'. lia. }
  exists (poly m), (length (skipn w (skipn k l))). split.
  - eapply N.lt_le_trans; [apply poly_lt|]. apply N.pow_le_mono_r; [lia|]. unfold m. rewrite firstn_length. lia.
  - rewrite HS at 1. rewrite !poly_app, Z1, Z2, N.shiftl_0_l, N.lxor_0_l, N.lxor_0_r. reflexivity.
Qed.

Lemma octet_bits_inj x y : octet x -> octet y -> octet_bits x = octet_bits y -> x = y.
Proof. intros Hx Hy E. rewrite <- (value_octet x Hx), <- (value_octet y Hy), E. reflexivity. Qed.
Lemma stream_inj b b' : octets b -> octets b' -> stream b = stream b' -> b = b'.
Proof.
  revert b'. induction b as [|x b IH]; intros [|y b'] H H' E; [reflexivity|discriminate|discriminate|].
  inversion_clear H as [|? ? Hx Hb]. inversion_clear H' as [|? ? Hy Hb'].
  cbn [stream flat_map] in E. assert (E1 : octet_bits x = octet_bits y) by (apply (f_equal (firstn 8)) in E; exact E).
  f_equal; [apply octet_bits_inj; assumption|]. apply IH; [exact Hb|exact Hb'|]. apply (f_equal (skipn 8)) in E. exact E.
Qed.

Lemma accepted_difference b b' : octets b -> octets b' -> length b = length b' ->
  fcs_new b = Done (Ok b) -> fcs_new b' = Done (Ok b') ->
  exists q, poly (xstream (stream b) (stream b')) = gmul q G16.
Proof.
  intros HO HO' HL HN HN'. apply C17_new_iff_divisible in HN, HN'; try assumption.
  destruct HN as [_ (q & E)], HN' as [_ (q' & E')]. exists (N.lxor q q').
  rewrite poly_xstream by (rewrite !stream_length; lia). rewrite gmul_lxor, E, E'. reflexivity.
Qed.

(** Full statement: two different accepted frames of the same length differ in a span of more than 16 bits. *)
Theorem C18_burst_detected : forall b b' k, octets b -> octets b' ->
  fcs_new b = Done (Ok b) -> differ_within k 16 (stream b) (stream b') -> b <> b' ->
  fcs_new b' = Done Err.
Proof.
  intros b b' k HO HO' HN [HL HD] HB. destruct (C17_new_iff b' HO') as [[E|E] _]; [|exact E]. exfalso. apply HB.
  assert (LB : length b = length b') by (rewrite !stream_length in HL; lia).
  destruct (accepted_difference b b' HO HO' LB HN E) as (q & EQ).
  destruct (burst_poly (xstream (stream b) (stream b')) k 16) as (e & j & He & EP).
  { intros i Hi. rewrite nth_xstream in Hi by exact HL. apply HD. intros K. rewrite K, xorb_nilpotent in Hi. discriminate. }
  rewrite EP in EQ. assert (e = 0%N) as -> by (apply (burst_zero j q e He); symmetry; exact EQ).
  rewrite N.shiftl_0_l in EP. pose proof (poly_zero_all _ EP) as Z. apply stream_inj; try assumption.
  apply nth_ext with (d := false) (d' := false); [exact HL|]. intros i _. specialize (Z i).
  rewrite nth_xstream in Z by exact HL. destruct (nth i (stream b) false), (nth i (stream b') false); try reflexivity; discriminate.
Qed.
Print Assumptions C18_burst_detected.

(** Single-bit errors: flipping bit [j] of octet [i] of an accepted frame. *)
Definition flip (b : list N) (i : nat) (j : N) : list N := firstn i b ++ N.lxor (nth i b 0%N) (2 ^ j) :: skipn (S i) b.

Lemma stream_nth b i j : i < length b -> j < 8 -> nth (8 * i + j) (stream b) false = bit (N.of_nat j) (nth i b 0%N).
Proof.
  revert i. induction b as [|x b IH]; intros i Hi Hj; simpl in Hi; [lia|]. cbn [stream flat_map].
  destruct i as [|i].
  - rewrite app_nth1 by (simpl; lia). simpl nth. do 8 (destruct j as [|j]; [reflexivity|]). lia.
  - rewrite app_nth2 by (simpl length; lia). replace (8 * S i + j - length (octet_bits x)) with (8 * i + j) by (simpl length; lia).
    apply IH; lia.
Qed.

Lemma flip_split (b : list N) i : i < length b -> b = firstn i b ++ nth i b 0%N :: skipn (S i) b.
Proof.
  revert i. induction b as [|x b IH]; intros i H; simpl in H; [lia|]. destruct i as [|i]; [reflexivity|].
  change (skipn (S (S i)) (x :: b)) with (skipn (S i) b). simpl firstn. simpl nth. cbn [app]. f_equal. apply IH. lia.
Qed.

Theorem C18_single_bit_detected : forall b i j, octets b -> fcs_new b = Done (Ok b) ->
  i < length b -> (j < 8)%N -> flip b i j <> b /\ fcs_new (flip b i j) = Done Err.
Proof.
  intros b i j HO HN Hi Hj. pose proof (flip_split b i Hi) as HS. set (x := nth i b 0%N) in *.
  assert (Hx : octet x) by (eapply Forall_forall; [exact HO|]; apply nth_In; exact Hi).
  assert (Hy : octet (N.lxor x (2 ^ j))).
  { unfold octet. change 256%N with (2 ^ 8)%N. apply lxor_lt; [exact Hx|]. apply N.pow_lt_mono_r; lia. }
  assert (NE : N.lxor x (2 ^ j) <> x).
  { intros E. apply (f_equal (fun y => N.testbit y j)) in E. rewrite N.lxor_spec, N.pow2_bits_true in E. destruct (N.testbit x j); discriminate. }
  assert (HF : octets (flip b i j)).
  { unfold flip. fold x. apply octets_app. split; [apply octets_firstn; exact HO|]. constructor; [exact Hy|]. apply octets_skipn. exact HO. }
  assert (NB : flip b i j <> b).
  { intros E. apply NE. apply (f_equal (fun l => nth i l 0%N)) in E. unfold flip in E. fold x in E.
    rewrite app_nth2 in E by (rewrite firstn_length; lia). rewrite firstn_length, Nat.min_l, Nat.sub_diag in E by lia. exact E. }
  split; [exact NB|].
  apply (C18_burst_detected b (flip b i j) (8 * i)); try assumption; [|congruence].
  assert (LF : length (flip b i j) = length b).
  { unfold flip. rewrite app_length, firstn_length. cbn [length]. rewrite skipn_length. lia. }
  split; [rewrite !stream_length, LF; reflexivity|].
  intros n Hn. destruct (Nat.lt_ge_cases n (8 * length b)) as [Hl|Hl].
  2:{ exfalso. apply Hn. rewrite !nth_overflow; [reflexivity| |]; rewrite stream_length; lia. }
  pose proof (Nat.div_mod n 8) as DM. pose proof (Nat.mod_upper_bound n 8) as UB. set (a := n / 8) in *. set (c := n mod 8) in *.
  assert (a < length b) by lia. replace n with (8 * a + c) in Hn by lia.
  rewrite !stream_nth in Hn by lia. destruct (Nat.eq_dec a i) as [->|NA]; [lia|]. exfalso. apply Hn. f_equal.
  unfold flip. fold x. rewrite HS at 1.
  destruct (Nat.lt_ge_cases a i) as [K|K].
  - rewrite !app_nth1 by (rewrite firstn_length; lia). reflexivity.
  - rewrite !app_nth2 by (rewrite firstn_length; lia). rewrite firstn_length, Nat.min_l by lia.
    destruct (a - i) as [|m] eqn:EM; [lia|]. reflexivity.
Qed.
Print Assumptions C18_single_bit_detected.

(** Beyond the listed claim: any odd number of flipped bits is detected ... *)
Fixpoint pparity (p : positive) : bool := match p with xH => true | xO p => pparity p | xI p => negb (pparity p) end.
Definition parity (n : N) : bool := match n with N0 => false | Npos p => pparity p end.
Lemma parity_double n : parity (N.double n) = parity n. Proof. destruct n; reflexivity. Qed.
Lemma parity_succ_double n : parity (N.succ_double n) = negb (parity n). Proof. destruct n; reflexivity. Qed.
Lemma parity_lxor a b : parity (N.lxor a b) = xorb (parity a) (parity b).
Proof.
  revert b. induction a as [|a IH|a IH] using N.binary_ind; intros b; [rewrite N.lxor_0_l; cbn [parity]; symmetry; apply xorb_false_l| |];
    destruct (double_or_succ b) as [[c ->]|[c ->]];
    rewrite ?lxor_dd, ?lxor_ds, ?lxor_sd, ?lxor_ss, ?parity_double, ?parity_succ_double, IH;
    destruct (parity a), (parity c); reflexivity.
Qed.
Lemma parity_gmul q : parity (gmul q G16) = false.
Proof.
  induction q as [|q IH|q IH] using N.binary_ind; [reflexivity| |].
  - rewrite gmul_double, parity_double. exact IH.
  - rewrite gmul_succ_double, parity_lxor, parity_double, IH. reflexivity.
Qed.
Lemma parity_poly l l' : length l = length l' -> parity (poly (xstream l l')) = Nat.odd (differences l l').
Proof.
  intros H. unfold differences. revert l' H. induction l as [|x l IH]; intros [|y l'] H; simpl in H; try discriminate; [reflexivity|].
  cbn [xstream combine map list_sum fold_right]. rewrite poly_cons, parity_lxor, IH by lia.
  assert (P : forall z k, parity (N.shiftl (b2n z) k) = z).
  { intros z k. induction k as [|k IHk] using N.peano_ind; [destruct z; reflexivity|]. rewrite N.shiftl_succ_r.
    rewrite parity_double. exact IHk. }
  rewrite P. fold (list_sum (map (fun p => if xorb (fst p) (snd p) then 1 else 0) (combine l l'))). cbn [fst snd].
  rewrite Nat.odd_add. destruct (xorb x y); reflexivity.
Qed.
Theorem C18_odd_errors_detected : forall b b', octets b -> octets b' -> length b = length b' ->
  fcs_new b = Done (Ok b) -> Nat.odd (differences (stream b) (stream b')) = true -> fcs_new b' = Done Err.
Proof.
  intros b b' HO HO' LB HN HD. destruct (C17_new_iff b' HO') as [[E|E] _]; [|exact E]. exfalso.
  destruct (accepted_difference b b' HO HO' LB HN E) as (q & EQ).
  rewrite <- parity_poly, EQ, parity_gmul in HD by (rewrite !stream_length; lia). discriminate.
Qed.
Print Assumptions C18_odd_errors_detected.

(** ... and any two flipped bits less than 32767 positions apart (in particular within any 127-octet frame). *)
Definition xtime (r : N) : N := let t := N.double r in if N.testbit t 16 then N.lxor t G16 else t.
Lemma xtime_lt r : (r < 65536)%N -> (xtime r < 65536)%N.
Proof.
  intros H. apply N.ltb_lt. apply (sweep 65536 (fun r => (xtime r <? 65536)%N)); [vm_compute; reflexivity|exact H].
Qed.
Lemma power_remainder d : is_remainder G16 (2 ^ N.of_nat d) (Nat.iter d xtime 1%N) /\ (Nat.iter d xtime 1 < 65536)%N.
Proof.
  induction d as [|d [(q & E & _) IH]]; [split; [exists 0%N; split; reflexivity|reflexivity]|].
  change (Nat.iter (S d) xtime 1%N) with (xtime (Nat.iter d xtime 1%N)). set (r := Nat.iter d xtime 1%N) in *.
  pose proof (xtime_lt r IH) as HL. split; [|exact HL].
  rewrite Nat2N.inj_succ, N.pow_succ_r', <- (double_mul (2 ^ N.of_nat d)), E, <- lxor_dd. unfold xtime.
  destruct (N.testbit (N.double r) 16) eqn:ET.
  - exists (N.succ_double q). rewrite gmul_succ_double. split; [xor_eq|].
    change (2 ^ N.log2 G16)%N with 65536%N. unfold xtime in HL. rewrite ET in HL. exact HL.
  - exists (N.double q). rewrite gmul_double. split; [reflexivity|].
    change (2 ^ N.log2 G16)%N with 65536%N. unfold xtime in HL. rewrite ET in HL. exact HL.
Qed.
Fixpoint no_one (n : nat) (r : N) : bool := match n with O => true | S n => negb (xtime r =? 1)%N && no_one n (xtime r) end.
Lemma no_one_spec n r : no_one n r = true -> forall d, 0 < d <= n -> Nat.iter d xtime r <> 1%N.
Proof.
  revert r. induction n as [|n IH]; intros r H d Hd; [lia|]. cbn [no_one] in H. apply andb_prop in H. destruct H as [H1 H2].
  apply negb_true_iff, N.eqb_neq in H1. destruct d as [|[|d]]; [lia|exact H1|].
  rewrite iter_succ_r. apply IH; [exact H2|lia].
Qed.
Lemma order_check : no_one (N.to_nat 32766) 1 = true.
Proof. vm_compute. reflexivity. Qed.

Lemma shift_divides j : forall q e, gmul q G16 = N.shiftl e (N.of_nat j) -> divides G16 e.
Proof.
  induction j as [|j IH]; intros q e E.
  - rewrite N.shiftl_0_r in E. exists q. symmetry. exact E.
  - rewrite Nat2N.inj_succ, N.shiftl_succ_r in E. destruct (double_or_succ q) as [[c ->]|[c ->]].
    + rewrite gmul_double in E. apply (IH c e). rewrite (double_mul (gmul c G16)) in E.
      rewrite (double_mul (N.shiftl e (N.of_nat j))) in E. lia.
    + exfalso. pose proof (gmul_even (N.succ_double c)) as G. rewrite E in G.
      destruct (N.shiftl e (N.of_nat j)), c; discriminate G.
Qed.

Lemma poly_single l i : i < length l -> nth i l false = true -> (forall n, nth n l false = true -> n = i) ->
  poly l = (2 ^ N.of_nat (length l - 1 - i))%N.
Proof.
  revert i. induction l as [|x l IH]; intros i Hi Ht H; simpl in Hi; [lia|]. rewrite poly_cons.
  destruct i as [|i].
  - simpl in Ht. subst x. rewrite all_false_poly.
    + rewrite N.lxor_0_r, N.shiftl_mul_pow2. cbn [b2n length]. rewrite N.mul_1_l. f_equal. lia.
    + intros n. destruct (nth n l false) eqn:E; [|reflexivity]. specialize (H (S n) E). discriminate.
  - rewrite (IH i); [|lia|exact Ht|intros n Hn; specialize (H (S n) Hn); lia].
    assert (x = false) as ->. { destruct x; [|reflexivity]. specialize (H 0 eq_refl). discriminate. }
    cbn [b2n length]. rewrite N.shiftl_0_l, N.lxor_0_l. f_equal. f_equal. lia.
Qed.
Lemma poly_double_bit l i i' : i < i' < length l -> nth i l false = true -> nth i' l false = true ->
  (forall n, nth n l false = true -> n = i \/ n = i') ->
  poly l = N.shiftl (N.lxor (2 ^ N.of_nat (i' - i)) 1) (N.of_nat (length l - 1 - i')).
Proof.
  intros Hi H1 H2 H. rewrite <- (firstn_skipn (S i) l), poly_app.
  assert (LF : length (firstn (S i) l) = S i) by (rewrite firstn_length; lia).
  assert (N1 : forall n, n < S i -> nth n (firstn (S i) l) false = nth n l false).
  { intros n Hn. rewrite <- (firstn_skipn (S i) l) at 2. rewrite app_nth1 by lia. reflexivity. }
  assert (N2 : forall n, nth n (skipn (S i) l) false = nth (S i + n) l false).
  { intros n. rewrite <- (firstn_skipn (S i) l) at 2. rewrite app_nth2 by lia. f_equal. lia. }
  rewrite (poly_single (firstn (S i) l) i).
  - rewrite (poly_single (skipn (S i) l) (i' - S i)).
    + rewrite LF, skipn_length, app_length, LF, skipn_length.
      replace (S i - 1 - i) with 0 by lia. cbn [N.of_nat]. rewrite N.shiftl_lxor, !N.shiftl_mul_pow2, <- !N.pow_add_r, !N.mul_1_l.
      f_equal; f_equal; lia.
    + rewrite skipn_length. lia.
    + rewrite N2. replace (S i + (i' - S i)) with i' by lia. exact H2.
    + intros n Hn. rewrite N2 in Hn. apply H in Hn. lia.
  - lia.
  - rewrite N1 by lia. exact H1.
  - intros n Hn. destruct (Nat.lt_ge_cases n (S i)) as [K|K].
    + rewrite N1 in Hn by exact K. apply H in Hn. lia.
    + rewrite nth_overflow in Hn by lia. discriminate.
Qed.

Theorem C18_two_bit_errors_detected : forall b b' i i', octets b -> octets b' ->
  fcs_new b = Done (Ok b) -> length b = length b' -> i < i' < length (stream b) -> (N.of_nat (i' - i) < 32767)%N ->
  (forall n, nth n (stream b) false <> nth n (stream b') false <-> n = i \/ n = i') ->
  fcs_new b' = Done Err.
Proof.
  intros b b' i i' HO HO' HN LB HI HD HX. destruct (C17_new_iff b' HO') as [[E|E] _]; [|exact E]. exfalso.
  destruct (accepted_difference b b' HO HO' LB HN E) as (q & EQ).
  assert (LS : length (stream b) = length (stream b')) by (rewrite !stream_length; lia).
  assert (XT : forall n, nth n (xstream (stream b) (stream b')) false = true <-> n = i \/ n = i').
  { intros n. rewrite nth_xstream by exact LS. rewrite <- HX.
    destruct (nth n (stream b) false), (nth n (stream b') false); cbn [xorb]; split; congruence. }
  rewrite (poly_double_bit _ i i') in EQ.
  - symmetry in EQ. apply shift_divides in EQ. destruct EQ as (q' & EQ').
    destruct (power_remainder (i' - i)) as [HR _].
    assert (HR' : is_remainder G16 (2 ^ N.of_nat (i' - i)) 1).
    { exists q'. split; [rewrite <- EQ'; xor_eq|reflexivity]. }
    apply (no_one_spec (N.to_nat 32766) 1 order_check (i' - i)); [clear - HI HD; remember (N.to_nat 32766) as m eqn:Em; assert (N.of_nat m = 32766%N) by (rewrite Em; apply N2Nat.id); lia|].
    exact (remainder_fun _ _ _ _ G16_nz HR HR').
  - rewrite xstream_length by exact LS. exact HI.
  - apply XT. auto.
  - apply XT. auto.
  - intros n Hn. apply XT. exact Hn.
Qed.
Print Assumptions C18_two_bit_errors_detected.

Example C18_example : fcs_new (flip fcs_sample 3 5) = Done Err /\ differ_within 24 16 (stream fcs_sample) (stream (flip fcs_sample 3 5)).
Proof.
  split; [vm_compute; reflexivity|]. split; [reflexivity|]. intros i Hi.
  destruct (Nat.lt_ge_cases i 24) as [H|H].
  - exfalso. apply Hi. do 24 (destruct i as [|i]; [reflexivity|]). lia.
  - destruct (Nat.lt_ge_cases i 40) as [K|K]; [lia|]. exfalso. apply Hi.
    replace i with (40 + (i - 40)) by lia. generalize (i - 40). intros n. reflexivity.
Qed.
(** The bound 16 is sharp: flipping the 17 bits of G16 itself gives another accepted frame. *)
Theorem C18_bound_is_sharp : exists b b', octets b /\ octets b' /\ b <> b' /\
  fcs_new b = Done (Ok b) /\ fcs_new b' = Done (Ok b') /\ differ_within 0 17 (stream b) (stream b').
Proof.
  exists [0; 0; 0]%N, [0x11; 0x08; 0x01]%N. split; [repeat constructor|]. split; [repeat constructor|]. split; [discriminate|].
  split; [vm_compute; reflexivity|]. split; [vm_compute; reflexivity|]. split; [reflexivity|].
  intros i Hi. destruct (Nat.lt_ge_cases i 17) as [K|K]; [lia|]. exfalso. apply Hi.
  destruct (Nat.lt_ge_cases i 24) as [H|H]; [|rewrite !nth_overflow by (simpl length; lia); reflexivity].
  do 17 (destruct i as [|i]; [lia|]). do 7 (destruct i as [|i]; [reflexivity|]). lia.
Qed.
Print Assumptions C18_bound_is_sharp.
(** Hence the Hamming distance is 4: in a frame of at most 4095 octets (a PPDU has at most 127) up to three flipped bits
    are detected, wherever they are. *)
Lemma differences_cons x l y l' : differences (x :: l) (y :: l') = (if xorb x y then 1 else 0) + differences l l'.
Proof. reflexivity. Qed.
Lemma differences_none l : forall l', length l = length l' -> differences l l' = 0 -> l = l'.
Proof.
  induction l as [|x l IH]; intros [|y l'] HL H; try discriminate HL; [reflexivity|]. rewrite differences_cons in H. injection HL as HL.
  destruct x, y; cbn [xorb] in H; try lia; f_equal; apply IH; try exact HL; lia.
Qed.
Lemma differences_one l : forall l', length l = length l' -> differences l l' = 1 ->
  exists i, i < length l /\ forall n, nth n l false <> nth n l' false <-> n = i.
Proof.
  induction l as [|x l IH]; intros [|y l'] HL H; try discriminate HL; [discriminate H|]. rewrite differences_cons in H. injection HL as HL.
  destruct (xorb x y) eqn:E.
  - assert (l = l') as <- by (apply differences_none; [exact HL|lia]). exists 0. split; [cbn; lia|]. intros [|n]; cbn [nth].
    + destruct x, y; try discriminate E; split; congruence.
    + split; [congruence|discriminate].
  - destruct (IH l' HL H) as (i & Hi & K). exists (S i). split; [cbn; lia|]. intros [|n]; cbn [nth].
    + destruct x, y; try discriminate E; split; congruence.
    + rewrite K. split; congruence.
Qed.
Lemma differences_two l : forall l', length l = length l' -> differences l l' = 2 ->
  exists i j, i < j < length l /\ forall n, nth n l false <> nth n l' false <-> n = i \/ n = j.
Proof.
  induction l as [|x l IH]; intros [|y l'] HL H; try discriminate HL; [discriminate H|]. rewrite differences_cons in H. injection HL as HL.
  destruct (xorb x y) eqn:E.
  - destruct (differences_one l l' HL ltac:(lia)) as (j & Hj & K). exists 0, (S j). split; [cbn; lia|]. intros [|n]; cbn [nth].
    + destruct x, y; try discriminate E; split; auto; congruence.
    + rewrite K. split; [intros ->; auto|intros [X|X]; congruence].
  - destruct (IH l' HL H) as (i & j & Hi & K). exists (S i), (S j). split; [cbn; lia|]. intros [|n]; cbn [nth].
    + destruct x, y; try discriminate E; (split; [congruence|intros [X|X]; discriminate X]).
    + rewrite K. split; (intros [X|X]; [left|right]; congruence).
Qed.
Theorem C18_three_bit_errors_detected : forall b b', octets b -> octets b' -> fcs_new b = Done (Ok b) -> length b = length b' ->
  (N.of_nat (length b) <= 4095)%N -> 1 <= differences (stream b) (stream b') <= 3 -> fcs_new b' = Done Err.
Proof.
  intros b b' HO HO' HN LB HL HD. assert (LS : length (stream b) = length (stream b')) by (rewrite !stream_length; lia).
  destruct (Nat.odd (differences (stream b) (stream b'))) eqn:EO; [exact (C18_odd_errors_detected b b' HO HO' LB HN EO)|].
  assert (E2 : differences (stream b) (stream b') = 2) by (destruct (differences (stream b) (stream b')) as [|[|[|[|k]]]]; cbn in EO; try discriminate EO; lia).
  destruct (differences_two _ _ LS E2) as (i & j & Hij & K).
  apply (C18_two_bit_errors_detected b b' i j HO HO' HN LB Hij); [|exact K].
  rewrite stream_length in Hij. clear - Hij HL. lia.
Qed.
Print Assumptions C18_three_bit_errors_detected.
Example C18_three_bits : 1 <= differences (stream fcs_sample) (stream (flip (flip (flip fcs_sample 3 5) 9 0) 17 7)) <= 3 /\
  (N.of_nat (length fcs_sample) <= 4095)%N /\ fcs_new (flip (flip (flip fcs_sample 3 5) 9 0) 17 7) = Done Err.
Proof. split; [vm_compute; lia|]. split; [vm_compute; discriminate|vm_compute; reflexivity]. Qed.
(** The distance is exactly 4: some four flipped bits (those of the generator itself) are not detected. *)
Theorem C18_four_bits_undetected : exists b b', octets b /\ octets b' /\ length b = length b' /\
  fcs_new b = Done (Ok b) /\ fcs_new b' = Done (Ok b') /\ differences (stream b) (stream b') = 4.
Proof.
  exists [0; 0; 0]%N, [0x11; 0x08; 0x01]%N. split; [repeat constructor|]. split; [repeat constructor|]. repeat split; vm_compute; reflexivity.
Qed.
Print Assumptions C18_four_bits_undetected.
(** What the FCS of the standard cannot see: zero octets inserted in front of the frame (the register starts at zero). *)
Theorem C17_leading_zeros : forall b n, octets b -> fcs_new b = Done (Ok b) -> fcs_new (repeat 0%N n ++ b) = Done (Ok (repeat 0%N n ++ b)).
Proof.
  intros b n HO HN. assert (HZ : octets (repeat 0%N n ++ b)).
  { apply Forall_app. split; [|exact HO]. clear. induction n as [|n IH]; constructor; [reflexivity|exact IH]. }
  apply (C17_new_iff_divisible b HO) in HN. destruct HN as (HL & HD). apply (C17_new_iff_divisible _ HZ). split; [rewrite app_length; lia|].
  replace (poly (stream (repeat 0%N n ++ b))) with (poly (stream b)); [exact HD|].
  clear. induction n as [|n IH]; [reflexivity|]. cbn [repeat app]. rewrite IH at 1. change (0%N :: repeat 0%N n ++ b) with ([0%N] ++ (repeat 0%N n ++ b)).
  rewrite (stream_app [0%N]), (poly_app (stream [0%N])). replace (poly (stream [0%N])) with 0%N by (vm_compute; reflexivity). rewrite ?N.shiftl_0_l, ?N.lxor_0_l, ?N.lxor_0_r. reflexivity.
Qed.
Print Assumptions C17_leading_zeros.

