(** PropMacro.v -- C30: records declared with #[frame]. *)
From Verif Require Import Base BaseProofs Spec Macro SpecMacro BitProofs AddressingProofs.

Lemma from_le_app a b : from_le (a ++ b) = (from_le a + 256 ^ N.of_nat (length a) * from_le b)%N.
Proof.
  induction a as [|x a IH]; cbn [app from_le length]; [change (256 ^ N.of_nat 0)%N with 1%N; lia|].
  rewrite IH, Nat2N.inj_succ, N.pow_succ_r by lia. lia.
Qed.

Lemma pow256 n : (256 ^ N.of_nat n = 2 ^ (8 * N.of_nat n))%N.
Proof. change 256%N with (2 ^ 8)%N. rewrite <- N.pow_mul_r. reflexivity. Qed.

(** dropping octets = shifting *)
Lemma from_le_skipn o b : octets b -> from_le (skipn o b) = (from_le b / 2 ^ (8 * N.of_nat o))%N.
Proof.
  intros H. rewrite <- (firstn_skipn o b) at 2. rewrite from_le_app, <- pow256.
  destruct (Nat.le_gt_cases o (length b)) as [L|L].
  - rewrite firstn_length, Nat.min_l by exact L.
    pose proof (from_le_lt (firstn o b) (octets_firstn o b H)) as K. rewrite firstn_length, Nat.min_l in K by exact L.
    rewrite N.mul_comm, N.div_add by (apply N.pow_nonzero; lia). rewrite N.div_small by exact K. lia.
  - rewrite skipn_all2 by lia. cbn [from_le]. rewrite N.mul_0_r, N.add_0_r. symmetry. apply N.div_small.
    eapply N.lt_le_trans; [apply from_le_lt, octets_firstn, H|]. apply N.pow_le_mono_r; [lia|]. rewrite firstn_length. lia.
Qed.

Lemma from_le_firstn n b : octets b -> n <= length b -> from_le (firstn n b) = (from_le b mod 2 ^ (8 * N.of_nat n))%N.
Proof.
  intros H L. rewrite <- (firstn_skipn n b) at 2. rewrite from_le_app, <- pow256, firstn_length, Nat.min_l by exact L.
  rewrite N.mul_comm, N.mod_add by (apply N.pow_nonzero; lia). symmetry. apply N.mod_small.
  pose proof (from_le_lt (firstn n b) (octets_firstn n b H)) as K. rewrite firstn_length, Nat.min_l in K by exact L. exact K.
Qed.

Lemma field_octets o n b : octets b -> o + n <= length b ->
  field (N.of_nat (8 * o)) (N.of_nat (8 * n)) (from_le b) = from_le (firstn n (skipn o b)).
Proof.
  intros H L. rewrite from_le_firstn, from_le_skipn by (try apply octets_skipn; try rewrite skipn_length; assumption || lia).
  unfold field. rewrite !Nat2N.inj_mul. reflexivity.
Qed.

Lemma testbit_from_le o b j : octets b -> o < length b -> (j < 8)%N ->
  N.testbit (from_le b) (N.of_nat (8 * o) + j) = N.testbit (nth o b 0%N) j.
Proof.
  intros H L J. pose proof (field_octets o 1 b H ltac:(lia)) as F.
  assert (E : firstn 1 (skipn o b) = [nth o b 0%N]).
  { clear - L. revert b L. induction o as [|o IH]; intros [|x b] L; simpl in L; try lia; [reflexivity|]. cbn [skipn nth]. apply IH. lia. }
  rewrite E in F. cbn [from_le] in F. rewrite N.mul_0_r, N.add_0_r in F. rewrite <- F, testbit_field.
  change (N.of_nat (8 * 1)) with 8%N. destruct (N.ltb_spec j 8); [reflexivity|lia].
Qed.

Lemma field_sub_octet o bo k b : octets b -> o < length b -> bo + k <= 8 ->
  field (N.of_nat (8 * o + bo)) (N.of_nat k) (from_le b) = field (N.of_nat bo) (N.of_nat k) (nth o b 0%N).
Proof.
  intros H L K. apply N.bits_inj. intros j. rewrite !testbit_field.
  destruct (N.ltb_spec j (N.of_nat k)); [|reflexivity]. cbn [andb].
  rewrite Nat2N.inj_add, <- N.add_assoc. rewrite testbit_from_le; [reflexivity|exact H|exact L|lia].
Qed.

(** ** A sufficient condition: every field carries an attribute of the size of its type, and bit fields fill octets *)
Definition fits_bytes (t : fty) (n : nat) (last : bool) : bool :=
  match t with
  | TU8 => n =? 1 | TU16 => n =? 2 | TU32 => n =? 4 | TU64 => n =? 8 | TRec m => n =? m
  | TSlice => (0 <? n) || last | TBool => false
  end.
Definition fits_bits (t : fty) (bo k : nat) : bool :=
  match t with
  | TBool => (k =? 1) && (bo + k <=? 8) | TU8 => (0 <? k) && (bo + k <=? 8) | TRec m => (bo =? 0) && (k =? 8) && (m =? 1) | _ => false
  end.
Fixpoint packed (bo : nat) (ds : list decl) : bool :=
  match ds with
  | [] => bo =? 0
  | d :: r =>
      match d_bytes d, d_bits d with
      | Some n, None => (bo =? 0) && fits_bytes (d_ty d) n (match r with [] => true | _ => false end) && packed 0 r
      | None, Some k => fits_bits (d_ty d) bo k && packed ((bo + k) mod 8) r
      | _, _ => false
      end
  end.

Lemma list_sum_cons' x l : list_sum (x :: l) = x + list_sum l.
Proof. reflexivity. Qed.

Lemma fits_bits_le t bo k : fits_bits t bo k = true -> 1 <= k /\ bo + k <= 8.
Proof.
  destruct t; cbn [fits_bits]; try discriminate; rewrite ?andb_true_iff, ?Nat.eqb_eq, ?Nat.leb_le, ?Nat.ltb_lt; lia.
Qed.

(** the macro's running offset is the bit position *)
Lemma advance_pos off bo d : bo < 8 -> match d_bytes d, d_bits d with
    | Some n, None => bo = 0 | None, Some k => 1 <= k /\ bo + k <= 8 | _, _ => False end ->
  let '(off', bo') := advance (off, bo) d in
  8 * off' + bo' = 8 * off + bo + width d /\ bo' < 8 /\ bo' = (match d_bits d with Some k => (bo + k) mod 8 | None => 0 end).
Proof.
  intros Hb H. unfold advance, width. destruct (d_bytes d) as [n|], (d_bits d) as [k|]; try contradiction.
  - lia.
  - destruct H as [H1 H2]. destruct (Nat.eq_dec (bo + k) 8) as [E|E].
    + rewrite E. cbn. lia.
    + rewrite (Nat.mod_small (bo + k) 8) by lia.
      destruct (Nat.eqb_spec (bo + k) 0); [lia|]. cbn [andb]. lia.
Qed.

Lemma packed_size ds : forall off bo, bo < 8 -> packed bo ds = true ->
  8 * fst (fold_left advance ds (off, bo)) = 8 * off + bo + total ds.
Proof.
  induction ds as [|d r IH]; intros off bo Hb HP.
  - cbn [packed] in HP. apply Nat.eqb_eq in HP. subst bo. unfold total. simpl. lia.
  - cbn [packed] in HP. cbn [fold_left]. unfold total. cbn [map]. rewrite list_sum_cons'.
    pose proof (advance_pos off bo d Hb) as A.
    destruct (d_bytes d) as [n|], (d_bits d) as [k|]; try discriminate.
    + apply andb_true_iff in HP. destruct HP as [HP HP2]. apply andb_true_iff in HP. destruct HP as [HB HP1]. apply Nat.eqb_eq in HB.
      specialize (A HB). destruct (advance (off, bo) d) as [off' bo']. destruct A as (A1 & A2 & ->).
      rewrite IH by (assumption || lia). unfold total. lia.
    + apply andb_true_iff in HP. destruct HP as [HP1 HP2].
      specialize (A (fits_bits_le _ _ _ HP1)). destruct (advance (off, bo) d) as [off' bo']. destruct A as (A1 & A2 & ->).
      rewrite IH by assumption. unfold total. lia.
Qed.

(** one getter *)
Lemma read_at_ok b off bo d last : octets b -> bo < 8 -> 8 * off + bo + width d <= 8 * length b ->
  match d_bytes d, d_bits d with
  | Some n, None => (bo =? 0) && fits_bytes (d_ty d) n last = true
  | None, Some k => fits_bits (d_ty d) bo k = true
  | _, _ => False end ->
  read_at b off bo d = Done (value_at d (8 * off + bo) b).
Proof.
  intros HO Hb HL H. unfold read_at. rewrite slice_from_ok by lia. cbn [bind].
  destruct d as [t by_ bi_]. unfold width in *. cbn [d_ty d_bytes d_bits] in *. unfold value_at, eff_bytes, width. cbn [d_ty d_bytes d_bits].
  destruct by_ as [n|], bi_ as [k|]; try contradiction.
  - apply andb_true_iff in H. destruct H as [HB HF]. apply Nat.eqb_eq in HB. subst bo. rewrite Nat.add_0_r in *.
    assert (D8 : 8 * off / 8 = off) by (rewrite Nat.mul_comm; apply Nat.div_mul; lia).
    assert (DN : 8 * n / 8 = n) by (rewrite Nat.mul_comm; apply Nat.div_mul; lia).
    destruct t; cbn [fits_bytes] in HF; try (apply Nat.eqb_eq in HF; subst n).
    + discriminate.
    + rewrite idx_ok by (rewrite skipn_length; lia). cbn [bind]. rewrite field_octets by (assumption || lia).
      assert (E : firstn 1 (skipn off b) = [nth 0 (skipn off b) 0%N]).
      { destruct (skipn off b) eqn:E; [|reflexivity]. apply (f_equal (@length N)) in E. rewrite skipn_length in E. simpl in E. lia. }
      rewrite E. cbn [from_le]. rewrite N.mul_0_r, N.add_0_r. reflexivity.
    + unfold rd_n. rewrite slice_to_ok by (rewrite skipn_length; lia). cbn [bind]. rewrite field_octets by (assumption || lia). reflexivity.
    + unfold rd_n. rewrite slice_to_ok by (rewrite skipn_length; lia). cbn [bind]. rewrite field_octets by (assumption || lia). reflexivity.
    + unfold rd_n. rewrite slice_to_ok by (rewrite skipn_length; lia). cbn [bind]. rewrite field_octets by (assumption || lia). reflexivity.
    + rewrite D8, DN. destruct n as [|n]; [reflexivity|]. rewrite slice_to_ok by (rewrite skipn_length; lia). reflexivity.
    + rewrite slice_to_ok by (rewrite skipn_length; lia). cbn [bind]. rewrite D8.
      destruct (Nat.leb_spec n0 (length (firstn n0 (skipn off b)))) as [K|K]; [reflexivity|]. rewrite firstn_length, skipn_length in K. lia.
  - pose proof (fits_bits_le _ _ _ H) as [K1 K2].
    assert (LO : off < length b) by lia.
    assert (NTH : nth 0 (skipn off b) 0%N = nth off b 0%N).
    { clear - LO. revert b LO. induction off as [|o IH]; intros [|x b] L; simpl in L; try lia; [reflexivity|]. cbn [skipn nth]. apply IH. lia. }
    destruct t; cbn [fits_bits] in H; try discriminate.
    + apply andb_true_iff in H. destruct H as [H _]. apply Nat.eqb_eq in H. subst k.
      rewrite idx_ok by (rewrite skipn_length; lia). cbn [bind]. rewrite NTH. destruct (Nat.ltb_spec bo 8); [|lia].
      f_equal. f_equal. rewrite bit_testbit, Nat2N.inj_add, testbit_from_le by (assumption || lia).
      change 1%N with (N.ones 1). rewrite N.land_ones, N.shiftr_div_pow2. change (2 ^ 1)%N with 2%N.
      rewrite <- bit_testbit. unfold bit. rewrite <- N.bit0_mod, N.bit0_odd. destruct (N.odd _); reflexivity.
    + rewrite idx_ok by (rewrite skipn_length; lia). cbn [bind]. rewrite NTH. destruct (Nat.ltb_spec bo 8); [|lia].
      f_equal. f_equal. rewrite field_sub_octet by (assumption || lia). rewrite <- field_land, N.sub_1_r, N.ones_equiv. reflexivity.
    + rewrite !andb_true_iff, !Nat.eqb_eq in H. destruct H as [[-> ->] ->].
      rewrite slice_to_ok by (rewrite skipn_length; lia). cbn [bind]. rewrite Nat.add_0_r.
      assert (D8 : 8 * off / 8 = off) by (rewrite Nat.mul_comm; apply Nat.div_mul; lia). rewrite D8.
      destruct (Nat.leb_spec 1 (length (firstn 1 (skipn off b)))) as [K|K]; [reflexivity|]. rewrite firstn_length, skipn_length in K. lia.
Qed.

Lemma place_ok b : octets b -> forall ds off bo i d, bo < 8 -> packed bo ds = true ->
  8 * off + bo + total ds <= 8 * length b -> nth_error ds i = Some d ->
  exists off' bo', place (off, bo) ds i = Some (off', bo', d) /\ read_at b off' bo' d = Done (value_at d (8 * off + bo + position ds i) b).
Proof.
  intros HO. induction ds as [|e r IH]; intros off bo i d Hb HP HL HN; [destruct i; discriminate|].
  unfold total in HL. cbn [map] in HL. rewrite list_sum_cons' in HL. fold (total r) in HL. cbn [packed] in HP.
  destruct i as [|i].
  - injection HN as ->. exists off, bo. split; [reflexivity|]. unfold position. cbn [firstn map]. change (list_sum []) with 0. rewrite Nat.add_0_r.
    apply (read_at_ok b off bo d (match r with [] => true | _ => false end)); [exact HO|exact Hb|lia|].
    destruct (d_bytes d), (d_bits d); try discriminate; apply andb_true_iff in HP; apply HP.
  - cbn [nth_error] in HN. cbn [place]. unfold position. cbn [firstn map]. rewrite list_sum_cons'. fold (position r i).
    pose proof (advance_pos off bo e Hb) as A.
    destruct (d_bytes e) as [n|], (d_bits e) as [k|]; try discriminate.
    + apply andb_true_iff in HP. destruct HP as [HP HP2]. apply andb_true_iff in HP. destruct HP as [HB HP1]. apply Nat.eqb_eq in HB.
      specialize (A HB). destruct (advance (off, bo) e) as [off1 bo1]. destruct A as (A1 & A2 & ->).
      destruct (IH off1 0 i d) as (o' & b' & E1 & E2); [lia|exact HP2|lia|exact HN|].
      exists o', b'. split; [exact E1|]. rewrite E2. do 2 f_equal. lia.
    + apply andb_true_iff in HP. destruct HP as [HP1 HP2].
      specialize (A (fits_bits_le _ _ _ HP1)). destruct (advance (off, bo) e) as [off1 bo1]. destruct A as (A1 & A2 & ->).
      destruct (IH off1 ((bo + k) mod 8) i d) as (o' & b' & E1 & E2); [exact A2|exact HP2|lia|exact HN|].
      exists o', b'. split; [exact E1|]. rewrite E2. do 2 f_equal. lia.
Qed.

(** ** C30 *)
Definition C30_statement : Prop := Forall reads_right
  [VendorSpecific; Csl; Rit; DsmeSuperframeSpecification; TimeSynchronizationSpecification; ChannelHoppingSpecification;
   RendezvousTime; SimplifiedSuperframeSpecification; CfpSpecification; SuperframeSpecification;
   GtsSpecification; GtsInfo; GtsSlot; PendingAddressSpecification; PendingAddress].

(** what the macro does right: any record whose fields all carry a #[bytes]/#[bits] attribute matching their
    type, with bit fields filling whole octets, is read exactly as declared, and [new] guarantees enough octets *)
Theorem C30_macro_partial : forall ds, packed 0 ds = true -> reads_right ds.
Proof.
  intros ds HP. pose proof (packed_size ds 0 0 ltac:(lia) HP) as HS. split; [unfold rec_size; lia|]. split.
  { intros b. unfold rec_new, rec_size. destruct (Nat.leb_spec (fst (fold_left advance ds (0, 0))) (length b)),
      (Nat.leb_spec (total ds) (8 * length b)); reflexivity || lia. }
  intros b HO HN i d Hd. unfold rec_new, rec_size in HN.
  destruct (Nat.leb_spec (fst (fold_left advance ds (0, 0))) (length b)) as [HL|HL]; [|discriminate].
  destruct (place_ok b HO ds 0 0 i d) as (off' & bo' & E1 & E2); [lia|exact HP|lia|exact Hd|].
  unfold get. rewrite E1. exact E2.
Qed.
(** it covers these records *)
Theorem C30_records_partial : Forall reads_right
  [DsmeSuperframeSpecification; SuperframeSpecification; GtsSpecification; GtsSlot; PendingAddressSpecification; PendingAddress].
Proof. repeat (apply Forall_cons; [apply C30_macro_partial; reflexivity|]). constructor. Qed.

(** fields without an attribute do not advance the offset: distinct fields come from the same octets, and [new]
    accepts even an empty buffer *)
Theorem C30_csl_refuted : ~ reads_right Csl.
Proof. intros [H _]. discriminate. Qed.
Print Assumptions C30_csl_refuted.
Theorem C30_overlap_refuted :
  (forall b, get Csl 0 b = get Csl 1 b) /\ (forall b, get RendezvousTime 0 b = get RendezvousTime 1 b) /\
  (forall b, get Rit 0 b = get Rit 1 b) /\ (forall b, get ChannelHoppingSpecification 0 b = get ChannelHoppingSpecification 1 b) /\
  (forall ds, In ds [Csl; RendezvousTime; Rit; ChannelHoppingSpecification] -> rec_new ds [] = Ok [] /\ get ds 0 [] = Panic).
Proof. repeat split; try reflexivity; destruct H as [<-|[<-|[<-|[<-|[]]]]]; reflexivity. Qed.
Print Assumptions C30_overlap_refuted.
Theorem C30_vendor_refuted : ~ reads_right VendorSpecific.
Proof.
  intros [_ [_ H]]. specialize (H [1; 2; 3]%N). assert (K : octets [1; 2; 3]%N) by (repeat constructor).
  specialize (H K eq_refl 0 _ eq_refl). vm_compute in H. discriminate.
Qed.
Print Assumptions C30_vendor_refuted.
(** the remaining records: [new] accepts buffers on which a getter panics *)
Theorem C30_timesync_refuted : exists b, rec_new TimeSynchronizationSpecification b = Ok b /\ get TimeSynchronizationSpecification 1 b = Panic.
Proof. exists (repeat 0%N 8). split; reflexivity. Qed.
Print Assumptions C30_timesync_refuted.
Theorem C30_cfp_refuted : exists b, rec_new CfpSpecification b = Ok b /\ get CfpSpecification 2 b = Panic.
Proof. exists [0%N]. split; reflexivity. Qed.
Print Assumptions C30_cfp_refuted.
(** ... even when it is obtained from an accepted simplified superframe specification of any length *)
Theorem C30_simplified_refuted : forall b, octets b -> rec_new SimplifiedSuperframeSpecification b = Ok b ->
  (exists s, get SimplifiedSuperframeSpecification 2 b = Done (VRec (Ok s)) /\ get CfpSpecification 2 s = Panic) /\
  (* the timestamp and the superframe specification are read from the same two octets *)
  get SimplifiedSuperframeSpecification 0 b = Done (VNum (from_le (firstn 2 b))) /\
  get SimplifiedSuperframeSpecification 1 b = Done (VRec (Ok (firstn 2 b))).
Proof.
  intros b HO H. unfold rec_new in H. change (rec_size SimplifiedSuperframeSpecification) with 4 in H.
  destruct (Nat.leb_spec 4 (length b)) as [L|L]; [|discriminate].
  do 4 (destruct b as [|? b]; [simpl in L; lia|]). split; [exists [n1]; split; reflexivity|]. split; reflexivity.
Qed.
(** ** What the getters of the other records return, for every buffer whatever *)
(** every getter of the record, in order, with the number of octets it needs and the value it returns when they are there;
    it panics on any shorter buffer *)
Definition getters (ds : list decl) (l : list (nat * (list N -> fval))) : Prop := length l = length ds /\
  forall i n v, nth_error l i = Some (n, v) -> forall b, octets b -> get ds i b = if n <=? length b then Done (v b) else Panic.
(** the octets [o .. o+n-1] of the buffer as a little-endian number, and as a slice; the bits [p .. p+k-1] of octet [o] *)
Definition num_at (o n : nat) (b : list N) : fval := VNum (from_le (firstn n (skipn o b))).
Definition cut_at (o n : nat) (b : list N) : fval := VSlice (firstn n (skipn o b)).
Definition rest_at (o : nat) (b : list N) : fval := VSlice (skipn o b).
Definition sub_at (o n : nat) (b : list N) : fval := VRec (Ok (firstn n (skipn o b))).
Definition bits_at (o : nat) (p k : N) (b : list N) : fval := VNum (field p k (nth o b 0%N)).
Definition flag_at (o : nat) (p : N) (b : list N) : fval := VBool (bit p (nth o b 0%N)).

Lemma shiftr_bits x p k : N.land (N.shiftr x p) (2 ^ k - 1) = field p k x.
Proof. rewrite <- field_land, N.sub_1_r, N.ones_equiv. reflexivity. Qed.
Lemma shiftr_bit x p : negb (N.land (N.shiftr x p) 1 =? 0)%N = bit p x.
Proof.
  rewrite bit_testbit. change 1%N with (N.ones 1). rewrite N.land_ones, N.shiftr_div_pow2. change (2 ^ 1)%N with 2%N.
  rewrite <- bit_testbit. unfold bit. rewrite <- N.bit0_mod, N.bit0_odd. destruct (N.odd _); reflexivity.
Qed.
Lemma nth_skipn0 (b : list N) : forall o, nth 0 (skipn o b) 0%N = nth o b 0%N.
Proof. induction b as [|x b IH]; intros [|o]; try reflexivity. cbn [skipn nth]. apply IH. Qed.
Lemma firstn1 (s : list N) : 1 <= length s -> from_le (firstn 1 s) = nth 0 s 0%N.
Proof. destruct s as [|x s]; [simpl; lia|]. intros _. cbn [firstn from_le nth]. lia. Qed.

Lemma getter_num t d off m b : d_ty d = t ->
  (t = TU8 /\ d_bits d = None /\ m = 1 \/ t = TU16 /\ m = 2 \/ t = TU32 /\ eff_bytes d = Some 4 /\ m = 4 \/ t = TU64 /\ m = 8) ->
  read_at b off 0 d = if off + m <=? length b then Done (num_at off m b) else Panic.
Proof.
  intros HT HM. unfold read_at, num_at. rewrite HT. destruct (Nat.leb_spec (off + m) (length b)) as [L|L].
  - rewrite slice_from_ok by lia. cbn [bind].
    destruct HM as [(-> & HB & ->)|[(-> & ->)|[(-> & HB & ->)|(-> & ->)]]]; rewrite ?HB; unfold rd_n;
      rewrite ?slice_to_ok by (rewrite skipn_length; lia); try reflexivity.
    rewrite idx_ok by (rewrite skipn_length; lia). cbn [bind]. rewrite firstn1 by (rewrite skipn_length; lia). reflexivity.
  - destruct (Nat.le_gt_cases off (length b)) as [K|K]; [|rewrite slice_from_panic by lia; reflexivity].
    rewrite slice_from_ok by lia. cbn [bind].
    destruct HM as [(-> & HB & ->)|[(-> & ->)|[(-> & HB & ->)|(-> & ->)]]]; rewrite ?HB; unfold rd_n;
      rewrite ?slice_to_panic by (rewrite skipn_length; lia); try reflexivity.
    rewrite idx_panic by (rewrite skipn_length; lia). reflexivity.
Qed.
Lemma getter_three d off b : d_ty d = TU32 -> eff_bytes d = Some 3 ->
  read_at b off 0 d = if off + 3 <=? length b then Done (VNum (256 * from_le (firstn 3 (skipn off b)))) else Panic.
Proof.
  intros HT HB. unfold read_at. rewrite HT, HB. unfold rd_n. destruct (Nat.leb_spec (off + 3) (length b)) as [L|L].
  - rewrite slice_from_ok by lia. cbn [bind]. rewrite slice_to_ok by (rewrite skipn_length; lia). reflexivity.
  - destruct (Nat.le_gt_cases off (length b)) as [K|K]; [|rewrite slice_from_panic by lia; reflexivity].
    rewrite slice_from_ok by lia. cbn [bind]. rewrite slice_to_panic by (rewrite skipn_length; lia). reflexivity.
Qed.
Lemma getter_cut d off m b : d_ty d = TSlice -> eff_bytes d = Some (S m) ->
  read_at b off 0 d = if off + S m <=? length b then Done (cut_at off (S m) b) else Panic.
Proof.
  intros HT HB. unfold read_at, cut_at. rewrite HT, HB. destruct (Nat.leb_spec (off + S m) (length b)) as [L|L].
  - rewrite slice_from_ok by lia. cbn [bind]. rewrite slice_to_ok by (rewrite skipn_length; lia). reflexivity.
  - destruct (Nat.le_gt_cases off (length b)) as [K|K]; [|rewrite slice_from_panic by lia; reflexivity].
    rewrite slice_from_ok by lia. cbn [bind]. rewrite slice_to_panic by (rewrite skipn_length; lia). reflexivity.
Qed.
Lemma getter_rest d off b : d_ty d = TSlice -> eff_bytes d = Some 0 ->
  read_at b off 0 d = if off <=? length b then Done (rest_at off b) else Panic.
Proof.
  intros HT HB. unfold read_at, rest_at. rewrite HT, HB. destruct (Nat.leb_spec off (length b)) as [L|L].
  - rewrite slice_from_ok by lia. reflexivity.
  - rewrite slice_from_panic by lia. reflexivity.
Qed.
Lemma getter_sub d off bo m b : d_ty d = TRec m ->
  read_at b off bo d = if off + m <=? length b then Done (sub_at off m b) else Panic.
Proof.
  intros HT. unfold read_at, sub_at. rewrite HT. destruct (Nat.leb_spec (off + m) (length b)) as [L|L].
  - rewrite slice_from_ok by lia. cbn [bind]. rewrite slice_to_ok by (rewrite skipn_length; lia). cbn [bind].
    rewrite firstn_length, skipn_length, Nat.min_l by lia. rewrite Nat.leb_refl. reflexivity.
  - destruct (Nat.le_gt_cases off (length b)) as [K|K]; [|rewrite slice_from_panic by lia; reflexivity].
    rewrite slice_from_ok by lia. cbn [bind]. rewrite slice_to_panic by (rewrite skipn_length; lia). reflexivity.
Qed.
Lemma getter_bits d off bo k b : d_ty d = TU8 -> d_bits d = Some k -> bo < 8 ->
  read_at b off bo d = if S off <=? length b then Done (bits_at off (N.of_nat bo) (N.of_nat k) b) else Panic.
Proof.
  intros HT HB Hb. unfold read_at, bits_at. rewrite HT, HB. destruct (Nat.leb_spec (S off) (length b)) as [L|L].
  - rewrite slice_from_ok by lia. cbn [bind]. rewrite idx_ok by (rewrite skipn_length; lia). cbn [bind].
    destruct (Nat.ltb_spec bo 8); [|lia]. rewrite shiftr_bits, nth_skipn0. reflexivity.
  - destruct (Nat.le_gt_cases off (length b)) as [K|K]; [|rewrite slice_from_panic by lia; reflexivity].
    rewrite slice_from_ok by lia. cbn [bind]. rewrite idx_panic by (rewrite skipn_length; lia). reflexivity.
Qed.
Lemma getter_flag d off bo b : d_ty d = TBool -> bo < 8 ->
  read_at b off bo d = if S off <=? length b then Done (flag_at off (N.of_nat bo) b) else Panic.
Proof.
  intros HT Hb. unfold read_at, flag_at. rewrite HT. destruct (Nat.leb_spec (S off) (length b)) as [L|L].
  - rewrite slice_from_ok by lia. cbn [bind]. rewrite idx_ok by (rewrite skipn_length; lia). cbn [bind].
    destruct (Nat.ltb_spec bo 8); [|lia]. rewrite shiftr_bit, nth_skipn0. reflexivity.
  - destruct (Nat.le_gt_cases off (length b)) as [K|K]; [|rewrite slice_from_panic by lia; reflexivity].
    rewrite slice_from_ok by lia. cbn [bind]. rewrite idx_panic by (rewrite skipn_length; lia). reflexivity.
Qed.
Ltac one_getter := match goal with |- get ?ds ?i ?b = _ => let p := eval vm_compute in (place (0, 0) ds i) in
  match p with Some (?o, ?bo, ?d) => change (get ds i b) with (read_at b o bo d);
    first [ exact (getter_three d o b eq_refl eq_refl) | exact (getter_rest d o b eq_refl eq_refl) | exact (getter_cut d o _ b eq_refl eq_refl)
          | exact (getter_sub d o bo _ b eq_refl) | exact (getter_bits d o bo _ b eq_refl eq_refl ltac:(lia)) | exact (getter_flag d o bo b eq_refl ltac:(lia))
          | refine (getter_num TU8 d o 1 b eq_refl _); tauto | refine (getter_num TU16 d o 2 b eq_refl _); tauto ] end end.
Ltac each_getter := split; [reflexivity|]; intros i n v Hi b _;
  repeat (destruct i as [|i]; [injection Hi as <- <-; one_getter|]); destruct i; discriminate.
(** the records which the previous theorem does not cover: how many octets [new] asks for, and every getter on every buffer *)
Theorem C30_exact_partial :
  (rec_size VendorSpecific = 3 /\ getters VendorSpecific [(3, fun b => VNum (256 * from_le (firstn 3 b))); (3, rest_at 3)]) /\
  (rec_size Csl = 0 /\ getters Csl [(2, num_at 0 2); (2, num_at 0 2); (2, num_at 0 2)]) /\
  (rec_size Rit = 0 /\ getters Rit [(1, num_at 0 1); (1, num_at 0 1); (2, num_at 0 2)]) /\
  (rec_size TimeSynchronizationSpecification = 8 /\ getters TimeSynchronizationSpecification [(8, cut_at 0 8); (10, num_at 8 2)]) /\
  (rec_size ChannelHoppingSpecification = 0 /\ getters ChannelHoppingSpecification
     [(1, num_at 0 1); (1, num_at 0 1); (2, num_at 0 2); (1, num_at 0 1); (0, rest_at 0)]) /\
  (rec_size RendezvousTime = 0 /\ getters RendezvousTime [(2, num_at 0 2); (2, num_at 0 2)]) /\
  (rec_size SimplifiedSuperframeSpecification = 4 /\ getters SimplifiedSuperframeSpecification [(2, num_at 0 2); (2, sub_at 0 2); (3, sub_at 2 1)]) /\
  (rec_size CfpSpecification = 1 /\ getters CfpSpecification [(1, bits_at 0 0 3); (1, bits_at 0 3 5); (2, bits_at 1 0 4); (2, flag_at 1 4)]) /\
  (rec_size GtsInfo = 1 /\ getters GtsInfo [(1, sub_at 0 1); (2, bits_at 1 0 1)]) /\
  (forall ds b, rec_new ds b = if rec_size ds <=? length b then Ok b else Err) /\
  (forall b, octets b -> csl_rendezvous_time b = Done (if 4 <? length b then Some (num_at 0 2 b) else None)).
Proof.
  repeat (match goal with |- _ /\ _ => split end); try reflexivity; try each_getter.
  intros b _. unfold csl_rendezvous_time. destruct (Nat.ltb_spec 4 (length b)) as [L|L]; [|reflexivity].
  change (get Csl 2 b) with (read_at b 0 0 (plain TU16)).
  rewrite (getter_num TU16 (plain TU16) 0 2 b eq_refl) by tauto. destruct (Nat.leb_spec (0 + 2) (length b)); [reflexivity|lia].
Qed.
Print Assumptions C30_exact_partial.
Theorem C30_refuted : ~ C30_statement.
Proof. intros H. unfold C30_statement in H. rewrite Forall_forall in H. apply C30_csl_refuted, H. right. left. reflexivity. Qed.
Print Assumptions C30_refuted.

(** a value, to see the vocabulary at work: superframe specification of the beacon in tests/parsing/beacon.rs *)
Example C30_ex : get SuperframeSpecification 0 [0xff; 0xcf]%N = Done (VNum 15) /\
  get SuperframeSpecification 2 [0xff; 0xcf]%N = Done (VNum 15) /\ get SuperframeSpecification 3 [0xff; 0xcf]%N = Done (VBool false) /\
  get SuperframeSpecification 6 [0xff; 0xcf]%N = Done (VBool true) /\ position SuperframeSpecification 6 = 15 /\ total SuperframeSpecification = 16.
Proof. repeat split. Qed.
Print Assumptions C30_macro_partial.
Print Assumptions C30_records_partial.
Print Assumptions C30_simplified_refuted.
