(** ExchangeProofs.v -- lemmas for C84. *)
From Verif Require Import Base BaseProofs Spec SpecFrame BitProofs FrameControl FrameControlProofs Addressing SpecAddressing Frames SpecFrames FramesProofs
  Repr PhyConfig Csma SpecCsma CsmaProofs AddressingProofs AddressingProofs2 PropCsma SpecExchange.

Lemma list_same (l l' : list N) : length l = length l' -> (forall i, i < length l -> nth i l 0%N = nth i l' 0%N) -> l = l'.
Proof. intros H K. apply (nth_ext l l' 0%N 0%N H K). Qed.
Lemma window_nth b o n i : i < n -> nth i (window b o n) 0%N = nth (o + i) b 0%N.
Proof.
  intros H. unfold window. rewrite <- (nth_skipn' o i b). generalize (skipn o b). intros l. clear b. revert n l H.
  induction i as [|i IH]; intros [|n] [|x l] H; cbn [firstn nth]; try lia; try reflexivity. apply IH. lia.
Qed.
Lemma window_same b b' o n : o + n <= length b -> length b' = length b -> (forall i, o <= i < o + n -> nth i b' 0%N = nth i b 0%N) -> window b' o n = window b o n.
Proof.
  intros H L K. apply list_same; [rewrite !window_length by lia; reflexivity|]. intros i Hi. rewrite window_length in Hi by lia.
  rewrite !window_nth by lia. apply K. lia.
Qed.
Lemma firstn_window (b : list N) n : firstn n b = window b 0 n.
Proof. reflexivity. Qed.
Lemma skipn_window (b : list N) n : n <= length b -> skipn n b = window b n (length b - n).
Proof. intros H. unfold window. rewrite firstn_all2; [reflexivity|]. rewrite skipn_length. lia. Qed.
Lemma skipn_same (b b' : list N) n : n <= length b -> length b' = length b -> (forall i, n <= i < length b -> nth i b' 0%N = nth i b 0%N) -> skipn n b' = skipn n b.
Proof. intros H L K. rewrite !skipn_window, L by lia. apply window_same; [lia|exact L|]. intros i Hi. apply K. lia. Qed.
Lemma firstn_same (b b' : list N) n : n <= length b -> length b' = length b -> (forall i, i < n -> nth i b' 0%N = nth i b 0%N) -> firstn n b' = firstn n b.
Proof. intros H L K. rewrite !firstn_window. apply window_same; [lia|exact L|]. intros i Hi. apply K. lia. Qed.

Lemma patch_nth c off pan b i : off + 2 <= length b -> nth i (patch c off pan b) 0%N =
  if c then (if (i =? off)%nat then pan mod 256 else if (i =? off + 1)%nat then pan / 256 else nth i b 0)%N else nth i b 0%N.
Proof.
  intros H. unfold patch. destruct c; [|reflexivity]. assert (FL : length (firstn off b) = off) by (rewrite firstn_length; lia).
  destruct (Nat.eqb_spec i off) as [->|N1]; [rewrite app_nth2, FL, Nat.sub_diag by lia; reflexivity|].
  destruct (Nat.eqb_spec i (off + 1)) as [->|N2]; [rewrite app_nth2, FL by lia; replace (off + 1 - off) with 1 by lia; reflexivity|].
  destruct (Nat.lt_ge_cases i off) as [K|K].
  - rewrite app_nth1 by lia. rewrite <- (firstn_skipn off b) at 2. rewrite app_nth1 by lia. reflexivity.
  - rewrite app_nth2, FL by lia. rewrite app_nth2 by (cbn [length]; lia). cbn [length].
    rewrite nth_skipn'. f_equal. lia.
Qed.

(** the frame in the buffer, for the two edits *)
Lemma only_ar_window buf buf1 o n ar : o + n <= length buf -> 0 < n -> only_ar_changed buf buf1 o ar ->
  only_ar_changed (window buf o n) (window buf1 o n) 0 ar /\ firstn o buf1 = firstn o buf /\ skipn (o + n) buf1 = skipn (o + n) buf.
Proof.
  intros H H0 (L & S & O & B). split; [|split].
  - unfold only_ar_changed. rewrite !window_length by lia. rewrite !window_nth by lia. rewrite Nat.add_0_r. split; [reflexivity|]. split; [|split; assumption].
    intros i Hi. destruct (Nat.lt_ge_cases i n) as [K|K]; [rewrite !window_nth by lia; apply S; lia|]. rewrite !nth_overflow by (rewrite window_length; lia). reflexivity.
  - apply firstn_same; [lia|exact L|]. intros i Hi. apply S. lia.
  - apply skipn_same; [lia|exact L|]. intros i Hi. apply S. lia.
Qed.
Lemma patch_window c off pan buf o n : o + n <= length buf -> (c = true -> off + 2 <= n) ->
  window (patch c (o + off) pan buf) o n = patch c off pan (window buf o n) /\ firstn o (patch c (o + off) pan buf) = firstn o buf /\
  skipn (o + n) (patch c (o + off) pan buf) = skipn (o + n) buf /\ length (patch c (o + off) pan buf) = length buf.
Proof.
  intros H K. destruct c; [|auto]. specialize (K eq_refl).
  assert (L : length (patch true (o + off) pan buf) = length buf) by (apply patch_length_fits; intros _; lia).
  split; [|split; [|split; [|exact L]]].
  - assert (LW : length (patch true off pan (window buf o n)) = n) by (rewrite patch_length_fits; rewrite window_length; lia).
    apply list_same; [rewrite LW, window_length; lia|]. intros i Hi. rewrite window_length in Hi by lia. rewrite window_nth by lia.
    rewrite !patch_nth by (rewrite ?window_length; lia).
    destruct (Nat.eqb_spec (o + i) (o + off)), (Nat.eqb_spec i off); try lia.
    destruct (Nat.eqb_spec (o + i) (o + off + 1)), (Nat.eqb_spec i (off + 1)); try lia. rewrite window_nth by lia. reflexivity.
  - apply firstn_same; [lia|exact L|]. intros i Hi. rewrite patch_nth by lia. destruct (Nat.eqb_spec i (o + off)), (Nat.eqb_spec i (o + off + 1)); (lia || reflexivity).
  - apply skipn_same; [lia|exact L|]. intros i Hi. rewrite patch_nth by lia. destruct (Nat.eqb_spec i (o + off)), (Nat.eqb_spec i (o + off + 1)); (lia || reflexivity).
Qed.

(** the frame control field after the first edit *)
Lemma testbit_pair x y j : octet x -> N.testbit (x + 256 * y) j = if (j <? 8)%N then N.testbit x j else N.testbit y (j - 8).
Proof.
  intros Hx. change 256%N with (2 ^ 8)%N. rewrite (N.mul_comm (2 ^ 8) y), <- N.shiftl_mul_pow2. rewrite N.add_nocarry_lxor.
  - rewrite N.lxor_spec. destruct (N.ltb_spec j 8).
    + rewrite N.shiftl_spec_low by assumption. apply xorb_false_r.
    + rewrite N.shiftl_spec_high by lia. rewrite (testbit_high8 x) by assumption. apply xorb_false_l.
  - apply N.bits_inj. intros i. rewrite N.land_spec, N.bits_0. destruct (N.lt_ge_cases i 8).
    + rewrite (N.shiftl_spec_low y) by assumption. apply andb_false_r.
    + rewrite (testbit_high8 x) by assumption. reflexivity.
Qed.
Lemma only_ar_control b b1 r ar : only_ar_changed b b1 0 ar -> fc_is b r -> fc_is b1 (with_ack_request ar r).
Proof.
  intros (L & S & O & B) (x & y & rest & -> & Ox & Oy & HE). destruct b1 as [|x1 [|y1 rest1]]; try discriminate L.
  pose proof (S 1 ltac:(discriminate)) as Sy. cbn [nth] in *. subst y1. exists x1, y, rest1. split; [reflexivity|]. split; [exact O|]. split; [exact Oy|].
  assert (T : forall j, j <> 5%N -> N.testbit (x1 + 256 * y) j = N.testbit (x + 256 * y) j).
  { intros j Hj. rewrite !testbit_pair by assumption. destruct (N.ltb_spec j 8) as [K|K]; [|reflexivity]. specialize (B j K). rewrite !bit_testbit in B.
    destruct (N.eqb_spec j 5); [contradiction|exact B]. }
  assert (TF : forall lo n, (lo + n <= 5 \/ 5 < lo)%N -> field lo n (x1 + 256 * y) = field lo n (x + 256 * y)).
  { intros lo n H. apply field_ext. intros j Hj. apply T. lia. }
  assert (TB : forall j, j <> 5%N -> bit j (x1 + 256 * y) = bit j (x + 256 * y)) by (intros j Hj; rewrite !bit_testbit; apply T, Hj).
  assert (F1 : field 0 3 (x1 + 256 * y) = field 0 3 (x + 256 * y)) by (apply TF; left; discriminate).
  assert (F2 : field 10 2 (x1 + 256 * y) = field 10 2 (x + 256 * y)) by (apply TF; right; reflexivity).
  assert (F3 : field 12 2 (x1 + 256 * y) = field 12 2 (x + 256 * y)) by (apply TF; right; reflexivity).
  assert (F4 : field 14 2 (x1 + 256 * y) = field 14 2 (x + 256 * y)) by (apply TF; right; reflexivity).
  specialize (B 5%N eq_refl). cbn [N.eqb Pos.eqb] in B. assert (B5 : bit 5 (x1 + 256 * y) = ar) by (rewrite bit_testbit in *; rewrite testbit_pair by assumption; exact B).
  pose proof (TB 3%N ltac:(discriminate)) as B3. pose proof (TB 4%N ltac:(discriminate)) as B4. pose proof (TB 6%N ltac:(discriminate)) as B6.
  pose proof (TB 8%N ltac:(discriminate)) as B8. pose proof (TB 9%N ltac:(discriminate)) as B9.
  destruct HE as [E1 E2 E3 E4 E5 E6 E7 E8 E9 E10].
  split; cbn [with_ack_request fr_frame_type fr_security_enabled fr_frame_pending fr_ack_request fr_pan_id_compression fr_sequence_number_suppression
    fr_information_elements_present fr_dst_addressing_mode fr_src_addressing_mode fr_frame_version].
  - exact (eq_trans F1 E1).
  - exact (eq_trans B3 E2).
  - exact (eq_trans B4 E3).
  - exact B5.
  - exact (eq_trans B6 E5).
  - exact (eq_trans B8 E6).
  - exact (eq_trans B9 E7).
  - exact (eq_trans F2 E8).
  - exact (eq_trans F3 E9).
  - exact (eq_trans F4 E10).
Qed.
Lemma with_ack_request_same r : with_ack_request (fr_ack_request r) r = r.
Proof. destruct r. reflexivity. Qed.
Lemma only_ar_refl b r : octets b -> fc_is b r -> only_ar_changed b b 0 (fr_ack_request r).
Proof.
  intros HO (x & y & rest & -> & Ox & Oy & HE). split; [reflexivity|]. split; [reflexivity|]. cbn [nth]. split; [exact Ox|]. intros j Hj.
  destruct (N.eqb_spec j 5) as [->|]; [|reflexivity]. rewrite <- (enc_ack _ _ HE), !bit_testbit, testbit_pair by exact Ox. reflexivity.
Qed.
Lemma nth_seq_octets r b b' : mhr_size r <= length b -> length b' = length b -> (forall i, i = 2 -> mhr_size r = 3 -> nth i b' 0%N = nth i b 0%N) -> seq_octets r b' = seq_octets r b.
Proof.
  intros H L K. unfold seq_octets, mhr_size in *. destruct (fr_sequence_number_suppression r); [reflexivity|]. apply (window_same b b' 2 1); [lia|exact L|].
  intros i Hi. apply K; lia.
Qed.
Lemma pan_split pan : (pan mod 256 + 256 * (pan / 256) = pan)%N.
Proof. pose proof (N.div_mod pan 256 ltac:(discriminate)). lia. Qed.
Lemma pan_same (p : bool) (b b' : list N) o : (p = true -> forall i, o <= i < o + 2 -> nth i b' 0%N = nth i b 0%N) -> pan_at p b' o = pan_at p b o.
Proof. unfold pan_at. destruct p; [|reflexivity]. intros H. rewrite !H by (try reflexivity; lia). reflexivity. Qed.
Lemma addr_same m b b' o : o + addr_size m <= length b -> length b' = length b -> (forall i, o <= i < o + addr_size m -> nth i b' 0%N = nth i b 0%N) -> addr_at m b' o = addr_at m b o.
Proof. destruct m; cbn [addr_at addr_size]; intros H L K; try reflexivity; do 2 f_equal; apply window_same; assumption. Qed.
Lemma pan_replaced (p c : bool) pan (b b' : list N) o : (p = true -> nth o b' 0%N = (if c then pan mod 256 else nth o b 0)%N /\ nth (o + 1) b' 0%N = (if c then pan / 256 else nth (o + 1) b 0)%N) ->
  pan_at p b' o = replaced c pan (pan_at p b o).
Proof. unfold pan_at. destruct p; [|reflexivity]. intros H. destruct (H eq_refl) as [-> ->]. cbn [replaced]. destruct c; [rewrite pan_split|]; reflexivity. Qed.

(** the frame after both edits *)
Lemma edited P cfg r b b1 ar dp sp : acceptable b r -> only_ar_changed b b1 0 ar -> layout r dp sp -> mhr_size r + layout_size r dp sp <= length b ->
  let b' := patch (overwrite_dst_pan_id cfg && dp) (mhr_size r) (p_pan_id P)
    (patch (overwrite_src_pan_id cfg && sp) (mhr_size r + pan_size dp + addr_size (fr_dst_addressing_mode r)) (p_pan_id P) b1) in
  acceptable b' (with_ack_request ar r) /\ sent_as P cfg r b b'.
Proof.
  intros HA (L & S & O & B) HL HF. cbn zeta. set (d := mhr_size r). set (s := d + pan_size dp + addr_size (fr_dst_addressing_mode r)).
  set (cd := overwrite_dst_pan_id cfg && dp). set (cs := overwrite_src_pan_id cfg && sp). set (b' := patch cd d (p_pan_id P) (patch cs s (p_pan_id P) b1)).
  unfold layout_size in HF. fold d in HF. assert (Hd : 2 <= d) by (subst d; unfold mhr_size; destruct (fr_sequence_number_suppression r); lia).
  assert (Lb1 : length (patch cs s (p_pan_id P) b1) = length b).
  { rewrite patch_length_fits; [exact L|]. intros K. subst cs. destruct sp; [|rewrite andb_false_r in K; discriminate]. subst s. cbn [pan_size] in HF. lia. }
  assert (Lb' : length b' = length b).
  { subst b'. rewrite patch_length_fits; [exact Lb1|]. intros K. subst cd. destruct dp; [|rewrite andb_false_r in K; discriminate]. cbn [pan_size] in HF. lia. }
  assert (NTH : forall i, i <> 0 -> nth i b' 0%N =
    (if cd && (i =? d)%nat then p_pan_id P mod 256 else if cd && (i =? d + 1)%nat then p_pan_id P / 256 else
     if cs && (i =? s)%nat then p_pan_id P mod 256 else if cs && (i =? s + 1)%nat then p_pan_id P / 256 else nth i b 0)%N).
  { intros i Hi. subst b'.
    assert (N1 : nth i (patch cs s (p_pan_id P) b1) 0%N = (if cs && (i =? s)%nat then p_pan_id P mod 256 else if cs && (i =? s + 1)%nat then p_pan_id P / 256 else nth i b 0)%N).
    { destruct cs eqn:EC; cbn [andb]; [|cbn [patch]; apply S, Hi]. rewrite patch_nth; [rewrite S by exact Hi; reflexivity|]. rewrite L.
      subst cs. destruct sp; [|rewrite andb_false_r in EC; discriminate]. subst s. cbn [pan_size] in HF. lia. }
    destruct cd eqn:EC; cbn [andb]; [|exact N1]. rewrite patch_nth, N1; [reflexivity|]. rewrite Lb1. subst cd. destruct dp; [|rewrite andb_false_r in EC; discriminate]. cbn [pan_size] in HF. lia. }
  assert (KEEP : forall i, 0 < i -> (i < d \/ d + pan_size dp <= i < s \/ s + pan_size sp <= i) -> nth i b' 0%N = nth i b 0%N).
  { intros i Hi HR. rewrite NTH by lia.
    assert (C1 : cd = true -> pan_size dp = 2) by (subst cd; destruct dp; [reflexivity|rewrite andb_false_r; discriminate]).
    assert (C2 : cs = true -> pan_size sp = 2) by (subst cs; destruct sp; [reflexivity|rewrite andb_false_r; discriminate]).
    assert (X : d + pan_size dp <= s) by (subst s; lia).
    destruct cd; [specialize (C1 eq_refl)|clear C1]; (destruct cs; [specialize (C2 eq_refl)|clear C2]); cbn [andb];
    repeat match goal with |- context [(?a =? ?b)%nat] => destruct (Nat.eqb_spec a b); [exfalso; lia|] end; reflexivity. }
  assert (N0 : nth 0 b' 0%N = nth 0 b1 0%N).
  { subst b'.
    assert (F1 : cs = true -> s + 2 <= length b1) by (intros K; subst cs; destruct sp; [|rewrite andb_false_r in K; discriminate]; subst s; cbn [pan_size] in HF; lia).
    assert (F2 : cd = true -> d + 2 <= length (patch cs s (p_pan_id P) b1)) by (intros K; subst cd; destruct dp; [|rewrite andb_false_r in K; discriminate]; cbn [pan_size] in HF; lia).
    assert (X : 2 <= s) by (subst s; lia).
    assert (P1 : nth 0 (patch cs s (p_pan_id P) b1) 0%N = nth 0 b1 0%N).
    { destruct cs; [|reflexivity]. rewrite patch_nth by (apply F1; reflexivity). destruct (Nat.eqb_spec 0 s), (Nat.eqb_spec 0 (s + 1)); (exfalso; lia) || reflexivity. }
    rewrite <- P1. destruct cd; [|reflexivity]. rewrite patch_nth by (apply F2; reflexivity). destruct (Nat.eqb_spec 0 d), (Nat.eqb_spec 0 (d + 1)); (exfalso; lia) || reflexivity. }
  destruct HA as (HFC & [HM HM'] & HS & HK). fold d in HM. split.
  - split; [|split; [|split]].
    + apply (fc_is_app b1); [|apply (only_ar_control b b1); [repeat split; assumption|exact HFC]].
      apply firstn_same; [lia|lia|]. intros [|[|i]] Hi; [symmetry; exact N0|rewrite KEEP, S by lia; reflexivity|lia].
    + change (mhr_size (with_ack_request ar r)) with d. lia.
    + exact HS.
    + exact HK.
  - split; [exact Lb'|]. split; [apply nth_seq_octets; [exact HM|exact Lb'|]; intros i -> H3; apply KEEP; subst d; lia|]. split.
    + intros dp' sp' HL' HF'. destruct (c07_unique r _ _ _ _ HL' HL) as [-> ->]. cbn zeta. fold d. fold s. split; [|split; [|split; [|split]]].
      * apply pan_replaced. intros ->. rewrite !NTH by lia. subst cd. rewrite andb_true_r. rewrite !Nat.eqb_refl.
        assert (X : d + 2 <= s) by (subst s; cbn [pan_size]; lia).
        destruct (overwrite_dst_pan_id cfg); cbn [andb]; [destruct (Nat.eqb_spec (d + 1) d); [lia|split; reflexivity]|].
        destruct (Nat.eqb_spec d s), (Nat.eqb_spec d (s + 1)), (Nat.eqb_spec (d + 1) s), (Nat.eqb_spec (d + 1) (s + 1)); try (exfalso; lia). rewrite !andb_false_r. split; reflexivity.
      * apply addr_same; [lia|exact Lb'|]. intros i Hi. apply KEEP; [lia|]. subst s. lia.
      * apply pan_replaced. intros ->. rewrite !NTH by lia. subst cs. rewrite andb_true_r. rewrite !Nat.eqb_refl.
        assert (X : cd = true -> d + 2 <= s) by (subst cd s; destruct dp; [cbn [pan_size]; lia|rewrite andb_false_r; discriminate]).
        assert (C : cd && (s =? d)%nat = false /\ cd && (s =? d + 1)%nat = false /\ cd && (s + 1 =? d)%nat = false /\ cd && (s + 1 =? d + 1)%nat = false).
        { destruct cd; [|auto]. specialize (X eq_refl). destruct (Nat.eqb_spec s d), (Nat.eqb_spec s (d + 1)), (Nat.eqb_spec (s + 1) d), (Nat.eqb_spec (s + 1) (d + 1)); try (exfalso; lia); auto. }
        destruct C as (-> & -> & -> & ->). destruct (overwrite_src_pan_id cfg); cbn [andb]; [destruct (Nat.eqb_spec (s + 1) s); [lia|]|]; split; reflexivity.
      * apply addr_same; [subst s; lia|exact Lb'|]. intros i Hi. apply KEEP; lia.
      * apply skipn_same; [unfold layout_size; lia|exact Lb'|]. intros i Hi. unfold layout_size in Hi. apply KEEP; [lia|]. subst s. lia.
    + split; [intros HNA; specialize (HNA _ _ HL); unfold layout_size in HNA; fold d in HNA; lia|]. rewrite N0. exact (B 7%N eq_refl).
Qed.
Lemma edited_none P cfg r b b1 ar : acceptable b r -> only_ar_changed b b1 0 ar -> no_addressing r b ->
  acceptable b1 (with_ack_request ar r) /\ sent_as P cfg r b b1.
Proof.
  intros (HFC & [HM HM'] & HS & HK) (L & S & O & B) HN. split.
  - split; [apply (only_ar_control b b1); [repeat split; assumption|exact HFC]|]. split; [change (mhr_size (with_ack_request ar r)) with (mhr_size r); lia|]. split; assumption.
  - split; [exact L|]. split; [apply nth_seq_octets; [exact HM|exact L|]; intros i -> _; apply S; lia|]. split.
    + intros dp sp HL HF. specialize (HN _ _ HL). lia.
    + split; [intros _; pose proof (fc_is_len _ _ HFC); apply skipn_same; [lia|exact L|]; intros i Hi; apply S; lia|]. exact (B 7%N eq_refl).
Qed.

(** both edits of a buffer *)
Lemma sent P cfg dv buf o b r : (p_pan_id P < 65536)%N -> dev_ok dv -> steady dv -> octets buf -> holds dv buf o b -> acceptable b r ->
  exists w buf1 buf2 b' ar, set_ack_request_if_possible cfg dv buf = Done (TxOk w, buf1) /\ overwrite_pan_id P cfg dv buf1 = Done (TxOk tt, buf2) /\
    octets buf2 /\ length buf2 = length buf /\ holds dv buf2 o b' /\ acceptable b' (with_ack_request ar r) /\ sent_as P cfg r b b' /\
    (ack_requestable cfg r b -> ar = true /\ w = match sequence_number r b with Some s => Some (s, N.of_nat (length b)) | None => None end) /\
    (~ ack_requestable cfg r b -> ar = fr_ack_request r /\ w = None).
Proof.
  intros HPAN HDV HST HO HH HA. destruct (set_ack_accepts cfg dv buf o b r HDV HO HH HA) as [S1 S2].
  assert (HHd := HH). destruct HH as (n & E & Eb). assert (HR := HDV _ _ _ E).
  assert (Hn : 0 < n). { pose proof (fc_is_len _ _ (proj1 HA)) as K. rewrite Eb, window_length in K by exact HR. lia. }
  assert (Lb : length b = n) by (rewrite Eb; apply window_length, HR).
  assert (HOb : octets b) by (rewrite Eb; apply window_octets, HO).
  assert (FIRST : exists w buf1 ar, set_ack_request_if_possible cfg dv buf = Done (TxOk w, buf1) /\ octets buf1 /\ length buf1 = length buf /\
    dev_data dv buf1 = Some (o, n) /\ only_ar_changed b (window buf1 o n) 0 ar /\
    (ack_requestable cfg r b -> ar = true /\ w = match sequence_number r b with Some s => Some (s, N.of_nat (length b)) | None => None end) /\
    (~ ack_requestable cfg r b -> ar = fr_ack_request r /\ w = None)).
  { destruct (ack_requestable_dec cfg b r HA) as [HQ|HQ].
    - destruct (S1 HQ) as (buf1 & E1 & C1). exists (match sequence_number r b with Some s => Some (s, N.of_nat (length b)) | None => None end), buf1, true. split; [exact E1|].
      split; [exact (only_ar_octets _ _ _ _ HO C1)|]. split; [apply C1|]. destruct (only_ar_window buf buf1 o n true HR Hn C1) as (W1 & W2 & W3).
      split; [apply (HST buf); [exact E|apply C1|exact W2|exact W3]|]. rewrite Eb. split; [exact W1|]. rewrite <- Eb. split; [auto|contradiction].
    - exists None, buf, (fr_ack_request r). split; [exact (S2 HQ)|]. split; [exact HO|]. split; [reflexivity|]. split; [exact E|].
      rewrite <- Eb. split; [apply only_ar_refl; [exact HOb|apply HA]|]. split; [contradiction|auto]. }
  destruct FIRST as (w & buf1 & ar & E1 & HO1 & L1 & K2 & C1 & HW). assert (HH1 : holds dv buf1 o (window buf1 o n)) by (exists n; split; [exact K2|reflexivity]). set (b1 := window buf1 o n) in *.
  assert (Lb1 : length b1 = n) by (destruct C1 as [K _]; lia).
  assert (HA1 : acceptable b1 (with_ack_request ar r)).
  { destruct HA as (HFC & HM & HS & HK). split; [apply (only_ar_control b b1); assumption|]. change (mhr_size (with_ack_request ar r)) with (mhr_size r). split; [lia|]. split; assumption. }
  destruct (overwrite_accepts P cfg dv buf1 o b1 _ HPAN HDV HO1 HH1 HA1) as [O1 O2].
  destruct (dst_view b r HA) as (d & HD & _). inversion HD as [dp sp L HL|HNA]; subst d.
  - specialize (O1 dp sp L). rewrite Lb1 in O1. rewrite Lb in HL. specialize (O1 HL). cbn [with_ack_request fr_dst_addressing_mode] in O1.
    change (mhr_size (with_ack_request ar r)) with (mhr_size r) in O1. rewrite <- Lb in HL.
    set (cs := overwrite_src_pan_id cfg && sp) in *. set (cd := overwrite_dst_pan_id cfg && dp) in *.
    replace (o + mhr_size r + pan_size dp + addr_size (fr_dst_addressing_mode r)) with (o + (mhr_size r + pan_size dp + addr_size (fr_dst_addressing_mode r))) in O1 by lia.
    unfold layout_size in HL.
    destruct (patch_window cs (mhr_size r + pan_size dp + addr_size (fr_dst_addressing_mode r)) (p_pan_id P) buf1 o n) as (A1 & A2 & A3 & A4); [lia| |].
    { intros K. subst cs. destruct sp; [|rewrite andb_false_r in K; discriminate]. cbn [pan_size] in HL. lia. }
    set (buf2 := patch cs (o + (mhr_size r + pan_size dp + addr_size (fr_dst_addressing_mode r))) (p_pan_id P) buf1) in *.
    destruct (patch_window cd (mhr_size r) (p_pan_id P) buf2 o n) as (B1 & B2 & B3 & B4); [lia| |].
    { intros K. subst cd. destruct dp; [|rewrite andb_false_r in K; discriminate]. cbn [pan_size] in HL. lia. }
    destruct (edited P cfg r b b1 ar dp sp HA C1 L) as [EA ES]; [exact HL|]. cbn zeta in EA, ES. fold cs cd in EA, ES.
    exists w, buf1, (patch cd (o + mhr_size r) (p_pan_id P) buf2). eexists. exists ar. split; [exact E1|]. split; [exact O1|].
    split; [apply patch_octets, patch_octets, HO1; exact HPAN|]. split; [lia|]. split.
    + exists n. split; [|reflexivity].
      apply (HST buf1); [exact K2|lia|congruence|congruence].
    + rewrite B1, A1. fold b1. split; [exact EA|]. split; [exact ES|exact HW].
  - assert (HN1 : no_addressing (with_ack_request ar r) b1) by (intros dp sp L; rewrite Lb1, <- Lb; exact (HNA dp sp L)).
    destruct (edited_none P cfg r b b1 ar HA C1 HNA) as [EA ES].
    exists w, buf1, buf1, b1, ar. split; [exact E1|]. split; [exact (O2 HN1)|]. split; [exact HO1|]. split; [exact L1|]. split; [exact HH1|]. split; [exact EA|]. split; [exact ES|exact HW].
Qed.
