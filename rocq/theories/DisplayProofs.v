(** DisplayProofs.v -- facts about the texts of Display.v. *)
From Coq Require Import String Ascii.
From Verif Require Import Base BaseProofs Spec BitProofs FrameControl Addressing AddressText SpecAddressText AddressTextProofs Macro Ie IeContent Display SpecDisplay.
Local Open Scope N_scope.

(** ** numerals *)
Lemma hex_char_low d : d < 16 -> low_digit (hex_char d) d.
Proof. intros H. unfold hex_char, low_digit. destruct (N.ltb_spec d 10); [left|right]; lia. Qed.
Lemma low_digit_fun c d d' : low_digit c d -> low_digit c d' -> d = d'.
Proof. unfold low_digit. lia. Qed.
Lemma low_digit_range c d : low_digit c d -> 48 <= c <= 57 \/ 97 <= c <= 102.
Proof. unfold low_digit. lia. Qed.

Lemma digits_numeral base : 2 <= base <= 16 -> forall f n, n < 2 ^ N.of_nat (S f) -> numeral base (digits base (S f) n) n.
Proof.
  intros HB. induction f as [|f IH]; intros n Hn.
  - change (2 ^ N.of_nat 1) with 2 in Hn. cbn [digits]. destruct (N.ltb_spec n base); [|lia].
    apply num_one; [apply hex_char_low; lia|assumption].
  - change (digits base (S (S f)) n) with (if n <? base then [hex_char n] else digits base (S f) (n / base) ++ [hex_char (n mod base)]).
    destruct (N.ltb_spec n base) as [L|L]; [apply num_one; [apply hex_char_low; lia|assumption]|].
    assert (M : n mod base < base) by (apply N.mod_lt; lia).
    rewrite (N.div_mod n base) at 3 by lia. apply num_snoc; [|apply N.div_str_pos; lia|apply hex_char_low; lia|exact M].
    apply IH. apply N.div_lt_upper_bound; [lia|]. rewrite Nat2N.inj_succ, N.pow_succ_r in Hn by lia. nia.
Qed.
Lemma fuel_enough n : n < 2 ^ N.of_nat (fuel_for n).
Proof.
  unfold fuel_for. rewrite Nat2N.inj_succ, N2Nat.id. destruct (N.eq_dec n 0) as [->|H]; [reflexivity|]. apply N.log2_spec. lia.
Qed.
Lemma dec_numeral n : numeral 10 (dec n) n.
Proof. apply digits_numeral; [lia|apply fuel_enough]. Qed.
Lemma hex_numeral n : numeral 16 (hex n) n.
Proof. apply digits_numeral; [lia|apply fuel_enough]. Qed.

Lemma numeral_nonempty base s v : numeral base s v -> s <> [].
Proof. intros []; [discriminate|]. intros K. apply app_eq_nil in K. destruct K. discriminate. Qed.
Lemma numeral_fun base s v : numeral base s v -> forall v', numeral base s v' -> v = v'.
Proof.
  induction 1 as [c d HD HB|s v c d HN IH HV HD HB]; intros v' H'; inversion H' as [c' d' HD' HB' E|s' w c' d' HN' HV' HD' HB' E]; subst.
  - eapply low_digit_fun; eassumption.
  - destruct s' as [|x [|]]; try discriminate. apply numeral_nonempty in HN'. contradiction.
  - destruct s as [|x [|]]; try discriminate. apply numeral_nonempty in HN. contradiction.
  - apply app_inj_tail in E. destruct E as [-> ->]. rewrite (IH _ HN'), (low_digit_fun _ _ _ HD HD'). reflexivity.
Qed.
Lemma numeral_chars base s v : numeral base s v -> Forall (fun c => 48 <= c <= 57 \/ 97 <= c <= 102) s.
Proof.
  induction 1 as [c d HD HB|s v c d HN IH HV HD HB].
  - constructor; [|constructor]. apply low_digit_range in HD. exact HD.
  - apply Forall_app. split; [exact IH|]. constructor; [|constructor]. apply low_digit_range in HD. exact HD.
Qed.
Lemma numeral_free base s v c : numeral base s v -> c < 48 \/ 58 <= c <= 96 \/ 103 <= c -> ~ In c s.
Proof. intros H HC K. apply numeral_chars in H. rewrite Forall_forall in H. apply H in K. lia. Qed.
Lemma dec_inj a b : dec a = dec b -> a = b.
Proof. intros E. apply (numeral_fun 10 (dec a)); [apply dec_numeral|rewrite E; apply dec_numeral]. Qed.
Lemma hex_inj a b : hex a = hex b -> a = b.
Proof. intros E. apply (numeral_fun 16 (hex a)); [apply hex_numeral|rewrite E; apply hex_numeral]. Qed.

(** ** cutting a text at a character *)
Lemma cut_at_char (c : N) p r p' r' : ~ In c p -> ~ In c p' -> p ++ c :: r = p' ++ c :: r' -> p = p' /\ r = r'.
Proof.
  revert p'. induction p as [|x p IH]; intros [|y p'] H H' E; cbn [app] in E.
  - injection E as ->. split; reflexivity.
  - injection E as -> _. exfalso. apply H'. left. reflexivity.
  - injection E as -> _. exfalso. apply H. left. reflexivity.
  - injection E as -> E. destruct (IH p') as [-> ->]; [intros K; apply H; right; exact K|intros K; apply H'; right; exact K|exact E|].
    split; reflexivity.
Qed.

(** ** slices *)
Lemma commas_shown base f (HF : forall n, numeral base (f n) n) l : l <> [] -> shown_list base (commas (map f l)) l.
Proof.
  induction l as [|x [|y l] IH]; intros H; [contradiction| |].
  - apply sl_one, HF.
  - cbn [map commas]. apply sl_more; [apply HF|]. apply IH. discriminate.
Qed.
Lemma slice_shown base f (HF : forall n, numeral base (f n) n) l : shown_slice base (txt "[" ++ commas (map f l) ++ txt "]") l.
Proof.
  destruct l as [|x l]; [left; split; reflexivity|]. right. eexists. split; [reflexivity|]. apply commas_shown; [exact HF|discriminate].
Qed.
Lemma shown_list_free base s v c : shown_list base s v -> (c < 48 /\ c <> 44 /\ c <> 32) \/ 58 <= c <= 96 \/ 103 <= c -> ~ In c s.
Proof.
  induction 1 as [s v HN|s v r vs HN _ IH]; intros HC K; [apply (numeral_free _ _ _ _ HN) in K; [exact K|lia]|].
  apply in_app_or in K. destruct K as [K|K]; [apply (numeral_free _ _ _ _ HN) in K; [exact K|lia]|].
  cbn [txt app] in K. destruct K as [K|[K|K]]; [cbv in K; lia|cbv in K; lia|]. apply IH in K; [exact K|exact HC].
Qed.
Lemma shown_list_fun base s v : shown_list base s v -> forall v', shown_list base s v' -> v = v'.
Proof.
  induction 1 as [s v HN|s v r vs HN HS IH]; intros v' H'; inversion H' as [s' w HN' E|s' w r' ws HN' HS' E]; subst.
  - rewrite (numeral_fun _ _ _ HN _ HN'). reflexivity.
  - exfalso. apply (numeral_free _ _ _ 44 HN); [lia|]. apply in_or_app. right. left. reflexivity.
  - exfalso. apply (numeral_free _ _ _ 44 HN'); [lia|]. apply in_or_app. right. left. reflexivity.
  - change (s' ++ 44 :: 32 :: r' = s ++ 44 :: 32 :: r) in E.
    apply cut_at_char in E; [|apply (numeral_free _ _ _ 44 HN'); lia|apply (numeral_free _ _ _ 44 HN); lia].
    destruct E as [-> E]. injection E as ->. rewrite (numeral_fun _ _ _ HN _ HN'), (IH _ HS'). reflexivity.
Qed.
Lemma shown_slice_fun base t v v' : shown_slice base t v -> shown_slice base t v' -> v = v'.
Proof.
  assert (NE : forall s v, shown_list base s v -> s <> []).
  { intros s w [s' w' HN|s' w' r ws HN _]; apply numeral_nonempty in HN; [exact HN|]. intros K. apply app_eq_nil in K. destruct K. contradiction. }
  intros [[-> ->]|(s & -> & H)] [[-> E]|(s' & E & H')].
  - reflexivity.
  - exfalso. apply NE in H'. destruct s' as [|x s']; [contradiction|]. cbn [txt app] in E. injection E as E1 E2. destruct s'; discriminate.
  - exfalso. apply NE in H. destruct s as [|x s]; [contradiction|]. cbn [txt app] in E. injection E as E1 E2. destruct s; discriminate.
  - cbn [txt app] in E. injection E as E. apply app_inv_tail in E. subst s'. eapply shown_list_fun; eassumption.
Qed.
Lemma dbg_slice_inj a b : dbg_slice a = dbg_slice b -> a = b.
Proof. intros E. eapply (shown_slice_fun 10); [apply (slice_shown 10 dec dec_numeral)|]. fold (dbg_slice a). rewrite E. apply (slice_shown 10 dec dec_numeral). Qed.
Lemma dbg_slice_hex_inj a b : dbg_slice_hex a = dbg_slice_hex b -> a = b.
Proof. intros E. eapply (shown_slice_fun 16); [apply (slice_shown 16 hex hex_numeral)|]. fold (dbg_slice_hex a). rewrite E. apply (slice_shown 16 hex hex_numeral). Qed.

(** ** durations *)
Local Open Scope Z_scope.
Lemma nearest_spec tie p q : 0 < q -> Z.abs (2 * (q * nearest tie p q - p)) <= q.
Proof.
  intros HQ. unfold nearest. pose proof (Z.div_mod p q ltac:(lia)) as E. pose proof (Z.mod_pos_bound p q HQ) as B.
  set (d := p / q) in *. set (r := p mod q) in *. clearbody d r.
  destruct (Z.ltb_spec (2 * r) q); [nia|]. destruct (Z.ltb_spec q (2 * r)); [nia|]. destruct (tie d); nia.
Qed.
Lemma nearest_nonneg tie p q : 0 < q -> 0 <= p -> 0 <= nearest tie p q.
Proof.
  intros HQ HP. unfold nearest. pose proof (Z.div_pos p q HP HQ). destruct (_ <? _); [assumption|]. destruct (_ <? _); [lia|]. destruct (tie _); lia.
Qed.
Lemma nearest_exact tie p q : 0 < q -> nearest tie (q * p) q = p.
Proof.
  intros HQ. unfold nearest. rewrite (Z.mul_comm q p), Z.div_mul, Z.mod_mul by lia. destruct (Z.ltb_spec (2 * 0) q); [reflexivity|lia].
Qed.

(** the exponent chosen by [f32_round]: 2^k <= a/q < 2^(k+1), here with the positive and negative parts of k *)
Definition expo (a q : Z) : Z :=
  let k0 := Z.log2 a - Z.log2 q in if (a * 2 ^ Z.max 0 (- k0) <? q * 2 ^ Z.max 0 k0) then k0 - 1 else k0.
Lemma pow_split a q j : 0 <= j -> a * 2 ^ Z.max 0 (- j) = a /\ q * 2 ^ Z.max 0 j = q * 2 ^ j.
Proof. intros H. rewrite !Z.max_l, Z.max_r by lia. rewrite Z.pow_0_r. lia. Qed.
(** the lower bound, for nonnegative and negative exponents *)
Lemma expo_lower a q : 0 < a -> 0 < q -> let k := expo a q in q * 2 ^ Z.max 0 k <= a * 2 ^ Z.max 0 (- k).
Proof.
  intros HA HQ. cbv zeta. unfold expo. destruct (Z.ltb_spec (a * 2 ^ Z.max 0 (- (Z.log2 a - Z.log2 q))) (q * 2 ^ Z.max 0 (Z.log2 a - Z.log2 q))) as [L|L]; [|exact L].
  pose proof (Z.log2_spec a HA) as [A1 A2]. pose proof (Z.log2_spec q HQ) as [Q1 Q2].
  pose proof (Z.log2_nonneg a) as NA. pose proof (Z.log2_nonneg q) as NQ. set (la := Z.log2 a) in *. set (lq := Z.log2 q) in *. clearbody la lq.
  destruct (Z.le_gt_cases 0 (la - lq - 1)) as [K|K].
  - rewrite (Z.max_r 0 (la - lq - 1)), (Z.max_l 0 (- (la - lq - 1))) by lia. rewrite Z.pow_0_r.
    assert (q * 2 ^ (la - lq - 1) <= 2 ^ (lq + 1) * 2 ^ (la - lq - 1)) by (apply Z.mul_le_mono_nonneg_r; [apply Z.pow_nonneg; lia|unfold Z.succ in Q2; lia]).
    rewrite <- Z.pow_add_r in H by lia. replace (lq + 1 + (la - lq - 1)) with la in H by lia. lia.
  - rewrite (Z.max_l 0 (la - lq - 1)), (Z.max_r 0 (- (la - lq - 1))) by lia. rewrite Z.pow_0_r.
    assert (2 ^ la * 2 ^ (- (la - lq - 1)) <= a * 2 ^ (- (la - lq - 1))) by (apply Z.mul_le_mono_nonneg_r; [apply Z.pow_nonneg; lia|lia]).
    rewrite <- Z.pow_add_r in H by lia. replace (la + - (la - lq - 1)) with (Z.succ lq) in H by lia. lia.
Qed.
Lemma expo_one a : 0 < a -> expo a 1 = Z.log2 a.
Proof.
  intros HA. unfold expo. change (Z.log2 1) with 0. rewrite Z.sub_0_r. pose proof (Z.log2_nonneg a). pose proof (Z.log2_spec a HA).
  rewrite (Z.max_l 0 (- Z.log2 a)), Z.max_r by lia. rewrite Z.pow_0_r. destruct (Z.ltb_spec (a * 1) (1 * 2 ^ Z.log2 a)); lia.
Qed.
Lemma f32_round_eq p q : p <> 0 -> f32_round p q =
  let e := expo (Z.abs p) q - 23 in
  (Z.sgn p * nearest Z.odd (Z.abs p * 2 ^ Z.max 0 (- e)) (q * 2 ^ Z.max 0 e) * 2 ^ Z.max 0 e, 2 ^ Z.max 0 (- e)).
Proof. intros H. unfold f32_round. destruct (Z.eqb_spec p 0); [contradiction|]. reflexivity. Qed.

(** integers up to 2^24 are exact in f32 *)
Lemma f32_exact us : us <> 0 -> Z.abs us <= 2 ^ 24 -> exists j, 0 <= j /\ f32_round us 1 = (us * 2 ^ j, 2 ^ j).
Proof.
  intros H0 HB. rewrite f32_round_eq by exact H0. rewrite expo_one by lia. cbv zeta.
  assert (SG : forall x, Z.sgn us * (Z.abs us * x) = us * x) by (intros x; rewrite Z.mul_assoc, (Z.mul_comm _ (Z.abs us)), Z.abs_sgn; reflexivity).
  destruct (Z.eq_dec (Z.abs us) (2 ^ 24)) as [E|E].
  - exists 0. split; [lia|]. rewrite E. change (Z.log2 (2 ^ 24) - 23) with 1.
    change (nearest Z.odd (2 ^ 24 * 2 ^ Z.max 0 (- (1))) (1 * 2 ^ Z.max 0 1)) with (2 ^ 23).
    change (2 ^ Z.max 0 1) with 2. change (2 ^ Z.max 0 (- (1))) with (2 ^ 0). f_equal.
    rewrite <- Z.mul_assoc. change (2 ^ 23 * 2) with (2 ^ 24). rewrite <- E. rewrite Z.mul_comm, Z.abs_sgn. lia.
  - assert (L : Z.log2 (Z.abs us) < 24) by (apply Z.log2_lt_pow2; lia).
    exists (23 - Z.log2 (Z.abs us)). split; [lia|]. rewrite (Z.max_l 0 (Z.log2 (Z.abs us) - 23)), (Z.max_r 0) by lia.
    rewrite Z.pow_0_r. change (1 * 1) with 1. rewrite <- (Z.mul_1_l (Z.abs us * 2 ^ - (Z.log2 (Z.abs us) - 23))), nearest_exact by lia.
    replace (- (Z.log2 (Z.abs us) - 23)) with (23 - Z.log2 (Z.abs us)) by lia. rewrite SG. f_equal. lia.
Qed.

Lemma abs_le x y : Z.abs x <= y -> - y <= x <= y.
Proof. lia. Qed.
(** a thousandth of it is off by less than a thousandth *)
Lemma f32_thousandth us j : us <> 0 -> Z.abs us <= 2 ^ 24 -> 0 <= j ->
  exists m d, 512 <= d /\ 0 <= m /\ f32_round (us * 2 ^ j) (2 ^ j * 1000) = (Z.sgn us * m, d) /\ Z.abs (1000 * m - Z.abs us * d) <= 500.
Proof.
  intros H0 HB HJ. pose proof (Z.pow_pos_nonneg 2 j ltac:(lia) HJ) as PJ.
  rewrite f32_round_eq by nia.
  assert (EA : Z.abs (us * 2 ^ j) = Z.abs us * 2 ^ j) by (rewrite Z.abs_mul, (Z.abs_eq (2 ^ j)) by lia; reflexivity).
  assert (ES : Z.sgn (us * 2 ^ j) = Z.sgn us) by (rewrite Z.sgn_mul, (Z.sgn_pos (2 ^ j)) by lia; lia).
  rewrite EA, ES. set (a := Z.abs us) in *. assert (HA : 0 < a) by (unfold a; lia). clearbody a.
  pose proof (expo_lower (a * 2 ^ j) (2 ^ j * 1000) ltac:(nia) ltac:(nia)) as EL. cbv zeta in *. set (k := expo (a * 2 ^ j) (2 ^ j * 1000)) in *. clearbody k.
  assert (K : k <= 14).
  { destruct (Z.le_gt_cases k 14) as [K|K]; [exact K|exfalso]. rewrite Z.max_r, Z.max_l, Z.pow_0_r in EL by lia.
    pose proof (Z.pow_le_mono_r 2 15 k ltac:(lia) ltac:(lia)) as P. change (2 ^ 15) with 32768 in P. change (2 ^ 24) with 16777216 in HB. nia. }
  rewrite (Z.max_l 0 (k - 23)), (Z.max_r 0) by lia. rewrite Z.pow_0_r, !Z.mul_1_r.
  pose proof (nearest_spec Z.odd (a * 2 ^ j * 2 ^ (- (k - 23))) (2 ^ j * 1000) ltac:(nia)) as NS.
  pose proof (nearest_nonneg Z.odd (a * 2 ^ j * 2 ^ (- (k - 23))) (2 ^ j * 1000) ltac:(nia)) as NN.
  assert (PD : 512 <= 2 ^ (- (k - 23))) by (pose proof (Z.pow_le_mono_r 2 9 (- (k - 23)) ltac:(lia) ltac:(lia)) as P; exact P).
  set (m := nearest Z.odd (a * 2 ^ j * 2 ^ (- (k - 23))) (2 ^ j * 1000)) in *. clearbody m. set (d := 2 ^ (- (k - 23))) in *. clearbody d.
  exists m, d. split; [exact PD|]. split; [apply NN; nia|]. split; [reflexivity|]. set (c := 2 ^ j) in *. clearbody c. clear - NS PJ.
  replace (2 * (c * 1000 * m - a * c * d)) with (c * (2 * (1000 * m - a * d))) in NS by ring.
  rewrite Z.abs_mul, (Z.abs_eq c) in NS by lia. apply Z.mul_le_mono_pos_l in NS; [|exact PJ]. lia.
Qed.

Lemma fmt_2_shows tie x : 0 < snd x -> shows_ms (fmt_2 tie x ++ txt "ms") (fst x <? 0)%Z (Z.to_N (nearest tie (100 * Z.abs (fst x)) (snd x))).
Proof.
  intros H. unfold fmt_2, shows_ms. set (h := Z.to_N _). clearbody h.
  exists (dec (h / 100)), (hex_char (h / 10 mod 10)), (hex_char (h mod 10)), (h / 100)%N, (h / 10 mod 10)%N, (h mod 10)%N.
  pose proof (N.mod_lt (h / 10) 10 ltac:(lia)) as M1. pose proof (N.mod_lt h 10 ltac:(lia)) as M2.
  split; [rewrite <- !app_assoc; reflexivity|]. split; [apply dec_numeral|]. split; [apply hex_char_low; lia|]. split; [apply hex_char_low; lia|].
  split; [exact M1|]. split; [exact M2|]. rewrite (N.div_mod h 10) at 1 by lia. rewrite (N.div_mod (h / 10) 10) at 1 by lia.
  rewrite N.div_div by lia. change (10 * 10)%N with 100%N. lia.
Qed.

Lemma us_display_close tie us : Z.abs us <= 2 ^ 24 ->
  exists h, shows_ms (us_display tie us) (us <? 0) h /\ Z.abs (10 * Z.of_N h - Z.abs us) <= 5.
Proof.
  intros HB. destruct (Z.eq_dec us 0) as [->|H0].
  - exists 0%N. split; [|cbn; lia]. exact (fmt_2_shows tie (0, 1) ltac:(cbn; lia)).
  - destruct (f32_exact us H0 HB) as (j & HJ & EJ). destruct (f32_thousandth us j H0 HB HJ) as (m & d & HD & HM & E & C).
    unfold us_display. rewrite EJ. cbn [fst snd]. rewrite E.
    pose proof (fmt_2_shows tie (Z.sgn us * m, d) ltac:(cbn [snd]; lia)) as S. cbn [fst snd] in S.
    set (h := nearest tie (100 * Z.abs (Z.sgn us * m)) d) in S.
    pose proof (nearest_spec tie (100 * Z.abs (Z.sgn us * m)) d ltac:(lia)) as NS.
    pose proof (nearest_nonneg tie (100 * Z.abs (Z.sgn us * m)) d ltac:(lia) ltac:(lia)) as NN. fold h in NS, NN. clearbody h.
    assert (EM : Z.abs (Z.sgn us * m) = m). { rewrite Z.abs_mul, (Z.abs_eq m) by lia. destruct us; [contradiction| |]; cbn [Z.sgn Z.abs]; lia. }
    rewrite EM in NS. exists (Z.to_N h). split.
    + assert (SG : (Z.sgn us * m <? 0) = (us <? 0)).
      { assert (0 < m). { change (2 ^ 24) with 16777216 in HB. assert (512 <= Z.abs us * d) by nia. destruct (Z.eq_dec m 0); [subst m|lia]. rewrite Z.mul_0_r in C. lia. }
        destruct us; [contradiction| |]; cbn [Z.sgn]; [destruct (Z.ltb_spec (1 * m) 0)|destruct (Z.ltb_spec (-1 * m) 0)]; reflexivity || lia. }
      rewrite <- SG. exact S.
    + rewrite Z2N.id by exact NN. set (a := Z.abs us) in *. clearbody a. clear - HD NS C.
      assert (B : Z.abs (10 * h - a) * d < 6 * d); [|nia].
      rewrite <- (Z.abs_eq d) at 1 by lia. rewrite <- Z.abs_mul. replace ((10 * h - a) * d) with (5 * (2 * (d * h - 100 * m)) + (1000 * m - a * d)) by ring. lia.
Qed.
