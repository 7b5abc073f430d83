(** AddressTextProofs.v -- proofs of C06. *)
From Verif Require Import Base BaseProofs Addressing AddressText SpecAddressText.

Lemma hex_digit_spec c d : hex_digit c = Some d <-> digit_value c d.
Proof.
  unfold hex_digit. split.
  - destruct (N.leb_spec 48 c), (N.leb_spec c 57); simpl.
    { intros E; injection E as <-. replace c with (48 + (c - 48))%N at 1 by lia. constructor. lia. }
    all: destruct (N.leb_spec 97 c), (N.leb_spec c 102); simpl; try (intros E; injection E as <-;
      replace c with (97 + ((c - 87) - 10))%N at 1 by lia; constructor; lia); try lia.
    all: destruct (N.leb_spec 65 c), (N.leb_spec c 70); simpl; try discriminate; try (intros E; injection E as <-;
      replace c with (65 + ((c - 55) - 10))%N at 1 by lia; constructor; lia); try lia.
  - intros H; destruct H as [d H|d H|d H].
    + destruct (N.leb_spec 48 (48 + d)), (N.leb_spec (48 + d) 57); simpl; try lia. f_equal. lia.
    + destruct (N.leb_spec 48 (97 + (d - 10))), (N.leb_spec (97 + (d - 10)) 57); simpl; try lia.
      destruct (N.leb_spec 97 (97 + (d - 10))), (N.leb_spec (97 + (d - 10)) 102); simpl; try lia. f_equal. lia.
    + destruct (N.leb_spec 48 (65 + (d - 10))), (N.leb_spec (65 + (d - 10)) 57); simpl; try lia.
      destruct (N.leb_spec 97 (65 + (d - 10))), (N.leb_spec (65 + (d - 10)) 102); simpl; try lia.
      destruct (N.leb_spec 65 (65 + (d - 10))), (N.leb_spec (65 + (d - 10)) 70); simpl; try lia. f_equal. lia.
Qed.

Lemma digit_value_lt c d : digit_value c d -> (d < 16)%N.
Proof. intros []; lia. Qed.

Lemma digit_not_special c d : digit_value c d -> c <> 58%N /\ c <> 43%N /\ c <> 45%N.
Proof. intros []; lia. Qed.

(** ** Digit strings *)
(** value of a digit string appended to an accumulator *)
Inductive digits_from : N -> list N -> N -> Prop :=
| df_nil a : digits_from a [] a
| df_cons a c d r v : digit_value c d -> digits_from (16 * a + d) r v -> digits_from a (c :: r) v.

Lemma digits_from_ge a s v : digits_from a s v -> (a <= v)%N.
Proof. induction 1; lia. Qed.

Lemma parse_digits_spec s acc v : (acc < 256)%N ->
  (parse_digits s acc = Ok v <-> digits_from acc s v /\ (v < 256)%N).
Proof.
  revert acc; induction s as [|c r IH]; intros acc Ha; simpl.
  - split.
    + intros E; injection E as <-. split; [constructor|exact Ha].
    + intros [H _]. inversion H. reflexivity.
  - split.
    + destruct (hex_digit c) as [d|] eqn:Ed; [|discriminate].
      destruct (N.leb_spec (acc * 16) 255); [|discriminate].
      destruct (N.leb_spec (acc * 16 + d) 255); [|discriminate].
      rewrite IH by lia. intros [H1 H2]. split; [|exact H2].
      econstructor; [apply hex_digit_spec; exact Ed|]. rewrite (N.mul_comm 16). exact H1.
    + intros [H1 H2]. inversion H1 as [|? ? d ? ? Hd Hr]; subst.
      assert (G := digits_from_ge _ _ _ Hr). apply hex_digit_spec in Hd. rewrite Hd.
      destruct (N.leb_spec (acc * 16) 255); [|lia].
      destruct (N.leb_spec (acc * 16 + d) 255); [|lia].
      apply IH; [lia|]. rewrite (N.mul_comm acc). auto.
Qed.

Lemma digits_from_snoc a s v c d : digits_from a s v -> digit_value c d -> digits_from a (s ++ [c]) (16 * v + d).
Proof.
  intros H Hd. induction H; simpl; econstructor; eauto. constructor.
Qed.

Lemma hex_number_digits s v : hex_number s v <-> s <> [] /\ digits_from 0 s v.
Proof.
  split.
  - intros H; induction H as [c d Hd|s v c d H [IH1 IH2] Hd].
    + split; [discriminate|]. econstructor; [exact Hd|]. replace (16 * 0 + d)%N with d by lia. constructor.
    + split; [destruct s; discriminate|]. apply digits_from_snoc; assumption.
  - revert v. induction s as [|c s IH] using rev_ind; intros v [Hne H]; [congruence|].
    clear Hne.
    assert (Q : forall a s v, digits_from a s v -> forall s' c, s = s' ++ [c] ->
       exists v' d, digits_from a s' v' /\ digit_value c d /\ v = (16 * v' + d)%N).
    { clear. induction 1 as [a|a c0 d r v Hd Hr IH]; intros s' c E.
      - destruct s'; discriminate.
      - destruct s' as [|x s']; simpl in E; injection E as -> ->.
        + inversion Hr; subst. exists a, d. repeat split; auto. constructor.
        + destruct (IH s' c eq_refl) as (v' & d' & H1 & H2 & ->).
          exists v', d'. repeat split; auto. econstructor; eauto. }
    destruct (Q _ _ _ H s c eq_refl) as (v' & d & H1 & H2 & ->).
    destruct s as [|x s].
    + inversion H1; subst. simpl. replace (16 * 0 + d)%N with d by lia. constructor. exact H2.
    + constructor; [|exact H2]. apply IH. split; [discriminate|exact H1].
Qed.

Lemma from_str_radix16_spec s v : from_str_radix16 s = Ok v <-> group s v.
Proof.
  unfold group. rewrite hex_number_digits.
  assert (PD : forall s, parse_digits s 0 = Ok v <-> digits_from 0 s v /\ (v < 256)%N)
    by (intros; apply parse_digits_spec; lia).
  assert (NP : forall r w, ~ digits_from 0 (43%N :: r) w).
  { intros r w H. inversion H as [|? ? d ? ? Hd _]; subst. apply digit_not_special in Hd. tauto. }
  destruct s as [|c [|c2 r]]; cbn [from_str_radix16].
  - split; [discriminate|]. intros [_ [[H _]|(s' & E & _)]]; [congruence|discriminate].
  - destruct ((c =? ch_plus)%N || (c =? 45)%N) eqn:E.
    + split; [discriminate|]. intros [_ [[_ H]|(s' & E' & H)]].
      * inversion H as [|? ? d ? ? Hd _]; subst. apply digit_not_special in Hd.
        apply orb_true_iff in E. rewrite !N.eqb_eq in E. unfold ch_plus in E. tauto.
      * injection E' as -> <-. apply hex_number_digits in H. tauto.
    + rewrite PD.
      split.
      * intros [H1 H2]. split; [exact H2|]. left. split; [discriminate|exact H1].
      * intros [H2 [[_ H1]|(s' & E' & H)]]; [auto|]. injection E' as -> <-.
        apply hex_number_digits in H. tauto.
  - destruct (N.eqb_spec c ch_plus) as [->|E].
    + rewrite PD. unfold ch_plus. split.
      * intros [H1 H2]. split; [exact H2|]. right. exists (c2 :: r). split; [reflexivity|].
        apply hex_number_digits. split; [discriminate|exact H1].
      * intros [H2 [[_ H1]|(s' & E' & H)]]; [destruct (NP _ _ H1)|]. injection E' as <-.
        apply hex_number_digits in H. tauto.
    + rewrite PD. split.
      * intros [H1 H2]. split; [exact H2|]. left. split; [discriminate|exact H1].
      * intros [H2 [[_ H1]|(s' & E' & H)]]; [auto|]. injection E' as E' _. unfold ch_plus in E. congruence.
Qed.

(** ** Splitting *)
Definition no_colon (s : list N) : Prop := Forall (fun c => c <> 58%N) s.

Lemma split_no_colon s : no_colon s -> split_colon s = [s].
Proof.
  induction 1 as [|c s Hc Hs IH]; [reflexivity|]. simpl. unfold ch_colon.
  destruct (N.eqb_spec c 58); [congruence|]. rewrite IH. reflexivity.
Qed.

Lemma split_cons s r : no_colon s -> split_colon (s ++ 58%N :: r) = s :: split_colon r.
Proof.
  induction 1 as [|c s Hc Hs IH]; [reflexivity|]. simpl. unfold ch_colon.
  destruct (N.eqb_spec c 58); [congruence|]. rewrite IH. reflexivity.
Qed.

Lemma split_nonempty s : split_colon s <> [].
Proof. destruct s as [|c r]; simpl; [discriminate|]. destruct (c =? ch_colon)%N; [discriminate|]. destruct (split_colon r); discriminate. Qed.

Lemma split_spec s : Forall no_colon (split_colon s) /\ join_colon (split_colon s) = s.
Proof.
  induction s as [|c r [IH1 IH2]]; simpl.
  - split; [repeat constructor|reflexivity].
  - unfold ch_colon at 1 2. destruct (N.eqb_spec c 58) as [->|Hc].
    + split; [constructor; [constructor|exact IH1]|].
      destruct (split_colon r) eqn:E; [destruct (split_nonempty r E)|].
      change (join_colon ([] :: l :: l0)) with (58%N :: join_colon (l :: l0)). rewrite IH2. reflexivity.
    + destruct (split_colon r) as [|p ps] eqn:E; [destruct (split_nonempty r E)|].
      inversion_clear IH1 as [|? ? Hp Hps]. split.
      * constructor; [constructor; assumption|exact Hps].
      * destruct ps as [|q ps]; simpl in *; rewrite <- IH2; reflexivity.
Qed.

Lemma group_no_colon s v : group s v -> no_colon s.
Proof.
  assert (Q : forall s v, hex_number s v -> no_colon s).
  { induction 1 as [c d Hd|s' v' c d H IH Hd]; [repeat constructor; apply (digit_not_special _ _ Hd)|].
    apply Forall_app. split; [exact IH|]. repeat constructor. apply (digit_not_special _ _ Hd). }
  intros [_ [H|(s' & -> & H)]]; [exact (Q _ _ H)|]. constructor; [discriminate|exact (Q _ _ H)].
Qed.

Lemma parse_parts_ok ps vs : parse_parts ps = Done vs <-> Forall2 group ps vs.
Proof.
  revert vs; induction ps as [|p ps IH]; intros vs; simpl.
  - split; [intros E; injection E as <-; constructor|intros H; inversion H; reflexivity].
  - destruct (from_str_radix16 p) as [v|] eqn:E.
    + apply from_str_radix16_spec in E.
      destruct (parse_parts ps) as [vs'|] eqn:E'; cbn [bind].
      * split.
        -- intros Q; injection Q as <-. constructor; [exact E|]. apply IH. reflexivity.
        -- intros H. inversion H as [|? v' ? vs'' Hg Hr]; subst. apply IH in Hr. injection Hr as <-.
           apply from_str_radix16_spec in E, Hg. rewrite E in Hg. injection Hg as <-. reflexivity.
      * split; [discriminate|]. intros H. inversion H as [|? v' ? vs'' Hg Hr]; subst. apply IH in Hr. discriminate.
    + split; [discriminate|]. intros H. inversion H as [|? v' ? vs'' Hg Hr]; subst.
      apply from_str_radix16_spec in Hg. congruence.
Qed.

Lemma groups_split s vs : groups s vs <-> Forall2 group (split_colon s) vs.
Proof.
  split.
  - induction 1 as [s v H|s v r vs H Hr IH].
    + rewrite split_no_colon by (eapply group_no_colon; eassumption). constructor; [exact H|constructor].
    + rewrite split_cons by (eapply group_no_colon; eassumption). constructor; assumption.
  - destruct (split_spec s) as [_ HJ]. rewrite <- HJ at 2. assert (HN := split_nonempty s).
    generalize dependent (split_colon s). intros ps HJ HN H. clear HJ.
    induction H as [|p v ps vs Hg Hr IH]; [congruence|].
    destruct ps as [|q ps].
    + inversion Hr; subst. simpl. constructor. exact Hg.
    + change (join_colon (p :: q :: ps)) with (p ++ 58%N :: join_colon (q :: ps)).
      constructor; [exact Hg|]. apply IH. discriminate.
Qed.

Lemma Forall2_len {A B} (R : A -> B -> Prop) l1 l2 : Forall2 R l1 l2 -> length l1 = length l2.
Proof. induction 1; simpl; congruence. Qed.

Lemma c06_parse_iff s a : address_parse s = Done (Ok a) <-> address_text s a.
Proof.
  destruct s as [|c r].
  { simpl. split.
    - intros E; injection E as <-. reflexivity.
    - intros H. destruct a; simpl in H; [reflexivity| |]; destruct H as [HL H]; apply groups_split in H;
      apply Forall2_len in H; simpl in H; lia. }
  set (s := c :: r). assert (HS : s <> []) by discriminate.
  assert (E : address_parse s = if length (split_colon s) =? 2 then let* v := parse_parts (split_colon s) in Done (Ok (AShort v))
      else if length (split_colon s) =? 8 then let* v := parse_parts (split_colon s) in Done (Ok (AExtended v))
      else Done Err) by reflexivity.
  rewrite E. clear E. clearbody s.
  destruct (Nat.eqb_spec (length (split_colon s)) 2) as [L|L2].
  - destruct (parse_parts (split_colon s)) as [v|] eqn:P; cbn [bind].
    + apply parse_parts_ok in P. split.
      * intros E; injection E as <-. split; [apply Forall2_len in P; lia|]. apply groups_split. exact P.
      * destruct a as [|w|w]; simpl; [congruence| |]; intros [HL H]; apply groups_split in H.
        -- apply parse_parts_ok in H, P. rewrite P in H. injection H as <-. reflexivity.
        -- apply Forall2_len in H. lia.
    + split; [discriminate|]. destruct a as [|w|w]; simpl; [congruence| |]; intros [HL H]; apply groups_split in H;
      apply parse_parts_ok in H; congruence.
  - destruct (Nat.eqb_spec (length (split_colon s)) 8) as [L|L8].
    + destruct (parse_parts (split_colon s)) as [v|] eqn:P; cbn [bind].
      * apply parse_parts_ok in P. split.
        -- intros E; injection E as <-. split; [apply Forall2_len in P; lia|]. apply groups_split. exact P.
        -- destruct a as [|w|w]; simpl; [congruence| |]; intros [HL H]; apply groups_split in H.
           ++ apply Forall2_len in H. lia.
           ++ apply parse_parts_ok in H, P. rewrite P in H. injection H as <-. reflexivity.
      * split; [discriminate|]. destruct a as [|w|w]; simpl; [congruence| |]; intros [HL H]; apply groups_split in H;
        apply parse_parts_ok in H; congruence.
    + split; [discriminate|]. destruct a as [|w|w]; simpl; [congruence| |]; intros [HL H]; apply groups_split in H;
      apply Forall2_len in H; lia.
Qed.

(** which texts panic *)
Lemma c06_panic_iff s : address_parse s = Panic <->
  s <> [] /\ (length (split_colon s) = 2 \/ length (split_colon s) = 8) /\ forall a, ~ address_text s a.
Proof.
  split.
  - intros H. assert (HN : forall a, ~ address_text s a).
    { intros a Ha. apply c06_parse_iff in Ha. congruence. }
    destruct s as [|c r]; [discriminate|]. split; [discriminate|]. split; [|exact HN].
    unfold address_parse in H.
    destruct (Nat.eqb_spec (length (split_colon (c :: r))) 2) as [L|L2]; [auto|].
    destruct (Nat.eqb_spec (length (split_colon (c :: r))) 8) as [L|L8]; [auto|discriminate].
  - intros (HS & HL & HN). destruct (address_parse s) as [[a|]|] eqn:E; [| |reflexivity].
    + apply c06_parse_iff in E. destruct (HN a E).
    + exfalso. destruct s as [|c r]; [congruence|]. unfold address_parse in E.
      destruct (Nat.eqb_spec (length (split_colon (c :: r))) 2) as [L|L2];
        [destruct (parse_parts _); discriminate|].
      destruct (Nat.eqb_spec (length (split_colon (c :: r))) 8) as [L|L8];
        [destruct (parse_parts _); discriminate|]. lia.
Qed.

(** ** Display *)
Lemma hex_char_digit d : (d < 16)%N -> digit_value (hex_char d) d.
Proof.
  intros H. unfold hex_char. destruct (N.ltb_spec d 10).
  - constructor. lia.
  - replace (87 + d)%N with (97 + (d - 10))%N by lia. constructor. lia.
Qed.

Lemma fmt_group v : octet v -> group (fmt_02x v) v.
Proof.
  unfold octet. intros H. split; [exact H|]. left. unfold fmt_02x.
  replace v with (16 * (v / 16) + v mod 16)%N at 3 by (symmetry; apply N.div_mod; lia).
  apply (hn_snoc [hex_char (v / 16)]).
  - constructor. apply hex_char_digit. apply N.div_lt_upper_bound; lia.
  - apply hex_char_digit. apply N.mod_lt. lia.
Qed.

Lemma display_groups v : v <> [] -> octets v -> groups (join_colon (map fmt_02x v)) v.
Proof.
  intros HN HO. induction HO as [|x v Hx HO IH]; [congruence|].
  destruct v as [|y v]; [simpl; constructor; apply fmt_group; exact Hx|].
  change (join_colon (map fmt_02x (x :: y :: v))) with (fmt_02x x ++ 58%N :: join_colon (map fmt_02x (y :: v))).
  constructor; [apply fmt_group; exact Hx|apply IH; discriminate].
Qed.

Lemma c06_roundtrip a : address_wf a -> a <> AAbsent -> address_parse (address_display a) = Done (Ok a).
Proof.
  intros W HN. apply c06_parse_iff. destruct a as [|v|v]; [congruence| |]; destruct W as [HL HO]; simpl;
    (split; [exact HL|]); apply display_groups; try exact HO; destruct v; discriminate.
Qed.

Lemma hex_char_low d : (d < 16)%N -> low_digit (hex_char d) d.
Proof. intros H. unfold hex_char, low_digit. destruct (N.ltb_spec d 10); [left|right]; lia. Qed.

Lemma display_shown v : v <> [] -> octets v -> shown_octets (join_colon (map fmt_02x v)) v.
Proof.
  intros HN HO. induction HO as [|x v Hx HO IH]; [congruence|]. unfold octet in Hx.
  assert (E : x = (16 * (x / 16) + x mod 16)%N) by (apply N.div_mod; lia).
  assert (H1 : low_digit (hex_char (x / 16)) (x / 16)) by (apply hex_char_low, N.div_lt_upper_bound; lia).
  assert (H2 : low_digit (hex_char (x mod 16)) (x mod 16)) by (apply hex_char_low, N.mod_lt; lia).
  destruct v as [|y v].
  - cbn [map join_colon]. unfold fmt_02x. rewrite E at 3. constructor; assumption.
  - change (join_colon (map fmt_02x (x :: y :: v))) with
      (hex_char (x / 16) :: hex_char (x mod 16) :: 58%N :: join_colon (map fmt_02x (y :: v))).
    rewrite E at 3. constructor; [assumption|assumption|apply IH; discriminate].
Qed.

Lemma split_colon_length s : length (split_colon s) = S (count_occ N.eq_dec s 58%N).
Proof.
  induction s as [|c r IH]; [reflexivity|]. cbn [split_colon count_occ].
  change ch_colon with 58%N. destruct (N.eqb_spec c 58) as [->|E].
  - destruct (N.eq_dec 58 58) as [_|F]; [|congruence]. cbn [length]. rewrite IH. reflexivity.
  - destruct (N.eq_dec c 58) as [F|_]; [congruence|]. destruct (split_colon r); cbn [length] in *; [discriminate|exact IH].
Qed.
