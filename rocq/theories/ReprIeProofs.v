(** ReprIeProofs.v -- emission and parsing of whole information elements and lists of them. *)
From Verif Require Import Base BaseProofs FrameControl Spec SpecIe SpecIeContent Ie IeContent ReprIe BitProofs AddressingProofs IeProofs DescProofs IeContentProofs SlotframeProofs.

Lemma desc_split d : octets (firstn 2 d) -> 2 <= length d -> d = le 2 (desc d) ++ skipn 2 d.
Proof.
  intros HO HL. destruct d as [|a [|b r]]; try (simpl in HL; lia). cbn [skipn app].
  rewrite le_to_le. inversion_clear HO as [|? ? Ha HO']. inversion_clear HO' as [|? ? Hb _]. unfold octet in *.
  unfold desc. cbn [nth to_le app]. f_equal; [|f_equal].
  - rewrite N.add_mod, N.mul_mod, N.mod_same, N.mul_0_l, N.mod_0_l, N.add_0_r, N.mod_mod, N.mod_small by lia. reflexivity.
  - rewrite N.mul_comm, N.div_add by lia. rewrite (N.div_small a) by exact Ha. rewrite N.add_0_l, N.mod_small by lia. reflexivity.
Qed.

(** ** Descriptor words *)
Lemma short_head id len rest : mem id nested_short_ids = true -> (id < 64)%N -> (len < 128)%N ->
  (exists d1, nie_set_length len (SubShort id) (0 :: 0 :: rest)%N = Done d1 /\
     nie_set_sub_id (SubShort id) d1 = Done (le 2 (len + 256 * id) ++ rest)) /\
  nie_length (le 2 (len + 256 * id) ++ rest) = Done (N.to_nat len) /\
  nie_sub_id (le 2 (len + 256 * id) ++ rest) = Done (SubShort id) /\
  code_nested_size (le 2 (len + 256 * id) ++ rest) = 2 + N.to_nat len.
Proof.
  intros Hm Hi Hl. destruct (c25_short id len 0 0 rest) as (d1 & d2 & E1 & E2 & E3 & E4 & E5 & E6 & E7 & E8);
    try assumption; try reflexivity.
  assert (L2 : 2 <= length d2) by (destruct (Nat.le_gt_cases 2 (length d2)) as [|K]; [assumption|]; unfold nie_is_long in E6; rewrite ie_raw_panic in E6 by exact K; discriminate).
  pose proof (desc_split d2 E4 L2) as ED. rewrite E5, E3 in ED. rewrite <- ED.
  split; [exists d1; split; [exact E1|exact E2]|]. split; [exact E7|]. split; [exact E8|].
  rewrite nie_length_ok in E7 by exact L2. injection E7 as E7. unfold code_nested_size. rewrite E7. reflexivity.
Qed.

Lemma long_head id len rest : mem id nested_long_ids = true -> (len < 1024)%N ->
  (exists d1, nie_set_length len (SubLong id) (0 :: 0 :: rest)%N = Done d1 /\
     nie_set_sub_id (SubLong id) d1 = Done (le 2 (len + 2048 * id + 32768) ++ rest)) /\
  nie_length (le 2 (len + 2048 * id + 32768) ++ rest) = Done (N.to_nat len) /\
  nie_sub_id (le 2 (len + 2048 * id + 32768) ++ rest) = Done (SubLong id) /\
  code_nested_size (le 2 (len + 2048 * id + 32768) ++ rest) = 2 + N.to_nat len.
Proof.
  intros Hm Hl. destruct (c25_long id len 0 0 rest) as (d1 & d2 & E1 & E2 & E3 & E4 & E5 & E6 & E7 & E8);
    try assumption; try reflexivity.
  assert (L2 : 2 <= length d2) by (destruct (Nat.le_gt_cases 2 (length d2)) as [|K]; [assumption|]; unfold nie_is_long in E6; rewrite ie_raw_panic in E6 by exact K; discriminate).
  pose proof (desc_split d2 E4 L2) as ED. rewrite E5, E3 in ED. rewrite <- ED.
  split; [exists d1; split; [exact E1|exact E2]|]. split; [exact E7|]. split; [exact E8|].
  rewrite nie_length_ok in E7 by exact L2. injection E7 as E7. unfold code_nested_size. rewrite E7. reflexivity.
Qed.

(** group descriptor: writing works for lengths below 2048 *)
Lemma group_write len rest : (len < 2048)%N ->
  exists d1, pie_set_length len (0 :: 0 :: rest)%N = Done d1 /\
    pie_set_group_id PgMlme d1 = Done (le 2 (len + 2048 * 1 + 32768) ++ rest).
Proof.
  intros Hlen.
  destruct (pie_set_length_view len 0 0 rest) as (c0 & c1 & E1 & O0 & O1 & D1); try reflexivity.
  destruct (pie_set_group_view PgMlme c0 c1 rest O0 O1) as (e0 & e1 & E2 & P0 & P1 & D2); [reflexivity|].
  exists (c0 :: c1 :: rest). split; [exact E1|]. rewrite E2. f_equal.
  assert (L1 := desc_lt c0 c1 rest O0 O1).
  assert (L2 : (masked 11 4 (u16_shl PgMlme 11) (desc (c0 :: c1 :: rest)) < 65536)%N) by (apply masked_lt; [exact L1|lia]).
  assert (F1 : field 0 11 (desc (e0 :: e1 :: rest)) = len).
  { rewrite D2, !field_masked_out by (assumption || lia). rewrite D1, field_masked_in by (reflexivity || lia).
    apply field_small. exact Hlen. }
  assert (F2 : field 11 4 (desc (e0 :: e1 :: rest)) = 1%N).
  { rewrite D2, field_masked_out by (assumption || lia). rewrite field_masked_in by (assumption || lia). reflexivity. }
  assert (F3 : field 15 1 (desc (e0 :: e1 :: rest)) = 1%N).
  { rewrite D2, field_masked_in by (assumption || lia). reflexivity. }
  assert (L3 := desc_lt e0 e1 rest P0 P1).
  assert (ED : desc (e0 :: e1 :: rest) = (len + 2048 * 1 + 32768)%N).
  { revert F1 F2 F3 L3. generalize (desc (e0 :: e1 :: rest)) as v. intros v. unfold field.
    change (2 ^ 11)%N with 2048%N. change (2 ^ 4)%N with 16%N. change (2 ^ 15)%N with 32768%N.
    change (2 ^ 1)%N with 2%N. change (2 ^ 0)%N with 1%N. rewrite N.div_1_r.
    clear. intros F1 F2 F3 L.
    assert (A1 := N.div_mod v 2048). assert (A2 := N.div_mod (v / 2048) 16).
    assert (A3 : (v / 2048 / 16 = v / 32768)%N) by (rewrite N.div_div by lia; reflexivity).
    assert (A4 : (v / 32768 < 2)%N) by (apply N.div_lt_upper_bound; lia).
    rewrite (N.mod_small (v / 32768)) in F3 by exact A4. lia. }
  rewrite <- ED. apply (desc_split (e0 :: e1 :: rest)); [repeat constructor; assumption|simpl; lia].
Qed.

Lemma group_read len rest : (len < 1024)%N ->
  pie_length (le 2 (len + 2048 * 1 + 32768) ++ rest) = Done (N.to_nat len) /\
  pie_group_id (le 2 (len + 2048 * 1 + 32768) ++ rest) = Done PgMlme /\
  code_payload_size (le 2 (len + 2048 * 1 + 32768) ++ rest) = 2 + N.to_nat len.
Proof.
  intros Hl. destruct (c24_roundtrip PgMlme len 0 0 rest) as (d1 & d2 & E1 & E2 & E3 & E4 & E5 & E6 & E7); try reflexivity; try exact Hl.
  assert (L2 : 2 <= length d2) by (destruct (Nat.le_gt_cases 2 (length d2)) as [|K]; [assumption|]; unfold pie_length in E6; rewrite ie_raw_panic in E6 by exact K; discriminate).
  pose proof (desc_split d2 E4 L2) as ED. rewrite E5, E3 in ED. change PgMlme with 1%N in ED. rewrite <- ED.
  split; [exact E6|]. split; [exact E7|].
  rewrite pie_length_ok in E6 by exact L2. injection E6 as E6. unfold code_payload_size. rewrite E6. reflexivity.
Qed.

(** ** Header IEs *)
Lemma header_octets_length h : length (header_octets h) = header_buffer_len h.
Proof. destruct h; reflexivity. Qed.

Lemma header_emit_ok h m : length m = header_buffer_len h -> header_emit h m = Done (header_octets h).
Proof.
  intros H. destruct h as [us n| |]; unfold header_buffer_len, header_inner_len in H; simpl in H.
  - do 4 (destruct m as [|? m]; [discriminate|]). destruct m; [|discriminate].
    unfold header_emit.
    assert (E : (let* w := hie_set_length (N.of_nat (header_inner_len (HTimeCorrection us n))) (zeroed [n0; n1; n2; n3]) in
                 hie_set_element_id (header_id (HTimeCorrection us n)) w) = Done ([0x02; 0x0f] ++ [0; 0])%N) by reflexivity.
    cbn [bind] in E |- *. destruct (hie_set_length _ _) as [w|]; [|discriminate]. cbn [bind] in E |- *. rewrite E. cbn [bind].
    apply (with_from_app [0x02; 0x0f]%N [0; 0]%N 2 _ (time_correction_octets us n)); [reflexivity|].
    rewrite tc_emit. rewrite app_nil_r. reflexivity.
  - do 2 (destruct m as [|? m]; [discriminate|]). destruct m; [|discriminate]. reflexivity.
  - do 2 (destruct m as [|? m]; [discriminate|]). destruct m; [|discriminate]. reflexivity.
Qed.

Lemma tc_head_desc rest : desc (le 2 (2 + 128 * 0x1e) ++ rest) = 0xf02%N.
Proof. reflexivity. Qed.

Lemma header_parse_octets h rest : header_exact h -> header_parse (header_octets h ++ rest) = Done (Ok h).
Proof.
  intros H. unfold header_parse. rewrite hie_element_id_ok by (destruct h; simpl; lia). cbn [bind].
  destruct h as [us n| |]; [|reflexivity|reflexivity].
  cbn [header_octets]. rewrite <- app_assoc, tc_head_desc.
  replace (HeaderElementId_from (field 7 8 0xf02)) with HeTimeCorrection by reflexivity.
  change (HeTimeCorrection =? HeTimeCorrection)%N with true. cbv iota.
  rewrite hie_content_ok; [|simpl; lia|unfold code_header_size; rewrite tc_head_desc; unfold time_correction_octets; rewrite !app_length, !le_length; simpl; lia].
  cbn [bind]. unfold content_at, code_header_size. rewrite tc_head_desc.
  replace (2 + N.to_nat (2 * field 1 7 0xf02) - 2) with 2 by reflexivity.
  rewrite (skipn_app_exact (le 2 (2 + 128 * 0x1e))) by reflexivity.
  rewrite (firstn_app_exact (time_correction_octets us n)) by reflexivity.
  replace (tc_new (time_correction_octets us n)) with (Ok (time_correction_octets us n)) by reflexivity.
  cbv iota beta. destruct (tc_read_octets us n) as [-> ->]. cbn [bind]. rewrite signed12_mod by exact H. reflexivity.
Qed.

(** ** Nested IEs *)
Lemma timings_octets_eq t : timings_octets t =
  timeslot_octets (tt_id t) (ten_of t) (if tt_long t then 3 else 2) (as_u32 (tt_max_tx t)) (as_u32 (tt_timeslot_length t)).
Proof. reflexivity. Qed.

Lemma timings_octets_length t : length (timings_octets t) = if tt_long t then 27 else 25.
Proof. rewrite timings_octets_eq, timeslot_octets_length by reflexivity. destruct (tt_long t); reflexivity. Qed.

(** the content of a nested IE *)
Definition nested_content (n : NestedIE) : list N :=
  match n with
  | NTschSync asn jm => sync_octets asn jm
  | NTimeslotDefault id => [id]
  | NTimeslotCustom t => timings_octets t
  | NSlotframes l => slotframes_octets l
  | NChannelHopping id => [id]
  end.

Lemma nested_content_length n : length (nested_content n) = nested_inner_len n.
Proof.
  destruct n; try reflexivity.
  - apply timings_octets_length.
  - apply slotframes_octets_length.
Qed.

Definition nested_word (n : NestedIE) : N :=
  match nested_id n with
  | SubShort id => N.of_nat (nested_inner_len n) + 256 * id
  | SubLong id => N.of_nat (nested_inner_len n) + 2048 * id + 32768
  end.

Lemma nested_octets_eq n : nested_octets n = le 2 (nested_word n) ++ nested_content n.
Proof.
  destruct n; unfold nested_octets, short_ie, long_ie, nested_word; cbn [nested_id nested_content];
    rewrite <- nested_content_length; reflexivity.
Qed.

Lemma nested_octets_length n : length (nested_octets n) = nested_buffer_len n.
Proof. rewrite nested_octets_eq, app_length, le_length, nested_content_length. reflexivity. Qed.

Lemma list_sum_cons x l : list_sum (x :: l) = x + list_sum l.
Proof. reflexivity. Qed.

Lemma list_sum_le {A} (f : A -> nat) k l : (forall x, In x l -> f x <= k) -> list_sum (map f l) <= k * length l.
Proof.
  induction l as [|x l IH]; intros H; [simpl; lia|]. cbn [map length]. rewrite list_sum_cons.
  pose proof (H x (or_introl eq_refl)). specialize (IH (fun y Hy => H y (or_intror Hy))). lia.
Qed.

Lemma nested_inner_bound n : nested_typed n -> nested_inner_len n <= 73.
Proof.
  intros H. destruct n as [| |t|l|]; simpl; try lia.
  - destruct (tt_long t); lia.
  - destruct H as [HL HF]. unfold slotframes_buffer_len.
    assert (B : list_sum (map slotframe_buffer_len l) <= 24 * length l).
    { apply list_sum_le. intros s Hs. rewrite Forall_forall in HF. destruct (HF s Hs) as (_ & _ & K & _).
      unfold slotframe_buffer_len. lia. }
    lia.
Qed.

Lemma nested_word_facts n rest : nested_typed n ->
  (exists d1, nie_set_length (N.of_nat (nested_inner_len n)) (nested_id n) (0 :: 0 :: rest)%N = Done d1 /\
     nie_set_sub_id (nested_id n) d1 = Done (le 2 (nested_word n) ++ rest)) /\
  nie_length (le 2 (nested_word n) ++ rest) = Done (nested_inner_len n) /\
  nie_sub_id (le 2 (nested_word n) ++ rest) = Done (nested_id n) /\
  code_nested_size (le 2 (nested_word n) ++ rest) = nested_buffer_len n.
Proof.
  intros HT. pose proof (nested_inner_bound n HT) as HB. unfold nested_word, nested_buffer_len.
  assert (HD : (exists i, nested_id n = SubShort i /\ i = NsTschSynchronization \/ nested_id n = SubShort i /\ i = NsTschTimeslot \/ nested_id n = SubShort i /\ i = NsTschSlotframeAndLink) \/ nested_id n = SubLong NlChannelHopping).
  { destruct n; cbn [nested_id]; eauto 8. }
  destruct HD as [[i HI]|HI].
  - assert (Hi : nested_id n = SubShort i /\ (i = NsTschSynchronization \/ i = NsTschTimeslot \/ i = NsTschSlotframeAndLink)) by tauto.
    clear HI. destruct Hi as [HI HV]. rewrite HI.
    pose proof (short_head i (N.of_nat (nested_inner_len n)) rest) as K. rewrite Nat2N.id in K.
    apply K; [destruct HV as [->|[->| ->]]; reflexivity ..|lia].
  - rewrite HI. pose proof (long_head NlChannelHopping (N.of_nat (nested_inner_len n)) rest) as K. rewrite Nat2N.id in K.
    apply K; [reflexivity|lia].
Qed.

Lemma nested_emit_ok n m : nested_typed n -> length m = nested_buffer_len n -> nested_emit n m = Done (nested_octets n).
Proof.
  intros HT Hm. pose proof (nested_inner_bound n HT) as HB. unfold nested_buffer_len in Hm.
  destruct m as [|a [|b m]]; try discriminate. assert (Lm : length m = nested_inner_len n) by (simpl in Hm; lia).
  unfold nested_emit, zeroed. cbn [length repeat]. rewrite N.mod_small by lia.
  destruct (nested_word_facts n (repeat 0%N (length m)) HT) as ((d1 & E1 & E2) & _).
  rewrite E1. cbn [bind]. rewrite E2. cbn [bind]. rewrite nested_octets_eq.
  apply with_from_app; [reflexivity|].
  set (z := repeat 0%N (length m)). assert (Lz : length z = nested_inner_len n) by (unfold z; rewrite repeat_length; exact Lm).
  clearbody z. clear - HT Lz.
  destruct n as [asn jm|id|t|l|id]; cbn [nested_inner_len nested_content] in *.
  - do 6 (destruct z as [|? z]; [discriminate|]). destruct z; [|discriminate]. rewrite sync_emit, app_nil_r. reflexivity.
  - do 1 (destruct z as [|? z]; [discriminate|]). destruct z; [|discriminate]. reflexivity.
  - rewrite timings_octets_eq. destruct (tt_long t) eqn:E; [apply ts_set_long|apply ts_set_short]; assumption.
  - destruct HT as [HL HF]. apply slotframes_emit_ok; [lia| |exact Lz].
    eapply Forall_impl; [|exact HF]. intros s (_ & _ & H & _). lia.
  - do 1 (destruct z as [|? z]; [discriminate|]). destruct z; [|discriminate]. reflexivity.
Qed.

Lemma nested_content_read n : nested_typed n -> nie_content (nested_octets n) = Done (nested_content n).
Proof.
  intros HT. unfold nie_content. rewrite nested_octets_eq.
  destruct (nested_word_facts n (nested_content n) HT) as (_ & -> & _). cbn [bind].
  rewrite slice_from_ok by (rewrite app_length, le_length; lia). cbn [bind].
  rewrite skipn_app_exact by reflexivity. rewrite slice_to_ok by (rewrite nested_content_length; lia).
  rewrite <- nested_content_length, firstn_all. reflexivity.
Qed.

Lemma nested_parse_octets n : nested_typed n -> nested_exact n -> nested_parse (nested_octets n) = Done (Ok n).
Proof.
  intros HT HE. unfold nested_parse.
  assert (ES : nie_sub_id (nested_octets n) = Done (nested_id n)).
  { rewrite nested_octets_eq. apply (nested_word_facts n (nested_content n) HT). }
  rewrite ES. cbn [bind]. rewrite (nested_content_read n HT).
  destruct n as [asn jm|id|t|l|id]; cbn [nested_id nested_content bind].
  - cbn [N.eqb NsTschSynchronization]. change (26 =? 26)%N with true. cbv iota.
    destruct (sync_read asn jm [] HE) as [A J]. rewrite app_nil_r in A, J.
    replace (sync_new (sync_octets asn jm)) with (Ok (sync_octets asn jm)) by reflexivity.
    cbv iota beta. rewrite A, J. reflexivity.
  - cbn [nested_exact] in HE. subst id. reflexivity.
  - destruct HE as [HF HI]. change (NsTschTimeslot =? NsTschSynchronization)%N with false. cbv iota.
    change (NsTschTimeslot =? NsTschTimeslot)%N with true. cbv iota.
    assert (EN : ts_new (timings_octets t) = Done (Ok (timings_octets t))).
    { unfold ts_new. rewrite timings_octets_length. pose proof HI as HI'. apply N.eqb_neq in HI'.
      replace (ts_id (timings_octets t)) with (Done (tt_id t)) by reflexivity. cbn [bind]. rewrite HI'.
      destruct (tt_long t); reflexivity. }
    rewrite EN. unfold try. cbn [bind]. unfold timeslot_parse, ts_has_timings. rewrite timings_octets_length.
    replace (1 <? (if tt_long t then 27 else 25)) with true by (destruct (tt_long t); reflexivity).
    rewrite timings_octets_eq, ts_roundtrip by assumption. reflexivity.
  - destruct HT as [HL HF]. destruct (slotframes_parse_octets l HF HE HL) as [A B].
    change (NsTschSlotframeAndLink =? NsTschSynchronization)%N with false. cbv iota.
    change (NsTschSlotframeAndLink =? NsTschTimeslot)%N with false. cbv iota.
    change (NsTschSlotframeAndLink =? NsTschSlotframeAndLink)%N with true. cbv iota.
    rewrite A. unfold try at 1. cbn [bind]. rewrite B. reflexivity.
  - reflexivity.
Qed.

Lemma chop_nested l : Forall nested_typed l -> chop code_nested_size (concat (map nested_octets l)) (map nested_octets l).
Proof.
  induction 1 as [|n l Hn Hl IH]; [apply chop_end; left; simpl; lia|].
  cbn [map concat]. set (rest := concat (map nested_octets l)) in *.
  assert (HZ : code_nested_size (nested_octets n ++ rest) = nested_buffer_len n).
  { rewrite nested_octets_eq, <- app_assoc. apply (nested_word_facts n (nested_content n ++ rest) Hn). }
  assert (HC := chop_next code_nested_size (nested_octets n ++ rest) (map nested_octets l)).
  rewrite HZ in HC. rewrite firstn_app_exact in HC by (rewrite nested_octets_length; reflexivity).
  rewrite skipn_app_exact in HC by (rewrite nested_octets_length; reflexivity).
  apply HC; [rewrite app_length, nested_octets_length; unfold nested_buffer_len; lia
            |rewrite app_length, nested_octets_length; lia|exact IH].
Qed.

(** ** Payload IEs *)
Definition nested_total (l : list NestedIE) : nat := list_sum (map nested_buffer_len l).

Lemma mlme_length l : length (mlme_octets l) = 2 + nested_total l.
Proof.
  unfold mlme_octets, long_ie. rewrite app_length, le_length.
  rewrite (list_sum_concat nested_buffer_len) by (intros; apply nested_octets_length). reflexivity.
Qed.

Lemma mlme_eq l : mlme_octets l = le 2 (N.of_nat (nested_total l) + 2048 * 1 + 32768) ++ concat (map nested_octets l).
Proof.
  unfold mlme_octets, long_ie. rewrite (list_sum_concat nested_buffer_len) by (intros; apply nested_octets_length). reflexivity.
Qed.

Lemma payload_emit_ok l m : payload_typed (PMlme l) -> length m = payload_buffer_len (PMlme l) ->
  payload_emit (PMlme l) m = Done (mlme_octets l).
Proof.
  intros [HL HF] Hm. unfold payload_buffer_len in Hm. cbn [payload_inner_len] in Hm. fold (nested_total l) in Hm.
  destruct m as [|a [|b m]]; try discriminate. assert (Lm : length m = nested_total l) by (simpl in Hm; lia).
  assert (HB : nested_total l <= 75 * length l).
  { apply list_sum_le. intros n Hn. rewrite Forall_forall in HF. pose proof (nested_inner_bound n (HF n Hn)). unfold nested_buffer_len. lia. }
  unfold payload_emit, zeroed. cbn [length repeat payload_inner_len payload_id]. fold (nested_total l). rewrite N.mod_small by lia.
  destruct (group_write (N.of_nat (nested_total l)) (repeat 0%N (length m))) as (d1 & E1 & E2); [lia|].
  rewrite E1. cbn [bind]. rewrite E2. cbn [bind]. rewrite mlme_eq. apply with_from_app; [reflexivity|].
  pose proof (emit_seq_ok nested_buffer_len nested_emit nested_octets l) as HE.
  assert (HA : forall x m, In x l -> length m = nested_buffer_len x -> nested_emit x m = Done (nested_octets x)).
  { intros y m' Hy. apply nested_emit_ok. rewrite Forall_forall in HF. apply HF. exact Hy. }
  specialize (HE HA (fun s _ => nested_octets_length s) [] (repeat 0%N (length m)) [] 0 eq_refl).
  cbn [app] in HE. rewrite !app_nil_r in HE. apply HE. rewrite repeat_length. exact Lm.
Qed.

Lemma payload_parse_octets l rest : payload_typed (PMlme l) -> Forall nested_exact l -> nested_total l < 1024 ->
  payload_parse (mlme_octets l ++ rest) = Done (Ok (PMlme l)).
Proof.
  intros [HL HF] HE HT. unfold payload_parse.
  destruct (group_read (N.of_nat (nested_total l)) (concat (map nested_octets l) ++ rest)) as (E1 & E2 & E3); [lia|].
  assert (EQ : mlme_octets l ++ rest = le 2 (N.of_nat (nested_total l) + 2048 * 1 + 32768) ++ concat (map nested_octets l) ++ rest)
    by (rewrite mlme_eq, <- app_assoc; reflexivity).
  rewrite EQ, E2. cbn [bind]. change (PgMlme =? PgMlme)%N with true. cbv iota.
  unfold pie_nested, pie_nested_iter. rewrite E2. cbn [bind]. change (PgMlme =? PgMlme)%N with true. cbv iota.
  assert (LC : length (concat (map nested_octets l)) = nested_total l).
  { rewrite (list_sum_concat nested_buffer_len) by (intros; apply nested_octets_length). reflexivity. }
  assert (EC : pie_content (le 2 (N.of_nat (nested_total l) + 2048 * 1 + 32768) ++ concat (map nested_octets l) ++ rest) = Done (concat (map nested_octets l))).
  { unfold pie_content. rewrite E1. cbn [bind]. rewrite slice_from_ok by (rewrite app_length, le_length; lia). cbn [bind].
    rewrite skipn_app_exact by reflexivity. rewrite Nat2N.id. rewrite slice_to_ok by (rewrite app_length, LC; lia).
    rewrite firstn_app_exact by (rewrite LC; reflexivity). reflexivity. }
  rewrite EC. cbn [bind it_data].
  set (c := concat (map nested_octets l)) in *.
  destruct (drain_chop (ie_fuel c) c 0) as (es & t & HC & HD); [lia|unfold ie_fuel; lia|].
  rewrite HD. cbn [bind]. rewrite (chop_fun _ _ _ HC _ (chop_nested l HF)).
  rewrite (parse_push_break_list nested_parse (map nested_octets l) l 16); [reflexivity| |simpl; lia].
  clear - HF HE. induction HF as [|n l Hn Hl IH]; [constructor|]. inversion_clear HE.
  cbn [map]. constructor; [apply nested_parse_octets; assumption|apply IH; assumption].
Qed.
