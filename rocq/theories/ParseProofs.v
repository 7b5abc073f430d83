(** ParseProofs.v -- when parsing information elements panics. *)
From Verif Require Import Base BaseProofs Spec BitProofs SpecIe IeProofs Ie IeContent ReprIe SpecIeContent IeContentProofs SlotframeProofs PropIe SpecParse.

Lemma parse_push_panic {A} (p : list N -> outcome (result A)) cap l : forall len, parse_push p cap len l = Panic -> exists x, In x l /\ p x = Panic.
Proof.
  induction l as [|x l IH]; intros len H; [discriminate|]. cbn [parse_push] in H. unfold try in H at 1.
  destruct (p x) as [[y|]|] eqn:E; cbn [bind] in H; [|discriminate|exists x; cbn; auto].
  destruct (len <? cap); [|discriminate]. unfold try in H. destruct (parse_push p cap (S len) l) as [r|] eqn:E2.
  - destruct r; discriminate.
  - destruct (IH _ E2) as (z & Hz & Ez). exists z. cbn. auto.
Qed.
Lemma parse_push_break_panic {A} (p : list N -> outcome (result A)) cap l : forall len, parse_push_break p cap len l = Panic -> exists x, In x l /\ p x = Panic.
Proof.
  induction l as [|x l IH]; intros len H; [discriminate|]. cbn [parse_push_break] in H. unfold try in H at 1.
  destruct (p x) as [[y|]|] eqn:E; cbn [bind] in H; [|discriminate|exists x; cbn; auto].
  destruct (len <? cap); [|discriminate]. unfold try in H. destruct (parse_push_break p cap (S len) l) as [r|] eqn:E2.
  - destruct r; discriminate.
  - destruct (IH _ E2) as (z & Hz & Ez). exists z. cbn. auto.
Qed.

Lemma header_parse_safe e : 2 <= length e -> (exists c, hie_content e = Done c) -> header_parse e <> Panic.
Proof.
  intros H2 (c & Hc). unfold header_parse. rewrite hie_element_id_ok by exact H2. cbn [bind]. rewrite Hc. cbn [bind].
  destruct (_ =? _)%N; [|destruct (_ =? _)%N; [discriminate|destruct (_ =? _)%N; discriminate]].
  unfold tc_new. destruct (Nat.leb_spec 2 (length c)) as [L|L]; [|discriminate].
  unfold tc_time_correction, tc_nack. 
  rewrite ie_raw_ok by lia. cbn [bind]. discriminate.
Qed.

Lemma slotframe_parse_panic e : 4 <= length e -> slotframe_size e <= length e -> slotframe_parse e = Panic -> nth 3 e 0%N = 0%N.
Proof.
  intros H4 Hz HP. destruct (N.eq_dec (nth 3 e 0%N) 0) as [E|E]; [exact E|]. exfalso.
  unfold slotframe_parse in HP. pose proof (sd_link_informations_ok e H4 Hz E) as EL. cbv zeta in EL. rewrite EL in HP. cbn [bind] in HP.
  unfold try in HP. unfold sd_handle, sd_size in HP. rewrite idx_ok in HP by lia.
  destruct (rd_le_ok e 1 2) as [v Hv]; [lia|]. rewrite Hv in HP. cbn [bind] in HP.
  destruct (parse_push link_parse 4 0 _) as [r|] eqn:EP; [destruct r; discriminate|].
  apply parse_push_panic in EP. destruct EP as (x & Hx & Ex). apply in_map_iff in Hx. destruct Hx as (i & <- & Hi).
  apply in_seq in Hi. unfold slotframe_size in Hz.
  set (l := skipn (5 * i) _) in Ex.
  assert (Ll : 5 <= length l) by (unfold l; rewrite skipn_length, firstn_length, skipn_length; lia).
  unfold link_parse, link_timeslot, link_channel_offset, link_options in Ex.
  destruct (rd_le_ok l 0 2) as [v1 E1]; [lia|]. destruct (rd_le_ok l 2 2) as [v2 E2]; [lia|].
  rewrite E1, E2, idx_ok in Ex by lia. discriminate.
Qed.

Lemma nested_parse_panic e : 2 <= length e -> nie_content e = Done (skipn 2 e) -> nested_parse e = Panic -> bad_nested e.
Proof.
  intros H2 HC HP. unfold nested_parse in HP. unfold nie_sub_id, nie_is_long in HP. rewrite ie_raw_ok in HP by exact H2. cbn [bind] in HP.
  rewrite flag_at_bit in HP. change 0x3F%N with (N.ones 6) in HP. rewrite field_land in HP.
  unfold bad_nested. destruct (bit 15 (desc e)).
  - exfalso. destruct (_ =? _)%N in HP; [|discriminate]. rewrite HC in HP. cbn [bind] in HP. unfold ch_new, ch_id in HP.
    destruct (Nat.eqb_spec (length (skipn 2 e)) 0); [discriminate|]. rewrite idx_ok in HP by lia. discriminate.
  - split; [reflexivity|]. cbv zeta. set (c := skipn 2 e) in *.
    assert (ID : forall v k, NestedSubIdShort_from v = k -> k <> 0x47%N -> v = k).
    { intros v k H K. unfold NestedSubIdShort_from in H. destruct (mem v nested_short_ids); [exact H|congruence]. }
    destruct (N.eqb_spec (NestedSubIdShort_from (field 8 6 (desc e))) NsTschSynchronization) as [E|E].
    { exfalso. rewrite HC in HP. cbn [bind] in HP. unfold sync_new, sync_asn, sync_join_metric in HP.
      destruct (Nat.leb_spec 6 (length c)); [|discriminate].
      repeat (rewrite slice_to_ok in HP by lia; cbn [bind] in HP).
      repeat (rewrite idx_ok in HP by lia; cbn [bind] in HP).
      repeat match type of HP with context [rd_le c ?o ?n] => let v := fresh in let Hv := fresh in destruct (rd_le_ok c o n) as [v Hv]; [lia|]; rewrite Hv in HP; cbn [bind] in HP end.
      discriminate. }
    clear E. destruct (N.eqb_spec (NestedSubIdShort_from (field 8 6 (desc e))) NsTschTimeslot) as [E|E].
    { left. split; [apply ID in E; [exact E|discriminate]|]. rewrite HC in HP. cbn [bind] in HP. unfold try in HP.
      destruct (ts_new c) as [[c'|]|] eqn:EN; cbn [bind] in HP; [|discriminate|].
      - assert (c' = c).
        { clear - EN. unfold ts_new in EN. destruct (_ <? _); [discriminate|]. destruct (ts_id c) as [i|]; [|discriminate]. cbn [bind] in EN.
          repeat match type of EN with context [if ?x then _ else _] => destruct x end; congruence. }
        subst c'. unfold timeslot_parse in HP. destruct (ts_has_timings c).
        + apply and_comm. apply (proj1 (ts_timings_panic_iff c EN)). destruct (ts_timings c); [discriminate|reflexivity].
        + exfalso. clear - EN HP. unfold ts_new, ts_id in *. destruct (Nat.ltb_spec (length c) 1); [discriminate|].
          rewrite idx_ok in HP by lia. discriminate.
      - exfalso. clear - EN. unfold ts_new, ts_id in EN. destruct (Nat.ltb_spec (length c) 1); [discriminate|].
        rewrite idx_ok in EN by lia. cbn [bind] in EN. repeat match type of EN with context [if ?x then _ else _] => destruct x end; discriminate. }
    clear E. destruct (N.eqb_spec (NestedSubIdShort_from (field 8 6 (desc e))) NsTschSlotframeAndLink) as [E|E]; [|discriminate].
    right. split; [apply ID in E; [exact E|discriminate]|]. rewrite HC in HP. cbn [bind] in HP. unfold try in HP at 1.
    rewrite sl_new_spec in HP. cbn [bind] in HP. destruct (Nat.leb_spec 1 (length c)) as [L|L]; [|discriminate]. split; [exact L|].
    unfold slotframes_parse in HP. destruct (sl_descriptors_spec c L) as (ds & HD & ED). rewrite ED in HP. cbn [bind] in HP.
    unfold try in HP. destruct (parse_push slotframe_parse 3 0 ds) as [r|] eqn:EP; [destruct r; discriminate|].
    apply parse_push_panic in EP. destruct EP as (s & Hs & Es). exists ds, s. split; [exact HD|]. split; [exact Hs|].
    pose proof (descriptors_elems _ _ _ HD) as HE. rewrite Forall_forall in HE. destruct (HE s Hs) as [L4 LZ].
    apply slotframe_parse_panic; assumption.
Qed.

Lemma group_mlme v : (PayloadGroupId_from v =? PgMlme)%N = true -> v = 1%N.
Proof. unfold PayloadGroupId_from. destruct (mem v payload_ids); rewrite N.eqb_eq; [auto|discriminate]. Qed.

Lemma ies_parse_panic d : ies_new d = Done (Ok d) -> ies_parse d = Panic -> bad_ies d.
Proof.
  intros HN HP. destruct (ies_new_spec d) as (hs & hn & HW & [[_ E]|(HL & ps & pn & HW2 & [[_ E]|(HL2 & _ & _ & (t & EH) & t' & EP)])]);
    try (rewrite HN in E; discriminate).
  unfold ies_parse in HP. rewrite EH in HP. cbn [bind] in HP. unfold try in HP at 1.
  pose proof (walk_in_bounds _ _ _ _ _ code_header_size_2 HW HL) as HB.
  destruct (parse_push_break header_parse 16 0 hs) as [r|] eqn:E1; cbn [bind] in HP.
  2:{ exfalso. apply parse_push_break_panic in E1. destruct E1 as (e & He & Ee). rewrite Forall_forall in HB. destruct (HB e He) as [B1 B2].
      revert Ee. apply header_parse_safe; [exact B1|]. exists (content_at code_header_size e). apply hie_content_ok; assumption. }
  destruct r as [h|]; [|discriminate]. rewrite EP in HP. cbn [bind] in HP. unfold try in HP.
  destruct (parse_push_break payload_parse 16 0 ps) as [r|] eqn:E2; [destruct r; discriminate|].
  apply parse_push_break_panic in E2. destruct E2 as (e & He & Ee).
  assert (HL3 : pn <= length (skipn hn d)) by (rewrite skipn_length; lia).
  pose proof (walk_in_bounds _ _ _ _ _ code_payload_size_2 HW2 HL3) as HB2. rewrite Forall_forall in HB2. destruct (HB2 e He) as [B1 B2].
  unfold payload_parse in Ee. rewrite pie_group_id_ok in Ee by exact B1. cbn [bind] in Ee.
  destruct (_ =? _)%N eqn:EG in Ee; [|discriminate].
  unfold pie_nested, pie_nested_iter in Ee. rewrite pie_group_id_ok in Ee by exact B1. cbn [bind] in Ee. rewrite EG in Ee.
  rewrite pie_content_ok in Ee by assumption. cbn [bind it_data] in Ee.
  destruct (C21_iteration_partial (content_at code_payload_size e)) as (ns & tt & ED & HC & _ & HF). rewrite ED in Ee. cbn [bind] in Ee.
  unfold try in Ee. destruct (parse_push_break nested_parse 16 0 ns) as [r|] eqn:E3; [destruct r; discriminate|].
  apply parse_push_break_panic in E3. destruct E3 as (x & Hx & Ex).
  exists hs, hn, ps, pn, e, ns, x. split; [exact HW|]. split; [exact HW2|]. split; [exact He|]. split; [apply group_mlme; exact EG|]. split; [exact HC|]. split; [exact Hx|].
  rewrite Forall_forall in HF. destruct (HF x Hx) as [Lx Cx]. apply nested_parse_panic; assumption.
Qed.
