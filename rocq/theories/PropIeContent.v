(** PropIeContent.v -- C26-C29 and C37: contents of the information elements, and the terminations.
    Definitions used in the statements: SpecIe.v, SpecIeContent.v and the model IeContent.v, ReprIe.v. *)
From Verif Require Import Base BaseProofs FrameControl Spec SpecIe SpecIeContent Ie IeContent ReprIe IeProofs IeContentProofs SlotframeProofs ReprIeProofs IesProofs.

(** ** C26 time correction *)
(** every content decodes to the sign-extended low 12 bits and bit 15 *)
Theorem C26_decode : forall d, octets d -> 2 <= length d ->
  tc_new d = Ok d /\
  tc_time_correction d = Done (signed12 (field 0 12 (desc d))) /\ tc_nack d = Done (bit 15 (desc d)).
Proof.
  intros d HO HL. split; [|apply tc_read; assumption]. unfold tc_new. destruct (Nat.leb_spec 2 (length d)); [reflexivity|lia].
Qed.
Print Assumptions C26_decode.
Example C26_decode_ex : tc_time_correction [0xff; 0x8f]%N = Done (-1)%Z /\ tc_nack [0xff; 0x8f]%N = Done true.
Proof. split; reflexivity. Qed.

(** the setters in either order *)
Definition C26_statement : Prop := forall us nack b0 b1, octet b0 -> octet b1 -> (-2048 <= us <= 2047)%Z ->
  (exists d d', tc_set_time_correction us [b0; b1] = Done d /\ tc_set_nack nack d = Done d' /\
     tc_time_correction d' = Done us /\ tc_nack d' = Done nack) /\
  (exists d d', tc_set_nack nack [b0; b1] = Done d /\ tc_set_time_correction us d = Done d' /\
     tc_time_correction d' = Done us /\ tc_nack d' = Done nack).
(** setting the time correction clears the NACK flag *)
Theorem C26_order_refuted : ~ C26_statement.
Proof.
  intros H. destruct (H 5%Z true 0%N 0%N) as [_ (d & d' & E1 & E2 & _ & E4)]; [reflexivity|reflexivity|lia|].
  vm_compute in E1. injection E1 as <-. vm_compute in E2. injection E2 as <-. vm_compute in E4. discriminate.
Qed.
Print Assumptions C26_order_refuted.
(** time correction first (the order the code itself uses) works, for every initial content *)
Theorem C26_roundtrip_partial : forall us nack b0 b1 rest, (-2048 <= us <= 2047)%Z ->
  exists d d', tc_set_time_correction us (b0 :: b1 :: rest) = Done d /\ tc_set_nack nack d = Done d' /\
    d' = time_correction_octets us nack ++ rest /\
    tc_time_correction (firstn 2 d') = Done us /\ tc_nack (firstn 2 d') = Done nack.
Proof.
  intros us nack b0 b1 rest Hus. pose proof (tc_emit us nack b0 b1 rest) as E.
  destruct (tc_set_time_correction us (b0 :: b1 :: rest)) as [d|] eqn:E1; [|discriminate]. cbn [bind] in E.
  exists d, (time_correction_octets us nack ++ rest). split; [reflexivity|]. split; [exact E|]. split; [reflexivity|].
  rewrite firstn_app_exact by reflexivity. destruct (tc_read_octets us nack) as [-> ->].
  rewrite signed12_mod by exact Hus. split; reflexivity.
Qed.
(** Each setter on its own, from any contents: [set_nack] writes bit 15 and keeps everything else, and
    [set_time_correction] overwrites both octets (it clears the NACK flag and the reserved bits) *)
Theorem C26_setters_partial : forall us nack b0 b1 rest, octet b0 -> octet b1 ->
  exists d d', tc_set_nack nack (b0 :: b1 :: rest) = Done d /\ keeps 15 1 (b0 :: b1 :: rest) d /\
    bit 15 (desc d) = nack /\
    tc_set_time_correction us (b0 :: b1 :: rest) = Done d' /\ d' = le 2 (Z.to_N (us mod 4096)) ++ rest.
Proof. exact tc_setters. Qed.
Print Assumptions C26_setters_partial.
(** the whole Time Correction header IE: emit, then parse *)
Theorem C26_ie_partial : forall us nack b rest, length b = 4 -> (-2048 <= us <= 2047)%Z ->
  header_emit (HTimeCorrection us nack) b = Done (header_octets (HTimeCorrection us nack)) /\
  header_parse (header_octets (HTimeCorrection us nack) ++ rest) = Done (Ok (HTimeCorrection us nack)).
Proof. intros us nack b rest Hb Hus. split; [apply header_emit_ok; exact Hb|apply header_parse_octets; exact Hus]. Qed.
Print Assumptions C26_ie_partial.
Example C26_ie_ex : header_octets (HTimeCorrection (-31) true) = [0x02; 0x0f; 0xe1; 0x8f]%N.
Proof. reflexivity. Qed.
Print Assumptions C26_roundtrip_partial.

(** ** C27 TSCH synchronization *)
Theorem C27_sync : forall asn jm b0 b1 b2 b3 b4 b5 rest, (asn < 2 ^ 40)%N -> octet jm ->
  exists d d', sync_set_asn asn (b0 :: b1 :: b2 :: b3 :: b4 :: b5 :: rest) = Done d /\
    sync_set_join_metric jm d = Done d' /\
    d' = sync_octets asn jm ++ rest /\ length (sync_octets asn jm) = 6 /\
    sync_new d' = Ok d' /\ sync_asn d' = Done asn /\ sync_join_metric d' = Done jm.
Proof.
  intros asn jm b0 b1 b2 b3 b4 b5 rest HA HJ. pose proof (sync_emit asn jm b0 b1 b2 b3 b4 b5 rest) as E.
  destruct (sync_set_asn asn _) as [d|]; [|discriminate]. cbn [bind] in E.
  exists d, (sync_octets asn jm ++ rest). split; [reflexivity|]. split; [exact E|]. split; [reflexivity|].
  split; [reflexivity|]. split; [reflexivity|]. apply sync_read. exact HA.
Qed.
(** a whole TSCH Synchronization nested IE *)
Theorem C27_ie : forall asn jm b, (asn < 2 ^ 40)%N -> octet jm -> length b = 8 ->
  nested_emit (NTschSync asn jm) b = Done ([0x06; 0x1a]%N ++ sync_octets asn jm) /\
  nested_parse ([0x06; 0x1a]%N ++ sync_octets asn jm) = Done (Ok (NTschSync asn jm)).
Proof.
  intros asn jm b HA HJ Hb. change ([0x06; 0x1a]%N ++ sync_octets asn jm) with (nested_octets (NTschSync asn jm)).
  assert (HT : nested_typed (NTschSync asn jm)).
  { split; [|exact HJ]. eapply N.lt_trans; [exact HA|]. reflexivity. }
  split; [apply nested_emit_ok; [exact HT|exact Hb]|apply nested_parse_octets; [exact HT|exact HA]].
Qed.
Example C27_ex : sync_octets 0x0102030405 7 = [5; 4; 3; 2; 1; 7]%N.
Proof. reflexivity. Qed.
Print Assumptions C27_sync.
Print Assumptions C27_ie.

(** ** C28 TSCH timeslot *)
Definition C28_roundtrip_statement : Prop := forall t b, timings_fit t ->
  length b = length (timings_octets t) ->
  ts_set_timings t b = Done (timings_octets t) /\ ts_timings (timings_octets t) = Done t.
(** custom timings written with timeslot id 0 are read back as the default ones *)
Theorem C28_id0_refuted : ~ C28_roundtrip_statement.
Proof.
  intros H. destruct (H (mkTimings 0 1 1 1 1 1 1 1 1 1 1 1 1) (repeat 0%N 25)) as [_ K].
  - split; [reflexivity|]. split; [|split; unfold fits24; simpl; lia].
    repeat (apply Forall_cons; [unfold fits16; simpl; lia|]). constructor.
  - reflexivity.
  - vm_compute in K. discriminate.
Qed.
Print Assumptions C28_id0_refuted.
Definition C28_safety_statement : Prop := forall d, octets d -> ts_new d = Done (Ok d) -> ts_timings d <> Panic.
(** 26 octets are accepted although the 24-bit form needs 27 *)
Theorem C28_safety_refuted : ~ C28_safety_statement.
Proof.
  intros H. apply (H (1%N :: repeat 0%N 25)); [|reflexivity|reflexivity].
  apply Forall_forall. intros x Hx. destruct Hx as [<-|Hx]; [reflexivity|]. apply repeat_spec in Hx. subst x. reflexivity.
Qed.
Print Assumptions C28_safety_refuted.
(** ... and that is the only panic: [new] never panics, and an accepted IE panics exactly in that case *)
Theorem C28_safety_partial : forall d,
  ts_new d <> Panic /\
  (ts_new d = Done (Ok d) ->
     (exists v, ts_id d = Done v) /\ (ts_timings d = Panic <-> nth 0 d 0%N <> 0%N /\ length d = 26)).
Proof.
  intros d. split.
  - unfold ts_new, ts_id. destruct (Nat.ltb_spec (length d) 1); [discriminate|]. rewrite idx_ok by lia. cbn [bind].
    destruct (_ =? _)%N; discriminate.
  - intros H. split; [|apply ts_timings_panic_iff; exact H]. unfold ts_new, ts_id in *.
    destruct (Nat.ltb_spec (length d) 1); [discriminate|]. rewrite idx_ok by lia. eexists. reflexivity.
Qed.
(** what is read from arbitrary accepted contents *)
Theorem C28_decode_partial : forall d, ts_new d = Done (Ok d) -> ~ (nth 0 d 0%N <> 0%N /\ length d = 26) ->
  ts_id d = Done (nth 0 d 0%N) /\ ts_timings d = Done (timings_at d).
Proof.
  intros d HN HB. split; [|apply ts_timings_at; assumption]. unfold ts_new, ts_id in *.
  destruct (Nat.ltb_spec (length d) 1); [discriminate|]. apply idx_ok. lia.
Qed.
Print Assumptions C28_decode_partial.
(** which contents are accepted: at least one octet, and 25 when the id is not zero *)
Theorem C28_accepts : forall d,
  ts_new d = Done (if (1 <=? length d) && ((nth 0 d 0 =? 0)%N || (25 <=? length d)) then Ok d else Err).
Proof.
  intros d. unfold ts_new, ts_id. destruct (Nat.ltb_spec (length d) 1); destruct (Nat.leb_spec 1 (length d)); try lia; [reflexivity|].
  rewrite idx_ok by lia. cbn [bind andb]. destruct (nth 0 d 0 =? 0)%N; cbn [orb]; [reflexivity|]. destruct (25 <=? length d); reflexivity.
Qed.
Print Assumptions C28_accepts.
Theorem C28_roundtrip_partial : forall t b, timings_fit t -> tt_id t <> 0%N ->
  length b = length (timings_octets t) ->
  ts_set_timings t b = Done (timings_octets t) /\
  ts_new (timings_octets t) = Done (Ok (timings_octets t)) /\
  ts_timings (timings_octets t) = Done t.
Proof.
  intros t b HF HI HL. rewrite timings_octets_length in HL. split; [|split].
  - rewrite timings_octets_eq. destruct (tt_long t) eqn:E; [apply ts_set_long|apply ts_set_short]; assumption.
  - unfold ts_new. rewrite timings_octets_length. apply N.eqb_neq in HI.
    replace (ts_id (timings_octets t)) with (Done (tt_id t)) by reflexivity. cbn [bind]. rewrite HI.
    destruct (tt_long t); reflexivity.
  - rewrite timings_octets_eq. apply ts_roundtrip; assumption.
Qed.
(** the default timings, under a non-zero id *)
Example C28_ex : timings_fit (timings_new 1 2200) /\
  length (timings_octets (timings_new 1 2200)) = 25 /\
  firstn 5 (timings_octets (timings_new 1 2200)) = [1; 0x08; 0x07; 0x80; 0]%N.
Proof.
  split; [|split; reflexivity]. split; [reflexivity|]. split; [|split; unfold fits24; simpl; lia].
  repeat (apply Forall_cons; [unfold fits16; vm_compute; split; [discriminate|reflexivity]|]). constructor.
Qed.
(** the 24-bit form *)
Example C28_long_ex : length (timings_octets (mkTimings 1 1 1 1 1 1 1 1 1 1 1 1 100000)) = 27.
Proof. reflexivity. Qed.
Print Assumptions C28_roundtrip_partial.
Print Assumptions C28_safety_partial.

(** ** C29 TSCH slotframe and link *)
Definition C29_safety_statement : Prop := forall d ds, octets d -> sl_new d = Done (Ok d) -> sl_descriptors d = Done ds ->
  forall e ls l, In e ds -> sd_link_informations e = Done ls -> In l ls -> link_timeslot l <> Panic.
Definition C29_roundtrip_statement : Prop := forall l b, length l <= 3 -> Forall slotframe_typed l ->
  length b = length (slotframes_octets l) ->
  slotframes_emit l b = Done (slotframes_octets l) /\ slotframes_parse (slotframes_octets l) = Done (Ok l).
(** a slotframe without links yields one bogus, empty link, whose accessors panic *)
Theorem C29_safety_refuted : ~ C29_safety_statement.
Proof.
  intros H. apply (H [1; 0; 0; 0; 0]%N [[0; 0; 0; 0]%N]) with (e := [0; 0; 0; 0]%N) (ls := [[]]) (l := []); try reflexivity.
  - repeat constructor.
  - left. reflexivity.
  - left. reflexivity.
Qed.
Print Assumptions C29_safety_refuted.
Theorem C29_roundtrip_refuted : ~ C29_roundtrip_statement.
Proof.
  intros H. destruct (H [mkSfR 0 0 []] [0; 0; 0; 0; 0]%N) as [_ K].
  - simpl. lia.
  - repeat constructor.
  - reflexivity.
  - vm_compute in K. discriminate.
Qed.
Print Assumptions C29_roundtrip_refuted.
(** the rest of the claim: iteration is in bounds; descriptors are consecutive, and the links of a
    descriptor that declares some are exactly its consecutive 5-octet records, with all accessors defined *)
Theorem C29_safety_partial : forall d,
  sl_new d = Done (if 1 <=? length d then Ok d else Err) /\
  (1 <= length d -> exists ds,
     descriptors (N.to_nat (nth 0 d 0%N)) (skipn 1 d) ds /\ sl_descriptors d = Done ds /\
     sl_len d = Done (1 + list_sum (map slotframe_size ds)) /\ 1 + list_sum (map slotframe_size ds) <= length d /\
     sl_content d = Done (firstn (list_sum (map slotframe_size ds)) (skipn 1 d)) /\
     forall e, In e ds ->
       sd_handle e = Done (nth 0 e 0%N) /\ sd_size e = Done (from_le (firstn 2 (skipn 1 e))) /\ sd_links e = Done (nth 3 e 0%N) /\
       let n := N.to_nat (nth 3 e 0%N) in
       (n <> 0 -> exists ls, sd_link_informations e = Done ls /\ length ls = n /\
          forall i, i < n -> let l := nth i ls [] in
            firstn 5 l = firstn 5 (skipn (4 + 5 * i) e) /\ length (firstn 5 l) = 5 /\
            link_timeslot l = Done (from_le (firstn 2 l)) /\
            link_channel_offset l = Done (from_le (firstn 2 (skipn 2 l))) /\
            link_options l = Done (N.land (nth 4 l 0) 0x1f)%N)).
Proof.
  intros d. split; [apply sl_new_spec|]. intros H1. destruct (sl_descriptors_spec d H1) as (ds & HD & ED).
  exists ds. split; [exact HD|]. split; [exact ED|].
  destruct (descriptors_sum _ _ _ HD) as (m & Em & Lm & Sm & _).
  split; [unfold sl_len; rewrite ED; cbn [bind]; rewrite Em, Sm; reflexivity|].
  split; [rewrite skipn_length in Lm; lia|].
  split. { unfold sl_content, sl_len. rewrite ED. cbn [bind]. rewrite Em, Sm. cbn [bind]. rewrite skipn_length in Lm.
           rewrite slice_ok by lia. do 2 f_equal. lia. }
  intros e He. pose proof (descriptors_elems _ _ _ HD) as HE. rewrite Forall_forall in HE. destruct (HE e He) as [L4 LZ].
  split; [unfold sd_handle; apply idx_ok; lia|].
  split; [unfold sd_size, rd_le; rewrite slice_from_ok by lia; cbn [bind]; rewrite slice_to_ok by (rewrite skipn_length; lia); reflexivity|].
  split; [apply sd_links_ok; exact L4|].
  intros n Hn. pose proof (sd_link_informations_ok e L4 LZ) as EL. fold n in EL. cbv zeta in EL.
  eexists. split; [apply EL; unfold n in Hn; lia|]. split; [rewrite map_length, seq_length; reflexivity|].
  intros i Hi. cbv zeta.
  rewrite (nth_indep _ [] (skipn (5 * 0) (firstn (5 * n) (skipn 4 e)))) by (rewrite map_length, seq_length; exact Hi).
  rewrite (map_nth (fun i => skipn (5 * i) (firstn (5 * n) (skipn 4 e)))), seq_nth by exact Hi. rewrite Nat.add_0_l.
  unfold slotframe_size in LZ. fold n in LZ.
  set (t := firstn (5 * n) (skipn 4 e)).
  assert (Lt : length t = 5 * n) by (unfold t; rewrite firstn_length, skipn_length; lia).
  assert (Ll : 5 <= length (skipn (5 * i) t)) by (rewrite skipn_length, Lt; lia).
  assert (EQ : firstn 5 (skipn (5 * i) t) = firstn 5 (skipn (4 + 5 * i) e)).
  { unfold t. rewrite skipn_firstn_comm, firstn_firstn, Nat.min_l by lia. rewrite AddressingProofs.skipn_skipn'. reflexivity. }
  split; [exact EQ|]. split; [rewrite firstn_length; lia|].
  unfold link_timeslot, link_channel_offset, link_options, rd_le.
  rewrite !slice_from_ok by lia. cbn [bind]. rewrite !slice_to_ok by (rewrite ?skipn_length; lia). rewrite idx_ok by lia.
  split; [reflexivity|]. split; reflexivity.
Qed.
Theorem C29_roundtrip_partial : forall l b, length l <= 3 -> Forall slotframe_typed l -> Forall (fun s => sr_links s <> []) l ->
  length b = length (slotframes_octets l) ->
  slotframes_emit l b = Done (slotframes_octets l) /\
  sl_new (slotframes_octets l) = Done (Ok (slotframes_octets l)) /\
  slotframes_parse (slotframes_octets l) = Done (Ok l).
Proof.
  intros l b HL HT HN Hb. rewrite slotframes_octets_length in Hb. split; [|apply slotframes_parse_octets; assumption].
  apply slotframes_emit_ok; [lia| |exact Hb]. eapply Forall_impl; [|exact HT]. intros s (_ & _ & H & _). lia.
Qed.
Example C29_ex : Forall slotframe_typed [mkSfR 1 101 [mkLinkR 0 3 0x0f; mkLinkR 5 0 1]] /\
  slotframes_octets [mkSfR 1 101 [mkLinkR 0 3 0x0f; mkLinkR 5 0 1]] = [1; 1; 101; 0; 2; 0; 0; 3; 0; 0x0f; 5; 0; 0; 0; 1]%N.
Proof. split; [|reflexivity]. repeat constructor; simpl; lia. Qed.
Print Assumptions C29_safety_partial.
Print Assumptions C29_roundtrip_partial.

(** ** C37 terminations *)
Definition C37_statement : Prop := forall r data b, ies_typed r -> ~ In PTermination (ir_payload r) ->
  length b = length (ies_octets r data) -> ies_emit r data b = Done (ies_octets r data).
(** payload IEs followed by data: emitting the payload termination panics (todo!()) *)
Theorem C37_payload_termination_refuted : ~ C37_statement.
Proof.
  intros H. specialize (H (mkIes [] [PMlme []]) true [0; 0; 0; 0; 0; 0]%N).
  assert (K : ies_emit (mkIes [] [PMlme []]) true [0; 0; 0; 0; 0; 0]%N = Panic) by reflexivity.
  rewrite K in H. discriminate H.
  - repeat split; simpl; try lia. constructor; [split; [simpl; lia|constructor]|constructor].
  - intros [H0|H0]; [discriminate|exact H0].
  - reflexivity.
Qed.
Print Assumptions C37_payload_termination_refuted.
(** in every other case the terminations are exactly those of the standard, and the length is the declared one *)
Theorem C37_terminations_partial : forall r data b, ies_typed r -> ~ In PTermination (ir_payload r) ->
  (ir_payload r = [] \/ data = false) ->
  length b = length (ies_octets r data) ->
  ies_buffer_len r data = length b /\ ies_emit r data b = Done (ies_octets r data).
Proof.
  intros r data b HT HN HD HL. rewrite ies_octets_length in HL. split; [symmetry; exact HL|].
  apply ies_emit_ok; try assumption. destruct HD as [-> | ->]; [reflexivity|apply andb_false_r].
Qed.
(** and it panics in all the excluded cases *)
Theorem C37_panic : forall r data b, In PTermination (ir_payload r) \/ (ir_payload r <> [] /\ data = true) ->
  ies_emit r data b = Panic.
Proof.
  intros r data b [H|[H ->]]; apply ies_emit_panic; [left; exact H|right]. destruct (ir_payload r); [congruence|reflexivity].
Qed.
Example C37_ex : ies_octets (mkIes [HTimeCorrection 1 false] [PMlme [NChannelHopping 0]]) false =
  ([0x02; 0x0f; 0x01; 0x00] ++ [0x00; 0x3f] ++ [0x03; 0x88; 0x01; 0xc8; 0x00])%N.
Proof. reflexivity. Qed.
Example C37_ht2_ex : ies_octets (mkIes [HTimeCorrection 1 false] []) true = ([0x02; 0x0f; 0x01; 0x00] ++ [0x80; 0x3f])%N.
Proof. reflexivity. Qed.
Print Assumptions C37_terminations_partial.
Print Assumptions C37_panic.
