(** PropSetters.v -- C88: the setters of the information element contents write their field and nothing else. *)
From Coq Require Import Lia.
From Verif Require Import Base BaseProofs FrameControl Spec SpecIe SpecIeContent Ie IeContent ReprIe IeProofs IeContentProofs ReprIeProofs SpecSetters PropIeContent.

Lemma write_changed d off bytes : off + length bytes <= length d ->
  exists d', write_at d off bytes = Done d' /\ changed_only off (length bytes) d d' /\ firstn (length bytes) (skipn off d') = bytes.
Proof.
  intros H. rewrite write_at_ok by exact H. eexists. split; [reflexivity|]. unfold changed_only.
  assert (LF : length (firstn off d) = off) by (rewrite firstn_length; lia). split; [split; [|split]|].
  - rewrite !app_length, skipn_length, LF. lia.
  - rewrite firstn_app, LF, Nat.sub_diag, firstn_O, app_nil_r, firstn_firstn, Nat.min_id. reflexivity.
  - rewrite app_assoc, skipn_app, skipn_all2 by (rewrite app_length; lia). cbn [app]. rewrite app_length, LF, Nat.sub_diag. reflexivity.
  - rewrite skipn_app, LF, Nat.sub_diag, skipn_all2 by lia. cbn [app skipn]. rewrite firstn_app, Nat.sub_diag, firstn_O, app_nil_r. apply firstn_all.
Qed.
Lemma rd_le_eq d off n : off + n <= length d -> rd_le d off n = Done (from_le (firstn n (skipn off d))).
Proof.
  intros H. unfold rd_le, slice_from, slice_to. destruct (Nat.leb_spec off (length d)); [|lia]. cbn [bind].
  destruct (Nat.leb_spec n (length (skipn off d))) as [|L]; [reflexivity|]. rewrite skipn_length in L. lia.
Qed.
Lemma rd_le_panic d off n : length d < off + n -> rd_le d off n = Panic.
Proof.
  intros H. unfold rd_le, slice_from, slice_to. destruct (Nat.leb_spec off (length d)); [|reflexivity]. cbn [bind].
  destruct (Nat.leb_spec n (length (skipn off d))) as [L|]; [|reflexivity]. rewrite skipn_length in L. lia.
Qed.
Lemma to_le_length n v : length (to_le n v) = n.
Proof. revert v. induction n as [|n IH]; intros v; [reflexivity|]. cbn. rewrite IH. reflexivity. Qed.
Lemma to_le_le n v : to_le n v = le n v.
Proof. revert v. induction n as [|n IH]; intros v; [reflexivity|]. cbn. rewrite IH. reflexivity. Qed.
(** a little-endian field *)
Lemma number_sets off n : sets (fun v d => write_at d off (to_le n v)) (fun d => rd_le d off n) off n (256 ^ N.of_nat n).
Proof.
  intros v d HV. split; intros H.
  - apply write_at_panic. rewrite to_le_length. exact H.
  - destruct (write_changed d off (to_le n v)) as (d' & E & HC & HW); [rewrite to_le_length; exact H|]. rewrite to_le_length in *.
    exists d'. split; [exact E|]. split; [|exact HC]. destruct HC as (HL & _). rewrite rd_le_eq by lia. rewrite HW, to_le_le, from_le_le by exact HV. reflexivity.
Qed.
Lemma number_gets off n : gets (fun d => rd_le d off n) off n.
Proof.
  intros d d' HL HW. destruct (Nat.le_gt_cases (off + n) (length d)) as [H|H]; [rewrite !rd_le_eq by lia; rewrite HW; reflexivity|rewrite !rd_le_panic by lia; reflexivity].
Qed.
(** an octet *)
Lemma idx_window d i : i < length d -> firstn 1 (skipn i d) = [nth i d 0%N].
Proof.
  revert i. induction d as [|x d IH]; intros i H; [cbn in H; lia|]. destruct i; [reflexivity|]. cbn [skipn nth]. apply IH. cbn in H. lia.
Qed.
Lemma octet_sets off : sets (fun v d => set_idx d off v) (fun d => idx d off) off 1 256.
Proof.
  intros v d HV. unfold set_idx. split; intros H.
  - apply write_at_panic. exact H.
  - destruct (write_changed d off [v]) as (d' & E & HC & HW); [exact H|]. exists d'. split; [exact E|]. split; [|exact HC]. destruct HC as (HL & _).
    cbn [length] in HW. rewrite idx_window in HW by lia. injection HW as HW. rewrite idx_ok by lia. rewrite HW. reflexivity.
Qed.
Lemma octet_gets off : gets (fun d => idx d off) off 1.
Proof.
  intros d d' HL HW. destruct (Nat.lt_ge_cases off (length d)) as [H|H]; [|rewrite !idx_panic by lia; reflexivity].
  rewrite !idx_window in HW by lia. injection HW as HW. rewrite !idx_ok by lia. rewrite HW. reflexivity.
Qed.
Lemma options_sets : sets link_set_options link_options 4 1 32.
Proof.
  intros v d HV. destruct (octet_sets 4 v d ltac:(lia)) as [H1 H2]. split; [exact H1|]. intros H. destruct (H2 H) as (d' & E & G & HC). exists d'. split; [exact E|].
  split; [|exact HC]. unfold link_options. rewrite G. cbn [bind]. change 0x1f%N with (N.ones 5). rewrite N.land_ones, N.mod_small by exact HV. reflexivity.
Qed.
Lemma options_gets : gets link_options 4 1.
Proof. intros d d' HL HW. unfold link_options. rewrite (octet_gets 4 d d' HL HW). reflexivity. Qed.
(** the absolute slot number *)
Lemma asn_le a : [N.land a 0xff; N.land (N.shiftr a 8) 0xff; N.land (N.shiftr a 16) 0xff; N.land (N.shiftr a 24) 0xff; N.land (N.shiftr a 32) 0xff]%N = le 5 a.
Proof.
  change 0xff%N with (N.ones 8). rewrite !N.land_ones, !N.shiftr_div_pow2. cbn [le]. rewrite !N.div_div by discriminate. reflexivity.
Qed.
Lemma asn_sets : sets sync_set_asn sync_asn 0 5 (2 ^ 40).
Proof.
  intros v d HV. split; intros H.
  - unfold sync_set_asn. destruct d as [|b0 [|b1 [|b2 [|b3 [|b4 d]]]]]; try reflexivity. cbn [length] in H. lia.
  - destruct d as [|b0 [|b1 [|b2 [|b3 [|b4 d]]]]]; cbn [length] in H; try lia. exists (le 5 v ++ d). split; [|split].
    + rewrite <- asn_le. reflexivity.
    + pose proof (from_le_le 5 v HV) as E. cbn [le app from_le] in *. unfold sync_asn. cbn [idx nth_error bind]. f_equal. rewrite !N.shiftl_mul_pow2. lia.
    + split; [reflexivity|]. split; reflexivity.
Qed.
Lemma asn_gets : gets sync_asn 0 5.
Proof.
  intros d d' HL HW. cbn [skipn] in HW.
  destruct d as [|b0 [|b1 [|b2 [|b3 [|b4 d]]]]], d' as [|c0 [|c1 [|c2 [|c3 [|c4 d']]]]]; cbn [length] in HL; try lia; cbn [firstn] in HW; try (injection HW; intros; subst; reflexivity); reflexivity.
Qed.

(** ** Disjoint fields are independent *)
Lemma skipn_skipn (A : Type) x y (l : list A) : skipn x (skipn y l) = skipn (x + y) l.
Proof.
  revert l. induction y as [|y IH]; intros l; [rewrite Nat.add_0_r; reflexivity|]. rewrite Nat.add_succ_r. destruct l as [|a l]; [apply skipn_nil|]. exact (IH l).
Qed.
Lemma window_kept off n o m (d d' : list N) : changed_only off n d d' -> o + m <= off \/ off + n <= o -> firstn m (skipn o d') = firstn m (skipn o d).
Proof.
  intros (HL & HF & HS) [H|H].
  - replace (firstn m (skipn o d')) with (skipn o (firstn (o + m) d')) by (rewrite skipn_firstn_comm; f_equal; lia).
    replace (firstn m (skipn o d)) with (skipn o (firstn (o + m) d)) by (rewrite skipn_firstn_comm; f_equal; lia).
    replace (firstn (o + m) d') with (firstn (o + m) (firstn off d')) by (rewrite firstn_firstn; f_equal; lia).
    replace (firstn (o + m) d) with (firstn (o + m) (firstn off d)) by (rewrite firstn_firstn; f_equal; lia). rewrite HF. reflexivity.
  - replace o with ((o - (off + n)) + (off + n)) by lia. rewrite <- (skipn_skipn _ (o - (off + n)) (off + n) d), <- (skipn_skipn _ (o - (off + n)) (off + n) d'), HS. reflexivity.
Qed.
Lemma disjoint set get off n bound get' o m : sets set get off n bound -> gets get' o m -> o + m <= off \/ off + n <= o -> independent set get' bound.
Proof.
  intros HS HG HD v d d' HV E. destruct (HS v d HV) as [H1 H2]. destruct (Nat.lt_ge_cases (length d) (off + n)) as [L|L]; [rewrite (H1 L) in E; discriminate|].
  destruct (H2 L) as (d2 & E2 & _ & HC). rewrite E in E2. injection E2 as <-. apply HG; [apply HC|]. eapply window_kept; eassumption.
Qed.

(** ** C88 *)
Theorem C88_synchronization :
  sets sync_set_asn sync_asn 0 5 (2 ^ 40) /\ sets sync_set_join_metric sync_join_metric 5 1 256 /\
  independent sync_set_asn sync_join_metric (2 ^ 40) /\ independent sync_set_join_metric sync_asn 256.
Proof.
  assert (JS : sets sync_set_join_metric sync_join_metric 5 1 256) by exact (octet_sets 5). assert (JG : gets sync_join_metric 5 1) by exact (octet_gets 5).
  split; [exact asn_sets|]. split; [exact JS|]. split.
  - eapply disjoint; [exact asn_sets|exact JG|lia].
  - eapply disjoint; [exact JS|exact asn_gets|lia].
Qed.
Print Assumptions C88_synchronization.

Theorem C88_link :
  sets link_set_timeslot link_timeslot 0 2 65536 /\ sets link_set_channel_offset link_channel_offset 2 2 65536 /\ sets link_set_options link_options 4 1 32 /\
  independent link_set_timeslot link_channel_offset 65536 /\ independent link_set_timeslot link_options 65536 /\
  independent link_set_channel_offset link_timeslot 65536 /\ independent link_set_channel_offset link_options 65536 /\
  independent link_set_options link_timeslot 32 /\ independent link_set_options link_channel_offset 32.
Proof.
  assert (S1 : sets link_set_timeslot link_timeslot 0 2 65536) by exact (number_sets 0 2). assert (G1 : gets link_timeslot 0 2) by exact (number_gets 0 2).
  assert (S2 : sets link_set_channel_offset link_channel_offset 2 2 65536) by exact (number_sets 2 2). assert (G2 : gets link_channel_offset 2 2) by exact (number_gets 2 2).
  assert (S3 := options_sets). assert (G3 := options_gets).
  split; [exact S1|]. split; [exact S2|]. split; [exact S3|].
  split; [eapply disjoint; [exact S1|exact G2|lia]|]. split; [eapply disjoint; [exact S1|exact G3|lia]|]. split; [eapply disjoint; [exact S2|exact G1|lia]|].
  split; [eapply disjoint; [exact S2|exact G3|lia]|]. split; [eapply disjoint; [exact S3|exact G1|lia]|eapply disjoint; [exact S3|exact G2|lia]].
Qed.
Print Assumptions C88_link.

Theorem C88_slotframe :
  sets sd_set_handle sd_handle 0 1 256 /\ sets sd_set_size sd_size 1 2 65536 /\ sets sd_set_links sd_links 3 1 256 /\
  independent sd_set_handle sd_size 256 /\ independent sd_set_handle sd_links 256 /\
  independent sd_set_size sd_handle 65536 /\ independent sd_set_size sd_links 65536 /\
  independent sd_set_links sd_handle 256 /\ independent sd_set_links sd_size 256.
Proof.
  assert (S1 : sets sd_set_handle sd_handle 0 1 256) by exact (octet_sets 0). assert (G1 : gets sd_handle 0 1) by exact (octet_gets 0).
  assert (S2 : sets sd_set_size sd_size 1 2 65536) by exact (number_sets 1 2). assert (G2 : gets sd_size 1 2) by exact (number_gets 1 2).
  assert (S3 : sets sd_set_links sd_links 3 1 256) by exact (octet_sets 3). assert (G3 : gets sd_links 3 1) by exact (octet_gets 3).
  split; [exact S1|]. split; [exact S2|]. split; [exact S3|].
  split; [eapply disjoint; [exact S1|exact G2|lia]|]. split; [eapply disjoint; [exact S1|exact G3|lia]|]. split; [eapply disjoint; [exact S2|exact G1|lia]|].
  split; [eapply disjoint; [exact S2|exact G3|lia]|]. split; [eapply disjoint; [exact S3|exact G1|lia]|eapply disjoint; [exact S3|exact G2|lia]].
Qed.
Print Assumptions C88_slotframe.

Theorem C88_single : sets sl_set_number sl_number 0 1 256 /\ sets ch_set_id ch_id 0 1 256 /\ sets ts_set_id ts_id 0 1 256.
Proof. split; [exact (octet_sets 0)|]. split; exact (octet_sets 0). Qed.
Print Assumptions C88_single.

(** All timings of a timeslot: 25 octets, or 27 if the last two do not fit 16 bits. *)
Lemma write_prefix a b off bytes a' : write_at a off bytes = Done a' -> write_at (a ++ b) off bytes = Done (a' ++ b).
Proof.
  unfold write_at. destruct (Nat.leb_spec (off + length bytes) (length a)) as [H|]; [|discriminate]. intros E. injection E as <-.
  destruct (Nat.leb_spec (off + length bytes) (length (a ++ b))) as [_|L]; [|rewrite app_length in L; lia]. rewrite firstn_app, skipn_app.
  replace (off - length a) with 0 by lia. replace (off + length bytes - length a) with 0 by lia. cbn [firstn skipn]. rewrite app_nil_r, <- !app_assoc. reflexivity.
Qed.
Lemma timings_prefix t a b a' : ts_set_timings t a = Done a' -> ts_set_timings t (a ++ b) = Done (a' ++ b).
Proof.
  unfold ts_set_timings, set_idx. intros H.
  repeat match type of H with (let* _ := write_at ?x ?o ?y in _) = _ =>
    let E := fresh "E" in destruct (write_at x o y) eqn:E; [|discriminate H]; rewrite (write_prefix _ b _ _ _ E); clear E; cbn [bind] in *
  end.
  destruct (tt_long t).
  - match type of H with (let* _ := write_at ?x ?o ?y in _) = _ =>
      let E := fresh "E" in destruct (write_at x o y) eqn:E; [|discriminate H]; rewrite (write_prefix _ b _ _ _ E); clear E; cbn [bind] in * end. apply write_prefix. exact H.
  - match type of H with (let* _ := write_at ?x ?o ?y in _) = _ =>
      let E := fresh "E" in destruct (write_at x o y) eqn:E; [|discriminate H]; rewrite (write_prefix _ b _ _ _ E); clear E; cbn [bind] in * end. apply write_prefix. exact H.
Qed.
(** For every timings, in range or not: values that do not fit are cut to their low-order octets ([timings_octets]). *)
Theorem C88_timings : forall t d, length (timings_octets t) <= length d ->
  exists d', ts_set_timings t d = Done d' /\ d' = timings_octets t ++ skipn (length (timings_octets t)) d /\
    changed_only 0 (length (timings_octets t)) d d'.
Proof.
  intros t d HL. set (n := length (timings_octets t)) in *. exists (timings_octets t ++ skipn n d). split; [|split; [reflexivity|]].
  - assert (E : ts_set_timings t (firstn n d ++ skipn n d) = Done (timings_octets t ++ skipn n d)).
    { apply timings_prefix. assert (HN : length (firstn n d) = n) by (rewrite firstn_length; lia). unfold n in HN at 2. rewrite timings_octets_length in HN.
      rewrite timings_octets_eq. destruct (tt_long t) eqn:EL; [apply ts_set_long|apply ts_set_short]; assumption. }
    rewrite firstn_skipn in E. exact E.
  - split; [rewrite app_length, skipn_length; fold n; lia|]. split; [reflexivity|]. cbn [Nat.add]. rewrite skipn_app, skipn_all2 by (fold n; lia). fold n. rewrite Nat.sub_diag. reflexivity.
Qed.
Print Assumptions C88_timings.
Theorem C88_timings_panic : forall t d, length d < length (timings_octets t) -> ts_set_timings t d = Panic.
Proof.
  intros t d HL. rewrite timings_octets_length in HL. unfold ts_set_timings. cbv zeta.
  unfold set_idx at 1. destruct (write_at d 0 [tt_id t]) as [d1|] eqn:E; [cbn [bind]|reflexivity]. rewrite <- (write_at_length _ _ _ _ E) in HL. clear E.
  do 10 (match goal with H : length ?x < _ |- (let* d := write_at ?x ?o ?y in _) = Panic =>
    let E := fresh "E" in let w := fresh "w" in destruct (write_at x o y) as [w|] eqn:E; [cbn [bind]|reflexivity]; rewrite <- (write_at_length _ _ _ _ E) in H; clear E end).
  destruct (tt_long t).
  - match goal with |- (let* d := write_at ?x ?o ?y in _) = Panic => destruct (write_at x o y) as [wz|] eqn:E; [cbn [bind]|reflexivity] end.
    rewrite <- (write_at_length _ _ _ _ E) in HL. apply write_at_panic. change (length (firstn 3 (to_le 4 (as_u32 (tt_timeslot_length t))))) with 3. lia.
  - match goal with |- (let* d := write_at ?x ?o ?y in _) = Panic => destruct (write_at x o y) as [wz|] eqn:E; [cbn [bind]|reflexivity] end.
    rewrite <- (write_at_length _ _ _ _ E) in HL. apply write_at_panic. rewrite to_le_length. lia.
Qed.
Print Assumptions C88_timings_panic.

(** A case: a link's channel offset is written into a used buffer. *)
Example C88_case : link_set_channel_offset 0x0102 [1; 2; 3; 4; 0x1f; 9]%N = Done [1; 2; 2; 1; 0x1f; 9]%N /\
  link_options [1; 2; 2; 1; 0x1f; 9]%N = Done 0x1f%N /\ link_timeslot [1; 2; 2; 1; 0x1f; 9]%N = Done 0x0201%N.
Proof. repeat split; reflexivity. Qed.
