(** PropIe.v -- property theorems C19-C25: information element lists and descriptors.
    The specification (sizes, stop conditions, [walk], [chop]) is in SpecIe.v. In [ies_headers],
    [ies_payloads] and [pie_nested] running forever would be [Panic] (Ie.v, [drain]), so [= Done] also
    says that the iteration ends. *)
From Verif Require Import Base BaseProofs FrameControl Spec Ie SpecIe BitProofs IeProofs DescProofs.
From Coq Require Import Lia.

(** ** Helpers *)
Lemma walk_agree size1 stop1 size2 stop2 r es n : walk size1 stop1 r es n ->
  Forall (fun e => size1 e = size2 e /\ stop1 e = stop2 e) es -> walk size2 stop2 r es n.
Proof.
  induction 1 as [r H|r H Hs|r es n H Hs Hz HW IH]; intros HF; inversion HF as [|e es' [E1 E2] HF']; subst.
  - constructor; exact H.
  - rewrite E1. apply walk_last; [exact H|]. rewrite <- E1, <- E2. exact Hs.
  - rewrite E1. apply walk_next; rewrite <- ?E1, <- ?E2; auto.
Qed.

Lemma walk_count size stop r es n : (forall r, 2 <= size r) -> walk size stop r es n -> 2 * length es <= length r.
Proof.
  intros Hz. induction 1 as [r H|r H Hs|r es n H Hs Hl HW IH]; simpl in *; try lia.
  rewrite skipn_length in IH. specialize (Hz r). lia.
Qed.

Lemma code_header_size_2 r : 2 <= code_header_size r.
Proof. unfold code_header_size. lia. Qed.
Lemma code_payload_size_2 r : 2 <= code_payload_size r.
Proof. unfold code_payload_size. lia. Qed.


(** ** C19 *)
(** Full statement: the elements are those of the standard's walk and the content of each is available. *)
Definition C19_statement : Prop := forall d, octets d ->
  exists es n t, ies_headers d = Done (es, mkIt d n t) /\
    walk std_header_size std_header_stop d es n /\
    Forall (fun e => exists c, hie_content e = Done c) es.

(** Violated by the two octets of a Header Termination 2: its length is read as 128. *)
Theorem C19_ht2_refuted : ~ C19_statement.
Proof.
  intros H. destruct (H [0x80; 0x3f]%N) as (es & n & t & HD & HW & _); [repeat constructor|].
  vm_compute in HD. injection HD as <- <- <-.
  assert (HA : walk std_header_size std_header_stop [0x80; 0x3f]%N [[0x80; 0x3f]%N] 2)
    by (apply (walk_last std_header_size std_header_stop [0x80; 0x3f]%N); [simpl; lia|left; reflexivity]).
  destruct (walk_fun _ _ _ _ _ HA _ _ HW) as [_ E]. discriminate E.
Qed.
Print Assumptions C19_ht2_refuted.

(** Violated by an element that overruns the data: it is yielded and its content panics. *)
Theorem C19_overrun_refuted :
  exists d es n t, octets d /\ ies_headers d = Done (es, mkIt d n t) /\
    walk std_header_size std_header_stop d es n /\ Exists (fun e => hie_content e = Panic) es.
Proof.
  exists [0x02; 0x0f; 0x00]%N. eexists. eexists. eexists.
  split; [repeat constructor|]. split; [vm_compute; reflexivity|]. split.
  - apply (walk_last std_header_size std_header_stop [0x02; 0x0f; 0x00]%N); [simpl; lia|]. right. vm_compute. lia.
  - constructor. vm_compute. reflexivity.
Qed.
Print Assumptions C19_overrun_refuted.

(** Proved for every input: iteration ends without panicking, visits at most length/2 elements, each
    starting where the previous one ended and with [2 + (descriptor & 0xfe)] octets, and stops at a
    termination element (ids 0x7e, 0x7f), at the end of the data, or with fewer than two octets left. *)
Theorem C19_iteration_partial : forall d,
  exists es n t, ies_headers d = Done (es, mkIt d n t) /\
    walk code_header_size std_header_stop d es n /\ 2 * length es <= length d.
Proof.
  intros d. destruct (headers_walk d) as (es & n & t & HW & HD). exists es, n, t.
  split; [exact HD|]. split; [exact HW|]. apply (walk_count _ _ _ _ _ code_header_size_2 HW).
Qed.
Print Assumptions C19_iteration_partial.

Lemma even_code_header e : bit 0 (desc e) = false -> bit 7 (desc e) = false -> code_header_size e = std_header_size e.
Proof.
  intros H0 H7. unfold code_header_size, std_header_size. f_equal. f_equal.
  apply N.bits_inj. intros j. rewrite testbit_field.
  destruct (N.eq_dec j 0) as [->|Hj].
  - rewrite N.testbit_even_0. rewrite bit_testbit in H0. rewrite N.add_0_l, H0. reflexivity.
  - replace j with (N.succ (N.pred j)) at 1 by lia. rewrite N.testbit_even_succ by lia. rewrite testbit_field.
    replace (1 + N.pred j)%N with j by lia. rewrite N.add_0_l. rewrite bit_testbit in H7.
    destruct (N.ltb_spec (N.pred j) 7); destruct (N.ltb_spec j 7); simpl; try reflexivity; try lia.
    replace j with 7%N by lia. exact H7.
Qed.

(** It is the standard's walk whenever every visited descriptor has an even length and an even element id. *)
Theorem C19_standard_partial : forall d es n,
  walk std_header_size std_header_stop d es n ->
  Forall (fun e => bit 0 (desc e) = false /\ bit 7 (desc e) = false) es ->
  exists t, ies_headers d = Done (es, mkIt d n t).
Proof.
  intros d es n HW HF. destruct (headers_walk d) as (es' & n' & t & HW' & HD).
  assert (HA : walk code_header_size std_header_stop d es n).
  { apply (walk_agree _ _ _ _ _ _ _ HW). apply Forall_forall. intros e He. rewrite Forall_forall in HF.
    destruct (HF e He) as [H0 H7]. split; [symmetry; apply even_code_header; assumption|reflexivity]. }
  destruct (walk_fun _ _ _ _ _ HW' _ _ HA) as [-> ->]. exists t. exact HD.
Qed.
Print Assumptions C19_standard_partial.

(** A Time Correction element, a Header Termination 1 and octets that follow it. *)
Example C19_example : walk std_header_size std_header_stop [0x02; 0x0f; 0xe1; 0x8f; 0x00; 0x3f; 0xaa; 0xbb; 0xcc]%N
  [[0x02; 0x0f; 0xe1; 0x8f; 0x00; 0x3f; 0xaa; 0xbb; 0xcc]; [0x00; 0x3f; 0xaa; 0xbb; 0xcc]]%N 6 /\
  ies_headers [0x02; 0x0f; 0xe1; 0x8f; 0x00; 0x3f; 0xaa; 0xbb; 0xcc]%N =
  Done ([[0x02; 0x0f; 0xe1; 0x8f; 0x00; 0x3f; 0xaa; 0xbb; 0xcc]; [0x00; 0x3f; 0xaa; 0xbb; 0xcc]]%N,
    mkIt [0x02; 0x0f; 0xe1; 0x8f; 0x00; 0x3f; 0xaa; 0xbb; 0xcc]%N 6 true).
Proof.
  split; [|vm_compute; reflexivity].
  apply (walk_next std_header_size std_header_stop [0x02; 0x0f; 0xe1; 0x8f; 0x00; 0x3f; 0xaa; 0xbb; 0xcc]%N _ 2);
    [simpl; lia|reflexivity|vm_compute; lia|].
  apply (walk_last std_header_size std_header_stop [0x00; 0x3f; 0xaa; 0xbb; 0xcc]%N); [simpl; lia|left; reflexivity].
Qed.

(** Lists accepted by InformationElements::new: all contents (header and payload) are in bounds and are
    exactly the octets after the descriptor. *)
Theorem C19_contents_partial : forall d, ies_new d = Done (Ok d) ->
  exists hs hi ps pi, ies_headers d = Done (hs, hi) /\ ies_payloads d = Done (ps, pi) /\
   Forall (fun e => exists c, hie_content e = Done c /\ 2 + length c = code_header_size e /\
       firstn 2 e ++ c = firstn (code_header_size e) e) hs /\
   Forall (fun e => exists c, pie_content e = Done c /\ 2 + length c = code_payload_size e /\
       firstn 2 e ++ c = firstn (code_payload_size e) e) ps.
Proof.
  intros d H. destruct (ies_new_spec d) as (hs & hn & HW & [[_ E]|(HL & ps & pn & HP & [[_ E]|(HL2 & _ & _ & (t & HD) & t' & HD')])]);
    try (rewrite H in E; discriminate).
  exists hs, (mkIt d hn t), ps, (mkIt (skipn hn d) pn t'). split; [exact HD|]. split; [exact HD'|].
  assert (cut : forall size e, (forall r, 2 <= size r) -> 2 <= length e -> size e <= length e ->
     2 + length (content_at size e) = size e /\ firstn 2 e ++ content_at size e = firstn (size e) e).
  { intros size e Hz H1 H2. specialize (Hz e). unfold content_at. split.
    - rewrite firstn_length, skipn_length. lia.
    - transitivity (firstn (size e) (firstn 2 e ++ skipn 2 e)); [|rewrite firstn_skipn; reflexivity].
      rewrite firstn_app, firstn_length, Nat.min_l by lia. f_equal.
      rewrite firstn_firstn, Nat.min_r by lia. reflexivity. }
  split.
  - pose proof (walk_in_bounds _ _ _ _ _ code_header_size_2 HW HL) as HB. apply Forall_forall. intros e He.
    rewrite Forall_forall in HB. destruct (HB e He) as [H1 H2].
    exists (content_at code_header_size e). split; [apply hie_content_ok; assumption|].
    apply cut; [apply code_header_size_2|exact H1|exact H2].
  - assert (HL3 : pn <= length (skipn hn d)) by (rewrite skipn_length; lia).
    pose proof (walk_in_bounds _ _ _ _ _ code_payload_size_2 HP HL3) as HB. apply Forall_forall. intros e He.
    rewrite Forall_forall in HB. destruct (HB e He) as [H1 H2].
    exists (content_at code_payload_size e). split; [apply pie_content_ok; assumption|].
    apply cut; [apply code_payload_size_2|exact H1|exact H2].
Qed.
Print Assumptions C19_contents_partial.

(** ** C20: payload IEs, from the end [hn] of the header list. *)
Definition C20_statement : Prop := forall d hs hn, octets d ->
  walk code_header_size std_header_stop d hs hn -> hn <= length d ->
  exists ps pn t, ies_payloads d = Done (ps, mkIt (skipn hn d) pn t) /\
    walk std_payload_size std_payload_stop (skipn hn d) ps pn.

(** Violated: Payload Termination (group 0xf) is read as group 7 (the id is masked with 7), so the
    iteration runs on into the payload. *)
Theorem C20_termination_refuted : ~ C20_statement.
Proof.
  intros H. destruct (H [0x00; 0x3f; 0x00; 0xf8; 0x00; 0x00]%N [[0x00; 0x3f; 0x00; 0xf8; 0x00; 0x00]%N] 2) as (ps & pn & t & HD & HW).
  - repeat constructor.
  - apply (walk_last code_header_size std_header_stop [0x00; 0x3f; 0x00; 0xf8; 0x00; 0x00]%N); [simpl; lia|left; reflexivity].
  - simpl; lia.
  - vm_compute in HD. injection HD as <- <- <-. inversion HW; subst. discriminate.
Qed.
Print Assumptions C20_termination_refuted.

(** A second violation: lengths of 1024 and more are truncated to ten bits. *)
Theorem C20_length_refuted : pie_length [0x00; 0x8c]%N = Done 0 /\ std_payload_size [0x00; 0x8c]%N = 2 + 1024.
Proof. split; reflexivity. Qed.
Print Assumptions C20_length_refuted.

Theorem C20_iteration_partial : forall d hs hn,
  walk code_header_size std_header_stop d hs hn -> hn <= length d ->
  exists ps pn t, ies_payloads d = Done (ps, mkIt (skipn hn d) pn t) /\
    walk code_payload_size never (skipn hn d) ps pn /\ 2 * length ps <= length d - hn.
Proof.
  intros d hs hn HW HL. destruct (payloads_walk d hs hn HW HL) as (ps & pn & t & HP & HD).
  exists ps, pn, t. split; [exact HD|]. split; [exact HP|].
  pose proof (walk_count _ _ _ _ _ code_payload_size_2 HP) as HC. rewrite skipn_length in HC. exact HC.
Qed.
Print Assumptions C20_iteration_partial.

Lemma short_code_payload e : bit 10 (desc e) = false -> code_payload_size e = std_payload_size e.
Proof.
  intros H. unfold code_payload_size, std_payload_size. f_equal. f_equal.
  apply N.bits_inj. intros j. rewrite !testbit_field, N.add_0_l. rewrite bit_testbit in H.
  destruct (N.ltb_spec j 10); destruct (N.ltb_spec j 11); simpl; try reflexivity; try lia.
  replace j with 10%N by lia. symmetry. exact H.
Qed.

(** The standard's walk whenever no payload termination occurs and all lengths are below 1024. *)
Theorem C20_standard_partial : forall d hs hn ps pn,
  walk code_header_size std_header_stop d hs hn -> hn <= length d ->
  walk std_payload_size std_payload_stop (skipn hn d) ps pn ->
  Forall (fun e => bit 10 (desc e) = false /\ std_payload_stop e = false) ps ->
  exists t, ies_payloads d = Done (ps, mkIt (skipn hn d) pn t).
Proof.
  intros d hs hn ps pn HW HL HP HF. destruct (payloads_walk d hs hn HW HL) as (ps' & pn' & t & HP' & HD).
  assert (HA : walk code_payload_size never (skipn hn d) ps pn).
  { apply (walk_agree _ _ _ _ _ _ _ HP). apply Forall_forall. intros e He. rewrite Forall_forall in HF.
    destruct (HF e He) as [H0 H7]. split; [symmetry; apply short_code_payload; assumption|exact H7]. }
  destruct (walk_fun _ _ _ _ _ HP' _ _ HA) as [-> ->]. exists t. exact HD.
Qed.
Print Assumptions C20_standard_partial.

(** Header Termination 1 and one MLME element of 4 octets. *)
Example C20_example : ies_payloads [0x00; 0x3f; 0x04; 0x88; 0x01; 0x1c; 0x00; 0x00]%N =
  Done ([[0x04; 0x88; 0x01; 0x1c; 0x00; 0x00]]%N, mkIt [0x04; 0x88; 0x01; 0x1c; 0x00; 0x00]%N 6 true) /\
  walk std_payload_size std_payload_stop [0x04; 0x88; 0x01; 0x1c; 0x00; 0x00]%N [[0x04; 0x88; 0x01; 0x1c; 0x00; 0x00]]%N 6.
Proof.
  split; [vm_compute; reflexivity|].
  apply (walk_last std_payload_size std_payload_stop [0x04; 0x88; 0x01; 0x1c; 0x00; 0x00]%N); [simpl; lia|right; vm_compute; lia].
Qed.

(** ** C21: nested elements of an MLME payload IE. *)
Definition C21_statement : Prop := forall c, octets c ->
  exists es t, drain nie_next (ie_fuel c) (mkIt c 0 false) = Done (es, t) /\ chop std_nested_size c es.

(** Violated: the length of a short nested IE is truncated to seven bits (of a long one to ten). *)
Theorem C21_length_refuted : ~ C21_statement.
Proof.
  intros H. destruct (H [0x80; 0x1a]%N) as (es & t & HD & HC); [repeat constructor|].
  vm_compute in HD. injection HD as <- <-. inversion HC as [|r es' H1 H2 H3 HR]; subst. vm_compute in H2. lia.
Qed.
Print Assumptions C21_length_refuted.

(** For every content: iteration ends without panicking; the elements are consecutive, each cut to its
    own octets, inside the content, and their content() never panics. *)
Theorem C21_iteration_partial : forall c,
  exists es t, drain nie_next (ie_fuel c) (mkIt c 0 false) = Done (es, mkIt c (length (concat es)) t) /\
    chop code_nested_size c es /\ concat es = firstn (length (concat es)) c /\
    Forall (fun e => 2 <= length e /\ nie_content e = Done (skipn 2 e)) es.
Proof.
  intros c. destruct (drain_chop (ie_fuel c) c 0) as (es & t & HC & HD); [lia|unfold ie_fuel; lia|].
  exists es, t. split; [exact HD|]. split; [exact HC|]. split; [apply (chop_prefix _ _ _ HC)|].
  apply Forall_forall. intros e He. pose proof (chop_elems _ _ HC) as HF. rewrite Forall_forall in HF.
  destruct (HF e He) as [H1 H2]. split; [exact H1|].
  rewrite nie_content_ok by (assumption || lia). unfold content_at. rewrite H2. f_equal.
  apply firstn_all2. rewrite skipn_length. lia.
Qed.
Print Assumptions C21_iteration_partial.

Lemma desc_firstn n r : 2 <= n -> desc (firstn n r) = desc r.
Proof. intros H. destruct n as [|[|n]]; try lia. destruct r as [|a [|b r]]; reflexivity. Qed.

Lemma short_code_nested e : (if bit 15 (desc e) then bit 10 (desc e) else bit 7 (desc e)) = false ->
  code_nested_size e = std_nested_size e.
Proof.
  intros H. unfold code_nested_size, std_nested_size. f_equal. f_equal. destruct (bit 15 (desc e)).
  - apply N.bits_inj. intros j. rewrite !testbit_field, N.add_0_l. rewrite bit_testbit in H.
    destruct (N.ltb_spec j 10); destruct (N.ltb_spec j 11); simpl; try reflexivity; try lia.
    replace j with 10%N by lia. symmetry. exact H.
  - apply N.bits_inj. intros j. rewrite !testbit_field, N.add_0_l. rewrite bit_testbit in H.
    destruct (N.ltb_spec j 7); destruct (N.ltb_spec j 8); simpl; try reflexivity; try lia.
    replace j with 7%N by lia. symmetry. exact H.
Qed.

(** The standard's elements when the code's list covers the content and every element is short enough. *)
Theorem C21_standard_partial : forall c es,
  chop std_nested_size c es -> concat es = c ->
  Forall (fun e => (if bit 15 (desc e) then bit 10 (desc e) else bit 7 (desc e)) = false) es ->
  exists t, drain nie_next (ie_fuel c) (mkIt c 0 false) = Done (es, t).
Proof.
  intros c es HC HE HF. destruct (C21_iteration_partial c) as (es' & t & HD & HC' & _).
  assert (HA : chop code_nested_size c es).
  { clear HD HC' es' t. revert HE HF. induction HC as [r H|r es H1 H2 HC IH]; intros HE HF.
    - simpl in HE. subst r. constructor. left. simpl. lia.
    - pose proof (Forall_inv HF) as HB. pose proof (Forall_inv_tail HF) as HF'. assert (Hz : 2 <= std_nested_size r) by (unfold std_nested_size; lia).
      cbv beta in HB. rewrite !desc_firstn in HB by exact Hz. pose proof (short_code_nested r HB) as E.
      rewrite <- E in HE, H2, HC, IH |- *. apply chop_next; [exact H1|exact H2|]. apply IH; [|exact HF'].
      cbn [concat] in HE. apply (f_equal (skipn (code_nested_size r))) in HE.
      rewrite <- HE, skipn_app, firstn_length, Nat.min_l by exact H2. rewrite Nat.sub_diag.
      rewrite (skipn_all2 (firstn (code_nested_size r) r)) by (rewrite firstn_length; lia). reflexivity. }
  rewrite (chop_fun _ _ _ HA _ HC'). eexists. exact HD.
Qed.
Print Assumptions C21_standard_partial.

(** TSCH timeslot (short) and channel hopping (long) elements. *)
Example C21_example : pie_nested [0x06; 0x88; 0x01; 0x1c; 0x00; 0x01; 0xc8; 0x00]%N = Done [[0x01; 0x1c; 0x00]; [0x01; 0xc8; 0x00]]%N.
Proof. vm_compute. reflexivity. Qed.

(** ** C22 *)
(** new never panics; it succeeds exactly when the header walk, then the payload walk from where the
    header walk ended, stay inside the data; then len() is the total size of both lists. *)
Theorem C22_information_elements : forall d, exists hs hn,
  walk code_header_size std_header_stop d hs hn /\
  ((ies_new d = Done (Ok d) /\
     exists ps pn ti tp, walk code_payload_size never (skipn hn d) ps pn /\ hn + pn <= length d /\
      ies_len d = Done (hn + pn) /\
      ies_headers d = Done (hs, mkIt d hn ti) /\ ies_payloads d = Done (ps, mkIt (skipn hn d) pn tp)) \/
   (ies_new d = Done Err /\
     (length d < hn \/ exists ps pn, walk code_payload_size never (skipn hn d) ps pn /\ length d < hn + pn))).
Proof.
  intros d. destruct (ies_new_spec d) as (hs & hn & HW & HR). exists hs, hn. split; [exact HW|].
  destruct HR as [[HL E]|(HL & ps & pn & HP & [[HL2 E]|(HL2 & E & EL & (ti & EH) & tp & EP)])].
  - right. split; [exact E|]. left. exact HL.
  - right. split; [exact E|]. right. exists ps, pn. split; assumption.
  - left. split; [exact E|]. exists ps, pn, ti, tp. repeat (split; [assumption|]). exact EP.
Qed.
Print Assumptions C22_information_elements.

Example C22_example : ies_new [0x00; 0x3f; 0x04; 0x88; 0x01; 0x1c; 0x00; 0x00]%N = Done (Ok [0x00; 0x3f; 0x04; 0x88; 0x01; 0x1c; 0x00; 0x00]%N)
  /\ ies_len [0x00; 0x3f; 0x04; 0x88; 0x01; 0x1c; 0x00; 0x00]%N = Done 8
  /\ ies_new [0x00; 0x3f; 0x05; 0x88; 0x01; 0x1c; 0x00; 0x00]%N = Done Err.
Proof. repeat split; vm_compute; reflexivity. Qed.

(** ** C23 *)
Definition C23_roundtrip_statement : Prop := forall id len b0 b1 rest, octet b0 -> octet b1 ->
  In id known_header_ids -> (len < 128)%N ->
  exists d1 d2, hie_set_length len (b0 :: b1 :: rest) = Done d1 /\ hie_set_element_id id d1 = Done d2 /\
    hie_len d2 = Done (N.to_nat len) /\ hie_element_id d2 = Done id.
Definition C23_decode_statement : Prop := forall d, octets d -> 2 <= length d ->
  hie_len d = Done (N.to_nat (field 0 7 (desc d))) /\
  hie_element_id d = Done (read_as known_header_ids 0x80%N (field 7 8 (desc d))).

(** An odd length is stored one smaller, an odd id makes the length 128 larger. *)
Theorem C23_odd_length_refuted : ~ C23_roundtrip_statement.
Proof.
  intros H. destruct (H 0x1e 3 0 0 [] )%N as (d1 & d2 & E1 & E2 & E3 & _); [reflexivity|reflexivity|cbn; tauto|reflexivity|].
  vm_compute in E1. injection E1 as <-. vm_compute in E2. injection E2 as <-. discriminate.
Qed.
Print Assumptions C23_odd_length_refuted.
Theorem C23_odd_id_refuted : ~ (forall id len b0 b1 rest, octet b0 -> octet b1 ->
  In id known_header_ids -> (len < 128)%N -> N.even len = true ->
  exists d1 d2, hie_set_length len (b0 :: b1 :: rest) = Done d1 /\ hie_set_element_id id d1 = Done d2 /\
    hie_len d2 = Done (N.to_nat len)).
Proof.
  intros H. destruct (H 0x1b 2 0 0 [] )%N as (d1 & d2 & E1 & E2 & E3); [reflexivity|reflexivity|cbn; tauto|reflexivity|reflexivity|].
  vm_compute in E1. injection E1 as <-. vm_compute in E2. injection E2 as <-. discriminate.
Qed.
Print Assumptions C23_odd_id_refuted.
Theorem C23_decode_refuted : ~ C23_decode_statement.
Proof. intros H. destruct (H [0x01; 0x00]%N) as [E _]; [repeat constructor|simpl; lia|discriminate]. Qed.
Print Assumptions C23_decode_refuted.

(** Even ids and even lengths round-trip from any previous descriptor contents; the content is untouched. *)
Theorem C23_roundtrip_partial : forall id len b0 b1 rest, octet b0 -> octet b1 ->
  In id known_header_ids -> N.even id = true -> (len < 128)%N -> N.even len = true ->
  exists d1 d2, hie_set_length len (b0 :: b1 :: rest) = Done d1 /\ hie_set_element_id id d1 = Done d2 /\
    skipn 2 d2 = rest /\ octets (firstn 2 d2) /\
    hie_len d2 = Done (N.to_nat len) /\ hie_element_id d2 = Done id.
Proof. intros id len b0 b1 rest H0 H1 HI. apply c23_roundtrip; try assumption. apply (known_mem known_header_ids); exact HI. Qed.
Print Assumptions C23_roundtrip_partial.

(** The element id is always decoded from bits 7-14; the length is bits 1-7 times two. *)
Theorem C23_decode_partial : forall d, 2 <= length d ->
  hie_len d = Done (N.to_nat (2 * field 1 7 (desc d))) /\
  hie_element_id d = Done (read_as known_header_ids 0x80%N (field 7 8 (desc d))).
Proof. intros d H. split; [apply hie_len_ok; exact H|apply hie_element_id_ok; exact H]. Qed.
Print Assumptions C23_decode_partial.

(** Each setter on its own, from any previous contents: it writes its field and keeps every other bit and octet. *)
Theorem C23_setters_partial : forall id len b0 b1 rest, octet b0 -> octet b1 -> In id known_header_ids -> (len < 256)%N ->
  exists d1 d2, hie_set_length len (b0 :: b1 :: rest) = Done d1 /\ hie_set_element_id id (b0 :: b1 :: rest) = Done d2 /\
    keeps 1 7 (b0 :: b1 :: rest) d1 /\ field 1 7 (desc d1) = (len / 2)%N /\
    keeps 7 8 (b0 :: b1 :: rest) d2 /\ field 7 8 (desc d2) = id.
Proof. exact c23_setters. Qed.
Print Assumptions C23_setters_partial.

Example C23_example : hie_set_length 2 [0; 0; 9; 9]%N = Done [2; 0; 9; 9]%N /\
  hie_set_element_id HeTimeCorrection [2; 0; 9; 9]%N = Done [0x02; 0x0f; 9; 9]%N.
Proof. split; reflexivity. Qed.

(** ** C24 *)
Definition C24_statement : Prop := forall id len b0 b1 rest, octet b0 -> octet b1 ->
  In id known_group_ids -> (len < 2048)%N ->
  exists d1 d2, pie_set_length len (b0 :: b1 :: rest) = Done d1 /\ pie_set_group_id id d1 = Done d2 /\
    desc d2 = (len + 2048 * id + 32768)%N /\
    pie_length d2 = Done (N.to_nat len) /\ pie_group_id d2 = Done id.
Theorem C24_length_refuted : ~ C24_statement.
Proof.
  intros H. destruct (H 1 1024 0 0 [] )%N as (d1 & d2 & E1 & E2 & _ & E3 & _); [reflexivity|reflexivity|cbn; tauto|reflexivity|].
  vm_compute in E1. injection E1 as <-. vm_compute in E2. injection E2 as <-. discriminate.
Qed.
Print Assumptions C24_length_refuted.
Theorem C24_termination_refuted : ~ (forall b0 b1 rest, octet b0 -> octet b1 ->
  exists d, pie_set_group_id PgTermination (b0 :: b1 :: rest) = Done d /\ pie_group_id d = Done PgTermination).
Proof.
  intros H. destruct (H 0 0 [] )%N as (d & E1 & E2); try reflexivity.
  vm_compute in E1. injection E1 as <-. discriminate.
Qed.
Print Assumptions C24_termination_refuted.

(** the names stand for the codes of the standard (table 7-17): MLME is 1, Payload Termination is 15, also when written *)
Example C24_names : PgMlme = 1%N /\ pie_set_group_id PgTermination [0; 0]%N = Done [0; 0xf8]%N.
Proof. split; reflexivity. Qed.

Theorem C24_roundtrip_partial : forall id len b0 b1 rest, octet b0 -> octet b1 ->
  In id known_group_ids -> (id < 8)%N -> (len < 1024)%N ->
  exists d1 d2, pie_set_length len (b0 :: b1 :: rest) = Done d1 /\ pie_set_group_id id d1 = Done d2 /\
    skipn 2 d2 = rest /\ octets (firstn 2 d2) /\
    desc d2 = (len + 2048 * id + 32768)%N /\
    pie_length d2 = Done (N.to_nat len) /\ pie_group_id d2 = Done id.
Proof. intros id len b0 b1 rest H0 H1 HI. apply c24_roundtrip; try assumption. apply (known_mem known_group_ids); exact HI. Qed.
Print Assumptions C24_roundtrip_partial.
(** Each setter on its own; the full standard widths are written (only reading is too narrow). *)
Theorem C24_setters : forall id len b0 b1 rest, octet b0 -> octet b1 -> In id known_group_ids -> (len < 2048)%N ->
  exists d1 d2, pie_set_length len (b0 :: b1 :: rest) = Done d1 /\ pie_set_group_id id (b0 :: b1 :: rest) = Done d2 /\
    keeps 0 11 (b0 :: b1 :: rest) d1 /\ field 0 11 (desc d1) = len /\
    keeps 11 5 (b0 :: b1 :: rest) d2 /\ field 11 4 (desc d2) = id /\ bit 15 (desc d2) = true.
Proof. exact c24_setters. Qed.
Print Assumptions C24_setters.
(** Reading: the length is bits 0-9 (not 0-10), the group bits 11-13 (not 11-14). *)
Theorem C24_decode_partial : forall d, 2 <= length d ->
  pie_length d = Done (N.to_nat (field 0 10 (desc d))) /\
  pie_group_id d = Done (read_as known_group_ids 0x10%N (field 11 3 (desc d))).
Proof. intros d H. split; [apply pie_length_ok; exact H|apply pie_group_id_ok; exact H]. Qed.
Print Assumptions C24_decode_partial.
Example C24_example : pie_set_length 17 [0; 0; 9]%N = Done [17; 0; 9]%N /\
  pie_set_group_id PgMlme [17; 0; 9]%N = Done [17; 0x88; 9]%N.
Proof. split; reflexivity. Qed.

(** ** C25 *)
Definition C25_short_statement : Prop := forall id len b0 b1 rest, octet b0 -> octet b1 ->
  In id known_short_ids -> (len < 256)%N ->
  exists d1 d2, nie_set_length len (SubShort id) (b0 :: b1 :: rest) = Done d1 /\
    nie_set_sub_id (SubShort id) d1 = Done d2 /\
    nie_is_long d2 = Done false /\ nie_length d2 = Done (N.to_nat len) /\ nie_sub_id d2 = Done (SubShort id).
(** Violated three ways: lengths from 128, ids from 64, and a previously long descriptor. *)
Theorem C25_short_length_refuted : ~ C25_short_statement.
Proof.
  intros H. destruct (H 0x1a 128 0 0 [] )%N as (d1 & d2 & E1 & E2 & _ & E3 & _); [reflexivity|reflexivity|cbn; tauto|reflexivity|].
  vm_compute in E1. injection E1 as <-. vm_compute in E2. injection E2 as <-. discriminate.
Qed.
Print Assumptions C25_short_length_refuted.
Theorem C25_short_id_refuted : exists id d, In id known_short_ids /\
  nie_set_sub_id (SubShort id) [0; 0]%N = Done d /\ nie_sub_id d <> Done (SubShort id).
Proof. exists 0x40%N, [0; 0x40]%N. split; [cbn; tauto|]. split; [reflexivity|]. vm_compute. discriminate. Qed.
Print Assumptions C25_short_id_refuted.
Theorem C25_short_kind_refuted : nie_set_sub_id (SubShort 0x1a) [0; 0x80]%N = Done [0; 0x9a]%N /\
  nie_is_long [0; 0x9a]%N = Done true.
Proof. split; reflexivity. Qed.
Print Assumptions C25_short_kind_refuted.
(** Long: lengths from 1024 are truncated. *)
Theorem C25_long_length_refuted : exists d1 d2, nie_set_length 1024 (SubLong 9) [0; 0]%N = Done d1 /\
  nie_set_sub_id (SubLong 9) d1 = Done d2 /\ nie_length d2 = Done 0.
Proof. eexists. eexists. repeat split. Qed.
Print Assumptions C25_long_length_refuted.

Theorem C25_short_partial : forall id len b0 b1 rest, octet b0 -> octet b1 ->
  bit 15 (desc (b0 :: b1 :: rest)) = false ->
  In id known_short_ids -> (id < 64)%N -> (len < 128)%N ->
  exists d1 d2, nie_set_length len (SubShort id) (b0 :: b1 :: rest) = Done d1 /\
    nie_set_sub_id (SubShort id) d1 = Done d2 /\
    skipn 2 d2 = rest /\ octets (firstn 2 d2) /\
    desc d2 = (len + 256 * id)%N /\
    nie_is_long d2 = Done false /\ nie_length d2 = Done (N.to_nat len) /\ nie_sub_id d2 = Done (SubShort id).
Proof. intros id len b0 b1 rest H0 H1 HB HI. apply c25_short; try assumption. apply (known_mem known_short_ids); exact HI. Qed.
Print Assumptions C25_short_partial.

Theorem C25_long_partial : forall id len b0 b1 rest, octet b0 -> octet b1 ->
  In id known_long_ids -> (len < 1024)%N ->
  exists d1 d2, nie_set_length len (SubLong id) (b0 :: b1 :: rest) = Done d1 /\
    nie_set_sub_id (SubLong id) d1 = Done d2 /\
    skipn 2 d2 = rest /\ octets (firstn 2 d2) /\
    desc d2 = (len + 2048 * id + 32768)%N /\
    nie_is_long d2 = Done true /\ nie_length d2 = Done (N.to_nat len) /\ nie_sub_id d2 = Done (SubLong id).
Proof. intros id len b0 b1 rest H0 H1 HI. apply c25_long; try assumption. apply (known_mem known_long_ids); exact HI. Qed.
Print Assumptions C25_long_partial.
(** Each setter on its own; the full standard widths are written (only reading is too narrow). *)
Theorem C25_setters_short : forall id len b0 b1 rest, octet b0 -> octet b1 -> In id known_short_ids -> (len < 256)%N ->
  exists d1 d2, nie_set_length len (SubShort id) (b0 :: b1 :: rest) = Done d1 /\
    nie_set_sub_id (SubShort id) (b0 :: b1 :: rest) = Done d2 /\
    keeps 0 8 (b0 :: b1 :: rest) d1 /\ field 0 8 (desc d1) = len /\
    keeps 8 7 (b0 :: b1 :: rest) d2 /\ field 8 7 (desc d2) = id.
Proof. exact c25_setters_short. Qed.
Print Assumptions C25_setters_short.
Theorem C25_setters_long : forall id len b0 b1 rest, octet b0 -> octet b1 -> In id known_long_ids -> (len < 2048)%N ->
  exists d1 d2, nie_set_length len (SubLong id) (b0 :: b1 :: rest) = Done d1 /\
    nie_set_sub_id (SubLong id) (b0 :: b1 :: rest) = Done d2 /\
    keeps 0 11 (b0 :: b1 :: rest) d1 /\ field 0 11 (desc d1) = len /\
    keeps 11 5 (b0 :: b1 :: rest) d2 /\ field 11 4 (desc d2) = id /\ bit 15 (desc d2) = true.
Proof. exact c25_setters_long. Qed.
Print Assumptions C25_setters_long.
(** Reading: kind from bit 15; short: length bits 0-6 (not 0-7), id bits 8-13 (not 8-14); long: length bits 0-9 (not 0-10). *)
Theorem C25_decode_partial : forall d, 2 <= length d ->
  nie_is_long d = Done (bit 15 (desc d)) /\
  nie_length d = Done (N.to_nat (if bit 15 (desc d) then field 0 10 (desc d) else field 0 7 (desc d))) /\
  nie_sub_id d = Done (if bit 15 (desc d) then SubLong (read_as known_long_ids 0x0a%N (field 11 4 (desc d)))
                       else SubShort (read_as known_short_ids 0x47%N (field 8 6 (desc d)))).
Proof.
  intros d H. unfold nie_sub_id, nie_is_long. rewrite nie_length_ok, ie_raw_ok by exact H. cbn [bind]. rewrite flag_at_bit.
  split; [reflexivity|]. split; [reflexivity|].
  change 0xF%N with (N.ones 4). change 0x3F%N with (N.ones 6). rewrite !field_land. reflexivity.
Qed.
Print Assumptions C25_decode_partial.
Example C25_example : nie_set_length 6 (SubShort 0x1a) [0; 0; 9]%N = Done [6; 0; 9]%N /\
  nie_set_sub_id (SubShort 0x1a) [6; 0; 9]%N = Done [6; 0x1a; 9]%N /\
  nie_set_sub_id (SubLong 9) [1; 0; 9]%N = Done [1; 0xc8; 9]%N.
Proof. repeat split. Qed.
