(** IeProofs.v -- proofs for C19-C22. *)
From Verif Require Import Base BaseProofs Spec SpecFrame BitProofs FrameControl Ie SpecIe AddressingProofs.
From Coq Require Import ZifyBool ZifyNat ZifyN.

Lemma ie_raw_ok d : 2 <= length d -> ie_raw d = Done (desc d).
Proof.
  intros H. unfold ie_raw. rewrite slice_ok by lia. cbn [bind skipn].
  destruct d as [|b0 [|b1 r]]; simpl in H; try lia.
  simpl. unfold desc. simpl. f_equal. lia.
Qed.

Lemma ie_raw_panic d : length d < 2 -> ie_raw d = Panic.
Proof. intros H. unfold ie_raw. rewrite slice_panic by lia. reflexivity. Qed.

Lemma land_fe x : N.land x 0xFE = (2 * field 1 7 x)%N.
Proof.
  apply N.bits_inj. intros j. rewrite N.land_spec.
  destruct (N.eq_dec j 0) as [->|Hj].
  - rewrite N.testbit_even_0. apply andb_false_r.
  - replace j with (N.succ (N.pred j)) by lia. rewrite N.testbit_even_succ by lia.
    rewrite testbit_field. replace (1 + N.pred j)%N with (N.succ (N.pred j)) by lia.
    rewrite andb_comm. f_equal.
    replace 0xFE%N with (2 * N.ones 7)%N by reflexivity. rewrite N.testbit_even_succ by lia.
    destruct (N.ltb_spec (N.pred j) 7); [apply N.ones_spec_low|apply N.ones_spec_high]; lia.
Qed.

Lemma hie_len_ok d : 2 <= length d -> hie_len d = Done (N.to_nat (2 * field 1 7 (desc d))).
Proof. intros H. unfold hie_len. rewrite ie_raw_ok by exact H. cbn [bind]. rewrite land_fe. reflexivity. Qed.

Lemma land_field0 n x : N.land x (N.ones n) = field 0 n x.
Proof. rewrite <- field_land, N.shiftr_0_r. reflexivity. Qed.

Lemma pie_length_ok d : 2 <= length d -> pie_length d = Done (N.to_nat (field 0 10 (desc d))).
Proof.
  intros H. unfold pie_length. rewrite ie_raw_ok by exact H. cbn [bind].
  change 0x3FF%N with (N.ones 10). rewrite land_field0. reflexivity.
Qed.

Lemma nie_length_ok d : 2 <= length d ->
  nie_length d = Done (N.to_nat (if bit 15 (desc d) then field 0 10 (desc d) else field 0 7 (desc d))).
Proof.
  intros H. unfold nie_length, nie_is_long. rewrite ie_raw_ok by exact H. cbn [bind].
  rewrite flag_at_bit. change 0x3FF%N with (N.ones 10). change 0x7F%N with (N.ones 7).
  rewrite !land_field0. reflexivity.
Qed.

Lemma HeaderElementId_from_eq v : (v < 256)%N ->
  ((HeaderElementId_from v =? HeTermination1)%N || (HeaderElementId_from v =? HeTermination2)%N) =
  ((v =? 0x7e)%N || (v =? 0x7f)%N).
Proof.
  intros H. apply eqb_prop.
  apply (sweep 256 (fun v => eqb ((HeaderElementId_from v =? HeTermination1)%N || (HeaderElementId_from v =? HeTermination2)%N)
     ((v =? 0x7e)%N || (v =? 0x7f)%N))); [vm_compute; reflexivity|exact H].
Qed.

Lemma hie_element_id_ok d : 2 <= length d ->
  hie_element_id d = Done (HeaderElementId_from (field 7 8 (desc d))).
Proof.
  intros H. unfold hie_element_id. rewrite ie_raw_ok by exact H. cbn [bind].
  change 0xFF%N with (N.ones 8). rewrite field_land. reflexivity.
Qed.

Lemma pie_group_id_ok d : 2 <= length d ->
  pie_group_id d = Done (PayloadGroupId_from (field 11 3 (desc d))).
Proof.
  intros H. unfold pie_group_id. rewrite ie_raw_ok by exact H. cbn [bind].
  change 7%N with (N.ones 3). rewrite field_land. reflexivity.
Qed.

Lemma PayloadGroupId_never_termination v : (v < 8)%N -> (PayloadGroupId_from v =? PgTermination)%N = false.
Proof.
  intros H. apply negb_true_iff.
  apply (sweep 8 (fun v => negb (PayloadGroupId_from v =? PgTermination)%N)); [vm_compute; reflexivity|exact H].
Qed.

(** ** Steps of the iterators *)
Lemma hie_next_term d off : hie_next (mkIt d off true) = Done (None, mkIt d off true).
Proof. reflexivity. Qed.
Lemma pie_next_term d off : pie_next (mkIt d off true) = Done (None, mkIt d off true).
Proof. reflexivity. Qed.

Lemma hie_next_short d off : off <= length d -> length (skipn off d) < 2 ->
  hie_next (mkIt d off false) = Done (None, mkIt d off false).
Proof.
  intros H1 H2. unfold hie_next. cbn [it_terminated it_data it_offset]. rewrite slice_from_ok by exact H1. cbn [bind].
  unfold hie_new. destruct (Nat.leb_spec 2 (length (skipn off d))); [lia|]. reflexivity.
Qed.

Lemma hie_next_elem d off : off <= length d -> 2 <= length (skipn off d) ->
  let r := skipn off d in
  hie_next (mkIt d off false) =
  Done (Some r, mkIt d (off + code_header_size r)
     ((length d <=? off + code_header_size r) || std_header_stop r)).
Proof.
  intros H1 H2 r. unfold hie_next. cbn [it_terminated it_data it_offset]. rewrite slice_from_ok by exact H1. cbn [bind].
  fold r. fold r in H2. unfold hie_new. destruct (Nat.leb_spec 2 (length r)); [|lia].
  rewrite hie_element_id_ok, hie_len_ok by exact H2. cbn [bind].
  rewrite HeaderElementId_from_eq by apply field_lt.
  unfold code_header_size, std_header_stop.
  replace (off + (N.to_nat (2 * field 1 7 (desc r)) + 2)) with (off + (2 + N.to_nat (2 * field 1 7 (desc r)))) by lia.
  destruct (length d <=? _); reflexivity.
Qed.

Lemma pie_next_short d off : off <= length d -> length (skipn off d) < 2 ->
  pie_next (mkIt d off false) = Done (None, mkIt d off true).
Proof.
  intros H1 H2. unfold pie_next. cbn [it_terminated it_data it_offset]. rewrite slice_from_ok by exact H1. cbn [bind].
  unfold pie_new. destruct (Nat.leb_spec 2 (length (skipn off d))); [lia|]. reflexivity.
Qed.

Lemma pie_next_elem d off : off <= length d -> 2 <= length (skipn off d) ->
  let r := skipn off d in
  pie_next (mkIt d off false) =
  Done (Some r, mkIt d (off + code_payload_size r)
     ((length d <=? off + code_payload_size r) || never r)).
Proof.
  intros H1 H2 r. unfold pie_next. cbn [it_terminated it_data it_offset]. rewrite slice_from_ok by exact H1. cbn [bind].
  fold r. fold r in H2. unfold pie_new. destruct (Nat.leb_spec 2 (length r)); [|lia].
  rewrite pie_group_id_ok, pie_length_ok by exact H2. cbn [bind].
  rewrite PayloadGroupId_never_termination by apply field_lt.
  unfold code_payload_size, never.
  replace (off + (N.to_nat (field 0 10 (desc r)) + 2)) with (off + (2 + N.to_nat (field 0 10 (desc r)))) by lia.
  destruct (length d <=? _); reflexivity.
Qed.

(** ** Draining = walking *)
Lemma drain_walk next size stop
  (Hterm : forall d off, next (mkIt d off true) = Done (None, mkIt d off true))
  (Hshort : forall d off, off <= length d -> length (skipn off d) < 2 ->
     exists t, next (mkIt d off false) = Done (None, mkIt d off t))
  (Helem : forall d off, off <= length d -> 2 <= length (skipn off d) ->
     next (mkIt d off false) = Done (Some (skipn off d), mkIt d (off + size (skipn off d))
        ((length d <=? off + size (skipn off d)) || stop (skipn off d))))
  (Hsize : forall r, 2 <= size r) :
  forall fuel d off, off <= length d -> length d - off < fuel ->
  exists es n t, walk size stop (skipn off d) es n /\
    drain next fuel (mkIt d off false) = Done (es, mkIt d (off + n) t).
Proof.
  induction fuel as [|fuel IH]; intros d off Hoff Hf; [lia|].
  set (r := skipn off d). assert (Hr : length r = length d - off) by apply skipn_length.
  destruct (Nat.lt_ge_cases (length r) 2) as [Hs|Hs].
  - destruct (Hshort d off Hoff Hs) as (t & HN). exists [], 0, t. split; [constructor; exact Hs|].
    cbn [drain]. rewrite HN. cbn [bind]. rewrite Nat.add_0_r. reflexivity.
  - assert (HN := Helem d off Hoff Hs). fold r in HN. assert (Hz := Hsize r).
    cbn [drain]. rewrite HN. cbn [bind].
    destruct (Nat.leb_spec (length d) (off + size r)) as [HL|HL].
    + exists [r], (size r), true. split; [constructor; [exact Hs|right; lia]|].
      cbn [orb]. destruct fuel as [|fuel]; [lia|]. cbn [drain]. rewrite Hterm. reflexivity.
    + cbn [orb]. destruct (stop r) eqn:Est.
      * exists [r], (size r), true. split; [constructor; [exact Hs|left; exact Est]|].
        destruct fuel as [|fuel]; [lia|]. cbn [drain]. rewrite Hterm. reflexivity.
      * destruct (IH d (off + size r)) as (es & n & t & HW & HD); [lia|lia|].
        exists (r :: es), (size r + n), t. split.
        -- apply walk_next; [exact Hs|exact Est|lia|]. unfold r at 2. rewrite skipn_skipn'. exact HW.
        -- rewrite HD. cbn [bind]. rewrite Nat.add_assoc. reflexivity.
Qed.

Lemma walk_fun size stop r es n : walk size stop r es n ->
  forall es' n', walk size stop r es' n' -> es = es' /\ n = n'.
Proof.
  induction 1 as [r H|r H Hs|r es n H Hs Hz HW IH]; intros es' n' HW';
    inversion HW' as [r' H'|r' H' Hs'|r' es'' n'' H' Hs' Hz' HW'']; subst; try lia; auto.
  destruct (IH _ _ HW'') as [-> ->]. auto.
Qed.

Lemma headers_walk d : exists es n t,
  walk code_header_size std_header_stop d es n /\ ies_headers d = Done (es, mkIt d n t).
Proof.
  unfold ies_headers, ies_header_iter, ie_fuel.
  destruct d as [|x d'] eqn:E.
  - exists [], 0, true. split; [constructor; simpl; lia|reflexivity].
  - rewrite <- E. replace (length (x :: d') =? 0) with false by reflexivity.
    destruct (drain_walk hie_next code_header_size std_header_stop hie_next_term) with
      (fuel := S (length d)) (d := d) (off := 0) as (es & n & t & HW & HD).
    + intros d0 off H1 H2. exists false. apply hie_next_short; assumption.
    + intros d0 off H1 H2. apply hie_next_elem; assumption.
    + intros r. unfold code_header_size. lia.
    + lia.
    + lia.
    + exists es, n, t. split; [exact HW|]. rewrite E in HD. rewrite E. simpl Nat.add in HD. exact HD.
Qed.

Lemma payload_drain rest fuel t0 : length rest < fuel -> (t0 = true -> rest = []) ->
  exists es n t, walk code_payload_size never rest es n /\
   drain pie_next fuel (mkIt rest 0 t0) = Done (es, mkIt rest n t).
Proof.
  intros Hf Ht. destruct t0.
  - rewrite (Ht eq_refl) in *. exists [], 0, true. split; [constructor; simpl; lia|]. destruct fuel; [lia|]. reflexivity.
  - destruct (drain_walk pie_next code_payload_size never pie_next_term) with
      (fuel := fuel) (d := rest) (off := 0) as (es & n & t & HW & HD).
    + intros d0 off H1 H2. exists true. apply pie_next_short; assumption.
    + intros d0 off H1 H2. apply pie_next_elem; assumption.
    + intros r. unfold code_payload_size. lia.
    + lia.
    + lia.
    + exists es, n, t. auto.
Qed.

Lemma walk_elem_len size stop r es n : walk size stop r es n -> Forall (fun e => 2 <= length e) es.
Proof. induction 1; repeat constructor; assumption. Qed.

Lemma walk_sum r es n stop : walk code_header_size stop r es n -> sum_lens es = Done n.
Proof.
  induction 1 as [r H|r H Hs|r es n H Hs Hz HW IH]; [reflexivity| |].
  - cbn [sum_lens]. rewrite hie_len_ok by exact H. cbn [bind]. unfold code_header_size. f_equal. lia.
  - cbn [sum_lens]. rewrite hie_len_ok by exact H. cbn [bind]. rewrite IH. cbn [bind].
    unfold code_header_size. f_equal. lia.
Qed.

(** payloads, given the header walk *)
Lemma payloads_walk d hs hn : walk code_header_size std_header_stop d hs hn -> hn <= length d ->
  exists es n t, walk code_payload_size never (skipn hn d) es n /\
    ies_payloads d = Done (es, mkIt (skipn hn d) n t).
Proof.
  intros HW HL. destruct (headers_walk d) as (es0 & n0 & t0 & HW0 & HD0).
  destruct (walk_fun _ _ _ _ _ HW _ _ HW0) as [<- <-].
  unfold ies_payloads, ies_payload_iter. rewrite HD0. cbn [bind].
  rewrite (walk_sum _ _ _ _ HW). cbn [bind]. rewrite slice_from_ok by exact HL. cbn [bind].
  apply payload_drain.
  - unfold ie_fuel. rewrite skipn_length. lia.
  - intros Ht. apply Nat.leb_le in Ht. apply length_zero_iff_nil. rewrite skipn_length. lia.
Qed.

Lemma payloads_panic d hs hn : walk code_header_size std_header_stop d hs hn -> length d < hn ->
  ies_payloads d = Panic.
Proof.
  intros HW HL. destruct (headers_walk d) as (es0 & n0 & t0 & HW0 & HD0).
  destruct (walk_fun _ _ _ _ _ HW _ _ HW0) as [<- <-].
  unfold ies_payloads, ies_payload_iter. rewrite HD0. cbn [bind].
  rewrite (walk_sum _ _ _ _ HW). cbn [bind]. rewrite slice_from_panic by exact HL. reflexivity.
Qed.

(** ** InformationElements::new *)
Lemma ies_new_spec d :
  exists hs hn, walk code_header_size std_header_stop d hs hn /\
  ((length d < hn /\ ies_new d = Done Err) \/
   (hn <= length d /\ exists ps pn, walk code_payload_size never (skipn hn d) ps pn /\
      ((length d < hn + pn /\ ies_new d = Done Err) \/
       (hn + pn <= length d /\ ies_new d = Done (Ok d) /\ ies_len d = Done (hn + pn) /\
        (exists t, ies_headers d = Done (hs, mkIt d hn t)) /\
        (exists t, ies_payloads d = Done (ps, mkIt (skipn hn d) pn t)))))).
Proof.
  destruct (headers_walk d) as (hs & hn & t & HW & HD). exists hs, hn. split; [exact HW|].
  unfold ies_new, ies_check_len, ies_len. rewrite HD. cbn [bind it_offset].
  destruct (Nat.lt_ge_cases (length d) hn) as [HL|HL].
  - left. split; [exact HL|]. destruct (Nat.ltb_spec (length d) hn); [reflexivity|lia].
  - right. split; [exact HL|]. destruct (Nat.ltb_spec (length d) hn); [lia|].
    destruct (payloads_walk d hs hn HW HL) as (ps & pn & t' & HW' & HD').
    exists ps, pn. split; [exact HW'|]. rewrite HD'. cbn [bind it_offset].
    destruct (Nat.leb_spec (hn + pn) (length d)) as [HT|HT].
    + right. split; [exact HT|]. split; [reflexivity|]. split; [reflexivity|]. split; eexists; reflexivity.
    + left. split; [exact HT|reflexivity].
Qed.

(** ** Contents in bounds *)
Definition content_at (size : list N -> nat) (r : list N) : list N := firstn (size r - 2) (skipn 2 r).

Lemma walk_in_bounds size stop r es n : (forall r, 2 <= size r) -> walk size stop r es n -> n <= length r ->
  Forall (fun e => 2 <= length e /\ size e <= length e) es.
Proof.
  intros Hz HW. induction HW as [r H|r H Hs|r es n H Hs Hl HW IH]; intros HL.
  - constructor.
  - constructor; [split; assumption|constructor].
  - constructor; [split; [exact H|lia]|]. apply IH. rewrite skipn_length. lia.
Qed.

Lemma hie_content_ok e : 2 <= length e -> code_header_size e <= length e ->
  hie_content e = Done (content_at code_header_size e).
Proof.
  intros H1 H2. unfold hie_content. rewrite hie_len_ok by exact H1. cbn [bind].
  rewrite slice_from_ok by exact H1. cbn [bind]. unfold code_header_size in H2.
  rewrite slice_to_ok by (rewrite skipn_length; lia). unfold content_at, code_header_size.
  f_equal. f_equal. lia.
Qed.

Lemma hie_content_panic e : 2 <= length e -> length e < code_header_size e -> hie_content e = Panic.
Proof.
  intros H1 H2. unfold hie_content. rewrite hie_len_ok by exact H1. cbn [bind].
  rewrite slice_from_ok by exact H1. cbn [bind]. unfold code_header_size in H2.
  apply slice_to_panic. rewrite skipn_length. lia.
Qed.

Lemma pie_content_ok e : 2 <= length e -> code_payload_size e <= length e ->
  pie_content e = Done (content_at code_payload_size e).
Proof.
  intros H1 H2. unfold pie_content. rewrite pie_length_ok by exact H1. cbn [bind].
  rewrite slice_from_ok by exact H1. cbn [bind]. unfold code_payload_size in H2.
  rewrite slice_to_ok by (rewrite skipn_length; lia). unfold content_at, code_payload_size.
  f_equal. f_equal. lia.
Qed.

(** ** Nested *)
Lemma nie_new_ok r : 2 <= length r ->
  nie_new r = Done (if code_nested_size r <=? length r then Ok r else Err).
Proof.
  intros H. unfold nie_new. destruct (Nat.ltb_spec (length r) 2); [lia|].
  rewrite nie_length_ok by exact H. cbn [bind]. unfold code_nested_size.
  rewrite (Nat.add_comm _ 2). reflexivity.
Qed.

Lemma nie_next_short d off : off <= length d -> length (skipn off d) < 2 \/ length (skipn off d) < code_nested_size (skipn off d) ->
  nie_next (mkIt d off false) = Done (None, mkIt d off true).
Proof.
  intros H1 H2. unfold nie_next. cbn [it_terminated it_data it_offset]. rewrite slice_from_ok by exact H1. cbn [bind].
  destruct (Nat.lt_ge_cases (length (skipn off d)) 2) as [H|H].
  - unfold nie_new. destruct (Nat.ltb_spec (length (skipn off d)) 2); [|lia]. reflexivity.
  - rewrite nie_new_ok by exact H. cbn [bind].
    destruct (Nat.leb_spec (code_nested_size (skipn off d)) (length (skipn off d))); [lia|]. reflexivity.
Qed.

Lemma nie_next_elem d off : off <= length d -> 2 <= length (skipn off d) ->
  code_nested_size (skipn off d) <= length (skipn off d) ->
  let r := skipn off d in
  nie_next (mkIt d off false) =
  Done (Some (firstn (code_nested_size r) r), mkIt d (off + code_nested_size r)
     (length d <=? off + code_nested_size r)).
Proof.
  intros H1 H2 H3 r. unfold nie_next. cbn [it_terminated it_data it_offset]. rewrite !slice_from_ok by exact H1. cbn [bind].
  fold r. fold r in H2, H3. rewrite nie_new_ok by exact H2. cbn [bind].
  destruct (Nat.leb_spec (code_nested_size r) (length r)) as [_|]; [|lia].
  rewrite nie_length_ok by exact H2. cbn [bind]. rewrite (Nat.add_comm _ 2). fold (code_nested_size r).
  rewrite slice_to_ok by exact H3. cbn [bind]. destruct (length d <=? _); reflexivity.
Qed.

Lemma drain_chop fuel : forall d off, off <= length d -> length d - off < fuel ->
  exists es t, chop code_nested_size (skipn off d) es /\
    drain nie_next fuel (mkIt d off false) = Done (es, mkIt d (off + length (concat es)) t).
Proof.
  induction fuel as [|fuel IH]; intros d off Hoff Hf; [lia|].
  set (r := skipn off d). assert (Hr : length r = length d - off) by apply skipn_length.
  destruct (Nat.lt_ge_cases (length r) 2) as [Hs|Hs];
    [|destruct (Nat.lt_ge_cases (length r) (code_nested_size r)) as [HL|HL]].
  - exists [], true. split; [constructor; left; exact Hs|]. cbn [drain].
    rewrite (nie_next_short d off Hoff) by (left; exact Hs). simpl. rewrite Nat.add_0_r. reflexivity.
  - exists [], true. split; [constructor; right; exact HL|]. cbn [drain].
    rewrite (nie_next_short d off Hoff) by (right; exact HL). simpl. rewrite Nat.add_0_r. reflexivity.
  - assert (Hz : 2 <= code_nested_size r) by (unfold code_nested_size; lia).
    cbn [drain]. rewrite (nie_next_elem d off Hoff Hs HL). fold r. cbn [bind].
    destruct (Nat.leb_spec (length d) (off + code_nested_size r)) as [HE|HE].
    + destruct fuel as [|fuel]; [lia|]. cbn [drain]. unfold nie_next at 1. cbn [it_terminated bind].
      exists [firstn (code_nested_size r) r], true. split.
      * apply chop_next; [exact Hs|exact HL|]. constructor. left. rewrite skipn_length. lia.
      * cbn [concat]. rewrite app_nil_r, firstn_length, Nat.min_l by exact HL. reflexivity.
    + destruct (IH d (off + code_nested_size r)) as (es & t & HC & HD); [lia|lia|].
      exists (firstn (code_nested_size r) r :: es), t. split.
      * apply chop_next; [exact Hs|exact HL|]. unfold r at 2. rewrite skipn_skipn'. exact HC.
      * rewrite HD. cbn [bind concat]. rewrite app_length, firstn_length, Nat.min_l, Nat.add_assoc by exact HL. reflexivity.
Qed.

Lemma chop_fun size r es : chop size r es -> forall es', chop size r es' -> es = es'.
Proof.
  induction 1 as [r H|r es H1 H2 HC IH]; intros es' HC'; inversion HC'; subst; try reflexivity; try lia.
  f_equal. auto.
Qed.

Lemma chop_prefix size r es : chop size r es -> concat es = firstn (length (concat es)) r.
Proof.
  induction 1 as [r H|r es H1 H2 HC IH]; [reflexivity|].
  cbn [concat]. rewrite app_length, firstn_length, Nat.min_l by exact H2.
  transitivity (firstn (size r + length (concat es)) (firstn (size r) r ++ skipn (size r) r));
    [|rewrite firstn_skipn; reflexivity].
  rewrite firstn_app, firstn_length, Nat.min_l by exact H2.
  replace (size r + length (concat es) - size r) with (length (concat es)) by lia.
  rewrite firstn_firstn, Nat.min_r by lia. f_equal. exact IH.
Qed.

Lemma chop_elems r es : chop code_nested_size r es ->
  Forall (fun e => 2 <= length e /\ code_nested_size e = length e) es.
Proof.
  induction 1 as [r H|r es H1 H2 HC IH]; [constructor|].
  constructor; [|exact IH].
  assert (Hz : 2 <= code_nested_size r) by (unfold code_nested_size; lia).
  assert (HL : length (firstn (code_nested_size r) r) = code_nested_size r) by (rewrite firstn_length; lia).
  split; [lia|]. rewrite HL. unfold code_nested_size at 1 3. unfold desc.
  destruct r as [|b0 [|b1 r']]; simpl in H1; try lia.
  remember (code_nested_size (b0 :: b1 :: r')) as z eqn:Ez. destruct z as [|[|z]]; try lia. reflexivity.
Qed.

Lemma nie_content_ok e : 2 <= length e -> code_nested_size e <= length e ->
  nie_content e = Done (content_at code_nested_size e).
Proof.
  intros H1 H2. unfold nie_content. rewrite nie_length_ok by exact H1. cbn [bind].
  rewrite slice_from_ok by exact H1. cbn [bind]. unfold code_nested_size in H2.
  rewrite slice_to_ok by (rewrite skipn_length; lia). unfold content_at, code_nested_size.
  f_equal. f_equal. lia.
Qed.
