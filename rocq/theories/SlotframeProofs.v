(** SlotframeProofs.v -- slotframe descriptors, links; emission and parsing of nested IEs. *)
From Verif Require Import Base BaseProofs FrameControl Spec SpecIe SpecIeContent Ie IeContent ReprIe BitProofs AddressingProofs2 AddressingProofs IeProofs DescProofs IeContentProofs.

(** ** Reading arbitrary octets *)
Lemma sd_links_ok r : 4 <= length r -> sd_links r = Done (nth 3 r 0%N).
Proof. intros H. apply idx_ok. lia. Qed.
Lemma sd_len_ok r : 4 <= length r -> sd_len r = Done (slotframe_size r).
Proof. intros H. unfold sd_len. rewrite sd_links_ok by exact H. cbn [bind]. unfold slotframe_size. f_equal. lia. Qed.
Lemma sd_new_ok r : 4 <= length r -> sd_new r = Done (if slotframe_size r <=? length r then Ok r else Err).
Proof.
  intros H. unfold sd_new. destruct (Nat.ltb_spec (length r) 4); [lia|]. rewrite sd_links_ok by exact H. cbn [bind].
  unfold slotframe_size, link_len. rewrite (Nat.mul_comm _ 5). reflexivity.
Qed.

Lemma drain_sd fuel : forall d off n c, off <= length d -> length d - off < fuel -> 1 <= n ->
  exists es, descriptors n (skipn off d) es /\ drainS sdi_next fuel (mkSd d off false (c + n) c) = Done es.
Proof.
  induction fuel as [|fuel IH]; intros d off n c Ho Hf Hn; [lia|].
  set (r := skipn off d). assert (Hr : length r = length d - off) by apply skipn_length.
  cbn [drainS]. unfold sdi_next at 1. cbn [sdi_terminated sdi_data sdi_offset sdi_slotframes sdi_count].
  rewrite slice_from_ok by exact Ho. cbn [bind]. fold r.
  destruct (Nat.lt_ge_cases (length r) 4) as [H4|H4].
  - unfold sd_new. destruct (Nat.ltb_spec (length r) 4); [|lia]. cbn [bind]. exists []. split; [|reflexivity]. apply descs_end. lia.
  - rewrite sd_new_ok by exact H4. cbn [bind].
    destruct (Nat.leb_spec (slotframe_size r) (length r)) as [Hz|Hz].
    2: { exists []. split; [|reflexivity]. apply descs_end. lia. }
    rewrite sd_len_ok by exact H4. cbn [bind].
    assert (Hz4 : 4 <= slotframe_size r) by (unfold slotframe_size; lia).
    destruct n as [|n]; [lia|].
    destruct (Nat.leb_spec (length d) (off + slotframe_size r)) as [HE|HE]; cbn [orb].
    + exists [r]. destruct fuel; [lia|]. split; [|reflexivity]. apply descs_next; [exact H4|exact Hz|].
      apply descs_end. rewrite skipn_length. lia.
    + destruct (Nat.leb_spec (c + S n) (c + 1)) as [HC|HC].
      * exists [r]. destruct fuel; [lia|]. split; [|reflexivity]. apply descs_next; [exact H4|exact Hz|].
        apply descs_end. lia.
      * destruct (IH d (off + slotframe_size r) n (c + 1)) as (es & HD & HE2); [lia|lia|lia|].
        replace (c + 1 + n) with (c + S n) in HE2 by lia. rewrite HE2. cbn [bind].
        exists (r :: es). split; [|reflexivity]. apply descs_next; [exact H4|exact Hz|].
        unfold r at 2. rewrite skipn_skipn'. exact HD.
Qed.

Lemma descriptors_fun n r es : descriptors n r es -> forall es', descriptors n r es' -> es = es'.
Proof.
  induction 1 as [n r H|n r es H1 H2 HD IH]; intros es' H'; inversion H'; subst; try reflexivity; try lia.
  f_equal. auto.
Qed.

Lemma descriptors_elems n r es : descriptors n r es -> Forall (fun e => 4 <= length e /\ slotframe_size e <= length e) es.
Proof. induction 1; repeat constructor; assumption. Qed.

Lemma descriptors_sum n r es : descriptors n r es ->
  exists m, sum_sd es = Done m /\ m <= length r /\ m = list_sum (map slotframe_size es) /\ length es <= n.
Proof.
  induction 1 as [n r H|n r es H1 H2 HD IH].
  - exists 0. repeat split; simpl; lia.
  - destruct IH as (m & E & Hm & Hs & Hn). exists (slotframe_size r + m). cbn [sum_sd]. rewrite sd_len_ok by exact H1. cbn [bind].
    rewrite E. rewrite skipn_length in Hm. split; [reflexivity|]. split; [lia|].
    split; [cbn [map]; change (list_sum (slotframe_size r :: map slotframe_size es)) with (slotframe_size r + list_sum (map slotframe_size es)); lia|cbn [length]; lia].
Qed.

Lemma sl_descriptors_spec d : 1 <= length d ->
  exists es, descriptors (N.to_nat (nth 0 d 0%N)) (skipn 1 d) es /\ sl_descriptors d = Done es.
Proof.
  intros H. unfold sl_descriptors, sl_iter, sl_number. rewrite idx_ok by lia. cbn [bind]. rewrite slice_from_ok by lia. cbn [bind].
  unfold sdi_new. set (n := N.to_nat (nth 0 d 0%N)). destruct (Nat.eqb_spec n 0) as [E|E].
  - exists []. split; [|reflexivity]. apply descs_end. left. exact E.
  - destruct (drain_sd (S (length d)) (skipn 1 d) 0 n 0) as (es & HD & HE); [lia|rewrite skipn_length; lia|lia|].
    exists es. split; [exact HD|exact HE].
Qed.

(** new succeeds exactly for non-empty content *)
Lemma sl_new_spec d : sl_new d = Done (if 1 <=? length d then Ok d else Err).
Proof.
  unfold sl_new. destruct (Nat.ltb_spec (length d) 1) as [H|H].
  - destruct (Nat.leb_spec 1 (length d)); [lia|reflexivity].
  - unfold sl_number. rewrite idx_ok by lia. cbn [bind]. destruct (sl_descriptors_spec d H) as (es & HD & ->). cbn [bind].
    destruct (descriptors_sum _ _ _ HD) as (m & -> & Hm & _). cbn [bind]. rewrite skipn_length in Hm.
    destruct (Nat.ltb_spec m (length d)); [|lia]. destruct (Nat.leb_spec 1 (length d)); [reflexivity|lia].
Qed.

(** links of an accepted descriptor *)
Lemma drain_links fuel : forall d off k, length d = off + 5 * (S k) -> k < fuel - 1 ->
  drainS link_next fuel (mkIt d off false) = Done (map (fun i => skipn (off + 5 * i) d) (seq 0 (S k))).
Proof.
  induction fuel as [|fuel IH]; intros d off k Hd Hf; [lia|].
  cbn [drainS]. unfold link_next at 1. cbn [it_terminated it_data it_offset]. rewrite slice_from_ok by lia. cbn [bind].
  unfold link_len.
  destruct k as [|k].
  - destruct (Nat.leb_spec (length d) (off + 5)); [|lia]. destruct fuel; [lia|]. cbn [drainS]. unfold link_next. cbn [it_terminated bind seq map].
    rewrite Nat.mul_0_r, Nat.add_0_r. reflexivity.
  - destruct (Nat.leb_spec (length d) (off + 5)); [lia|]. rewrite (IH d (off + 5) k) by lia. cbn [bind].
    change (seq 0 (S (S k))) with (0 :: seq 1 (S k)). rewrite <- seq_shift, map_cons, map_map. rewrite Nat.mul_0_r, Nat.add_0_r.
    f_equal. f_equal. apply map_ext. intros i. f_equal. lia.
Qed.

Lemma sd_link_informations_ok r : 4 <= length r -> slotframe_size r <= length r -> (nth 3 r 0 <> 0)%N ->
  let n := N.to_nat (nth 3 r 0%N) in
  sd_link_informations r = Done (map (fun i => skipn (5 * i) (firstn (5 * n) (skipn 4 r))) (seq 0 n)).
Proof.
  intros H4 Hz Hn n. unfold sd_link_informations, sd_link_iter. rewrite sd_links_ok by exact H4. cbn [bind].
  rewrite slice_from_ok by exact H4. cbn [bind]. unfold slotframe_size in Hz. fold n in Hz.
  rewrite slice_to_ok by (rewrite skipn_length; unfold link_len; fold n; lia). cbn [bind it_data]. fold n.
  unfold link_len. rewrite (Nat.mul_comm n 5). set (t := firstn (5 * n) (skipn 4 r)).
  assert (Ht : length t = 5 * n) by (unfold t; rewrite firstn_length, skipn_length; lia).
  assert (Hn1 : n <> 0) by (unfold n; lia). destruct n as [|k]; [lia|].
  rewrite (drain_links _ t 0 k) by lia. reflexivity.
Qed.

Lemma sd_link_informations_zero r : 4 <= length r -> nth 3 r 0%N = 0%N -> sd_link_informations r = Done [[]].
Proof.
  intros H4 Hn. unfold sd_link_informations, sd_link_iter. rewrite sd_links_ok by exact H4. cbn [bind]. rewrite Hn.
  rewrite slice_from_ok by exact H4. cbn [bind]. rewrite slice_to_ok by (simpl; lia). reflexivity.
Qed.

(** ** Suffixes: what the iterators yield on an encoded list *)
Fixpoint suffixes {A} (enc : A -> list N) (l : list A) (tail : list N) : list (list N) :=
  match l with [] => [] | x :: r => (enc x ++ concat (map enc r) ++ tail) :: suffixes enc r tail end.

Lemma parse_push_suffixes {A} parse (enc : A -> list N) cap l tail :
  (forall x rest, In x l -> parse (enc x ++ rest) = Done (Ok x)) ->
  forall len, len + length l <= cap -> parse_push parse cap len (suffixes enc l tail) = Done (Ok l).
Proof.
  induction l as [|x l IH]; intros Hp len Hc; [reflexivity|]. cbn [suffixes parse_push]. rewrite Hp by (left; reflexivity).
  unfold try at 1. cbn [bind]. simpl in Hc. destruct (Nat.ltb_spec len cap); [|lia].
  rewrite IH by (lia || (intros y rest Hy; apply Hp; right; exact Hy)). reflexivity.
Qed.

Lemma parse_push_break_list {A} parse (ys : list (list N)) (l : list A) cap :
  Forall2 (fun y x => parse y = Done (Ok x)) ys l ->
  forall len, len + length l <= cap -> parse_push_break parse cap len ys = Done (Ok l).
Proof.
  induction 1 as [|y x ys l H HF IH]; intros len Hc; [reflexivity|]. cbn [parse_push_break]. rewrite H.
  unfold try at 1. cbn [bind]. simpl in Hc. destruct (Nat.ltb_spec len cap); [|lia].
  rewrite IH by lia. reflexivity.
Qed.

(** ** Links *)
Lemma link_octets_length l : length (link_octets l) = 5.
Proof. reflexivity. Qed.

Lemma link_parse_octets l rest : link_typed l -> link_parse (link_octets l ++ rest) = Done (Ok l).
Proof.
  intros (H1 & H2 & H3). unfold u16 in *. unfold link_parse, link_timeslot, link_channel_offset, link_options, link_octets.
  destruct l as [t c o]. cbn [lr_timeslot lr_channel_offset lr_options] in *.
  unfold rd_le, slice_from, slice_to, idx. cbn [le app length Nat.leb skipn firstn bind nth_error].
  change (from_le [(t mod 256)%N; (t / 256 mod 256)%N]) with (from_le (to_le 2 t)).
  change (from_le [(c mod 256)%N; (c / 256 mod 256)%N]) with (from_le (to_le 2 c)).
  rewrite !from_to_le by assumption.
  assert (E : N.land o 0x1f = o).
  { change 0x1f%N with (N.ones 5). rewrite N.land_ones. apply N.mod_small. exact H3. }
  rewrite E. reflexivity.
Qed.

Lemma link_emit_ok l m : length m = 5 -> link_emit l m = Done (link_octets l).
Proof.
  intros H. do 5 (destruct m as [|? m]; [discriminate|]). destruct m; [|discriminate]. reflexivity.
Qed.

Lemma concat_link_length ls : length (concat (map link_octets ls)) = 5 * length ls.
Proof. induction ls as [|l ls IH]; [reflexivity|]. cbn [map concat]. rewrite app_length, IH, link_octets_length. simpl. lia. Qed.

Lemma skipn_app_exact {A} (a b : list A) n : n = length a -> skipn n (a ++ b) = b.
Proof. intros ->. rewrite skipn_app, skipn_all, Nat.sub_diag. reflexivity. Qed.
Lemma firstn_app_exact {A} (a b : list A) n : n = length a -> firstn n (a ++ b) = a.
Proof. intros ->. rewrite firstn_app, firstn_all, Nat.sub_diag. cbn [firstn]. apply app_nil_r. Qed.

Lemma map_skipn_suffixes {A} (enc : A -> list N) k : (forall x, length (enc x) = k) -> forall l,
  map (fun i => skipn (k * i) (concat (map enc l))) (seq 0 (length l)) = suffixes enc l [].
Proof.
  intros Hk. induction l as [|x l IH]; [reflexivity|]. cbn [length seq map suffixes]. f_equal.
  - rewrite Nat.mul_0_r. cbn [skipn concat]. rewrite app_nil_r. reflexivity.
  - rewrite <- IH, <- seq_shift, map_map. apply map_ext. intros i. cbn [concat].
    replace (k * S i) with (k + k * i) by lia. rewrite <- skipn_skipn'. rewrite skipn_app_exact by (rewrite Hk; reflexivity). reflexivity.
Qed.

(** ** Slotframes *)
Lemma slotframe_octets_length s : length (slotframe_octets s) = slotframe_buffer_len s.
Proof. unfold slotframe_octets, slotframe_buffer_len. cbn [le app length]. rewrite concat_link_length. lia. Qed.

Lemma slotframe_size_octets s rest : length (sr_links s) <= 255 -> slotframe_size (slotframe_octets s ++ rest) = slotframe_buffer_len s.
Proof.
  intros H. unfold slotframe_size, slotframe_octets, slotframe_buffer_len. cbn [le app nth]. rewrite Nat2N.id. lia.
Qed.

Lemma slotframe_parse_octets s rest : slotframe_typed s -> sr_links s <> [] ->
  slotframe_parse (slotframe_octets s ++ rest) = Done (Ok s).
Proof.
  intros (H1 & H2 & H3 & H4) Hne. unfold slotframe_parse.
  assert (HL : 4 <= length (slotframe_octets s ++ rest)) by (rewrite app_length, slotframe_octets_length; unfold slotframe_buffer_len; lia).
  assert (N3 : nth 3 (slotframe_octets s ++ rest) 0%N = N.of_nat (length (sr_links s))) by reflexivity.
  rewrite sd_link_informations_ok; [|exact HL|rewrite slotframe_size_octets by lia; rewrite app_length, slotframe_octets_length; lia
    |rewrite N3; destruct (sr_links s); [contradiction|simpl; lia]].
  rewrite N3, Nat2N.id. cbn [bind].
  replace (firstn (5 * length (sr_links s)) (skipn 4 (slotframe_octets s ++ rest))) with (concat (map link_octets (sr_links s))).
  2: { unfold slotframe_octets. cbn [le app skipn]. rewrite firstn_app_exact; [reflexivity|]. rewrite concat_link_length. reflexivity. }
  rewrite (map_skipn_suffixes link_octets 5) by (intros; reflexivity).
  rewrite (parse_push_suffixes link_parse link_octets 4); [| |simpl; lia].
  2: { intros x r Hx. apply link_parse_octets. rewrite Forall_forall in H4. apply H4. exact Hx. }
  unfold try. cbn [bind]. unfold sd_handle, sd_size, slotframe_octets, rd_le, slice_from, slice_to, idx.
  cbn [le app length Nat.leb skipn firstn bind nth_error].
  change (from_le [(sr_size s mod 256)%N; (sr_size s / 256 mod 256)%N]) with (from_le (to_le 2 (sr_size s))).
  rewrite from_to_le by exact H2. destruct s. reflexivity.
Qed.

Lemma slotframe_emit_ok s m : length (sr_links s) <= 255 -> length m = slotframe_buffer_len s ->
  slotframe_emit s m = Done (slotframe_octets s).
Proof.
  intros Hl H. unfold slotframe_buffer_len in H. do 4 (destruct m as [|? m]; [simpl in H; lia|]).
  unfold slotframe_emit, sd_set_handle, sd_set_size, sd_set_links, set_idx, write_at.
  cbn [length Nat.add Nat.leb firstn skipn app to_le bind].
  rewrite (N.mod_small (N.of_nat _)) by lia.
  pose proof (emit_seq_ok (fun _ => 5) (fun l => link_emit l) link_octets (sr_links s)) as HE.
  specialize (HE (fun l m _ => link_emit_ok l m) (fun l _ => link_octets_length l)
    [sr_handle s; (sr_size s mod 256)%N; (sr_size s / 256 mod 256)%N; N.of_nat (length (sr_links s))] m [] 4 eq_refl).
  rewrite !app_nil_r in HE. cbn [app] in HE. rewrite HE.
  - unfold slotframe_octets. rewrite ?app_nil_r. reflexivity.
  - simpl in H. replace (map (fun _ : LinkRepr => 5) (sr_links s)) with (repeat 5 (length (sr_links s))).
    + assert (R : forall n, list_sum (repeat 5 n) = 5 * n) by (clear; induction n as [|n IH]; [reflexivity|cbn [repeat]; change (list_sum (5 :: repeat 5 n)) with (5 + list_sum (repeat 5 n)); lia]). rewrite R. lia.
    + clear. induction (sr_links s) as [|x l IH]; simpl; [reflexivity|]. f_equal. exact IH.
Qed.

Lemma descriptors_octets l tail : Forall (fun s => length (sr_links s) <= 255) l ->
  descriptors (length l) (concat (map slotframe_octets l) ++ tail) (suffixes slotframe_octets l tail).
Proof.
  induction 1 as [|s l Hs Hl IH]; [apply descs_end; left; reflexivity|].
  cbn [length map concat suffixes]. rewrite <- app_assoc. apply descs_next.
  - rewrite app_length, slotframe_octets_length. unfold slotframe_buffer_len. lia.
  - rewrite slotframe_size_octets by exact Hs. rewrite app_length, slotframe_octets_length. lia.
  - rewrite slotframe_size_octets by exact Hs. rewrite skipn_app_exact by (rewrite slotframe_octets_length; reflexivity). exact IH.
Qed.

Lemma slotframes_parse_octets l : Forall slotframe_typed l -> Forall (fun s => sr_links s <> []) l -> length l <= 3 ->
  sl_new (slotframes_octets l) = Done (Ok (slotframes_octets l)) /\
  slotframes_parse (slotframes_octets l) = Done (Ok l).
Proof.
  intros HT HN HL. split; [rewrite sl_new_spec; reflexivity|].
  unfold slotframes_parse. destruct (sl_descriptors_spec (slotframes_octets l)) as (es & HD & ->); [simpl; lia|].
  cbn [bind]. unfold slotframes_octets in HD. cbn [app nth skipn] in HD. rewrite Nat2N.id in HD.
  assert (H255 : Forall (fun s => length (sr_links s) <= 255) l).
  { eapply Forall_impl; [|exact HT]. intros s (_ & _ & H & _). lia. }
  pose proof (descriptors_octets l [] H255) as HD'. rewrite app_nil_r in HD'.
  rewrite (descriptors_fun _ _ _ HD _ HD'). apply parse_push_suffixes; [|simpl; lia].
  intros s rest Hs. rewrite Forall_forall in HT, HN. apply slotframe_parse_octets; auto.
Qed.

Lemma slotframes_emit_ok l m : length l <= 255 -> Forall (fun s => length (sr_links s) <= 255) l ->
  length m = slotframes_buffer_len l -> slotframes_emit l m = Done (slotframes_octets l).
Proof.
  intros Hl H255 H. unfold slotframes_buffer_len in H. destruct m as [|x m]; [discriminate|].
  unfold slotframes_emit, sl_set_number, set_idx, write_at. cbn [length Nat.add Nat.leb firstn skipn app bind].
  rewrite (N.mod_small (N.of_nat _)) by lia.
  apply (with_from_app [N.of_nat (length l)] m 1 _ (concat (map slotframe_octets l))); [reflexivity|].
  pose proof (emit_seq_ok slotframe_buffer_len slotframe_emit slotframe_octets l) as HE.
  assert (HA : forall x m, In x l -> length m = slotframe_buffer_len x -> slotframe_emit x m = Done (slotframe_octets x)).
  { intros y m' Hy. apply slotframe_emit_ok. rewrite Forall_forall in H255. apply H255. exact Hy. }
  specialize (HE HA (fun s _ => slotframe_octets_length s) [] m [] 0 eq_refl).
  cbn [app] in HE. rewrite !app_nil_r in HE. apply HE. simpl in H. lia.
Qed.

Lemma slotframes_octets_length l : length (slotframes_octets l) = slotframes_buffer_len l.
Proof.
  unfold slotframes_octets, slotframes_buffer_len. cbn [app length].
  rewrite (list_sum_concat slotframe_buffer_len) by (intros; apply slotframe_octets_length). reflexivity.
Qed.
