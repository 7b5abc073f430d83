(** FramesProofs.v -- lemmas about the frame readers. *)
From Verif Require Import Base BaseProofs Spec SpecFrame FrameControl FrameControlProofs Addressing SpecAddressing
  AddressingProofs AddressingProofs2 AuxSec Ie SpecIe IeProofs ReprIe Beacon Frames SpecFrames.

Lemma fc_is_len b r : fc_is b r -> 2 <= length b.
Proof. intros (b0 & b1 & rest & -> & _). simpl. lia. Qed.

Lemma fc_is_firstn b r : fc_is b r -> fc_is (firstn 2 b) r.
Proof. intros (b0 & b1 & rest & -> & H0 & H1 & HE). exists b0, b1, []. repeat (split; [auto|]). exact HE. Qed.

Lemma mhr_seq r : mhr_size r = 2 + seq_size (fr_sequence_number_suppression r).
Proof. unfold mhr_size, seq_size. destruct (fr_sequence_number_suppression r); reflexivity. Qed.

Lemma addressing_cases r b : fr_dst_addressing_mode r <> AmUnknown -> fr_src_addressing_mode r <> AmUnknown ->
  (exists n, addressing_fits r b n) \/ no_addressing r b.
Proof.
  intros Hd Hs. destruct (layout_or_not r Hd Hs) as [(dp & sp & HL)|HN].
  - destruct (Nat.le_gt_cases (mhr_size r + layout_size r dp sp) (length b)) as [H|H].
    + left. exists (layout_size r dp sp), dp, sp. auto.
    + right. intros dp' sp' HL'. destruct (c07_unique _ _ _ _ _ HL HL') as [<- <-]. exact H.
  - right. intros dp sp HL. destruct (HN dp sp HL).
Qed.

Lemma ies_fit_fun d n m : ies_fit d n -> ies_fit d m -> n = m.
Proof.
  intros (hs & hn & ps & pn & H1 & H2 & -> & _) (hs' & hn' & ps' & pn' & H1' & H2' & -> & _).
  destruct (walk_fun _ _ _ _ _ H1 _ _ H1') as [_ <-]. destruct (walk_fun _ _ _ _ _ H2 _ _ H2') as [_ <-]. reflexivity.
Qed.

Lemma ies_cases d :
  (exists n, ies_fit d n /\ n <= length d /\ ies_new d = Done (Ok d) /\ ies_len d = Done n) \/
  (ies_new d = Done Err /\ ~ exists n, ies_fit d n).
Proof.
  destruct (ies_new_spec d) as (hs & hn & HW & [[HL E]|(HL & ps & pn & HP & [[HL2 E]|(HL2 & E & EL & _)])]).
  - right. split; [exact E|]. intros (n & hs' & hn' & ps' & pn' & H1 & _ & -> & H3).
    destruct (walk_fun _ _ _ _ _ HW _ _ H1) as [_ <-]. lia.
  - right. split; [exact E|]. intros (n & hs' & hn' & ps' & pn' & H1 & H2 & -> & H3).
    destruct (walk_fun _ _ _ _ _ HW _ _ H1) as [_ <-]. destruct (walk_fun _ _ _ _ _ HP _ _ H2) as [_ <-]. lia.
  - left. exists (hn + pn). split; [exists hs, hn, ps, pn; auto|auto].
Qed.

Lemma ies_fit_new d n : ies_fit d n -> ies_new d = Done (Ok d) /\ ies_len d = Done n.
Proof.
  intros H. destruct (ies_cases d) as [(m & Hm & _ & E & EL)|[_ HN]].
  - rewrite (ies_fit_fun _ _ _ H Hm). auto.
  - destruct HN. eauto.
Qed.

(** the addressing reader of a frame at offset [mhr_size r] *)
Lemma af_at_fits r b n : fc_is b r -> addressing_fits r b n ->
  af_new (skipn (mhr_size r) b) (firstn 2 b) = Done (Ok (mkAf (skipn (mhr_size r) b) (firstn 2 b))) /\
  af_len (mkAf (skipn (mhr_size r) b) (firstn 2 b)) = Done n.
Proof.
  intros HF (dp & sp & HL & -> & Hn).
  destruct (c08_accepted (firstn 2 b) r (skipn (mhr_size r) b) dp sp (fc_is_firstn _ _ HF) HL) as (E1 & E2 & _).
  { rewrite skipn_length. lia. }
  auto.
Qed.
Lemma af_at_none r b : fc_is b r -> fr_dst_addressing_mode r <> AmUnknown -> fr_src_addressing_mode r <> AmUnknown ->
  mhr_size r <= length b ->
  no_addressing r b -> af_new (skipn (mhr_size r) b) (firstn 2 b) = Done Err.
Proof.
  intros HF Hd Hs Hm HN. apply (c08_rejected (firstn 2 b) r); [apply fc_is_firstn; exact HF|exact Hd|exact Hs|].
  intros dp sp HL. specialize (HN dp sp HL). rewrite skipn_length. lia.
Qed.

Ltac getters HF := destruct (fc_is_getters _ _ HF) as (Gt & Gs & Gp & Ga & Gc & Gn & Gi & Gd & Gsrc & Gv).

(** ** DataFrame *)
Lemma data_fc_ok b r : fc_is b r -> data_frame_control b = Done (firstn 2 b).
Proof. intros H. unfold data_frame_control. apply slice_to_ok. apply (fc_is_len _ _ H). Qed.

Lemma if_slice (s : bool) b : (if s then slice_from b 2 else slice_from b 3) = slice_from b (2 + seq_size s).
Proof. destruct s; reflexivity. Qed.

Lemma data_addressing_eq b r : fc_is b r -> mhr_size r <= length b ->
  data_addressing b = let* x := af_new (skipn (mhr_size r) b) (firstn 2 b) in Done (ok x).
Proof.
  intros HF HL. getters (fc_is_firstn _ _ HF). unfold data_addressing. rewrite (data_fc_ok b r HF). cbn [bind].
  rewrite Gn. cbn [bind]. rewrite if_slice, <- mhr_seq, slice_from_ok by exact HL. reflexivity.
Qed.

(** where the addressing fields end: [mhr_size] plus their size if they are defined *)
Definition af_view (r : FrameControlRepr) (b : list N) (o : option AddressingFields) (n : nat) : Prop :=
  (addressing_fits r b n /\ o = Some (mkAf (skipn (mhr_size r) b) (firstn 2 b))) \/
  (no_addressing r b /\ n = 0 /\ o = None).

Lemma data_addressing_view b r : fc_is b r -> mhr_size r <= length b ->
  fr_dst_addressing_mode r <> AmUnknown -> fr_src_addressing_mode r <> AmUnknown ->
  exists o n, data_addressing b = Done o /\ af_view r b o n /\
    (forall k, add_af_len o k = Done (k + n)) /\ mhr_size r + n <= length b.
Proof.
  intros HF HL Hd Hs. rewrite (data_addressing_eq b r HF HL).
  destruct (addressing_cases r b Hd Hs) as [(n & Hn)|HN].
  - destruct (af_at_fits r b n HF Hn) as [E1 E2]. rewrite E1. cbn [bind ok].
    eexists. exists n. split; [reflexivity|]. split; [left; auto|]. split.
    + intros k. cbn [add_af_len]. rewrite E2. reflexivity.
    + destruct Hn as (dp & sp & _ & _ & H). exact H.
  - rewrite (af_at_none r b HF Hd Hs HL HN). cbn [bind ok].
    exists None, 0. split; [reflexivity|]. split; [right; auto|]. split; [|lia].
    intros k. cbn [add_af_len]. f_equal. lia.
Qed.

(** the information elements of a frame whose elements would start at [e] *)
Definition ie_view (r : FrameControlRepr) (d : list N) (o : option (list N)) (n : nat) : Prop :=
  (fr_information_elements_present r = true /\ ies_fit d n /\ o = Some d) \/
  ((fr_information_elements_present r = false \/ ~ exists n, ies_fit d n) /\ n = 0 /\ o = None).

Lemma data_ies_view b r n o : fc_is b r -> data_addressing b = Done o ->
  (forall k, add_af_len o k = Done (k + n)) -> mhr_size r + n <= length b ->
  exists i m, data_ies b = Done i /\ ie_view r (skipn (mhr_size r + n) b) i m /\
    mhr_size r + n + m <= length b /\
    (forall k, match i with Some i => let* q := ies_len i in Done (k + q) | None => Done k end = Done (k + m)).
Proof.
  intros HF HA HK HL. getters (fc_is_firstn _ _ HF). unfold data_ies.
  rewrite (data_fc_ok b r HF). cbn [bind]. rewrite Gi. cbn [bind].
  destruct (fr_information_elements_present r) eqn:EI.
  - rewrite Gn. cbn [bind]. rewrite HA. cbn [bind]. rewrite <- mhr_seq, HK. cbn [bind].
    rewrite slice_from_ok by exact HL. cbn [bind].
    destruct (ies_cases (skipn (mhr_size r + n) b)) as [(m & Hm & Hl & E & EL)|[E HN]]; rewrite E; cbn [bind ok].
    + eexists. exists m. split; [reflexivity|]. split; [left; auto|]. split.
      * rewrite skipn_length in Hl. lia.
      * intros k. rewrite EL. reflexivity.
    + exists None, 0. split; [reflexivity|]. split; [right; auto|]. split; [lia|]. intros k. f_equal. lia.
  - exists None, 0. split; [reflexivity|]. split; [right; auto|]. split; [lia|]. intros k. f_equal. lia.
Qed.

(** everything about the accessors of an acceptable frame *)
Lemma data_accessors b r : acceptable b r ->
  data_frame_control b = Done (firstn 2 b) /\
  data_sequence_number b = Done (nth_error (seq_octets r b) 0) /\
  data_aux b = Done None /\
  exists o n i m, data_addressing b = Done o /\ af_view r b o n /\
    data_ies b = Done i /\ ie_view r (skipn (mhr_size r + n) b) i m /\
    mhr_size r + n + m <= length b /\
    data_payload b = Done (if length b =? mhr_size r + n + m then None else Some (skipn (mhr_size r + n + m) b)).
Proof.
  intros (HF & [HL HM] & HS & (_ & _ & Hd & Hs)). getters (fc_is_firstn _ _ HF).
  split; [apply (data_fc_ok b r HF)|]. split.
  { unfold data_sequence_number. rewrite (data_fc_ok b r HF). cbn [bind]. rewrite Gn. cbn [bind].
    unfold seq_octets, mhr_size in *. destruct (fr_sequence_number_suppression r); [reflexivity|].
    destruct b as [|b0 [|b1 [|b2 rest]]]; simpl in HL; try lia. reflexivity. }
  split.
  { unfold data_aux. rewrite (data_fc_ok b r HF). cbn [bind]. rewrite Gs, HS. reflexivity. }
  destruct (data_addressing_view b r HF HL Hd Hs) as (o & n & EA & VA & KA & LA).
  destruct (data_ies_view b r n o HF EA KA LA) as (i & m & EI & VI & LI & KI).
  exists o, n, i, m. repeat (split; [assumption|]).
  unfold data_payload. rewrite (data_fc_ok b r HF). cbn [bind]. rewrite Gn. cbn [bind]. rewrite EA. cbn [bind].
  rewrite <- mhr_seq, KA. cbn [bind]. rewrite Gs, HS. cbn [bind]. rewrite Gi. cbn [bind].
  replace (if fr_information_elements_present r then _ else _) with (@Done nat (mhr_size r + n + m)).
  - cbn [bind]. destruct (Nat.eqb_spec (length b) (mhr_size r + n + m)) as [E|E];
      destruct (Nat.leb_spec (length b) (mhr_size r + n + m)); try lia; [reflexivity|].
    rewrite slice_from_ok by lia. reflexivity.
  - destruct (fr_information_elements_present r) eqn:EP.
    + rewrite EI. cbn [bind]. rewrite KI. reflexivity.
    + destruct VI as [(C & _)|(_ & -> & _)]; [congruence|]. f_equal. lia.
Qed.

Lemma data_new_accepts b r : acceptable b r -> data_new b = Done (Ok b).
Proof.
  intros (HF & [HL HM] & HS & (Ht & Hv & Hd & Hs)). getters (fc_is_firstn _ _ HF).
  assert (H2 := fc_is_len _ _ HF).
  unfold data_new, data_check_len.
  destruct (Nat.ltb_spec (length b) 2); [lia|]. destruct (Nat.ltb_spec 127 (length b)); [lia|]. cbn [orb].
  rewrite (data_fc_ok b r HF). cbn [bind]. rewrite Gn. cbn [bind].
  replace (negb (fr_sequence_number_suppression r) && (length b <? 3)) with false.
  2:{ unfold mhr_size in HL. destruct (fr_sequence_number_suppression r); [reflexivity|].
      destruct (Nat.ltb_spec (length b) 3); [lia|reflexivity]. }
  cbn [bind negb]. rewrite Gs, HS. cbn [bind]. rewrite Gt. cbn [bind].
  destruct (fr_frame_type r); try congruence; rewrite Gv; cbn [bind];
  (destruct (fr_frame_version r); try congruence; rewrite Gd; cbn [bind]);
  (destruct (fr_dst_addressing_mode r); try congruence; rewrite Gsrc; cbn [bind]);
  (destruct (fr_src_addressing_mode r); try congruence).
Qed.

Lemma data_new_result b : octets b -> (data_new b = Done (Ok b) /\ exists r, acceptable b r) \/
  (data_new b = Done Err /\ ~ exists r, acceptable b r).
Proof.
  intros HO.
  destruct (Nat.lt_ge_cases (length b) 2) as [H2|H2].
  { right. unfold data_new, data_check_len. destruct (Nat.ltb_spec (length b) 2); [|lia]. cbn [orb bind negb].
    split; [reflexivity|]. intros (r & HF & _). apply fc_is_len in HF. lia. }
  destruct (fc_is_exists b HO H2) as (r & HF).
  assert (U : forall r', fc_is b r' -> r' = r).
  { intros r' HF'. clear - HF HF'. destruct HF as (b0 & b1 & rest & -> & _ & _ & HE).
    destruct HF' as (c0 & c1 & rest' & E & _ & _ & HE'). injection E as <- <- <-. eapply fc_encodes_unique; eassumption. }
  getters (fc_is_firstn _ _ HF).
  destruct (Nat.lt_ge_cases 127 (length b)) as [H127|H127].
  { right. unfold data_new, data_check_len. destruct (Nat.ltb_spec 127 (length b)); [|lia]. rewrite orb_true_r. cbn [bind negb].
    split; [reflexivity|]. intros (r' & _ & ? & _). lia. }
  destruct (Nat.lt_ge_cases (length b) (mhr_size r)) as [HM|HM].
  { right. split.
    - unfold data_new, data_check_len. destruct (Nat.ltb_spec (length b) 2); [lia|]. destruct (Nat.ltb_spec 127 (length b)); [lia|].
      cbn [orb]. rewrite (data_fc_ok b r HF). cbn [bind]. rewrite Gn. cbn [bind]. unfold mhr_size in HM.
      destruct (fr_sequence_number_suppression r); [lia|]. destruct (Nat.ltb_spec (length b) 3); [|lia]. reflexivity.
    - intros (r' & HF' & HL & _). rewrite (U r' HF') in HL. lia. }
  assert (HC : data_check_len b = Done true).
  { unfold data_check_len. destruct (Nat.ltb_spec (length b) 2); [lia|]. destruct (Nat.ltb_spec 127 (length b)); [lia|]. cbn [orb].
    rewrite (data_fc_ok b r HF). cbn [bind]. rewrite Gn. cbn [bind]. unfold mhr_size in HM.
    destruct (fr_sequence_number_suppression r); [reflexivity|]. destruct (Nat.ltb_spec (length b) 3); [lia|]. reflexivity. }
  assert (D : (fr_security_enabled r = false /\ fcr_known r) \/ ~ (fr_security_enabled r = false /\ fcr_known r)).
  { unfold fcr_known. destruct (fr_security_enabled r), (fr_frame_type r), (fr_frame_version r), (fr_dst_addressing_mode r), (fr_src_addressing_mode r);
    first [left; repeat split; congruence|right; intros (? & ? & ? & ? & ?); congruence]. }
  destruct D as [[D1 D2]|D].
  - left. assert (A : acceptable b r) by (unfold acceptable; split; [exact HF|]; split; [lia|]; split; assumption). split; [exact (data_new_accepts b r A)|eauto].
  - right. split.
    + unfold data_new. rewrite HC. cbn [bind negb]. rewrite (data_fc_ok b r HF). cbn [bind]. rewrite Gs. cbn [bind].
      unfold fcr_known in D. destruct (fr_security_enabled r); [reflexivity|]. rewrite Gt. cbn [bind].
      destruct (fr_frame_type r); try reflexivity; rewrite Gv; cbn [bind];
      (destruct (fr_frame_version r); try reflexivity; rewrite Gd; cbn [bind]);
      (destruct (fr_dst_addressing_mode r); try reflexivity; rewrite Gsrc; cbn [bind]);
      (destruct (fr_src_addressing_mode r); try reflexivity; exfalso; apply D; repeat split; congruence).
    + intros (r' & HF' & _ & H1 & H3). rewrite (U r' HF') in *. auto.
Qed.

(** ** EnhancedBeacon has the same code *)
Lemma eb_same b : eb_new b = data_new b /\ eb_frame_control b = data_frame_control b /\
  eb_sequence_number b = data_sequence_number b /\ eb_addressing b = data_addressing b /\
  eb_aux b = data_aux b /\ eb_ies b = data_ies b /\ eb_payload b = data_payload b.
Proof. repeat split. Qed.

(** ** EnhancedAck *)
Lemma ea_fc_ok b r : fc_is b r -> ea_frame_control b = Done (firstn 2 b).
Proof.
  intros H. unfold ea_frame_control. apply fc_is_len in H. rewrite slice_to_ok by exact H. cbn [bind].
  unfold fc_new. destruct b as [|b0 [|b1 rest]]; simpl in H; try lia. reflexivity.
Qed.
Lemma ea_fc_eq b r : fc_is b r -> ea_frame_control b = data_frame_control b.
Proof. intros H. rewrite (ea_fc_ok b r H), (data_fc_ok b r H). reflexivity. Qed.
Lemma ea_seq_eq b r : fc_is b r -> ea_sequence_number b = data_sequence_number b.
Proof. intros H. unfold ea_sequence_number, data_sequence_number. rewrite (ea_fc_eq b r H). reflexivity. Qed.
Lemma ea_addressing_eq b r : fc_is b r -> ea_addressing b = data_addressing b.
Proof. intros H. unfold ea_addressing, data_addressing. rewrite (ea_fc_eq b r H). reflexivity. Qed.

Lemma data_seq_ok b r : fc_is b r -> mhr_size r <= length b ->
  data_sequence_number b = Done (nth_error (seq_octets r b) 0).
Proof.
  intros HF HL. getters (fc_is_firstn _ _ HF).
  unfold data_sequence_number. rewrite (data_fc_ok b r HF). cbn [bind]. rewrite Gn. cbn [bind].
  unfold seq_octets, mhr_size in *. destruct (fr_sequence_number_suppression r); [reflexivity|].
  destruct b as [|b0 [|b1 [|b2 rest]]]; simpl in HL; try lia. reflexivity.
Qed.

(** the security header in front of [d], of size [n] *)
Lemma ea_accessors b r n k m :
  fc_is b r -> mhr_size r <= length b ->
  fr_dst_addressing_mode r <> AmUnknown -> fr_src_addressing_mode r <> AmUnknown ->
  (addressing_fits r b n \/ (no_addressing r b /\ n = 0)) ->
  (if fr_security_enabled r then aux_len (skipn (mhr_size r + n) b) = Done k else k = 0) ->
  mhr_size r + n + k <= length b ->
  (if fr_information_elements_present r then ies_fit (skipn (mhr_size r + n + k) b) m else m = 0) ->
  mhr_size r + n + k + m <= length b ->
  (exists o, ea_addressing b = Done o /\ af_view r b o n) /\
  ea_aux b = Done (if fr_security_enabled r then Some (skipn (mhr_size r + n) b) else None) /\
  ea_ies b = Done (if fr_information_elements_present r then Some (skipn (mhr_size r + n + k) b) else None) /\
  ea_payload b = Done (Some (skipn (mhr_size r + n + k + m) b)).
Proof.
  intros HF HL Hd Hs HA HX HK HI HM. getters (fc_is_firstn _ _ HF).
  destruct (data_addressing_view b r HF HL Hd Hs) as (o & n' & EA & VA & KA & LA).
  assert (n' = n) as ->.
  { destruct VA as [[H _]|(H & -> & _)], HA as [H'|[H' ->]]; try reflexivity.
    - destruct H as (dp & sp & P & -> & _), H' as (dp' & sp' & P' & -> & _).
      destruct (c07_unique _ _ _ _ _ P P') as [<- <-]. reflexivity.
    - destruct H as (dp & sp & P & -> & Q). specialize (H' dp sp P). lia.
    - destruct H' as (dp & sp & P & -> & Q). specialize (H dp sp P). lia. }
  assert (EA' := ea_addressing_eq b r HF). rewrite EA in EA'.
  split; [exists o; auto|].
  assert (EX : ea_aux b = Done (if fr_security_enabled r then Some (skipn (mhr_size r + n) b) else None)).
  { unfold ea_aux. rewrite (ea_fc_ok b r HF). cbn [bind]. rewrite Gn. cbn [bind]. rewrite EA'. cbn [bind].
    rewrite <- mhr_seq, KA. cbn [bind]. rewrite Gs. cbn [bind]. destruct (fr_security_enabled r); [|reflexivity].
    rewrite slice_from_ok by lia. reflexivity. }
  split; [exact EX|].
  assert (EO : (if fr_security_enabled r then
      let* a := ea_aux b in
      match a with Some a => let* q := aux_len a in Done (mhr_size r + n + q) | None => Done (mhr_size r + n) end
    else Done (mhr_size r + n)) = Done (mhr_size r + n + k)).
  { rewrite EX. destruct (fr_security_enabled r); cbn [bind].
    - rewrite HX. reflexivity.
    - subst k. f_equal. lia. }
  assert (EI : ea_ies b = Done (if fr_information_elements_present r then Some (skipn (mhr_size r + n + k) b) else None)).
  { unfold ea_ies. rewrite (ea_fc_ok b r HF). cbn [bind]. rewrite Gn. cbn [bind]. rewrite EA'. cbn [bind].
    rewrite <- mhr_seq, KA. cbn [bind]. rewrite Gs. cbn [bind]. rewrite EO. cbn [bind]. rewrite Gi. cbn [bind].
    destruct (fr_information_elements_present r); [|reflexivity].
    rewrite slice_from_ok by lia. cbn [bind]. destruct (ies_fit_new _ _ HI) as [E _]. rewrite E. reflexivity. }
  split; [exact EI|].
  unfold ea_payload. rewrite (ea_fc_ok b r HF). cbn [bind]. rewrite Gn. cbn [bind]. rewrite EA'. cbn [bind].
  rewrite <- mhr_seq, KA. cbn [bind]. rewrite Gs. cbn [bind]. rewrite EO. cbn [bind]. rewrite Gi. cbn [bind].
  rewrite EI. destruct (fr_information_elements_present r); cbn [bind].
  - destruct (ies_fit_new _ _ HI) as [_ E]. rewrite E. cbn [bind]. rewrite slice_from_ok by lia. reflexivity.
  - subst m. rewrite slice_from_ok by lia. cbn [bind]. do 2 f_equal. f_equal. lia.
Qed.
