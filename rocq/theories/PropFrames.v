(** PropFrames.v -- property theorems C11-C16 (frames/data.rs, ack.rs, beacon.rs EnhancedBeacon, mod.rs Frame). *)
From Verif Require Import Base BaseProofs Spec SpecFrame FrameControl FrameControlProofs Addressing SpecAddressing
  AddressingProofs AddressingProofs2 AuxSec PropAuxSec Ie SpecIe IeProofs PropIe ReprIe Beacon Frames SpecFrames FramesProofs.

(** ** C11 *)
(** [acceptable b r] (SpecFrames.v): b starts with a frame control encoding r, 2..127 octets (3.. unless the
    sequence number is suppressed), not secured, no reserved type, version or addressing mode. *)
Theorem C11_data_frame_new : forall b, octets b ->
  (data_new b = Done (Ok b) /\ exists r, acceptable b r) \/
  (data_new b = Done Err /\ ~ exists r, acceptable b r).
Proof. exact data_new_result. Qed.
Print Assumptions C11_data_frame_new.

Lemma data_new_inv b b' : octets b -> data_new b = Done (Ok b') -> b' = b /\ exists r, acceptable b r.
Proof. intros HO H. destruct (data_new_result b HO) as [[E HR]|[E _]]; rewrite H in E; [injection E as ->; auto|discriminate]. Qed.

Definition data_sample : list N :=
  [0x41; 0xd8; 0x01; 0xcd; 0xab; 0xff; 0xff; 0xc7; 0xd9; 0xb5; 0x14; 0x00; 0x4b; 0x12; 0x00; 0x2b; 0x00; 0x00; 0x00]%N.
Example C11_example : data_new data_sample = Done (Ok data_sample) /\ data_new [0x41; 0xd8]%N = Done Err /\
  data_new [0x41; 0xd9]%N = Done (Ok [0x41; 0xd9]%N) /\ data_new [0x49; 0xd8; 0x00]%N = Done Err /\
  data_new (repeat 0x41%N 128) = Done Err.
Proof. repeat split; vm_compute; reflexivity. Qed.

(** ** C12 *)
(** No accessor of an addressing reader panics. *)
Definition addressing_safe (af : AddressingFields) : Prop :=
  af_len af <> Panic /\ af_dst_pan_id af <> Panic /\ af_dst_address af <> Panic /\
  af_src_pan_id af <> Panic /\ af_src_address af <> Panic.
(** Neither the iterators of an information-element reader, nor any accessor of the elements they yield,
    nor the nested elements of MLME groups, panic. *)
Definition ies_safe (d : list N) : Prop :=
  ies_len d <> Panic /\
  exists hs hi ps pi, ies_headers d = Done (hs, hi) /\ ies_payloads d = Done (ps, pi) /\
    Forall (fun e => hie_len e <> Panic /\ hie_element_id e <> Panic /\ hie_content e <> Panic) hs /\
    Forall (fun e => pie_length e <> Panic /\ pie_group_id e <> Panic /\ pie_content e <> Panic /\
      (pie_group_id e = Done PgMlme -> exists es, pie_nested e = Done es /\
         Forall (fun n => nie_length n <> Panic /\ nie_sub_id n <> Panic /\ nie_content n <> Panic) es)) ps.

Lemma nie_sub_id_ok e : 2 <= length e -> nie_sub_id e <> Panic.
Proof. intros H. unfold nie_sub_id, nie_is_long. rewrite ie_raw_ok by exact H. cbn [bind]. discriminate. Qed.

Lemma ies_new_safe d : ies_new d = Done (Ok d) -> ies_safe d.
Proof.
  intros H. split.
  - destruct (ies_new_spec d) as (hs & hn & HW & [[_ E]|(HL & ps & pn & HP & [[_ E]|(HL2 & _ & EL & _)])]);
      try (rewrite H in E; discriminate). rewrite EL. discriminate.
  - destruct (ies_new_spec d) as (hs & hn & HW & [[_ E]|(HL & ps & pn & HP & [[_ E]|(HL2 & _ & EL & (t & HD) & t' & HD')])]);
      try (rewrite H in E; discriminate).
    exists hs, (mkIt d hn t), ps, (mkIt (skipn hn d) pn t'). split; [exact HD|]. split; [exact HD'|].
    destruct (C19_contents_partial d H) as (hs' & hi & ps' & pi & E1 & E2 & F1 & F2).
    rewrite HD in E1. injection E1 as <- <-. rewrite HD' in E2. injection E2 as <- <-.
    pose proof (walk_elem_len _ _ _ _ _ HW) as L1. pose proof (walk_elem_len _ _ _ _ _ HP) as L2.
    rewrite Forall_forall in F1, F2, L1, L2. split; apply Forall_forall; intros e He.
    + specialize (L1 e He). rewrite hie_len_ok, hie_element_id_ok by exact L1. destruct (F1 e He) as (c & -> & _).
      repeat split; discriminate.
    + specialize (L2 e He). rewrite pie_length_ok by exact L2. destruct (F2 e He) as (c & EC & _). rewrite EC.
      split; [discriminate|]. split; [rewrite pie_group_id_ok by exact L2; discriminate|]. split; [discriminate|].
      intros EG. unfold pie_nested, pie_nested_iter. rewrite EG, EC. cbn [bind N.eqb]. rewrite N.eqb_refl. cbn [bind it_data].
      destruct (C21_iteration_partial c) as (es & t2 & -> & _ & _ & HF). cbn [bind]. exists es. split; [reflexivity|].
      rewrite Forall_forall in HF. apply Forall_forall. intros n Hn. destruct (HF n Hn) as [Ln ->]. rewrite nie_length_ok by exact Ln.
      split; [discriminate|]. split; [apply nie_sub_id_ok; exact Ln|discriminate].
Qed.

Lemma fits_safe r b n : fc_is b r -> addressing_fits r b n -> addressing_safe (mkAf (skipn (mhr_size r) b) (firstn 2 b)).
Proof.
  intros HF (dp & sp & HL & -> & Hn).
  destruct (c08_accepted (firstn 2 b) r (skipn (mhr_size r) b) dp sp (fc_is_firstn _ _ HF) HL) as (_ & E1 & E2 & E3 & E4 & E5).
  { rewrite skipn_length. lia. }
  unfold addressing_safe. rewrite E1, E2, E3, E4, E5. repeat split; discriminate.
Qed.

Lemma view_safe r b o n : fc_is b r -> af_view r b o n -> forall af, o = Some af -> addressing_safe af.
Proof.
  intros HF [[Hn ->]|(_ & _ & ->)] af E; [injection E as <-|discriminate]. exact (fits_safe r b n HF Hn).
Qed.
Lemma ie_view_safe r d o n : ie_view r d o n -> forall e, o = Some e -> ies_safe e.
Proof.
  intros [(_ & Hn & ->)|(_ & _ & ->)] e E; [injection E as <-|discriminate].
  apply ies_new_safe. apply (ies_fit_new _ _ Hn).
Qed.

Theorem C12_data_accessors_never_panic : forall b b', octets b -> data_new b = Done (Ok b') ->
  b' = b /\
  data_frame_control b <> Panic /\ data_sequence_number b <> Panic /\ data_aux b <> Panic /\ data_payload b <> Panic /\
  (exists o, data_addressing b = Done o /\ forall af, o = Some af -> addressing_safe af) /\
  (exists i, data_ies b = Done i /\ forall d, i = Some d -> ies_safe d).
Proof.
  intros b b' HO H. destruct (data_new_inv b b' HO H) as [-> (r & HA)]. split; [reflexivity|].
  destruct (data_accessors b r HA) as (E1 & E2 & E3 & o & n & i & m & E4 & V & E5 & VI & _ & E6).
  rewrite E1, E2, E3, E6. repeat (split; [discriminate|]). split.
  - exists o. split; [exact E4|]. apply (view_safe r b o n); [apply HA|exact V].
  - exists i. split; [exact E5|]. apply (ie_view_safe r _ i m VI).
Qed.
Print Assumptions C12_data_accessors_never_panic.

(** Enhanced-beacon-style sample with header and MLME payload IEs, as a data frame. *)
Definition ie_sample : list N :=
  [0x41; 0xeb; 0xcd; 0xab; 0xff; 0xff; 0x01; 0x00; 0x01; 0x00; 0x01; 0x00; 0x01; 0x00; 0x00; 0x3f; 0x11; 0x88; 0x06; 0x1a;
   0x0e; 0x00; 0x00; 0x00; 0x00; 0x00; 0x01; 0x1c; 0x00; 0x01; 0xc8; 0x00; 0x01; 0x1b; 0x00]%N.
Example C12_example : data_new ie_sample = Done (Ok ie_sample) /\
  data_sequence_number ie_sample = Done None /\ data_ies ie_sample = Done (Some (skipn 14 ie_sample)) /\
  ies_len (skipn 14 ie_sample) = Done 21 /\ data_payload ie_sample = Done None /\
  data_payload data_sample = Done (Some [0x2b; 0x00; 0x00; 0x00]%N).
Proof. repeat split; vm_compute; reflexivity. Qed.

(** ** C13 *)
(** The octets of [b] are cut into frame control, sequence number, addressing, information elements, payload. *)
Record cut (b fc seq af ie pl : list N) : Prop := {
  cut_all : b = fc ++ seq ++ af ++ ie ++ pl;
  cut_fc : length fc = 2 }.

Lemma cut_intro r b n m : fc_is b r -> mhr_size r + n + m <= length b ->
  cut b (firstn 2 b) (seq_octets r b) (firstn n (skipn (mhr_size r) b)) (firstn m (skipn (mhr_size r + n) b))
     (skipn (mhr_size r + n + m) b) /\
  skipn (mhr_size r) b = firstn n (skipn (mhr_size r) b) ++ firstn m (skipn (mhr_size r + n) b) ++ skipn (mhr_size r + n + m) b /\
  skipn (mhr_size r + n) b = firstn m (skipn (mhr_size r + n) b) ++ skipn (mhr_size r + n + m) b.
Proof.
  intros HF HL.
  assert (A : skipn (mhr_size r + n) b = firstn m (skipn (mhr_size r + n) b) ++ skipn (mhr_size r + n + m) b).
  { rewrite <- (skipn_skipn' m (mhr_size r + n) b). symmetry. apply firstn_skipn. }
  assert (B : skipn (mhr_size r) b = firstn n (skipn (mhr_size r) b) ++ skipn (mhr_size r + n) b).
  { rewrite <- (skipn_skipn' n (mhr_size r) b). symmetry. apply firstn_skipn. }
  split; [|split; [rewrite B at 1; rewrite A at 1; reflexivity|exact A]].
  apply fc_is_len in HF as H2. constructor; [|rewrite firstn_length; lia].
  rewrite <- A, <- B. unfold seq_octets, mhr_size. destruct (fr_sequence_number_suppression r).
  - cbn [app]. symmetry. apply firstn_skipn.
  - replace (skipn 3 b) with (skipn 1 (skipn 2 b)) by apply skipn_skipn'. rewrite firstn_skipn. symmetry. apply firstn_skipn.
Qed.

(** Full statement. [addressing_fits r b n]: the standard's addressing layout for r is defined, has n octets and
    fits; [ies_fit d n]: d starts with n octets of information elements. *)
Theorem C13_fields_partition : forall b r n, octets b -> data_new b = Done (Ok b) -> fc_is b r -> addressing_fits r b n ->
  exists fc seq af ie pl, cut b fc seq af ie pl /\
    data_frame_control b = Done fc /\ data_aux b = Done None /\
    length seq = (if fr_sequence_number_suppression r then 0 else 1) /\
    data_sequence_number b = Done (nth_error seq 0) /\
    length af = n /\
    data_addressing b = Done (Some (mkAf (af ++ ie ++ pl) fc)) /\ af_len (mkAf (af ++ ie ++ pl) fc) = Done n /\
    ((fr_information_elements_present r = true /\ ies_fit (ie ++ pl) (length ie) /\
        data_ies b = Done (Some (ie ++ pl)) /\ ies_len (ie ++ pl) = Done (length ie)) \/
     ((fr_information_elements_present r = false \/ ~ exists k, ies_fit (ie ++ pl) k) /\ ie = [] /\ data_ies b = Done None)) /\
    data_payload b = Done (match pl with [] => None | _ => Some pl end).
Proof.
  intros b r n HO HN HF HA. destruct (data_new_inv b b HO HN) as [_ (r' & HR)].
  assert (r' = r) as -> by (eapply fc_is_fun; [apply HR|exact HF]).
  destruct (data_accessors b r HR) as (E1 & E2 & E3 & o & n' & i & m & E4 & V & E5 & VI & HL & E6).
  assert (n' = n /\ o = Some (mkAf (skipn (mhr_size r) b) (firstn 2 b))) as [-> ->].
  { destruct HA as (dp & sp & P & -> & Q). destruct V as [[(dp' & sp' & P' & -> & _) ->]|(H & _)].
    - destruct (c07_unique _ _ _ _ _ P P') as [<- <-]. auto.
    - specialize (H dp sp P). lia. }
  destruct (cut_intro r b n m HF HL) as (HC & Ha & Hi).
  exists (firstn 2 b), (seq_octets r b), (firstn n (skipn (mhr_size r) b)), (firstn m (skipn (mhr_size r + n) b)),
    (skipn (mhr_size r + n + m) b).
  rewrite <- Ha, <- Hi. split; [exact HC|]. split; [exact E1|]. split; [exact E3|]. split.
  { unfold seq_octets, mhr_size in *. destruct (fr_sequence_number_suppression r); [reflexivity|].
    rewrite firstn_length, skipn_length. lia. }
  split; [exact E2|]. split; [rewrite firstn_length, skipn_length; lia|]. split; [exact E4|].
  split; [apply (af_at_fits r b n HF HA)|]. split.
  { assert (LM : length (firstn m (skipn (mhr_size r + n) b)) = m) by (rewrite firstn_length, skipn_length; lia).
    destruct VI as [(P & Q & ->)|(P & -> & ->)].
    - left. rewrite LM. split; [exact P|]. split; [exact Q|]. split; [exact E5|]. apply (ies_fit_new _ _ Q).
    - right. auto. }
  rewrite E6. destruct (Nat.eqb_spec (length b) (mhr_size r + n + m)) as [E|E].
  - rewrite skipn_all2 by lia. reflexivity.
  - destruct (skipn (mhr_size r + n + m) b) eqn:ES; [|reflexivity].
    apply (f_equal (@length N)) in ES. rewrite skipn_length in ES. simpl in ES. lia.
Qed.
Print Assumptions C13_fields_partition.

(** Without defined addressing the information elements and payload follow the sequence number directly. *)
Theorem C13_no_addressing : forall b r, octets b -> data_new b = Done (Ok b) -> fc_is b r -> no_addressing r b ->
  exists fc seq ie pl, cut b fc seq [] ie pl /\
    data_frame_control b = Done fc /\ data_aux b = Done None /\
    length seq = (if fr_sequence_number_suppression r then 0 else 1) /\
    data_sequence_number b = Done (nth_error seq 0) /\ data_addressing b = Done None /\
    ((fr_information_elements_present r = true /\ ies_fit (ie ++ pl) (length ie) /\
        data_ies b = Done (Some (ie ++ pl)) /\ ies_len (ie ++ pl) = Done (length ie)) \/
     ((fr_information_elements_present r = false \/ ~ exists k, ies_fit (ie ++ pl) k) /\ ie = [] /\ data_ies b = Done None)) /\
    data_payload b = Done (match pl with [] => None | _ => Some pl end).
Proof.
  intros b r HO HN HF HA. destruct (data_new_inv b b HO HN) as [_ (r' & HR)].
  assert (r' = r) as -> by (eapply fc_is_fun; [apply HR|exact HF]).
  destruct (data_accessors b r HR) as (E1 & E2 & E3 & o & n' & i & m & E4 & V & E5 & VI & HL & E6).
  assert (n' = 0 /\ o = None) as [-> ->].
  { destruct V as [[(dp' & sp' & P' & -> & Q) _]|(_ & -> & ->)]; [|auto]. specialize (HA dp' sp' P'). lia. }
  destruct (cut_intro r b 0 m HF HL) as (HC & Ha & Hi). cbn [firstn] in HC.
  exists (firstn 2 b), (seq_octets r b), (firstn m (skipn (mhr_size r + 0) b)), (skipn (mhr_size r + 0 + m) b).
  rewrite <- Hi. split; [exact HC|]. split; [exact E1|]. split; [exact E3|]. split.
  { unfold seq_octets, mhr_size in *. destruct (fr_sequence_number_suppression r); [reflexivity|].
    rewrite firstn_length, skipn_length. lia. }
  split; [exact E2|]. split; [exact E4|]. split.
  { assert (LM : length (firstn m (skipn (mhr_size r + 0) b)) = m) by (rewrite firstn_length, skipn_length; lia).
    destruct VI as [(P & Q & ->)|(P & -> & ->)]; [left; rewrite LM|right; auto].
    split; [exact P|]. split; [exact Q|]. split; [exact E5|]. apply (ies_fit_new _ _ Q). }
  rewrite E6. destruct (Nat.eqb_spec (length b) (mhr_size r + 0 + m)) as [E|E].
  - rewrite skipn_all2 by lia. reflexivity.
  - destruct (skipn (mhr_size r + 0 + m) b) eqn:ES; [|reflexivity].
    apply (f_equal (@length N)) in ES. rewrite skipn_length in ES. simpl in ES. lia.
Qed.
Print Assumptions C13_no_addressing.

Example C13_example : exists r, fc_is data_sample r /\ addressing_fits r data_sample 12 /\
  cut data_sample (firstn 2 data_sample) [0x01]%N (firstn 12 (skipn 3 data_sample)) [] [0x2b; 0; 0; 0]%N.
Proof.
  eexists. split; [|split].
  - exists 0x41%N, 0xd8%N. eexists. split; [reflexivity|]. split; [reflexivity|]. split; [reflexivity|].
    apply (fcr_of_encodes 0xd841).
  - exists true, false. split; [|split; [reflexivity|vm_compute; lia]].
    unfold layout, ieee_presence. vm_compute. repeat split; congruence.
  - constructor; reflexivity.
Qed.

(** ** C14 *)
Definition C14_statement : Prop := forall b, octets b -> frame_new b <> Panic.
(** Beacons of the 2003/2006 versions reach a [todo!()]. *)
Theorem C14_legacy_beacon_refuted : ~ C14_statement.
Proof. intros H. apply (H [0x00; 0x80]%N); [repeat constructor|vm_compute; reflexivity]. Qed.
Print Assumptions C14_legacy_beacon_refuted.
Theorem C14_legacy_beacon_always_panics : forall b r, fc_is b r -> kind_of r = Some KBeacon -> frame_new b = Panic.
Proof.
  intros b r HF HK. getters (fc_is_firstn _ _ HF). apply fc_is_len in HF as H2. unfold frame_new.
  destruct (Nat.ltb_spec (length b) 2); [lia|]. rewrite slice_to_ok by exact H2. cbn [bind].
  unfold fc_new. rewrite firstn_length, Nat.min_l by exact H2. cbn [Nat.leb]. rewrite Gt. cbn [bind].
  unfold kind_of in HK. destruct (fr_frame_type r); try discriminate HK.
  - rewrite Gv. cbn [bind]. destruct (fr_frame_version r); try discriminate HK; reflexivity.
  - destruct (fr_frame_version r); discriminate HK.
Qed.
Print Assumptions C14_legacy_beacon_always_panics.

(** Every other buffer: the variant is the one the type and version call for, on exactly the given buffer, and
    is rejected exactly when shorter than two octets, of another type/version, or refused by that reader. *)
Theorem C14_dispatch_partial : forall b, octets b ->
  (length b < 2 /\ frame_new b = Done Err) \/
  (2 <= length b /\ exists r, fc_is b r /\
    match kind_of r with
    | None => frame_new b = Done Err
    | Some KAck => frame_new b = Done (if length b =? 3 then Ok (FAck b) else Err)
    | Some KEnhancedAck => frame_new b = Done (Ok (FEnhancedAck b))
    | Some KBeacon => frame_new b = Panic
    | Some KEnhancedBeacon =>
        (acceptable b r /\ frame_new b = Done (Ok (FEnhancedBeacon b))) \/ (~ acceptable b r /\ frame_new b = Done Err)
    | Some KData =>
        (acceptable b r /\ frame_new b = Done (Ok (FData b))) \/ (~ acceptable b r /\ frame_new b = Done Err)
    end).
Proof.
  intros b HO. destruct (Nat.lt_ge_cases (length b) 2) as [H2|H2].
  { left. split; [exact H2|]. unfold frame_new. destruct (Nat.ltb_spec (length b) 2); [reflexivity|lia]. }
  right. split; [exact H2|]. destruct (fc_is_exists b HO H2) as (r & HF). exists r. split; [exact HF|].
  destruct (kind_of r) as [[]|] eqn:HK.
  3: exact (C14_legacy_beacon_always_panics b r HF HK).
  all: getters (fc_is_firstn _ _ HF); unfold frame_new;
    (destruct (Nat.ltb_spec (length b) 2); [lia|]); rewrite slice_to_ok by exact H2; cbn [bind];
    unfold fc_new; rewrite firstn_length, Nat.min_l by exact H2; cbn [Nat.leb]; rewrite Gt; cbn [bind];
    unfold kind_of in HK; rewrite ?Gv.
  - destruct (fr_frame_type r); try discriminate HK; destruct (fr_frame_version r); try discriminate HK; cbn [bind];
    unfold ack_new; destruct (length b =? 3); reflexivity.
  - destruct (fr_frame_type r); try discriminate HK; destruct (fr_frame_version r); try discriminate HK; reflexivity.
  - assert (E : (acceptable b r /\ eb_new b = Done (Ok b)) \/ (~ acceptable b r /\ eb_new b = Done Err)).
    { change (eb_new b) with (data_new b). destruct (data_new_result b HO) as [[E (r' & HR)]|[E HR]].
      - left. rewrite (fc_is_fun b r r' HF (proj1 HR)). auto.
      - right. split; [intros K; apply HR; eauto|exact E]. }
    destruct (fr_frame_type r); try discriminate HK; destruct (fr_frame_version r); try discriminate HK; cbn [bind].
    destruct E as [[A ->]|[A ->]]; [left|right]; auto.
  - assert (E : (acceptable b r /\ data_new b = Done (Ok b)) \/ (~ acceptable b r /\ data_new b = Done Err)).
    { destruct (data_new_result b HO) as [[E (r' & HR)]|[E HR]].
      - left. rewrite (fc_is_fun b r r' HF (proj1 HR)). auto.
      - right. split; [intros K; apply HR; eauto|exact E]. }
    destruct (fr_frame_type r); try discriminate HK; try (destruct (fr_frame_version r); discriminate HK).
    destruct E as [[A ->]|[A ->]]; [left|right]; auto.
  - destruct (fr_frame_type r); try discriminate HK; try (destruct (fr_frame_version r); discriminate HK); try reflexivity;
    destruct (fr_frame_version r); try discriminate HK; reflexivity.
Qed.
Print Assumptions C14_dispatch_partial.

Example C14_example : frame_new [0x02; 0x10; 0x01]%N = Done (Ok (FAck [0x02; 0x10; 0x01]%N)) /\
  frame_new [0x02; 0x10]%N = Done Err /\ frame_new [0x03; 0x10; 0x01]%N = Done Err /\
  frame_new data_sample = Done (Ok (FData data_sample)).
Proof. repeat split; vm_compute; reflexivity. Qed.

(** The immediate acknowledgement reader: accepted buffers have three octets, its accessors cannot panic. *)
Theorem C14_ack_accessors : forall b, ack_new b = Ok b ->
  exists b0 b1 s, b = [b0; b1; s] /\ ack_frame_control b = Done [b0; b1] /\ ack_sequence_number b = Done s.
Proof.
  intros b. unfold ack_new. destruct b as [|b0 [|b1 [|s [|x rest]]]]; simpl; intros H; try discriminate H.
  exists b0, b1, s. repeat split.
Qed.
Print Assumptions C14_ack_accessors.

(** What the accessors of a [Frame] return for the frames Frame::new accepts: those of its variant. For an immediate
    acknowledgement, frame control and sequence number and nothing else. *)
Theorem C14_frame_accessors : forall b f, octets b -> frame_new b = Done (Ok f) ->
  match f with
  | FAck b' => b' = b /\ exists b0 b1 s, b = [b0; b1; s] /\
      frame_frame_control f = Done [b0; b1] /\ frame_sequence_number f = Done (Some s) /\ frame_addressing f = Done None /\
      frame_aux f = Done None /\ frame_ies f = Done None /\ frame_payload f = Done None
  | FBeacon _ => False
  | FEnhancedAck b' => b' = b /\
      frame_frame_control f = ea_frame_control b /\ frame_sequence_number f = ea_sequence_number b /\
      frame_addressing f = ea_addressing b /\ frame_aux f = ea_aux b /\ frame_ies f = ea_ies b /\ frame_payload f = ea_payload b
  | FEnhancedBeacon b' => b' = b /\ eb_new b = Done (Ok b) /\
      frame_frame_control f = eb_frame_control b /\ frame_sequence_number f = eb_sequence_number b /\
      frame_addressing f = eb_addressing b /\ frame_aux f = eb_aux b /\ frame_ies f = eb_ies b /\ frame_payload f = eb_payload b
  | FData b' => b' = b /\ data_new b = Done (Ok b) /\
      frame_frame_control f = data_frame_control b /\ frame_sequence_number f = data_sequence_number b /\
      frame_addressing f = data_addressing b /\ frame_aux f = data_aux b /\ frame_ies f = data_ies b /\ frame_payload f = data_payload b
  end.
Proof.
  intros b f HO H. destruct (C14_dispatch_partial b HO) as [[_ E]|(_ & r & HF & E)]; [congruence|].
  assert (N : acceptable b r -> data_new b = Done (Ok b)).
  { intros A. destruct (data_new_result b HO) as [[E' _]|[_ K]]; [exact E'|]. exfalso. apply K. eauto. }
  destruct (kind_of r) as [[]|]; try congruence.
  - destruct (Nat.eqb_spec (length b) 3) as [L|L]; [|congruence]. rewrite E in H. injection H as <-.
    destruct b as [|b0 [|b1 [|s [|x rest]]]]; try discriminate L. split; [reflexivity|]. exists b0, b1, s. repeat split.
  - rewrite E in H. injection H as <-. repeat split.
  - destruct E as [[A E]|[_ E]]; [|congruence]. rewrite E in H. injection H as <-. split; [reflexivity|]. split; [exact (N A)|]. repeat split.
  - destruct E as [[A E]|[_ E]]; [|congruence]. rewrite E in H. injection H as <-. split; [reflexivity|]. split; [exact (N A)|]. repeat split.
Qed.
Print Assumptions C14_frame_accessors.

(** ** C15 *)
Definition C15_statement : Prop := forall b, octets b -> ea_new b = Ok b ->
  ea_frame_control b <> Panic /\ ea_sequence_number b <> Panic /\ ea_addressing b <> Panic /\
  ea_aux b <> Panic /\ ea_ies b <> Panic /\ ea_payload b <> Panic.
(** Already violated by frames Frame::new accepts: too short for the sequence number, ... *)
Theorem C15_short_refuted : ~ C15_statement.
Proof. intros H. destruct (H [0x02; 0x20]%N) as (_ & K & _); [repeat constructor|reflexivity|apply K; vm_compute; reflexivity]. Qed.
Print Assumptions C15_short_refuted.
Theorem C15_reachable_from_frame_new : frame_new [0x02; 0x20]%N = Done (Ok (FEnhancedAck [0x02; 0x20]%N)) /\
  frame_sequence_number (FEnhancedAck [0x02; 0x20]%N) = Panic /\ frame_addressing (FEnhancedAck [0x02; 0x20]%N) = Panic.
Proof. repeat split. Qed.
Print Assumptions C15_reachable_from_frame_new.
(** ... undecodable information elements (no addressing, seq 1, a header IE longer than the frame), a reserved
    addressing mode, a secured frame without security header. *)
Theorem C15_ies_refuted : ea_ies [0x02; 0x22; 0x01; 0x02; 0x0f]%N = Panic /\
  ea_payload [0x02; 0x22; 0x01; 0x02; 0x0f]%N = Panic.
Proof. split; vm_compute; reflexivity. Qed.
Print Assumptions C15_ies_refuted.
Theorem C15_reserved_mode_refuted : ea_payload [0x02; 0x24; 0x01; 0; 0]%N = Panic.
Proof. vm_compute. reflexivity. Qed.
Print Assumptions C15_reserved_mode_refuted.
Theorem C15_security_refuted : ea_payload [0x0a; 0x20; 0x01]%N = Panic.
Proof. vm_compute. reflexivity. Qed.
Print Assumptions C15_security_refuted.

(** Well-formed enhanced acknowledgements: room for the sequence number, known modes, the layout defined and
    inside the frame (n octets), the security header (control octet and MIC, k octets) inside the frame, the
    information elements decodable (m octets). *)
Theorem C15_partition_partial : forall b r n k m,
  ea_new b = Ok b -> fc_is b r -> mhr_size r <= length b ->
  fr_dst_addressing_mode r <> AmUnknown -> fr_src_addressing_mode r <> AmUnknown ->
  addressing_fits r b n ->
  (if fr_security_enabled r then exists c rest enc mic, skipn (mhr_size r + n) b = c :: rest /\ octet c /\
      table_9_6 (field 0 3 c) = Some (enc, mic) /\ k = 1 + mic /\ mhr_size r + n + k <= length b
   else k = 0) ->
  (if fr_information_elements_present r then ies_fit (skipn (mhr_size r + n + k) b) m else m = 0) ->
  exists fc seq af sec ie pl, b = fc ++ seq ++ af ++ sec ++ ie ++ pl /\ length fc = 2 /\
    length seq = (if fr_sequence_number_suppression r then 0 else 1) /\ length af = n /\ length sec = k /\ length ie = m /\
    ea_frame_control b = Done fc /\ ea_sequence_number b = Done (nth_error seq 0) /\
    ea_addressing b = Done (Some (mkAf (af ++ sec ++ ie ++ pl) fc)) /\ addressing_safe (mkAf (af ++ sec ++ ie ++ pl) fc) /\
    ea_aux b = Done (if fr_security_enabled r then Some (sec ++ ie ++ pl) else None) /\
    ea_ies b = Done (if fr_information_elements_present r then Some (ie ++ pl) else None) /\
    (fr_information_elements_present r = true -> ies_safe (ie ++ pl)) /\
    ea_payload b = Done (Some pl).
Proof.
  intros b r n k m _ HF HL Hd Hs HA HX HI.
  assert (LA : mhr_size r + n <= length b) by (destruct HA as (dp & sp & _ & _ & H); exact H).
  assert (HX' : (if fr_security_enabled r then aux_len (skipn (mhr_size r + n) b) = Done k else k = 0) /\ mhr_size r + n + k <= length b).
  { destruct (fr_security_enabled r); [|subst k; split; [reflexivity|lia]].
    destruct HX as (c & rest & enc & mic & E & Hc & HT & -> & HK). split; [|exact HK]. rewrite E.
    destruct (C10_fields_partial c rest Hc) as (enc' & mic' & HT' & _ & _ & _ & _ & _ & _ & _ & _ & EL).
    rewrite HT in HT'. injection HT' as <- <-. exact EL. }
  destruct HX' as [HX' HK].
  assert (HM : mhr_size r + n + k + m <= length b).
  { destruct (fr_information_elements_present r); [|subst m; lia]. destruct HI as (? & ? & ? & ? & _ & _ & _ & Q).
    rewrite skipn_length in Q. lia. }
  destruct (ea_accessors b r n k m HF HL Hd Hs (or_introl HA) HX' HK HI HM) as ((o & EA & VA) & E2 & E3 & E4).
  assert (o = Some (mkAf (skipn (mhr_size r) b) (firstn 2 b))) as ->.
  { destruct VA as [[_ ->]|(H & _)]; [reflexivity|]. destruct HA as (dp & sp & P & -> & Q). specialize (H dp sp P). lia. }
  assert (A : skipn (mhr_size r + n + k) b = firstn m (skipn (mhr_size r + n + k) b) ++ skipn (mhr_size r + n + k + m) b).
  { rewrite <- (skipn_skipn' m (mhr_size r + n + k) b). symmetry. apply firstn_skipn. }
  assert (B : skipn (mhr_size r + n) b = firstn k (skipn (mhr_size r + n) b) ++ skipn (mhr_size r + n + k) b).
  { rewrite <- (skipn_skipn' k (mhr_size r + n) b). symmetry. apply firstn_skipn. }
  assert (C : skipn (mhr_size r) b = firstn n (skipn (mhr_size r) b) ++ skipn (mhr_size r + n) b).
  { rewrite <- (skipn_skipn' n (mhr_size r) b). symmetry. apply firstn_skipn. }
  exists (firstn 2 b), (seq_octets r b), (firstn n (skipn (mhr_size r) b)), (firstn k (skipn (mhr_size r + n) b)),
    (firstn m (skipn (mhr_size r + n + k) b)), (skipn (mhr_size r + n + k + m) b).
  rewrite <- A, <- B, <- C. apply fc_is_len in HF as H2.
  split. { unfold seq_octets, mhr_size. destruct (fr_sequence_number_suppression r).
    - cbn [app]. symmetry. apply firstn_skipn.
    - replace (skipn 3 b) with (skipn 1 (skipn 2 b)) by apply skipn_skipn'. rewrite firstn_skipn. symmetry. apply firstn_skipn. }
  split; [rewrite firstn_length; lia|].
  split. { unfold seq_octets, mhr_size in *. destruct (fr_sequence_number_suppression r); [reflexivity|].
    rewrite firstn_length, skipn_length. lia. }
  split; [rewrite firstn_length, skipn_length; lia|]. split; [rewrite firstn_length, skipn_length; lia|].
  split; [rewrite firstn_length, skipn_length; lia|]. split; [apply (ea_fc_ok b r HF)|].
  split; [rewrite (ea_seq_eq b r HF); apply (data_seq_ok b r HF HL)|].
  split; [exact EA|]. split; [exact (fits_safe r b n HF HA)|]. split; [exact E2|]. split; [exact E3|]. split; [|exact E4].
  intros EI. rewrite EI in HI. apply ies_new_safe. apply (ies_fit_new _ _ HI).
Qed.
Print Assumptions C15_partition_partial.

(** Exactly when each accessor panics. [n]: octets of addressing fields (0 when the frame has none);
    the security header is [k] octets: control octet and MIC (Table 9-6 of the control octet). *)
Definition eack_security_octets (r : FrameControlRepr) (b : list N) (n k : nat) : Prop :=
  if fr_security_enabled r then exists c rest enc mic, skipn (mhr_size r + n) b = c :: rest /\
    table_9_6 (field 0 3 c) = Some (enc, mic) /\ k = 1 + mic
  else k = 0.
Definition eack_no_control_octet (r : FrameControlRepr) (b : list N) (n : nat) : Prop :=
  fr_security_enabled r = true /\ length b = mhr_size r + n.
Definition eack_ies_undecodable (r : FrameControlRepr) (b : list N) (off : nat) : Prop :=
  fr_information_elements_present r = true /\ ~ exists m, ies_fit (skipn off b) m.

Lemma ea_addressing_short b r : fc_is b r -> length b < mhr_size r ->
  ea_sequence_number b = Panic /\ ea_addressing b = Panic.
Proof.
  intros HF HL. getters (fc_is_firstn _ _ HF). apply fc_is_len in HF as H2. rewrite mhr_seq in HL.
  unfold ea_sequence_number, ea_addressing. rewrite (ea_fc_ok b r HF). cbn [bind]. rewrite Gn. cbn [bind].
  destruct (fr_sequence_number_suppression r); cbn [seq_size] in HL; [lia|].
  assert (length b = 2) as L by lia. destruct b as [|b0 [|b1 [|]]]; try discriminate L. split; reflexivity.
Qed.

(** Too short for its sequence number: every accessor but the frame control panics. *)
Theorem C15_header_panics_iff : forall b r, fc_is b r ->
  ea_frame_control b = Done (firstn 2 b) /\
  (ea_sequence_number b = Panic <-> length b < mhr_size r) /\
  (ea_addressing b = Panic <-> length b < mhr_size r) /\
  (length b < mhr_size r -> ea_aux b = Panic /\ ea_ies b = Panic /\ ea_payload b = Panic).
Proof.
  intros b r HF. split; [exact (ea_fc_ok b r HF)|].
  destruct (Nat.lt_ge_cases (length b) (mhr_size r)) as [L|L].
  - destruct (ea_addressing_short b r HF L) as [E1 E2]. rewrite E1, E2. split; [split; auto|]. split; [split; auto|]. intros _.
    getters (fc_is_firstn _ _ HF). unfold ea_aux, ea_ies, ea_payload. rewrite (ea_fc_ok b r HF). cbn [bind]. rewrite Gn. cbn [bind].
    rewrite E2. repeat split.
  - rewrite (ea_seq_eq b r HF), (data_seq_ok b r HF L), (ea_addressing_eq b r HF), (data_addressing_eq b r HF L).
    split; [split; [discriminate|lia]|]. split; [|lia]. split; [|lia].
    destruct (af_new (skipn (mhr_size r) b) (firstn 2 b)) as [x|] eqn:E; cbn [bind]; [discriminate|].
    exfalso. apply (af_new_no_panic (skipn (mhr_size r) b) (firstn 2 b)); [|exact E].
    apply fc_is_len in HF. rewrite firstn_length. lia.
Qed.
Print Assumptions C15_header_panics_iff.

(** A reserved addressing mode: once the addressing accessor yields something, everything behind it panics. *)
Theorem C15_reserved_mode_panics : forall b r af, fc_is b r ->
  fr_dst_addressing_mode r = AmUnknown \/ fr_src_addressing_mode r = AmUnknown ->
  ea_addressing b = Done (Some af) -> ea_aux b = Panic /\ ea_ies b = Panic /\ ea_payload b = Panic.
Proof.
  intros b r af HF HU HA.
  assert (L : mhr_size r <= length b).
  { destruct (Nat.lt_ge_cases (length b) (mhr_size r)) as [L|L]; [|exact L].
    destruct (ea_addressing_short b r HF L) as [_ E]. congruence. }
  assert (K : af_len af = Panic).
  { pose proof HA as HA'. rewrite (ea_addressing_eq b r HF), (data_addressing_eq b r HF L) in HA'.
    destruct (af_new (skipn (mhr_size r) b) (firstn 2 b)) as [[x|]|] eqn:E; cbn [bind ok] in HA'; try discriminate HA'.
    injection HA' as ->. apply (c08_len_panics_iff _ _ _ _ (fc_is_firstn _ _ HF) E). exact HU. }
  getters (fc_is_firstn _ _ HF). unfold ea_aux, ea_ies, ea_payload. rewrite (ea_fc_ok b r HF). cbn [bind]. rewrite Gn. cbn [bind].
  rewrite HA. cbn [bind add_af_len]. rewrite K. repeat split.
Qed.
Print Assumptions C15_reserved_mode_panics.

(** Otherwise: no octet left for the security control, a security header or information elements that run past
    the frame, or undecodable information elements; and in no other case. *)
Theorem C15_panics_iff : forall b r n, octets b -> fc_is b r -> mhr_size r <= length b ->
  fr_dst_addressing_mode r <> AmUnknown -> fr_src_addressing_mode r <> AmUnknown ->
  addressing_fits r b n \/ (no_addressing r b /\ n = 0) ->
  ea_aux b <> Panic /\
  (ea_ies b = Panic <-> eack_no_control_octet r b n \/
     exists k, eack_security_octets r b n k /\ fr_information_elements_present r = true /\
       (length b < mhr_size r + n + k \/ eack_ies_undecodable r b (mhr_size r + n + k))) /\
  (ea_payload b = Panic <-> eack_no_control_octet r b n \/
     exists k, eack_security_octets r b n k /\
       (length b < mhr_size r + n + k \/ eack_ies_undecodable r b (mhr_size r + n + k))).
Proof.
  intros b r n HO HF HL Hd Hs HA. getters (fc_is_firstn _ _ HF).
  destruct (data_addressing_view b r HF HL Hd Hs) as (o & n' & EA & VA & KA & LA).
  assert (n' = n) as ->.
  { destruct VA as [[H _]|(H & -> & _)], HA as [H'|[H' ->]]; try reflexivity.
    - destruct H as (dp & sp & P & -> & _), H' as (dp' & sp' & P' & -> & _).
      destruct (c07_unique _ _ _ _ _ P P') as [<- <-]. reflexivity.
    - destruct H as (dp & sp & P & -> & Q). specialize (H' dp sp P). lia.
    - destruct H' as (dp & sp & P & -> & Q). specialize (H dp sp P). lia. }
  assert (EA' := ea_addressing_eq b r HF). rewrite EA in EA'. clear EA VA HA.
  assert (EX : ea_aux b = Done (if fr_security_enabled r then Some (skipn (mhr_size r + n) b) else None)).
  { unfold ea_aux. rewrite (ea_fc_ok b r HF). cbn [bind]. rewrite Gn. cbn [bind]. rewrite EA'. cbn [bind].
    rewrite <- mhr_seq, KA. cbn [bind]. rewrite Gs. cbn [bind]. destruct (fr_security_enabled r); [|reflexivity].
    rewrite slice_from_ok by lia. reflexivity. }
  split; [rewrite EX; discriminate|].
  set (OFF := if fr_security_enabled r then
      let* a := ea_aux b in
      match a with Some a => let* q := aux_len a in Done (mhr_size r + n + q) | None => Done (mhr_size r + n) end
    else Done (mhr_size r + n)).
  assert (FI : ea_ies b = let* off := OFF in if fr_information_elements_present r then
      let* rest := slice_from b off in let* x := ies_new rest in let* i := unwrap (ok x) in Done (Some i) else Done None).
  { unfold ea_ies, OFF. rewrite (ea_fc_ok b r HF). cbn [bind]. rewrite Gn. cbn [bind]. rewrite EA'. cbn [bind].
    rewrite <- mhr_seq, KA. cbn [bind]. rewrite Gs. cbn [bind]. rewrite Gi. destruct (fr_security_enabled r); cbn [bind]; [|reflexivity].
    destruct (ea_aux b) as [[a|]|]; cbn [bind]; reflexivity. }
  assert (FP : ea_payload b = let* off := OFF in let* off := (if fr_information_elements_present r then
      let* i := ea_ies b in match i with Some i => let* q := ies_len i in Done (off + q) | None => Done off end else Done off) in
      let* rest := slice_from b off in Done (Some rest)).
  { unfold ea_payload, OFF. rewrite (ea_fc_ok b r HF). cbn [bind]. rewrite Gn. cbn [bind]. rewrite EA'. cbn [bind].
    rewrite <- mhr_seq, KA. cbn [bind]. rewrite Gs. cbn [bind]. rewrite Gi. destruct (fr_security_enabled r); cbn [bind]; [|reflexivity].
    destruct (ea_aux b) as [[a|]|]; cbn [bind]; reflexivity. }
  assert (CASES : (eack_no_control_octet r b n /\ OFF = Panic) \/
    exists k, eack_security_octets r b n k /\ OFF = Done (mhr_size r + n + k) /\ ~ eack_no_control_octet r b n /\
      forall k', eack_security_octets r b n k' -> k' = k).
  { unfold OFF, eack_no_control_octet, eack_security_octets. rewrite EX. destruct (fr_security_enabled r); cbn [bind].
    - destruct (skipn (mhr_size r + n) b) as [|c rest] eqn:ES.
      + left. split; [|reflexivity]. split; [reflexivity|]. apply (f_equal (@length _)) in ES. rewrite skipn_length in ES. cbn in ES. lia.
      + right. assert (Hc : octet c).
        { apply (proj1 (Forall_forall _ _) HO). rewrite <- (firstn_skipn (mhr_size r + n) b), ES. apply in_or_app. right. left. reflexivity. }
        destruct (C10_fields_partial c rest Hc) as (enc & mic & HT & _ & _ & _ & _ & _ & _ & _ & _ & EL).
        exists (1 + mic). rewrite EL. cbn [bind]. split; [exists c, rest, enc, mic; auto|]. split; [reflexivity|]. split.
        * intros [_ Q]. apply (f_equal (@length _)) in ES. rewrite skipn_length in ES. cbn in ES. lia.
        * intros k' (c' & rest' & enc' & mic' & Q & HT' & ->). injection Q as <- <-. congruence.
    - right. exists 0. rewrite Nat.add_0_r. split; [reflexivity|]. split; [reflexivity|]. split; [intros [Q _]; discriminate Q|auto]. }
  clearbody OFF. destruct CASES as [[HN E]|(k & HK & E & HN & UK)].
  { rewrite FP, FI, E. cbn [bind]. split; split; intros _; auto. }
  assert (RI : (fr_information_elements_present r = true /\ (length b < mhr_size r + n + k \/ eack_ies_undecodable r b (mhr_size r + n + k)) /\ ea_ies b = Panic) \/
     (~ (fr_information_elements_present r = true /\ (length b < mhr_size r + n + k \/ eack_ies_undecodable r b (mhr_size r + n + k))) /\
      ea_ies b <> Panic)).
  { rewrite FI, E. cbn [bind]. unfold eack_ies_undecodable. destruct (fr_information_elements_present r).
    2:{ right. split; [intros [Q _]; discriminate Q|discriminate]. }
    destruct (Nat.lt_ge_cases (length b) (mhr_size r + n + k)) as [L|L].
    - left. split; [reflexivity|]. split; [left; exact L|]. unfold slice_from. destruct (Nat.leb_spec (mhr_size r + n + k) (length b)); [lia|reflexivity].
    - rewrite slice_from_ok by lia. cbn [bind]. destruct (ies_cases (skipn (mhr_size r + n + k) b)) as [(m & HM & _ & EM & _)|[EM HM]]; rewrite EM; cbn [bind ok unwrap].
      + right. split; [|discriminate]. intros [_ [Q|[_ Q]]]; [lia|apply Q; eauto].
      + left. auto. }
  assert (RP : ea_payload b = Panic <-> length b < mhr_size r + n + k \/ eack_ies_undecodable r b (mhr_size r + n + k)).
  { rewrite FP, E. cbn [bind]. unfold eack_ies_undecodable in *. destruct (fr_information_elements_present r).
    2:{ cbn [bind]. unfold slice_from. destruct (Nat.leb_spec (mhr_size r + n + k) (length b)) as [L|L]; cbn [bind].
        - split; [discriminate|]. intros [Q|[Q _]]; [lia|discriminate Q].
        - split; [intros _; left; exact L|reflexivity]. }
    destruct RI as [(_ & Q & EI)|(Q & EI)].
    { rewrite EI. cbn [bind]. split; auto. }
    rewrite FI, E in *. cbn [bind] in *.
    assert (L : mhr_size r + n + k <= length b) by (apply Nat.nlt_ge; intros L; apply Q; auto).
    rewrite slice_from_ok in * by lia. cbn [bind] in *.
    destruct (ies_cases (skipn (mhr_size r + n + k) b)) as [(m & HM & LM & EM & EL)|[EM HM]]; rewrite EM in *; cbn [bind ok unwrap] in *; [|congruence].
    rewrite EL. cbn [bind]. rewrite skipn_length in LM. rewrite slice_from_ok by lia. cbn [bind]. split; [discriminate|].
    intros Z. exfalso. apply Q. auto. }
  split.
  - destruct RI as [(F & Q & EI)|(Q & EI)].
    + rewrite EI. split; [intros _; right; exists k; auto|auto].
    + split; [intros Z; congruence|]. intros [Z|(k' & HK' & F & Z)]; [contradiction|]. rewrite (UK k' HK') in Z. exfalso. apply Q. auto.
  - rewrite RP. split; [intros Z; right; exists k; auto|]. intros [Z|(k' & HK' & Z)]; [contradiction|]. rewrite (UK k' HK') in Z. exact Z.
Qed.
Print Assumptions C15_panics_iff.
(** a secured frame whose one security octet asks for an 8-octet MIC (level 2) that is not there: the security
    header is given, the payload panics; with the 8 octets the payload is what follows *)
Example C15_panics_example : forall mic : list N, length mic = 8%nat ->
  ea_aux [0x0a; 0x20; 0x01; 0x02]%N = Done (Some [0x02]%N) /\ ea_payload [0x0a; 0x20; 0x01; 0x02]%N = Panic /\
  ea_payload ([0x0a; 0x20; 0x01; 0x02]%N ++ mic) = Done (Some []).
Proof.
  intros mic H. do 8 (destruct mic as [|? mic]; [discriminate H|]). destruct mic; [|discriminate H].
  split; [vm_compute; reflexivity|]. split; vm_compute; reflexivity.
Qed.

Definition eack_sample : list N :=
  [0x02; 0x2e; 0x37; 0xcd; 0xab; 0x02; 0x00; 0x02; 0x00; 0x02; 0x00; 0x02; 0x00; 0x02; 0x0f; 0xe1; 0x8f]%N.
Example C15_example : ea_sequence_number eack_sample = Done (Some 0x37%N) /\
  ea_ies eack_sample = Done (Some [0x02; 0x0f; 0xe1; 0x8f]%N) /\ ea_payload eack_sample = Done (Some []) /\
  ies_fit [0x02; 0x0f; 0xe1; 0x8f]%N 4.
Proof.
  split; [vm_compute; reflexivity|]. split; [vm_compute; reflexivity|]. split; [vm_compute; reflexivity|].
  exists [[0x02; 0x0f; 0xe1; 0x8f]%N], 4, [], 0. split.
  - apply (walk_last code_header_size std_header_stop [0x02; 0x0f; 0xe1; 0x8f]%N); [simpl; lia|right; vm_compute; lia].
  - split; [apply walk_end; simpl; lia|]. split; [reflexivity|simpl; lia].
Qed.

(** ** C16 *)
Theorem C16_enhanced_beacon_new : forall b, octets b ->
  (eb_new b = Done (Ok b) /\ exists r, acceptable b r) \/ (eb_new b = Done Err /\ ~ exists r, acceptable b r).
Proof. exact data_new_result. Qed.
Print Assumptions C16_enhanced_beacon_new.
Theorem C16_enhanced_beacon_accessors_never_panic : forall b b', octets b -> eb_new b = Done (Ok b') ->
  b' = b /\
  eb_frame_control b <> Panic /\ eb_sequence_number b <> Panic /\ eb_aux b <> Panic /\ eb_payload b <> Panic /\
  (exists o, eb_addressing b = Done o /\ forall af, o = Some af -> addressing_safe af) /\
  (exists i, eb_ies b = Done i /\ forall d, i = Some d -> ies_safe d).
Proof. exact C12_data_accessors_never_panic. Qed.
Print Assumptions C16_enhanced_beacon_accessors_never_panic.
Theorem C16_enhanced_beacon_partition : forall b r n, octets b -> eb_new b = Done (Ok b) -> fc_is b r -> addressing_fits r b n ->
  exists fc seq af ie pl, cut b fc seq af ie pl /\
    eb_frame_control b = Done fc /\ eb_aux b = Done None /\
    length seq = (if fr_sequence_number_suppression r then 0 else 1) /\
    eb_sequence_number b = Done (nth_error seq 0) /\
    length af = n /\
    eb_addressing b = Done (Some (mkAf (af ++ ie ++ pl) fc)) /\ af_len (mkAf (af ++ ie ++ pl) fc) = Done n /\
    ((fr_information_elements_present r = true /\ ies_fit (ie ++ pl) (length ie) /\
        eb_ies b = Done (Some (ie ++ pl)) /\ ies_len (ie ++ pl) = Done (length ie)) \/
     ((fr_information_elements_present r = false \/ ~ exists k, ies_fit (ie ++ pl) k) /\ ie = [] /\ eb_ies b = Done None)) /\
    eb_payload b = Done (match pl with [] => None | _ => Some pl end).
Proof. exact C13_fields_partition. Qed.
Print Assumptions C16_enhanced_beacon_partition.

Theorem C16_enhanced_beacon_no_addressing : forall b r, octets b -> eb_new b = Done (Ok b) -> fc_is b r -> no_addressing r b ->
  exists fc seq ie pl, cut b fc seq [] ie pl /\
    eb_frame_control b = Done fc /\ eb_aux b = Done None /\
    length seq = (if fr_sequence_number_suppression r then 0 else 1) /\
    eb_sequence_number b = Done (nth_error seq 0) /\ eb_addressing b = Done None /\
    ((fr_information_elements_present r = true /\ ies_fit (ie ++ pl) (length ie) /\
        eb_ies b = Done (Some (ie ++ pl)) /\ ies_len (ie ++ pl) = Done (length ie)) \/
     ((fr_information_elements_present r = false \/ ~ exists k, ies_fit (ie ++ pl) k) /\ ie = [] /\ eb_ies b = Done None)) /\
    eb_payload b = Done (match pl with [] => None | _ => Some pl end).
Proof. exact C13_no_addressing. Qed.
Print Assumptions C16_enhanced_beacon_no_addressing.

Definition eb_sample : list N := 0x40%N :: tl ie_sample.
Example C16_example : frame_new eb_sample = Done (Ok (FEnhancedBeacon eb_sample)) /\
  eb_ies eb_sample = Done (Some (skipn 14 eb_sample)) /\ eb_payload eb_sample = Done None.
Proof. repeat split; vm_compute; reflexivity. Qed.
