(** PropForward.v -- C89: a received frame, parsed and emitted again, is the same frame. *)
From Coq Require Import Lia.
From Verif Require Import Base BaseProofs Spec SpecFrame BitProofs FrameControl FrameControlProofs PropFrameControl Addressing SpecAddressing
  AddressingProofs AddressingProofs2 AuxSec Ie SpecIe IeProofs IeContent ReprIe SpecIeContent IeContentProofs SlotframeProofs
  ReprIeProofs IesProofs Frames SpecFrames FramesProofs Repr SpecRepr ReprProofs PropRepr SpecForward.

(** ** The addressing fields read are the octets they were read from *)
Lemma pan_octets_at p b off : octets b -> off + pan_size p <= length b -> pan_octets (pan_at p b off) = window b off (pan_size p).
Proof.
  intros HO HL. destruct p; [|reflexivity]. cbn [pan_size pan_at pan_octets] in *. unfold window.
  assert (E : exists x y t, skipn off b = x :: y :: t).
  { assert (L : length (skipn off b) >= 2) by (rewrite skipn_length; lia). destruct (skipn off b) as [|x [|y t]]; cbn [length] in L; try lia. eauto. }
  destruct E as (x & y & t & E). assert (N0 : nth off b 0%N = x) by (rewrite <- (firstn_skipn off b), app_nth2, firstn_length, E by (rewrite firstn_length; lia); replace (off - Nat.min off (length b)) with 0 by lia; reflexivity).
  assert (N1 : nth (off + 1) b 0%N = y) by (rewrite <- (firstn_skipn off b), app_nth2, firstn_length, E by (rewrite firstn_length; lia); replace (off + 1 - Nat.min off (length b)) with 1 by lia; reflexivity).
  rewrite N0, N1, E. assert (OX : octet x) by (rewrite <- N0; apply (proj1 (Forall_forall _ _) HO); apply nth_In; lia). unfold octet in OX.
  cbn [firstn]. f_equal; [rewrite (N.mul_comm 256 y), N.mod_add by discriminate; apply N.mod_small; exact OX|]. f_equal.
  rewrite (N.mul_comm 256 y), N.div_add by discriminate. rewrite N.div_small by exact OX. reflexivity.
Qed.
Lemma addr_octets_at m b off : off + addr_size m <= length b -> addr_octets (Some (addr_at m b off)) = window b off (addr_size m).
Proof. intros HL. destruct m; cbn [addr_at addr_octets addr_size]; try reflexivity; apply rev_involutive. Qed.
Lemma window_app_next b o n m : window b o n ++ window b (o + n) m = window b o (n + m).
Proof.
  unfold window. rewrite <- AddressingProofs.skipn_skipn'.
  generalize (skipn o b) as l. clear b o. intros l. revert l. induction n as [|n IH]; intros l; [reflexivity|]. destruct l as [|x l]; [cbn; destruct m; reflexivity|].
  cbn [firstn skipn Nat.add app]. f_equal. apply IH.
Qed.
Lemma octets_window (d : list N) o n : octets d -> octets (window d o n).
Proof.
  intros H. unfold window, octets in *. rewrite Forall_forall in *. intros x Hx. apply H. rewrite <- (firstn_skipn o d). apply in_or_app. right.
  rewrite <- (firstn_skipn n (skipn o d)). apply in_or_app. left. exact Hx.
Qed.
Lemma read_octets fc fr d dp sp : fc_is fc fr -> layout fr dp sp -> octets d -> layout_size fr dp sp <= length d ->
  exists a, afr_parse (mkAf d fc) = Done a /\ addressing_octets a = firstn (layout_size fr dp sp) d /\
    repr_matches (normal a) (fr_dst_addressing_mode fr) (fr_src_addressing_mode fr) dp sp.
Proof.
  intros HF HL HO HN. destruct (c08_accepted fc fr d dp sp HF HL HN) as (_ & _ & G1 & G2 & G3 & G4).
  destruct (layout_known _ _ _ HL) as [Kd Ks].
  unfold afr_parse. rewrite G1, G2, G3, G4. cbn [bind]. eexists. split; [reflexivity|]. unfold layout_size in *. split.
  - unfold addressing_octets. cbn [ar_dst_pan_id ar_dst_address ar_src_pan_id ar_src_address].
    rewrite !pan_octets_at, !addr_octets_at by (try assumption; lia).
    rewrite app_assoc, (window_app_next d 0). rewrite app_assoc, (window_app_next d 0). rewrite (window_app_next d 0). unfold window. cbn [skipn]. f_equal; lia.
  - unfold repr_matches, normal. cbn [ar_dst_pan_id ar_dst_address ar_src_pan_id ar_src_address normal_addr].
    assert (W : forall m off, m <> AmUnknown -> off + addr_size m <= length d -> mode_of_address (addr_at m d off) = m /\ address_wf (addr_at m d off)).
    { intros m off Hm Ho. destruct m; cbn [addr_at mode_of_address address_wf addr_size] in *; try (split; [reflexivity|exact I]); try congruence.
      - split; [reflexivity|]. rewrite rev_length. unfold window. rewrite firstn_length, skipn_length. split; [lia|]. apply Forall_rev. exact (octets_window d off 2 HO).
      - split; [reflexivity|]. rewrite rev_length. unfold window. rewrite firstn_length, skipn_length. split; [lia|]. apply Forall_rev. exact (octets_window d off 8 HO). }
    assert (P : forall p off, off + pan_size p <= length d -> if p then exists v, pan_at p d off = Some v /\ (v < 65536)%N else pan_at p d off = None).
    { intros p off Ho. destruct p; [|reflexivity]. cbn [pan_at pan_size] in *. eexists. split; [reflexivity|].
      assert (X : octet (nth off d 0%N)) by (apply (proj1 (Forall_forall _ _) HO); apply nth_In; lia).
      assert (Y : octet (nth (off + 1) d 0%N)) by (apply (proj1 (Forall_forall _ _) HO); apply nth_In; lia). unfold octet in *. lia. }
    split; [|split].
    + do 2 eexists. split; [reflexivity|]. split; [reflexivity|].
      destruct (W _ (pan_size dp) Kd ltac:(lia)) as [M1 F1]. destruct (W _ (pan_size dp + addr_size (fr_dst_addressing_mode fr) + pan_size sp) Ks ltac:(lia)) as [M2 F2]. auto.
    + apply P. lia.
    + apply P. lia.
Qed.

(** ** What the parser returns for an accepted frame *)
Lemma control_parsed b c : fc_is b c -> fcr_parse (firstn 2 b) = Done (Ok c).
Proof.
  intros HF. assert (HF2 := fc_is_firstn _ _ HF). getters HF2. unfold fcr_parse. rewrite Gt, Gs, Gp, Ga, Gc, Gn, Gi, Gd, Gsrc, Gv. cbn [bind]. destruct c; reflexivity.
Qed.
Definition rest_of (b : list N) (k : nat) : option (list N) := if length b =? k then None else Some (skipn k b).
Lemma parsed_plain b c : octets b -> acceptable b c -> fr_information_elements_present c = false ->
  exists a n, frame_parse b = Done (Ok (mkFrame c (nth_error (seq_octets c b) 0) a None (rest_of b (mhr_size c + n)))) /\
    mhr_size c + n <= length b /\
    ((exists dp sp x, layout c dp sp /\ n = layout_size c dp sp /\ a = Some x /\ addressing_octets x = window b (mhr_size c) n /\
        repr_matches (normal x) (fr_dst_addressing_mode c) (fr_src_addressing_mode c) dp sp) \/
     (n = 0 /\ a = None /\ no_addressing c b)).
Proof.
  intros HO AC HI. destruct (data_accessors b c AC) as (E1 & E2 & _ & o & n & i & m & EA & VA & EI & VI & HL & EP).
  assert (HF := proj1 AC). destruct VI as [(K & _)|(_ & -> & ->)]; [congruence|]. rewrite Nat.add_0_r in *.
  unfold frame_parse. rewrite E1. cbn [bind]. rewrite (control_parsed b c HF). unfold try at 1. cbn [bind]. rewrite EA, EI, E2, EP. cbn [bind parse_ies try].
  destruct VA as [[(dp & sp & HL' & Hn' & HLL) ->]|(HNo & -> & ->)].
  - destruct (read_octets (firstn 2 b) c (skipn (mhr_size c) b) dp sp (fc_is_firstn _ _ HF) HL') as (x & PX & OX & MX); [apply octets_skipn, HO|rewrite skipn_length; lia|].
    exists (Some x), n. unfold some. rewrite PX. cbn [bind]. split; [reflexivity|]. split; [lia|]. left. exists dp, sp, x. split; [exact HL'|]. split; [exact Hn'|].
    split; [reflexivity|]. split; [rewrite OX, Hn'; reflexivity|exact MX].
  - exists None, 0. cbn [bind]. rewrite Nat.add_0_r. split; [reflexivity|]. split; [lia|]. right. auto.
Qed.

(** ** Emission *)
Lemma control_emitted c0 c1 rest c : octets (c0 :: c1 :: rest) -> fc_is (c0 :: c1 :: rest) c -> fcr_known c ->
  fcr_emit c [0%N; 0%N] = Done [(c0 mod 128)%N; c1].
Proof.
  intros HO HF HK. assert (O0 : octet c0) by (inversion HO; assumption). assert (O1 : octet c1) by (inversion HO as [|? ? ? H]; inversion H; assumption).
  rewrite (C04_parse_emit c0 c1 [] c O0 O1 (control_parsed _ c HF) HK). do 2 f_equal. unfold octet in O0. clear - O0. unfold bit. 
  destruct (N.lt_ge_cases c0 128) as [L|L].
  - rewrite N.mod_small by exact L. replace (c0 / 2 ^ 7)%N with 0%N by (symmetry; apply N.div_small; exact L). cbn. lia.
  - replace (c0 mod 128)%N with (c0 - 128)%N; [|apply (N.mod_unique c0 128 1); lia].
    replace (c0 / 2 ^ 7)%N with 1%N; [cbn; lia|]. apply (N.div_unique c0 (2 ^ 7) 1 (c0 - 128)); change (2 ^ 7)%N with 128%N; lia.
Qed.

Lemma seq_of_length c b : mhr_size c <= length b -> length (seq_octets c b) = mhr_size c - 2 /\
  (match nth_error (seq_octets c b) 0 with Some x => [x] | None => [] end) = seq_octets c b.
Proof.
  unfold seq_octets, mhr_size. destruct (fr_sequence_number_suppression c); [auto|]. intros H. destruct b as [|? [|? [|? ?]]]; cbn [length] in H; try lia. auto.
Qed.
Lemma frame_cut c c0 c1 t n : mhr_size c + n <= length (c0 :: c1 :: t) ->
  c0 :: c1 :: t = c0 :: c1 :: seq_octets c (c0 :: c1 :: t) ++ window (c0 :: c1 :: t) (mhr_size c) n ++ skipn (mhr_size c + n) (c0 :: c1 :: t).
Proof.
  intros H. do 2 f_equal. unfold window. rewrite <- AddressingProofs.skipn_skipn', firstn_skipn.
  unfold seq_octets, mhr_size in *. destruct (fr_sequence_number_suppression c); [reflexivity|]. cbn [skipn]. rewrite firstn_skipn. reflexivity.
Qed.
Lemma rest_of_octets b k : k <= length b -> (match rest_of b k with Some p => p | None => [] end) = skipn k b.
Proof. intros H. unfold rest_of. destruct (Nat.eqb_spec (length b) k) as [E|E]; [|reflexivity]. rewrite skipn_all2 by lia. reflexivity. Qed.

Theorem C89_forward_partial : forall b r, octets b -> data_new b = Done (Ok b) -> frame_parse b = Done (Ok r) ->
  fr_information_elements_present (f_control r) = false ->
  frame_buffer_len r = Done (length b) /\
  forall buf, length buf = length b -> firstn 2 buf = [0; 0]%N -> frame_emit r buf = Done (cleared b).
Proof.
  intros b r HO HN HP HI. destruct (data_new_result b HO) as [(_ & c & AC)|[K _]]; [|rewrite HN in K; discriminate].
  assert (HIc : fr_information_elements_present c = false).
  { destruct (data_accessors b c AC) as (E1 & _). unfold frame_parse in HP. rewrite E1 in HP. cbn [bind] in HP. rewrite (control_parsed b c (proj1 AC)) in HP. unfold try at 1 in HP. cbn [bind] in HP.
    destruct (data_addressing b) as [o|]; [|discriminate HP]. cbn [bind] in HP.
    destruct (match o with Some af => some (afr_parse af) | None => Done None end) as [a|]; [|discriminate HP]. cbn [bind] in HP.
    destruct (data_ies b) as [i|]; [|discriminate HP]. cbn [bind] in HP. unfold try in HP. destruct (parse_ies i) as [[x|]|]; cbn [bind] in HP; [|discriminate HP|discriminate HP].
    destruct (data_sequence_number b); [|discriminate HP]. cbn [bind] in HP. destruct (data_payload b); [|discriminate HP]. cbn [bind] in HP. injection HP as <-. exact HI. }
  destruct (parsed_plain b c HO AC HIc) as (a & n & PE & LN & CASE). rewrite PE in HP.
  assert (ER : r = mkFrame c (nth_error (seq_octets c b) 0) a None (rest_of b (mhr_size c + n))) by congruence. subst r. clear HI HP.
  destruct AC as (HF & [HLm HLM] & HS & HK).
  assert (HB : exists c0 c1 t, b = c0 :: c1 :: t) by (destruct HF as (c0 & c1 & t & -> & _); eauto). destruct HB as (c0 & c1 & t & EB).
  assert (CE : fcr_emit c [0%N; 0%N] = Done [(c0 mod 128)%N; c1]) by (rewrite EB in HO, HF; exact (control_emitted c0 c1 t c HO HF HK)).
  assert (CUT := frame_cut c c0 c1 t n). rewrite <- EB in CUT. specialize (CUT LN). destruct (seq_of_length c b HLm) as [LS ES].
  assert (EF : cleared b = (c0 mod 128)%N :: c1 :: seq_octets c b ++ window b (mhr_size c) n ++ skipn (mhr_size c + n) b).
  { transitivity (cleared (c0 :: c1 :: seq_octets c b ++ window b (mhr_size c) n ++ skipn (mhr_size c + n) b)); [f_equal; exact CUT|reflexivity]. }
  assert (LW : length (window b (mhr_size c) n) = n) by (unfold window; rewrite firstn_length, skipn_length; lia).
  set (r := mkFrame c (nth_error (seq_octets c b) 0) a None (rest_of b (mhr_size c + n))).
  assert (SP : seq_part r = seq_octets c b) by exact ES.
  assert (PP : payload_part r = skipn (mhr_size c + n) b) by (exact (rest_of_octets b (mhr_size c + n) LN)).
  assert (M2 : 2 <= mhr_size c) by (unfold mhr_size; destruct (fr_sequence_number_suppression c); lia).
  destruct (fcr_emit_encodes c [] HK) as (g0 & g1 & G0 & G1 & GEE & GE & GB). rewrite CE in GEE. injection GEE as <- <-.
  destruct CASE as [(dp & sp & x & HL' & Hn' & -> & OX & MX)|(-> & -> & HNo)].
  - assert (C : consistent r).
    { constructor.
      - exact HK.
      - exact HS.
      - cbn [r f_sequence_number f_control]. unfold seq_octets, mhr_size in *. destruct (fr_sequence_number_suppression c); [reflexivity|].
        destruct b as [|? [|? [|y ?]]]; cbn [length] in HLm; try lia. split; [|reflexivity]. apply (proj1 (Forall_forall _ _) HO). right. right. left. reflexivity.
      - cbn [r f_addressing f_control]. exists dp, sp. auto.
      - exact HIc.
      - cbn [r f_payload]. unfold rest_of. destruct (length b =? mhr_size c + n); [exact I|]. apply octets_skipn, HO. }
    assert (AP : addr_part r = window b (mhr_size c) n) by exact OX.
    fold r. split.
    + rewrite (buffer_len_ok r C), SP, AP, PP. change (ies_part r) with (@nil N). rewrite LS, LW, skipn_length. f_equal. cbn [length]. lia.
    + intros buf LB HZ. destruct buf as [|z0 [|z1 buf]]; cbn [firstn] in HZ; try discriminate. injection HZ as -> ->.
      destruct (emit_ok r C I) as (k & b' & BL & LB' & (d0 & d1 & D0 & D1 & DE & DB & EB') & EM).
      rewrite (buffer_len_ok r C), SP, AP, PP in BL. change (ies_part r) with (@nil N) in BL. rewrite LS, LW, skipn_length in BL. cbn [length] in BL. injection BL as BL.
      rewrite EM by (cbn [length] in LB; lia). rewrite EB', SP, AP, PP, EF. change (ies_part r) with (@nil N). cbn [app].
      assert (EQ : (d0 + 256 * d1 = (c0 mod 128) + 256 * c1)%N) by (apply (fc_encodes_ext _ _ c); [unfold octet in *; lia|unfold octet in *; lia|exact DE|exact GE|congruence]).
      assert (E0 : d0 = (c0 mod 128)%N /\ d1 = c1) by (unfold octet in *; clear - EQ D0 D1 G0 G1; set (q := (c0 mod 128)%N) in *; clearbody q; lia).
      destruct E0 as [-> ->]. reflexivity.
  - fold r. assert (R0 : r = mkFrame c (nth_error (seq_octets c b) 0) None None (rest_of b (mhr_size c))) by (unfold r; rewrite Nat.add_0_r; reflexivity).
    clearbody r. subst r. rewrite Nat.add_0_r in *. change (window b (mhr_size c) 0) with (@nil N) in *. cbn [app] in *. split.
    + unfold frame_buffer_len. cbn [f_sequence_number f_addressing f_ies f_payload bind].
      assert (LQ : match nth_error (seq_octets c b) 0 with Some _ => 2 + 1 | None => 2 end = mhr_size c).
      { rewrite <- ES in LS. destruct (nth_error (seq_octets c b) 0); cbn [length] in LS; lia. }
      cbv zeta. rewrite LQ. unfold rest_of. destruct (Nat.eqb_spec (length b) (mhr_size c)) as [E|E]; [congruence|]. rewrite skipn_length. f_equal. lia.
    + intros buf LB HZ. destruct buf as [|z0 [|z1 buf]]; cbn [firstn] in HZ; try discriminate. injection HZ as -> ->.
      unfold frame_emit. cbn [f_control f_sequence_number f_addressing f_ies f_payload]. rewrite (set_control_ok c _ _ buf CE). cbn [bind].
      assert (SQ : exists d, match nth_error (seq_octets c b) 0 with Some x => data_set_sequence_number x ((c0 mod 128)%N :: c1 :: buf) | None => Done ((c0 mod 128)%N :: c1 :: buf) end
          = Done (((c0 mod 128)%N :: c1 :: seq_octets c b) ++ d) /\ length d = length b - mhr_size c).
      { rewrite <- ES in LS. rewrite <- ES. destruct (nth_error (seq_octets c b) 0) as [x|]; cbn [length] in LS.
        - destruct buf as [|y d]; [cbn [length] in LB; lia|]. exists d. split; [apply set_seq_ok; assumption|]. cbn [length] in LB. lia.
        - exists buf. split; [reflexivity|]. cbn [length] in LB. lia. }
      destruct SQ as (d & SQ & LD). rewrite SQ. cbn [bind].
      set (w := ((c0 mod 128)%N :: c1 :: seq_octets c b) ++ d).
      assert (LH : length ((c0 mod 128)%N :: c1 :: seq_octets c b) = mhr_size c) by (cbn [length]; lia).
      assert (WF : fc_is w c) by (apply fc_is_cons; assumption).
      assert (WL : length w = length b) by (unfold w; rewrite app_length, LH; lia).
      assert (WA : data_addressing w = Done None).
      { destruct HK as (_ & _ & Kd & Ks). rewrite (data_addressing_eq w c WF) by lia. rewrite (af_at_none c w WF Kd Ks); [reflexivity|lia|]. intros dp sp HL'. rewrite WL. apply HNo, HL'. }
      unfold rest_of. destruct (Nat.eqb_spec (length b) (mhr_size c)) as [E|E].
      * f_equal. destruct d; [|cbn [length] in LD; lia]. unfold w. rewrite EF, skipn_all2 by lia. reflexivity.
      * unfold data_set_payload. rewrite (data_fc_ok w c WF). cbn [bind]. getters (fc_is_firstn _ _ WF). rewrite Gn. cbn [bind]. rewrite WA. cbn [bind add_af_len].
        rewrite Gs, HS. cbn [bind]. rewrite Gi, HIc. cbn [bind]. rewrite <- mhr_seq. destruct (slices_app ((c0 mod 128)%N :: c1 :: seq_octets c b) d (mhr_size c) (eq_sym LH)) as [S1 S2].
        fold w in S1, S2. rewrite S1, S2. cbn [bind]. rewrite skipn_length, LD, Nat.eqb_refl. rewrite EF. reflexivity.
Qed.
Print Assumptions C89_forward_partial.

(** ** Frames that say they carry information elements *)
(** How the addressing fields of [b] were read: [n] octets, or none at all. *)
Definition addressing_read (c : FrameControlRepr) (b : list N) (a : option AddressingFieldsRepr) (n : nat) : Prop :=
  (exists dp sp x, layout c dp sp /\ n = layout_size c dp sp /\ a = Some x /\ addressing_octets x = window b (mhr_size c) n /\
     repr_matches (normal x) (fr_dst_addressing_mode c) (fr_src_addressing_mode c) dp sp) \/
  (n = 0 /\ a = None /\ no_addressing c b).
Lemma parsed_any b c : octets b -> acceptable b c ->
  exists a n i m, data_ies b = Done i /\ ie_view c (skipn (mhr_size c + n) b) i m /\ mhr_size c + n + m <= length b /\ addressing_read c b a n /\
    frame_parse b = try (parse_ies i) (fun ies => Done (Ok (mkFrame c (nth_error (seq_octets c b) 0) a ies (rest_of b (mhr_size c + n + m))))).
Proof.
  intros HO AC. destruct (data_accessors b c AC) as (E1 & E2 & _ & o & n & i & m & EA & VA & EI & VI & HL & EP).
  assert (HF := proj1 AC). unfold frame_parse. rewrite E1. cbn [bind]. rewrite (control_parsed b c HF). unfold try at 1. cbn [bind]. rewrite EA, EI, E2, EP. cbn [bind].
  destruct VA as [[(dp & sp & HL' & Hn' & HLL) ->]|(HNo & -> & ->)].
  - destruct (read_octets (firstn 2 b) c (skipn (mhr_size c) b) dp sp (fc_is_firstn _ _ HF) HL') as (x & PX & OX & MX); [apply octets_skipn, HO|rewrite skipn_length; lia|].
    exists (Some x), n, i, m. unfold some. rewrite PX. cbn [bind]. split; [reflexivity|]. split; [exact VI|]. split; [exact HL|]. split; [|reflexivity].
    left. exists dp, sp, x. split; [exact HL'|]. split; [exact Hn'|]. split; [reflexivity|]. split; [rewrite OX, Hn'; reflexivity|exact MX].
  - exists None, 0, i, m. cbn [bind]. split; [reflexivity|]. split; [exact VI|]. split; [exact HL|]. split; [right; auto|reflexivity].
Qed.
Definition front (c0 c1 : N) (c : FrameControlRepr) (b : list N) (n : nat) : list N :=
  (c0 mod 128)%N :: c1 :: seq_octets c b ++ window b (mhr_size c) n.
Lemma emit_prefix c0 c1 t c a n buf : let b := c0 :: c1 :: t in octets b -> acceptable b c -> addressing_read c b a n -> mhr_size c + n <= length b ->
  2 + length buf = length b ->
  exists d, length d = length b - (mhr_size c + n) /\ d = skipn (mhr_size c + n) (0%N :: 0%N :: buf) /\
    (let* w := data_set_frame_control c (0%N :: 0%N :: buf) in
     let* w := match nth_error (seq_octets c b) 0 with Some x => data_set_sequence_number x w | None => Done w end in
     match a with Some x => data_set_addressing_fields x w | None => Done w end) = Done (front c0 c1 c b n ++ d) /\
    length (front c0 c1 c b n) = mhr_size c + n /\ fc_is (front c0 c1 c b n ++ d) c /\
    exists o, data_addressing (front c0 c1 c b n ++ d) = Done o /\ forall k, add_af_len o k = Done (k + n).
Proof.
  intros b HO AC RD LN LB. destruct AC as (HF & [HLm HLM] & HS & HK).
  assert (CE : fcr_emit c [0%N; 0%N] = Done [(c0 mod 128)%N; c1]) by exact (control_emitted c0 c1 t c HO HF HK).
  destruct (fcr_emit_encodes c [] HK) as (g0 & g1 & G0 & G1 & GEE & GE & GB). rewrite CE in GEE. injection GEE as <- <-.
  destruct (seq_of_length c b HLm) as [LS ES]. assert (LW : length (window b (mhr_size c) n) = n) by (unfold window; rewrite firstn_length, skipn_length; lia).
  assert (M2 : 2 <= mhr_size c) by (unfold mhr_size; destruct (fr_sequence_number_suppression c); lia).
  rewrite (set_control_ok c _ _ buf CE). cbn [bind].
  assert (LFR : length (front c0 c1 c b n) = mhr_size c + n) by (unfold front; cbn [length]; rewrite app_length, LS, LW; lia).
  assert (SQ : exists e, match nth_error (seq_octets c b) 0 with Some x => data_set_sequence_number x ((c0 mod 128)%N :: c1 :: buf) | None => Done ((c0 mod 128)%N :: c1 :: buf) end
      = Done (((c0 mod 128)%N :: c1 :: seq_octets c b) ++ e) /\ length e = length b - mhr_size c /\ e = skipn (mhr_size c) (0%N :: 0%N :: buf)).
  { rewrite <- ES in LS. rewrite <- ES. destruct (nth_error (seq_octets c b) 0) as [x|]; cbn [length] in LS.
    - destruct buf as [|y d]; [cbn [length] in LB; lia|]. exists d. split; [apply set_seq_ok; assumption|]. split; [cbn [length] in LB; lia|].
      replace (mhr_size c) with 3 by lia. reflexivity.
    - exists buf. split; [reflexivity|]. split; [cbn [length] in LB; lia|]. replace (mhr_size c) with 2 by lia. reflexivity. }
  destruct SQ as (e & SQ & LE & EE). rewrite SQ. cbn [bind]. exists (skipn n e). split; [rewrite skipn_length; lia|]. split; [rewrite EE, AddressingProofs.skipn_skipn'; reflexivity|].
  assert (LH : length ((c0 mod 128)%N :: c1 :: seq_octets c b) = mhr_size c) by (cbn [length]; lia).
  assert (WF : fc_is (front c0 c1 c b n ++ skipn n e) c) by (apply fc_is_cons; assumption).
  assert (WL : length (front c0 c1 c b n ++ skipn n e) = length b) by (rewrite app_length, LFR, skipn_length; lia).
  split; [|split; [exact LFR|split; [exact WF|]]].
  - destruct RD as [(dp & sp & x & HL' & Hn' & -> & OX & MX)|(-> & -> & HNo)].
    + unfold data_set_addressing_fields. destruct (head_fc (c0 mod 128)%N c1 (seq_octets c b ++ e) c G0 G1 GE) as (E1 & E2 & _). cbn [app]. rewrite E1. cbn [bind]. rewrite E2. cbn [bind].
      cbv zeta. rewrite <- mhr_seq. change ((c0 mod 128)%N :: c1 :: seq_octets c b ++ e) with (((c0 mod 128)%N :: c1 :: seq_octets c b) ++ e).
      destruct (slices_app ((c0 mod 128)%N :: c1 :: seq_octets c b) e (mhr_size c) (eq_sym LH)) as [S1 S2]. rewrite S1, S2. cbn [bind].
      assert (LO : length (addressing_octets x) = n) by (rewrite OX; exact LW).
      rewrite af_write_fields_ok; [|exact (normal_wf _ (repr_matches_wf _ _ _ _ _ MX))|lia]. cbn [bind]. rewrite LO, OX. unfold front. cbn [app]. rewrite <- app_assoc. reflexivity.
    + unfold front. change (window b (mhr_size c) 0) with (@nil N). rewrite app_nil_r. reflexivity.
  - destruct HK as (_ & _ & Kd & Ks). destruct (data_addressing_view _ c WF ltac:(lia) Kd Ks) as (o & n' & EA & VA & KA & LA). exists o. split; [exact EA|].
    replace n with n'; [exact KA|].
    destruct VA as [[(dp & sp & HL' & Hn' & HLL) _]|(HNo & -> & _)], RD as [(dp2 & sp2 & x & HL2 & Hn2 & _)|(-> & _ & HNo2)].
    + destruct (c07_unique _ _ _ _ _ HL' HL2) as [<- <-]. congruence.
    + specialize (HNo2 dp sp HL'). lia.
    + specialize (HNo dp2 sp2 HL2). lia.
    + reflexivity.
Qed.

Lemma skipn_repeat (x : N) k n : skipn n (repeat x k) = repeat x (k - n).
Proof. revert k. induction n as [|n IH]; intros k; [rewrite Nat.sub_0_r; reflexivity|]. destruct k; [reflexivity|]. cbn [repeat skipn Nat.sub]. apply IH. Qed.
Lemma walk_zeros k : exists es, walk code_header_size std_header_stop (repeat 0%N k) es (2 * (k / 2)).
Proof.
  induction k as [k IH] using (well_founded_induction Nat.lt_wf_0). destruct k as [|[|k]].
  - exists []. apply walk_end. cbn. lia.
  - exists []. apply walk_end. cbn. lia.
  - replace (S (S k) / 2) with (S (k / 2)) by (change (S (S k)) with (1 * 2 + k) at 1; rewrite Nat.div_add_l by discriminate; reflexivity).
    assert (Z : code_header_size (repeat 0%N (S (S k))) = 2) by reflexivity. destruct k as [|k].
    + exists [repeat 0%N 2]. change (2 * S (0 / 2)) with (code_header_size (repeat 0%N 2)). apply walk_last; [cbn; lia|]. right. cbn. lia.
    + destruct (IH (S k) ltac:(lia)) as (es & W). eexists. replace (2 * S (S k / 2)) with (code_header_size (repeat 0%N (S (S (S k)))) + 2 * (S k / 2)) by (rewrite Z; lia).
      apply walk_next; [rewrite repeat_length; lia|reflexivity|rewrite Z, repeat_length; lia|]. rewrite Z, skipn_repeat. exact W.
Qed.
Lemma zeros_ies k : 2 <= k -> exists m, 0 < m <= k /\ ies_new (repeat 0%N k) = Done (Ok (repeat 0%N k)) /\ ies_len (repeat 0%N k) = Done m.
Proof.
  intros Hk. destruct (walk_zeros k) as (es & W). assert (HD : k = 2 * (k / 2) + k mod 2) by (apply Nat.div_mod; discriminate). assert (HM := Nat.mod_upper_bound k 2 ltac:(discriminate)).
  destruct (ies_new_spec (repeat 0%N k)) as (hs & hn & W1 & HC). destruct (walk_fun _ _ _ _ _ W _ _ W1) as [_ <-]. rewrite repeat_length in HC.
  destruct HC as [[HC _]|(_ & ps & pn & W2 & HC)]; [lia|]. rewrite skipn_repeat in W2.
  assert (W3 : walk code_payload_size never (repeat 0%N (k - 2 * (k / 2))) [] 0) by (apply walk_end; rewrite repeat_length; lia).
  destruct (walk_fun _ _ _ _ _ W3 _ _ W2) as [_ <-]. destruct HC as [[HC _]|(_ & E1 & E2 & _)]; [lia|]. exists (2 * (k / 2) + 0). split; [|auto]. split; [|lia].
  destruct (k / 2); [lia|lia].
Qed.
Lemma parse_ies_none i : parse_ies i = Done (Ok None) -> i = None.
Proof. destruct i as [d|]; [|reflexivity]. unfold parse_ies, try. destruct (ies_parse d) as [[x|]|]; cbn [bind]; discriminate. Qed.
Lemma frame_emit_split r b : frame_emit r b =
  let* b := (let* b := data_set_frame_control (f_control r) b in
             let* b := match f_sequence_number r with Some x => data_set_sequence_number x b | None => Done b end in
             match f_addressing r with Some a => data_set_addressing_fields a b | None => Done b end) in
  let* b := match f_ies r with Some i => data_set_ies i (has (f_payload r)) b | None => Done b end in
  match f_payload r with Some p => data_set_payload p b | None => Done b end.
Proof.
  unfold frame_emit. destruct (data_set_frame_control (f_control r) b) as [b1|]; [|reflexivity]. cbn [bind].
  destruct (match f_sequence_number r with Some x => data_set_sequence_number x b1 | None => Done b1 end) as [b2|]; [|reflexivity]. cbn [bind].
  destruct (match f_addressing r with Some x => data_set_addressing_fields x b2 | None => Done b2 end) as [b3|]; reflexivity.
Qed.
Lemma read_len c b a n : addressing_read c b a n -> mhr_size c + n <= length b ->
  match a with Some x => let* k := afr_buffer_len x c in Done (mhr_size c + k) | None => Done (mhr_size c) end = Done (mhr_size c + n).
Proof.
  intros RD LN. assert (LW : length (window b (mhr_size c) n) = n) by (unfold window; rewrite firstn_length, skipn_length; lia).
  destruct RD as [(dp & sp & x & HL' & Hn' & -> & OX & MX)|(-> & -> & _)]; [|rewrite Nat.add_0_r; reflexivity].
  assert (E : afr_buffer_len x c = Done n); [|rewrite E; reflexivity]. destruct MX as ((da & sa & E1 & E2 & M1 & M2 & W1 & W2) & _ & _).
  rewrite <- LW, <- OX. destruct x as [p y q z]. cbn in E1, E2. injection E1 as <-. injection E2 as <-. unfold afr_buffer_len. rewrite <- M1, <- M2.
  unfold addressing_octets. rewrite !app_length. cbn [ar_dst_pan_id ar_dst_address ar_src_pan_id ar_src_address].
  assert (LP : forall o : option N, length (pan_octets o) = len_if_some o) by (intros [?|]; reflexivity).
  assert (LA : forall o, address_wf (normal_addr o) -> mode_len (mode_of_address (normal_addr o)) = Done (length (addr_octets o))).
  { intros [[|v|v]|]; cbn; try reflexivity; intros [L _]; rewrite rev_length, L; reflexivity. }
  rewrite !LA, !LP by assumption. cbn [bind]. f_equal. lia.
Qed.

Theorem C89_undecodable_panics : forall b r, octets b -> data_new b = Done (Ok b) -> frame_parse b = Done (Ok r) ->
  fr_information_elements_present (f_control r) = true -> f_ies r = None -> forward b = Panic.
Proof.
  intros b r HO HN HP HI HE. unfold forward. rewrite HN. cbn [bind]. rewrite HP. cbn [bind].
  destruct (data_new_result b HO) as [(_ & c & AC)|[K _]]; [|rewrite HN in K; discriminate].
  destruct (parsed_any b c HO AC) as (a & n & i & m & EI & VI & HL & RD & PE). rewrite HP in PE. unfold try in PE.
  destruct (parse_ies i) as [[x|]|] eqn:EP; cbn [bind] in PE; [|discriminate PE|discriminate PE].
  assert (ER : r = mkFrame c (nth_error (seq_octets c b) 0) a x (rest_of b (mhr_size c + n + m))) by congruence. subst r. cbn [f_ies f_control] in HI, HE. subst x.
  apply parse_ies_none in EP. subst i. destruct VI as [(_ & _ & K)|([K|NF] & -> & _)]; [discriminate K|congruence|]. rewrite Nat.add_0_r in *.
  assert (K2 : mhr_size c + n + 2 <= length b).
  { destruct (Nat.lt_ge_cases (length b) (mhr_size c + n + 2)) as [L|L]; [|exact L]. exfalso. apply NF. exists 0. exists [], 0, [], 0.
    split; [apply walk_end; rewrite skipn_length; lia|]. split; [apply walk_end; cbn [skipn]; rewrite skipn_length; lia|]. split; [reflexivity|lia]. }
  assert (RO : rest_of b (mhr_size c + n) = Some (skipn (mhr_size c + n) b)) by (unfold rest_of; destruct (Nat.eqb_spec (length b) (mhr_size c + n)); [lia|reflexivity]).
  destruct (seq_of_length c b ltac:(lia)) as [LS ES]. assert (M2 : 2 <= mhr_size c) by (unfold mhr_size; destruct (fr_sequence_number_suppression c); lia).
  assert (BL : frame_buffer_len (mkFrame c (nth_error (seq_octets c b) 0) a None (rest_of b (mhr_size c + n))) = Done (length b)).
  { unfold frame_buffer_len. cbn [f_sequence_number f_addressing f_ies f_payload f_control]. cbv zeta.
    assert (LQ : match nth_error (seq_octets c b) 0 with Some _ => 2 + 1 | None => 2 end = mhr_size c).
    { rewrite <- ES in LS. destruct (nth_error (seq_octets c b) 0); cbn [length] in LS; lia. }
    rewrite LQ, (read_len c b a n RD HL). cbn [bind]. rewrite RO, skipn_length. f_equal. lia. }
  rewrite BL. cbn [bind]. assert (HF := proj1 AC). assert (HB : exists c0 c1 t, b = c0 :: c1 :: t) by (destruct HF as (c0 & c1 & t & -> & _); eauto).
  destruct HB as (c0 & c1 & t & EB). rewrite frame_emit_split. cbn [f_control f_sequence_number f_addressing f_ies f_payload].
  destruct (emit_prefix c0 c1 t c a n (repeat 0%N (length b - 2))) as (d & LD & ED & EM & LF & WF & o & WA & KA); [rewrite <- EB; exact HO|rewrite <- EB; exact AC|rewrite <- EB; exact RD|rewrite <- EB; exact HL|rewrite <- EB, repeat_length; lia|].
  rewrite <- EB in *. replace (repeat 0%N (length b)) with (0%N :: 0%N :: repeat 0%N (length b - 2)) by (replace (length b) with (2 + (length b - 2)) at 2 by lia; reflexivity).
  rewrite EM. cbn [bind]. rewrite RO. assert (DZ : d = repeat 0%N (length b - (mhr_size c + n))).
  { rewrite ED. change (0%N :: 0%N :: repeat 0%N (length b - 2)) with (repeat 0%N (2 + (length b - 2))). rewrite skipn_repeat. f_equal. lia. }
  destruct (zeros_ies (length b - (mhr_size c + n)) ltac:(lia)) as (k & HK & Z1 & Z2). rewrite <- DZ in Z1, Z2.
  set (w := front c0 c1 c b n ++ d) in *. assert (E : data_set_payload (skipn (mhr_size c + n) b) w = Panic); [|rewrite E; reflexivity].
  destruct (slices_app (front c0 c1 c b n) d (mhr_size c + n) (eq_sym LF)) as [S1 S2]. fold w in S1, S2.
  getters (fc_is_firstn _ _ WF).
  assert (WI : data_ies w = Done (Some d)).
  { unfold data_ies. rewrite (data_fc_ok w c WF). cbn [bind]. rewrite Gi, HI. cbn [bind]. rewrite Gn. cbn [bind]. rewrite WA. cbn [bind]. rewrite <- mhr_seq, KA. cbn [bind]. rewrite S2. cbn [bind]. rewrite Z1. reflexivity. }
  unfold data_set_payload. rewrite (data_fc_ok w c WF). cbn [bind]. rewrite Gn. cbn [bind]. rewrite WA. cbn [bind]. rewrite <- mhr_seq, KA. cbn [bind].
  rewrite Gs, (proj1 (proj2 (proj2 AC))). cbn [bind]. rewrite Gi, HI, WI. cbn [bind unwrap]. rewrite Z2. cbn [bind].
  assert (LWW : length w = length b) by (unfold w; rewrite app_length; lia).
  rewrite slice_to_ok, slice_from_ok by lia. cbn [bind]. rewrite !skipn_length.
  match goal with |- (if ?x =? ?y then _ else _) = _ => destruct (Nat.eqb_spec x y); [lia|reflexivity] end.
Qed.
Print Assumptions C89_undecodable_panics.

Theorem C89_same_frame_partial : forall b r, octets b -> data_new b = Done (Ok b) -> frame_parse b = Done (Ok r) ->
  fr_information_elements_present (f_control r) = false -> forward b = Done (Some (cleared b)).
Proof.
  intros b r HO HN HP HI. destruct (C89_forward_partial b r HO HN HP HI) as [HL HE]. unfold forward. rewrite HN. cbn [bind]. rewrite HP. cbn [bind]. rewrite HL. cbn [bind].
  rewrite HE; [reflexivity|apply repeat_length|]. destruct (data_new_result b HO) as [(_ & c & HF & [HM _] & _)|[K _]]; [|rewrite HN in K; discriminate].
  destruct (length b) as [|[|k]]; [|unfold mhr_size in HM; destruct (fr_sequence_number_suppression c); lia|reflexivity]. unfold mhr_size in HM. destruct (fr_sequence_number_suppression c); lia.
Qed.
Print Assumptions C89_same_frame_partial.

(** ** Encodings consist of octets *)
Lemma le_is_octets n v : octets (le n v).
Proof. revert v. induction n as [|n IH]; intros v; [constructor|]. cbn [le]. constructor; [apply N.mod_lt; discriminate|apply IH]. Qed.
Lemma octets_app' a b : octets a -> octets b -> octets (a ++ b).
Proof. intros; apply Forall_app; auto. Qed.
Lemma octets_concat {A} (f : A -> list N) l : (forall x, In x l -> octets (f x)) -> octets (concat (map f l)).
Proof. induction l as [|x l IH]; intros H; [constructor|]. cbn [map concat]. apply octets_app'; [apply H; left; reflexivity|apply IH; intros y Hy; apply H; right; exact Hy]. Qed.
Lemma header_is_octets h : octets (header_octets h).
Proof. destruct h; cbn [header_octets]; [apply octets_app'; apply le_is_octets|apply le_is_octets|apply le_is_octets]. Qed.
Lemma link_is_octets l : link_typed l -> octets (link_octets l).
Proof. intros (_ & _ & H). unfold link_octets. apply octets_app'; [apply le_is_octets|]. apply octets_app'; [apply le_is_octets|]. constructor; [unfold octet; lia|constructor]. Qed.
Lemma nested_is_octets n : nested_typed n -> octets (nested_octets n).
Proof.
  intros H. destruct n as [asn jm|id|t|l|id]; cbn [nested_octets nested_typed] in *; unfold short_ie, long_ie; apply octets_app'; try apply le_is_octets.
  - apply octets_app'; [apply le_is_octets|]. constructor; [apply H|constructor].
  - constructor; [exact H|constructor].
  - unfold timings_octets, timeslot_octets. apply octets_app'; [constructor; [exact H|constructor]|]. apply octets_app'; [apply octets_concat; intros; apply le_is_octets|].
    apply octets_app'; apply le_is_octets.
  - destruct H as [HL HF]. unfold slotframes_octets. apply octets_app'; [constructor; [unfold octet; lia|constructor]|]. apply octets_concat. intros s Hs.
    rewrite Forall_forall in HF. destruct (HF s Hs) as (H1 & H2 & H3 & H4). unfold slotframe_octets. apply octets_app'; [constructor; [exact H1|constructor]|].
    apply octets_app'; [apply le_is_octets|]. apply octets_app'; [constructor; [unfold octet; lia|constructor]|]. apply octets_concat. intros k Hk. rewrite Forall_forall in H4. apply link_is_octets, H4, Hk.
  - constructor; [exact H|constructor].
Qed.
Lemma ies_is_octets i cp : ies_typed i -> octets (ies_octets i cp).
Proof.
  intros (_ & _ & H). unfold ies_octets. apply octets_app'; apply octets_concat; [intros; apply header_is_octets|]. intros p Hp. destruct p as [l|]; [|apply le_is_octets].
  apply in_app_or in Hp. destruct Hp as [Hp|Hp]; [|unfold payload_end in Hp; destruct (some_in (ir_payload i) && cp); [destruct Hp as [Hp|[]]; discriminate Hp|destruct Hp]].
  rewrite Forall_forall in H. destruct (H _ Hp) as [_ HF]. cbn [payload_octets]. unfold mlme_octets, long_ie. apply octets_app'; [apply le_is_octets|]. apply octets_concat. intros n Hn.
  rewrite Forall_forall in HF. apply nested_is_octets, HF, Hn.
Qed.
Lemma address_octets_octets o : (forall a, o = Some a -> address_wf a) -> octets (addr_octets o).
Proof. intros H. destruct o as [[|v|v]|]; try constructor; cbn [addr_octets]; destruct (H _ eq_refl) as [_ HV]; apply Forall_rev, HV. Qed.
Lemma frame_is_octets r b : consistent r -> frame_octets r b -> octets b.
Proof.
  intros C (c0 & c1 & O0 & O1 & _ & _ & ->). constructor; [exact O0|]. constructor; [exact O1|]. apply octets_app'; [|apply octets_app'; [|apply octets_app']].
  - pose proof (con_seq r C) as CS. unfold seq_part. destruct (f_sequence_number r); [|constructor]. constructor; [apply CS|constructor].
  - pose proof (con_addr r C) as CA. unfold addr_part. destruct (f_addressing r) as [a|]; [|constructor]. destruct CA as (dp & sp & _ & HM). apply repr_matches_wf, normal_wf in HM.
    destruct HM as (H1 & H2 & H3 & H4). unfold addressing_octets.
    assert (P : forall o, (forall v, o = Some v -> (v < 65536)%N) -> octets (pan_octets o)).
    { intros [v|] Hv; [|constructor]. cbn [pan_octets]. specialize (Hv v eq_refl). constructor; [apply N.mod_lt; discriminate|]. constructor; [|constructor]. apply N.div_lt_upper_bound; [discriminate|exact Hv]. }
    apply octets_app'; [apply P, H1|]. apply octets_app'; [apply address_octets_octets, H3|]. apply octets_app'; [apply P, H2|apply address_octets_octets, H4].
  - pose proof (con_ies r C) as CI. unfold ies_part. destruct (f_ies r) as [i|]; [|constructor]. apply ies_is_octets, CI.
  - pose proof (con_payload r C) as CP. unfold payload_part. destruct (f_payload r); [exact CP|constructor].
Qed.

(** ** Reading back: the representation parsed from a consistent frame is consistent *)
Lemma reparsed r b i : consistent r -> emittable r -> f_ies r = Some i -> ies_exact i -> frame_octets r b -> length b <= 127 ->
  length (ir_header i ++ header_end i false) <= 16 ->
  exists r', data_new b = Done (Ok b) /\ frame_parse b = Done (Ok r') /\ consistent r' /\ f_control r' = f_control r /\
    f_ies r' = Some (mkIes (ir_header i ++ header_end i false) (ir_payload i)) /\ f_payload r' = None /\ seq_part r' = seq_part r /\ addr_part r' = addr_part r.
Proof.
  intros C HM Hi HX HB HL H16. destruct (parse_emitted r b C HM) as (HN & a & FA & PE); [intros j Hj; congruence|exact HB|exact HL|].
  assert (HP : f_payload r = None) by (unfold emittable in HM; rewrite Hi in HM; apply HM). assert (PP : payload_part r = []) by (unfold payload_part; rewrite HP; reflexivity).
  rewrite PP, Hi in PE. cbn [option_map] in PE. unfold read_back in PE. rewrite firstn_all2 in PE by exact H16.
  assert (HO := frame_is_octets r b C HB). destruct (data_new_result b HO) as [(_ & c & AC)|[K _]]; [|rewrite HN in K; discriminate].
  destruct (parsed_any b c HO AC) as (a' & n & j & m & EJ & VJ & LJ & RD & PJ). rewrite PE in PJ. unfold try in PJ.
  destruct (parse_ies j) as [[x|]|]; cbn [bind] in PJ; [|discriminate PJ|discriminate PJ].
  assert (EC : c = f_control r) by congruence. assert (EA : a' = a) by congruence. subst c a'. clear PJ VJ EJ LJ.
  eexists. split; [exact HN|]. split; [exact PE|].
  assert (AP : (match a with Some x => addressing_octets x | None => [] end) = addr_part r).
  { unfold addr_part. destruct a as [x'|], (f_addressing r) as [y|]; cbn [fields_of] in FA; [rewrite <- (addressing_octets_normal x'), FA; apply addressing_octets_normal|rewrite <- addressing_octets_normal, FA; reflexivity|rewrite <- addressing_octets_normal, <- FA; reflexivity|reflexivity]. }
  split; [|repeat split; exact AP].
  pose proof (con_ies r C) as CI. rewrite Hi in CI. destruct CI as [CF (T1 & T2 & T3)].
  constructor; cbn [f_control f_sequence_number f_addressing f_ies f_payload].
  - apply C. - apply C. - apply C.
  - destruct a as [x'|].
    + destruct RD as [(dp & sp & z & HL' & _ & EZ & _ & MX)|(_ & K & _)]; [|discriminate K]. injection EZ as <-. exists dp, sp. auto.
    + intros dp sp HL'. destruct RD as [(? & ? & z & _ & _ & EZ & _)|(_ & _ & HNo)]; [discriminate EZ|]. specialize (HNo dp sp HL'). exfalso.
      destruct HB as (c0 & c1 & _ & _ & _ & _ & EB). assert (LB : length b = 2 + length (seq_part r) + length (addr_part r) + length (ies_part r) + length (payload_part r)).
      { rewrite EB. cbn [length]. rewrite !app_length. lia. }
      assert (LS := seq_part_length r C). pose proof (con_addr r C) as CA. destruct (f_addressing r) as [y|] eqn:EY.
      * destruct CA as (dp2 & sp2 & HL2 & HM2). destruct (c07_unique _ _ _ _ _ HL' HL2) as [<- <-].
        destruct (repr_matches_len _ _ _ _ _ HM2) as (L1 & L2 & L3 & L4). unfold addr_part in LB. rewrite EY, <- addressing_octets_normal in LB. unfold addressing_octets in LB. rewrite !app_length, L1, L2, L3, L4 in LB. unfold layout_size in HNo. lia.
      * rewrite (CA dp sp HL') in HNo. lia.
  - split; [exact CF|]. split; [exact H16|]. split; [exact T2|exact T3].
  - exact I.
Qed.
Lemma ht1_stops t : code_header_size (header_octets HTermination1 ++ t) = 2 /\ std_header_stop (header_octets HTermination1 ++ t) = true /\
  code_payload_size (header_octets HTermination1 ++ t) = 770.
Proof. repeat split; reflexivity. Qed.

Theorem C89_payload_elements : forall r i b, consistent r -> emittable r -> f_ies r = Some i -> ies_exact i ->
  ir_payload i <> [] -> length (ir_header i) < 16 -> frame_octets r b -> length b <= 125 ->
  exists b', forward b = Done (Some b') /\ length b' = length b + 2 /\ data_new b' = Done (Ok b') /\ data_ies b' = Done None /\ forward b' = Panic.
Proof.
  intros r i b C HM Hi HX HP HH HB HL. assert (HE : header_end i false = [HTermination1]) by (unfold header_end; destruct (ir_payload i); [congruence|reflexivity]).
  destruct (reparsed r b i C HM Hi HX HB) as (r' & HN & PE & C' & EC & EI & EP & SP & AP); [lia|rewrite HE, app_length; cbn [length]; lia|]. rewrite HE in EI.
  set (i' := mkIes (ir_header i ++ [HTermination1]) (ir_payload i)) in *.
  assert (HM' : emittable r') by (unfold emittable in *; rewrite Hi in HM; rewrite EI; split; [exact EP|apply HM]).
  destruct (emit_ok r' C' HM') as (n & b' & BL & LB' & HB' & EM).
  assert (LB : length b = 2 + length (seq_part r) + length (addr_part r) + length (ies_part r) + length (payload_part r)).
  { destruct HB as (c0 & c1 & _ & _ & _ & _ & ->). cbn [length]. rewrite !app_length. lia. }
  assert (PP : payload_part r = []) by (unfold emittable in HM; rewrite Hi in HM; unfold payload_part; rewrite (proj1 HM); reflexivity).
  assert (PP' : payload_part r' = []) by (unfold payload_part; rewrite EP; reflexivity).
  assert (IE : ies_part r = concat (map header_octets (ir_header i)) ++ header_octets HTermination1 ++ concat (map payload_octets (ir_payload i))).
  { unfold ies_part. rewrite Hi. unfold emittable in HM. rewrite Hi in HM. rewrite (proj1 HM). cbn [has]. unfold ies_octets. rewrite HE, map_app, concat_app. unfold payload_end. rewrite andb_false_r, app_nil_r.
    cbn [map concat]. rewrite app_nil_r, <- app_assoc. reflexivity. }
  assert (IE' : ies_part r' = concat (map header_octets (ir_header i)) ++ header_octets HTermination1 ++ header_octets HTermination1 ++ concat (map payload_octets (ir_payload i))).
  { unfold ies_part. rewrite EI, EP. cbn [has]. unfold ies_octets. cbn [i' ir_header ir_payload]. unfold header_end, payload_end, i'. cbn [ir_header ir_payload].
    rewrite !andb_false_r. destruct (some_in (ir_payload i)) eqn:ES; [|destruct (ir_payload i); [congruence|discriminate]]. cbv iota. rewrite app_nil_r.
    rewrite !map_app, !concat_app. cbn [map concat]. rewrite !app_nil_r, <- !app_assoc. reflexivity. }
  assert (LN : n = length b + 2).
  { rewrite (buffer_len_ok r' C') in BL. injection BL as BL. rewrite SP, AP, PP', IE' in BL. rewrite PP, IE in LB. rewrite !app_length in *. change (length (header_octets HTermination1)) with 2 in *. cbn [length] in *. lia. }
  assert (N2 : 2 <= n) by (rewrite LN; lia).
  assert (FW : forward b = Done (Some b')).
  { unfold forward. rewrite HN. cbn [bind]. rewrite PE. cbn [bind]. rewrite BL. cbn [bind]. destruct n as [|[|k]]; try lia. cbn [repeat]. rewrite EM by (rewrite repeat_length; lia). reflexivity. }
  exists b'. split; [exact FW|]. split; [lia|]. assert (HO' := frame_is_octets r' b' C' HB').
  assert (LBB : length b' = 2 + length (seq_part r') + length (addr_part r') + length (ies_part r') + length (payload_part r')).
  { destruct HB' as (c0 & c1 & _ & _ & _ & _ & ->). cbn [length]. rewrite !app_length. lia. }
  assert (LS := seq_part_length r' C').
  assert (AC : acceptable b' (f_control r')).
  { destruct HB' as (c0 & c1 & O0 & O1 & HEnc & _ & EB). split; [rewrite EB; apply fc_is_cons; assumption|]. split; [|split; [apply (con_plain r' C')|apply (con_known r' C')]].
    lia. }
  assert (HN' := data_new_accepts b' _ AC). split; [exact HN'|].
  destruct (parsed_any b' _ HO' AC) as (a & k & j & m & EJ & VJ & LJ & RD & PJ).
  assert (ND : j = None).
  { destruct VJ as [(_ & (hs & hn & ps & pn & W1 & W2 & -> & W4) & _)|(_ & _ & EJ0)]; [|exact EJ0]. exfalso.
    assert (KA : k = length (addr_part r')).
    { destruct (addr_end r' b' C' (proj1 AC)) as (o & EA & KA); [lia|]. destruct (data_accessors b' _ AC) as (_ & _ & _ & o2 & n2 & i2 & m2 & EA2 & VA & _).
      rewrite EA in EA2. injection EA2 as <-. pose proof (addr_view_len r' b' o n2 C' (proj1 AC) ltac:(lia) EA VA (add_len_view _ _ _ _ (proj1 AC) VA)) as K2. rewrite <- K2.
      destruct VA as [[(dp & sp & HL' & Hn' & HLL) _]|(HNo & -> & _)], RD as [(dp2 & sp2 & x & HL2 & Hn2 & _)|(-> & _ & HNo2)].
      - destruct (c07_unique _ _ _ _ _ HL' HL2) as [<- <-]. congruence.
      - specialize (HNo2 dp sp HL'). lia.
      - specialize (HNo dp2 sp2 HL2). lia.
      - reflexivity. }
    assert (ED : skipn (mhr_size (f_control r') + k) b' = ies_part r').
    { destruct HB' as (c0 & c1 & _ & _ & _ & _ & EB). rewrite EB, PP', app_nil_r, <- LS, KA.
      change (c0 :: c1 :: seq_part r' ++ addr_part r' ++ ies_part r') with ((c0 :: c1 :: seq_part r') ++ addr_part r' ++ ies_part r'). rewrite app_assoc.
      rewrite skipn_app, skipn_all2 by (rewrite app_length; cbn [length]; lia). rewrite app_length. cbn [length app]. replace (2 + length (seq_part r') + length (addr_part r') - (S (S (length (seq_part r'))) + length (addr_part r'))) with 0 by lia. reflexivity. }
    rewrite ED, IE' in *. set (tl := header_octets HTermination1 ++ concat (map payload_octets (ir_payload i))) in *.
    assert (W : exists es, walk code_header_size std_header_stop (concat (map header_octets (ir_header i)) ++ header_octets HTermination1 ++ tl) es (length (concat (map header_octets (ir_header i))) + 2)).
    { eexists. apply walk_concat.
      - intros x rest Hx. apply header_walk_elem. destruct HX as [HX _]. rewrite Forall_forall in HX. apply (HX x Hx).
      - apply (walk_last code_header_size std_header_stop (header_octets HTermination1 ++ tl)); [cbn; lia|]. left. reflexivity. }
    destruct W as (es & W). destruct (walk_fun _ _ _ _ _ W _ _ W1) as [_ <-]. rewrite app_assoc in W2. rewrite skipn_app, skipn_all2 in W2 by (rewrite app_length; change (length (header_octets HTermination1)) with 2; lia).
    rewrite app_length in W2. change (length (header_octets HTermination1)) with 2 in W2. rewrite Nat.sub_diag in W2. cbn [app skipn] in W2.
    assert (L2 : length tl <= 127) by (clear - LBB LB' LN HL; rewrite !app_length in LBB; lia).
    assert (W3 : walk code_payload_size never tl [tl] 770) by (apply (walk_last code_payload_size never tl); [cbn; lia|right; change (code_payload_size tl) with 770; lia]).
    destruct (walk_fun _ _ _ _ _ W3 _ _ W2) as [_ <-]. rewrite !app_length in W4. lia. }
  subst j. split; [exact EJ|]. eapply C89_undecodable_panics; [exact HO'|exact HN'| | |].
  - rewrite PJ. unfold try. cbn [parse_ies bind]. reflexivity.
  - cbn [f_control]. pose proof (con_ies r' C') as CI. rewrite EI in CI. apply CI.
  - reflexivity.
Qed.
Print Assumptions C89_payload_elements.

Theorem C89_header_elements_partial : forall r i b, consistent r -> f_payload r = None -> f_ies r = Some i -> ir_payload i = [] -> ies_exact i ->
  frame_octets r b -> length b <= 127 -> forward b = Done (Some b).
Proof.
  intros r i b C HP Hi HN0 HX HB HL. assert (HE : header_end i false = []) by (unfold header_end; rewrite HN0, andb_false_r; reflexivity).
  assert (HM : emittable r) by (unfold emittable; rewrite Hi, HN0; split; [exact HP|intros []]).
  assert (HH : length (ir_header i) <= 16) by (pose proof (con_ies r C) as CI; rewrite Hi in CI; apply CI).
  destruct (reparsed r b i C HM Hi HX HB HL) as (r' & HN & PE & C' & EC & EI & EP & SP & AP); [rewrite HE, app_nil_r; exact HH|]. rewrite HE, app_nil_r in EI.
  assert (HM' : emittable r') by (unfold emittable; rewrite EI; cbn [ir_payload]; rewrite HN0; split; [exact EP|intros []]).
  destruct (emit_ok r' C' HM') as (n & b' & BL & LB' & HB' & EM).
  assert (EB : b' = b).
  { destruct HB as (c0 & c1 & O0 & O1 & E1 & B1 & ->), HB' as (d0 & d1 & D0 & D1 & E2 & B2 & ->). rewrite EC in E2.
    assert (EQ : (d0 + 256 * d1 = c0 + 256 * c1)%N) by (apply (fc_encodes_ext _ _ (f_control r)); [unfold octet in *; lia|unfold octet in *; lia|exact E2|exact E1|congruence]).
    assert (E0 : d0 = c0 /\ d1 = c1) by (unfold octet in *; clear - EQ D0 D1 O0 O1; lia). destruct E0 as [-> ->]. rewrite SP, AP. unfold ies_part, payload_part. rewrite Hi, EI, HP, EP. cbn [has].
    destruct i as [h p]. cbn [ir_header ir_payload] in *. reflexivity. }
  subst b'. assert (N2 : 2 <= n) by (rewrite <- LB'; destruct HB as (c0 & c1 & _ & _ & _ & _ & ->); cbn [length]; lia).
  unfold forward. rewrite HN. cbn [bind]. rewrite PE. cbn [bind]. rewrite BL. cbn [bind]. destruct n as [|[|k]]; try lia. cbn [repeat]. rewrite EM by (rewrite repeat_length; lia). reflexivity.
Qed.
Print Assumptions C89_header_elements_partial.

(** C89, full statement. *)
Definition C89_statement : Prop := forall b r, octets b -> data_new b = Done (Ok b) -> frame_parse b = Done (Ok r) -> forward b = Done (Some (cleared b)).

(** Refuted: an enhanced beacon (that of [ie_sample], as data frame too) comes out two octets longer, with a second header termination in front of its
    payload elements, which no receiver can decode; passing it on once more panics. *)
Definition beacon_octets : list N :=
  [0x40; 0xeb; 0xcd; 0xab; 0xff; 0xff; 0x01; 0x00; 0x01; 0x00; 0x01; 0x00; 0x01; 0x00; 0x00; 0x3f; 0x11; 0x88; 0x06; 0x1a;
   0x0e; 0x00; 0x00; 0x00; 0x00; 0x00; 0x01; 0x1c; 0x00; 0x01; 0xc8; 0x00; 0x01; 0x1b; 0x00]%N.
Theorem C89_beacon_refuted : ~ C89_statement /\
  exists b', forward beacon_octets = Done (Some b') /\ length b' = length beacon_octets + 2 /\ data_ies b' = Done None /\ forward b' = Panic.
Proof.
  split; [|eexists; split; [vm_compute; reflexivity|]; split; [reflexivity|]; split; vm_compute; reflexivity].
  intros H. assert (K : exists r, frame_parse beacon_octets = Done (Ok r)) by (eexists; vm_compute; reflexivity). destruct K as (r & K).
  assert (HO : octets beacon_octets) by (unfold beacon_octets; repeat (constructor; [unfold octet; reflexivity|]); constructor).
  specialize (H beacon_octets r HO ltac:(vm_compute; reflexivity) K). vm_compute in H. discriminate H.
Qed.
Print Assumptions C89_beacon_refuted.
(** Refuted also for a frame that only claims to carry information elements: the elements do not fit, so the parser hands out the octets as payload, and
    emitting what it parsed panics. *)
Definition claims_elements : list N := [0x41; 0xaa; 0x07; 0xcd; 0xab; 0x01; 0x02; 0x03; 0x04; 0x7f; 0x00; 0x01]%N.
Theorem C89_claimed_elements_refuted : octets claims_elements /\ data_new claims_elements = Done (Ok claims_elements) /\
  (exists r, frame_parse claims_elements = Done (Ok r) /\ f_payload r = Some [0x7f; 0x00; 0x01]%N /\ frame_validate r = Ok tt) /\ forward claims_elements = Panic.
Proof.
  split; [unfold claims_elements; repeat (constructor; [unfold octet; reflexivity|]); constructor|]. split; [vm_compute; reflexivity|].
  split; [eexists; split; [vm_compute; reflexivity|split; reflexivity]|vm_compute; reflexivity].
Qed.
Print Assumptions C89_claimed_elements_refuted.
(** ... and of 17 header elements the last is dropped without an error. *)
Definition many_elements (k : nat) : list N := [0x41; 0xaa; 0x07; 0xcd; 0xab; 0x01; 0x02; 0x03; 0x04]%N ++ concat (repeat [0x02; 0x0f; 0x01; 0x00]%N k).
Theorem C89_many_elements_refuted : forward (many_elements 16) = Done (Some (many_elements 16)) /\ forward (many_elements 17) = Done (Some (many_elements 16)).
Proof. split; vm_compute; reflexivity. Qed.
Print Assumptions C89_many_elements_refuted.

(** A frame without information elements, reserved bit set, used buffer behind the frame control. *)
Example C89_case : forward [0xc1; 0x98; 0x05; 0xcd; 0xab; 0x01; 0x02; 0x03; 0x04; 0x68; 0x69]%N = Done (Some [0x41; 0x98; 0x05; 0xcd; 0xab; 0x01; 0x02; 0x03; 0x04; 0x68; 0x69]%N).
Proof. vm_compute. reflexivity. Qed.
(** Addresses that do not fit are passed on as payload. *)
Example C89_case_short : forward [0x41; 0x98; 0x05; 0xcd; 0xab]%N = Done (Some [0x41; 0x98; 0x05; 0xcd; 0xab]%N).
Proof. vm_compute. reflexivity. Qed.
