(** PropRewrite.v -- C90: the setters of a data frame rewrite their field in place. *)
From Coq Require Import Lia.
From Verif Require Import Base BaseProofs Spec SpecFrame FrameControl FrameControlProofs Addressing SpecAddressing
  AddressingProofs AddressingProofs2 AuxSec Ie SpecIe IeProofs ReprIe SpecIeContent IeContentProofs ReprIeProofs IesProofs Frames SpecFrames
  FramesProofs PropFrames Repr SpecRepr ReprProofs PropRepr PropForward CsmaProofs SpecRewrite.

(** ** Parts of a frame behind the sequence number *)
Definition elements_are (d : list N) (x : list (outcome N * outcome (list N)) * list (outcome N * outcome (list N))) : Prop :=
  elements d = Done x.

Definition tail_view (r : FrameControlRepr) (t : list N) (a : option AddressingFieldsRepr)
    (i : option (list (outcome N * outcome (list N)) * list (outcome N * outcome (list N)))) (p : option (list N)) (n m : nat) : Prop :=
  ((exists dp sp x, layout r dp sp /\ n = layout_size r dp sp /\ n <= length t /\ a = Some x /\
      repr_matches x (fr_dst_addressing_mode r) (fr_src_addressing_mode r) dp sp /\ addressing_octets x = firstn n t) \/
   ((forall dp sp, layout r dp sp -> length t < layout_size r dp sp) /\ n = 0 /\ a = None)) /\
  ((fr_information_elements_present r = true /\ ies_fit (skipn n t) m /\ exists x, i = Some x /\ elements (skipn n t) = Done x) \/
   ((fr_information_elements_present r = false \/ ~ exists k, ies_fit (skipn n t) k) /\ m = 0 /\ i = None)) /\
  n + m <= length t /\ p = as_payload (skipn (n + m) t).

Lemma read_exact fc fr d dp sp : fc_is fc fr -> layout fr dp sp -> octets d -> layout_size fr dp sp <= length d ->
  exists a, afr_parse (mkAf d fc) = Done a /\ addressing_octets a = firstn (layout_size fr dp sp) d /\
    repr_matches a (fr_dst_addressing_mode fr) (fr_src_addressing_mode fr) dp sp.
Proof.
  intros HF HL HO HN. destruct (read_octets fc fr d dp sp HF HL HO HN) as (a & E & O & M). exists a. split; [exact E|]. split; [exact O|].
  destruct (c08_accepted fc fr d dp sp HF HL HN) as (_ & _ & G1 & G2 & G3 & G4). unfold afr_parse in E. rewrite G1, G2, G3, G4 in E. cbn [bind] in E.
  assert (EN : normal a = a) by (injection E as <-; reflexivity). rewrite EN in M. exact M.
Qed.

Lemma elements_total d m : ies_fit d m -> exists x, elements d = Done x.
Proof.
  intros H. unfold elements. destruct (ies_new_spec d) as (hs & hn & HW & [[HL E]|(HL & ps & pn & HP & [[HL2 E]|(HL2 & E & EL & (t & HD) & t' & HD')])]).
  - rewrite (proj1 (ies_fit_new _ _ H)) in E. discriminate.
  - rewrite (proj1 (ies_fit_new _ _ H)) in E. discriminate.
  - rewrite HD, HD'. cbn [bind]. eauto.
Qed.

Lemma mhr_ge2 r : 2 <= mhr_size r.
Proof. unfold mhr_size. destruct (fr_sequence_number_suppression r); lia. Qed.
Lemma skipn_two (x0 x1 y0 y1 : N) l k : 2 <= k -> skipn k (x0 :: x1 :: l) = skipn k (y0 :: y1 :: l).
Proof. intros Hk. do 2 (destruct k as [|k]; [lia|]). reflexivity. Qed.

Lemma as_payload_rest (b : list N) k : k <= length b -> as_payload (skipn k b) = (if length b =? k then None else Some (skipn k b)).
Proof.
  intros H. destruct (Nat.eqb_spec (length b) k) as [E|E]; [rewrite skipn_all2 by lia; reflexivity|].
  assert (L : length (skipn k b) <> 0) by (rewrite skipn_length; lia). destruct (skipn k b); [cbn in L; congruence|reflexivity].
Qed.

Lemma tail_exists b r : octets b -> acceptable b r -> exists a i p n m, tail_view r (skipn (mhr_size r) b) a i p n m.
Proof.
  intros HO AC. assert (HF := proj1 AC). destruct AC as (_ & [HL _] & _ & _ & _ & Kd & Ks). set (t := skipn (mhr_size r) b).
  assert (LT : length t = length b - mhr_size r) by apply skipn_length.
  assert (A : exists a n, (exists dp sp x, layout r dp sp /\ n = layout_size r dp sp /\ n <= length t /\ a = Some x /\
      repr_matches x (fr_dst_addressing_mode r) (fr_src_addressing_mode r) dp sp /\ addressing_octets x = firstn n t) \/
     ((forall dp sp, layout r dp sp -> length t < layout_size r dp sp) /\ n = 0 /\ a = None)).
  { destruct (addressing_cases r b Kd Ks) as [(n & dp & sp & HY & -> & HN)|HN].
    - destruct (read_exact b r t dp sp HF HY) as (x & _ & OX & MX); [apply octets_skipn, HO|lia|].
      exists (Some x), (layout_size r dp sp). left. exists dp, sp, x. repeat (split; [first [assumption|reflexivity|lia]|]). exact OX.
    - exists None, 0. right. split; [|auto]. intros dp sp HY. specialize (HN dp sp HY). lia. }
  destruct A as (a & n & A). assert (NL : n <= length t) by (destruct A as [(dp & sp & x & _ & _ & K & _)|(_ & -> & _)]; [exact K|lia]).
  destruct (fr_information_elements_present r) eqn:EI.
  - destruct (ies_cases (skipn n t)) as [(m & HM & HL2 & _)|[_ HN]].
    + destruct (elements_total _ _ HM) as (x & EX). exists a, (Some x), (as_payload (skipn (n + m) t)), n, m. split; [exact A|]. split; [left; rewrite EI; eauto|].
      rewrite skipn_length in HL2. split; [lia|reflexivity].
    + exists a, None, (as_payload (skipn (n + 0) t)), n, 0. split; [exact A|]. split; [right; rewrite EI; auto|]. split; [lia|reflexivity].
  - exists a, None, (as_payload (skipn (n + 0) t)), n, 0. split; [exact A|]. split; [right; rewrite EI; auto|]. split; [lia|reflexivity].
Qed.

Lemma reads_intro b r a i p n m : octets b -> acceptable b r -> tail_view r (skipn (mhr_size r) b) a i p n m ->
  reads b (mkShown r (nth_error (seq_octets r b) 0) a i p).
Proof.
  intros HO AC (HA & HI & HNM & HP). assert (HF := proj1 AC). assert (HM := proj1 (proj1 (proj2 AC))).
  destruct (data_accessors b r AC) as (E1 & E2 & _ & o & n' & i' & m' & EA & VA & EI & VI & HL & EP).
  assert (LT : length (skipn (mhr_size r) b) = length b - mhr_size r) by apply skipn_length.
  unfold reads. cbn [sh_control sh_seq sh_addressing sh_elements sh_payload].
  split; [apply (data_new_accepts b r AC)|]. split; [exists (firstn 2 b); split; [exact E1|exact (control_parsed b r HF)]|]. split; [exact E2|].
  assert (NN : n' = n /\ option_map afr_parse o = option_map Done a).
  { destruct VA as [[(dp & sp & HY & Hn & HLL) ->]|(HNo & -> & ->)]; destruct HA as [(dp2 & sp2 & x & HY2 & Hn2 & HLL2 & -> & MX & OX)|(HNo2 & -> & ->)].
    - destruct (c07_unique _ _ _ _ _ HY HY2) as [<- <-]. split; [congruence|]. cbn [option_map]. f_equal.
      destruct (c09_roundtrip (firstn 2 b) r x (skipn (mhr_size r) b) dp sp (fc_is_firstn _ _ HF) HY MX) as (_ & _ & PX); [lia|].
      rewrite <- PX. f_equal. f_equal. rewrite OX, <- Hn2. symmetry. apply firstn_skipn.
    - specialize (HNo2 dp sp HY). lia.
    - specialize (HNo dp2 sp2 HY2). lia.
    - auto. }
  destruct NN as [-> HAO]. split; [exists o; auto|].
  rewrite AddressingProofs.skipn_skipn' in HI.
  assert (MM : m' = m /\ option_map elements i' = option_map Done i).
  { destruct VI as [(K1 & F1 & ->)|(K1 & -> & ->)]; destruct HI as [(K2 & F2 & x & -> & EX)|(K2 & -> & ->)].
    - split; [exact (ies_fit_fun _ _ _ F1 F2)|]. cbn [option_map]. rewrite EX. reflexivity.
    - destruct K2 as [K2|K2]; [congruence|]. destruct K2. eauto.
    - destruct K1 as [K1|K1]; [congruence|]. destruct K1. eauto.
    - auto. }
  destruct MM as [-> HIO]. split; [exists i'; auto|].
  rewrite EP, HP, AddressingProofs.skipn_skipn', <- as_payload_rest by lia. do 3 f_equal. lia.
Qed.

Lemma map_Done_inj {A} (x y : option A) : option_map (@Done A) x = option_map Done y -> x = y.
Proof. destruct x, y; cbn; congruence. Qed.
Lemma reads_fun b s s' : reads b s -> reads b s' -> s = s'.
Proof.
  intros (_ & (c & C1 & C2) & S & (o & O1 & O2) & (i & I1 & I2) & P) (_ & (c' & C1' & C2') & S' & (o' & O1' & O2') & (i' & I1' & I2') & P').
  assert (c' = c) as -> by congruence. assert (o' = o) as -> by congruence. assert (i' = i) as -> by congruence.
  rewrite O2 in O2'. rewrite I2 in I2'. apply map_Done_inj in O2', I2'. destruct s as [x1 x2 x3 x4 x5], s' as [y1 y2 y3 y4 y5]; cbn [sh_control sh_seq sh_addressing sh_elements sh_payload] in *. congruence.
Qed.
Lemma reads_inv b s : octets b -> reads b s -> exists r n m, acceptable b r /\ sh_control s = r /\ sh_seq s = nth_error (seq_octets r b) 0 /\
  tail_view r (skipn (mhr_size r) b) (sh_addressing s) (sh_elements s) (sh_payload s) n m.
Proof.
  intros HO HR. destruct (data_new_inv b b HO (proj1 HR)) as [_ (r & AC)]. destruct (tail_exists b r HO AC) as (a & i & p & n & m & TV).
  assert (E := reads_fun _ _ _ HR (reads_intro b r a i p n m HO AC TV)). subst s. exists r, n, m. auto.
Qed.

(** Every accepted frame shows something: the hypotheses below are met by every accepted frame. *)
Theorem C90_every_frame_reads : forall b, octets b -> data_new b = Done (Ok b) -> exists s, reads b s /\ forall s', reads b s' -> s' = s.
Proof.
  intros b HO HN. destruct (data_new_inv b b HO HN) as [_ (r & AC)]. destruct (tail_exists b r HO AC) as (a & i & p & n & m & TV).
  assert (R := reads_intro b r a i p n m HO AC TV). eexists. split; [exact R|]. intros s' HS. exact (reads_fun _ _ _ HS R).
Qed.
Print Assumptions C90_every_frame_reads.

(** ** Sequence number *)
(** What the setter does to any buffer: octet 2 becomes [x], nothing else changes; fewer than three octets panic. *)
Theorem C90_sequence_octets : forall b x, octets b ->
  (3 <= length b -> data_set_sequence_number x b = Done (firstn 2 b ++ x :: skipn 3 b)) /\
  (length b < 3 -> data_set_sequence_number x b = Panic).
Proof.
  intros b x HO. split; intros HL.
  - destruct b as [|b0 [|b1 [|b2 t]]]; cbn [length] in HL; try lia. apply set_seq_ok; [inversion HO; assumption|inversion HO as [|? ? ? H]; inversion H; assumption].
  - destruct b as [|b0 [|b1 [|b2 t]]]; cbn [length] in HL; try lia; [reflexivity|reflexivity|].
    assert (O0 : octet b0) by (inversion HO; assumption). assert (O1 : octet b1) by (inversion HO as [|? ? ? H]; inversion H; assumption).
    unfold data_set_sequence_number. rewrite (on_control_two _ b0 b1 b0 b1) by (apply fc_or_flag_false; assumption). reflexivity.
Qed.
Print Assumptions C90_sequence_octets.

Lemma seq_split r b : mhr_size r = 3 -> 3 <= length b -> b = firstn 2 b ++ seq_octets r b ++ skipn 3 b.
Proof.
  intros HM HL. unfold mhr_size, seq_octets in *. destruct (fr_sequence_number_suppression r); [discriminate|].
  destruct b as [|b0 [|b1 [|b2 t]]]; cbn [length] in HL; try lia. reflexivity.
Qed.

Theorem C90_sequence_number_partial : forall b s x, octets b -> octet x -> reads b s ->
  fr_sequence_number_suppression (sh_control s) = false ->
  exists b', data_set_sequence_number x b = Done b' /\ length b' = length b /\ reads b' (with_seq (Some x) s).
Proof.
  intros b s x HO HX HR HS. destruct (reads_inv b s HO HR) as (r & n & m & AC & EC & ES & TV). rewrite EC in HS.
  assert (M3 : mhr_size r = 3) by (unfold mhr_size; rewrite HS; reflexivity).
  assert (HL : 3 <= length b) by (rewrite <- M3; apply AC).
  exists (firstn 2 b ++ x :: skipn 3 b). split; [apply C90_sequence_octets; assumption|].
  destruct b as [|b0 [|b1 [|b2 t]]]; cbn [length] in HL; try lia. cbn [firstn skipn app] in *. split; [reflexivity|].
  assert (AC' : acceptable (b0 :: b1 :: x :: t) r).
  { destruct AC as (HF & HL' & HK). split; [|split; [exact HL'|exact HK]]. apply (fc_is_app (b0 :: b1 :: b2 :: t)); [reflexivity|exact HF]. }
  assert (HO' : octets (b0 :: b1 :: x :: t)).
  { inversion HO as [|? ? A1 B1]; inversion B1 as [|? ? A2 B2]; inversion B2 as [|? ? A3 B3]; subst. repeat (constructor; [assumption|]). exact B3. }
  assert (R := reads_intro _ r (sh_addressing s) (sh_elements s) (sh_payload s) n m HO' AC').
  unfold with_seq. rewrite EC. rewrite M3 in *. cbn [skipn] in *. specialize (R TV).
  unfold seq_octets in R. rewrite HS in R. cbn [skipn firstn nth_error] in R. exact R.
Qed.
Print Assumptions C90_sequence_number_partial.

(** ** Frame control *)
Lemma joined_encodes w v old c : fc_encodes w old ->
  field 0 3 v = type_code (fr_frame_type c) -> bit 3 v = bit 3 w || fr_security_enabled c -> bit 4 v = bit 4 w || fr_frame_pending c ->
  bit 5 v = bit 5 w || fr_ack_request c -> bit 6 v = bit 6 w || fr_pan_id_compression c ->
  bit 8 v = bit 8 w || fr_sequence_number_suppression c -> bit 9 v = bit 9 w || fr_information_elements_present c ->
  field 10 2 v = mode_code (fr_dst_addressing_mode c) -> field 12 2 v = version_code (fr_frame_version c) ->
  field 14 2 v = mode_code (fr_src_addressing_mode c) -> fc_encodes v (joined old c).
Proof. intros [] **. constructor; cbn [joined fr_frame_type fr_security_enabled fr_frame_pending fr_ack_request fr_pan_id_compression
  fr_sequence_number_suppression fr_information_elements_present fr_dst_addressing_mode fr_src_addressing_mode fr_frame_version]; congruence. Qed.

Theorem C90_frame_control_partial : forall b s c, octets b -> reads b s -> fcr_known c ->
  exists b', data_set_frame_control c b = Done b' /\ length b' = length b /\ skipn 2 b' = skipn 2 b /\
    (exists fc, data_frame_control b' = Done fc /\ fcr_parse fc = Done (Ok (joined (sh_control s) c))) /\
    (same_shape (sh_control s) c -> reads b' (with_control (joined (sh_control s) c) s)).
Proof.
  intros b s c HO HR HK. destruct (reads_inv b s HO HR) as (r & n & m & AC & EC & ES & TV).
  assert (HF := proj1 AC). destruct HF as (b0 & b1 & rest & EB & O0 & O1 & HE).
  destruct (fcr_emit_view c b0 b1 [] O0 O1 HK) as (c0 & c1 & P0 & P1 & EE & HV). cbv zeta in HV. destruct HV as (h1 & h2 & h3 & h4 & h5 & h6 & h7 & h8 & h9 & h10 & h11).
  assert (HJ : fc_encodes (c0 + 256 * c1) (joined r c)) by (eapply joined_encodes; eassumption).
  assert (HF' : fc_is (c0 :: c1 :: rest) (joined r c)) by (exists c0, c1, rest; auto).
  exists (c0 :: c1 :: rest). split; [unfold data_set_frame_control; rewrite EB; apply on_control_two; exact EE|].
  split; [rewrite EB; reflexivity|]. split; [rewrite EB; reflexivity|]. rewrite EC. split.
  { exists (firstn 2 (c0 :: c1 :: rest)). split; [apply (data_fc_ok _ _ HF')|]. exact (control_parsed _ _ HF'). }
  intros (S1 & S2 & S3 & S4 & S5 & S6 & S7).
  assert (Jsec : fr_security_enabled (joined r c) = fr_security_enabled r) by (cbn; rewrite S1; apply orb_diag).
  assert (Jcomp : fr_pan_id_compression (joined r c) = fr_pan_id_compression r) by (cbn; rewrite S2; apply orb_diag).
  assert (Jsns : fr_sequence_number_suppression (joined r c) = fr_sequence_number_suppression r) by (cbn; rewrite S3; apply orb_diag).
  assert (Jie : fr_information_elements_present (joined r c) = fr_information_elements_present r) by (cbn; rewrite S4; apply orb_diag).
  assert (Jd : fr_dst_addressing_mode (joined r c) = fr_dst_addressing_mode r) by exact S5.
  assert (Js : fr_src_addressing_mode (joined r c) = fr_src_addressing_mode r) by exact S6.
  assert (Jv : fr_frame_version (joined r c) = fr_frame_version r) by exact S7.
  assert (JM : mhr_size (joined r c) = mhr_size r) by (unfold mhr_size; rewrite Jsns; reflexivity).
  assert (HO' : octets (c0 :: c1 :: rest)).
  { constructor; [exact P0|]. constructor; [exact P1|]. rewrite EB in HO. inversion HO as [|? ? A1 B1]; inversion B1; assumption. }
  assert (AC' : acceptable (c0 :: c1 :: rest) (joined r c)).
  { destruct AC as (_ & HL & HS & HK'). split; [exact HF'|]. rewrite JM, Jsec. split; [rewrite EB in HL; exact HL|]. split; [exact HS|].
    destruct HK as (K1 & K2 & K3 & K4). unfold fcr_known. auto. }
  assert (SK : forall k, 2 <= k -> skipn k (c0 :: c1 :: rest) = skipn k b) by (intros k Hk; rewrite EB; apply skipn_two; exact Hk).
  assert (TV' : tail_view (joined r c) (skipn (mhr_size (joined r c)) (c0 :: c1 :: rest)) (sh_addressing s) (sh_elements s) (sh_payload s) n m).
  { rewrite JM, SK by apply mhr_ge2. unfold tail_view in *. unfold layout, layout_size in *. rewrite Jd, Js, Jv, Jcomp, Jie. exact TV. }
  assert (R := reads_intro _ _ _ _ _ n m HO' AC' TV'). unfold with_control. rewrite ES.
  replace (seq_octets r b) with (seq_octets (joined r c) (c0 :: c1 :: rest)); [exact R|].
  unfold seq_octets. rewrite Jsns, SK by apply le_n. reflexivity.
Qed.
Print Assumptions C90_frame_control_partial.

(** So the representation itself is read back exactly when it has every flag the frame already has. *)
Theorem C90_frame_control_exact : forall b s c b', octets b -> reads b s -> fcr_known c -> data_set_frame_control c b = Done b' ->
  ((exists fc, data_frame_control b' = Done fc /\ fcr_parse fc = Done (Ok c)) <-> keeps_flags (sh_control s) c).
Proof.
  intros b s c b' HO HR HK HD. destruct (C90_frame_control_partial b s c HO HR HK) as (b2 & E & _ & _ & (fc & F1 & F2) & _).
  assert (b2 = b') as -> by congruence. split.
  - intros (fc' & G1 & G2). assert (fc' = fc) as -> by congruence. assert (EJ : joined (sh_control s) c = c) by congruence.
    assert (X := f_equal fr_security_enabled EJ). assert (X2 := f_equal fr_frame_pending EJ). assert (X3 := f_equal fr_ack_request EJ).
    assert (X4 := f_equal fr_pan_id_compression EJ). assert (X5 := f_equal fr_sequence_number_suppression EJ). assert (X6 := f_equal fr_information_elements_present EJ).
    cbn [joined fr_security_enabled fr_frame_pending fr_ack_request fr_pan_id_compression fr_sequence_number_suppression fr_information_elements_present] in *.
    unfold keeps_flags. repeat split; intros K; rewrite K in *; cbn [orb] in *; congruence.
  - intros (K1 & K2 & K3 & K4 & K5 & K6). exists fc. split; [exact F1|]. rewrite F2. do 2 f_equal. destruct c as [t f1 f2 f3 f4 f5 f6 d sr v].
    unfold joined. cbn [fr_frame_type fr_security_enabled fr_frame_pending fr_ack_request fr_pan_id_compression
      fr_sequence_number_suppression fr_information_elements_present fr_dst_addressing_mode fr_src_addressing_mode fr_frame_version] in *.
    f_equal; match goal with |- (?x || ?y)%bool = _ => destruct x; [rewrite K1 || rewrite K2 || rewrite K3 || rewrite K4 || rewrite K5 || rewrite K6; reflexivity|reflexivity] end.
Qed.
Print Assumptions C90_frame_control_exact.

(** ** Addressing fields *)
Theorem C90_addressing : forall b s a dp sp, octets b -> reads b s -> layout (sh_control s) dp sp -> sh_addressing s <> None ->
  repr_matches a (fr_dst_addressing_mode (sh_control s)) (fr_src_addressing_mode (sh_control s)) dp sp ->
  exists b', data_set_addressing_fields a b = Done b' /\ length b' = length b /\ reads b' (with_addressing (Some a) s).
Proof.
  intros b s a dp sp HO HR HY HA HM. destruct (reads_inv b s HO HR) as (r & n & m & AC & EC & ES & TV). rewrite EC in *.
  assert (HF := proj1 AC). assert (HL := proj1 (proj1 (proj2 AC))). destruct TV as (TA & TI & TL & TP).
  destruct TA as [(dp2 & sp2 & x & HY2 & EN & HN & _)|(_ & _ & K)]; [|congruence].
  destruct (c07_unique _ _ _ _ _ HY HY2) as [<- <-]. set (t := skipn (mhr_size r) b) in *.
  destruct (c09_roundtrip (firstn 2 b) r a t dp sp (fc_is_firstn _ _ HF) HY HM ltac:(lia)) as (LA & WA & _). rewrite <- EN in *.
  set (h := firstn (mhr_size r) b). assert (LH : length h = mhr_size r) by (unfold h; rewrite firstn_length; lia).
  assert (EB : b = h ++ t) by (symmetry; apply firstn_skipn).
  exists (h ++ addressing_octets a ++ skipn n t). split.
  { unfold data_set_addressing_fields. rewrite (data_fc_ok b r HF). cbn [bind]. getters (fc_is_firstn _ _ HF). rewrite Gn. cbn [bind]. cbv zeta. rewrite <- mhr_seq.
    rewrite slice_to_ok, slice_from_ok by exact HL. cbn [bind]. fold t. rewrite WA. reflexivity. }
  assert (LB : length (h ++ addressing_octets a ++ skipn n t) = length b) by (rewrite EB, !app_length, LA, skipn_length; lia).
  split; [exact LB|].
  assert (F2 : firstn 2 (h ++ addressing_octets a ++ skipn n t) = firstn 2 b).
  { assert (M2 := mhr_ge2 r). rewrite EB, !firstn_app, LH. replace (2 - mhr_size r) with 0 by lia. reflexivity. }
  assert (HS : forall k, skipn (mhr_size r) (h ++ k) = k) by (intros k; rewrite <- LH, skipn_app, skipn_all, Nat.sub_diag; reflexivity).
  assert (OA : octets (addressing_octets a)).
  { destruct HM as ((da & sa & D1 & D2 & M1 & M2 & W1 & W2) & P1 & P2). unfold addressing_octets. rewrite D1, D2.
    assert (WO : forall y, address_wf y -> octets (addr_octets (Some y))) by (intros [|v|v] W; cbn [addr_octets address_wf] in *; [constructor|apply octets_rev, W|apply octets_rev, W]).
    assert (PO : forall (q : bool) z, (if q then exists p, z = Some p /\ (p < 65536)%N else z = None) -> octets (pan_octets z)).
    { intros [|] z; [intros (p & -> & Hp)|intros ->; constructor]. cbn [pan_octets]. constructor; [apply N.mod_lt; discriminate|]. constructor; [|constructor].
      unfold octet. apply N.div_lt_upper_bound; [discriminate|exact Hp]. }
    repeat (apply octets_app; split); [exact (PO _ _ P1)|exact (WO _ W1)|exact (PO _ _ P2)|exact (WO _ W2)]. }
  assert (HO' : octets (h ++ addressing_octets a ++ skipn n t)).
  { apply octets_app. split; [apply octets_firstn, HO|]. apply octets_app. split; [exact OA|]. apply octets_skipn, octets_skipn, HO. }
  assert (AC' : acceptable (h ++ addressing_octets a ++ skipn n t) r).
  { destruct AC as (_ & HL' & HK). split; [exact (fc_is_app b _ r (eq_sym F2) HF)|]. rewrite LB. split; [exact HL'|exact HK]. }
  assert (SQ : seq_octets r (h ++ addressing_octets a ++ skipn n t) = seq_octets r b).
  { unfold seq_octets, h, t, mhr_size in *. destruct (fr_sequence_number_suppression r); [reflexivity|]. destruct b as [|b0 [|b1 [|b2 l]]]; cbn [length] in HL; try lia. reflexivity. }
  assert (TS : skipn n (addressing_octets a ++ skipn n t) = skipn n t) by (rewrite <- LA at 1; rewrite skipn_app, skipn_all, Nat.sub_diag; reflexivity).
  assert (TV' : tail_view r (skipn (mhr_size r) (h ++ addressing_octets a ++ skipn n t)) (Some a) (sh_elements s) (sh_payload s) n m).
  { rewrite HS. unfold tail_view. rewrite <- AddressingProofs.skipn_skipn', TS, AddressingProofs.skipn_skipn', app_length, LA, skipn_length.
    split; [left; exists dp, sp, a; split; [exact HY|]; split; [exact EN|]; split; [lia|]; split; [reflexivity|]; split; [exact HM|]; rewrite <- LA, firstn_app, firstn_all, Nat.sub_diag; cbn [firstn]; symmetry; apply app_nil_r|].
    split; [exact TI|]. split; [lia|exact TP]. }
  assert (R := reads_intro _ _ _ _ _ n m HO' AC' TV'). unfold with_addressing. rewrite EC, ES. rewrite SQ in R. exact R.
Qed.
Print Assumptions C90_addressing.

(** ** Payload *)
Lemma desc_firstn e e' k : 2 <= k -> firstn k e' = firstn k e -> 2 <= length e -> length e' = length e -> desc e' = desc e.
Proof.
  intros Hk E H L. destruct e as [|x [|y l]]; cbn [length] in H; try lia. destruct e' as [|x' [|y' l']]; cbn [length] in L; try lia.
  do 2 (destruct k as [|k]; [lia|]). cbn [firstn] in E. injection E as -> -> _. reflexivity.
Qed.
Lemma firstn_le_eq {A} k n (d d' : list A) : k <= n -> firstn n d' = firstn n d -> firstn k d' = firstn k d.
Proof. intros H E. rewrite <- (firstn_firstn d' k n), <- (firstn_firstn d k n) || idtac. replace k with (Nat.min k n) by lia. rewrite <- !firstn_firstn, E. reflexivity. Qed.
Lemma firstn_skipn_eq {A} k n (d d' : list A) : firstn (k + n) d' = firstn (k + n) d -> firstn n (skipn k d') = firstn n (skipn k d).
Proof. intros E. rewrite !firstn_skipn_comm. rewrite E. reflexivity. Qed.

Lemma walk_prefix size stop : (forall e, 2 <= size e) ->
  (forall e e', desc e' = desc e -> size e' = size e /\ stop e' = stop e) ->
  forall d es n, walk size stop d es n -> n <= length d -> forall d', length d' = length d -> firstn n d' = firstn n d ->
  exists es', walk size stop d' es' n /\
    Forall2 (fun e e' => 2 <= length e /\ size e <= length e /\ length e' = length e /\ firstn (size e) e' = firstn (size e) e) es es'.
Proof.
  intros H2 HD d es n HW. induction HW as [r H|r H Hs|r es n H Hs Hz HW IH]; intros HN d' HL HF.
  - exists []. split; [constructor; lia|constructor].
  - assert (E : desc d' = desc r) by (apply (desc_firstn r d' (size r)); auto). destruct (HD _ _ E) as [E1 E2].
    exists [d']. split; [rewrite <- E1; apply walk_last; [lia|rewrite E1, E2, HL; exact Hs]|]. constructor; [|constructor]. auto.
  - assert (E : desc d' = desc r) by (apply (desc_firstn r d' (size r)); auto; apply (firstn_le_eq (size r) (size r + n)); [lia|exact HF]). destruct (HD _ _ E) as [E1 E2].
    destruct (IH ltac:(rewrite skipn_length; lia) (skipn (size r) d') ltac:(rewrite !skipn_length; lia) (firstn_skipn_eq _ _ _ _ HF)) as (es' & W' & F').
    exists (d' :: es'). split.
    + rewrite <- E1 at 1. apply walk_next; [lia|congruence|lia|rewrite E1; exact W'].
    + constructor; [|exact F']. split; [exact H|]. split; [lia|]. split; [exact HL|]. apply (firstn_le_eq (size r) (size r + n)); [lia|exact HF].
Qed.

Lemma header_same e e' : 2 <= length e -> code_header_size e <= length e -> length e' = length e ->
  firstn (code_header_size e) e' = firstn (code_header_size e) e -> (hie_element_id e', hie_content e') = (hie_element_id e, hie_content e).
Proof.
  intros H1 H2 H3 H4. assert (E : desc e' = desc e) by (apply (desc_firstn e e' (code_header_size e)); auto; unfold code_header_size; lia).
  assert (ES : code_header_size e' = code_header_size e) by (unfold code_header_size; rewrite E; reflexivity).
  rewrite !hie_element_id_ok, E by lia. rewrite !hie_content_ok by lia. do 2 f_equal. unfold content_at. rewrite ES.
  rewrite <- (firstn_skipn_eq 2 (code_header_size e - 2) e e'); [reflexivity|]. replace (2 + (code_header_size e - 2)) with (code_header_size e) by (unfold code_header_size; lia). exact H4.
Qed.
Lemma payload_same e e' : 2 <= length e -> code_payload_size e <= length e -> length e' = length e ->
  firstn (code_payload_size e) e' = firstn (code_payload_size e) e -> (pie_group_id e', pie_content e') = (pie_group_id e, pie_content e).
Proof.
  intros H1 H2 H3 H4. assert (E : desc e' = desc e) by (apply (desc_firstn e e' (code_payload_size e)); auto; unfold code_payload_size; lia).
  assert (ES : code_payload_size e' = code_payload_size e) by (unfold code_payload_size; rewrite E; reflexivity).
  rewrite !pie_group_id_ok, E by lia. rewrite !pie_content_ok by lia. do 2 f_equal. unfold content_at. rewrite ES.
  rewrite <- (firstn_skipn_eq 2 (code_payload_size e - 2) e e'); [reflexivity|]. replace (2 + (code_payload_size e - 2)) with (code_payload_size e) by (unfold code_payload_size; lia). exact H4.
Qed.

Lemma map_same {A B} (f : A -> B) (P : A -> A -> Prop) l l' : (forall x y, P x y -> f y = f x) -> Forall2 P l l' -> map f l' = map f l.
Proof. intros H F. induction F as [|x y l l' HP F IH]; [reflexivity|]. cbn [map]. rewrite IH, (H _ _ HP). reflexivity. Qed.

Lemma ies_fit_prefix d m d' : ies_fit d m -> length d' = length d -> firstn m d' = firstn m d -> ies_fit d' m /\ elements d' = elements d.
Proof.
  intros HFIT HL HF. assert (HFIT' := HFIT). destruct HFIT as (hs & hn & ps & pn & W1 & W2 & -> & HN).
  destruct (walk_prefix code_header_size std_header_stop) with (d := d) (es := hs) (n := hn) (d' := d') as (hs' & W1' & F1).
  { intros e. unfold code_header_size. lia. }
  { intros e e' E. unfold code_header_size, std_header_stop. rewrite E. auto. }
  { exact W1. } { lia. } { exact HL. } { apply (firstn_le_eq hn (hn + pn)); [lia|exact HF]. }
  destruct (walk_prefix code_payload_size never) with (d := skipn hn d) (es := ps) (n := pn) (d' := skipn hn d') as (ps' & W2' & F2).
  { intros e. unfold code_payload_size. lia. }
  { intros e e' E. unfold code_payload_size. rewrite E. auto. }
  { exact W2. } { rewrite skipn_length. lia. } { rewrite !skipn_length. lia. } { apply firstn_skipn_eq. exact HF. }
  assert (FIT' : ies_fit d' (hn + pn)) by (exists hs', hn, ps', pn; repeat split; auto; lia). split; [exact FIT'|].
  assert (EL : forall z zh zhn zp zpn, walk code_header_size std_header_stop z zh zhn -> walk code_payload_size never (skipn zhn z) zp zpn -> ies_fit z (zhn + zpn) ->
    elements z = Done (map (fun e => (hie_element_id e, hie_content e)) zh, map (fun e => (pie_group_id e, pie_content e)) zp)).
  { intros z zh zhn zp zpn Z1 Z2 Z3. unfold elements.
    destruct (ies_new_spec z) as (xh & xn & HW & [[_ E]|(HL' & xp & xpn & HP & [[_ E]|(HL2 & E & _ & (t & HD) & t' & HD')])]);
      try (rewrite (proj1 (ies_fit_new _ _ Z3)) in E; discriminate).
    destruct (walk_fun _ _ _ _ _ HW _ _ Z1) as [-> ->]. destruct (walk_fun _ _ _ _ _ HP _ _ Z2) as [-> ->]. rewrite HD, HD'. reflexivity. }
  rewrite (EL d' hs' hn ps' pn W1' W2' FIT'), (EL d hs hn ps pn W1 W2 HFIT'). do 2 f_equal.
  - eapply map_same; [|exact F1]. intros x y (A & B & C & D). exact (header_same x y A B C D).
  - eapply map_same; [|exact F2]. intros x y (A & B & C & D). exact (payload_same x y A B C D).
Qed.

(** A payload of the old length is written and read back, and nothing else changes; any other length panics. A frame
    whose information elements are announced but unreadable panics. *)
Theorem C90_payload : forall b s p, octets b -> octets p -> reads b s ->
  (fr_information_elements_present (sh_control s) = true -> sh_elements s <> None) ->
  (length p = length (payload_octets (sh_payload s)) ->
     exists b', data_set_payload p b = Done b' /\ length b' = length b /\ reads b' (with_payload (as_payload p) s)) /\
  (length p <> length (payload_octets (sh_payload s)) -> data_set_payload p b = Panic).
Proof.
  intros b s p HO HOP HR HIE. destruct (reads_inv b s HO HR) as (r & n & m & AC & EC & ES & TV). rewrite EC in *.
  assert (HF := proj1 AC). assert (HL := proj1 (proj1 (proj2 AC))). set (t := skipn (mhr_size r) b) in *. assert (TV0 := TV). destruct TV as (TA & TI & TL & TP).
  assert (LT : length t = length b - mhr_size r) by apply skipn_length.
  set (h := firstn (mhr_size r) b). assert (LH : length h = mhr_size r) by (unfold h; rewrite firstn_length; lia).
  assert (EB : b = h ++ t) by (symmetry; apply firstn_skipn).
  assert (LP : length (payload_octets (sh_payload s)) = length t - (n + m)).
  { rewrite TP. replace (payload_octets (as_payload (skipn (n + m) t))) with (skipn (n + m) t); [apply skipn_length|]. destruct (skipn (n + m) t); reflexivity. }
  destruct (data_accessors b r AC) as (E1 & _ & _ & o & n' & i' & m' & EA & VA & EI & VI & _ & _).
  assert (NN : n' = n).
  { destruct VA as [[(dp & sp & HY & Hn & HLL) ->]|(HNo & -> & ->)]; destruct TA as [(dp2 & sp2 & x & HY2 & Hn2 & HLL2 & _)|(HNo2 & -> & _)].
    - destruct (c07_unique _ _ _ _ _ HY HY2) as [<- <-]. congruence.
    - specialize (HNo2 dp sp HY). lia.
    - specialize (HNo dp2 sp2 HY2). lia.
    - reflexivity. }
  subst n'. unfold t in TI; rewrite AddressingProofs.skipn_skipn' in TI.
  assert (AO : add_af_len o (2 + seq_size (fr_sequence_number_suppression r)) = Done (mhr_size r + n)).
  { rewrite <- mhr_seq. destruct VA as [[HFIT ->]|(_ & -> & ->)]; [|cbn [add_af_len]; f_equal; lia]. cbn [add_af_len].
    rewrite (proj2 (af_at_fits r b n HF HFIT)). reflexivity. }
  assert (SP : data_set_payload p b = if length (skipn (mhr_size r + n + m) b) =? length p then Done (firstn (mhr_size r + n + m) b ++ p) else Panic).
  { unfold data_set_payload. rewrite E1. cbn [bind]. getters (fc_is_firstn _ _ HF). rewrite Gn. cbn [bind]. rewrite EA. cbn [bind]. rewrite AO. cbn [bind].
    rewrite Gs. replace (fr_security_enabled r) with false by (symmetry; apply AC). cbn [bind]. rewrite Gi. cbn [bind].
    assert (OFF : (if fr_information_elements_present r then let* i := data_ies b in let* i := unwrap i in let* k := ies_len i in Done (mhr_size r + n + k) else Done (mhr_size r + n)) = Done (mhr_size r + n + m)).
    { destruct TI as [(K & F & x & Ex & EX)|(K & -> & Ex)].
      - rewrite K, EI. cbn [bind]. destruct VI as [(_ & F1 & ->)|(K1 & _ & _)]; [|destruct K1 as [K1|K1]; [congruence|destruct K1; eauto]].
        cbn [unwrap bind]. rewrite (proj2 (ies_fit_new _ _ F)). reflexivity.
      - destruct (fr_information_elements_present r); [exfalso; apply HIE; auto|]. f_equal. lia. }
    rewrite OFF. cbn [bind]. rewrite slice_to_ok, slice_from_ok by lia. reflexivity. }
  rewrite SP, skipn_length. rewrite LP, LT. split; intros HLP.
  2:{ destruct (Nat.eqb_spec (length b - (mhr_size r + n + m)) (length p)) as [E|E]; [lia|reflexivity]. }
  destruct (Nat.eqb_spec (length b - (mhr_size r + n + m)) (length p)) as [E|E]; [clear E|lia].
  assert (EH : firstn (mhr_size r + n + m) b ++ p = h ++ firstn (n + m) t ++ p).
  { rewrite app_assoc. f_equal. rewrite EB, firstn_app, LH. replace (mhr_size r + n + m - mhr_size r) with (n + m) by lia. f_equal. apply firstn_all2. lia. }
  eexists. split; [reflexivity|]. rewrite EH. set (t' := firstn (n + m) t ++ p).
  assert (LT' : length t' = length t) by (unfold t'; rewrite app_length, firstn_length; lia).
  assert (LB : length (h ++ t') = length b) by (rewrite EB, !app_length; lia). split; [exact LB|].
  assert (F2 : firstn 2 (h ++ t') = firstn 2 b).
  { assert (M2 := mhr_ge2 r). rewrite EB, !firstn_app, LH. replace (2 - mhr_size r) with 0 by lia. reflexivity. }
  assert (HS : skipn (mhr_size r) (h ++ t') = t') by (rewrite <- LH, skipn_app, skipn_all, Nat.sub_diag; reflexivity).
  assert (HO' : octets (h ++ t')).
  { apply octets_app. split; [apply octets_firstn, HO|]. apply octets_app. split; [apply octets_firstn, octets_skipn, HO|exact HOP]. }
  assert (AC' : acceptable (h ++ t') r).
  { destruct AC as (_ & HL' & HK). split; [exact (fc_is_app b _ r (eq_sym F2) HF)|]. rewrite LB. split; [exact HL'|exact HK]. }
  assert (SQ : seq_octets r (h ++ t') = seq_octets r b).
  { unfold seq_octets, h, mhr_size in *. destruct (fr_sequence_number_suppression r); [reflexivity|]. destruct b as [|b0 [|b1 [|b2 l]]]; cbn [length] in HL; try lia. reflexivity. }
  assert (PF : firstn (n + m) t' = firstn (n + m) t).
  { unfold t'. rewrite firstn_app, firstn_firstn, firstn_length, Nat.min_id. replace (n + m - Nat.min (n + m) (length t)) with 0 by lia. cbn [firstn]. apply app_nil_r. }
  assert (TV' : tail_view r (skipn (mhr_size r) (h ++ t')) (sh_addressing s) (sh_elements s) (as_payload p) n m).
  { rewrite HS. destruct TV0 as (TA0 & TI0 & _). unfold tail_view. rewrite LT'. split; [|split; [|split; [exact TL|]]].
    - rewrite (firstn_le_eq n (n + m) t t') by (lia || exact PF). exact TA0.
    - destruct TI0 as [(K & F & x & Ex & EX)|(K & -> & Ex)].
      + left. split; [exact K|]. destruct (ies_fit_prefix (skipn n t) m (skipn n t') F) as (F' & EX'); [rewrite !skipn_length; lia|apply firstn_skipn_eq; exact PF|].
        split; [exact F'|]. exists x. split; [exact Ex|]. congruence.
      + right. split; [|auto]. destruct (fr_information_elements_present r); [exfalso; apply HIE; auto|]. left. reflexivity.
    - unfold t'. rewrite skipn_app, firstn_length. replace (n + m - Nat.min (n + m) (length t)) with 0 by lia. rewrite skipn_all2 by (rewrite firstn_length; lia). reflexivity. }
  assert (R := reads_intro _ _ _ _ _ n m HO' AC' TV'). unfold with_payload. rewrite EC, ES. rewrite SQ in R. exact R.
Qed.
Print Assumptions C90_payload.

(** ** Information elements *)
(** The elements are written behind the addressing fields, whatever was there; the octets before and behind stay. *)
Theorem C90_elements : forall b s e cp off, octets b -> reads b s ->
  (match sh_addressing s with
   | Some _ => exists dp sp, layout (sh_control s) dp sp /\ off = mhr_size (sh_control s) + layout_size (sh_control s) dp sp
   | None => off = mhr_size (sh_control s) end) ->
  ies_typed e -> ~ In PTermination (ir_payload e) -> some_in (ir_payload e) && cp = false ->
  off + ies_buffer_len e cp <= length b ->
  data_set_ies e cp b = Done (firstn off b ++ ies_octets e cp ++ skipn (off + ies_buffer_len e cp) b).
Proof.
  intros b s e cp off HO HR HOFF HT HNT HCP HLE. destruct (reads_inv b s HO HR) as (r & n & m & AC & EC & ES & TV). rewrite EC in *.
  assert (HF := proj1 AC). assert (HMB := proj1 (proj1 (proj2 AC))). destruct TV as (TA & _ & TL & _). assert (LT : length (skipn (mhr_size r) b) = length b - mhr_size r) by apply skipn_length.
  destruct (data_accessors b r AC) as (E1 & _ & _ & o & n' & i' & m' & EA & VA & _).
  assert (NN : off = mhr_size r + n').
  { destruct VA as [[(dp & sp & HY & Hn & HLL) ->]|(HNo & -> & ->)]; destruct TA as [(dp2 & sp2 & x & HY2 & Hn2 & HLL2 & EX & _)|(HNo2 & _ & EX)]; rewrite EX in HOFF.
    - destruct HOFF as (dp3 & sp3 & HY3 & ->). destruct (c07_unique _ _ _ _ _ HY HY3) as [<- <-]. lia.
    - specialize (HNo2 dp sp HY). lia.
    - specialize (HNo dp2 sp2 HY2). lia.
    - lia. }
  unfold data_set_ies. rewrite E1. cbn [bind]. getters (fc_is_firstn _ _ HF). rewrite Gn. cbn [bind]. rewrite EA. cbn [bind]. rewrite <- mhr_seq.
  assert (AO : add_af_len o (mhr_size r) = Done off).
  { destruct VA as [[HFIT ->]|(_ & -> & ->)]; [|cbn [add_af_len]; f_equal; lia]. cbn [add_af_len]. rewrite (proj2 (af_at_fits r b n' HF HFIT)). cbn [bind]. f_equal. lia. }
  rewrite AO. cbn [bind]. rewrite slice_to_ok, slice_from_ok by lia. cbn [bind]. rewrite ies_emit_prefix; [|assumption..|rewrite skipn_length; lia].
  cbn [bind]. rewrite AddressingProofs.skipn_skipn'. reflexivity.
Qed.
Print Assumptions C90_elements.

(** ** The property as stated *)
(** Whatever is set is read back. *)
Definition C90_sequence_statement : Prop := forall b s x, octets b -> octet x -> reads b s -> 3 <= length b ->
  exists b', data_set_sequence_number x b = Done b' /\ data_sequence_number b' = Done (Some x).
Definition C90_control_statement : Prop := forall b s c, octets b -> reads b s -> fcr_known c ->
  exists b', data_set_frame_control c b = Done b' /\ exists fc, data_frame_control b' = Done fc /\ fcr_parse fc = Done (Ok c).
Definition C90_statement : Prop := C90_sequence_statement /\ C90_control_statement.

(** A frame without sequence number (2020, suppressed), destination PAN 0xabcd and short destination 0x0201, payload 5. *)
Definition unnumbered : list N := [0x41; 0x29; 0xcd; 0xab; 0x01; 0x02; 5]%N.
Definition numbered : list N := [0x61; 0x28; 9; 0xcd; 0xab; 0x01; 0x02; 5; 6]%N.
Definition unnumbered_shown : shown :=
  mkShown (mkFcRepr FtData false false false true true false AmShort AmAbsent V2020) None
    (Some (mkAfRepr None (Some (AShort [0xab; 0xcd]%N)) None (Some AAbsent))) None (Some [0x01; 0x02; 5]%N).
Lemma unnumbered_reads : octets unnumbered /\ reads unnumbered unnumbered_shown.
Proof.
  split; [repeat (constructor; [unfold octet; lia|]); constructor|]. repeat split; try (vm_compute; reflexivity).
  - eexists. split; vm_compute; reflexivity.
  - eexists. split; vm_compute; reflexivity.
  - eexists. split; vm_compute; reflexivity.
Qed.
(** The setter overwrites the first addressing octet, and the frame still has no sequence number. *)
Theorem C90_sequence_refuted : ~ C90_sequence_statement.
Proof.
  intros H. destruct (H unnumbered unnumbered_shown 7%N (proj1 unnumbered_reads) eq_refl (proj2 unnumbered_reads)) as (b' & E & F); [cbn; lia|].
  vm_compute in E. injection E as <-. vm_compute in F. discriminate.
Qed.
Print Assumptions C90_sequence_refuted.
Theorem C90_control_refuted : ~ C90_control_statement.
Proof.
  intros H. destruct (H unnumbered unnumbered_shown (mkFcRepr FtData false false false false false false AmShort AmAbsent V2020)
    (proj1 unnumbered_reads) (proj2 unnumbered_reads)) as (b' & E & fc & F & G); [repeat split; discriminate|].
  vm_compute in E. injection E as <-. vm_compute in F. injection F as <-. vm_compute in G. discriminate.
Qed.
Print Assumptions C90_control_refuted.
Theorem C90_refuted : ~ C90_statement.
Proof. intros [H _]. exact (C90_sequence_refuted H). Qed.
Print Assumptions C90_refuted.

(** Examples: every setter on a frame; the frames built by them. *)
Definition numbered_shown : shown :=
  mkShown (mkFcRepr FtData false false true true false false AmShort AmAbsent V2020) (Some 9%N)
    (Some (mkAfRepr None (Some (AShort [0xab; 0xcd]%N)) None (Some AAbsent))) None (Some [0x01; 0x02; 5; 6]%N).
Example C90_numbered : reads numbered numbered_shown /\ layout (sh_control numbered_shown) false false /\
  data_set_sequence_number 10 numbered = Done [0x61; 0x28; 10; 0xcd; 0xab; 0x01; 0x02; 5; 6]%N /\
  data_set_payload [4; 3; 2; 1]%N numbered = Done [0x61; 0x28; 9; 0xcd; 0xab; 4; 3; 2; 1]%N /\
  data_set_payload [4; 3; 2]%N numbered = Panic /\
  data_set_addressing_fields (mkAfRepr None (Some (AShort [0x77; 0x88]%N)) None (Some AAbsent)) numbered = Done [0x61; 0x28; 9; 0x88; 0x77; 0x01; 0x02; 5; 6]%N /\
  data_set_frame_control (mkFcRepr FtData false true false true false false AmShort AmAbsent V2020) numbered = Done [0x71; 0x28; 9; 0xcd; 0xab; 0x01; 0x02; 5; 6]%N /\
  data_set_sequence_number 7 unnumbered = Done [0x41; 0x29; 7; 0xab; 0x01; 0x02; 5]%N.
Proof.
  split; [|split].
  - repeat split; try (vm_compute; reflexivity); eexists; split; vm_compute; reflexivity.
  - split; [discriminate|]. split; [discriminate|]. exists Any, No. split; [cbn; tauto|]. split; reflexivity.
  - repeat split; vm_compute; reflexivity.
Qed.

Definition new_elements : IesRepr := mkIes [HTimeCorrection 1 false] [].
Example C90_new_elements : ies_typed new_elements /\ (exists s, reads ie_sample s) /\
  data_set_ies new_elements true ie_sample = Done (firstn 14 ie_sample ++ [0x02; 0x0f; 0x01; 0x00; 0x80; 0x3f]%N ++ skipn 20 ie_sample).
Proof.
  split; [repeat constructor; cbn; lia|]. split; [|vm_compute; reflexivity].
  destruct (C90_every_frame_reads ie_sample) as (s & HS & _); [repeat (constructor; [unfold octet; lia|]); constructor|vm_compute; reflexivity|eauto].
Qed.
