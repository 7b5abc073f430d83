(** PropCatAck.v -- C83: what two frames of any kind with the same text have in common. *)
From Coq Require Import String Ascii.
From Verif Require Import Base BaseProofs Spec BitProofs FrameControl FrameControlProofs SpecFrame Addressing SpecAddressing AddressText SpecAddressText Ie SpecIe
  IeContent SpecIeContent Frames SpecFrames FramesProofs PropAddressing PropFrames SpecParse Display SpecDisplay DisplayProofs PropDisplay Cat SpecCat CatProofs PropCat PropEack
  CatText SpecCatText CatTextProofs PropCatText.

Lemma fc_lines_alike r r' X X' : Forall2 alike (fc_lines r ++ X) (fc_lines r' ++ X') -> r = r' /\ Forall2 alike X X'.
Proof.
  unfold SpecCat.fc_lines. cbn [map app]. intros H.
  do 11 (let K := fresh "K" in inversion H as [|? ? ? ? [_ K] H0]; subst; clear H; rename H0 into H; cbn [snd same_line] in K).
  split; [|exact H].
  repeat match goal with K : LFlag _ _ = LFlag _ _ |- _ => apply (f_equal (fun x => match x with LFlag _ v => v | _ => true end)) in K; cbn beta iota in K end.
  repeat match goal with K : LFrameType _ _ = LFrameType _ _ |- _ => apply (f_equal (fun x => match x with LFrameType _ v => v | _ => FtUnknown end)) in K; cbn beta iota in K
    | K : LDstMode _ = LDstMode _ |- _ => apply (f_equal (fun x => match x with LDstMode v => v | _ => AmUnknown end)) in K; cbn beta iota in K
    | K : LSrcMode _ = LSrcMode _ |- _ => apply (f_equal (fun x => match x with LSrcMode v => v | _ => AmUnknown end)) in K; cbn beta iota in K
    | K : LVersion _ = LVersion _ |- _ => apply (f_equal (fun x => match x with LVersion v => v | _ => VUnknown end)) in K; cbn beta iota in K end.
  destruct r as [a1 a2 a3 a4 a5 a6 a7 a8 a9 a10], r' as [c1 c2 c3 c4 c5 c6 c7 c8 c9 c10]. cbn in *. subst. reflexivity.
Qed.

(** every frame that is printed: what its text starts with *)
Lemma printed b f L : octets b -> frame_new b = Done (Ok f) -> cat_parse b = Done L ->
  exists r R, fc_is b r /\
    ((f = FAck b /\ kind_of r = Some KAck /\ length b = 3 /\ L = fc_lines r ++ [(0, LHeading HSequenceNumber); (2, LSeq (nth 2 b 0%N))]) \/
     (kind_of r <> Some KAck /\ mhr_size r <= length b /\ L = fc_lines r ++ seq_lines r b ++ R)).
Proof.
  intros HO HN E. destruct (C14_dispatch_partial b HO) as [[_ K]|(_ & r & HF & HD)]; [congruence|]. exists r.
  destruct (kind_of r) as [[]|] eqn:EK; try congruence.
  - exists []. split; [exact HF|]. left. destruct (Nat.eqb_spec (length b) 3) as [HL|HL]; [|congruence]. rewrite HN in HD. assert (f = FAck b) by congruence. subst f.
    rewrite (cat_ack b r HN HF HL) in E. repeat split; auto. congruence.
  - assert (f = FEnhancedAck b) by congruence. subst f.
    destruct (C62_enhanced_ack_covered b r HF) as [H|[H|(HL & HR & n & HA)]]; [rewrite (C62_enhanced_ack_header b r HN HF) in E by auto; discriminate..|].
    apply (proj1 (C62_enhanced_ack_output b r n HO HN HF HL HR HA)) in E. destruct E as (n' & k & A & m & I & _ & _ & _ & _ & EL).
    eexists. split; [exact HF|]. right. split; [discriminate|]. split; [exact HL|exact EL].
  - assert (Hf : f = FData b \/ f = FEnhancedBeacon b) by (destruct HD as [[_ K]|[_ K]]; [right; congruence|congruence]).
    destruct (shown_is_data b f L HO HN Hf E) as (r' & HF' & HL & (n & A & m & I & _ & _ & EQ)). rewrite <- (fc_is_fun _ _ _ HF HF') in *.
    eexists. split; [exact HF|]. right. split; [discriminate|]. split; [exact HL|exact EQ].
  - assert (Hf : f = FData b \/ f = FEnhancedBeacon b) by (destruct HD as [[_ K]|[_ K]]; [left; congruence|congruence]).
    destruct (shown_is_data b f L HO HN Hf E) as (r' & HF' & HL & (n & A & m & I & _ & _ & EQ)). rewrite <- (fc_is_fun _ _ _ HF HF') in *.
    eexists. split; [exact HF|]. right. split; [discriminate|]. split; [exact HL|exact EQ].
Qed.

(** ** Two accepted inputs of any kind with the same text: the same frame control fields (so the same kind of frame) and
    the same sequence number; two immediate acknowledgements agree in everything but the encoding of the first two octets *)
Theorem C83_any_kind : forall tie b b' f f' t, octets b -> octets b' -> frame_new b = Done (Ok f) -> frame_new b' = Done (Ok f') ->
  cat_text false tie b = Done t -> cat_text false tie b' = Done t ->
  exists r, fc_is b r /\ fc_is b' r /\
    (fr_sequence_number_suppression r = false -> nth 2 b 0%N = nth 2 b' 0%N) /\
    (f = FAck b -> f' = FAck b' /\ length b = 3 /\ skipn 2 b = skipn 2 b').
Proof.
  intros tie b b' f f' t HO HO' HN HN' E E'.
  assert (exists L, cat_parse b = Done L) as (L & EL) by (unfold cat_text in E; destruct (cat_parse b) as [L|]; [exists L; reflexivity|discriminate]).
  assert (exists L, cat_parse b' = Done L) as (L' & EL') by (unfold cat_text in E'; destruct (cat_parse b') as [L'|]; [exists L'; reflexivity|discriminate]).
  rewrite <- E' in E. pose proof (C83_readable tie b b' L L' HO HO' EL EL' E) as H. change (Forall2 alike L L') in H. clear E E'.
  destruct (printed b f L HO HN EL) as (r & R & HF & HP). destruct (printed b' f' L' HO' HN' EL') as (r' & R' & HF' & HP'). clear EL EL'.
  assert (SEQ : forall a c, octet a -> octet c -> alike (2, LSeq a) (2, LSeq c) -> a = c) by (intros a c _ _ [_ K]; cbn [snd same_line] in K; congruence).
  assert (ON : forall g : list N, octets g -> octet (nth 2 g 0%N)).
  { intros g O. unfold octets in O. rewrite Forall_forall in O. destruct (Nat.lt_ge_cases 2 (length g)) as [K|K]; [apply O, nth_In, K|rewrite nth_overflow by exact K; reflexivity]. }
  destruct HP as [(Hf & HK & HL & ->)|(HK & HL & ->)], HP' as [(Hf' & HK' & HL' & ->)|(HK' & HL' & ->)];
    (apply fc_lines_alike in H; destruct H as [<- H]; try congruence); exists r; (split; [exact HF|]); (split; [exact HF'|]).
  - inversion H as [|? ? ? ? _ H1]; subst. inversion H1 as [|? ? ? ? K _]; subst. apply SEQ in K; [|apply ON; assumption..]. split; [auto|]. intros _. split; [reflexivity|]. split; [exact HL|].
    destruct b as [|x0 [|x1 [|x2 [|]]]]; try discriminate HL. destruct b' as [|y0 [|y1 [|y2 [|]]]]; try discriminate HL'. cbn in K |- *. congruence.
  - split.
    + intros S. unfold seq_lines in H. rewrite S in H. cbn [app] in H. inversion H as [|? ? ? ? _ H1]; subst. inversion H1 as [|? ? ? ? K _]; subst. apply SEQ in K; [exact K|apply ON; assumption..].
    + intros ->. exfalso. destruct (C14_dispatch_partial b HO) as [[_ K]|(_ & r1 & HF1 & HD)]; [congruence|]. rewrite (fc_is_fun _ _ _ HF1 HF) in HD.
      destruct (kind_of r) as [[]|]; try congruence; destruct HD as [[_ K]|[_ K]]; congruence.
Qed.
Print Assumptions C83_any_kind.

(** ** Enhanced acknowledgements *)
Lemma split_payload_always I : forall I' p p', Forall not_payload I -> Forall not_payload I' ->
  Forall2 alike (I ++ payload_lines true p) (I' ++ payload_lines true p') -> p = p'.
Proof.
  assert (PL : forall q, payload_lines true q = [(0, LHeading HPayload); (2, LOctets q)]) by (intros []; reflexivity).
  induction I as [|x I IH]; intros [|x' I'] p p' N N' H; rewrite !PL in H; cbn [app] in H.
  - inversion H as [|? ? ? ? _ H1]; subst. inversion H1 as [|? ? ? ? [_ H2] _]; subst. cbn [snd same_line] in H2. injection H2. congruence.
  - exfalso. inversion H as [|? ? ? ? H1 _]; subst. apply alike_heading in H1. subst x'. inversion N' as [|? ? K _]; subst. apply K. reflexivity.
  - exfalso. inversion H as [|? ? ? ? H1 _]; subst. apply alike_heading' in H1. subst x. inversion N as [|? ? K _]; subst. apply K. reflexivity.
  - inversion H; subst. inversion N; subst. inversion N'; subst. eapply IH; rewrite ?PL; eassumption.
Qed.
(** the address lines tell the octets of the addressing fields *)
Lemma addr_alike r (b b' : list N) n n' A A' X X' : octets b -> octets b' -> addr_shown r b n A -> addr_shown r b' n' A' ->
  (match X, X' with p :: _, q :: _ => exists h h', p = (0, LHeading h) /\ q = (0, LHeading h') /\ h <> HAddressing /\ h' <> HAddressing | _, _ => False end) ->
  Forall2 alike (A ++ X) (A' ++ X') ->
  n = n' /\ (addressing_fits r b n /\ addressing_fits r b' n \/ no_addressing r b /\ no_addressing r b' /\ n = 0) /\
  window b (mhr_size r) n = window b' (mhr_size r) n /\ Forall2 alike X X'.
Proof.
  intros HO HO' HA HA' HX H. destruct X as [|[k0 x0] X0] eqn:EX; [contradiction|]. destruct X' as [|[k1 x1] X1] eqn:EX'; [contradiction|].
  destruct HX as (h & h' & Hh & Hh' & N & N'). rewrite <- EX, <- EX' in *.
  destruct HA as [(dp & sp & HL & -> & HB & ->)|(HNA & -> & ->)], HA' as [(dp' & sp' & HL' & -> & HB' & ->)|(HNA' & -> & ->)].
  - destruct (C07_layout_unique _ _ _ _ _ HL HL') as [<- <-]. split; [reflexivity|]. split; [left; split; exists dp, sp; repeat split; try assumption; apply HL|].
    set (g := skipn (mhr_size r) b) in *. set (g' := skipn (mhr_size r) b') in *. assert (LG : layout_size r dp sp <= length g) by (subst g; rewrite skipn_length; lia).
    assert (LG' : layout_size r dp sp <= length g') by (subst g'; rewrite skipn_length; lia).
    assert (OG : octets g) by apply octets_skipn, HO. assert (OG' : octets g') by apply octets_skipn, HO'.
    change (window b (mhr_size r) (layout_size r dp sp)) with (firstn (layout_size r dp sp) g). change (window b' (mhr_size r) (layout_size r dp sp)) with (firstn (layout_size r dp sp) g').
    clearbody g g'. clear EX EX' Hh Hh' N N'. unfold addr_lines in H. cbn zeta in H. cbn [app] in H. inversion H as [|? ? ? ? _ H4]; subst. clear H. rewrite <- !app_assoc in H4.
    apply opt_alike in H4; [|intros x y K; injection K; trivial|cbn [app]; split; intros x [_ K]; discriminate]. destruct H4 as [E1 H4]. cbn [app] in H4.
    inversion H4 as [|? ? ? ? [_ K1] H5]; subst. clear H4. cbn [snd same_line] in K1. injection K1 as E2 _.
    rewrite <- !app_assoc in H5. apply opt_alike in H5; [|intros x y K; injection K; trivial|cbn [app]; split; intros x [_ K]; discriminate]. destruct H5 as [E3 H5]. cbn [app] in H5.
    inversion H5 as [|? ? ? ? [_ K2] H6]; subst. clear H5. cbn [snd same_line] in K2. injection K2 as E4 _.
    split; [|exact H6]. unfold layout_size in *.
    rewrite !firstn_app_window. f_equal; [f_equal; [f_equal|]|].
    + apply (window_pan dp g g' 0); try assumption; lia.
    + apply window_addr, E2.
    + apply window_pan; try assumption; lia.
    + apply window_addr, E4.
  - exfalso. unfold addr_lines in H. cbn zeta in H. rewrite EX' in H. cbn [app] in H. inversion H as [|? ? ? ? K _]; subst. apply alike_heading in K. rewrite Hh' in K. congruence.
  - exfalso. unfold addr_lines in H. cbn zeta in H. rewrite EX in H. cbn [app] in H. inversion H as [|? ? ? ? K _]; subst. rewrite Hh in K. apply alike_heading in K. congruence.
  - split; [reflexivity|]. split; [right; auto|]. split; [reflexivity|exact H].
Qed.
Lemma seq_alike r (b b' : list N) Y Y' : mhr_size r <= length b -> mhr_size r <= length b' -> Forall2 alike (seq_lines r b ++ Y) (seq_lines r b' ++ Y') ->
  skipn 2 (firstn (mhr_size r) b) = skipn 2 (firstn (mhr_size r) b') /\ Forall2 alike Y Y'.
Proof.
  intros HM HM' H. unfold mhr_size, seq_lines in *. destruct (fr_sequence_number_suppression r); cbn [app] in H.
  - split; [|exact H]. rewrite !skipn_all2; [reflexivity|..]; rewrite firstn_length; lia.
  - inversion H as [|? ? ? ? _ H3]; subst. inversion H3 as [|? ? ? ? [_ K] H4]; subst. split; [|exact H4]. cbn [snd same_line] in K. injection K as K.
    destruct b as [|x0 [|x1 [|x2 b]]]; cbn [length] in HM; try lia. destruct b' as [|y0 [|y1 [|y2 b']]]; cbn [length] in HM'; try lia. cbn in K |- *. congruence.
Qed.
(** two accepted enhanced acknowledgements with the same text: the same frame control fields, the same octets up to the end
    of the addressing fields and the same payload (the octets of their security headers and MICs are not shown) *)
Theorem C83_enhanced_acks : forall tie b b' t, octets b -> octets b' -> frame_new b = Done (Ok (FEnhancedAck b)) -> frame_new b' = Done (Ok (FEnhancedAck b')) ->
  cat_text false tie b = Done t -> cat_text false tie b' = Done t ->
  exists r n k k' m m', fc_is b r /\ fc_is b' r /\
    (addressing_fits r b n /\ addressing_fits r b' n \/ no_addressing r b /\ no_addressing r b' /\ n = 0) /\
    skipn 2 (firstn (mhr_size r + n) b) = skipn 2 (firstn (mhr_size r + n) b') /\
    eack_security_octets r b n k /\ eack_security_octets r b' n k' /\
    skipn (mhr_size r + n + k + m) b = skipn (mhr_size r + n + k' + m') b' /\
    (fr_information_elements_present r = false -> m = 0 /\ m' = 0).
Proof.
  intros tie b b' t HO HO' HN HN' E E'.
  assert (exists L, cat_parse b = Done L) as (L & EL) by (unfold cat_text in E; destruct (cat_parse b) as [L|]; [exists L; reflexivity|discriminate]).
  assert (exists L, cat_parse b' = Done L) as (L' & EL') by (unfold cat_text in E'; destruct (cat_parse b') as [L'|]; [exists L'; reflexivity|discriminate]).
  rewrite <- E' in E. pose proof (C83_readable tie b b' L L' HO HO' EL EL' E) as H. change (Forall2 alike L L') in H. clear E E'.
  assert (S : forall g M, octets g -> frame_new g = Done (Ok (FEnhancedAck g)) -> cat_parse g = Done M -> exists q, fc_is g q /\ mhr_size q <= length g /\ eack_shown q g M).
  { clear. intros g M HO HN E. destruct (proj1 (proj1 (C62_output g HO) M) E) as (f & q & EN & HF & HP). assert (f = FEnhancedAck g) by congruence. subst f.
    exists q. destruct HP as (K1 & _ & K2). auto. }
  destruct (S b L HO HN EL) as (r & HF & HM & (n & k & A & m & I & HA & HK & HLk & HI & ->)).
  destruct (S b' L' HO' HN' EL') as (r' & HF' & HM' & (n' & k' & A' & m' & I' & HA' & HK' & HLk' & HI' & ->)). clear S EL EL'.
  apply fc_lines_alike in H. destruct H as [<- H]. apply seq_alike in H; [|assumption..]. destruct H as [HS H].
  assert (NI : Forall not_payload I) by (destruct HI as [[_ K]|(_ & _ & ->)]; [eapply ies_no_payload, K|constructor]).
  assert (NI' : Forall not_payload I') by (destruct HI' as [[_ K]|(_ & _ & ->)]; [eapply ies_no_payload, K|constructor]).
  assert (PL : forall q, payload_lines true q = [(0, LHeading HPayload); (2, LOctets q)]) by (intros []; reflexivity).
  assert (HDS : forall g o q J, (fr_information_elements_present r = true /\ ies_shown g o J \/ fr_information_elements_present r = false /\ o = 0 /\ J = []) ->
    exists h Z, (if fr_security_enabled r then [(0, LHeading HAuxiliary); (2, LAuxUnimplemented)] else []) ++ J ++ payload_lines true q = (0, LHeading h) :: Z /\ h <> HAddressing).
  { intros g o q J HJ. destruct (fr_security_enabled r); cbn [app]; [eexists; eexists; split; [reflexivity|discriminate]|].
    destruct HJ as [[_ (hs & hn & ps & pn & Ps & _ & _ & _ & _ & _ & ->)]|(_ & _ & ->)]; [|rewrite PL]; cbn [app]; eexists; eexists; (split; [reflexivity|discriminate]). }
  destruct (HDS _ _ (skipn (mhr_size r + n + k + m) b) I HI) as (h & Z & EZ & Nh). destruct (HDS _ _ (skipn (mhr_size r + n' + k' + m') b') I' HI') as (h' & Z' & EZ' & Nh').
  eapply addr_alike in H; [|exact HO|exact HO'|exact HA|exact HA'|rewrite EZ, EZ'; exists h, h'; auto].
  destruct H as (<- & HC & HW & H). clear EZ EZ' HDS. exists r, n, k, k', m, m'.
  split; [exact HF|]. split; [exact HF'|]. split; [exact HC|]. split; [rewrite !firstn_app_window, !skipn_app, HS, HW; f_equal; f_equal; rewrite !firstn_length; lia|].
  split; [exact HK|]. split; [exact HK'|]. split.
  - apply (split_payload_always I I' _ _ NI NI'). destruct (fr_security_enabled r); [|exact H]. cbn [app] in H. inversion H as [|? ? ? ? _ H1]; subst. inversion H1 as [|? ? ? ? _ H2]; subst. exact H2.
  - intros K. destruct HI as [[K' _]|(_ & -> & _)]; [congruence|]. destruct HI' as [[K' _]|(_ & -> & _)]; [congruence|]. split; reflexivity.
Qed.
Print Assumptions C83_enhanced_acks.
(** unsecured and without information elements: the same octets, but for the first two, which agree in every field *)
Theorem C83_enhanced_acks_same : forall tie b b' t r, octets b -> octets b' -> frame_new b = Done (Ok (FEnhancedAck b)) -> frame_new b' = Done (Ok (FEnhancedAck b')) ->
  cat_text false tie b = Done t -> cat_text false tie b' = Done t -> fc_is b r -> fr_information_elements_present r = false -> fr_security_enabled r = false ->
  fc_is b' r /\ skipn 2 b = skipn 2 b'.
Proof.
  intros tie b b' t r HO HO' HN HN' E E' HF HI HSec.
  destruct (C83_enhanced_acks tie b b' t HO HO' HN HN' E E') as (r1 & n & k & k' & m & m' & H1 & H2 & _ & H4 & K & K' & H5 & H6).
  rewrite (fc_is_fun _ _ _ H1 HF) in *. destruct (H6 HI) as [-> ->]. unfold eack_security_octets in K, K'. rewrite HSec in K, K'. subst k k'. rewrite !Nat.add_0_r in H5. split; [exact H2|].
  rewrite <- (firstn_skipn (mhr_size r + n) b), <- (firstn_skipn (mhr_size r + n) b'), !skipn_app, H4, H5.
  assert (J : length (firstn (mhr_size r + n) b) = length (firstn (mhr_size r + n) b')).
  { apply (f_equal (@length N)) in H4. rewrite !skipn_length in H4.
    destruct HF as (x & y & l & -> & _). destruct H2 as (x' & y' & l' & -> & _). assert (2 <= mhr_size r + n) by (unfold mhr_size; destruct (fr_sequence_number_suppression r); lia).
    rewrite !firstn_length in *. cbn [length] in *. lia. }
  rewrite J. reflexivity.
Qed.
Print Assumptions C83_enhanced_acks_same.
(** of secured ones the security header is lost: security levels 0 and 1 (no MIC, 4 octets of MIC), the same text *)
Theorem C83_security_lost : exists b b', length b <> length b' /\ frame_new b = Done (Ok (FEnhancedAck b)) /\ frame_new b' = Done (Ok (FEnhancedAck b')) /\
  exists t, forall tie, cat_text false tie b = Done t /\ cat_text false tie b' = Done t.
Proof.
  exists [0x0a; 0x20; 0x01; 0x00; 9]%N, [0x0a; 0x20; 0x01; 0x01; 1; 2; 3; 4; 9]%N. split; [discriminate|]. split; [vm_compute; reflexivity|]. split; [vm_compute; reflexivity|].
  eexists. intros tie. split; vm_compute; reflexivity.
Qed.
Print Assumptions C83_security_lost.

Local Open Scope string_scope.
Local Open Scope list_scope.
Example C83_ack_ex : frame_new [0x02; 0x10; 0x2a]%N = Done (Ok (FAck [0x02; 0x10; 0x2a]%N)) /\
  cat_text false (fun _ => false) [0x02; 0x10; 0x2a]%N = Done (txt
"Frame Control
  frame type: Ack
  security: 0
  frame pending: 0
  ack request: 0
  pan id compression: 0
  sequence number suppression: 0
  information elements present: 0
  dst addressing mode: Absent
  src addressing mode: Absent
  frame version: 1 (Ieee802154_2006)
Sequence Number
  sequence number: 42
").
Proof. split; vm_compute; reflexivity. Qed.
