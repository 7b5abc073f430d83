(** PropCatText.v -- C83: the text dot15d4-cat prints. *)
From Coq Require Import String Ascii.
From Verif Require Import Base BaseProofs Spec BitProofs FrameControl FrameControlProofs SpecFrame Addressing SpecAddressing AddressText SpecAddressText Ie SpecIe
  IeContent SpecIeContent Frames SpecFrames FramesProofs PropAddressing PropFrames SpecParse Display SpecDisplay DisplayProofs PropDisplay Cat SpecCat CatProofs PropCat
  CatText SpecCatText CatTextProofs.

(** ** Without colours: the lines of C62, each as the specification describes it *)
Theorem C83_text : forall tie b L, octets b -> cat_parse b = Done L ->
  exists Ts, Forall2 shown_line L Ts /\ cat_text false tie b = Done (concat Ts).
Proof.
  intros tie b L HO E. exists (map (line_text false tie) L). unfold cat_text. rewrite E. split; [|reflexivity].
  pose proof (cat_lines_ok b L HO E) as H. clear E HO. induction H as [|[k x] L H _ IH]; [constructor|]. cbn [map]. constructor; [apply line_shown, H|exact IH].
Qed.
Print Assumptions C83_text.
(** it panics on exactly the inputs of C62 *)
Theorem C83_panic : forall colour tie b, cat_text colour tie b = Panic <-> cat_parse b = Panic.
Proof. intros colour tie b. unfold cat_text. destruct (cat_parse b); cbn [bind]; split; (discriminate || reflexivity). Qed.
Print Assumptions C83_panic.

(** ** The text can be read back: two inputs with the same text have the same lines, up to the rounding of times *)
Theorem C83_readable : forall tie b b' L L', octets b -> octets b' -> cat_parse b = Done L -> cat_parse b' = Done L' ->
  cat_text false tie b = cat_text false tie b' -> Forall2 (fun p q => fst p = fst q /\ same_line (snd p) (snd q)) L L'.
Proof.
  intros tie b b' L L' HO HO' E E' H. destruct (C83_text tie b L HO E) as (Ts & F & K). destruct (C83_text tie b' L' HO' E') as (Ts' & F' & K').
  rewrite K, K' in H. apply Done_inj in H. exact (text_read L L' Ts Ts' (cat_lines_ok _ _ HO E) (cat_lines_ok _ _ HO' E') F F' H).
Qed.
Print Assumptions C83_readable.

(** ** With colours: the same text with escape sequences, which can be removed in one way only *)
Lemma paint_spans sp u v : (forall p, In p sp -> ~ In 27%N (snd p)) -> uncoloured u v ->
  uncoloured (concat (map (paint true) sp) ++ u) (concat (map (paint false) sp) ++ v).
Proof.
  intros H K. induction sp as [|[o t] sp IH]; [exact K|]. cbn [map concat]. rewrite <- !app_assoc.
  assert (HT : ~ In 27%N t) by (apply (H (o, t)); left; reflexivity). specialize (IH (fun p I => H p (or_intror I))).
  destruct o as [s|]; cbn [paint]; [|apply uc_clean; assumption].
  rewrite <- !app_assoc. cbn [app txt].
  change (uncoloured (27%N :: 91%N :: style_code s ++ 109%N :: (t ++ 27%N :: 91%N :: [48%N] ++ 109%N :: concat (map (paint true) sp) ++ u)) (t ++ concat (map (paint false) sp) ++ v)).
  apply uc_escape; [destruct s; vm_compute; intuition discriminate|]. apply uc_clean; [exact HT|].
  apply uc_escape; [vm_compute; intuition discriminate|exact IH].
Qed.
Lemma indented_clean k t : clean t -> ~ In 27%N (indented k t).
Proof.
  intros H K. unfold indented in K. apply in_app_or in K. destruct K as [K|K]; [apply repeat_spec in K; discriminate|].
  apply in_app_or in K. destruct K as [K|K]; [apply (H 27%N) in K; [exact K|lia]|]. destruct K as [K|[]]. discriminate.
Qed.
Lemma line_no_escape tie p : line_ok p -> ~ In 27%N (line_text false tie p).
Proof.
  destruct p as [k x]. intros HO. pose proof (line_shown tie k x HO) as H. remember (k, x) as q. revert H. generalize (line_text false tie q). intros T H. destruct H as [k' y t H|k' y ts H]; inversion Heqq; subst k' x.
  - apply indented_clean. exact (shown_clean k y t HO H).
  - intros K. apply in_concat in K. destruct K as (t & I & K). apply in_map_iff in I. destruct I as (s & <- & I). revert K. apply indented_clean.
    assert (R : forall rs, Forall (fun r => clean (txt (fst r))) rs -> Forall2 row_shown rs ts -> clean s).
    { clear - I. intros rs F F2. induction F2 as [|r t rs ts (s' & -> & S) _ IH]; [destruct I|]. inversion_clear F as [|? ? F1 F3]. destruct I as [<-|I]; [|apply IH; assumption].
      apply clean_app; [exact F1|eapply clean_time, S]. }
    apply (R (timing_rows y)); [|exact H]. unfold timing_rows. repeat (apply Forall_cons; [apply clean_b; reflexivity|]). apply Forall_nil.
Qed.
Theorem C83_colour : forall tie b t, octets b -> cat_text true tie b = Done t ->
  exists u, cat_text false tie b = Done u /\ uncoloured t u /\ forall v, uncoloured t v -> v = u.
Proof.
  intros tie b t HO E. unfold cat_text in *. destruct (cat_parse b) as [L|] eqn:EP; [|discriminate]. cbn [bind] in *. apply Done_inj in E. subst t.
  eexists. split; [reflexivity|]. pose proof (cat_lines_ok b L HO EP) as H. clear HO EP.
  assert (U : uncoloured (concat (map (line_text true tie) L)) (concat (map (line_text false tie) L))).
  { induction H as [|p L H _ IH]; [constructor|]. cbn [map concat]. pose proof (line_no_escape tie p H) as HN. unfold line_text at 1 3. rewrite <- !app_assoc.
    apply uc_clean; [intros K; apply repeat_spec in K; discriminate|]. apply paint_spans.
    - intros q I K. apply HN. unfold line_text. apply in_or_app. right. apply in_or_app. left. apply in_concat. exists (paint false q). split; [apply in_map, I|].
      destruct q as [[s|] t]; exact K.
    - apply uc_clean; [|exact IH]. intros K. apply HN. unfold line_text. apply in_or_app. right. apply in_or_app. right. exact K. }
  split; [exact U|]. intros v K. eapply uncoloured_fun; eassumption.
Qed.
Print Assumptions C83_colour.

(** ** What two frames with the same text have in common *)
Definition alike (p q : nat * line) : Prop := fst p = fst q /\ same_line (snd p) (snd q).
Lemma alike_heading k h q : alike (k, LHeading h) q -> q = (k, LHeading h).
Proof. intros [H1 H2]. destruct q as [k' y]. cbn [fst snd] in *. subst k'. cbn [same_line] in H2. subst y. reflexivity. Qed.
Lemma alike_heading' k h q : alike q (k, LHeading h) -> q = (k, LHeading h).
Proof. intros [H1 H2]. destruct q as [k' y]. cbn [fst snd] in *. subst k'. destruct y; cbn [same_line] in H2; try discriminate H2; [injection H2 as ->; reflexivity|]. match goal with i : NestedSubId |- _ => destruct i end; discriminate H2. Qed.
Definition not_payload (p : nat * line) : Prop := snd p <> LHeading HPayload.
Lemma ies_no_payload d n L : ies_shown d n L -> Forall not_payload L.
Proof.
  intros (hs & hn & ps & pn & Ps & _ & _ & _ & _ & HP & ->). apply Forall_cons; [discriminate|]. apply Forall_app. split.
  - unfold section. destruct (map header_lines hs) as [|x l] eqn:E; [constructor|]. rewrite <- E. apply Forall_cons; [discriminate|]. apply Forall_concat, Forall_map, Forall_forall. intros e _.
    unfold header_lines. apply Forall_cons; [discriminate|]. destruct (_ || _)%bool; [constructor|]. constructor; [|constructor].
    unfold not_payload. cbn [snd]. destruct (_ =? _)%N; [destruct (_ <=? _)|]; discriminate.
  - unfold section. destruct Ps as [|x l] eqn:E; [constructor|]. rewrite <- E in *. apply Forall_cons; [discriminate|]. apply Forall_concat. clear E. induction HP as [|e P es Ps H _ IH]; [constructor|].
    constructor; [|exact IH]. clear IH. unfold payload_shown in H. destruct (_ =? _)%N; [|subst; constructor; [discriminate|constructor]].
    destruct H as (ns & Ls & _ & H & ->). apply Forall_cons; [discriminate|]. apply Forall_concat. clear - H. induction H as [|e L es Ls H _ IH]; [constructor|]. constructor; [|exact IH].
    destruct H as (L' & -> & H). apply Forall_cons; [discriminate|].
    assert (ONE : forall x, x <> LHeading HPayload -> Forall not_payload [(8, x)]) by (intros x Hx; constructor; [exact Hx|constructor]).
    destruct (bit 15 (desc e)); [subst; apply ONE; destruct (_ =? _)%N; [destruct (_ =? 0)|]; discriminate|].
    destruct (_ =? 0x1a)%N; [subst; apply ONE; destruct (_ <=? _); discriminate|].
    destruct (_ =? 0x1c)%N.
    { destruct H as [[_ ->]|[(_ & _ & ->)|[_ ->]]]; repeat (apply Forall_cons; [discriminate|]); constructor. }
    destruct (_ =? 0x1b)%N; [|subst; apply ONE; discriminate].
    destruct H as [[_ ->]|(_ & ds & _ & _ & ->)]; [apply ONE; discriminate|]. apply Forall_cons; [discriminate|]. apply Forall_concat, Forall_map, Forall_forall. intros s _.
    unfold slotframe_lines. apply Forall_cons; [discriminate|]. apply Forall_map, Forall_forall. intros i _. discriminate.
Qed.
Lemma split_payload I : forall I' p p', Forall not_payload I -> Forall not_payload I' ->
  Forall2 alike (I ++ payload_lines false p) (I' ++ payload_lines false p') -> p = p'.
Proof.
  assert (PL : forall q q', Forall2 alike (payload_lines false q) (payload_lines false q') -> q = q').
  { intros [|x q] [|x' q'] H; cbn [payload_lines] in H; [reflexivity|inversion H|inversion H|]. inversion H as [|? ? ? ? _ H1]; subst. inversion H1 as [|? ? ? ? [_ H2] _]; subst.
    cbn [snd same_line] in H2. injection H2. congruence. }
  induction I as [|x I IH]; intros [|x' I'] p p' N N' H; cbn [app] in H.
  - apply PL, H.
  - exfalso. destruct p as [|c p]; cbn [payload_lines] in H; [inversion H|]. inversion H as [|? ? ? ? H1 _]; subst. apply alike_heading in H1. subst x'. inversion N' as [|? ? K _]; subst. apply K. reflexivity.
  - exfalso. destruct p' as [|c p']; cbn [payload_lines] in H; [inversion H|]. inversion H as [|? ? ? ? H1 _]; subst. apply alike_heading' in H1. subst x. inversion N as [|? ? K _]; subst. apply K. reflexivity.
  - inversion H; subst. inversion N; subst. inversion N'; subst. eapply IH; eassumption.
Qed.
Lemma shown_is_data b f L : octets b -> frame_new b = Done (Ok f) -> f = FData b \/ f = FEnhancedBeacon b -> cat_parse b = Done L ->
  exists r, fc_is b r /\ mhr_size r <= length b /\ frame_shown false r b L.
Proof.
  intros HO HN Hf E. destruct (C62_output_partial b f HO HN Hf) as (r & HF & H & _). exists r. split; [exact HF|]. split; [|apply H, E].
  destruct (C14_dispatch_partial b HO) as [[_ K]|(_ & r' & HF' & HD)]; [congruence|]. rewrite (fc_is_fun _ _ _ HF' HF) in HD.
  destruct (kind_of r) as [[]|]; try congruence.
  - destruct (_ =? 3); rewrite HN in HD; destruct Hf; congruence.
  - rewrite HN in HD. destruct Hf; congruence.
  - destruct HD as [[(_ & K & _) _]|[_ K]]; [apply K|congruence].
  - destruct HD as [[(_ & K & _) _]|[_ K]]; [apply K|congruence].
Qed.
Lemma firstn_app_window (b : list N) n k : firstn (n + k) b = firstn n b ++ window b n k.
Proof. unfold window. revert b. induction n as [|n IH]; intros b; [reflexivity|]. destruct b as [|x b]; [cbn [skipn]; rewrite !firstn_nil; reflexivity|]. cbn [Nat.add firstn skipn app]. rewrite IH. reflexivity. Qed.
Lemma window_pan p (f f' : list N) o : octets f -> octets f' -> o + pan_size p <= length f -> o + pan_size p <= length f' -> pan_at p f o = pan_at p f' o ->
  window f o (pan_size p) = window f' o (pan_size p).
Proof.
  intros HO HO' L L' E. destruct p; cbn [pan_size pan_at] in *; [|reflexivity]. injection E as E.
  assert (W : forall g : list N, o + 2 <= length g -> window g o 2 = [nth o g 0%N; nth (o + 1) g 0%N]).
  { intros g Lg. unfold window. rewrite <- (Nat.add_0_r o) at 2. rewrite <- !nth_skipn. assert (K : 2 <= length (skipn o g)) by (rewrite skipn_length; lia).
    destruct (skipn o g) as [|x [|y l]]; cbn [length] in K; try lia. reflexivity. }
  rewrite !W by assumption.
  assert (B : forall (g : list N) i, octets g -> (nth i g 0 < 256)%N).
  { intros g i H. unfold octets in H. rewrite Forall_forall in H. destruct (Nat.lt_ge_cases i (length g)) as [K|K]; [apply H, nth_In, K|rewrite nth_overflow by exact K; lia]. }
  pose proof (B f o HO). pose proof (B f' o HO'). set (a := nth o f 0%N) in *. set (a' := nth o f' 0%N) in *. set (c := nth (o + 1) f 0%N) in *. set (c' := nth (o + 1) f' 0%N) in *. clearbody a a' c c'.
  assert (a = a' /\ c = c') as [-> ->] by (split; lia). reflexivity.
Qed.
Lemma window_addr m (f f' : list N) o : addr_at m f o = addr_at m f' o -> window f o (addr_size m) = window f' o (addr_size m).
Proof.
  destruct m; cbn [addr_at addr_size]; intros E; try reflexivity; injection E as E; apply (f_equal (@rev N)) in E; rewrite !rev_involutive in E; exact E.
Qed.
Lemma opt_alike {A} (g : A -> line) (o o' : option A) R R' : (forall x y, same_line (g x) (g y) -> x = y) ->
  (match R, R' with p :: _, q :: _ => (forall x, ~ alike (2, g x) q) /\ (forall x, ~ alike p (2, g x)) | _, _ => False end) ->
  Forall2 alike (opt_line g o ++ R) (opt_line g o' ++ R') -> o = o' /\ Forall2 alike R R'.
Proof.
  intros HG HR H. destruct o as [x|], o' as [y|]; cbn [opt_line app] in H.
  - inversion H as [|? ? ? ? [_ K] H1]; subst. apply HG in K. subst. split; [reflexivity|exact H1].
  - exfalso. destruct R as [|p R], R' as [|q R']; try contradiction. inversion H as [|? ? ? ? K H1]; subst. apply HR in K. exact K.
  - exfalso. destruct R as [|p R], R' as [|q R']; try contradiction. inversion H as [|? ? ? ? K H1]; subst. apply HR in K. exact K.
  - split; [reflexivity|exact H].
Qed.
(** two accepted frames (data frames or enhanced beacons) with the same text have the same frame control fields, the same
    octets from the third one to the end of the addressing fields, and the same payload *)
Theorem C83_frames : forall tie b b' f f' t, octets b -> octets b' -> frame_new b = Done (Ok f) -> frame_new b' = Done (Ok f') ->
  f = FData b \/ f = FEnhancedBeacon b -> f' = FData b' \/ f' = FEnhancedBeacon b' ->
  cat_text false tie b = Done t -> cat_text false tie b' = Done t ->
  exists r n m m', fc_is b r /\ fc_is b' r /\
    (addressing_fits r b n /\ addressing_fits r b' n \/ no_addressing r b /\ no_addressing r b' /\ n = 0) /\
    skipn 2 (firstn (mhr_size r + n) b) = skipn 2 (firstn (mhr_size r + n) b') /\
    skipn (mhr_size r + n + m) b = skipn (mhr_size r + n + m') b' /\
    (fr_information_elements_present r = false -> m = 0 /\ m' = 0).
Proof.
  intros tie b b' f f' t HO HO' HN HN' Hf Hf' E E'.
  assert (exists L, cat_parse b = Done L) as (L & EL) by (unfold cat_text in E; destruct (cat_parse b) as [L|]; [exists L; reflexivity|discriminate]).
  assert (exists L, cat_parse b' = Done L) as (L' & EL') by (unfold cat_text in E'; destruct (cat_parse b') as [L'|]; [exists L'; reflexivity|discriminate]).
  rewrite <- E' in E. pose proof (C83_readable tie b b' L L' HO HO' EL EL' E) as H. fold alike in H. change (Forall2 alike L L') in H.
  destruct (shown_is_data b f L HO HN Hf EL) as (r & HF & HM & (n & A & m & I & HA & HI & EQ)).
  destruct (shown_is_data b' f' L' HO' HN' Hf' EL') as (r' & HF' & HM' & (n' & A' & m' & I' & HA' & HI' & EQ')).
  rewrite EQ, EQ' in H. clear E E' EL EL' EQ EQ' HN HN' Hf Hf' L L'.
  assert (NI : Forall not_payload I) by (destruct HI as [[_ K]|(_ & _ & ->)]; [eapply ies_no_payload, K|constructor]).
  assert (NI' : Forall not_payload I') by (destruct HI' as [[_ K]|(_ & _ & ->)]; [eapply ies_no_payload, K|constructor]).
  assert (PR : forall q, fr_information_elements_present q = false -> fr_information_elements_present q <> true) by (intros q ->; discriminate).
  assert (r = r' /\ Forall2 alike (seq_lines r b ++ A ++ I ++ payload_lines false (skipn (mhr_size r + n + m) b)) (seq_lines r' b' ++ A' ++ I' ++ payload_lines false (skipn (mhr_size r' + n' + m') b'))) as [<- H2].
  { unfold SpecCat.fc_lines in H. cbn [map app] in H.
    do 11 (let K := fresh "K" in inversion H as [|? ? ? ? [_ K] H0]; subst; clear H; rename H0 into H; cbn [snd same_line] in K).
    split; [|exact H].
    repeat match goal with K : LFlag _ _ = LFlag _ _ |- _ => apply (f_equal (fun x => match x with LFlag _ v => v | _ => true end)) in K; cbn beta iota in K end.
    repeat match goal with K : LFrameType _ _ = LFrameType _ _ |- _ => apply (f_equal (fun x => match x with LFrameType _ v => v | _ => FtUnknown end)) in K; cbn beta iota in K
      | K : LDstMode _ = LDstMode _ |- _ => apply (f_equal (fun x => match x with LDstMode v => v | _ => AmUnknown end)) in K; cbn beta iota in K
      | K : LSrcMode _ = LSrcMode _ |- _ => apply (f_equal (fun x => match x with LSrcMode v => v | _ => AmUnknown end)) in K; cbn beta iota in K
      | K : LVersion _ = LVersion _ |- _ => apply (f_equal (fun x => match x with LVersion v => v | _ => VUnknown end)) in K; cbn beta iota in K end.
    destruct r as [a1 a2 a3 a4 a5 a6 a7 a8 a9 a10], r' as [c1 c2 c3 c4 c5 c6 c7 c8 c9 c10]. cbn in *. subst. reflexivity. }
  clear H. set (P := skipn (mhr_size r + n + m) b) in *. set (P' := skipn (mhr_size r + n' + m') b') in *.
  assert (skipn 2 (firstn (mhr_size r) b) = skipn 2 (firstn (mhr_size r) b') /\ Forall2 alike (A ++ I ++ payload_lines false P) (A' ++ I' ++ payload_lines false P')) as [HS H3].
  { clear HI HI' HA HA'. unfold mhr_size, seq_lines in *. destruct (fr_sequence_number_suppression r); cbn [app] in H2.
    - split; [|exact H2]. rewrite !skipn_all2; [reflexivity|..]; rewrite firstn_length; lia.
    - inversion H2 as [|? ? ? ? _ H3]; subst. inversion H3 as [|? ? ? ? [_ K] H4]; subst. split; [|exact H4]. cbn [snd same_line] in K. injection K as K.
      destruct b as [|x0 [|x1 [|x2 b]]]; cbn [length] in HM; try lia. destruct b' as [|y0 [|y1 [|y2 b']]]; cbn [length] in HM'; try lia. cbn in K |- *. congruence. }
  clear H2.
  assert (HC : n = n' /\ (addressing_fits r b n /\ addressing_fits r b' n \/ no_addressing r b /\ no_addressing r b' /\ n = 0) /\
    window b (mhr_size r) n = window b' (mhr_size r) n /\ Forall2 alike (I ++ payload_lines false P) (I' ++ payload_lines false P')).
  { destruct HA as [(dp & sp & HL & -> & HB & ->)|(HNA & -> & ->)], HA' as [(dp' & sp' & HL' & -> & HB' & ->)|(HNA' & -> & ->)].
    - destruct (C07_layout_unique _ _ _ _ _ HL HL') as [<- <-]. split; [reflexivity|]. split; [left; split; exists dp, sp; repeat split; try assumption; apply HL|].
      clear HI HI'. set (g := skipn (mhr_size r) b) in *. set (g' := skipn (mhr_size r) b') in *. assert (LG : layout_size r dp sp <= length g) by (subst g; rewrite skipn_length; lia).
      assert (LG' : layout_size r dp sp <= length g') by (subst g'; rewrite skipn_length; lia).
      assert (OG : octets g) by apply octets_skipn, HO. assert (OG' : octets g') by apply octets_skipn, HO'.
      change (window b (mhr_size r) (layout_size r dp sp)) with (firstn (layout_size r dp sp) g). change (window b' (mhr_size r) (layout_size r dp sp)) with (firstn (layout_size r dp sp) g').
      clearbody g g' P P'. unfold addr_lines in H3. cbn zeta in H3. cbn [app] in H3. inversion H3 as [|? ? ? ? _ H4]; subst. clear H3. rewrite <- !app_assoc in H4.
      assert (NA1 : forall x p, ~ alike (2, LDstPan x) (2, LDstAddr (fst p) (snd p))) by (intros x p [_ K]; discriminate).
      apply opt_alike in H4; [|intros x y K; injection K; trivial|cbn [app]; split; intros x [_ K]; discriminate]. destruct H4 as [E1 H4]. cbn [app] in H4.
      inversion H4 as [|? ? ? ? [_ K1] H5]; subst. clear H4. cbn [snd same_line] in K1. injection K1 as E2 _.
      rewrite <- !app_assoc in H5. apply opt_alike in H5; [|intros x y K; injection K; trivial|cbn [app]; split; intros x [_ K]; discriminate]. destruct H5 as [E3 H5]. cbn [app] in H5.
      inversion H5 as [|? ? ? ? [_ K2] H6]; subst. clear H5. cbn [snd same_line] in K2. injection K2 as E4 _.
      split; [|exact H6]. unfold layout_size in *.
      rewrite !firstn_app_window. f_equal; [f_equal; [f_equal|]|].
      + apply (window_pan dp g g' 0); try assumption; lia.
      + apply window_addr, E2.
      + apply window_pan; try assumption; lia.
      + apply window_addr, E4.
    - exfalso. unfold addr_lines in H3. cbn zeta in H3. cbn [app] in H3. destruct HI' as [[_ (hs & hn & ps & pn & Ps & _ & _ & _ & _ & _ & ->)]|(_ & _ & ->)].
      + cbn [app] in H3. inversion H3 as [|? ? ? ? K _]; subst. apply alike_heading in K. discriminate.
      + cbn [app] in H3. destruct P' as [|c P']; cbn [payload_lines] in H3; inversion H3 as [|? ? ? ? K _]; subst. apply alike_heading in K. discriminate.
    - exfalso. unfold addr_lines in H3. cbn zeta in H3. cbn [app] in H3. destruct HI as [[_ (hs & hn & ps & pn & Ps & _ & _ & _ & _ & _ & ->)]|(_ & _ & ->)].
      + cbn [app] in H3. inversion H3 as [|? ? ? ? K _]; subst. apply alike_heading in K. discriminate.
      + cbn [app] in H3. destruct P as [|c P]; cbn [payload_lines] in H3; inversion H3 as [|? ? ? ? K _]; subst. apply alike_heading in K. discriminate.
    - split; [reflexivity|]. split; [right; split; [exact HNA|split; [exact HNA'|reflexivity]]|]. split; [reflexivity|exact H3]. }
  destruct HC as (<- & HC & HW & H4). exists r, n, m, m'. split; [exact HF|]. split; [exact HF'|]. split; [exact HC|]. split; [|split].
  - rewrite !firstn_app_window, !skipn_app, HS, HW. f_equal. f_equal. rewrite !firstn_length. lia.
  - exact (split_payload _ _ _ _ NI NI' H4).
  - intros K. destruct HI as [[K' _]|(_ & -> & _)]; [congruence|]. destruct HI' as [[K' _]|(_ & -> & _)]; [congruence|]. split; reflexivity.
Qed.
Print Assumptions C83_frames.
(** without information elements: the same octets, but for the first two, which agree in every field *)
Theorem C83_same_octets : forall tie b b' f f' t r, octets b -> octets b' -> frame_new b = Done (Ok f) -> frame_new b' = Done (Ok f') ->
  f = FData b \/ f = FEnhancedBeacon b -> f' = FData b' \/ f' = FEnhancedBeacon b' ->
  cat_text false tie b = Done t -> cat_text false tie b' = Done t -> fc_is b r -> fr_information_elements_present r = false ->
  fc_is b' r /\ skipn 2 b = skipn 2 b'.
Proof.
  intros tie b b' f f' t r HO HO' HN HN' Hf Hf' E E' HF HI.
  destruct (C83_frames tie b b' f f' t HO HO' HN HN' Hf Hf' E E') as (r1 & n & m & m' & H1 & H2 & _ & H4 & H5 & H6).
  rewrite (fc_is_fun _ _ _ H1 HF) in *. destruct (H6 HI) as [-> ->]. rewrite !Nat.add_0_r in H5. split; [exact H2|].
  rewrite <- (firstn_skipn (mhr_size r + n) b), <- (firstn_skipn (mhr_size r + n) b'), !skipn_app, H4, H5.
  assert (K : length (firstn (mhr_size r + n) b) = length (firstn (mhr_size r + n) b')).
  { apply (f_equal (@length N)) in H4. rewrite !skipn_length in H4.
    destruct HF as (x & y & l & -> & _). destruct H2 as (x' & y' & l' & -> & _). assert (2 <= mhr_size r + n) by (unfold mhr_size; destruct (fr_sequence_number_suppression r); lia).
    rewrite !firstn_length in *. cbn [length] in *. lia. }
  rewrite K. reflexivity.
Qed.
Print Assumptions C83_same_octets.

(** ** Examples *)
Local Open Scope string_scope.
Local Open Scope list_scope.
Example C83_data_ex : cat_text false (fun _ => false) data_sample = Done (txt
"Frame Control
  frame type: Data
  security: 0
  frame pending: 0
  ack request: 0
  pan id compression: 1
  sequence number suppression: 0
  information elements present: 0
  dst addressing mode: Short
  src addressing mode: Extended
  frame version: 1 (Ieee802154_2006)
Sequence Number
  sequence number: 1
Addressing
  dst pan id: abcd
  dst addr: ff:ff (broadcast)
  src addr: 00:12:4b:00:14:b5:d9:c7
Payload
  [2b, 0, 0, 0]
").
Proof. vm_compute. reflexivity. Qed.
Example C83_rich_ex : cat_text false (fun _ => false) cat_rich = Done (txt
"Frame Control
  frame type: Data
  security: 0
  frame pending: 0
  ack request: 1
  pan id compression: 0
  sequence number suppression: 0
  information elements present: 1
  dst addressing mode: Short
  src addressing mode: Absent
  frame version: 2 (Ieee802154_2020)
Sequence Number
  sequence number: 7
Addressing
  dst pan id: abcd
  dst addr: 07:08
  src addr: absent
Information Elements
  Header Information Elements
    TimeCorrection
      0.00ms, nack: 1
    HeaderTermination1
  Payload Information Elements
    MLME
      TschSynchronization
        ASN: 1, join metric: 9
      TschTimeslot
        slot ID: 0
      TschSlotframeAndLink
        #slotframes: 1
        Slotframe Handle: 3, #links: 1
          Timeslot: 1, Channel Offset: 2, Link Options: Tx | Rx | Shared | TimeKeeping
      ChannelHopping
        sequence ID: 5
Payload
  [ee]
").
Proof. vm_compute. reflexivity. Qed.
Example C83_colour_ex : exists r, cat_text true (fun _ => false) data_sample = Done (
  [27%N] ++ txt "[1;4mFrame Control" ++ [27%N] ++ txt "[0m" ++ [10%N] ++
  txt "  " ++ [27%N] ++ txt "[1mframe type" ++ [27%N] ++ txt "[0m: " ++ [27%N] ++ txt "[94mData" ++ [27%N] ++ txt "[0m" ++ [10%N] ++ r).
Proof. eexists. vm_compute. reflexivity. Qed.
(** times are rounded, so two different time corrections may read the same *)
Definition rich_at (x : N) : list N := firstn 9 cat_rich ++ [x] ++ skipn 10 cat_rich.
Example C83_rounded_ex : rich_at 7 <> rich_at 8 /\ frame_new (rich_at 7) = Done (Ok (FData (rich_at 7))) /\ frame_new (rich_at 8) = Done (Ok (FData (rich_at 8))) /\
  cat_text false (fun _ => false) (rich_at 7) = cat_text false (fun _ => false) (rich_at 8) /\
  cat_text false (fun _ => false) (rich_at 7) <> cat_text false (fun _ => false) (rich_at 18).
Proof. vm_compute. repeat split; discriminate. Qed.
(** the reserved bit of the frame control field is not shown: two frames, one text *)
Definition data_reserved : list N := match data_sample with x :: l => N.setbit x 7 :: l | [] => [] end.
Example C83_same_ex : data_sample <> data_reserved /\ frame_new data_sample = Done (Ok (FData data_sample)) /\
  frame_new data_reserved = Done (Ok (FData data_reserved)) /\
  cat_text false (fun _ => false) data_sample = cat_text false (fun _ => false) data_reserved.
Proof. vm_compute. repeat split; discriminate. Qed.
