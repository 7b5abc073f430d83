(** PropDisplay.v -- C81: what the Display implementations show; C82: durations and instants. *)
From Coq Require Import String Ascii.
From Verif Require Import Base BaseProofs Spec BitProofs FrameControl FrameControlProofs SpecFrame Addressing AddressingProofs AddressingProofs2
  AddressText SpecAddressText AddressTextProofs Macro Ie SpecIe IeProofs IeContent IeContentProofs SlotframeProofs PropIe PropAddressing SpecIeContent SpecCat CatProofs Display SpecDisplay DisplayProofs.

(** ** C82: durations *)
(** the text shows the time in milliseconds, rounded to a hundredth *)
Definition C82_statement : Prop := forall tie us, (- 2 ^ 63 <= us < 2 ^ 63)%Z ->
  exists h, shows_ms (us_display tie us) (us <? 0)%Z h /\ (Z.abs (10 * Z.of_N h - Z.abs us) <= 5)%Z.

Lemma shows_ms_fun t neg neg' h h' : shows_ms t neg h -> shows_ms t neg' h' -> neg = neg' /\ h = h'.
Proof.
  intros (i & c1 & c2 & u & d1 & d2 & E & HN & H1 & H2 & L1 & L2 & ->) (i' & c1' & c2' & u' & d1' & d2' & E' & HN' & H1' & H2' & L1' & L2' & ->).
  assert (NE : neg = neg').
  { pose proof (numeral_nonempty _ _ _ HN). pose proof (numeral_nonempty _ _ _ HN').
    pose proof (numeral_free _ _ _ 45 HN ltac:(lia)) as F. pose proof (numeral_free _ _ _ 45 HN' ltac:(lia)) as F'.
    destruct neg, neg'; try reflexivity; exfalso; subst t; cbn [txt app] in E'.
    - destruct i' as [|x i']; [contradiction|]. cbn [app] in E'. injection E' as <- _. apply F'. left. reflexivity.
    - destruct i as [|x i]; [contradiction|]. cbn [app] in E'. injection E' as -> _. apply F. left. reflexivity. }
  subst neg'. split; [reflexivity|]. subst t. apply app_inv_head in E'.
  change (i ++ 46%N :: c1 :: c2 :: txt "ms" = i' ++ 46%N :: c1' :: c2' :: txt "ms") in E'.
  apply cut_at_char in E'; [|apply (numeral_free _ _ _ _ HN); lia|apply (numeral_free _ _ _ _ HN'); lia].
  destruct E' as [-> E']. injection E' as -> ->. rewrite (numeral_fun _ _ _ HN _ HN'), (low_digit_fun _ _ _ H1 H1'), (low_digit_fun _ _ _ H2 H2'). reflexivity.
Qed.

(** false beyond the 24 significant bits of an f32: 8589935092 us (2 h 23 min) are shown as 8589935.00ms, whatever the
    formatter does with ties *)
Theorem C82_refuted : ~ C82_statement.
Proof.
  intros H. destruct (H (fun _ => true) 8589935092%Z ltac:(lia)) as (h & S & C).
  pose proof (fmt_2_shows (fun _ => true) (f32_round (fst (f32_round 8589935092 1)) (snd (f32_round 8589935092 1) * 1000))) as S'.
  specialize (S' ltac:(vm_compute; reflexivity)). fold (us_display (fun _ => true) 8589935092) in S'.
  destruct (shows_ms_fun _ _ _ _ _ S S') as [_ ->]. vm_compute in C. apply C. reflexivity.
Qed.
Print Assumptions C82_refuted.
(** true up to 2^24 us (16.7 s), which covers every duration that can be decoded from a frame *)
Theorem C82_shown_partial : forall tie us, (- 2 ^ 24 <= us <= 2 ^ 24)%Z ->
  exists h, shows_ms (us_display tie us) (us <? 0)%Z h /\ (Z.abs (10 * Z.of_N h - Z.abs us) <= 5)%Z.
Proof. intros tie us H. apply us_display_close. lia. Qed.
Print Assumptions C82_shown_partial.
(** the text shows one number only *)
Theorem C82_readable : forall t neg neg' h h', shows_ms t neg h -> shows_ms t neg' h' -> neg = neg' /\ h = h'.
Proof. exact shows_ms_fun. Qed.
Print Assumptions C82_readable.
Example C82_ex : us_display Z.odd 100 = txt "0.10ms" /\ us_display Z.odd (-2048) = txt "-2.05ms" /\ us_display Z.odd 10000 = txt "10.00ms".
Proof. repeat split. Qed.

(** ** C81 *)
(** *** frame control *)
Lemma names_type a b : FrameType_name a = FrameType_name b -> a = b.
Proof. destruct a, b; reflexivity || discriminate. Qed.
Lemma names_version a b : FrameVersion_name a = FrameVersion_name b -> a = b.
Proof. destruct a, b; reflexivity || discriminate. Qed.
Lemma names_mode a b : AddressingMode_name a = AddressingMode_name b -> a = b.
Proof. destruct a, b; reflexivity || discriminate. Qed.
Lemma txt_inj a : forall b, txt a = txt b -> a = b.
Proof.
  induction a as [|x a IH]; intros [|y b] E; try discriminate; [reflexivity|]. cbn [txt] in E. injection E as E1 E2.
  rewrite (IH _ E2). f_equal. rewrite <- (ascii_N_embedding x), E1. apply ascii_N_embedding.
Qed.
Lemma dec_bool_inj a b : dec_bool a = dec_bool b -> a = b.
Proof. destruct a, b; reflexivity || discriminate. Qed.

Lemma Done_inj {A} (x y : A) : Done x = Done y -> x = y.
Proof. intros E. injection E. trivial. Qed.
(** reading the lines back *)
Lemma lines_cons p l : lines (p :: l) = txt (fst p) ++ snd p ++ 10%N :: lines l.
Proof. unfold lines. cbn [map concat]. rewrite <- !app_assoc. reflexivity. Qed.
Definition no_nl (t : list N) : Prop := ~ In 10%N t.
Lemma no_nl_app a b : no_nl a -> no_nl b -> no_nl (a ++ b).
Proof. intros H K I. apply in_app_or in I. destruct I; contradiction. Qed.
Lemma no_nl_b t : forallb (fun c => negb (c =? 10)%N) t = true -> no_nl t.
Proof. intros H K. rewrite forallb_forall in H. apply H in K. discriminate. Qed.
Lemma lines_head label v v' r r' : no_nl (txt label) -> no_nl v -> no_nl v' ->
  lines ((label, v) :: r) = lines ((label, v') :: r') -> v = v' /\ lines r = lines r'.
Proof.
  intros H1 H2 H3 E. rewrite !lines_cons in E. cbn [fst snd] in E. apply app_inv_head in E.
  apply cut_at_char in E; assumption.
Qed.
Lemma no_nl_dec n : no_nl (dec n).
Proof. apply (numeral_free 10 (dec n) n 10 (dec_numeral n)). lia. Qed.
Lemma no_nl_hex n : no_nl (hex n).
Proof. apply (numeral_free 16 (hex n) n 10 (hex_numeral n)). lia. Qed.

Definition fc_lines (r : FrameControlRepr) : list (string * list N) :=
  [("Frame Control", []);
   ("  type: ", txt (FrameType_name (fr_frame_type r)));
   ("  security enabled: ", dec_bool (fr_security_enabled r));
   ("  frame pending: ", dec_bool (fr_frame_pending r));
   ("  ack request: ", dec_bool (fr_ack_request r));
   ("  pan id compression: ", dec_bool (fr_pan_id_compression r));
   ("  sequence number suppression: ", dec_bool (fr_sequence_number_suppression r));
   ("  information elements present: ", dec_bool (fr_information_elements_present r));
   ("  dst addressing mode: ", txt (AddressingMode_name (fr_dst_addressing_mode r)));
   ("  src addressing mode: ", txt (AddressingMode_name (fr_src_addressing_mode r)));
   ("  frame version: ", txt (FrameVersion_name (fr_frame_version r)))]%string.
(** every field of an accepted frame control is shown, under its name *)
Theorem C81_frame_control_text : forall b r, fc_is b r -> fc_display b = Done (lines (fc_lines r)).
Proof.
  intros b r H. unfold fc_display. destruct (fc_is_getters b r H) as (h1 & h2 & h3 & h4 & h5 & h6 & h7 & h8 & h9 & h10).
  rewrite ?h1, ?h2, ?h3, ?h4, ?h5, ?h6, ?h7, ?h8, ?h9, ?h10. cbn [bind]. unfold fc_lines. rewrite !lines_cons. cbn [fst snd]. reflexivity.
Qed.
Print Assumptions C81_frame_control_text.
(** so the text determines the fields *)
Theorem C81_frame_control : forall b r b' r', fc_is b r -> fc_is b' r' ->
  fc_display b <> Panic /\ (fc_display b = fc_display b' <-> r = r').
Proof.
  intros b r b' r' H H'. rewrite (C81_frame_control_text _ _ H), (C81_frame_control_text _ _ H'). split; [discriminate|]. split; [|intros ->; reflexivity].
  intros E. apply Done_inj in E. unfold fc_lines in E.
  assert (NB : forall x, no_nl (dec_bool x)) by (intros []; apply no_nl_b; reflexivity).
  assert (NT : forall x, no_nl (txt (FrameType_name x))) by (intros []; apply no_nl_b; reflexivity).
  assert (NM : forall x, no_nl (txt (AddressingMode_name x))) by (intros []; apply no_nl_b; reflexivity).
  assert (NV : forall x, no_nl (txt (FrameVersion_name x))) by (intros []; apply no_nl_b; reflexivity).
  destruct r as [a1 a2 a3 a4 a5 a6 a7 a8 a9 a10], r' as [b1 b2 b3 b4 b5 b6 b7 b8 b9 b10]. cbn [fr_frame_type fr_security_enabled fr_frame_pending fr_ack_request
    fr_pan_id_compression fr_sequence_number_suppression fr_information_elements_present fr_dst_addressing_mode fr_src_addressing_mode fr_frame_version] in E.
  assert (NL : forall s, forallb (fun c => negb (c =? 10)%N) (txt s) = true -> no_nl (txt s)) by (intros s K; apply no_nl_b, K).
  apply lines_head in E; [|apply NL; reflexivity|intros []|intros []]. destruct E as [_ E].
  apply lines_head in E; [|apply NL; reflexivity|apply NT|apply NT]. destruct E as [E1 E].
  do 6 (apply lines_head in E; [|apply NL; reflexivity|apply NB|apply NB]; let K := fresh "K" in destruct E as [K E]; apply dec_bool_inj in K).
  apply lines_head in E; [|apply NL; reflexivity|apply NM|apply NM]. destruct E as [E8 E].
  apply lines_head in E; [|apply NL; reflexivity|apply NM|apply NM]. destruct E as [E9 E].
  apply lines_head in E; [|apply NL; reflexivity|apply NV|apply NV]. destruct E as [E10 _].
  apply txt_inj, names_type in E1. apply txt_inj, names_mode in E8. apply txt_inj, names_mode in E9. apply txt_inj, names_version in E10. subst. reflexivity.
Qed.
Print Assumptions C81_frame_control.

(** *** addressing fields *)
Lemma address_display_inj a a' : address_wf a -> address_wf a' -> address_display a = address_display a' -> a = a'.
Proof.
  intros H H' E. destruct (is_absent a) eqn:EA, (is_absent a') eqn:EA'; destruct a, a'; try discriminate; try reflexivity;
    try (pose proof (c06_roundtrip _ H ltac:(discriminate)) as R; rewrite E in R;
         first [rewrite (c06_roundtrip _ H' ltac:(discriminate)) in R; injection R; congruence | vm_compute in R; discriminate]);
    try (pose proof (c06_roundtrip _ H' ltac:(discriminate)) as R; rewrite <- E in R; vm_compute in R; discriminate).
Qed.
Lemma address_no_nl a : address_wf a -> no_nl (address_display a).
Proof.
  assert (J : forall l, octets l -> no_nl (join_colon (map fmt_02x l))).
  { assert (F : forall v, octet v -> no_nl (fmt_02x v)).
    { intros v Hv. unfold fmt_02x. assert (D : forall d, (d < 16)%N -> hex_char d <> 10%N) by (intros d Hd; pose proof (low_digit_range _ _ (hex_char_low d Hd)); lia).
      unfold octet in Hv. pose proof (N.mod_lt v 16 ltac:(lia)). assert (v / 16 < 16)%N by (apply N.div_lt_upper_bound; lia).
      intros [K|[K|[]]]; [apply (D (v / 16)%N)|apply (D (v mod 16)%N)]; assumption. }
    induction l as [|x [|y l] IH]; intros H; inversion_clear H as [|? ? Hx Hl]; [intros []|apply F, Hx|].
    cbn [map join_colon]. apply no_nl_app; [apply F, Hx|]. intros [K|K]; [discriminate|]. revert K. apply IH, Hl. }
  destruct a as [|v|v]; cbn [address_wf address_display]; intros H.
  - apply no_nl_b. reflexivity.
  - apply J. tauto.
  - apply J. tauto.
Qed.
Definition opt_l (label : string) (o : option (list N)) : list (string * list N) := match o with Some v => [(label, v)] | None => [] end.
Definition starts (label : string) (t : list N) : Prop := exists s, t = txt label ++ s.
Lemma opt_step label o o' r r' : no_nl (txt label) -> (forall v, o = Some v -> no_nl v) -> (forall v, o' = Some v -> no_nl v) ->
  ~ starts label (lines r) -> ~ starts label (lines r') -> lines (opt_l label o ++ r) = lines (opt_l label o' ++ r') -> o = o' /\ lines r = lines r'.
Proof.
  intros HL Ho Ho' HS HS' E. destruct o as [v|], o' as [v'|]; cbn [opt_l app] in E.
  - apply lines_head in E; [|exact HL|apply Ho; reflexivity|apply Ho'; reflexivity]. destruct E as [-> ->]. split; reflexivity.
  - exfalso. apply HS'. rewrite <- E, lines_cons. eexists. reflexivity.
  - exfalso. apply HS. rewrite E, lines_cons. eexists. reflexivity.
  - split; [reflexivity|exact E].
Qed.
Lemma starts_not label l : match l with [] => txt label <> [] | (label', _) :: _ =>
    exists n, n < length (txt label) /\ n < length (txt label') /\ nth n (txt label) 0%N <> nth n (txt label') 0%N end -> ~ starts label (lines l).
Proof.
  destruct l as [|[l' v] l]; intros H (s & E).
  - cbn in E. symmetry in E. apply app_eq_nil in E. destruct E. contradiction.
  - destruct H as (n & H1 & H2 & HN). rewrite lines_cons in E. cbn [fst] in E. apply HN.
    rewrite <- (app_nth1 (txt label) s 0%N H1), <- E, app_nth1 by exact H2. reflexivity.
Qed.
Definition af_lines (r : AddressingFieldsRepr) : list (string * list N) :=
  ("Addressing Fields"%string, []) ::
  opt_l "  dst pan id: " (option_map hex (ar_dst_pan_id r)) ++ opt_l "  dst address: " (option_map address_display (ar_dst_address r)) ++
  opt_l "  src pan id: " (option_map hex (ar_src_pan_id r)) ++ opt_l "  src address: " (option_map address_display (ar_src_address r)) ++ [].
Lemma lines_app a b : lines (a ++ b) = lines a ++ lines b.
Proof. unfold lines. rewrite map_app, concat_app. reflexivity. Qed.
Lemma af_display_lines af r : afr_parse af = Done r -> af_display af = Done (lines (af_lines r)).
Proof.
  unfold afr_parse, af_display. destruct (af_dst_pan_id af) as [dp|]; [|discriminate]. cbn [bind]. destruct (af_dst_address af) as [da|]; [|discriminate]. cbn [bind].
  destruct (af_src_pan_id af) as [sp|]; [|discriminate]. cbn [bind]. destruct (af_src_address af) as [sa|]; [|discriminate]. cbn [bind].
  intros E. injection E as <-. f_equal. unfold af_lines. rewrite lines_cons. cbn [fst snd ar_dst_pan_id ar_dst_address ar_src_pan_id ar_src_address]. rewrite !lines_app.
  assert (O : forall A label (f : A -> list N) o, opt_line label f o = lines (opt_l label (option_map f o))).
  { intros A label f [x|]; [|reflexivity]. unfold lines. cbn [opt_line option_map opt_l map concat fst snd]. rewrite app_nil_r. reflexivity. }
  rewrite !O. change (lines []) with (@nil N). rewrite app_nil_r. reflexivity.
Qed.
Definition repr_wf (r : AddressingFieldsRepr) : Prop :=
  (forall a, ar_dst_address r = Some a -> address_wf a) /\ (forall a, ar_src_address r = Some a -> address_wf a).
Lemma read_address_wf b m o x : octets b -> af_read_address b m o = Done (Some x) -> address_wf x.
Proof.
  intros HO. destruct m; cbn [af_read_address]; intros E.
  - injection E as <-. exact I.
  - unfold slice in E. destruct (_ && _)%bool eqn:EB; [|discriminate]. cbn [bind] in E. injection E as <-. cbn [address_wf]. rewrite rev_length. split.
    + rewrite firstn_length, skipn_length. apply andb_prop in EB. destruct EB as [E1 E2]. rewrite Nat.leb_le in *. lia.
    + apply Forall_rev, octets_firstn, octets_skipn, HO.
  - unfold slice in E. destruct (_ && _)%bool eqn:EB; [|discriminate]. cbn [bind] in E. injection E as <-. cbn [address_wf]. rewrite rev_length. split.
    + rewrite firstn_length, skipn_length. apply andb_prop in EB. destruct EB as [E1 E2]. rewrite Nat.leb_le in *. lia.
    + apply Forall_rev, octets_firstn, octets_skipn, HO.
  - discriminate.
Qed.
Lemma parse_wf af r : octets (af_buffer af) -> afr_parse af = Done r -> repr_wf r.
Proof.
  intros HO. unfold afr_parse. destruct (af_dst_pan_id af) as [dp|]; [|discriminate]. cbn [bind]. destruct (af_dst_address af) as [da|] eqn:ED; [|discriminate]. cbn [bind].
  destruct (af_src_pan_id af) as [sp|]; [|discriminate]. cbn [bind]. destruct (af_src_address af) as [sa|] eqn:ES; [|discriminate]. cbn [bind].
  intros E. injection E as <-. split; cbn [ar_dst_address ar_src_address]; intros a ->.
  - unfold af_dst_address in ED. destruct (af_flags af) as [[[[[dp' dm] sp'] sm]|]|]; try discriminate. eapply read_address_wf; eassumption.
  - unfold af_src_address in ES. destruct (af_flags af) as [[[[[dp' dm] sp'] sm]|]|]; try discriminate. eapply read_address_wf; eassumption.
Qed.
(** the fields that are present, in this order, under their names: PAN identifiers in hexadecimal, addresses as in C06 *)
Theorem C81_addressing_text : forall fc b af, octets fc -> 2 <= length fc -> af_new b fc = Done (Ok af) ->
  exists r l1 l2 l3 l4, afr_parse af = Done r /\ af_display af = Done (lines (("Addressing Fields"%string, []) :: l1 ++ l2 ++ l3 ++ l4)) /\
    line_if "  dst pan id: " (ar_dst_pan_id r) (fun p t => numeral 16 t p) l1 /\
    line_if "  dst address: " (ar_dst_address r) (fun a t => t = address_display a) l2 /\
    line_if "  src pan id: " (ar_src_pan_id r) (fun p t => numeral 16 t p) l3 /\
    line_if "  src address: " (ar_src_address r) (fun a t => t = address_display a) l4.
Proof.
  intros fc b af HF HL HN. destruct (C08_getters_no_panic fc b HF HL) as [_ H]. specialize (H af HN).
  destruct (afr_parse af) as [r|] eqn:E; [|contradiction]. exists r. do 4 eexists. split; [reflexivity|]. split.
  { rewrite (af_display_lines _ _ E). unfold af_lines. rewrite app_nil_r. reflexivity. }
  split; [|split; [|split]].
  - destruct (ar_dst_pan_id r); [|reflexivity]. eexists. split; [reflexivity|apply hex_numeral].
  - destruct (ar_dst_address r); [|reflexivity]. eexists. split; reflexivity.
  - destruct (ar_src_pan_id r); [|reflexivity]. eexists. split; [reflexivity|apply hex_numeral].
  - destruct (ar_src_address r); [|reflexivity]. eexists. split; reflexivity.
Qed.
Print Assumptions C81_addressing_text.
Lemma option_map_inj {A B} (f : A -> B) o o' : (forall x y, o = Some x -> o' = Some y -> f x = f y -> x = y) -> option_map f o = option_map f o' -> o = o'.
Proof. intros H E. destruct o as [x|], o' as [y|]; try discriminate; [|reflexivity]. cbn in E. injection E as E. f_equal. apply H; [reflexivity|reflexivity|exact E]. Qed.
Ltac not_starts := apply starts_not; unfold opt_l, option_map; repeat match goal with |- context [match ?o with Some _ => _ | None => _ end] => destruct o end;
  cbn [app]; first [discriminate | exists 6; repeat split; [cbn; lia|cbn; lia|vm_compute; discriminate]
                   | exists 2; repeat split; [cbn; lia|cbn; lia|vm_compute; discriminate]].
(** so the text determines them *)
Theorem C81_addressing : forall af r af' r', octets (af_buffer af) -> octets (af_buffer af') -> afr_parse af = Done r -> afr_parse af' = Done r' ->
  (af_display af = af_display af' <-> r = r').
Proof.
  intros af r af' r' HO HO' E E'. rewrite (af_display_lines _ _ E), (af_display_lines _ _ E'). split; [|intros ->; reflexivity].
  intros K. apply Done_inj in K. destruct (parse_wf _ _ HO E) as [W1 W2]. destruct (parse_wf _ _ HO' E') as [W1' W2'].
  unfold af_lines in K. apply lines_head in K; [|apply no_nl_b; reflexivity|intros []|intros []]. destruct K as [_ K].
  assert (NH : forall o v, option_map hex o = Some v -> no_nl v) by (intros [x|] v Hv; [injection Hv as <-; apply no_nl_hex|discriminate]).
  assert (NA : forall o, (forall a, o = Some a -> address_wf a) -> forall v, option_map address_display o = Some v -> no_nl v)
    by (intros [x|] HW v Hv; [injection Hv as <-; apply address_no_nl, HW; reflexivity|discriminate]).
  apply opt_step in K; [|apply no_nl_b; reflexivity|apply NH|apply NH|not_starts|not_starts]. destruct K as [K1 K].
  apply opt_step in K; [|apply no_nl_b; reflexivity|apply NA, W1|apply NA, W1'|not_starts|not_starts]. destruct K as [K2 K].
  apply opt_step in K; [|apply no_nl_b; reflexivity|apply NH|apply NH|not_starts|not_starts]. destruct K as [K3 K].
  apply opt_step in K; [|apply no_nl_b; reflexivity|apply NA, W2|apply NA, W2'|not_starts|not_starts]. destruct K as [K4 _].
  apply option_map_inj in K1; [|intros x y _ _; apply hex_inj]. apply option_map_inj in K3; [|intros x y _ _; apply hex_inj].
  apply option_map_inj in K2; [|intros x y Hx Hy; apply address_display_inj; [apply W1, Hx|apply W1', Hy]].
  apply option_map_inj in K4; [|intros x y Hx Hy; apply address_display_inj; [apply W2, Hx|apply W2', Hy]].
  destruct r, r'. cbn in *. subst. reflexivity.
Qed.
Print Assumptions C81_addressing.

(** *** information elements *)
Lemma ids_header v : In (HeaderElementId_from v) (HeUnknown :: header_ids).
Proof.
  unfold HeaderElementId_from. destruct (mem v header_ids) eqn:E; [|left; reflexivity]. right. unfold mem in E. apply existsb_exists in E.
  destruct E as (x & Hx & Ex). apply N.eqb_eq in Ex. subst x. exact Hx.
Qed.
Lemma names_inj names other ids :
  forallb (fun a => forallb (fun b => if String.eqb (name_in names other a) (name_in names other b) then (a =? b)%N else true) ids) ids = true ->
  forall a b, In a ids -> In b ids -> name_in names other a = name_in names other b -> a = b.
Proof.
  intros H a b Ha Hb E. rewrite forallb_forall in H. specialize (H a Ha). rewrite forallb_forall in H. specialize (H b Hb).
  rewrite E, String.eqb_refl in H. apply N.eqb_eq, H.
Qed.
Lemma header_name_inj a b : In a (HeUnknown :: header_ids) -> In b (HeUnknown :: header_ids) -> header_name a = header_name b -> a = b.
Proof. intros Ha Hb E. apply txt_inj in E. revert Ha Hb E. apply names_inj. vm_compute. reflexivity. Qed.
Lemma header_name_plain c a : In a (HeUnknown :: header_ids) -> c = 40%N \/ c = 32%N -> ~ In c (header_name a).
Proof.
  intros Ha Hc. assert (F : forallb (fun a => forallb (fun x => negb (x =? 40)%N && negb (x =? 32)%N) (header_name a)) (HeUnknown :: header_ids) = true) by (vm_compute; reflexivity).
  rewrite forallb_forall in F. specialize (F a Ha). rewrite forallb_forall in F. intros K. apply F in K. destruct Hc as [-> | ->]; discriminate.
Qed.
(** how an octet slice is shown *)
Definition shown_raw (name : list N) (c t : list N) : Prop := exists s, t = name ++ txt "(" ++ s ++ txt ")" /\ shown_slice 16 s c.
(** the text of a header element, by its id and content *)
Theorem C81_header_text : forall tie e id c, hie_element_id e = Done id -> hie_content e = Done c ->
  exists t, hie_display tie e = Done t /\
  (id = 0x7e%N -> t = txt "HeaderTermination1") /\ (id = 0x7f%N -> t = txt "HeaderTermination2") /\
  (id = 0x23%N -> length c < 4 -> t = txt "SimplifiedSuperframeSpecification Err(Error)") /\
  (id = 0x23%N -> 4 <= length c -> exists s, shown_slice 10 s c /\
     t = txt "SimplifiedSuperframeSpecification Ok(SimplifiedSuperframeSpecification { buffer: " ++ s ++ txt " })") /\
  (id = 0x1e%N -> 2 <= length c -> exists us nack s h, tc_time_correction c = Done us /\ tc_nack c = Done nack /\
     t = txt "Time Correction " ++ s ++ txt ", nack: " ++ txt (if nack then "1" else "0") /\
     shows_ms s (us <? 0)%Z h /\ (Z.abs (10 * Z.of_N h - Z.abs us) <= 5)%Z) /\
  (id = 0x1e%N -> length c < 2 -> shown_raw (txt "TimeCorrection") c t) /\
  (~ In id [0x7e; 0x7f; 0x23; 0x1e]%N -> shown_raw (header_name id) c t).
Proof.
  intros tie e id c EI EC. unfold hie_display. rewrite EI, EC. cbn [bind]. unfold HeTermination1, HeTermination2, HeSimplifiedSuperframe, HeTimeCorrection.
  assert (RAW : forall n x, shown_raw n x (n ++ txt "(" ++ dbg_slice_hex x ++ txt ")")) by (intros n x; eexists; split; [reflexivity|apply (slice_shown 16 hex hex_numeral)]).
  destruct (N.eqb_spec id 0x7e) as [->|N1]; [eexists; split; [reflexivity|]; cbn [orb]; repeat split; try discriminate; intros K; exfalso; apply K; cbn; tauto|].
  destruct (N.eqb_spec id 0x7f) as [->|N2]; [eexists; split; [reflexivity|]; cbn [orb]; repeat split; try discriminate; intros K; exfalso; apply K; cbn; tauto|].
  cbn [orb]. destruct (N.eqb_spec id 0x23) as [->|N3].
  { eexists. split; [reflexivity|]. split; [discriminate|]. split; [discriminate|]. unfold rec_new. change (rec_size SimplifiedSuperframeSpecification) with 4.
    split; [intros _ L; destruct (Nat.leb_spec 4 (length c)); [lia|reflexivity]|].
    split; [intros _ L; destruct (Nat.leb_spec 4 (length c)); [|lia]; exists (dbg_slice c); split; [apply (slice_shown 10 dec dec_numeral)|reflexivity]|].
    split; [discriminate|]. split; [discriminate|]. intros K. exfalso. apply K. cbn. tauto. }
  destruct (N.eqb_spec id 0x1e) as [->|N4].
  { unfold tc_new. destruct (Nat.leb_spec 2 (length c)) as [L|L].
    - assert (TC : exists us n, tc_time_correction c = Done us /\ tc_nack c = Done n /\ (-2048 <= us <= 2047)%Z).
      { unfold tc_time_correction, tc_nack. rewrite ie_raw_ok by exact L. cbn [bind]. do 2 eexists. split; [reflexivity|]. split; [reflexivity|].
        set (x := N.land _ _). assert (Hx : (x < 4096)%N) by (unfold x; change 4095%N with (N.ones 12); rewrite N.land_ones; apply N.mod_lt; discriminate).
        clearbody x. rewrite Z.shiftr_div_pow2 by lia. unfold as_i16. change (2 ^ 4)%Z with 16%Z.
        set (y := Z.of_N _). clearbody y. pose proof (Z.mod_pos_bound (y + 32768) 65536 ltac:(lia)) as B. split.
        - apply Z.div_le_lower_bound; lia.
        - assert (((y + 32768) mod 65536 - 32768) / 16 < 2048)%Z by (apply Z.div_lt_upper_bound; lia). lia. }
      destruct TC as (us & n & E1 & E2 & B). unfold tc_display. rewrite E1, E2. cbn [bind].
      destruct (us_display_close tie us ltac:(lia)) as (h & S & C). eexists. split; [reflexivity|].
      repeat (split; [discriminate|]). split.
      { intros _ _. exists us, n, (us_display tie us), h. repeat (split; [reflexivity|]). split; [destruct n; reflexivity|]. split; assumption. }
      split; [lia|]. intros K. exfalso. apply K. cbn. tauto.
    - eexists. split; [reflexivity|]. repeat (split; [discriminate || lia|]). split; [|intros K; exfalso; apply K; cbn; tauto].
      intros _ _. apply RAW. }
  eexists. split; [reflexivity|]. repeat (split; [intros K; exfalso; congruence|]). intros _. apply RAW.
Qed.
Print Assumptions C81_header_text.
(** the absent address has a text of its own *)
Theorem C81_absent : address_display AAbsent = txt "absent".
Proof. reflexivity. Qed.

Lemma raw_inj n n' c c' t : ~ In 40%N n -> ~ In 40%N n' -> shown_raw n c t -> shown_raw n' c' t -> n = n' /\ c = c'.
Proof.
  intros H H' (s & -> & S) (s' & E & S'). change (n ++ 40%N :: (s ++ txt ")") = n' ++ 40%N :: (s' ++ txt ")")) in E.
  apply cut_at_char in E; [|exact H|exact H']. destruct E as [-> E]. apply app_inv_tail in E. subst s'. split; [reflexivity|].
  eapply shown_slice_fun; eassumption.
Qed.
(** the text determines id and content, but for terminations (no content), time corrections (rounded, C82) and superframe
    specifications that are too short *)
Definition whole (id : N) (c : list N) : Prop :=
  ~ In id [0x7e; 0x7f; 0x23; 0x1e]%N \/ (id = 0x1e%N /\ length c < 2) \/ (id = 0x23%N /\ 4 <= length c).
Definition C81_header_statement : Prop := forall tie e e' id id' c c', hie_element_id e = Done id -> hie_content e = Done c ->
  hie_element_id e' = Done id' -> hie_content e' = Done c' -> hie_display tie e = hie_display tie e' -> id = id' /\ c = c'.
(** time corrections of 1 and of 2 us have the same text *)
Theorem C81_header_refuted : ~ C81_header_statement.
Proof.
  intros H. destruct (H Z.odd [0x02; 0x0f; 0x01; 0x00]%N [0x02; 0x0f; 0x02; 0x00]%N 0x1e%N 0x1e%N [1; 0]%N [2; 0]%N) as [_ K]; try (vm_compute; reflexivity).
  discriminate.
Qed.
Print Assumptions C81_header_refuted.
Theorem C81_header_partial : forall tie e e' id id' c c', hie_element_id e = Done id -> hie_content e = Done c ->
  hie_element_id e' = Done id' -> hie_content e' = Done c' -> whole id c -> whole id' c' ->
  hie_display tie e = hie_display tie e' -> id = id' /\ c = c'.
Proof.
  intros tie e e' id id' c c' EI EC EI' EC' W W' E.
  destruct (C81_header_text tie e id c EI EC) as (t & HT & _ & _ & _ & T4 & _ & T6 & T7).
  destruct (C81_header_text tie e' id' c' EI' EC') as (t' & HT' & _ & _ & _ & T4' & _ & T6' & T7').
  rewrite HT, HT' in E. apply Done_inj in E. subst t'.
  assert (II : In id (HeUnknown :: header_ids)). { clear - EI. unfold hie_element_id in EI. destruct (ie_raw e) as [w|]; [|discriminate]. cbn [bind] in EI. apply Done_inj in EI. subst id. apply ids_header. }
  assert (II' : In id' (HeUnknown :: header_ids)). { clear - EI'. unfold hie_element_id in EI'. destruct (ie_raw e') as [w|]; [|discriminate]. cbn [bind] in EI'. apply Done_inj in EI'. subst id'. apply ids_header. }
  assert (NAMED : forall i x, whole i x -> (~ In i [0x7e; 0x7f; 0x23; 0x1e]%N -> shown_raw (header_name i) x t) ->
    (i = 0x1e%N -> length x < 2 -> shown_raw (txt "TimeCorrection") x t) ->
    (i = 0x23%N -> 4 <= length x -> exists s, shown_slice 10 s x /\
       t = txt "SimplifiedSuperframeSpecification Ok(SimplifiedSuperframeSpecification { buffer: " ++ s ++ txt " })") ->
    shown_raw (header_name i) x t \/ (i = 0x23%N /\ exists s, shown_slice 10 s x /\
       t = txt "SimplifiedSuperframeSpecification Ok(SimplifiedSuperframeSpecification { buffer: " ++ s ++ txt " })")).
  { intros i x [K|[[-> K]|[-> K]]] A B C; [left; apply A, K|left; apply (B eq_refl K)|right; split; [reflexivity|apply (C eq_refl K)]]. }
  assert (NS : forall i x s, In i (HeUnknown :: header_ids) -> shown_raw (header_name i) x t ->
    t = txt "SimplifiedSuperframeSpecification Ok(SimplifiedSuperframeSpecification { buffer: " ++ s ++ txt " })" -> False).
  { intros i x s Hi (s' & E1 & _) E2. rewrite E1 in E2.
    change (header_name i ++ 40%N :: (s' ++ txt ")") = txt "SimplifiedSuperframeSpecification Ok" ++
      40%N :: (txt "SimplifiedSuperframeSpecification { buffer: " ++ s ++ txt " })")) in E2.
    apply cut_at_char in E2; [|apply header_name_plain; [exact Hi|left; reflexivity]|].
    - destruct E2 as [E2 _]. apply (header_name_plain 32%N i Hi); [right; reflexivity|]. rewrite E2. do 33 right. left. reflexivity.
    - clear. intros K. revert K. assert (F : forallb (fun x => negb (x =? 40)%N) (txt "SimplifiedSuperframeSpecification Ok") = true) by reflexivity.
      rewrite forallb_forall in F. intros K. apply F in K. discriminate. }
  destruct (NAMED id c W T7 T6 T4) as [A|[-> (s & A & EA)]]; destruct (NAMED id' c' W' T7' T6' T4') as [B|[-> (s' & B & EB)]].
  - destruct (raw_inj _ _ _ _ _ (header_name_plain 40 id II (or_introl eq_refl)) (header_name_plain 40 id' II' (or_introl eq_refl)) A B) as [EN ->].
    split; [|reflexivity]. apply header_name_inj; assumption.
  - exfalso. eapply NS; [exact II|exact A|exact EB].
  - exfalso. eapply NS; [exact II'|exact B|exact EA].
  - split; [reflexivity|]. rewrite EA in EB. apply app_inv_head, app_inv_tail in EB. subst s'. eapply shown_slice_fun; eassumption.
Qed.
Print Assumptions C81_header_partial.

(** *** nested information elements *)
Definition name_raw (s : NestedSubId) : list N := match s with SubShort i => short_name i | SubLong i => long_name i end.
Inductive shown_nested : NestedSubId -> list N -> list N -> Prop :=
| sn_sync c a j : 6 <= length c -> numeral 10 a (num c 0 5) -> numeral 10 j (nth 5 c 0%N) ->
    shown_nested (SubShort 0x1a) c (txt "  TSCH Synchronization ASN: " ++ a ++ txt ", join metric: " ++ j)
| sn_sync_short c : length c < 6 -> shown_nested (SubShort 0x1a) c (txt "  TSCH Synchronization")
| sn_slotframe c n : 1 <= length c -> numeral 10 n (nth 0 c 0%N) -> shown_nested (SubShort 0x1b) c (txt "  TSCH Slotframe and Link #slotframes: " ++ n)
| sn_slotframe_short : shown_nested (SubShort 0x1b) [] (txt "  TSCH Slotframe and Link")
| sn_timeslot c n : 1 <= length c -> nth 0 c 0%N = 0%N \/ 25 <= length c -> numeral 10 n (nth 0 c 0%N) ->
    shown_nested (SubShort 0x1c) c (txt "  TSCH Timeslot slot ID: " ++ n)
| sn_timeslot_short c : length c < 1 \/ (nth 0 c 0%N <> 0%N /\ length c < 25) -> shown_nested (SubShort 0x1c) c (txt "  TSCH Timeslot")
| sn_hopping c n : 1 <= length c -> numeral 10 n (nth 0 c 0%N) -> shown_nested (SubLong 0x09) c (txt "  Channel Hopping sequence ID: " ++ n)
| sn_hopping_short : shown_nested (SubLong 0x09) [] (txt "  Channel Hopping")
| sn_other s c t : ~ In s [SubShort 0x1a; SubShort 0x1b; SubShort 0x1c; SubLong 0x09]%N -> shown_raw (name_raw s) c t -> shown_nested s c (txt "  " ++ t).
(** what a nested element shows, by its sub-id and content *)
Theorem C81_nested_text : forall e s c, nie_sub_id e = Done s -> nie_content e = Done c ->
  exists t, nie_display e = Done t /\ shown_nested s c t.
Proof.
  intros e s c ES EC. unfold nie_display. rewrite ES. cbn [bind].
  assert (RAW : forall n x, shown_raw n x (n ++ txt "(" ++ dbg_slice_hex x ++ txt ")")) by (intros n x; eexists; split; [reflexivity|apply (slice_shown 16 hex hex_numeral)]).
  unfold NsTschSynchronization, NsTschTimeslot, NsTschSlotframeAndLink, NlChannelHopping, show.
  destruct s as [i|i]; rewrite EC; cbn [bind].
  - destruct (N.eqb_spec i 0x1a) as [->|N1].
    { unfold sync_new. destruct (Nat.leb_spec 6 (length c)) as [L|L].
      - destruct (sync_num c L) as [E1 E2]. unfold sync_display. rewrite E1, E2. cbn [bind]. eexists. split; [reflexivity|].
        apply (sn_sync c (dec (num c 0 5)) (dec (nth 5 c 0%N))); [exact L|apply dec_numeral|apply dec_numeral].
      - eexists. split; [reflexivity|]. apply sn_sync_short. lia. }
    destruct (N.eqb_spec i 0x1c) as [->|N2].
    { unfold ts_new. destruct (Nat.ltb_spec (length c) 1) as [L|L]; [cbn [bind]; eexists; split; [reflexivity|apply sn_timeslot_short; lia]|].
      unfold ts_display, ts_id. rewrite idx_ok by lia. cbn [bind]. destruct (N.eqb_spec (nth 0 c 0%N) 0) as [Z|Z]; cbn [bind].
      - destruct (Nat.leb_spec 1 (length c)); [|lia]. rewrite idx_ok by lia. cbn [bind]. eexists. split; [reflexivity|]. apply sn_timeslot; [lia|left; exact Z|apply dec_numeral].
      - destruct (Nat.leb_spec 25 (length c)); [|eexists; split; [reflexivity|apply sn_timeslot_short; right; split; [exact Z|lia]]].
        rewrite idx_ok by lia. cbn [bind]. eexists. split; [reflexivity|]. apply sn_timeslot; [lia|right; lia|apply dec_numeral]. }
    destruct (N.eqb_spec i 0x1b) as [->|N3].
    { rewrite sl_new_spec. cbn [bind]. destruct (Nat.leb_spec 1 (length c)) as [L|L].
      - unfold sl_display, sl_number. rewrite idx_ok by lia. cbn [bind]. eexists. split; [reflexivity|]. apply sn_slotframe; [lia|apply dec_numeral].
      - destruct c; [|cbn in L; lia]. eexists. split; [reflexivity|]. apply sn_slotframe_short. }
    eexists. split; [reflexivity|]. apply sn_other; [|apply RAW]. cbn [In]. intros [K|[K|[K|[K|[]]]]]; congruence.
  - destruct (N.eqb_spec i 0x09) as [->|N1].
    { unfold ch_new. destruct c as [|x c]; [eexists; split; [reflexivity|apply sn_hopping_short]|].
      cbn [length Nat.eqb]. unfold ch_display, ch_id. rewrite idx_ok by (cbn; lia). cbn [bind]. eexists. split; [reflexivity|].
      apply sn_hopping; [cbn; lia|apply dec_numeral]. }
    eexists. split; [reflexivity|]. apply sn_other; [|apply RAW]. cbn [In]. intros [K|[K|[K|[K|[]]]]]; congruence.
Qed.
Print Assumptions C81_nested_text.
Example C81_nested_ex : nie_display [0x06; 0x1a; 5; 0; 0; 0; 1; 7]%N = Done (txt "  TSCH Synchronization ASN: 4294967301, join metric: 7") /\
  nie_display [0x02; 0x37; 0x0a; 0xff]%N = Done (txt "  LinkMargin([a, ff])") /\ nie_display [0x02; 0x1c; 1; 0]%N = Done (txt "  TSCH Timeslot").
Proof. repeat split. Qed.

(** *** payload information elements *)
(** an MLME element: one line per nested element, in order; others: name and content *)
Theorem C81_payload_text : forall e id c, pie_group_id e = Done id -> pie_content e = Done c ->
  exists t, pie_display e = Done t /\
  (id <> 0x01%N -> shown_raw (payload_name id) c t) /\
  (id = 0x01%N -> exists es ts, chop code_nested_size c es /\
     Forall2 (fun e t => exists s c, nie_sub_id e = Done s /\ nie_content e = Done c /\ shown_nested s c t) es ts /\
     t = lines (("Mlme"%string, []) :: map (fun t => ("  "%string, t)) ts)).
Proof.
  intros e id c EI EC. unfold pie_display. rewrite EI. cbn [bind]. unfold PgMlme. destruct (N.eqb_spec id 1) as [->|NM].
  2:{ rewrite EC. cbn [bind]. eexists. split; [reflexivity|]. split; [|contradiction]. intros _. eexists. split; [reflexivity|apply (slice_shown 16 hex hex_numeral)]. }
  unfold pie_nested, pie_nested_iter. rewrite EI, EC. cbn [bind]. unfold PgMlme. rewrite N.eqb_refl. cbn [bind it_data].
  destruct (C21_iteration_partial c) as (es & t2 & -> & HC & _ & HF). cbn [bind].
  assert (X : exists ts, nested_lines es = Done (lines (map (fun t => ("  "%string, t)) ts)) /\
     Forall2 (fun e t => exists s c, nie_sub_id e = Done s /\ nie_content e = Done c /\ shown_nested s c t) es ts).
  { clear - HF. induction HF as [|x es [L EX] HF (ts & IH & H2)]; [exists []; split; [reflexivity|constructor]|].
    assert (ES : exists s, nie_sub_id x = Done s) by (unfold nie_sub_id, nie_is_long; rewrite ie_raw_ok by exact L; eexists; reflexivity).
    destruct ES as (s & ES). destruct (C81_nested_text x s _ ES EX) as (t & ET & HT). exists (t :: ts). cbn [nested_lines]. rewrite ET. cbn [bind].
    rewrite IH. cbn [bind map]. rewrite lines_cons. cbn [fst snd]. split; [reflexivity|]. constructor; [|exact H2]. do 2 eexists. split; [exact ES|]. split; [exact EX|exact HT]. }
  destruct X as (ts & -> & H2). cbn [bind]. eexists. split; [reflexivity|]. split; [contradiction|]. intros _. exists es, ts.
  split; [exact HC|]. split; [exact H2|]. rewrite lines_cons. reflexivity.
Qed.
Print Assumptions C81_payload_text.
Example C81_payload_ex : pie_display [0x0c; 0x88; 0x06; 0x1a; 5; 0; 0; 0; 1; 7; 0x02; 0x37; 0x0a; 0xff]%N =
  Done (lines [("Mlme", []); ("  ", txt "  TSCH Synchronization ASN: 4294967301, join metric: 7"); ("  ", txt "  LinkMargin([a, ff])")])%string.
Proof. reflexivity. Qed.

(** *** names: the ones above are those of the tables, and no two ids of a kind share one *)
Theorem C81_names :
  (forall i n, In (i, n) header_table -> header_name i = txt n) /\ (forall i n, In (i, n) payload_table -> payload_name i = txt n) /\
  (forall i n, In (i, n) nested_short_table -> short_name i = txt n) /\ (forall i n, In (i, n) nested_long_table -> long_name i = txt n) /\
  (forall i n, header_name i = txt n -> In (i, n) header_table \/ n = "Unkown"%string) /\ (forall i n, payload_name i = txt n -> In (i, n) payload_table \/ n = "Unknown"%string) /\
  (forall i n, short_name i = txt n -> In (i, n) nested_short_table \/ n = "Unkown"%string) /\ (forall i n, long_name i = txt n -> In (i, n) nested_long_table \/ n = "Unkown"%string).
Proof.
  assert (T : forall table names other, forallb (fun p => String.eqb (name_in names other (fst p)) (snd p)) table = true ->
    forall i n, In (i, n) table -> txt (name_in names other i) = txt n).
  { intros table names other H i n K. rewrite forallb_forall in H. apply H in K. apply String.eqb_eq in K. cbn [fst snd] in K. congruence. }
  assert (B : forall names other i, In (i, name_in names other i) names \/ name_in names other i = other).
  { intros names other i. induction names as [|[j s] r IH]; [right; reflexivity|]. cbn [name_in]. destruct (N.eqb_spec i j) as [->|]; [left; left; reflexivity|].
    destruct IH as [IH|IH]; [left; right; exact IH|right; exact IH]. }
  assert (U : forall table names other, forallb (fun p => existsb (fun q => (fst p =? fst q)%N && String.eqb (snd p) (snd q)) table) names = true ->
    forall i n, txt (name_in names other i) = txt n -> In (i, n) table \/ n = other).
  { intros table names other H i n E. apply txt_inj in E. subst n. destruct (B names other i) as [K|K]; [left|right; exact K].
    rewrite forallb_forall in H. apply H in K. apply existsb_exists in K. destruct K as ([j s] & K & E). cbn [fst snd] in E. apply andb_prop in E.
    destruct E as [E1 E2]. apply N.eqb_eq in E1. apply String.eqb_eq in E2. rewrite E2, E1. exact K. }
  unfold header_name, payload_name, short_name, long_name.
  repeat (match goal with |- _ /\ _ => split end); try (apply T; vm_compute; reflexivity); apply U; vm_compute; reflexivity.
Qed.
Print Assumptions C81_names.

(** *** no element of an accepted list makes the formatter panic *)
Theorem C81_no_panic : forall tie d, ies_new d = Done (Ok d) ->
  exists hs hi ps pi, ies_headers d = Done (hs, hi) /\ ies_payloads d = Done (ps, pi) /\
   Forall (fun e => hie_display tie e <> Panic) hs /\ Forall (fun e => pie_display e <> Panic) ps.
Proof.
  intros tie d H. destruct (C19_contents_partial d H) as (hs & hi & ps & pi & E1 & E2 & F1 & F2). exists hs, hi, ps, pi.
  split; [exact E1|]. split; [exact E2|]. rewrite Forall_forall in F1, F2.
  split; apply Forall_forall; intros e He.
  - destruct (F1 e He) as (c & EC & _). assert (EI : exists id, hie_element_id e = Done id).
    { unfold hie_content, hie_len in EC. unfold hie_element_id. destruct (ie_raw e); [eexists; reflexivity|discriminate]. }
    destruct EI as (id & EI). destruct (C81_header_text tie e id c EI EC) as (t & -> & _). discriminate.
  - destruct (F2 e He) as (c & EC & _). assert (EI : exists id, pie_group_id e = Done id).
    { unfold pie_content, pie_length in EC. unfold pie_group_id. destruct (ie_raw e); [eexists; reflexivity|discriminate]. }
    destruct EI as (id & EI). destruct (C81_payload_text e id c EI EC) as (t & -> & _). discriminate.
Qed.
Print Assumptions C81_no_panic.
(** an element accepted on its own may be shorter than it says: then the formatter panics *)
Definition C81_alone_statement : Prop := forall tie d, hie_new d = Ok d -> hie_display tie d <> Panic.
Theorem C81_alone_refuted : ~ C81_alone_statement.
Proof. intros H. apply (H Z.odd [0x02; 0x00]%N); reflexivity. Qed.
Print Assumptions C81_alone_refuted.

(** *** slotframes, links, timings *)
Theorem C81_slotframe_text : forall d, 4 <= length d -> exists h n,
  sd_display d = Done (txt "Slotframe Handle: " ++ h ++ txt ", #links: " ++ n) /\ numeral 10 h (nth 0 d 0%N) /\ numeral 10 n (nth 3 d 0%N).
Proof.
  intros d H. unfold sd_display, sd_handle, sd_links. rewrite !idx_ok by lia. cbn [bind]. do 2 eexists. split; [reflexivity|]. split; apply dec_numeral.
Qed.
Lemma bars_barred l : barred l (bars l).
Proof. induction l as [|p [|q l] IH]; [constructor|constructor|]. cbn [bars]. constructor. exact IH. Qed.
Lemma options_flags o : options_display o = bars (flags_of o).
Proof.
  unfold options_display, flags_of, option_names. cbn [filter fst].
  destruct (N.testbit o 0), (N.testbit o 1), (N.testbit o 2), (N.testbit o 3), (N.testbit o 4); reflexivity.
Qed.
Theorem C81_link_text : forall d, 5 <= length d -> exists t c o,
  link_display d = Done (txt "Timeslot: " ++ t ++ txt ", Channel Offset: " ++ c ++ txt ", Link Options: " ++ o) /\
  numeral 10 t (num d 0 2) /\ numeral 10 c (num d 2 2) /\ barred (flags_of (nth 4 d 0%N)) o.
Proof.
  intros d H. unfold link_display, link_timeslot, link_channel_offset, link_options. rewrite !rd_le_num by lia. cbn [bind]. rewrite idx_ok by lia. cbn [bind].
  do 3 eexists. split; [reflexivity|]. split; [apply dec_numeral|]. split; [apply dec_numeral|].
  assert (E : flags_of (nth 4 d 0%N) = flags_of (N.land (nth 4 d 0%N) 0x1f)).
  { unfold flags_of. rewrite !N.land_spec. cbn [N.testbit Pos.testbit]. rewrite !andb_true_r. reflexivity. }
  rewrite E, options_flags. apply bars_barred.
Qed.
Print Assumptions C81_link_text.
Theorem C81_options : forall o o', (o < 32)%N -> (o' < 32)%N -> options_display o = options_display o' -> o = o'.
Proof.
  intros o o' H H' E.
  assert (F : forallb (fun a => forallb (fun b => if list_eq_dec N.eq_dec (options_display a) (options_display b) then (a =? b)%N else true)
     (map N.of_nat (seq 0 32))) (map N.of_nat (seq 0 32)) = true) by (vm_compute; reflexivity).
  assert (I : forall x, (x < 32)%N -> In x (map N.of_nat (seq 0 32))) by (intros x Hx; apply in_map_iff; exists (N.to_nat x); split; [lia|apply in_seq; lia]).
  rewrite forallb_forall in F. specialize (F o (I o H)). rewrite forallb_forall in F. specialize (F o' (I o' H')).
  rewrite E in F. destruct (list_eq_dec _ _ _) as [_|K]; [apply N.eqb_eq, F|contradiction].
Qed.
Print Assumptions C81_options.
(** the timings, one per line, in milliseconds to a hundredth; all lines but the first are indented *)
Definition within (us : Z) : Prop := (- 2 ^ 24 <= us <= 2 ^ 24)%Z.
Theorem C81_timings_text : forall tie k x, Forall within [tt_cca_offset x; tt_cca x; tt_tx_offset x; tt_rx_offset x; tt_tx_ack_delay x; tt_rx_ack_delay x;
    tt_rx_wait x; tt_ack_wait x; tt_rx_tx x; tt_max_ack x; tt_max_tx x; tt_timeslot_length x] ->
  exists t1 t2 t3 t4 t5 t6 t7 t8 t9 t10 t11 t12,
  let row label t := repeat 32%N k ++ txt label ++ t ++ nl in
  timings_display tie k x = txt "cca_offset: " ++ t1 ++ nl ++ row "cca: "%string t2 ++ row "tx offset: "%string t3 ++ row "rx offset: "%string t4 ++
    row "tx ack delay: "%string t5 ++ row "rx ack delay: "%string t6 ++ row "rx wait: "%string t7 ++ row "ack wait: "%string t8 ++ row "rx/tx: "%string t9 ++
    row "max ack: "%string t10 ++ row "max tx: "%string t11 ++ row "timeslot length: "%string t12 /\
  shows_time (tt_cca_offset x) t1 /\ shows_time (tt_cca x) t2 /\ shows_time (tt_tx_offset x) t3 /\ shows_time (tt_rx_offset x) t4 /\
  shows_time (tt_tx_ack_delay x) t5 /\ shows_time (tt_rx_ack_delay x) t6 /\ shows_time (tt_rx_wait x) t7 /\ shows_time (tt_ack_wait x) t8 /\
  shows_time (tt_rx_tx x) t9 /\ shows_time (tt_max_ack x) t10 /\ shows_time (tt_max_tx x) t11 /\ shows_time (tt_timeslot_length x) t12.
Proof.
  intros tie k x H.
  assert (K : forall us, within us -> shows_time us (us_display tie us)) by (intros us Hu; apply us_display_close; unfold within in Hu; lia).
  repeat match goal with H : Forall _ (_ :: _) |- _ => let A := fresh "A" in inversion H as [|? ? A ?]; subst; clear H; apply K in A end.
  do 12 eexists. cbv zeta. split; [reflexivity|]. repeat (match goal with |- _ /\ _ => split end); eassumption.
Qed.
Print Assumptions C81_timings_text.
(** every timing read from a timeslot element is in that range *)
Theorem C81_timings_read : forall d x, octets d -> ts_new d = Done (Ok d) -> ts_timings d = Done x ->
  Forall within [tt_cca_offset x; tt_cca x; tt_tx_offset x; tt_rx_offset x; tt_tx_ack_delay x; tt_rx_ack_delay x;
    tt_rx_wait x; tt_ack_wait x; tt_rx_tx x; tt_max_ack x; tt_max_tx x; tt_timeslot_length x].
Proof.
  intros d x HO _ E. unfold ts_timings in E. destruct (ts_id d) as [id|]; [|discriminate]. cbn [bind] in E.
  destruct (id =? 0)%N; [apply Done_inj in E; subst x; repeat (apply Forall_cons; [split; vm_compute; discriminate|]); apply Forall_nil|].
  set (n := if length d =? 25 then 2 else 3) in E. assert (Hn : n <= 3) by (unfold n; destruct (_ =? _); lia). clearbody n.
  assert (R : forall off k v, k <= 3 -> rd_le d off k = Done v -> within (Z.of_N v)).
  { intros off k v Hk ER. unfold within. destruct (Nat.le_gt_cases (off + k) (length d)) as [L|L]; [|rewrite rd_le_panic in ER by exact L; discriminate].
    unfold rd_le in ER. rewrite slice_from_ok in ER by lia. cbn [bind] in ER. rewrite slice_to_ok in ER by (rewrite skipn_length; lia). cbn [bind] in ER.
    apply Done_inj in ER. subst v. pose proof (from_le_lt _ (octets_firstn k _ (octets_skipn off _ HO))) as B. rewrite firstn_length, skipn_length in B.
    assert (256 ^ N.of_nat (Nat.min k (length d - off)) <= 256 ^ 3)%N by (apply N.pow_le_mono_r; lia). change (256 ^ 3)%N with 16777216%N in *. lia. }
  repeat match goal with H : context [let* a := rd_le d ?o ?k in _] |- _ => let v := fresh "v" in let V := fresh "V" in
    destruct (rd_le d o k) as [v|] eqn:V in H; [|discriminate]; cbn [bind] in H end.
  apply Done_inj in E. subst x. cbn [tt_cca_offset tt_cca tt_tx_offset tt_rx_offset tt_tx_ack_delay tt_rx_ack_delay tt_rx_wait tt_ack_wait tt_rx_tx tt_max_ack tt_max_tx tt_timeslot_length].
  repeat (apply Forall_cons; [eapply R; [|eassumption]; lia|]). apply Forall_nil.
Qed.
Print Assumptions C81_timings_read.

(** ** Concrete cases *)
Example C81_fc_ex : fc_display [0x41; 0xe8]%N = Done (lines [("Frame Control", []); ("  type: ", txt "Data"); ("  security enabled: ", txt "0");
  ("  frame pending: ", txt "0"); ("  ack request: ", txt "0"); ("  pan id compression: ", txt "1"); ("  sequence number suppression: ", txt "0");
  ("  information elements present: ", txt "0"); ("  dst addressing mode: ", txt "Short"); ("  src addressing mode: ", txt "Extended");
  ("  frame version: ", txt "Ieee802154_2020")])%string.
Proof. vm_compute. reflexivity. Qed.
Example C81_af_ex : exists af, af_new [0xcd; 0xab; 0xff; 0xff; 0xc7; 0xd9; 0xb5; 0x14; 0x00; 0x4b; 0x12; 0x00]%N [0x41; 0xd8]%N = Done (Ok af) /\
  octets (af_buffer af) /\ af_display af = Done (lines [("Addressing Fields", []); ("  dst pan id: ", txt "abcd"); ("  dst address: ", txt "ff:ff");
    ("  src address: ", txt "00:12:4b:00:14:b5:d9:c7")])%string.
Proof. eexists. split; [vm_compute; reflexivity|]. split; [repeat constructor|vm_compute; reflexivity]. Qed.
Example C81_hie_ex : hie_display Z.odd [0x02; 0x0f; 0x64; 0x80]%N = Done (txt "Time Correction 0.10ms, nack: 1") /\
  hie_display Z.odd [0x03; 0x0d; 0x0a; 0xff; 0x10]%N = Done (txt "Csl([a, ff])") /\
  hie_display Z.odd [0x04; 0x80]%N = Panic /\ whole 0x1a [0x0a; 0xff]%N /\ whole 0x23 [1; 2; 3; 4]%N.
Proof. split; [vm_compute; reflexivity|]. split; [vm_compute; reflexivity|]. split; [vm_compute; reflexivity|]. split; [left; cbn; intuition discriminate|right; right; cbn; lia]. Qed.
Example C81_list_ex : ies_new [0x02; 0x0f; 0x64; 0x80; 0x00; 0x3f; 0x04; 0x88; 0x02; 0x37; 0x0a; 0xff]%N =
  Done (Ok [0x02; 0x0f; 0x64; 0x80; 0x00; 0x3f; 0x04; 0x88; 0x02; 0x37; 0x0a; 0xff]%N).
Proof. vm_compute. reflexivity. Qed.
Example C81_link_ex : link_display [1; 0; 2; 0; 0x0f]%N = Done (txt "Timeslot: 1, Channel Offset: 2, Link Options: Tx | Rx | Shared | TimeKeeping").
Proof. reflexivity. Qed.
Example C81_timings_ex : timings_display Z.odd 2 timings_default =
  lines [("cca_offset: ", txt "1.80ms"); ("  cca: ", txt "0.13ms"); ("  tx offset: ", txt "2.12ms"); ("  rx offset: ", txt "1.02ms"); ("  tx ack delay: ", txt "1.00ms");
   ("  rx ack delay: ", txt "0.80ms"); ("  rx wait: ", txt "2.20ms"); ("  ack wait: ", txt "0.40ms"); ("  rx/tx: ", txt "0.19ms"); ("  max ack: ", txt "2.40ms");
   ("  max tx: ", txt "4.26ms"); ("  timeslot length: ", txt "10.00ms")]%string.
Proof. vm_compute. reflexivity. Qed.
