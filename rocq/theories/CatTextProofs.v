(** CatTextProofs.v -- the text of dot15d4-cat: invariants of the lines, reading the lines back, removing colours. *)
From Coq Require Import String Ascii.
From Verif Require Import Base BaseProofs Spec BitProofs FrameControl Addressing AddressText SpecAddressText AddressTextProofs Ie IeContent Beacon Frames
  Display SpecDisplay DisplayProofs PropDisplay Cat CatText SpecCatText.

(** ** What is true of every line the tool writes *)
Definition short_list : list N := 0x47%N :: nested_short_ids.
Definition long_list : list N := 0x0a%N :: nested_long_ids.
Definition line_ok (p : nat * line) : Prop :=
  match snd p with
  | LDstAddr a _ | LSrcAddr a _ => address_wf a
  | LHeaderId id => fst p = 4 /\ In id (HeUnknown :: header_ids)
  | LSubId (SubShort id) => fst p = 6 /\ In id short_list
  | LSubId (SubLong id) => fst p = 6 /\ In id long_list
  | LGroupUnimplemented id => In id (PgUnknown :: payload_ids)
  | LTimeCorrection us _ => within us
  | LTimings t => Forall within (map snd (timing_rows t))
  | LLink _ _ o => (o < 32)%N
  | _ => True
  end.
Definition good (k : nat) (w : writer) : Prop := w_indent w = k /\ Forall line_ok (w_lines w).
Lemma good_inc k w : good k w -> good (k + 2) (increase_indent w).
Proof. intros [H1 H2]. split; [cbn; lia|exact H2]. Qed.
Lemma good_dec k w w' : good (k + 2) w -> decrease_indent w = Done w' -> good k w'.
Proof. intros [H1 H2] E. unfold decrease_indent in E. destruct (_ <? _); [discriminate|]. apply Done_inj in E. subst w'. split; [cbn; lia|exact H2]. Qed.
Lemma good_wl k w x : good k w -> line_ok (k, x) -> good k (writeln x w).
Proof. intros [H1 H2] H. split; [exact H1|]. cbn [writeln w_lines]. apply Forall_app. split; [exact H2|]. rewrite H1. constructor; [exact H|constructor]. Qed.
Lemma for_each_good {A} (f : A -> writer -> outcome writer) k (P : A -> Prop) :
  (forall x w w', P x -> good k w -> f x w = Done w' -> good k w') ->
  forall l w w', Forall P l -> good k w -> for_each f l w = Done w' -> good k w'.
Proof.
  intros HF. induction l as [|x l IH]; intros w w' HP HG E; cbn [for_each] in E; [apply Done_inj in E; subst; exact HG|].
  destruct (f x w) as [w1|] eqn:E1; [|discriminate]. cbn [bind] in E. inversion_clear HP as [|? ? H1 H2].
  eapply IH; [exact H2| |exact E]. eapply HF; eassumption.
Qed.
Lemma write_some_good {A} (f : A -> line) o k w : good k w -> (forall x, o = Some x -> line_ok (k, f x)) -> good k (write_some f o w).
Proof. intros HG H. destruct o as [x|]; cbn [write_some]; [apply good_wl; [exact HG|apply H; reflexivity]|exact HG]. Qed.

Ltac inv1 E := match type of E with bind ?x _ = Done _ => let v := fresh "v" in let V := fresh "V" in
  destruct x as [v|] eqn:V; [cbn [bind] in E|discriminate E] end.
Ltac inv E := repeat inv1 E.
Ltac ok := exact I.
Ltac wl := repeat (apply good_wl; [|ok]).

Lemma cat_fc_good fc w w' : good 0 w -> cat_frame_control fc w = Done w' -> good 0 w'.
Proof.
  intros HG E. unfold cat_frame_control in E. inv E. eapply good_dec; [|exact E]. wl. apply good_inc, good_wl; [exact HG|ok].
Qed.
Lemma cat_seq_good s w w' : good 0 w -> cat_sequence_number s w = Done w' -> good 0 w'.
Proof.
  intros HG E. destruct s as [n|]; cbn [cat_sequence_number] in E; [|apply Done_inj in E; subst; exact HG].
  eapply good_dec; [|exact E]. wl. apply good_inc. wl. exact HG.
Qed.
Lemma dst_address_wf af a : octets (af_buffer af) -> af_dst_address af = Done (Some a) -> address_wf a.
Proof.
  intros HO E. unfold af_dst_address in E. inv E. destruct v as [[[[dp dm] sp] sm]|]; [|discriminate]. eapply read_address_wf; eassumption.
Qed.
Lemma src_address_wf af a : octets (af_buffer af) -> af_src_address af = Done (Some a) -> address_wf a.
Proof.
  intros HO E. unfold af_src_address in E. inv E. destruct v as [[[[dp dm] sp] sm]|]; [|discriminate]. eapply read_address_wf; eassumption.
Qed.
Lemma cat_addressing_good o w w' : good 0 w -> (forall af, o = Some af -> octets (af_buffer af)) -> cat_addressing o w = Done w' -> good 0 w'.
Proof.
  intros HG HO E. destruct o as [af|]; cbn [cat_addressing] in E; [|apply Done_inj in E; subst; exact HG]. specialize (HO af eq_refl). inv E.
  eapply good_dec; [|exact E].
  apply write_some_good; [|intros x ->; eapply src_address_wf; eassumption].
  apply write_some_good; [|intros x _; ok].
  apply write_some_good; [|intros x ->; eapply dst_address_wf; eassumption].
  apply write_some_good; [|intros x _; ok]. apply good_inc. wl. exact HG.
Qed.
Lemma cat_aux_good o w w' : good 0 w -> cat_aux o w = Done w' -> good 0 w'.
Proof.
  intros HG E. destruct o as [x|]; cbn [cat_aux] in E; [|apply Done_inj in E; subst; exact HG].
  eapply good_dec; [|exact E]. wl. apply good_inc. wl. exact HG.
Qed.
Lemma tc_within d us : tc_time_correction d = Done us -> within us.
Proof.
  intros E. unfold tc_time_correction in E. inv E. apply Done_inj in E. subst us. unfold within.
  set (z := as_i16 _). assert (B : (-32768 <= z <= 32767)%Z).
  { subst z. unfold as_i16. set (y := (_ + 32768)%Z). pose proof (Z.mod_pos_bound y 65536 ltac:(lia)) as B. lia. }
  clearbody z. rewrite Z.shiftr_div_pow2 by lia. change (2 ^ 4)%Z with 16%Z. clear - B.
  pose proof (Z.div_mod z 16 ltac:(lia)). pose proof (Z.mod_pos_bound z 16 ltac:(lia)). change (2 ^ 24)%Z with 16777216%Z. lia.
Qed.
Lemma cat_header_good e w w' : good 2 w -> cat_header e w = Done w' -> good 2 w'.
Proof.
  intros HG E. unfold cat_header in E. inv1 E.
  assert (HI : In v (HeUnknown :: header_ids)). { clear - V. unfold hie_element_id in V. inv V. apply Done_inj in V. subst v. apply ids_header. }
  apply good_inc in HG. change (2 + 2) with 4 in HG. inv1 E. eapply good_dec; [|exact E]. change (2 + 2) with 4.
  assert (HG1 : good 4 (writeln (LHeaderId v) (increase_indent w))) by (apply good_wl; [exact HG|split; [reflexivity|exact HI]]).
  destruct (_ || _)%bool.
  - cbn [bind] in V0. apply Done_inj in V0. subst v0. exact HG1.
  - cbn [bind] in V0. inv1 V0. eapply good_dec; [|exact V0]. apply good_inc in HG1.
    destruct (_ =? _)%N; [|apply Done_inj in V1; subst; wl; exact HG1].
    inv1 V1. destruct (tc_new v2) as [tc|]; [|apply Done_inj in V1; subst; wl; exact HG1].
    inv V1. apply Done_inj in V1. subst v1. apply good_wl; [exact HG1|]. eapply tc_within. eassumption.
Qed.
Lemma land_31 b : (N.land b 0x1f < 32)%N.
Proof. change 0x1f%N with (N.ones 5). rewrite N.land_ones. apply N.mod_lt. discriminate. Qed.
Lemma cat_link_good k l w w' : good k w -> cat_link l w = Done w' -> good k w'.
Proof.
  intros HG E. unfold cat_link in E. inv E. apply Done_inj in E. subst w'. apply good_wl; [exact HG|].
  unfold link_options in V1. inv V1. apply Done_inj in V1. subst. apply land_31.
Qed.
Lemma cat_slotframe_good k s w w' : good k w -> cat_slotframe s w = Done w' -> good k w'.
Proof.
  intros HG E. unfold cat_slotframe in E. inv E. eapply good_dec; [|exact E].
  eapply (for_each_good cat_link (k + 2) (fun _ => True)); [intros x w1 w2 _; apply cat_link_good| | |exact V2].
  - apply Forall_forall. trivial.
  - apply good_inc. wl. exact HG.
Qed.
Lemma slice_from_octets d n s : octets d -> slice_from d n = Done s -> octets s.
Proof. intros HO E. unfold slice_from in E. destruct (_ <=? _) in E; [|discriminate]. apply Done_inj in E. subst. apply octets_skipn, HO. Qed.
Lemma slice_to_octets d n s : octets d -> slice_to d n = Done s -> octets s.
Proof. intros HO E. unfold slice_to in E. destruct (_ <=? _) in E; [|discriminate]. apply Done_inj in E. subst. apply octets_firstn, HO. Qed.
Lemma nie_content_octets e c : octets e -> nie_content e = Done c -> octets c.
Proof. intros HO E. unfold nie_content in E. inv E. eapply slice_to_octets; [|exact E]. eapply slice_from_octets; eassumption. Qed.
Lemma pie_content_octets e c : octets e -> pie_content e = Done c -> octets c.
Proof. intros HO E. unfold pie_content in E. inv E. eapply slice_to_octets; [|exact E]. eapply slice_from_octets; eassumption. Qed.
Lemma ts_new_same c s : ts_new c = Done (Ok s) -> s = c.
Proof.
  unfold ts_new. intros E. destruct (_ <? _); [discriminate|]. inv E.
  destruct (v =? 0)%N; destruct (_ <=? _) in E; try discriminate; apply Done_inj in E; injection E as <-; reflexivity.
Qed.
Lemma cat_nested_content_good k id e w w' : octets e -> good k w -> cat_nested_content id e w = Done w' -> good k w'.
Proof.
  intros HO HG E. assert (F : forall x, line_ok (k, x) -> Done (writeln x w) = Done w' -> good k w') by (intros x Hx K; apply Done_inj in K; subst; apply good_wl; assumption).
  unfold cat_nested_content in E. destruct id as [i|i].
  - destruct (i =? _)%N.
    { inv1 E. destruct (sync_new v); [inv E|]; (eapply F; [|exact E]; ok). }
    destruct (i =? _)%N.
    { inv1 E. inv1 E. destruct v0 as [s|]; [|eapply F; [|exact E]; ok]. inv1 E. pose proof (ts_new_same _ _ V0) as ->.
      destruct (ts_has_timings v); [|apply Done_inj in E; subst; wl; exact HG].
      inv1 E. apply Done_inj in E. subst w'. apply good_wl; [wl; exact HG|]. cbn [line_ok snd].
      exact (C81_timings_read v v1 (nie_content_octets _ _ HO V) V0 V2). }
    destruct (i =? _)%N; [|eapply F; [|exact E]; ok].
    inv1 E. inv1 E. destruct v0 as [s|]; [|eapply F; [|exact E]; ok]. inv1 E. inv1 E.
    eapply (for_each_good cat_slotframe k (fun _ => True)); [intros x w1 w2 _; apply cat_slotframe_good| | |exact E].
    + apply Forall_forall. trivial.
    + wl. exact HG.
  - destruct (i =? _)%N; [|eapply F; [|exact E]; ok].
    inv1 E. destruct (ch_new v); [inv E|]; (eapply F; [|exact E]; ok).
Qed.
Lemma sub_id_ok e id : nie_sub_id e = Done id -> line_ok (6, LSubId id).
Proof.
  intros E. unfold nie_sub_id in E. inv E. apply Done_inj in E. subst id. destruct v0; (split; [reflexivity|]).
  - unfold NestedSubIdLong_from, long_list. set (x := N.land _ _). clearbody x. destruct (mem x nested_long_ids) eqn:M; [right|left; reflexivity].
    unfold mem in M. apply existsb_exists in M. destruct M as (y & HI & HE). apply N.eqb_eq in HE. subst y. exact HI.
  - unfold NestedSubIdShort_from, short_list. set (x := N.land _ _). clearbody x. destruct (mem x nested_short_ids) eqn:M; [right|left; reflexivity].
    unfold mem in M. apply existsb_exists in M. destruct M as (y & HI & HE). apply N.eqb_eq in HE. subst y. exact HI.
Qed.
Lemma cat_nested_good e w w' : octets e -> good 4 w -> cat_nested e w = Done w' -> good 4 w'.
Proof.
  intros HO HG E. unfold cat_nested in E. inv E. apply good_inc in HG. change (4 + 2) with 6 in HG.
  eapply good_dec; [|exact E]. eapply good_dec; [|exact V1]. eapply cat_nested_content_good; [exact HO| |exact V0].
  apply good_inc, good_wl; [exact HG|]. eapply sub_id_ok. eassumption.
Qed.
Lemma drain_all next (P : list N -> Prop) d : (forall st x st', it_data st = d -> next st = Done (x, st') -> it_data st' = d /\ (forall e, x = Some e -> P e)) ->
  forall f st es st', it_data st = d -> drain next f st = Done (es, st') -> Forall P es.
Proof.
  intros HN. induction f as [|f IH]; intros st es st' HD E; cbn [drain] in E; [discriminate|]. inv1 E. destruct v as [x st1]. destruct (HN _ _ _ HD V) as [HD1 HP].
  destruct x as [e|]; [|apply Done_inj in E; injection E as <- _; constructor].
  inv1 E. destruct v as [es1 st2]. apply Done_inj in E. injection E as <- _. constructor; [apply HP; reflexivity|eapply IH; eassumption].
Qed.
Lemma nested_octets_all e ns : octets e -> pie_nested e = Done ns -> Forall octets ns.
Proof.
  intros HO E. unfold pie_nested in E. inv1 E. inv1 E. destruct v0 as [es st]. apply Done_inj in E. subst es.
  unfold pie_nested_iter in V. inv1 V. destruct (_ =? _)%N; [|discriminate]. inv1 V. apply Done_inj in V. subst v. cbn [it_data] in V0.
  pose proof (pie_content_octets _ _ HO V2) as HC. refine (drain_all nie_next octets v1 _ _ _ _ _ _ V0); [|reflexivity].
  clear - HC. intros st x st' HD E. unfold nie_next in E. destruct (it_terminated st); [apply Done_inj in E; injection E as <- <-; split; [exact HD|discriminate]|].
  inv1 E. inv1 E. destruct v0 as [ie|]; [|apply Done_inj in E; injection E as <- <-; split; [exact HD|discriminate]].
  inv E. apply Done_inj in E. injection E as <- <-. split; [exact HD|]. intros e K. injection K as <-.
  eapply slice_to_octets; [|eassumption]. eapply slice_from_octets; [|eassumption]. rewrite HD. exact HC.
Qed.
Lemma cat_payload_ie_good e w w' : octets e -> good 2 w -> cat_payload_ie e w = Done w' -> good 2 w'.
Proof.
  intros HO HG E. unfold cat_payload_ie in E. inv1 E. inv1 E. eapply good_dec; [|exact E]. apply good_inc in HG. change (2 + 2) with 4 in *.
  destruct (_ =? _)%N.
  - inv1 V0. eapply (for_each_good cat_nested 4 octets); [intros x w1 w2; apply cat_nested_good| | |exact V0].
    + eapply nested_octets_all; eassumption.
    + wl. exact HG.
  - apply Done_inj in V0. subst v0. apply good_wl; [exact HG|]. cbn [line_ok snd]. clear - V. unfold pie_group_id in V. inv V. apply Done_inj in V. subst v.
    unfold PayloadGroupId_from. set (x := N.land _ _). clearbody x. destruct (mem x payload_ids) eqn:M; [right|left; reflexivity].
    unfold mem in M. apply existsb_exists in M. destruct M as (y & HI & HE). apply N.eqb_eq in HE. subst y. exact HI.
Qed.
Lemma cat_list_good h f (P : list N -> Prop) l w w' : (forall x w w', P x -> good 2 w -> f x w = Done w' -> good 2 w') ->
  Forall P l -> good 0 w -> cat_list h f l w = Done w' -> good 0 w'.
Proof.
  intros HF HP HG E. destruct l as [|x l]; cbn [cat_list] in E; [apply Done_inj in E; subst; exact HG|]. inv1 E. eapply good_dec; [|exact E].
  change (0 + 2) with 2. eapply (for_each_good f 2 P); [exact HF|exact HP| |exact V]. wl. apply (good_inc 0), HG.
Qed.
Lemma cat_ies_good o w w' : (forall d, o = Some d -> octets d) -> good 0 w -> cat_ies o w = Done w' -> good 0 w'.
Proof.
  intros HO HG E. destruct o as [d|]; cbn [cat_ies] in E; [|apply Done_inj in E; subst; exact HG]. specialize (HO d eq_refl).
  inv1 E. destruct v as [hs st]. inv1 E. inv1 E. destruct v0 as [ps st'].
  assert (HG1 : good 0 v) by (eapply (cat_list_good HHeaderIes cat_header (fun _ => True)); [intros x w1 w2 _; apply cat_header_good|apply Forall_forall; trivial| |exact V0]; wl; exact HG).
  eapply (cat_list_good HPayloadIes cat_payload_ie octets); [intros x w1 w2; apply cat_payload_ie_good| |exact HG1|exact E].
  unfold ies_payloads in V1. inv1 V1. unfold ies_payload_iter in V2. inv1 V2. destruct v1 as [hs' st'']. inv1 V2. inv1 V2. apply Done_inj in V2. subst v0.
  pose proof (slice_from_octets _ _ _ HO V5) as HR. refine (drain_all pie_next octets v2 _ _ _ _ _ _ V1); [|reflexivity].
  clear - HR. intros st x st' HD E. unfold pie_next in E. destruct (it_terminated st); [apply Done_inj in E; injection E as <- <-; split; [exact HD|discriminate]|].
  inv1 E. assert (HV : octets v) by (eapply slice_from_octets; [|exact V]; rewrite HD; exact HR).
  unfold pie_new in E. destruct (2 <=? length v); [|apply Done_inj in E; injection E as <- <-; split; [exact HD|discriminate]].
  inv E. apply Done_inj in E. injection E as <- <-. split; [exact HD|]. intros e K. injection K as <-. exact HV.
Qed.
Lemma af_new_octets rest fc af r : octets rest -> af_new rest fc = Done r -> ok r = Some af -> octets (af_buffer af).
Proof.
  intros HO E K. unfold af_new in E. inv E. destruct v; apply Done_inj in E; subst r; [|discriminate]. cbn [ok] in K. injection K as <-. exact HO.
Qed.
Lemma frame_new_octets b f : octets b -> frame_new b = Done (Ok f) ->
  match f with FData c | FAck c | FEnhancedAck c | FBeacon c | FEnhancedBeacon c => octets c end.
Proof.
  assert (W : forall A (g : A -> Frame) (r : result A), wrap g r = Ok f -> exists x, r = Ok x /\ f = g x) by (intros A g [x|] K; [injection K as <-; exists x; split; reflexivity|discriminate]).
  assert (DN : forall c r, data_new c = Done (Ok r) -> r = c).
  { intros c r E. unfold data_new in E. inv1 E. destruct (negb v); [discriminate|]. inv1 E. inv1 E. destruct v1; [discriminate|]. inv1 E. destruct v1; try discriminate;
      inv1 E; destruct v1; try discriminate; inv1 E; destruct v1; try discriminate; inv1 E; destruct v1; try discriminate; apply Done_inj in E; injection E as <-; reflexivity. }
  assert (EN : forall c r, eb_new c = Done (Ok r) -> r = c).
  { intros c r E. unfold eb_new in E. inv1 E. destruct (negb v); [discriminate|]. inv1 E. inv1 E. destruct v1; [discriminate|]. inv1 E. destruct v1; try discriminate;
      inv1 E; destruct v1; try discriminate; inv1 E; destruct v1; try discriminate; inv1 E; destruct v1; try discriminate; apply Done_inj in E; injection E as <-; reflexivity. }
  intros HO E. unfold frame_new in E. destruct (_ <? _); [discriminate|]. inv1 E. destruct (fc_new v) as [fc|]; [|discriminate]. inv1 E.
  destruct v0; try discriminate; inv1 E.
  - destruct v0; try discriminate; inv1 E; apply Done_inj, W in E; destruct E as (x & K & ->); subst; try discriminate. apply EN in V2. subst. exact HO.
  - apply Done_inj, W in E. destruct E as (x & -> & ->). apply DN in V1. subst. exact HO.
  - destruct v0; try discriminate; apply Done_inj, W in E; destruct E as (x & K & ->).
    + unfold ack_new in K. destruct (negb _); [discriminate|]. injection K as <-. exact HO.
    + unfold ack_new in K. destruct (negb _); [discriminate|]. injection K as <-. exact HO.
    + injection K as <-. exact HO.
Qed.
Lemma frame_addressing_octets b f o af : octets b -> frame_new b = Done (Ok f) -> frame_addressing f = Done o -> o = Some af -> octets (af_buffer af).
Proof.
  intros HO HN E K. apply frame_new_octets in HN; [|exact HO]. clear HO b. destruct f as [b|b|b|b|b]; cbn [frame_addressing] in E.
  - apply Done_inj in E. subst o. discriminate.
  - unfold ea_addressing in E. inv E. apply Done_inj in E. subst o. eapply af_new_octets; [|eassumption|exact K]. destruct v0; eapply slice_from_octets; eassumption.
  - unfold some in E. inv1 E. apply Done_inj in E. subst o. injection K as ->. unfold beacon_addressing in V. inv V. apply Done_inj in V. subst af. cbn [af_buffer]. eapply slice_from_octets; eassumption.
  - unfold eb_addressing in E. inv E. apply Done_inj in E. subst o. eapply af_new_octets; [|eassumption|exact K]. destruct v0; eapply slice_from_octets; eassumption.
  - unfold data_addressing in E. inv E. apply Done_inj in E. subst o. eapply af_new_octets; [|eassumption|exact K]. destruct v0; eapply slice_from_octets; eassumption.
Qed.
Lemma ies_new_octets rest r d : octets rest -> ies_new rest = Done r -> ok r = Some d -> octets d.
Proof. intros HO E K. unfold ies_new in E. inv E. destruct v; apply Done_inj in E; subst r; [|discriminate]. injection K as <-. exact HO. Qed.
Lemma frame_ies_octets b f o d : octets b -> frame_new b = Done (Ok f) -> frame_ies f = Done o -> o = Some d -> octets d.
Proof.
  intros HO HN E K. apply frame_new_octets in HN; [|exact HO]. clear HO b. destruct f as [b|b|b|b|b]; cbn [frame_ies] in E.
  - apply Done_inj in E. subst o. discriminate.
  - unfold ea_ies in E. do 6 inv1 E. inv1 E. destruct v5; [|apply Done_inj in E; subst o; discriminate]. inv E. apply Done_inj in E. subst o. injection K as ->.
    eapply ies_new_octets; [|eassumption|]; [eapply slice_from_octets; eassumption|]. destruct v6; [|discriminate]. cbn [ok unwrap] in *. congruence.
  - apply Done_inj in E. subst o. discriminate.
  - unfold eb_ies in E. inv1 E. inv1 E. destruct v0; [|apply Done_inj in E; subst o; discriminate]. inv E. apply Done_inj in E. subst o.
    eapply ies_new_octets; [|eassumption|exact K]. eapply slice_from_octets; eassumption.
  - unfold data_ies in E. inv1 E. inv1 E. destruct v0; [|apply Done_inj in E; subst o; discriminate]. inv E. apply Done_inj in E. subst o.
    eapply ies_new_octets; [|eassumption|exact K]. eapply slice_from_octets; eassumption.
Qed.
Lemma cat_lines_ok b L : octets b -> cat_parse b = Done L -> Forall line_ok L.
Proof.
  intros HO E. unfold cat_parse in E. inv1 E. destruct v as [f|]; [|discriminate]. cbn [ok unwrap bind] in E. do 11 inv1 E.
  apply Done_inj in E. subst L.
  assert (G0 : good 0 w_new) by (split; [reflexivity|constructor]).
  repeat match goal with
  | H : cat_frame_control _ _ = Done ?w |- _ => apply cat_fc_good in H; [|assumption]
  | H : cat_sequence_number _ _ = Done ?w |- _ => apply cat_seq_good in H; [|assumption]
  | H : cat_addressing _ _ = Done ?w |- _ => apply cat_addressing_good in H; [|assumption|intros af K; eapply frame_addressing_octets; eassumption]
  | H : cat_aux _ _ = Done ?w |- _ => apply cat_aux_good in H; [|assumption]
  | H : cat_ies _ _ = Done ?w |- _ => apply cat_ies_good in H; [|intros af K; eapply frame_ies_octets; eassumption|assumption]
  end.
  match goal with |- Forall _ (w_lines (cat_payload ?o ?w)) => assert (HG : good 0 w) by assumption; destruct o as [p|]; cbn [cat_payload]; [|apply HG] end.
  match goal with |- Forall _ (w_lines ?w) => cut (good 2 w); [intros [_ K]; exact K|] end.
  wl. apply (good_inc 0). wl. exact HG.
Qed.

(** ** The text written for a line is the text the specification describes *)
Lemma named_by table other id : NoDup (map fst table) -> forall n, named table other id n -> name_in table other id = n.
Proof.
  intros ND n [H|[H ->]].
  - induction table as [|[i s] r IH]; [destruct H|]. cbn [name_in map fst] in *. inversion_clear ND as [|? ? N1 N2]. destruct H as [H|H].
    + injection H as -> ->. rewrite N.eqb_refl. reflexivity.
    + destruct (N.eqb_spec id i) as [->|]; [|apply IH; assumption]. destruct N1. apply (in_map fst) in H. exact H.
  - induction table as [|[i s] r IH]; [reflexivity|]. cbn [name_in map fst] in *. destruct (N.eqb_spec id i) as [->|]; [destruct H; left; reflexivity|].
    apply IH; [inversion_clear ND; assumption|]. intros K. apply H. right. exact K.
Qed.
Lemma name_named table other id : named table other id (name_in table other id).
Proof.
  induction table as [|[i s] r IH]; [right; split; [intros []|reflexivity]|]. cbn [name_in]. destruct (N.eqb_spec id i) as [->|N1]; [left; left; reflexivity|].
  destruct IH as [IH|[IH1 IH2]]; [left; right; exact IH|right]. split; [|exact IH2]. cbn [map fst]. intros [K|K]; [congruence|contradiction].
Qed.
Lemma line_shown tie k x : line_ok (k, x) -> shown_line (k, x) (line_text false tie (k, x)).
Proof.
  intros HO. unfold line_text. cbn [fst snd].
  assert (ONE : forall t, concat (map (paint false) (line_spans tie k x)) = t -> shown_value x t -> line_end x = nl ->
     shown_line (k, x) (repeat 32%N k ++ concat (map (paint false) (line_spans tie k x)) ++ line_end x)) by (intros t -> H ->; apply shl_one, H).
  assert (TM : forall us, within us -> shows_time us (us_display tie us)) by (intros us Hu; apply us_display_close; unfold within in Hu; lia).
  assert (AD : forall a, address_wf a -> shown_address a (address_display a)).
  { intros [|v|v] H; cbn [shown_address address_display address_wf] in *; [reflexivity|..]; (apply display_shown; [|tauto]); intros ->; cbn in H; lia. }
  assert (DB : forall v : bool, dec_bool v = txt (if v then "1" else "0")) by (intros []; reflexivity).
  destruct x; cbn [line_ok fst snd] in HO;
    try (eapply ONE; [cbn [line_spans labelled plain map paint concat]; rewrite ?app_nil_r; reflexivity| |reflexivity]).
  - rewrite (surjective_pairing (heading_span h)). destruct h; apply sv_heading.
  - replace (txt "frame type" ++ txt ": " ++ (if enhanced then txt "Enhanced " else []) ++ txt (FrameType_name t))
      with (txt "frame type: " ++ txt (if enhanced then "Enhanced " else "")%string ++ txt (type_words t)) by (destruct enhanced, t; reflexivity). apply sv_type.
  - rewrite DB. replace (txt (flag_label f) ++ txt ": " ++ txt (if v then "1" else "0")%string) with (txt (flag_words f) ++ txt (if v then "1" else "0")%string) by (destruct f; reflexivity). apply sv_flag.
  - replace (AddressingMode_name m) with (mode_words m) by (destruct m; reflexivity). apply sv_dmode.
  - replace (AddressingMode_name m) with (mode_words m) by (destruct m; reflexivity). apply sv_smode.
  - replace (dec (version_number v) ++ txt " (" ++ txt (FrameVersion_name v) ++ txt ")") with (txt (version_words v)) by (destruct v; reflexivity). apply sv_version.
  - apply sv_seq, dec_numeral.
  - apply sv_dpan, hex_numeral.
  - unfold addr_value. replace (if broadcast then txt " (broadcast)" else []) with (txt (if broadcast then " (broadcast)" else "")%string) by (destruct broadcast; reflexivity). apply sv_daddr, AD, HO.
  - apply sv_span, hex_numeral.
  - unfold addr_value. replace (if broadcast then txt " (broadcast)" else []) with (txt (if broadcast then " (broadcast)" else "")%string) by (destruct broadcast; reflexivity). apply sv_saddr, AD, HO.
  - apply sv_aux.
  - apply sv_unimplemented.
  - apply sv_invalid.
  - apply sv_header. apply (name_named header_table "Unkown").
  - rewrite DB. apply sv_correction, TM, HO.
  - apply sv_mlme.
  - apply sv_group. apply (name_named payload_table "Unknown").
  - destruct id as [id|id]; cbn [map paint concat]; rewrite app_nil_r.
    + apply sv_short. apply (name_named nested_short_table "Unkown").
    + apply sv_long. apply (name_named nested_long_table "Unkown").
  - apply sv_sync; apply dec_numeral.
  - apply sv_timeslot, dec_numeral.
  - cbn [line_spans plain map paint concat line_end]. rewrite !app_nil_r.
    replace (repeat 32%N k ++ timings_display tie k t) with (concat (map (indented k) (map (fun r => txt (fst r) ++ us_display tie (snd r)) (timing_rows t)))).
    + apply shl_timings. revert HO. generalize (timing_rows t). clear - TM. induction l as [|[s u] l IH]; intros H; [constructor|]. cbn [map snd] in H. inversion_clear H as [|? ? H1 H2].
      cbn [map]. constructor; [|apply IH, H2]. eexists. split; [reflexivity|]. apply TM, H1.
    + unfold timings_display, indented, timing_rows. cbn [map concat fst snd]. unfold nl. rewrite app_nil_r, <- !app_assoc. reflexivity.
  - apply sv_slotframes, dec_numeral.
  - apply sv_slotframe; apply dec_numeral.
  - apply sv_link; [apply dec_numeral|apply dec_numeral|]. rewrite options_flags. apply bars_barred.
  - apply sv_hopping, dec_numeral.
  - apply sv_octets. apply (slice_shown 16 hex hex_numeral).
Qed.

(** ** Reading the lines back *)
Fixpoint prefix (p t : list N) : bool :=
  match p, t with [], _ => true | x :: p, y :: t => (x =? y)%N && prefix p t | _, _ => false end.
Lemma prefix_app p t : prefix p (p ++ t) = true.
Proof. induction p as [|x p IH]; [reflexivity|]. cbn [prefix app]. rewrite N.eqb_refl. exact IH. Qed.
Lemma prefix_either p q t u : p ++ t = q ++ u -> prefix p q = true \/ prefix q p = true.
Proof.
  revert q. induction p as [|x p IH]; intros [|y q] E; cbn [prefix]; [left; reflexivity|left; reflexivity|right; reflexivity|].
  cbn [app] in E. injection E as -> E. rewrite N.eqb_refl. cbn [andb]. apply (IH _ E).
Qed.
(** the label a line starts with, if there is one *)
Definition label_of (x : line) : option string :=
  match x with
  | LFrameType _ _ => Some "frame type: " | LFlag f _ => Some (flag_words f)
  | LDstMode _ => Some "dst addressing mode: " | LSrcMode _ => Some "src addressing mode: " | LVersion _ => Some "frame version: "
  | LSeq _ => Some "sequence number: " | LDstPan _ => Some "dst pan id: " | LDstAddr _ _ => Some "dst addr: "
  | LSrcPan _ => Some "src pan id: " | LSrcAddr _ _ => Some "src addr: " | LSync _ _ => Some "ASN: " | LTimeslot _ => Some "slot ID: "
  | LSlotframes _ => Some "#slotframes: " | LSlotframe _ _ => Some "Slotframe Handle: " | LLink _ _ _ => Some "Timeslot: "
  | LHopping _ => Some "sequence ID: " | LOctets _ => Some "[" | LTimings _ => Some "cca_offset: "
  | _ => None
  end%string.
Definition all_labels : list string :=
  ["frame type: "; "security: "; "frame pending: "; "ack request: "; "pan id compression: "; "sequence number suppression: ";
   "information elements present: "; "dst addressing mode: "; "src addressing mode: "; "frame version: "; "sequence number: "; "dst pan id: ";
   "dst addr: "; "src pan id: "; "src addr: "; "ASN: "; "slot ID: "; "#slotframes: "; "Slotframe Handle: "; "Timeslot: "; "sequence ID: "; "[";
   "cca_offset: "]%string.
Lemma label_listed x l : label_of x = Some l -> In l all_labels.
Proof.
  intros E. assert (K : existsb (String.eqb l) all_labels = true); [|apply existsb_exists in K; destruct K as (y & HI & HE); apply String.eqb_eq in HE; subst; exact HI].
  destruct x; try discriminate; cbn [label_of] in E; injection E as <-; try reflexivity. destruct f; reflexivity.
Qed.
Lemma labels_differ l m t u : In l all_labels -> In m all_labels -> txt l ++ t = txt m ++ u -> l = m.
Proof.
  intros Hl Hm E. assert (B : forallb (fun a => forallb (fun b => negb (prefix (txt a) (txt b)) || String.eqb a b)%bool all_labels) all_labels = true) by (vm_compute; reflexivity).
  rewrite forallb_forall in B. destruct (prefix_either _ _ _ _ E) as [P|P].
  - specialize (B l Hl). rewrite forallb_forall in B. specialize (B m Hm). rewrite P in B. apply String.eqb_eq, B.
  - specialize (B m Hm). rewrite forallb_forall in B. specialize (B l Hl). rewrite P in B. symmetry. apply String.eqb_eq, B.
Qed.
(** the lines that are fixed words *)
Definition word_lines : list (line * string) :=
  map (fun h => (LHeading h, heading_words h)) [HFrameControl; HSequenceNumber; HAddressing; HAuxiliary; HInformationElements; HHeaderIes; HPayloadIes; HPayload] ++
  [(LAuxUnimplemented, "unimplementec"); (LUnimplemented, "unimplemented"); (LInvalid, "invalid"); (LMlme, "MLME")]%string ++
  map (fun i => (LHeaderId i, name_in header_table "Unkown" i)) (HeUnknown :: header_ids) ++
  map (fun i => (LGroupUnimplemented i, (name_in payload_table "Unknown" i ++ ": unimplemented")%string)) (PgUnknown :: payload_ids) ++
  map (fun i => (LSubId (SubShort i), name_in nested_short_table "Unkown" i)) short_list ++
  map (fun i => (LSubId (SubLong i), name_in nested_long_table "Unkown" i)) long_list.
Lemma txt_append a b : txt (a ++ b)%string = txt a ++ txt b.
Proof. induction a as [|c a IH]; [reflexivity|]. cbn [append txt]. rewrite IH. reflexivity. Qed.
(** what a line starts with *)
Inductive looks : line -> list N -> Prop :=
| lk_label x l v : label_of x = Some l -> looks x (txt l ++ v)
| lk_word x n : In (x, n) word_lines -> looks x (txt n)
| lk_time us b c t : (c = 45 \/ 48 <= c <= 57)%N -> looks (LTimeCorrection us b) (c :: t).
Lemma NoDup_b l : (fix nd (l : list N) := match l with [] => true | x :: r => negb (existsb (N.eqb x) r) && nd r end) l = true -> NoDup l.
Proof.
  induction l as [|x r IH]; intros H; [constructor|]. apply andb_prop in H. destruct H as [H1 H2]. constructor; [|apply IH, H2].
  intros K. apply negb_true_iff in H1. assert (existsb (N.eqb x) r = true) by (apply existsb_exists; exists x; split; [exact K|apply N.eqb_refl]). congruence.
Qed.
Lemma shows_ms_start t neg h : shows_ms t neg h -> exists c r, t = c :: r /\ (c = 45 \/ 48 <= c <= 57)%N.
Proof.
  intros (i & c1 & c2 & u & d1 & d2 & -> & HN & _). destruct neg; [eexists; eexists; split; [reflexivity|left; reflexivity]|].
  cbn [app]. assert (K : exists c r, i = c :: r /\ (48 <= c <= 57)%N).
  { clear - HN. induction HN as [c d HD HB|s v c d HN IH HV HD HB].
    - exists c, []. split; [reflexivity|]. unfold low_digit in HD. lia.
    - destruct IH as (c' & r & -> & Hc). exists c', (r ++ [c]). split; [reflexivity|exact Hc]. }
  destruct K as (c & r & -> & Hc). eexists. eexists. split; [reflexivity|right; exact Hc].
Qed.
Lemma shown_looks k x t : line_ok (k, x) -> shown_value x t -> looks x t.
Proof.
  intros HO H. destruct H; cbn [line_ok fst snd] in HO; try (apply lk_label; reflexivity).
  - apply lk_word. destruct h; cbn; tauto.
  - apply lk_word. unfold word_lines. apply in_or_app. right. apply in_or_app. left. cbn. tauto.
  - apply lk_word. unfold word_lines. apply in_or_app. right. apply in_or_app. left. cbn. tauto.
  - apply lk_word. unfold word_lines. apply in_or_app. right. apply in_or_app. left. cbn. tauto.
  - apply named_by in H; [|apply NoDup_b; reflexivity]. subst n. apply lk_word. unfold word_lines. apply in_or_app. right. apply in_or_app. right. apply in_or_app. left.
    apply (in_map (fun i => (LHeaderId i, name_in header_table "Unkown" i))), HO.
  - destruct H as (h & H & _). destruct (shows_ms_start _ _ _ H) as (c & r & -> & Hc). apply lk_time, Hc.
  - apply lk_word. unfold word_lines. apply in_or_app. right. apply in_or_app. left. cbn. tauto.
  - apply named_by in H; [|apply NoDup_b; reflexivity]. subst n. rewrite <- txt_append. apply lk_word. unfold word_lines. do 3 (apply in_or_app; right). apply in_or_app. left.
    apply (in_map (fun i => (LGroupUnimplemented i, (name_in payload_table "Unknown" i ++ ": unimplemented")%string))), HO.
  - apply named_by in H; [|apply NoDup_b; reflexivity]. subst n. apply lk_word. unfold word_lines. do 4 (apply in_or_app; right). apply in_or_app. left.
    apply (in_map (fun i => (LSubId (SubShort i), name_in nested_short_table "Unkown" i))), HO.
  - apply named_by in H; [|apply NoDup_b; reflexivity]. subst n. apply lk_word. unfold word_lines. do 4 (apply in_or_app; right). apply in_or_app. right.
    apply (in_map (fun i => (LSubId (SubLong i), name_in nested_long_table "Unkown" i))), HO.
  - assert (K : exists r, t = txt "[" ++ r). { destruct H as [[_ ->]|(s & -> & _)]; eexists; reflexivity. } destruct K as (r & ->). apply lk_label. reflexivity.
Qed.

Lemma word_unique : forall i j, i < length word_lines -> j < length word_lines ->
  snd (nth i word_lines (LMlme, ""%string)) = snd (nth j word_lines (LMlme, ""%string)) -> i = j \/ snd (nth i word_lines (LMlme, ""%string)) = "Unkown"%string.
Proof.
  assert (B : forallb (fun i => forallb (fun j => negb (String.eqb (snd (nth i word_lines (LMlme, ""%string))) (snd (nth j word_lines (LMlme, ""%string)))) || (i =? j) ||
     String.eqb (snd (nth i word_lines (LMlme, ""%string))) "Unkown")%bool (seq 0 (length word_lines))) (seq 0 (length word_lines)) = true) by (vm_compute; reflexivity).
  intros i j Hi Hj E. rewrite forallb_forall in B. specialize (B i ltac:(apply in_seq; lia)). rewrite forallb_forall in B. specialize (B j ltac:(apply in_seq; lia)).
  rewrite E, String.eqb_refl in B. cbn [negb orb] in B. apply orb_prop in B. destruct B as [B|B]; [left; apply Nat.eqb_eq, B|right; rewrite E; apply String.eqb_eq, B].
Qed.
Lemma word_unkown x : In (x, "Unkown"%string) word_lines -> x = LHeaderId HeUnknown \/ x = LSubId (SubShort 0x47) \/ x = LSubId (SubLong 0x0a).
Proof.
  intros H. assert (B : forallb (fun p => negb (String.eqb (snd p) "Unkown") || match fst p with LHeaderId i => (i =? HeUnknown)%N | LSubId (SubShort i) => (i =? 0x47)%N | LSubId (SubLong i) => (i =? 0x0a)%N | _ => false end)%bool word_lines = true) by (vm_compute; reflexivity).
  rewrite forallb_forall in B. specialize (B _ H). cbn [snd fst String.eqb] in B. change ("Unkown" =? "Unkown")%string with true in B. cbn [negb orb] in B.
  destruct x as [| | | | | | | | | | | | | | i | | | | [i|i] | | | | | | | |]; try discriminate; apply N.eqb_eq in B; subst i; tauto.
Qed.
Lemma same_refl x : same_line x x.
Proof. destruct x as [| | | | | | | | | | | | | | i | | | | [i|i] | | | | | | | |]; try reflexivity; cbn [same_line]; [split; [unfold near; lia|reflexivity]|]. generalize (map snd (timing_rows t)). induction l; constructor; [unfold near; lia|assumption]. Qed.
Lemma read_word k x y n : line_ok (k, x) -> line_ok (k, y) -> In (x, n) word_lines -> In (y, n) word_lines -> same_line x y.
Proof.
  intros Hx Hy Ix Iy. destruct (In_nth _ _ (LMlme, ""%string) Ix) as (i & Li & Ei). destruct (In_nth _ _ (LMlme, ""%string) Iy) as (j & Lj & Ej).
  destruct (word_unique i j Li Lj) as [->|K]; [rewrite Ei, Ej; reflexivity| |].
  - rewrite Ei in Ej. injection Ej as ->. apply same_refl.
  - rewrite Ei in K. cbn [snd] in K. subst n. apply word_unkown in Ix, Iy.
    assert (N1 : ~ In 0x47%N (map fst nested_short_table)) by (vm_compute; intuition discriminate).
    assert (N2 : ~ In 0x0a%N (map fst nested_long_table)) by (vm_compute; intuition discriminate).
    destruct Ix as [-> |[-> | ->]], Iy as [-> |[-> | ->]]; try apply same_refl; cbn [line_ok fst snd] in Hx, Hy; try (destruct Hx as [Hx _], Hy as [Hy _]; exfalso; lia); split; assumption.
Qed.
(** the three kinds do not look alike *)
Lemma looks_apart x y t : looks x t -> looks y t -> (exists l, label_of x = Some l /\ label_of y = Some l) \/ (exists n, In (x, n) word_lines /\ In (y, n) word_lines) \/
  (exists a b c d, x = LTimeCorrection a b /\ y = LTimeCorrection c d).
Proof.
  assert (W1 : forall n l v x, In (x, n) word_lines -> In l all_labels -> txt n = txt l ++ v -> False).
  { intros n l v z Hn Hl E. assert (B : forallb (fun p => forallb (fun l => negb (prefix (txt l) (txt (snd p)))) all_labels) word_lines = true) by (vm_compute; reflexivity).
    rewrite forallb_forall in B. specialize (B _ Hn). cbn [snd] in B. rewrite forallb_forall in B. specialize (B l Hl). rewrite E, prefix_app in B. discriminate. }
  assert (W2 : forall n x c t, In (x, n) word_lines -> txt n = c :: t -> (c = 45 \/ 48 <= c <= 57)%N -> False).
  { intros n z c t' Hn E Hc. assert (B : forallb (fun p => match txt (snd p) with c :: _ => (58 <=? c)%N | [] => false end) word_lines = true) by (vm_compute; reflexivity).
    rewrite forallb_forall in B. specialize (B _ Hn). cbn [snd] in B. rewrite E in B. apply N.leb_le in B. lia. }
  assert (W3 : forall l v c t, In l all_labels -> txt l ++ v = c :: t -> (c = 45 \/ 48 <= c <= 57)%N -> False).
  { intros l v c t' Hl E Hc. assert (B : forallb (fun l => match txt l with c :: _ => (58 <=? c)%N || (c =? 35)%N | [] => false end)%bool all_labels = true) by (vm_compute; reflexivity).
    rewrite forallb_forall in B. specialize (B _ Hl). destruct (txt l) as [|c' t1]; [discriminate|]. cbn [app] in E. injection E as -> _. apply orb_prop in B. destruct B as [B|B]; [apply N.leb_le in B|apply N.eqb_eq in B]; lia. }
  intros H H'. inversion H as [x0 l v EL E1 E2|x0 n IW E1 E2|us b c r Hc E1 E2]; subst; inversion H' as [y0 l' v' EL' F1 F2|y0 n' IW' F1 F2|us' b' c' r' Hc' F1 F2]; subst.
  - pose proof (label_listed _ _ EL). pose proof (label_listed _ _ EL'). assert (l' = l) by (eapply labels_differ; eassumption). subst l'. left. exists l. split; assumption.
  - exfalso. eapply (W1 n' l v); [eassumption|eapply label_listed; eassumption|assumption].
  - exfalso. eapply W3; [eapply label_listed, EL|symmetry; eassumption|assumption].
  - exfalso. eapply (W1 n l' v'); [eassumption|eapply label_listed; eassumption|symmetry; assumption].
  - right. left. apply txt_inj in F2. subst n'. exists n. split; assumption.
  - exfalso. eapply W2; [exact IW|symmetry; eassumption|assumption].
  - exfalso. eapply W3; [eapply label_listed, EL'|eassumption|assumption].
  - exfalso. eapply W2; [exact IW'|eassumption|assumption].
  - right. right. do 4 eexists. split; reflexivity.
Qed.
(** values *)
Lemma near_time t a b : shows_time a t -> shows_time b t -> near a b.
Proof.
  intros (h & H & B) (h' & H' & B'). destruct (shows_ms_fun _ _ _ _ _ H H') as [E <-]. unfold near.
  destruct (Z.ltb_spec a 0), (Z.ltb_spec b 0); try discriminate; lia.
Qed.
Lemma shows_ms_free t neg h c : shows_ms t neg h -> (c < 45 \/ c = 47 \/ 58 <= c <= 96 \/ 116 <= c)%N -> ~ In c t.
Proof.
  intros (i & c1 & c2 & u & d1 & d2 & -> & HN & H1 & H2 & L1 & L2 & _) HC K. unfold low_digit in *.
  repeat (apply in_app_or in K; destruct K as [K|K]).
  - destruct neg; [|destruct K]. cbn in K. destruct K as [K|[]]. lia.
  - apply (numeral_free _ _ _ c HN) in K; [exact K|]. lia.
  - cbn in K. destruct K as [K|[]]. lia.
  - destruct K as [K|[K|[]]]; lia.
  - cbn in K. destruct K as [K|[K|[]]]; lia.
Qed.
Lemma shown_octets_chars t v : shown_octets t v -> Forall (fun c => 48 <= c <= 58 \/ 97 <= c <= 102)%N t.
Proof.
  induction 1 as [c1 c2 h l H1 H2|c1 c2 h l s vs H1 H2 _ IH]; unfold low_digit in *; repeat (apply Forall_cons; [lia|]); [apply Forall_nil|exact IH].
Qed.
Lemma shown_octets_fun t v : shown_octets t v -> forall v', shown_octets t v' -> v = v'.
Proof.
  induction 1 as [c1 c2 h l H1 H2|c1 c2 h l s vs H1 H2 H3 IH]; intros v' H'; inversion H' as [d1 d2 h' l' K1 K2 E|d1 d2 h' l' s' vs' K1 K2 K3 E]; subst.
  - rewrite (low_digit_fun _ _ _ H1 K1), (low_digit_fun _ _ _ H2 K2). reflexivity.
  - rewrite (low_digit_fun _ _ _ H1 K1), (low_digit_fun _ _ _ H2 K2), (IH _ K3). reflexivity.
Qed.
Lemma shown_address_free a t c : shown_address a t -> (c < 48)%N -> ~ In c t.
Proof.
  intros H HC K. destruct a as [|v|v]; cbn [shown_address] in H.
  - subst t. cbn in K. decompose [or] K; lia.
  - apply shown_octets_chars in H. rewrite Forall_forall in H. apply H in K. lia.
  - apply shown_octets_chars in H. rewrite Forall_forall in H. apply H in K. lia.
Qed.
Lemma shown_address_fun a b t : address_wf a -> address_wf b -> shown_address a t -> shown_address b t -> a = b.
Proof.
  assert (NA : forall v, ~ shown_octets (txt "absent") v).
  { intros v H. apply shown_octets_chars in H. rewrite Forall_forall in H. specialize (H 115%N ltac:(cbn; tauto)). lia. }
  intros Wa Wb Ha Hb. destruct a as [|v|v], b as [|w|w]; cbn [shown_address address_wf] in *; try reflexivity; try (subst t; exfalso; eapply NA; eassumption).
  - rewrite (shown_octets_fun _ _ Ha _ Hb). reflexivity.
  - pose proof (shown_octets_fun _ _ Ha _ Hb). subst. lia.
  - pose proof (shown_octets_fun _ _ Ha _ Hb). subst. lia.
  - rewrite (shown_octets_fun _ _ Ha _ Hb). reflexivity.
Qed.
Lemma read_address a b (p q : bool) s t : address_wf a -> address_wf b -> shown_address a s -> shown_address b t ->
  s ++ txt (if p then " (broadcast)" else "")%string = t ++ txt (if q then " (broadcast)" else "")%string -> a = b /\ p = q.
Proof.
  intros Wa Wb Ha Hb E. pose proof (shown_address_free _ _ 32 Ha ltac:(lia)) as Fa. pose proof (shown_address_free _ _ 32 Hb ltac:(lia)) as Fb.
  destruct p, q.
  - apply app_inv_tail in E. subst t. split; [eapply shown_address_fun; eassumption|reflexivity].
  - exfalso. cbn [txt] in E. rewrite app_nil_r in E. apply Fb. rewrite <- E. apply in_or_app. right. left. reflexivity.
  - exfalso. cbn [txt] in E. rewrite app_nil_r in E. apply Fa. rewrite E. apply in_or_app. right. left. reflexivity.
  - apply app_inv_tail in E. subst t. split; [eapply shown_address_fun; eassumption|reflexivity].
Qed.
Lemma barred_fun l t : barred l t -> t = bars l.
Proof. induction 1 as [|p|p q r t H IH]; [reflexivity..|]. rewrite IH. reflexivity. Qed.
Lemma cut_comma s t u v sep : ~ In 44%N s -> ~ In 44%N t -> s ++ 44%N :: sep ++ u = t ++ 44%N :: sep ++ v -> s = t /\ u = v.
Proof. intros Hs Ht E. apply cut_at_char in E; [|assumption|assumption]. destruct E as [-> E]. apply app_inv_head in E. split; [reflexivity|exact E]. Qed.
Lemma numeral_comma base s v : numeral base s v -> ~ In 44%N s.
Proof. intros H. apply (numeral_free _ _ _ 44 H). lia. Qed.
(** the labelled lines, by their values *)
Definition shape (x : line) (t : list N) : Prop :=
  match x with
  | LFrameType e ty => t = txt "frame type: " ++ txt (if e then "Enhanced " else "")%string ++ txt (type_words ty)
  | LFlag f v => t = txt (flag_words f) ++ txt (if v then "1" else "0")%string
  | LDstMode m => t = txt "dst addressing mode: " ++ txt (mode_words m)
  | LSrcMode m => t = txt "src addressing mode: " ++ txt (mode_words m)
  | LVersion v => t = txt "frame version: " ++ txt (version_words v)
  | LSeq n => exists s, t = txt "sequence number: " ++ s /\ numeral 10 s n
  | LDstPan n => exists s, t = txt "dst pan id: " ++ s /\ numeral 16 s n
  | LSrcPan n => exists s, t = txt "src pan id: " ++ s /\ numeral 16 s n
  | LDstAddr a bc => exists s, t = txt "dst addr: " ++ s ++ txt (if bc then " (broadcast)" else "")%string /\ shown_address a s
  | LSrcAddr a bc => exists s, t = txt "src addr: " ++ s ++ txt (if bc then " (broadcast)" else "")%string /\ shown_address a s
  | LTimeCorrection us nack => exists s, t = s ++ txt ", nack: " ++ txt (if nack then "1" else "0")%string /\ shows_time us s
  | LSync a j => exists s u, t = txt "ASN: " ++ s ++ txt ", join metric: " ++ u /\ numeral 10 s a /\ numeral 10 u j
  | LTimeslot n => exists s, t = txt "slot ID: " ++ s /\ numeral 10 s n
  | LSlotframes n => exists s, t = txt "#slotframes: " ++ s /\ numeral 10 s n
  | LHopping n => exists s, t = txt "sequence ID: " ++ s /\ numeral 10 s n
  | LSlotframe a j => exists s u, t = txt "Slotframe Handle: " ++ s ++ txt ", #links: " ++ u /\ numeral 10 s a /\ numeral 10 u j
  | LLink n c o => exists s u w, t = txt "Timeslot: " ++ s ++ txt ", Channel Offset: " ++ u ++ txt ", Link Options: " ++ w /\
      numeral 10 s n /\ numeral 10 u c /\ barred (flags_of o) w
  | LOctets l => shown_slice 16 t l
  | LTimings _ => False
  | _ => True
  end.
Lemma shown_shape x t : shown_value x t -> shape x t.
Proof. destruct 1; cbn [shape]; try exact I; try reflexivity; try (eexists; split; [reflexivity|eassumption]); try (do 2 eexists; split; [reflexivity|split; eassumption]);
  try (do 3 eexists; split; [reflexivity|repeat split; eassumption]); try assumption. Qed.
Lemma numerals_fun base s v v' : numeral base s v -> numeral base s v' -> v = v'.
Proof. intros H. apply (numeral_fun _ _ _ H). Qed.
Lemma shape_read k x y l t : line_ok (k, x) -> line_ok (k, y) -> label_of x = Some l -> label_of y = Some l -> shape x t -> shape y t -> same_line x y.
Proof.
  intros Ox Oy Ex Ey Hx Hy. destruct x; try discriminate Ex; cbn [label_of] in Ex; apply (f_equal (fun o => match o with Some s => s | None => l end)) in Ex; subst l;
    destruct y; try discriminate Ey; cbn [label_of] in Ey;
    try (exfalso; match type of Ey with Some (flag_words ?f) = _ => destruct f | Some _ = Some (flag_words ?f) => destruct f end; discriminate Ey);
    cbn [shape line_ok snd] in Hx, Hy, Ox, Oy; cbn [same_line].
  - subst t. apply app_inv_head in Hy. destruct enhanced, enhanced0, t0, t1; try reflexivity; discriminate Hy.
  - assert (f = f0) as <- by (destruct f, f0; try reflexivity; discriminate Ey). subst t. apply app_inv_head in Hy. destruct v, v0; try reflexivity; discriminate Hy.
  - subst t. apply app_inv_head in Hy. destruct m, m0; try reflexivity; discriminate Hy.
  - subst t. apply app_inv_head in Hy. destruct m, m0; try reflexivity; discriminate Hy.
  - subst t. apply app_inv_head in Hy. destruct v, v0; try reflexivity; discriminate Hy.
  - destruct Hx as (s & -> & Hs), Hy as (s' & E & Hs'). apply app_inv_head in E. subst s'. f_equal. eapply numerals_fun; eassumption.
  - destruct Hx as (s & -> & Hs), Hy as (s' & E & Hs'). apply app_inv_head in E. subst s'. f_equal. eapply numerals_fun; eassumption.
  - destruct Hx as (s & -> & Hs), Hy as (s' & E & Hs'). apply app_inv_head in E. destruct (read_address _ _ _ _ _ _ Ox Oy Hs Hs' E) as [-> ->]. reflexivity.
  - destruct Hx as (s & -> & Hs), Hy as (s' & E & Hs'). apply app_inv_head in E. subst s'. f_equal. eapply numerals_fun; eassumption.
  - destruct Hx as (s & -> & Hs), Hy as (s' & E & Hs'). apply app_inv_head in E. destruct (read_address _ _ _ _ _ _ Ox Oy Hs Hs' E) as [-> ->]. reflexivity.
  - destruct Hx as (s & u & -> & Hs & Hu), Hy as (s' & u' & E & Hs' & Hu'). apply app_inv_head in E.
    apply (cut_comma s s' u u' (txt " join metric: ")) in E; [|eapply numeral_comma; eassumption..]. destruct E as [-> ->]. f_equal; eapply numerals_fun; eassumption.
  - destruct Hx as (s & -> & Hs), Hy as (s' & E & Hs'). apply app_inv_head in E. subst s'. f_equal. eapply numerals_fun; eassumption.
  - destruct Hx.
  - destruct Hx as (s & -> & Hs), Hy as (s' & E & Hs'). apply app_inv_head in E. subst s'. f_equal. eapply numerals_fun; eassumption.
  - destruct Hx as (s & u & -> & Hs & Hu), Hy as (s' & u' & E & Hs' & Hu'). apply app_inv_head in E.
    apply (cut_comma s s' u u' (txt " #links: ")) in E; [|eapply numeral_comma; eassumption..]. destruct E as [-> ->]. f_equal; eapply numerals_fun; eassumption.
  - destruct Hx as (s & u & w & -> & Hs & Hu & Hw), Hy as (s' & u' & w' & E & Hs' & Hu' & Hw'). apply app_inv_head in E.
    apply (cut_comma s s' _ _ (txt " Channel Offset: ")) in E; [|eapply numeral_comma; eassumption..]. destruct E as [-> E].
    apply (cut_comma u u' _ _ (txt " Link Options: ")) in E; [|eapply numeral_comma; eassumption..]. destruct E as [-> ->].
    apply barred_fun in Hw, Hw'. rewrite Hw in Hw'. rewrite <- !options_flags in Hw'. f_equal; try (eapply numerals_fun; eassumption). apply C81_options; assumption.
  - destruct Hx as (s & -> & Hs), Hy as (s' & E & Hs'). apply app_inv_head in E. subst s'. f_equal. eapply numerals_fun; eassumption.
  - f_equal. eapply shown_slice_fun; eassumption.
Qed.
Lemma read_value k x y t : line_ok (k, x) -> line_ok (k, y) -> shown_value x t -> shown_value y t -> same_line x y.
Proof.
  intros Ox Oy Hx Hy. destruct (looks_apart x y t (shown_looks _ _ _ Ox Hx) (shown_looks _ _ _ Oy Hy)) as [(l & Ex & Ey)|[(n & Ix & Iy)|(a & b & c & d & -> & ->)]].
  - apply (shape_read k x y l t Ox Oy Ex Ey); apply shown_shape; assumption.
  - apply (read_word k x y n Ox Oy Ix Iy).
  - apply shown_shape in Hx, Hy. destruct Hx as (s & -> & S), Hy as (s' & E & S').
    apply (cut_comma s s' _ _ (txt " nack: ")) in E; [|destruct S as (h & S & _); eapply shows_ms_free; [eassumption|lia]|destruct S' as (h & S' & _); eapply shows_ms_free; [eassumption|lia]].
    destruct E as [-> E]. split; [eapply near_time; eassumption|]. destruct b, d; try discriminate; reflexivity.
Qed.
(** whole lines *)
Lemma looks_start x t : looks x t -> exists c r, t = c :: r /\ c <> 32%N.
Proof.
  intros H. inversion H as [x0 l v EL E1 E2|x0 n IW E1 E2|us b c r Hc E1 E2]; subst.
  - apply label_listed in EL. assert (B : forallb (fun l => match txt l with c :: _ => negb (c =? 32)%N | [] => false end) all_labels = true) by (vm_compute; reflexivity).
    rewrite forallb_forall in B. specialize (B _ EL). destruct (txt l) as [|c r]; [discriminate|]. exists c, (r ++ v). split; [reflexivity|]. apply negb_true_iff, N.eqb_neq in B. exact B.
  - assert (B : forallb (fun p => match txt (snd p) with c :: _ => negb (c =? 32)%N | [] => false end) word_lines = true) by (vm_compute; reflexivity).
    rewrite forallb_forall in B. specialize (B _ IW). cbn [snd] in B. destruct (txt n) as [|c r]; [discriminate|]. exists c, r. split; [reflexivity|]. apply negb_true_iff, N.eqb_neq in B. exact B.
  - exists c, r. split; [reflexivity|]. lia.
Qed.
Lemma indent_read k k' c c' r r' : c <> 32%N -> c' <> 32%N -> repeat 32%N k ++ c :: r = repeat 32%N k' ++ c' :: r' -> k = k' /\ c :: r = c' :: r'.
Proof.
  intros Hc Hc'. revert k'. induction k as [|k IH]; intros [|k'] E; cbn [repeat app] in E.
  - split; [reflexivity|exact E].
  - injection E as E _. contradiction.
  - injection E as E _. symmetry in E. contradiction.
  - injection E as E. destruct (IH _ E) as [-> K]. split; [reflexivity|exact K].
Qed.
(** no shown text has a character below the space, so no newline and no escape *)
Definition clean (t : list N) : Prop := forall c, (c < 32)%N -> ~ In c t.
Lemma clean_app a b : clean a -> clean b -> clean (a ++ b).
Proof. intros H K c Hc I. apply in_app_or in I. destruct I; [eapply H|eapply K]; eassumption. Qed.
Lemma clean_b t : forallb (fun c => (32 <=? c)%N) t = true -> clean t.
Proof. intros H c Hc K. rewrite forallb_forall in H. apply H in K. apply N.leb_le in K. lia. Qed.
Lemma clean_words (l : list (line * string)) x n : forallb (fun p => forallb (fun c => (32 <=? c)%N) (txt (snd p))) l = true -> In (x, n) l -> clean (txt n).
Proof. intros H K. rewrite forallb_forall in H. apply clean_b, (H _ K). Qed.
Lemma clean_numeral base s v : numeral base s v -> clean s.
Proof. intros H c Hc. apply (numeral_free _ _ _ c H). lia. Qed.
Lemma clean_time us s : shows_time us s -> clean s.
Proof. intros (h & H & _) c Hc. apply (shows_ms_free _ _ _ c H). lia. Qed.
Lemma clean_slice t l : shown_slice 16 t l -> clean t.
Proof.
  intros [[_ ->]|(s & -> & H)]; [apply clean_b; reflexivity|]. apply clean_app; [apply clean_b; reflexivity|]. apply clean_app; [|apply clean_b; reflexivity].
  intros c Hc. apply (shown_list_free _ _ _ c H). lia.
Qed.
Lemma clean_bars l t : Forall clean l -> barred l t -> clean t.
Proof.
  intros H HB. induction HB as [|p|p q r t HB IH]; [intros c _ []|inversion H; assumption|]. inversion_clear H as [|? ? H1 H2].
  apply clean_app; [exact H1|]. apply clean_app; [apply clean_b; reflexivity|apply IH, H2].
Qed.
Lemma shown_clean k x t : line_ok (k, x) -> shown_value x t -> clean t.
Proof.
  intros HO H. pose proof (shown_shape _ _ H) as S. pose proof (shown_looks _ _ _ HO H) as L.
  assert (W : forall n, In (x, n) word_lines -> t = txt n -> clean t) by (intros n K ->; eapply clean_words; [|exact K]; vm_compute; reflexivity).
  destruct L as [x l v EL|x n IW|us b c t Hc]; [|eapply W; [exact IW|reflexivity]|].
  2:{ destruct S as (s & -> & S). apply clean_app; [eapply clean_time, S|]. destruct b; apply clean_b; reflexivity. }
  clear W H HO. set (t := txt l ++ v) in *. clearbody t. clear v.
  destruct x; try discriminate EL; cbn [shape] in S.
  - subst t. destruct enhanced, t0; apply clean_b; reflexivity.
  - subst t. destruct f, v; apply clean_b; reflexivity.
  - subst t. destruct m; apply clean_b; reflexivity.
  - subst t. destruct m; apply clean_b; reflexivity.
  - subst t. destruct v; apply clean_b; reflexivity.
  - destruct S as (s & -> & S). apply clean_app; [apply clean_b; reflexivity|eapply clean_numeral, S].
  - destruct S as (s & -> & S). apply clean_app; [apply clean_b; reflexivity|eapply clean_numeral, S].
  - destruct S as (s & -> & S). apply clean_app; [apply clean_b; reflexivity|]. apply clean_app; [intros c Hc; eapply shown_address_free; [exact S|lia]|destruct broadcast; apply clean_b; reflexivity].
  - destruct S as (s & -> & S). apply clean_app; [apply clean_b; reflexivity|eapply clean_numeral, S].
  - destruct S as (s & -> & S). apply clean_app; [apply clean_b; reflexivity|]. apply clean_app; [intros c Hc; eapply shown_address_free; [exact S|lia]|destruct broadcast; apply clean_b; reflexivity].
  - destruct S as (s & u & -> & S & S'). repeat (apply clean_app); try (apply clean_b; reflexivity); eapply clean_numeral; eassumption.
  - destruct S as (s & -> & S). apply clean_app; [apply clean_b; reflexivity|eapply clean_numeral, S].
  - destruct S.
  - destruct S as (s & -> & S). apply clean_app; [apply clean_b; reflexivity|eapply clean_numeral, S].
  - destruct S as (s & u & -> & S & S'). repeat (apply clean_app); try (apply clean_b; reflexivity); eapply clean_numeral; eassumption.
  - destruct S as (s & u & w & -> & S & S' & S''). repeat (apply clean_app); try (apply clean_b; reflexivity); try (eapply clean_numeral; eassumption).
    eapply clean_bars; [|exact S'']. unfold flags_of. repeat (apply Forall_app; split); match goal with |- Forall _ (if ?b then _ else _) => destruct b end; try apply Forall_nil; (apply Forall_cons; [apply clean_b; reflexivity|apply Forall_nil]).
  - destruct S as (s & -> & S). apply clean_app; [apply clean_b; reflexivity|eapply clean_numeral, S].
  - eapply clean_slice, S.
Qed.
(** the first line of a text *)
Lemma line_read_first k k' t t' R R' x x' : looks x t -> looks x' t' -> clean t -> clean t' ->
  indented k t ++ R = indented k' t' ++ R' -> k = k' /\ t = t' /\ R = R'.
Proof.
  intros L L' C C' E. unfold indented in E. rewrite <- !app_assoc in E. cbn [app] in E.
  destruct (looks_start _ _ L) as (c & r & -> & Hc). destruct (looks_start _ _ L') as (c' & r' & -> & Hc'). cbn [app] in E.
  destruct (indent_read _ _ _ _ _ _ Hc Hc' E) as [-> E']. split; [reflexivity|].
  change ((c :: r) ++ 10%N :: R = (c' :: r') ++ 10%N :: R') in E'. apply cut_at_char in E'; [exact E'|apply C; lia|apply C'; lia].
Qed.
Definition row_shown (r : string * Z) (t : list N) : Prop := exists s, t = txt (fst r) ++ s /\ shows_time (snd r) s.
Lemma rows_read k rs : forall rs' ts ts' R R', Forall (fun r => clean (txt (fst r)) /\ exists c q, txt (fst r) = c :: q /\ c <> 32%N) rs -> map fst rs = map fst rs' -> Forall2 row_shown rs ts -> Forall2 row_shown rs' ts' ->
  concat (map (indented k) ts) ++ R = concat (map (indented k) ts') ++ R' -> Forall2 near (map snd rs) (map snd rs') /\ R = R'.
Proof.
  induction rs as [|[l u] rs IH]; intros [|[l' u'] rs'] ts ts' R R' HL EL H H' E; try discriminate EL; inversion H as [|? t ? ts1 H1 H2]; subst; inversion H' as [|? t' ? ts1' H1' H2']; subst.
  - split; [constructor|exact E].
  - cbn [map fst] in EL. injection EL as <- EL. inversion HL as [|? ? [C1 (c & q & EQ & Hc)] HL2]; subst. cbn [fst snd map] in *.
    destruct H1 as (s & -> & S), H1' as (s' & -> & S'). cbn [fst snd] in *. cbn [concat] in E. rewrite <- !app_assoc in E. unfold indented in E at 1 3. rewrite <- !app_assoc in E. apply app_inv_head in E.
    apply app_inv_head in E. cbn [app] in E. apply cut_at_char in E; [|eapply clean_time; [exact S|lia]|eapply clean_time; [exact S'|lia]]. destruct E as [-> E].
    destruct (IH _ _ _ _ _ HL2 EL H2 H2' E) as [K1 K2]. split; [|exact K2]. constructor; [eapply near_time; eassumption|exact K1].
Qed.
Definition read_as_same (p q : nat * line) : Prop := fst p = fst q /\ same_line (snd p) (snd q).
Lemma shown_first p T : line_ok p -> shown_line p T -> exists t rest, T = indented (fst p) t ++ rest /\ looks (snd p) t /\ clean t /\
  ((rest = [] /\ shown_value (snd p) t) \/ exists x, snd p = LTimings x /\ exists ts, Forall2 row_shown (timing_rows x) ts /\ T = concat (map (indented (fst p)) ts)).
Proof.
  intros HO H. destruct H as [k x t H|k x ts H]; cbn [fst snd].
  - exists t, []. rewrite app_nil_r. split; [reflexivity|]. split; [eapply shown_looks; eassumption|]. split; [eapply shown_clean; eassumption|]. left. split; [reflexivity|exact H].
  - pose proof H as H'. inversion H' as [|? t ? ts1 (s & -> & S) H2]; subst. cbn [fst snd] in *. exists (txt "cca_offset: " ++ s), (concat (map (indented k) ts1)).
    split; [reflexivity|]. split; [apply lk_label; reflexivity|]. split; [apply clean_app; [apply clean_b; reflexivity|eapply clean_time, S]|]. right. exists x. split; [reflexivity|]. eexists. split; [exact H|reflexivity].
Qed.
Lemma line_read p p' T T' R R' : line_ok p -> line_ok p' -> shown_line p T -> shown_line p' T' -> T ++ R = T' ++ R' -> read_as_same p p' /\ R = R'.
Proof.
  intros O O' H H' E. destruct (shown_first _ _ O H) as (t & rest & ET & L & C & D). destruct (shown_first _ _ O' H') as (t' & rest' & ET' & L' & C' & D').
  pose proof E as E0. rewrite ET, ET', <- !app_assoc in E0. destruct (line_read_first _ _ _ _ _ _ _ _ L L' C C' E0) as (EK & <- & ER).
  destruct p as [k x], p' as [k' x']. cbn [fst snd] in *. subst k'.
  destruct D as [[-> D]|(y & -> & ts & D & DT)], D' as [[-> D']|(y' & -> & ts' & D' & DT')].
  - split; [|exact ER]. split; [reflexivity|]. eapply read_value; eassumption.
  - exfalso. destruct (looks_apart _ _ _ L L') as [(l & Ex & Ey)|[(n & Ix & Iy)|(a & b & c & d & Ex & Ey)]]; [| |discriminate].
    + cbn [label_of] in Ey. injection Ey as <-. destruct x; try discriminate Ex; try (destruct f; discriminate Ex). apply shown_shape in D. exact D.
    + revert Iy. vm_compute. clear. intros K. decompose [or] K; try discriminate; try assumption.
  - exfalso. destruct (looks_apart _ _ _ L L') as [(l & Ex & Ey)|[(n & Ix & Iy)|(a & b & c & d & Ex & Ey)]]; [| |discriminate].
    + cbn [label_of] in Ex. injection Ex as <-. destruct x'; try discriminate Ey; try (destruct f; discriminate Ey). apply shown_shape in D'. exact D'.
    + revert Ix. vm_compute. clear. intros K. decompose [or] K; try discriminate; try assumption.
  - rewrite DT, DT' in E. destruct (rows_read k (timing_rows y) (timing_rows y') ts ts' R R') as [K1 K2]; [|reflexivity|exact D|exact D'|exact E|].
    + unfold timing_rows. repeat (apply Forall_cons; [split; [apply clean_b; reflexivity|eexists; eexists; split; [reflexivity|discriminate]]|]). apply Forall_nil.
    + split; [|exact K2]. split; [reflexivity|]. exact K1.
Qed.
Lemma text_read L : forall L' Ts Ts', Forall line_ok L -> Forall line_ok L' -> Forall2 shown_line L Ts -> Forall2 shown_line L' Ts' -> concat Ts = concat Ts' -> Forall2 read_as_same L L'.
Proof.
  assert (NE : forall p T, line_ok p -> shown_line p T -> T <> []).
  { intros p T O H K. destruct (shown_first _ _ O H) as (t & rest & -> & L1 & _). destruct (looks_start _ _ L1) as (c & r & -> & _). unfold indented in K.
    apply app_eq_nil in K. destruct K as [K _]. apply app_eq_nil in K. destruct K as [_ K]. discriminate. }
  induction L as [|p L IH]; intros [|p' L'] Ts Ts' O O' H H' E; inversion H as [|? T ? Ts1 H1 H2]; subst; inversion H' as [|? T' ? Ts1' H1' H2']; subst; cbn [concat] in E.
  - constructor.
  - exfalso. inversion O'; subst. symmetry in E. apply app_eq_nil in E. destruct E as [E _]. eapply NE; eassumption.
  - exfalso. inversion O; subst. apply app_eq_nil in E. destruct E as [E _]. eapply NE; eassumption.
  - inversion_clear O as [|? ? O1 O2]. inversion_clear O' as [|? ? O1' O2']. destruct (line_read _ _ _ _ _ _ O1 O1' H1 H1' E) as [K1 K2]. constructor; [exact K1|]. eapply IH; eassumption.
Qed.
(** ** Colours *)
Lemma uc_clean t u v : ~ In 27%N t -> uncoloured u v -> uncoloured (t ++ u) (t ++ v).
Proof. intros H K. induction t as [|c t IH]; [exact K|]. cbn [app]. constructor; [intros ->; apply H; left; reflexivity|]. apply IH. intros I. apply H. right. exact I. Qed.
Lemma uncoloured_fun t u : uncoloured t u -> forall v, uncoloured t v -> u = v.
Proof.
  induction 1 as [|c t u H _ IH|code t u H _ IH]; intros v K.
  - inversion K. reflexivity.
  - inversion K as [|c' t' u' H' K'|code' t' u' H' K']; subst; [|contradiction]. rewrite (IH _ K'). reflexivity.
  - inversion K as [|c' t' u' H' K' E|code' t' u' H' K' E]; subst; [contradiction|]. apply cut_at_char in E; [|assumption|assumption]. destruct E as [_ ->]. apply IH, K'.
Qed.
