(** CatProofs.v -- what [cat_parse] writes and when it panics. *)
From Verif Require Import Base BaseProofs Spec BitProofs SpecFrame FrameControl FrameControlProofs Addressing SpecAddressing AddressingProofs Ie IeContent
  SpecIe IeProofs DescProofs SpecIeContent IeContentProofs SlotframeProofs SpecFrames Frames FramesProofs PropIe PropIeContent PropFrames SpecParse ParseProofs Cat SpecCat.

Definition outcome_lines (k : nat) (l : list (nat * line)) (o : option (list (nat * line))) : outcome writer :=
  match o with Some L => Done (mkW k (l ++ L)) | None => Panic end.

Fixpoint all_some {A} (os : list (option A)) : option (list A) :=
  match os with
  | [] => Some []
  | o :: r => match o, all_some r with Some x, Some l => Some (x :: l) | _, _ => None end
  end.
Lemma all_some_ok {A} (os : list (option A)) l : all_some os = Some l -> os = map Some l.
Proof.
  revert l. induction os as [|o r IH]; intros l H; cbn [all_some] in H; [injection H as <-; reflexivity|].
  destruct o as [x|]; [|discriminate]. destruct (all_some r) as [l'|]; [|discriminate]. injection H as <-. cbn [map]. f_equal. apply IH. reflexivity.
Qed.
Lemma all_some_none {A} (os : list (option A)) : all_some os = None -> In None os.
Proof.
  induction os as [|o r IH]; cbn [all_some]; [discriminate|]. destruct o as [x|]; [|cbn; auto].
  destruct (all_some r) as [l'|]; [discriminate|]. cbn. auto.
Qed.

Lemma for_each_lines {A} (f : A -> writer -> outcome writer) k xs os :
  Forall2 (fun x o => forall l, f x (mkW k l) = outcome_lines k l o) xs os ->
  forall l, for_each f xs (mkW k l) = outcome_lines k l (option_map (@concat _) (all_some os)).
Proof.
  induction 1 as [|x o xs os Hx _ IH]; intros l; cbn [for_each all_some option_map outcome_lines concat].
  - rewrite app_nil_r. reflexivity.
  - rewrite Hx. destruct o as [L|]; cbn [outcome_lines bind]; [|reflexivity]. rewrite IH.
    destruct (all_some os) as [Ls|]; cbn [option_map outcome_lines concat]; [rewrite app_assoc|]; reflexivity.
Qed.
Lemma forall2_choice {A B} (R : A -> B -> Prop) xs : (forall x, In x xs -> exists y, R x y) -> exists ys, Forall2 R xs ys.
Proof.
  induction xs as [|x xs IH]; intros H; [exists []; constructor|].
  destruct (H x) as [y Hy]; [cbn; auto|]. destruct IH as [ys Hys]; [intros z Hz; apply H; cbn; auto|]. exists (y :: ys). constructor; assumption.
Qed.


Lemma octets_skipn n l : octets l -> octets (skipn n l).
Proof. intros H. unfold octets in *. rewrite Forall_forall in *. intros x Hx. apply H. rewrite <- (firstn_skipn n l). apply in_or_app. auto. Qed.
Lemma octets_firstn n l : octets l -> octets (firstn n l).
Proof. intros H. unfold octets in *. rewrite Forall_forall in *. intros x Hx. apply H. rewrite <- (firstn_skipn n l). apply in_or_app. auto. Qed.
Lemma walk_octets size stop r es n : walk size stop r es n -> octets r -> Forall octets es.
Proof. induction 1 as [r H|r H H1|r es n H H1 H2 H3 IH]; intros HO; constructor; auto using octets_skipn. Qed.
Lemma nth_skipn k i (b : list N) : nth i (skipn k b) 0%N = nth (k + i) b 0%N.
Proof. revert b. induction k as [|k IH]; intros b; [reflexivity|]. destruct b as [|x b]; [destruct i; reflexivity|]. apply IH. Qed.
Lemma nth_firstn_lt k i (b : list N) : i < k -> nth i (firstn k b) 0%N = nth i b 0%N.
Proof.
  revert i b. induction k as [|k IH]; intros i b H; [lia|]. destruct b as [|x b]; [reflexivity|]. destruct i as [|i]; [reflexivity|].
  cbn [firstn nth]. apply IH. lia.
Qed.
Lemma num_skipn k c n : forall off, num (skipn k c) off n = num c (k + off) n.
Proof. induction n as [|n IH]; intros off; [reflexivity|]. cbn [num]. rewrite IH, nth_skipn. do 3 f_equal. lia. Qed.

Lemma inc_eq k l : increase_indent (mkW k l) = mkW (S (S k)) l.
Proof. unfold increase_indent. cbn [w_indent w_lines]. f_equal. lia. Qed.
Lemma wl_eq x k l : writeln x (mkW k l) = mkW k (l ++ [(k, x)]).
Proof. reflexivity. Qed.
Lemma dec_eq k l : decrease_indent (mkW (S (S k)) l) = Done (mkW k l).
Proof. unfold decrease_indent. cbn [w_indent w_lines]. destruct (Nat.ltb_spec (S (S k)) 2); [lia|]. do 2 f_equal. lia. Qed.
Ltac cw := repeat first [rewrite inc_eq | rewrite wl_eq | rewrite dec_eq | progress cbn [bind option_map outcome_lines]].
(** ** Header IEs *)
Lemma cat_header_lines e l : octets e -> 2 <= length e -> code_header_size e <= length e ->
  cat_header e (mkW 2 l) = Done (mkW 2 (l ++ header_lines e)).
Proof.
  intros HO H2 HS. unfold cat_header, header_lines. cbv zeta. rewrite hie_element_id_ok by exact H2. cbn [bind].
  change (read_as known_header_ids 0x80 (field 7 8 (desc e))) with (HeaderElementId_from (field 7 8 (desc e))). set (id := HeaderElementId_from _). cw.
  change HeTermination1 with 0x7e%N. change HeTermination2 with 0x7f%N. change HeTimeCorrection with 0x1e%N.
  destruct ((id =? 0x7e)%N || (id =? 0x7f)%N); [reflexivity|].
  destruct (id =? 0x1e)%N.
  - rewrite hie_content_ok by assumption. cbn [bind]. change (content_at code_header_size e) with (firstn (code_header_size e - 2) (skipn 2 e)).
    set (c := firstn _ _). unfold tc_new.
    destruct (Nat.leb_spec 2 (length c)) as [L|L].
    + destruct (C26_decode c) as (_ & -> & ->); [apply octets_firstn, octets_skipn, HO|exact L|].
      cw. rewrite <- app_assoc. reflexivity.
    + cw. rewrite <- app_assoc. reflexivity.
  - cw. rewrite <- app_assoc. reflexivity.
Qed.

(** ** Slotframe descriptors *)
Lemma cat_slotframe_lines s l : 4 <= length s -> slotframe_size s <= length s ->
  cat_slotframe s (mkW 8 l) = outcome_lines 8 l (if (nth 3 s 0 =? 0)%N then None else Some (slotframe_lines s)).
Proof.
  intros H4 HS. unfold cat_slotframe, sd_handle. rewrite idx_ok by lia. cbn [bind]. unfold sd_links at 1. rewrite idx_ok by lia. cbn [bind].
  destruct (N.eqb_spec (nth 3 s 0%N) 0) as [E|E].
  - rewrite sd_link_informations_zero by assumption. reflexivity.
  - pose proof (sd_link_informations_ok s H4 HS E) as EL. cbv zeta in EL. rewrite EL. cbn [bind]. clear EL.
    cw. set (n := N.to_nat (nth 3 s 0%N)) in *.
    unfold slotframe_size in HS. fold n in HS.
    set (line_of := fun i => (10, LLink (num s (4 + 5 * i) 2) (num s (6 + 5 * i) 2) (field 0 5 (nth (8 + 5 * i) s 0%N)))).
    rewrite (for_each_lines cat_link 10 _ (map (fun i => Some [line_of i]) (seq 0 n))).
    + assert (EA : forall xs, all_some (map (fun i => Some [line_of i]) xs) = Some (map (fun i => [line_of i]) xs)).
      { induction xs as [|x xs IH]; [reflexivity|]. cbn [map all_some]. rewrite IH. reflexivity. }
      rewrite EA. cw. rewrite <- app_assoc.
      assert (EC : forall xs, concat (map (fun i => [line_of i]) xs) = map line_of xs).
      { induction xs as [|x xs IH]; [reflexivity|]. cbn [map concat app]. rewrite IH. reflexivity. }
      rewrite EC. reflexivity.
    + assert (HB : forall i, In i (seq 0 n) -> i < n) by (intros i Hi; apply in_seq in Hi; lia).
      revert HB. generalize (seq 0 n). intros xs HB. induction xs as [|i xs IH]; [constructor|].
      cbn [map]. constructor; [|apply IH; intros j Hj; apply HB; cbn; auto].
      intros l'. assert (Hi : i < n) by (apply HB; cbn; auto). unfold cat_link, link_timeslot, link_channel_offset, link_options.
      set (t := skipn (5 * i) (firstn (5 * n) (skipn 4 s))).
      assert (Lt : length t = 5 * n - 5 * i) by (unfold t; rewrite skipn_length, firstn_length, skipn_length; lia).
      assert (Ht : forall off, off < 5 -> nth off t 0%N = nth (4 + 5 * i + off) s 0%N).
      { intros off Ho. unfold t. rewrite nth_skipn, nth_firstn_lt, nth_skipn by lia. reflexivity. }
      rewrite !rd_le_num by lia. rewrite idx_ok by lia. cbn [bind num]. rewrite !Ht by lia.
      unfold line_of. cbn [outcome_lines writeln w_indent w_lines num]. do 4 f_equal.
      replace (4 + 5 * i + 0) with (4 + 5 * i) by lia. replace (4 + 5 * i + 1) with (S (4 + 5 * i)) by lia.
      replace (4 + 5 * i + 2) with (6 + 5 * i) by lia. replace (4 + 5 * i + 3) with (S (6 + 5 * i)) by lia.
      replace (4 + 5 * i + 4) with (8 + 5 * i) by lia. f_equal. rewrite <- field_land, N.shiftr_0_r. reflexivity.
Qed.

(** ** Nested IEs *)
Lemma short_id v k : In k [0x1a; 0x1b; 0x1c]%N -> (NestedSubIdShort_from v =? k)%N = (v =? k)%N.
Proof.
  intros HK. unfold NestedSubIdShort_from. destruct (mem v nested_short_ids) eqn:E; [reflexivity|].
  destruct (N.eqb_spec v k) as [->|_].
  - exfalso. cbn [In] in HK. destruct HK as [<-|[<-|[<-|[]]]]; vm_compute in E; discriminate.
  - cbn [In] in HK. destruct HK as [<-|[<-|[<-|[]]]]; reflexivity.
Qed.
Lemma long_id v : (NestedSubIdLong_from v =? NlChannelHopping)%N = (v =? 9)%N.
Proof.
  unfold NestedSubIdLong_from. destruct (mem v nested_long_ids) eqn:E; [reflexivity|].
  destruct (N.eqb_spec v 9) as [->|_]; [vm_compute in E; discriminate|reflexivity].
Qed.
Lemma sync_num c : 6 <= length c -> sync_asn c = Done (num c 0 5) /\ sync_join_metric c = Done (nth 5 c 0%N).
Proof.
  intros H. unfold sync_asn, sync_join_metric. rewrite !idx_ok by lia. cbn [bind]. split; [|reflexivity]. f_equal. cbn [num].
  rewrite !N.shiftl_mul_pow2. change (2 ^ 8)%N with 256%N. change (2 ^ 16)%N with 65536%N. change (2 ^ 24)%N with 16777216%N. change (2 ^ 32)%N with 4294967296%N. lia.
Qed.

(** what one nested element adds: the lines of [nested_shown], or a panic for a bad element *)
Definition nested_result (e : list N) (o : option (list (nat * line))) : Prop :=
  match o with Some L => nested_shown e L | None => bad_nested e end.

Lemma cat_nested_lines e : 2 <= length e -> nie_content e = Done (skipn 2 e) ->
  exists o, nested_result e o /\ forall l, cat_nested e (mkW 4 l) = outcome_lines 4 l o.
Proof.
  intros H2 HC. unfold cat_nested. unfold nie_sub_id, nie_is_long. rewrite ie_raw_ok by exact H2. cbn [bind].
  rewrite flag_at_bit. change 0x3F%N with (N.ones 6). change (N.land (N.shiftr (desc e) 11) 15) with (N.land (N.shiftr (desc e) 11) (N.ones 4)). rewrite !field_land.
  set (c := skipn 2 e) in *. unfold nested_result, nested_shown, bad_nested, nested_id. fold c. cbv zeta.
  destruct (bit 15 (desc e)) eqn:EL.
  { (* long *)
    eexists (Some _). split; [eexists; split; reflexivity|]. intros l. cw. unfold cat_nested_content. rewrite long_id.
    destruct (field 11 4 (desc e) =? 9)%N; [|cw; rewrite <- app_assoc; reflexivity].
    rewrite HC. cbn [bind]. unfold ch_new. destruct (Nat.eqb_spec (length c) 0) as [E|E]; [cw; rewrite <- app_assoc; reflexivity|].
    unfold ch_id. rewrite idx_ok by lia. cw. rewrite <- app_assoc. reflexivity. }
  (* short *)
  unfold cat_nested_content. rewrite !short_id by (vm_compute; auto).
  change NsTschSynchronization with 0x1a%N. change NsTschTimeslot with 0x1c%N. change NsTschSlotframeAndLink with 0x1b%N.
  destruct (N.eqb_spec (field 8 6 (desc e)) 0x1a) as [E1|E1].
  { eexists (Some _). split; [eexists; split; reflexivity|]. intros l. cw. rewrite HC. cbn [bind]. unfold sync_new.
    destruct (Nat.leb_spec 6 (length c)) as [L|L]; [|cw; rewrite <- app_assoc; reflexivity].
    destruct (sync_num c L) as [-> ->]. cw. rewrite <- app_assoc. reflexivity. }
  destruct (N.eqb_spec (field 8 6 (desc e)) 0x1c) as [E2|E2].
  { rewrite HC. cbn [bind].
    assert (HTS : (ts_new c = Done Err /\ (length c = 0 \/ nth 0 c 0%N <> 0%N /\ length c < 25)) \/
                  (ts_new c = Done (Ok c) /\ 1 <= length c /\ (nth 0 c 0%N = 0%N \/ nth 0 c 0%N <> 0%N /\ 25 <= length c))).
    { unfold ts_new, ts_id. destruct (Nat.ltb_spec (length c) 1) as [L|L]; [left; split; [reflexivity|lia]|].
      rewrite idx_ok by lia. cbn [bind]. destruct (N.eqb_spec (nth 0 c 0%N) 0) as [E|E].
      - right. destruct (Nat.leb_spec 1 (length c)); [auto|lia].
      - destruct (Nat.leb_spec 25 (length c)) as [L25|L25]; [right|left]; auto. }
    destruct HTS as [[HE HX]|(HE & L1 & HX)]; rewrite HE; cbn [bind].
    - eexists (Some _). split; [eexists; split; [reflexivity|]; left; split; [exact HX|reflexivity]|].
      intros l. cw. rewrite <- app_assoc. reflexivity.
    - unfold ts_id. rewrite idx_ok by lia. cbn [bind]. unfold ts_has_timings. destruct (Nat.ltb_spec 1 (length c)) as [L2|L2].
      + destruct (Nat.eq_dec (length c) 26) as [E26|E26]; [destruct (N.eq_dec (nth 0 c 0%N) 0) as [E0|E0]|].
        * eexists (Some _). split; [eexists; split; [reflexivity|]; right; right; split; [left; split; [exact E0|lia]|reflexivity]|].
          intros l. rewrite (ts_timings_at c HE) by tauto. cw. rewrite <- !app_assoc. reflexivity.
        * exists None. split; [split; [reflexivity|]; left; auto|]. intros l.
          rewrite (proj2 (ts_timings_panic_iff c HE)) by (split; assumption). reflexivity.
        * eexists (Some _). split; [eexists; split; [reflexivity|]; right; right; split; [|reflexivity]|].
          { destruct HX as [E0|[E0 L25]]; [left|right]; auto. }
          intros l. rewrite (ts_timings_at c HE) by tauto. cw. rewrite <- !app_assoc. reflexivity.
      + assert (E0 : nth 0 c 0%N = 0%N) by (destruct HX as [E0|[E0 L25]]; [exact E0|lia]). rewrite E0.
        eexists (Some _). split; [eexists; split; [reflexivity|]; right; left; split; [lia|]; split; [reflexivity|reflexivity]|].
        intros l. cw. rewrite <- app_assoc. reflexivity. }
  destruct (N.eqb_spec (field 8 6 (desc e)) 0x1b) as [E3|E3].
  { rewrite HC. cbn [bind]. rewrite sl_new_spec. cbn [bind]. destruct (Nat.leb_spec 1 (length c)) as [L|L].
    - destruct (sl_descriptors_spec c L) as (ds & HD & ED). rewrite ED. unfold sl_number. rewrite idx_ok by lia. cbn [bind].
      pose proof (descriptors_elems _ _ _ HD) as HE.
      set (os := map (fun s => if (nth 3 s 0 =? 0)%N then None else Some (slotframe_lines s)) ds).
      assert (HF : forall l, for_each cat_slotframe ds (mkW 8 l) = outcome_lines 8 l (option_map (@concat _) (all_some os))).
      { apply for_each_lines. unfold os. clear - HE. induction HE as [|s ds [H4 HS] HE IH]; [constructor|]. cbn [map]. constructor; [|exact IH].
        intros l. apply cat_slotframe_lines; assumption. }
      destruct (all_some os) as [Ls|] eqn:EA.
      + assert (HZ : Forall (fun s => nth 3 s 0%N <> 0%N) ds /\ Ls = map slotframe_lines ds).
        { apply all_some_ok in EA. unfold os in EA. clear - EA. revert Ls EA. induction ds as [|s ds IH]; intros Ls EA.
          - destruct Ls; [split; [constructor|reflexivity]|discriminate].
          - destruct Ls as [|L Ls]; [discriminate|]. cbn [map] in EA. injection EA as EL ER. destruct (IH _ ER) as [IH1 ->].
            destruct (N.eqb_spec (nth 3 s 0%N) 0) as [E|E]; [discriminate|]. injection EL as <-. split; [constructor; assumption|reflexivity]. }
        destruct HZ as [HZ ->].
        eexists (Some _). split; [eexists; split; [reflexivity|]; right; split; [exact L|]; exists ds; split; [exact HD|]; split; [exact HZ|reflexivity]|].
        intros l. cw. rewrite HF. cw. rewrite <- !app_assoc. reflexivity.
      + exists None. split.
        * split; [reflexivity|]. right. split; [exact E3|]. split; [exact L|]. apply all_some_none in EA. unfold os in EA.
          apply in_map_iff in EA. destruct EA as (s & Es & Hs). exists ds, s. split; [exact HD|]. split; [exact Hs|].
          destruct (N.eqb_spec (nth 3 s 0%N) 0) as [E|E]; [exact E|discriminate].
        * intros l. cw. rewrite HF. reflexivity.
    - eexists (Some _). split; [eexists; split; [reflexivity|]; left; split; [lia|reflexivity]|].
      intros l. cw. rewrite <- app_assoc. reflexivity. }
  eexists (Some _). split; [eexists; split; reflexivity|]. intros l. cw. rewrite <- app_assoc. reflexivity.
Qed.

(** ** Payload IEs *)
Definition payload_result (e : list N) (o : option (list (nat * line))) : Prop :=
  match o with
  | Some L => payload_shown e L
  | None => field 11 3 (desc e) = 1%N /\ exists ns x, chop code_nested_size (firstn (code_payload_size e - 2) (skipn 2 e)) ns /\ In x ns /\ bad_nested x
  end.

(** results of the elements of a list *)
Lemma results_some {A} (S : A -> option (list (nat * line)) -> Prop) (P : A -> list (nat * line) -> Prop) xs os Ls :
  (forall x L, S x (Some L) -> P x L) -> Forall2 S xs os -> all_some os = Some Ls -> Forall2 P xs Ls.
Proof.
  intros HP HF EA. apply all_some_ok in EA. subst os. remember (map Some Ls) as os eqn:E. revert Ls E.
  induction HF as [|x o xs os Hx HF IH]; intros Ls E; destruct Ls as [|L Ls]; try discriminate; [constructor|].
  cbn [map] in E. injection E as -> ->. constructor; auto.
Qed.
Lemma results_none {A} (S : A -> option (list (nat * line)) -> Prop) xs os :
  Forall2 S xs os -> all_some os = None -> exists x, In x xs /\ S x None.
Proof.
  intros HF EA. apply all_some_none in EA. induction HF as [|x o xs os Hx HF IH]; [destruct EA|].
  destruct EA as [->|EA]; [exists x; cbn; auto|]. destruct (IH EA) as (y & Hy & Sy). exists y. cbn. auto.
Qed.
Lemma Forall2_impl {A B} (P Q : A -> B -> Prop) xs ys : (forall x y, P x y -> Q x y) -> Forall2 P xs ys -> Forall2 Q xs ys.
Proof. intros H. induction 1; constructor; auto. Qed.
Lemma for_each_results {A} (S : A -> option (list (nat * line)) -> Prop) f k xs :
  (forall x, In x xs -> exists o, S x o /\ forall l, f x (mkW k l) = outcome_lines k l o) ->
  exists os, Forall2 S xs os /\ forall l, for_each f xs (mkW k l) = outcome_lines k l (option_map (@concat _) (all_some os)).
Proof.
  intros H. destruct (forall2_choice _ xs H) as (os & HF). exists os. split.
  - eapply Forall2_impl; [|exact HF]. intros x o [K _]. exact K.
  - apply for_each_lines. eapply Forall2_impl; [|exact HF]. intros x o [_ K]. exact K.
Qed.

Lemma group_eqb v : (PayloadGroupId_from v =? PgMlme)%N = (v =? 1)%N.
Proof.
  unfold PayloadGroupId_from. destruct (mem v payload_ids) eqn:E; [reflexivity|].
  destruct (N.eqb_spec v 1) as [->|_]; [vm_compute in E; discriminate|reflexivity].
Qed.

Lemma cat_payload_lines e : 2 <= length e -> code_payload_size e <= length e ->
  exists o, payload_result e o /\ forall l, cat_payload_ie e (mkW 2 l) = outcome_lines 2 l o.
Proof.
  intros H2 HS. unfold cat_payload_ie. rewrite pie_group_id_ok by exact H2. cbn [bind]. rewrite group_eqb.
  unfold payload_result, payload_shown. destruct (N.eqb_spec (field 11 3 (desc e)) 1) as [E|E].
  - unfold pie_nested, pie_nested_iter. rewrite pie_group_id_ok by exact H2. cbn [bind]. rewrite group_eqb, (proj2 (N.eqb_eq _ _) E).
    rewrite pie_content_ok by assumption. cbn [bind it_data].
    destruct (C21_iteration_partial (content_at code_payload_size e)) as (ns & tt & ED & HC & _ & HF). rewrite ED. cbn [bind].
    rewrite Forall_forall in HF.
    destruct (for_each_results nested_result cat_nested 4 ns) as (os & HR & HL).
    { intros x Hx. destruct (HF x Hx) as [Lx Cx]. apply cat_nested_lines; assumption. }
    destruct (all_some os) as [Ls|] eqn:EA.
    + eexists (Some _). split.
      { exists ns, Ls. split; [exact HC|]. split; [|reflexivity]. eapply results_some; [|exact HR|exact EA]. intros x L K. exact K. }
      intros l. cw. rewrite HL. cw. rewrite <- !app_assoc. reflexivity.
    + exists None. split.
      { split; [exact E|]. destruct (results_none _ _ _ HR EA) as (x & Hx & Bx). exists ns, x. auto. }
      intros l. cw. rewrite HL. reflexivity.
  - eexists (Some _). split; [reflexivity|]. intros l. cw. reflexivity.
Qed.

(** ** The information elements *)
Definition ies_result (d : list N) (n : nat) (o : option (list (nat * line))) : Prop :=
  match o with Some L => ies_shown d n L | None => bad_ies d end.

Lemma cat_ies_lines d n : octets d -> ies_fit d n ->
  exists o, ies_result d n o /\ forall l, cat_ies (Some d) (mkW 0 l) = outcome_lines 0 l o.
Proof.
  intros HO HFit. destruct (ies_fit_new d n HFit) as [HN HLen].
  destruct (ies_new_spec d) as (hs & hn & HW & [[_ E]|(HL & ps & pn & HW2 & [[_ E]|(HL2 & _ & ELen & (t & EH) & t' & EP)])]);
    try (rewrite HN in E; discriminate).
  rewrite HLen in ELen. injection ELen as ->.
  unfold cat_ies. rewrite EH, EP. cbn [bind].
  pose proof (walk_in_bounds _ _ _ _ _ code_header_size_2 HW HL) as HB. rewrite Forall_forall in HB.
  pose proof (walk_octets _ _ _ _ _ HW HO) as HOs. rewrite Forall_forall in HOs.
  assert (HL3 : pn <= length (skipn hn d)) by (rewrite skipn_length; lia).
  pose proof (walk_in_bounds _ _ _ _ _ code_payload_size_2 HW2 HL3) as HB2. rewrite Forall_forall in HB2.
  assert (H1 : forall l, cat_list HHeaderIes cat_header hs (mkW 0 l) = Done (mkW 0 (l ++ section HHeaderIes (map header_lines hs)))).
  { intros l. assert (K : forall l, for_each cat_header hs (mkW 2 l) = Done (mkW 2 (l ++ concat (map header_lines hs)))).
    { intros l'. rewrite (for_each_lines cat_header 2 hs (map (fun e => Some (header_lines e)) hs)).
      - assert (EA : forall xs, all_some (map (fun e => Some (header_lines e)) xs) = Some (map header_lines xs)).
        { induction xs as [|x xs IH]; [reflexivity|]. cbn [map all_some]. rewrite IH. reflexivity. }
        rewrite EA. reflexivity.
      - clear - HB HOs. induction hs as [|e hs IH]; [constructor|]. cbn [map]. constructor.
        + intros l. destruct (HB e) as [B1 B2]; [cbn; auto|]. apply cat_header_lines; [apply HOs; cbn; auto|exact B1|exact B2].
        + apply IH; intros x Hx; [apply HB|apply HOs]; cbn; auto. }
    unfold cat_list. destruct hs as [|h hs]; [cbn [map section]; rewrite app_nil_r; reflexivity|].
    cw. rewrite K. cw. cbn [map section]. rewrite <- app_assoc. reflexivity. }
  destruct (for_each_results payload_result cat_payload_ie 2 ps) as (os & HR & HF).
  { intros e He. destruct (HB2 e He) as [B1 B2]. apply cat_payload_lines; assumption. }
  destruct (all_some os) as [Ps|] eqn:EA.
  - pose proof (results_some payload_result payload_shown ps os Ps (fun x L K => K) HR EA) as HPs.
    eexists (Some _). split.
    { exists hs, hn, ps, pn, Ps. split; [exact HW|]. split; [exact HW2|]. split; [reflexivity|]. split; [exact HL2|]. split; [exact HPs|]. reflexivity. }
    intros l. cw. rewrite H1. cw. unfold cat_list. destruct ps as [|p ps].
    + inversion HPs; subst. cbn [section]. rewrite app_nil_r, <- app_assoc. reflexivity.
    + cw. rewrite HF. cw. inversion HPs as [|? L ? Ls' _ _]; subst. cbn [section]. rewrite <- !app_assoc. reflexivity.
  - exists None. split.
    + destruct (results_none _ _ _ HR EA) as (e & He & Eg & ns & x & HC & Hx & Bx). exists hs, hn, ps, pn, e, ns, x. auto 10.
    + intros l. cw. rewrite H1. cw. unfold cat_list. destruct ps as [|p ps].
      * inversion HR; subst. discriminate.
      * cw. rewrite HF. reflexivity.
Qed.

(** ** The other sections *)
Lemma cat_fc_lines b r : fc_is b r -> cat_frame_control b w_new = Done (mkW 0 (fc_lines r)).
Proof.
  intros HF. getters HF. unfold cat_frame_control, w_new. rewrite Gv, Gt, Gs, Gp, Ga, Gc, Gn, Gi, Gd, Gsrc. cw. reflexivity.
Qed.
Lemma cat_seq_lines r b l : mhr_size r <= length b ->
  cat_sequence_number (nth_error (seq_octets r b) 0) (mkW 0 l) = Done (mkW 0 (l ++ seq_lines r b)).
Proof.
  intros HL. unfold seq_octets, seq_lines, mhr_size in *. destruct (fr_sequence_number_suppression r).
  - cbn [nth_error cat_sequence_number]. rewrite app_nil_r. reflexivity.
  - destruct b as [|b0 [|b1 [|s b]]]; cbn [length] in HL; try lia. cbn [skipn firstn nth_error nth cat_sequence_number]. cw. rewrite <- app_assoc. reflexivity.
Qed.
Lemma cat_addr_lines r b o n l : fc_is b r -> af_view r b o n ->
  exists A, addr_shown r b n A /\ cat_addressing o (mkW 0 l) = Done (mkW 0 (l ++ A)).
Proof.
  intros HF [[(dp & sp & HL & -> & Hn) ->]|(HN & -> & ->)].
  - destruct (c08_accepted (firstn 2 b) r (skipn (mhr_size r) b) dp sp (fc_is_firstn _ _ HF) HL) as (_ & _ & E2 & E3 & E4 & E5).
    { rewrite skipn_length. lia. }
    exists (addr_lines r dp sp (skipn (mhr_size r) b)). split; [left; exists dp, sp; auto|].
    unfold cat_addressing. rewrite E2, E3, E4, E5. cbn [bind]. unfold addr_lines. cbv zeta.
    cw. unfold write_some, opt_line.
    destruct (pan_at dp _ _); destruct (pan_at sp _ _); cw; rewrite <- !app_assoc; reflexivity.
  - exists []. split; [right; auto|]. cbn [cat_addressing]. rewrite app_nil_r. reflexivity.
Qed.
(** the frame, given its accessors (the same for data frames, enhanced beacons and acknowledgements) *)
Lemma cat_frame_lines b r o n i m (always : bool) : octets b -> fc_is b r -> mhr_size r <= length b -> af_view r b o n -> ie_view r (skipn (mhr_size r + n) b) i m ->
  mhr_size r + n + m <= length b ->
  let p := if negb always && (length b =? mhr_size r + n + m) then None else Some (skipn (mhr_size r + n + m) b) in
  (exists L, frame_shown always r b L /\
    (let* w := cat_frame_control (firstn 2 b) w_new in
     let* w := cat_sequence_number (nth_error (seq_octets r b) 0) w in
     let* w := cat_addressing o w in
     let* w := cat_ies i w in
     Done (w_lines (cat_payload p w))) = Done L) \/
  (frame_bad r b /\
    (let* w := cat_frame_control (firstn 2 b) w_new in
     let* w := cat_sequence_number (nth_error (seq_octets r b) 0) w in
     let* w := cat_addressing o w in
     let* w := cat_ies i w in
     Done (w_lines (cat_payload p w))) = Panic).
Proof.
  intros HO HF HL HA HI HB p.
  rewrite (cat_fc_lines (firstn 2 b) r (fc_is_firstn _ _ HF)). cbn [bind]. rewrite (cat_seq_lines r b _ HL). cbn [bind].
  destruct (cat_addr_lines r b o n (fc_lines r ++ seq_lines r b) HF HA) as (A & SA & ->). cbn [bind].
  assert (EP : forall l, w_lines (cat_payload p (mkW 0 l)) = l ++ payload_lines always (skipn (mhr_size r + n + m) b)).
  { intros l. unfold p, payload_lines. destruct always; cbn [negb andb].
    - cbn [cat_payload]. cw. cbn [w_lines]. rewrite <- app_assoc. destruct (skipn (mhr_size r + n + m) b); reflexivity.
    - destruct (Nat.eqb_spec (length b) (mhr_size r + n + m)) as [E|E].
      + rewrite skipn_all2 by lia. cbn [cat_payload w_lines]. rewrite app_nil_r. reflexivity.
      + cbn [cat_payload]. cw. cbn [w_lines]. rewrite <- app_assoc.
        destruct (skipn (mhr_size r + n + m) b) eqn:ES; [|reflexivity]. exfalso. assert (K := skipn_length (mhr_size r + n + m) b). rewrite ES in K. cbn [length] in K. lia. }
  destruct HI as [(HI & Hfit & ->)|(HI & -> & ->)].
  - destruct (cat_ies_lines (skipn (mhr_size r + n) b) m) as (oo & HR & HE); [apply octets_skipn, HO|exact Hfit|]. rewrite HE.
    destruct oo as [I|]; cbn [outcome_lines bind].
    + left. rewrite EP. eexists. split; [|reflexivity]. exists n, A, m, I. split; [exact SA|]. split; [left; auto|]. rewrite <- !app_assoc. reflexivity.
    + right. split; [|reflexivity]. exists n. split; [|split; [exact HI|]; split; [exists m; exact Hfit|exact HR]].
      destruct SA as [(dp & sp & H1 & H2 & H3 & _)|(H1 & H2 & _)]; [left; exists dp, sp; auto|right; auto].
  - left. cbn [cat_ies bind]. rewrite EP. eexists. split; [|reflexivity]. exists n, A, 0, []. split; [exact SA|]. split; [right; auto|].
    rewrite <- !app_assoc. reflexivity.
Qed.

Lemma cat_parse_cases b r : octets b -> acceptable b r ->
  frame_new b = Done (Ok (FData b)) \/ frame_new b = Done (Ok (FEnhancedBeacon b)) ->
  (exists L, frame_shown false r b L /\ cat_parse b = Done L) \/ (frame_bad r b /\ cat_parse b = Panic).
Proof.
  intros HO HA HN.
  destruct (data_accessors b r HA) as (E1 & E2 & E3 & o & n & i & m & E4 & V & E5 & VI & HB & E6).
  destruct HA as (HF & [HL HM] & HS & HK).
  pose proof (cat_frame_lines b r o n i m false HO HF HL V VI HB) as HC. cbv zeta in HC. cbn [negb andb] in HC.
  assert (EQ : cat_parse b =
    (let* w := cat_frame_control (firstn 2 b) w_new in
     let* w := cat_sequence_number (nth_error (seq_octets r b) 0) w in
     let* w := cat_addressing o w in
     let* w := cat_ies i w in
     Done (w_lines (cat_payload (if length b =? mhr_size r + n + m then None else Some (skipn (mhr_size r + n + m) b)) w)))).
  { unfold cat_parse. destruct HN as [-> | ->]; cbn [bind ok unwrap frame_frame_control frame_sequence_number frame_addressing frame_aux frame_ies frame_payload].
    - rewrite E1, E2, E3, E4, E5, E6. cbn [bind]. destruct (cat_frame_control _ _); cbn [bind]; [|reflexivity].
      destruct (cat_sequence_number _ _); cbn [bind]; [|reflexivity]. destruct (cat_addressing _ _); reflexivity.
    - change (eb_frame_control b) with (data_frame_control b). change (eb_sequence_number b) with (data_sequence_number b).
      change (eb_addressing b) with (data_addressing b). change (eb_aux b) with (data_aux b). change (eb_ies b) with (data_ies b).
      change (eb_payload b) with (data_payload b).
      rewrite E1, E2, E3, E4, E5, E6. cbn [bind]. destruct (cat_frame_control _ _); cbn [bind]; [|reflexivity].
      destruct (cat_sequence_number _ _); cbn [bind]; [|reflexivity]. destruct (cat_addressing _ _); reflexivity. }
  rewrite EQ. exact HC.
Qed.

(** unsecured enhanced acknowledgements whose information elements, if announced, are decodable *)
Lemma cat_eack_cases b r n m : octets b -> frame_new b = Done (Ok (FEnhancedAck b)) -> fc_is b r -> mhr_size r <= length b ->
  fr_security_enabled r = false -> fr_dst_addressing_mode r <> AmUnknown -> fr_src_addressing_mode r <> AmUnknown ->
  addressing_fits r b n \/ no_addressing r b /\ n = 0 ->
  (if fr_information_elements_present r then ies_fit (skipn (mhr_size r + n) b) m else m = 0) ->
  (exists L, frame_shown true r b L /\ cat_parse b = Done L) \/ (frame_bad r b /\ cat_parse b = Panic).
Proof.
  intros HO HN HF HL HS Hd Hs HA HI.
  assert (LA : mhr_size r + n <= length b).
  { destruct HA as [(dp & sp & _ & _ & H)|[_ ->]]; [exact H|lia]. }
  assert (HM : mhr_size r + n + m <= length b).
  { destruct (fr_information_elements_present r); [|subst m; lia]. destruct HI as (? & ? & ? & ? & _ & _ & _ & Q). rewrite skipn_length in Q. lia. }
  assert (Z : mhr_size r + n + 0 = mhr_size r + n) by lia.
  destruct (ea_accessors b r n 0 m HF HL Hd Hs HA) as ((o & EA & VA) & E2 & E3 & E4); rewrite ?Z; [rewrite HS; auto|exact LA|exact HI|exact HM|].
  rewrite HS in E2. rewrite Z in E3, E4.
  assert (VI : ie_view r (skipn (mhr_size r + n) b) (if fr_information_elements_present r then Some (skipn (mhr_size r + n) b) else None) m).
  { unfold ie_view. destruct (fr_information_elements_present r); [left; auto|right; auto]. }
  pose proof (cat_frame_lines b r o n _ m true HO HF HL VA VI HM) as HC. cbv zeta in HC. cbn [negb andb] in HC.
  unfold cat_parse. rewrite HN. cbn [bind ok unwrap frame_frame_control frame_sequence_number frame_addressing frame_aux frame_ies frame_payload].
  rewrite (ea_fc_ok b r HF), (ea_seq_eq b r HF), (data_seq_ok b r HF HL), EA, E2, E3, E4. cbn [bind].
  replace (bind (cat_frame_control (firstn 2 b) w_new) _) with
    (let* w := cat_frame_control (firstn 2 b) w_new in
     let* w := cat_sequence_number (nth_error (seq_octets r b) 0) w in
     let* w := cat_addressing o w in
     let* w := cat_ies (if fr_information_elements_present r then Some (skipn (mhr_size r + n) b) else None) w in
     Done (w_lines (cat_payload (Some (skipn (mhr_size r + n + m) b)) w))); [exact HC|].
  destruct (cat_frame_control _ _); cbn [bind]; [|reflexivity].
  destruct (cat_sequence_number _ _); cbn [bind]; [|reflexivity]. destruct (cat_addressing _ _); reflexivity.
Qed.

(** immediate acknowledgements *)
Lemma cat_ack b r : frame_new b = Done (Ok (FAck b)) -> fc_is b r -> length b = 3 ->
  cat_parse b = Done (fc_lines r ++ [(0, LHeading HSequenceNumber); (2, LSeq (nth 2 b 0%N))]).
Proof.
  intros HN HF HL. unfold cat_parse. rewrite HN. cbn [bind ok unwrap frame_frame_control frame_sequence_number frame_addressing frame_aux frame_ies frame_payload].
  assert (E : ack_frame_control b = Done (firstn 2 b)).
  { unfold ack_frame_control. rewrite slice_to_ok by lia. cbn [bind]. unfold fc_new. rewrite firstn_length, HL. reflexivity. }
  rewrite E. cbn [bind]. rewrite (cat_fc_lines (firstn 2 b) r (fc_is_firstn _ _ HF)). cbn [bind].
  unfold ack_sequence_number. rewrite idx_ok by lia. cbn [some bind cat_sequence_number]. cw. cbn [cat_addressing cat_aux cat_ies cat_payload bind w_lines].
  rewrite <- app_assoc. reflexivity.
Qed.

(** ** A bad frame is not shown *)
Lemma bad_not_shown_nested e L : bad_nested e -> nested_shown e L -> False.
Proof.
  intros (HB & HX) (L' & _ & HS). rewrite HB in HS. cbv zeta in HX.
  destruct HX as [(E & E26 & E0)|(E & L1 & ds & s & HD & Hs & E0)]; rewrite E in HS.
  - cbn [N.eqb Pos.eqb] in HS. destruct HS as [[HS _]|[(HS & _)|[HS _]]]; [|lia|].
    + destruct HS as [HS|[_ HS]]; lia.
    + destruct HS as [[K _]|(_ & _ & K)]; contradiction.
  - cbn [N.eqb Pos.eqb] in HS. destruct HS as [[HS _]|(_ & ds' & HD' & HZ & _)]; [lia|].
    rewrite (descriptors_fun _ _ _ HD' _ HD) in HZ. rewrite Forall_forall in HZ. exact (HZ s Hs E0).
Qed.
Lemma Forall2_In {A B} (R : A -> B -> Prop) xs ys x : Forall2 R xs ys -> In x xs -> exists y, R x y.
Proof. induction 1 as [|a b xs ys H _ IH]; intros HI; [destruct HI|]. destruct HI as [<-|HI]; [eauto|auto]. Qed.
Lemma bad_not_shown_ies d n L : bad_ies d -> ies_shown d n L -> False.
Proof.
  intros (hs & hn & ps & pn & e & ns & x & HW & HW2 & He & Eg & HC & Hx & Bx) (hs' & hn' & ps' & pn' & Ps & HW' & HW2' & _ & _ & HF & _).
  destruct (walk_fun _ _ _ _ _ HW _ _ HW') as [-> ->]. destruct (walk_fun _ _ _ _ _ HW2 _ _ HW2') as [-> ->].
  destruct (Forall2_In _ _ _ e HF He) as (L1 & HP). unfold payload_shown in HP. rewrite Eg in HP. cbn [N.eqb Pos.eqb] in HP.
  destruct HP as (ns' & Ls & HC' & HF' & _). rewrite (chop_fun _ _ _ HC' _ HC) in HF'.
  destruct (Forall2_In _ _ _ x HF' Hx) as (L2 & HN). exact (bad_not_shown_nested x L2 Bx HN).
Qed.
Lemma bad_not_shown always r b L : frame_bad r b -> frame_shown always r b L -> False.
Proof.
  intros (n & HA & HI & HFit & HB) (n' & A & m & I & HA' & HI' & _).
  assert (n' = n).
  { destruct HA as [(dp & sp & H1 & -> & H3)|[H1 ->]]; destruct HA' as [(dp' & sp' & K1 & -> & K3 & _)|(K1 & -> & _)]; try reflexivity.
    - destruct (ieee_presence_fun _ _ _ _ _ _ _ _ H1 K1) as [-> ->]. reflexivity.
    - exfalso. specialize (K1 dp sp H1). lia.
    - exfalso. specialize (H1 dp' sp' K1). lia. }
  subst n'. destruct HI' as [[_ HI']|([K|K] & _)]; [exact (bad_not_shown_ies _ _ _ HB HI')|congruence|contradiction].
Qed.

(** ** At most one list of lines is shown *)
Lemma Forall2_fun {A B} (R : A -> B -> Prop) xs ys ys' : (forall x y y', R x y -> R x y' -> y = y') ->
  Forall2 R xs ys -> Forall2 R xs ys' -> ys = ys'.
Proof.
  intros HR H. revert ys'. induction H as [|x y xs ys Hx _ IH]; intros ys' H'; inversion H' as [|? y' ? ys2 Hx' HF']; subst; [reflexivity|].
  f_equal; [eapply HR; eassumption|apply IH; assumption].
Qed.
Lemma nested_shown_fun e L L' : nested_shown e L -> nested_shown e L' -> L = L'.
Proof.
  unfold nested_shown. cbv zeta. intros (M & -> & H) (M' & -> & H'). f_equal. set (c := skipn 2 e) in *.
  destruct (bit 15 (desc e)); [congruence|]. destruct (_ =? _)%N; [congruence|]. destruct (_ =? _)%N.
  - destruct H as [[H ->]|[(H & H1 & ->)|[H ->]]]; destruct H' as [[H' ->]|[(H' & H1' & ->)|[H' ->]]]; try reflexivity; exfalso;
      intuition (congruence || lia).
  - destruct (_ =? _)%N; [|congruence]. destruct H as [[H ->]|(H & ds & HD & _ & ->)]; destruct H' as [[H' ->]|(H' & ds' & HD' & _ & ->)]; try reflexivity; try (exfalso; lia).
    rewrite (descriptors_fun _ _ _ HD _ HD'). reflexivity.
Qed.
Lemma payload_shown_fun e L L' : payload_shown e L -> payload_shown e L' -> L = L'.
Proof.
  unfold payload_shown. destruct (_ =? _)%N; [|congruence]. intros (ns & Ls & H1 & H2 & ->) (ns' & Ls' & H1' & H2' & ->).
  rewrite (chop_fun _ _ _ H1' _ H1) in H2'. rewrite (Forall2_fun _ _ _ _ nested_shown_fun H2 H2'). reflexivity.
Qed.
Lemma ies_shown_fun d n L n' L' : ies_shown d n L -> ies_shown d n' L' -> n = n' /\ L = L'.
Proof.
  intros (hs & hn & ps & pn & Ps & HW & HW2 & -> & _ & HF & ->) (hs' & hn' & ps' & pn' & Ps' & HW' & HW2' & -> & _ & HF' & ->).
  destruct (walk_fun _ _ _ _ _ HW _ _ HW') as [-> ->]. destruct (walk_fun _ _ _ _ _ HW2 _ _ HW2') as [-> ->].
  split; [reflexivity|]. rewrite (Forall2_fun _ _ _ _ payload_shown_fun HF HF'). reflexivity.
Qed.
Lemma addr_shown_fun r b n A n' A' : addr_shown r b n A -> addr_shown r b n' A' -> n = n' /\ A = A'.
Proof.
  intros [(dp & sp & H1 & -> & H3 & ->)|(H1 & -> & ->)] [(dp' & sp' & K1 & -> & K3 & ->)|(K1 & -> & ->)]; try (split; reflexivity).
  - destruct (ieee_presence_fun _ _ _ _ _ _ _ _ H1 K1) as [-> ->]. split; reflexivity.
  - exfalso. specialize (K1 dp sp H1). lia.
  - exfalso. specialize (H1 dp' sp' K1). lia.
Qed.
Lemma ies_shown_fit d n L : ies_shown d n L -> ies_fit d n.
Proof. intros (hs & hn & ps & pn & Ps & HW & HW2 & H1 & H2 & _). exists hs, hn, ps, pn. auto. Qed.
Lemma frame_shown_fun always r b L L' : frame_shown always r b L -> frame_shown always r b L' -> L = L'.
Proof.
  intros (n & A & m & I & HA & HI & ->) (n' & A' & m' & I' & HA' & HI' & ->). destruct (addr_shown_fun _ _ _ _ _ _ HA HA') as [<- <-].
  assert (m = m' /\ I = I') as [<- <-]; [|reflexivity].
  destruct HI as [[E HI]|([E|E] & -> & ->)]; destruct HI' as [[E' HI']|([E'|E'] & -> & ->)]; try congruence; try (split; reflexivity).
  - exact (ies_shown_fun _ _ _ _ _ HI HI').
  - exfalso. apply E'. exists m. exact (ies_shown_fit _ _ _ HI).
  - exfalso. apply E. exists m'. exact (ies_shown_fit _ _ _ HI').
Qed.
