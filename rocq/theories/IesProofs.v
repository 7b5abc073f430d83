(** IesProofs.v -- emission and parsing of whole information element lists. *)
From Verif Require Import Base BaseProofs FrameControl Spec SpecIe SpecIeContent Ie IeContent ReprIe BitProofs AddressingProofs IeProofs DescProofs IeContentProofs SlotframeProofs ReprIeProofs.

Lemma payload_emit_termination m : payload_emit PTermination m = Panic.
Proof.
  unfold payload_emit. destruct (pie_set_length _ _); [|reflexivity]. cbn [bind].
  destruct (pie_set_group_id _ _); [|reflexivity]. cbn [bind]. unfold with_from. destruct (_ <=? _); reflexivity.
Qed.

Lemma emit_seq_panic {A} blen emit (x : A) l : In x l -> (forall m, emit x m = Panic) ->
  forall off b, emit_seq blen emit l off b = Panic.
Proof.
  intros Hx He. induction l as [|y l IH]; [destruct Hx|]. intros off b. cbn [emit_seq].
  destruct Hx as [->|Hx].
  - unfold with_slice. destruct (_ <=? _); [|reflexivity]. rewrite He. reflexivity.
  - destruct (with_slice b off (blen y) (emit y)); [|reflexivity]. cbn [bind]. apply IH, Hx.
Qed.

Lemma payload_octets_length p : length (payload_octets p) = payload_buffer_len p.
Proof. destruct p as [l|]; [|reflexivity]. cbn [payload_octets]. rewrite mlme_length. reflexivity. Qed.

Definition payload_data_emit_ok p m : p <> PTermination -> payload_typed p -> length m = payload_buffer_len p ->
  payload_emit p m = Done (payload_octets p).
Proof. intros Hp HT Hm. destruct p as [l|]; [|congruence]. apply payload_emit_ok; assumption. Qed.

Lemma terminations_eq r cp : header_terminations r cp =
  (some_in (ir_payload r), some_in (ir_header r) && cp && negb (some_in (ir_payload r)), some_in (ir_payload r) && cp).
Proof. unfold header_terminations. destruct (ir_header r), (ir_payload r), cp; reflexivity. Qed.

Lemma ies_octets_length r cp : length (ies_octets r cp) = ies_buffer_len r cp.
Proof.
  unfold ies_octets, ies_buffer_len. rewrite terminations_eq. rewrite app_length.
  rewrite (list_sum_concat header_buffer_len) by (intros; apply header_octets_length).
  rewrite (list_sum_concat payload_buffer_len) by (intros; apply payload_octets_length).
  rewrite !map_app, !list_sum_app. unfold header_end, payload_end.
  destruct (some_in (ir_payload r)), (some_in (ir_header r)), cp; cbn [andb negb map list_sum fold_right]; cbn; lia.
Qed.

Lemma emit_seq_prefix {A} (blen : A -> nat) emit (enc : A -> list N) l a m :
  (forall x m, In x l -> length m = blen x -> emit x m = Done (enc x)) ->
  (forall x, In x l -> length (enc x) = blen x) ->
  list_sum (map blen l) <= length m ->
  emit_seq blen emit l (length a) (a ++ m) = Done (a ++ concat (map enc l) ++ skipn (list_sum (map blen l)) m).
Proof.
  intros He Hl HL. rewrite <- (firstn_skipn (list_sum (map blen l)) m) at 1.
  apply emit_seq_ok; auto. rewrite firstn_length. lia.
Qed.

Lemma with_slice_prefix a m off n f enc : off = length a -> n <= length m ->
  (forall m, length m = n -> f m = Done enc) ->
  with_slice (a ++ m) off n f = Done (a ++ enc ++ skipn n m).
Proof.
  intros Ho Hn Hf. rewrite <- (firstn_skipn n m) at 1. apply with_slice_app; auto.
  - rewrite firstn_length. lia.
  - apply Hf. rewrite firstn_length. lia.
Qed.

Theorem ies_emit_prefix r cp b : ies_typed r -> ~ In PTermination (ir_payload r) -> some_in (ir_payload r) && cp = false ->
  ies_buffer_len r cp <= length b -> ies_emit r cp b = Done (ies_octets r cp ++ skipn (ies_buffer_len r cp) b).
Proof.
  intros (HH & HP & HF) HN HD HL. rewrite <- ies_octets_length in *. unfold ies_emit, ies_octets in *.
  rewrite terminations_eq, HD. cbv iota. unfold payload_end in *. rewrite HD in *. rewrite app_nil_r in *.
  rewrite map_app, concat_app in *. rewrite !app_length in *.
  set (HO := concat (map header_octets (ir_header r))) in *.
  assert (L1 : length HO = list_sum (map header_buffer_len (ir_header r))).
  { apply list_sum_concat. intros; apply header_octets_length. }
  assert (L2 : length (concat (map payload_octets (ir_payload r))) = list_sum (map payload_buffer_len (ir_payload r))).
  { apply list_sum_concat. intros; apply payload_octets_length. }
  pose proof (emit_seq_prefix header_buffer_len header_emit header_octets (ir_header r) [] b) as E1.
  cbn [app length] in E1. rewrite E1; [|intros; apply header_emit_ok; assumption|intros; apply header_octets_length|lia].
  cbn [bind]. fold HO. rewrite <- L1. clear E1.
  set (b1 := skipn (length HO) b). assert (LB : length b1 = length b - length HO) by apply skipn_length.
  set (T := concat (map header_octets (header_end r cp))) in *.
  assert (LT : length T = if some_in (ir_payload r) then 2 else if some_in (ir_header r) && cp then 2 else 0).
  { unfold T, header_end. clear. destruct (some_in (ir_payload r)), (some_in (ir_header r)), cp; reflexivity. }
  assert (ET : forall (k : nat -> list N -> outcome (list N)),
     (let* b := if some_in (ir_payload r) then with_slice (HO ++ b1) (0 + length HO) 2 (header_emit HTermination1) else Done (HO ++ b1) in
      let off := if some_in (ir_payload r) then 0 + length HO + 2 else 0 + length HO in
      let* b := if some_in (ir_header r) && cp && negb (some_in (ir_payload r)) then with_slice b off 2 (header_emit HTermination2) else Done b in
      let off := if some_in (ir_header r) && cp && negb (some_in (ir_payload r)) then off + 2 else off in k off b)
     = k (length (HO ++ T)) ((HO ++ T) ++ skipn (length T) b1)).
  { intros k. unfold T, header_end. rewrite LT in HL. destruct (some_in (ir_payload r)).
    - rewrite andb_false_r. cbn [negb map concat app].
      rewrite (with_slice_prefix HO b1 _ 2 _ (header_octets HTermination1)); [|reflexivity|lia|intros; apply header_emit_ok; assumption].
      cbn [bind]. rewrite app_nil_r, <- app_assoc, app_length. reflexivity.
    - rewrite andb_true_r. cbn [bind]. destruct (some_in (ir_header r) && cp).
      + cbn [map concat app].
        rewrite (with_slice_prefix HO b1 _ 2 _ (header_octets HTermination2)); [|reflexivity|lia|intros; apply header_emit_ok; assumption].
        cbn [bind]. rewrite app_nil_r, <- app_assoc, app_length. reflexivity.
      + cbn [bind map concat app]. rewrite app_nil_r. reflexivity. }
  etransitivity; [exact (ET (fun off b => let* b := emit_seq payload_buffer_len payload_emit (ir_payload r) off b in Done b))|]. cbv beta.
  rewrite (emit_seq_prefix payload_buffer_len payload_emit payload_octets).
  - cbn [bind]. rewrite <- L2. unfold b1. rewrite !AddressingProofs.skipn_skipn', <- !app_assoc.
    do 4 f_equal. assert (K : forall n m, n = m -> skipn n b = skipn m b) by congruence. apply K. clear. lia.
  - intros p m Hp Hm. apply payload_data_emit_ok; [intros ->; contradiction| |exact Hm]. rewrite Forall_forall in HF. apply HF, Hp.
  - intros; apply payload_octets_length.
  - rewrite skipn_length. lia.
Qed.

Theorem ies_emit_ok r cp b : ies_typed r -> ~ In PTermination (ir_payload r) -> some_in (ir_payload r) && cp = false ->
  length b = ies_buffer_len r cp -> ies_emit r cp b = Done (ies_octets r cp).
Proof.
  intros H1 H2 H3 H4. rewrite ies_emit_prefix by (assumption || lia). rewrite skipn_all2 by lia. rewrite app_nil_r. reflexivity.
Qed.

Theorem ies_emit_panic r cp b : In PTermination (ir_payload r) \/ some_in (ir_payload r) && cp = true ->
  ies_emit r cp b = Panic.
Proof.
  intros H. unfold ies_emit. rewrite terminations_eq.
  destruct (emit_seq header_buffer_len header_emit (ir_header r) 0 b) as [b1|]; [|reflexivity]. cbn [bind].
  set (t1 := if some_in (ir_payload r) then with_slice b1 _ 2 (header_emit HTermination1) else Done b1).
  destruct t1 as [b2|]; [|reflexivity]. cbn [bind].
  set (t2 := if some_in (ir_header r) && cp && negb (some_in (ir_payload r)) then with_slice b2 _ 2 (header_emit HTermination2) else Done b2).
  destruct t2 as [b3|]; [|reflexivity]. cbn [bind].
  destruct (emit_seq payload_buffer_len payload_emit _ _ _) as [b4|] eqn:E; [|reflexivity]. cbn [bind].
  destruct H as [H|H].
  - rewrite (emit_seq_panic _ _ PTermination) in E; [discriminate|exact H|apply payload_emit_termination].
  - rewrite H. unfold with_slice. destruct (_ <=? _); [|reflexivity]. rewrite payload_emit_termination. reflexivity.
Qed.

(** ** Walking over emitted lists *)
Lemma walk_concat {A} size stop (enc : A -> list N) l tail es n :
  (forall x rest, In x l -> size (enc x ++ rest) = length (enc x) /\ stop (enc x ++ rest) = false /\ 2 <= length (enc x)) ->
  walk size stop tail es n ->
  walk size stop (concat (map enc l) ++ tail) (suffixes enc l tail ++ es) (length (concat (map enc l)) + n).
Proof.
  intros H HW. induction l as [|x l IH]; [exact HW|]. cbn [map concat suffixes app].
  assert (IH' := IH (fun y rest Hy => H y rest (or_intror Hy))). clear IH.
  rewrite <- app_assoc. set (rest := concat (map enc l) ++ tail) in *.
  destruct (H x rest (or_introl eq_refl)) as (HZ & HS & HL).
  rewrite app_length.
  destruct rest as [|y rest'] eqn:E.
  - assert (HE : suffixes enc l tail ++ es = [] /\ length (concat (map enc l)) + n = 0).
    { clear - IH'. inversion IH' as [r K EQ|r K|r ? ? K]; simpl in K; try lia. split; reflexivity. }
    destruct HE as [HE1 HE2]. rewrite HE1, <- Nat.add_assoc, HE2, Nat.add_0_r. rewrite <- HZ.
    apply walk_last; [rewrite app_length; lia|]. right. rewrite HZ, app_length. simpl. lia.
  - rewrite <- E in *. rewrite <- Nat.add_assoc. rewrite <- HZ.
    apply walk_next; [rewrite app_length; lia|exact HS|rewrite HZ, app_length, E; simpl; lia|].
    rewrite HZ, skipn_app_exact by reflexivity. exact IH'.
Qed.

Lemma nested_concat_length l : length (concat (map nested_octets l)) = nested_total l.
Proof. apply list_sum_concat. intros; apply nested_octets_length. Qed.

Lemma header_walk_elem h rest : not_termination h ->
  code_header_size (header_octets h ++ rest) = length (header_octets h) /\
  std_header_stop (header_octets h ++ rest) = false /\ 2 <= length (header_octets h).
Proof.
  destruct h as [us n| |]; intros H; try destruct H. cbn [header_octets]. rewrite <- app_assoc.
  unfold code_header_size, std_header_stop. rewrite tc_head_desc.
  split; [reflexivity|]. split; [reflexivity|]. cbn [length app]. rewrite app_length, le_length. lia.
Qed.

Lemma payload_walk_elem l rest : nested_total l < 1024 ->
  code_payload_size (mlme_octets l ++ rest) = length (mlme_octets l) /\
  never (mlme_octets l ++ rest) = false /\ 2 <= length (mlme_octets l).
Proof.
  intros H. rewrite mlme_length. split; [|split; [reflexivity|lia]].
  destruct (group_read (N.of_nat (nested_total l)) (concat (map nested_octets l) ++ rest)) as (_ & _ & E); [lia|].
  rewrite mlme_eq, <- app_assoc, E, Nat2N.id. reflexivity.
Qed.

Lemma parse_push_break_firstn {A} parse (ys : list (list N)) (l : list A) cap :
  Forall2 (fun y x => parse y = Done (Ok x)) ys l ->
  forall len, len <= cap -> parse_push_break parse cap len ys = Done (Ok (firstn (cap - len) l)).
Proof.
  induction 1 as [|y x ys l H HF IH]; intros len Hc; [rewrite firstn_nil; reflexivity|]. cbn [parse_push_break]. rewrite H.
  unfold try at 1. cbn [bind]. destruct (Nat.ltb_spec len cap).
  - rewrite IH by lia. unfold try. cbn [bind]. replace (cap - len) with (S (cap - S len)) by lia. reflexivity.
  - replace (cap - len) with 0 by lia. reflexivity.
Qed.

Lemma suffixes_parse {A} parse (enc : A -> list N) l tail :
  (forall x rest, In x l -> parse (enc x ++ rest) = Done (Ok x)) ->
  Forall2 (fun y x => parse y = Done (Ok x)) (suffixes enc l tail) l.
Proof.
  induction l as [|x l IH]; intros H; [constructor|]. cbn [suffixes]. constructor.
  - apply H. left. reflexivity.
  - apply IH. intros y rest Hy. apply H. right. exact Hy.
Qed.

Lemma payload_parse_any p rest : payload_typed p -> payload_exact p -> payload_parse (payload_octets p ++ rest) = Done (Ok p).
Proof. intros HT HE. destruct p as [l|]; [|destruct HE]. destruct HE as [HE HL]. apply payload_parse_octets; [assumption|assumption|]. rewrite nested_concat_length in HL. exact HL. Qed.

(** emitted lists (without payload data) are accepted, and parse to the same elements, except that the HT1
    inserted before payload IEs is read as an ordinary header IE (as far as the vector's capacity goes) *)
Theorem ies_roundtrip r : ies_typed r -> ies_exact r ->
  ies_new (ies_octets r false) = Done (Ok (ies_octets r false)) /\
  ies_len (ies_octets r false) = Done (length (ies_octets r false)) /\
  ies_parse (ies_octets r false) = Done (Ok (mkIes (firstn 16 (ir_header r ++ header_end r false)) (ir_payload r))).
Proof.
  intros (HH & HP & HF) (EH & EP).
  assert (EQ : ies_octets r false = concat (map header_octets (ir_header r)) ++
     concat (map header_octets (header_end r false)) ++ concat (map payload_octets (ir_payload r)) ++ []).
  { unfold ies_octets, payload_end. rewrite andb_false_r, app_nil_r, map_app, concat_app, <- app_assoc, app_nil_r. reflexivity. }
  set (d := ies_octets r false) in *. set (PO := concat (map payload_octets (ir_payload r))) in *.
  set (HO := concat (map header_octets (ir_header r))) in *.
  set (T := concat (map header_octets (header_end r false))) in *.
  assert (HWT : exists ts, walk code_header_size std_header_stop (T ++ PO ++ []) ts (length T) /\
     Forall2 (fun y x => header_parse y = Done (Ok x)) ts (header_end r false)).
  { unfold T, header_end. destruct (ir_payload r) as [|p ps] eqn:E; cbn [some_in].
    - rewrite andb_false_r. cbn [map concat length]. exists []. split; [|constructor]. unfold PO. constructor. simpl. lia.
    - exists [header_octets HTermination1 ++ PO ++ []]. split.
      + cbn [map concat]. rewrite app_nil_r at 1. change (length (header_octets HTermination1 ++ [])) with (code_header_size (header_octets HTermination1 ++ PO ++ [])).
        apply walk_last; [cbn; lia|left; reflexivity].
      + constructor; [|constructor]. apply (header_parse_octets HTermination1); exact I. }
  destruct HWT as (ts & HWT & FT).
  assert (HW : walk code_header_size std_header_stop d (suffixes header_octets (ir_header r) (T ++ PO ++ []) ++ ts) (length HO + length T)).
  { rewrite EQ. apply walk_concat; [|exact HWT]. intros h rest Hh. apply header_walk_elem. rewrite Forall_forall in EH. apply (EH h Hh). }
  set (hs := suffixes header_octets (ir_header r) (T ++ PO ++ []) ++ ts) in *.
  assert (FH : Forall2 (fun y x => header_parse y = Done (Ok x)) hs (ir_header r ++ header_end r false)).
  { apply Forall2_app; [|exact FT]. apply suffixes_parse. intros h rest Hh. apply header_parse_octets. rewrite Forall_forall in EH. apply (EH h Hh). }
  assert (HS : skipn (length HO + length T) d = PO ++ []).
  { rewrite EQ, app_assoc, skipn_app_exact by (rewrite app_length; reflexivity). reflexivity. }
  assert (HWP : walk code_payload_size never (skipn (length HO + length T) d) (suffixes payload_octets (ir_payload r) [] ++ []) (length PO + 0)).
  { rewrite HS. apply walk_concat; [|constructor; simpl; lia]. intros p rest Hp. rewrite Forall_forall in EP. specialize (EP p Hp).
    destruct p as [l|]; [|destruct EP]. apply payload_walk_elem. rewrite <- nested_concat_length. apply EP. }
  assert (LD : length d = length HO + length T + length PO).
  { rewrite EQ, !app_length. simpl. lia. }
  destruct (ies_new_spec d) as (hs' & hn' & HW' & [[K _]|(K & ps' & pn' & HWP' & HC)]);
    destruct (walk_fun _ _ _ _ _ HW _ _ HW') as [<- <-]; [lia|].
  destruct (walk_fun _ _ _ _ _ HWP _ _ HWP') as [<- <-].
  destruct HC as [[K' _]|(K' & EN & EL & (t1 & EHd) & (t2 & EPd))]; [lia|].
  split; [exact EN|]. split; [rewrite EL; f_equal; lia|].
  unfold ies_parse. rewrite EHd. cbn [bind].
  rewrite (parse_push_break_firstn header_parse hs (ir_header r ++ header_end r false)) by (exact FH || lia).
  unfold try at 1. cbn [bind]. rewrite EPd. cbn [bind]. rewrite app_nil_r.
  rewrite (parse_push_break_list payload_parse _ (ir_payload r)); [reflexivity| |simpl; lia].
  apply suffixes_parse. intros p rest Hp. rewrite Forall_forall in EP, HF. apply payload_parse_any; [apply HF|apply EP]; exact Hp.
Qed.
