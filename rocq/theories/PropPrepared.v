(** PropPrepared.v -- C45: what is sent for a frame of the upper layer is determined by its octets *)
From Coq Require Import Lia.
From Verif Require Import Base BaseProofs Spec SpecFrame FrameControl BitProofs FrameControlProofs Addressing SpecAddressing
  AddressingProofs AddressingProofs2 Frames SpecFrames FramesProofs PhyConfig Time Csma SpecCsma CsmaProofs CsmaTasks CsmaWorld SpecTasks PropCsma TxAutomaton TxLog TaskRuns.

Lemma only_ar_changed_fun buf o ar b b' : only_ar_changed buf b o ar -> only_ar_changed buf b' o ar -> b = b'.
Proof.
  intros (L & HI & HO & HB) (L' & HI' & HO' & HB'). apply (nth_ext b b' 0%N 0%N); [congruence|]. intros i _.
  destruct (Nat.eq_dec i o) as [->|NE]; [|rewrite HI, HI' by exact NE; reflexivity].
  assert (H8 : forall x, octet x -> forall j, (8 <= j)%N -> N.testbit x j = false).
  { intros x HX j HJ. unfold octet in HX. destruct (N.eq_dec x 0) as [->|NZ]; [apply N.bits_0|]. apply N.bits_above_log2.
    apply N.log2_lt_pow2; [lia|]. eapply N.lt_le_trans; [exact HX|]. change 256%N with (2 ^ 8)%N. apply N.pow_le_mono_r; lia. }
  apply N.bits_inj. intros j. destruct (N.lt_ge_cases j 8) as [HJ|HJ].
  - specialize (HB j HJ). specialize (HB' j HJ). rewrite bit_testbit in HB, HB'. rewrite HB, HB'. reflexivity.
  - rewrite (H8 _ HO j HJ), (H8 _ HO' j HJ). reflexivity.
Qed.
Lemma ack_requested_fun S buf b q es b' q' es' : ack_requested S buf b q es -> ack_requested S buf b' q' es' -> b = b' /\ q = q' /\ es = es'.
Proof.
  intros [o d r c HH HA HR HC|o d r HH HA HR|o d HH HN|HN] [o' d' r' c' HH' HA' HR' HC'|o' d' r' HH' HA' HR'|o' d' HH' HN'|HN'];
    try (solve [destruct HN; eauto | destruct HN'; eauto | auto]);
    destruct (holds_fun _ _ _ _ _ _ HH HH') as [<- <-]; try (solve [destruct HN; eauto | destruct HN'; eauto]);
    try (pose proof (acceptable_fun _ _ _ HA HA'); subst r'); try contradiction; auto.
  split; [eapply only_ar_changed_fun; eassumption|auto].
Qed.
Lemma pan_overwritten_fun S buf b es b' es' : pan_overwritten S buf b es -> pan_overwritten S buf b' es' -> b = b' /\ es = es'.
Proof.
  intros [o d r dp sp HH HA HL HS|o d r HH HA HX|o d HH HN|HN] [o' d' r' dp' sp' HH' HA' HL' HS'|o' d' r' HH' HA' HX'|o' d' HH' HN'|HN'];
    try (solve [destruct HN; eauto | destruct HN'; eauto | auto]);
    destruct (holds_fun _ _ _ _ _ _ HH HH') as [<- <-]; try (solve [destruct HN; eauto | destruct HN'; eauto]);
    try (pose proof (acceptable_fun _ _ _ HA HA'); subst r'); auto.
  - destruct (c07_unique r _ _ _ _ HL HL') as [-> ->]. auto.
  - specialize (HX' _ _ HL). lia.
  - specialize (HX _ _ HL'). lia.
Qed.

(** For every buffer handed over for transmission there is exactly one sequence of octets to send, one decision about the
    acknowledgement and one list of errors: [prepared], the specification C45 refers to, leaves nothing open. *)
Theorem C45_prepared_determined : forall S buf, setup_ok S -> octets buf ->
  exists b q es, prepared S buf b q es /\ forall b' q' es', prepared S buf b' q' es' -> b' = b /\ q' = q /\ es' = es.
Proof.
  intros S buf OK HO. destruct (plan S buf) as [[b q] es] eqn:E. exists b, q, es. assert (HP := plan_prepared S OK buf b q es HO E).
  split; [exact HP|]. destruct HP as (b1 & e1 & e2 & HA & HW & ->). intros b' q' es' (b1' & e1' & e2' & HA' & HW' & ->).
  destruct (ack_requested_fun _ _ _ _ _ _ _ _ HA' HA) as (-> & -> & ->). destruct (pan_overwritten_fun _ _ _ _ _ _ HW' HW) as (-> & ->). auto.
Qed.
Print Assumptions C45_prepared_determined.
Example C45_prepared_case : prepared S0 frame on_air (Some 1%N) [] /\ forall b q es, prepared S0 frame b q es -> b = on_air /\ q = Some 1%N /\ es = [].
Proof.
  assert (HO : octets frame) by (repeat (constructor; [vm_compute; reflexivity|]); constructor).
  assert (HP : prepared S0 frame on_air (Some 1%N) []) by (apply (plan_prepared S0 S0_ok frame _ _ _ HO); vm_compute; reflexivity).
  split; [exact HP|]. intros b q es H. destruct (C45_prepared_determined S0 frame S0_ok HO) as (b0 & q0 & es0 & _ & HU).
  destruct (HU _ _ _ HP) as (-> & -> & ->). apply HU, H.
Qed.
