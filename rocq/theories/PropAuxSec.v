(** PropAuxSec.v -- property theorems C10 (aux_sec_header.rs) and the table they are compared with. *)
From Verif Require Import Base BaseProofs Spec AuxSec.

(** IEEE 802.15.4-2020 table 9-6 (table 95 of 2006): level -> (encrypted, MIC octets). *)
Definition table_9_6 (level : N) : option (bool * nat) :=
  match level with
  | 0 => Some (false, 0%nat) | 1 => Some (false, 4%nat) | 2 => Some (false, 8%nat) | 3 => Some (false, 16%nat)
  | 4 => Some (true, 0%nat) | 5 => Some (true, 4%nat) | 6 => Some (true, 8%nat) | 7 => Some (true, 16%nat)
  | _ => None
  end%N.

(** Full statement: for every non-empty header the level (bits 0-2), key identifier mode (bits 3-4), the
    two flags (bits 5, 6), encryption, authentication (MIC non-empty) and MIC length follow the table;
    every accessor is defined. *)
Definition C10_statement : Prop := forall c rest, octet c ->
  exists enc mic, table_9_6 (field 0 3 c) = Some (enc, mic) /\
  aux_security_control (c :: rest) = Done c /\
  sc_security_level c = field 0 3 c /\
  sc_frame_counter_suppression c = bit 5 c /\ sc_asn_in_nonce c = bit 6 c /\
  sl_mic_length (sc_security_level c) = mic /\
  sl_data_confidentiality (sc_security_level c) = enc /\
  sl_data_authenticity (sc_security_level c) = (0 <? mic)%nat.

(** Violated: data_confidentiality tests bit 3 of a 3-bit value and is always false. *)
Theorem C10_confidentiality_refuted : ~ C10_statement.
Proof.
  intros H. destruct (H 5%N [] eq_refl) as (enc & mic & HT & _ & _ & _ & _ & _ & HC & _).
  injection HT as <- <-. discriminate HC.
Qed.
Print Assumptions C10_confidentiality_refuted.

Theorem C10_confidentiality_never : forall c, octet c -> sl_data_confidentiality (sc_security_level c) = false.
Proof.
  intros c H. apply negb_true_iff.
  apply (sweep 256 (fun c => negb (sl_data_confidentiality (sc_security_level c)))); [reflexivity|exact H].
Qed.
Print Assumptions C10_confidentiality_never.

(** A second violation: level 4 (encryption only) reports authenticity although its MIC is empty. *)
Theorem C10_authenticity_level4_refuted :
  table_9_6 4 = Some (true, 0) /\ sl_mic_length (sc_security_level 4) = 0 /\
  sl_data_authenticity (sc_security_level 4) = true.
Proof. repeat split. Qed.
Print Assumptions C10_authenticity_level4_refuted.

(** What holds, for every control octet and every rest of the buffer. *)
Theorem C10_fields_partial : forall c rest, octet c ->
  exists enc mic, table_9_6 (field 0 3 c) = Some (enc, mic) /\
  aux_security_control (c :: rest) = Done c /\
  sc_security_level c = field 0 3 c /\
  sc_frame_counter_suppression c = bit 5 c /\ sc_asn_in_nonce c = bit 6 c /\
  sl_mic_length (sc_security_level c) = mic /\
  (sc_key_identifier_mode c = KiImplicit <-> field 3 2 c = 0%N) /\
  (sc_key_identifier_mode c = KiExplicit <-> field 3 2 c = 1%N) /\
  (field 0 3 c <> 4%N -> sl_data_authenticity (sc_security_level c) = (0 <? mic)%nat) /\
  aux_len (c :: rest) = Done (1 + mic).
Proof.
  intros c rest Hc.
  set (chk := fun c => match table_9_6 (field 0 3 c) with
    | Some (enc, mic) =>
       (sc_security_level c =? field 0 3 c)%N && eqb (sc_frame_counter_suppression c) (bit 5 c) &&
       eqb (sc_asn_in_nonce c) (bit 6 c) && (sl_mic_length (sc_security_level c) =? mic) &&
       (match sc_key_identifier_mode c with KiImplicit => (field 3 2 c =? 0)%N | KiExplicit => (field 3 2 c =? 1)%N
        | KiUnknown => (2 <=? field 3 2 c)%N end) &&
       ((field 0 3 c =? 4)%N || eqb (sl_data_authenticity (sc_security_level c)) (0 <? mic))
    | None => false end).
  assert (H : chk c = true) by (apply (sweep 256 chk); [vm_compute; reflexivity|exact Hc]).
  unfold chk in H. clear chk. destruct (table_9_6 (field 0 3 c)) as [[enc mic]|]; [|discriminate].
  rewrite !andb_true_iff in H. destruct H as (((((H1 & H2) & H3) & H4) & H5) & H6).
  apply N.eqb_eq in H1. apply eqb_prop in H2. apply eqb_prop in H3. apply Nat.eqb_eq in H4.
  exists enc, mic. repeat (split; [first [reflexivity|assumption]|]).
  destruct (sc_key_identifier_mode c); [apply N.eqb_eq in H5|apply N.eqb_eq in H5|apply N.leb_le in H5];
  (split; [split; intros K; try discriminate K; try exact H5; try congruence; try reflexivity; clear - H5 K; lia|]);
  (split; [split; intros K; try discriminate K; try exact H5; try congruence; try reflexivity; clear - H5 K; lia|]);
  (split; [|unfold aux_len, aux_security_control; cbn [idx nth_error bind]; rewrite H4; reflexivity]);
  intros K; apply orb_true_iff in H6; (destruct H6 as [H6|H6]; [apply N.eqb_eq in H6; contradiction|apply eqb_prop in H6; exact H6]).
Qed.
Print Assumptions C10_fields_partial.

(** [new] accepts the empty buffer and every accessor then panics. *)
Theorem C10_empty_refuted : aux_security_control [] = Panic /\ aux_len [] = Panic.
Proof. split; reflexivity. Qed.
Print Assumptions C10_empty_refuted.

(** [len] counts the control octet and the MIC, not the frame counter and key identifier. *)
Example C10_example : aux_len [109; 1; 2]%N = Done 5 /\ sc_key_identifier_mode 109 = KiExplicit /\
  sc_frame_counter_suppression 109 = true /\ sc_asn_in_nonce 109 = true.
Proof. repeat split. Qed.
