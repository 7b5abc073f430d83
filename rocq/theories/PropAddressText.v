(** PropAddressText.v -- property theorems C06 (Address::parse / Display). *)
From Verif Require Import Base Addressing AddressText SpecAddressText AddressTextProofs.

(** C06, full statement. *)
Definition C06_statement : Prop :=
  (forall a, address_wf a -> address_parse (address_display a) = Done (Ok a)) /\
  (forall s, (forall a, ~ address_text s a) -> address_parse s = Done Err).

(** Violated twice: "absent" does not parse, and "zz:00" panics. *)
Theorem C06_absent_refuted : address_parse (address_display AAbsent) = Done Err.
Proof. reflexivity. Qed.
Print Assumptions C06_absent_refuted.

Theorem C06_malformed_refuted : exists s, (forall a, ~ address_text s a) /\ address_parse s = Panic.
Proof.
  exists [122; 122; 58; 48; 48]%N.
  assert (E : address_parse [122; 122; 58; 48; 48]%N = Panic) by reflexivity.
  split; [|exact E]. intros a H. apply c06_parse_iff in H. congruence.
Qed.
Print Assumptions C06_malformed_refuted.

(** What holds: the parser accepts exactly the grammar, with the right value; *)
Theorem C06_parse_grammar_partial : forall s a, address_parse s = Done (Ok a) <-> address_text s a.
Proof. exact c06_parse_iff. Qed.
Print Assumptions C06_parse_grammar_partial.

(** every short or extended address round-trips; *)
Theorem C06_roundtrip_partial : forall a, address_wf a -> a <> AAbsent ->
  address_parse (address_display a) = Done (Ok a).
Proof. exact c06_roundtrip. Qed.
Print Assumptions C06_roundtrip_partial.

(** a short or extended address is shown as two lower-case digits per octet, most significant octet first; *)
Theorem C06_display_partial : forall v, octets v -> length v = 2 \/ length v = 8 ->
  shown_octets (address_display (if length v =? 2 then AShort v else AExtended v)) v.
Proof.
  intros v HO HL. assert (v <> []) by (destruct v; [cbn in HL; lia|discriminate]).
  destruct (length v =? 2); apply display_shown; assumption.
Qed.
Print Assumptions C06_display_partial.

(** and it panics exactly on malformed texts with one or seven colons. *)
Theorem C06_panic_iff : forall s, address_parse s = Panic <->
  (count_occ N.eq_dec s 58%N = 1 \/ count_occ N.eq_dec s 58%N = 7) /\ forall a, ~ address_text s a.
Proof.
  intros s. rewrite c06_panic_iff, split_colon_length. split.
  - intros (_ & H & K). split; [lia|exact K].
  - intros (H & K). split; [intros ->; cbn in H; lia|]. split; [lia|exact K].
Qed.
Print Assumptions C06_panic_iff.

Example C06_example : address_parse [97; 98; 58; 67; 100]%N = Done (Ok (AShort [171; 205]%N)) (* "ab:Cd" *) /\
  address_display (AShort [171; 5]%N) = [97; 98; 58; 48; 53]%N (* "ab:05" *).
Proof. repeat split. Qed.
