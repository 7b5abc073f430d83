(** PropAddressing.v -- property theorems C05, C07-C09 (addressing.rs, repr/addressing.rs). *)
From Verif Require Import Base BaseProofs Spec SpecFrame FrameControl Addressing SpecAddressing
  AddressingProofs AddressingProofs2.

(** C05. [Address::from] on a slice of 0, 2 or 8 octets. *)
Theorem C05_from_bytes : forall l, octets l ->
  match address_from l with
  | Done a => (length l = 0 \/ length l = 2 \/ length l = 8) /\ address_wf a /\
              as_bytes a = l /\ address_len a = length l
  | Panic => length l <> 0 /\ length l <> 2 /\ length l <> 8
  end.
Proof. exact c05_from. Qed.
Print Assumptions C05_from_bytes.

Theorem C05_as_bytes_from : forall a, address_wf a ->
  address_from (as_bytes a) = Done a /\ length (as_bytes a) = address_len a /\ octets (as_bytes a).
Proof. exact c05_as_bytes. Qed.
Print Assumptions C05_as_bytes_from.

Theorem C05_kinds : forall a,
  (is_broadcast a = true <-> a = AShort [255; 255]%N) /\
  is_unicast a = negb (is_broadcast a) /\
  AddressingMode_size (mode_of_address a) = address_len a /\
  ((is_absent a = true /\ is_short a = false /\ is_extended a = false /\ address_len a = 0) \/
   (is_absent a = false /\ is_short a = true /\ is_extended a = false /\ address_len a = 2) \/
   (is_absent a = false /\ is_short a = false /\ is_extended a = true /\ address_len a = 8)).
Proof. exact c05_kinds. Qed.
Print Assumptions C05_kinds.

(** [to_short] of an address: itself when short, the first two octets when extended. *)
Theorem C05_to_short : forall a,
  match a with
  | AAbsent => to_short a = None
  | AShort v => to_short a = Some a
  | AExtended v => address_wf a -> exists x y r, v = x :: y :: r /\ to_short a = Some (AShort [x; y])
  end.
Proof. exact c05_to_short. Qed.
Print Assumptions C05_to_short.

Example C05_example : address_from [1; 2; 3; 4; 5; 6; 7; 8]%N = Done (AExtended [1; 2; 3; 4; 5; 6; 7; 8]%N) /\
  address_from [1; 2; 3]%N = Panic /\ is_broadcast (AShort [255; 254]%N) = false.
Proof. repeat split. Qed.

(** C07, full statement: for every frame control and every buffer that is large enough for any
    addressing field (20 octets), the reader is accepted exactly when the standard defines a layout,
    and then each field is reported present exactly as the standard says. *)
Definition C07_statement : Prop := forall fc r b, fc_is fc r -> 20 <= length b ->
  (af_new b fc = Done (Ok (mkAf b fc)) /\
   exists dp sp p1 a1 p2 a2, layout r dp sp /\
     af_dst_pan_id (mkAf b fc) = Done p1 /\ (p1 <> None <-> dp = true) /\
     af_dst_address (mkAf b fc) = Done (Some a1) /\ mode_of_address a1 = fr_dst_addressing_mode r /\
     af_src_pan_id (mkAf b fc) = Done p2 /\ (p2 <> None <-> sp = true) /\
     af_src_address (mkAf b fc) = Done (Some a2) /\ mode_of_address a2 = fr_src_addressing_mode r) \/
  (af_new b fc = Done Err /\ forall dp sp, ~ layout r dp sp).

(** The code violates it for reserved addressing modes: version 2, destination mode 0b01, source absent
    is undefined in the standard but accepted. *)
Theorem C07_reserved_mode_refuted : ~ C07_statement.
Proof. exact c07_refuted. Qed.
Print Assumptions C07_reserved_mode_refuted.

(** It holds for every frame control whose two addressing modes are not reserved. *)
Theorem C07_presence_partial : forall fc r b, fc_is fc r -> 20 <= length b ->
  fr_dst_addressing_mode r <> AmUnknown -> fr_src_addressing_mode r <> AmUnknown ->
  (af_new b fc = Done (Ok (mkAf b fc)) /\
   exists dp sp p1 a1 p2 a2, layout r dp sp /\
     af_dst_pan_id (mkAf b fc) = Done p1 /\ (p1 <> None <-> dp = true) /\
     af_dst_address (mkAf b fc) = Done (Some a1) /\ mode_of_address a1 = fr_dst_addressing_mode r /\
     af_src_pan_id (mkAf b fc) = Done p2 /\ (p2 <> None <-> sp = true) /\
     af_src_address (mkAf b fc) = Done (Some a2) /\ mode_of_address a2 = fr_src_addressing_mode r) \/
  (af_new b fc = Done Err /\ forall dp sp, ~ layout r dp sp).
Proof. exact c07_presence. Qed.
Print Assumptions C07_presence_partial.

(** The layout is a function of the frame control. *)
Theorem C07_layout_unique : forall r dp sp dp' sp', layout r dp sp -> layout r dp' sp' -> dp = dp' /\ sp = sp'.
Proof. exact c07_unique. Qed.
Print Assumptions C07_layout_unique.

Example C07_example :
  let fc := [65; 216]%N in (* 2006 data, short destination, extended source, PAN ID compression *)
  let r := mkFcRepr FtData false false false true false false AmShort AmExtended V2006 in
  let b := [205; 171; 255; 255; 199; 217; 181; 20; 0; 75; 18; 0; 43; 0; 0; 0; 0; 0; 0; 0]%N in
  fc_is fc r /\ 20 <= length b /\ af_dst_pan_id (mkAf b fc) = Done (Some 43981%N) /\ af_src_pan_id (mkAf b fc) = Done None /\
  af_new b [2; 36]%N = Done (Ok (mkAf b [2; 36]%N)) (* a reserved mode, accepted *) /\
  af_new b [1; 16]%N = Done Err (* 2006 without addresses: no layout *).
Proof.
  cbv zeta. split; [|split; [cbn; lia|repeat split]].
  exists 65%N, 216%N, []. repeat split.
Qed.

(** C08. Acceptance, length, values. *)
Theorem C08_accepted : forall fc r b dp sp, fc_is fc r -> layout r dp sp -> layout_size r dp sp <= length b ->
  af_new b fc = Done (Ok (mkAf b fc)) /\
  af_len (mkAf b fc) = Done (layout_size r dp sp) /\
  af_dst_pan_id (mkAf b fc) = Done (pan_at dp b 0) /\
  af_dst_address (mkAf b fc) = Done (Some (addr_at (fr_dst_addressing_mode r) b (pan_size dp))) /\
  af_src_pan_id (mkAf b fc) = Done (pan_at sp b (pan_size dp + addr_size (fr_dst_addressing_mode r))) /\
  af_src_address (mkAf b fc) = Done (Some (addr_at (fr_src_addressing_mode r) b
     (pan_size dp + addr_size (fr_dst_addressing_mode r) + pan_size sp))).
Proof. exact c08_accepted. Qed.
Print Assumptions C08_accepted.

Theorem C08_rejected_partial : forall fc r b, fc_is fc r ->
  fr_dst_addressing_mode r <> AmUnknown -> fr_src_addressing_mode r <> AmUnknown ->
  (forall dp sp, layout r dp sp -> length b < layout_size r dp sp) ->
  af_new b fc = Done Err.
Proof. exact c08_rejected. Qed.
Print Assumptions C08_rejected_partial.

(** Only the first [len] octets are read. *)
Theorem C08_reads_only_len_octets : forall fc r b b' dp sp, fc_is fc r -> layout r dp sp ->
  layout_size r dp sp <= length b -> layout_size r dp sp <= length b' ->
  firstn (layout_size r dp sp) b = firstn (layout_size r dp sp) b' ->
  afr_parse (mkAf b fc) = afr_parse (mkAf b' fc).
Proof. exact c08_reads_prefix. Qed.
Print Assumptions C08_reads_only_len_octets.

(** Every reader accepted by [new] can be read without panic (any frame control, reserved modes included) ... *)
Theorem C08_getters_no_panic : forall fc b, octets fc -> 2 <= length fc ->
  af_new b fc <> Panic /\
  forall af, af_new b fc = Done (Ok af) -> afr_parse af <> Panic.
Proof. exact c08_no_panic. Qed.
Print Assumptions C08_getters_no_panic.

(** ... but its length cannot: with a reserved mode [new] returns Ok and [len] reaches unreachable!(). *)
Definition C08_len_statement : Prop := forall fc b af, octets fc -> octets b -> 2 <= length fc ->
  af_new b fc = Done (Ok af) -> af_len af <> Panic.
Theorem C08_len_refuted : ~ C08_len_statement.
Proof. exact c08_len_refuted. Qed.
Print Assumptions C08_len_refuted.

(** [len] panics on an accepted reader exactly in that case. *)
Theorem C08_len_panics_iff : forall fc r b af, fc_is fc r -> af_new b fc = Done (Ok af) ->
  (af_len af = Panic <-> fr_dst_addressing_mode r = AmUnknown \/ fr_src_addressing_mode r = AmUnknown).
Proof. exact c08_len_panics_iff. Qed.
Print Assumptions C08_len_panics_iff.

Example C08_example :
  let fc := [65; 216]%N in (* 2006 data, short destination, extended source, PAN ID compression *)
  let b := [205; 171; 255; 255; 199; 217; 181; 20; 0; 75; 18; 0; 43]%N in
  (exists r, fc_is fc r /\ layout r true false /\ layout_size r true false = 12) /\
  af_len (mkAf b fc) = Done 12 /\ af_dst_pan_id (mkAf b fc) = Done (Some 43981%N) /\
  af_src_address (mkAf b fc) = Done (Some (AExtended [0; 18; 75; 0; 20; 181; 217; 199]%N)).
Proof.
  cbv zeta. split; [|repeat split].
  exists (mkFcRepr FtData false false false true false false AmShort AmExtended V2006).
  split; [|split; [|reflexivity]].
  - exists 65%N, 216%N, []. repeat split.
  - repeat split; discriminate.
Qed.

(** C09. Write/read round-trip, exact octets, rest of the buffer unchanged. *)
Theorem C09_write_read : forall fc fr r b dp sp, fc_is fc fr -> layout fr dp sp ->
  repr_matches r (fr_dst_addressing_mode fr) (fr_src_addressing_mode fr) dp sp ->
  layout_size fr dp sp <= length b ->
  length (addressing_octets r) = layout_size fr dp sp /\
  af_write_fields b r = Done (addressing_octets r ++ skipn (layout_size fr dp sp) b) /\
  afr_parse (mkAf (addressing_octets r ++ skipn (layout_size fr dp sp) b) fc) = Done r.
Proof. exact c09_roundtrip. Qed.
Print Assumptions C09_write_read.

Example C09_example :
  repr_matches (mkAfRepr (Some 43981%N) (Some (AShort [1; 2]%N)) None (Some (AExtended [1; 2; 3; 4; 5; 6; 7; 8]%N)))
    AmShort AmExtended true false.
Proof.
  split; [|split; [eexists; split; reflexivity|reflexivity]].
  do 2 eexists. repeat (split; [reflexivity|]).
  split; split; try reflexivity; repeat constructor.
Qed.
