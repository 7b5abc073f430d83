(** SpecRepr.v -- when a frame representation describes itself consistently, which octets it stands for,
    and which builders the public API can produce. *)
From Verif Require Import Base Spec SpecFrame FrameControl Addressing SpecAddressing Ie IeContent ReprIe SpecIe SpecIeContent Frames SpecFrames Repr.

(** A missing address and [Address::Absent] say the same. *)
Definition normal_addr (o : option Address) : Address := match o with Some a => a | None => AAbsent end.
Definition normal (a : AddressingFieldsRepr) : AddressingFieldsRepr :=
  mkAfRepr (ar_dst_pan_id a) (Some (normal_addr (ar_dst_address a))) (ar_src_pan_id a) (Some (normal_addr (ar_src_address a))).
(** The addressing information of a frame; no addressing fields say the same as empty ones. *)
Definition fields_of (o : option AddressingFieldsRepr) : AddressingFieldsRepr :=
  match o with Some a => normal a | None => mkAfRepr None (Some AAbsent) None (Some AAbsent) end.

(** The frame control describes exactly the fields that are present. *)
Record consistent (r : FrameRepr) : Prop := {
  con_known : fcr_known (f_control r);
  con_plain : fr_security_enabled (f_control r) = false;
  con_seq : match f_sequence_number r with
            | Some x => octet x /\ fr_sequence_number_suppression (f_control r) = false
            | None => fr_sequence_number_suppression (f_control r) = true end;
  con_addr : match f_addressing r with
             | Some a => exists dp sp, layout (f_control r) dp sp /\
                 repr_matches (normal a) (fr_dst_addressing_mode (f_control r)) (fr_src_addressing_mode (f_control r)) dp sp
             | None => forall dp sp, layout (f_control r) dp sp -> layout_size (f_control r) dp sp = 0 end;
  con_ies : match f_ies r with
            | Some i => fr_information_elements_present (f_control r) = true /\ ies_typed i
            | None => fr_information_elements_present (f_control r) = false end;
  con_payload : match f_payload r with Some p => octets p | None => True end }.

(** The octets of each part *)
Definition seq_part (r : FrameRepr) : list N := match f_sequence_number r with Some x => [x] | None => [] end.
Definition addr_part (r : FrameRepr) : list N := match f_addressing r with Some a => addressing_octets a | None => [] end.
Definition has {A} (o : option A) : bool := match o with Some _ => true | None => false end.
Definition ies_part (r : FrameRepr) : list N :=
  match f_ies r with Some i => ies_octets i (has (f_payload r)) | None => [] end.
Definition payload_part (r : FrameRepr) : list N := match f_payload r with Some p => p | None => [] end.
(** [b] is the frame [r] over the air: figure 7-1, reserved bit 7 zero *)
Definition frame_octets (r : FrameRepr) (b : list N) : Prop :=
  exists c0 c1, octet c0 /\ octet c1 /\ fc_encodes (c0 + 256 * c1) (f_control r) /\ bit 7 (c0 + 256 * c1) = false /\
    b = c0 :: c1 :: seq_part r ++ addr_part r ++ ies_part r ++ payload_part r.

(** Frames the emitter supports: no payload data behind information elements, no explicit payload termination. *)
Definition emittable (r : FrameRepr) : Prop :=
  match f_ies r with Some i => f_payload r = None /\ ~ In PTermination (ir_payload i) | None => True end.

(** The same frame up to the ways of writing "absent" *)
Definition same_frame (r r' : FrameRepr) : Prop :=
  f_control r = f_control r' /\ f_sequence_number r = f_sequence_number r' /\
  fields_of (f_addressing r) = fields_of (f_addressing r') /\
  f_ies r = f_ies r' /\ payload_part r = payload_part r' /\ (payload_part r <> [] -> f_payload r = f_payload r').

(** ** What programs can do with a builder *)
Inductive start := SImmAck (seq : N) | SAck | SBeacon | SEnhancedBeacon | SData (payload : list N).
Definition begin (s : start) : FrameRepr :=
  match s with
  | SImmAck x => new_imm_ack x | SAck => new_ack | SBeacon => new_beacon
  | SEnhancedBeacon => new_enhanced_beacon | SData p => new_data p end.
Inductive call :=
| CSequence (x : N) | CDstPan (p : N) | CSrcPan (p : N) | CDst (a : Address) | CSrc (a : Address)
| CHeader (h : HeaderIE) | CPayloadIe (p : PayloadIE) | CPayload (p : list N).
Definition perform (c : call) (f : FrameRepr) : outcome FrameRepr :=
  match c with
  | CSequence x => Done (b_set_sequence_number x f)
  | CDstPan p => Done (b_set_dst_pan_id p f) | CSrcPan p => Done (b_set_src_pan_id p f)
  | CDst a => Done (b_set_dst_address a f) | CSrc a => Done (b_set_src_address a f)
  | CHeader h => b_add_header h f | CPayloadIe p => b_add_payload p f
  | CPayload p => Done (b_set_payload p f) end.
(** arguments in the range of their Rust types *)
Definition start_typed (s : start) : Prop :=
  match s with SImmAck x => octet x | SData p => octets p | _ => True end.
Definition call_typed (c : call) : Prop :=
  match c with
  | CSequence x => octet x | CDstPan p | CSrcPan p => (p < 65536)%N
  | CDst a | CSrc a => address_wf a
  | CHeader h => True | CPayloadIe p => payload_typed p
  | CPayload p => octets p end.
Inductive builds : start -> list call -> FrameRepr -> Prop :=
| builds_start s : start_typed s -> builds s [] (begin s)
| builds_call s cs f c f' : builds s cs f -> call_typed c -> perform c f = Done f' -> builds s (cs ++ [c]) f'.
(** no call sets an address to [Address::Absent] *)
Definition present_addresses (cs : list call) : Prop := ~ In (CDst AAbsent) cs /\ ~ In (CSrc AAbsent) cs.
(** no call sets an address *)
Definition no_addresses (cs : list call) : Prop := forall a, ~ In (CDst a) cs /\ ~ In (CSrc a) cs.
Definition no_ies (cs : list call) : Prop := (forall h, ~ In (CHeader h) cs) /\ (forall p, ~ In (CPayloadIe p) cs).

(** ** What a sequence of builder calls asks for *)
(** the last call of a kind, if any *)
Fixpoint last_of {A} (pick : call -> option A) (cs : list call) : option A :=
  match cs with
  | [] => None
  | c :: r => match last_of pick r with Some x => Some x | None => pick c end
  end.
(** all calls of a kind, in order *)
Fixpoint all_of {A} (pick : call -> option A) (cs : list call) : list A :=
  match cs with
  | [] => []
  | c :: r => match pick c with Some x => x :: all_of pick r | None => all_of pick r end
  end.
Definition seq_call (c : call) := match c with CSequence x => Some x | _ => None end.
Definition dst_pan_call (c : call) := match c with CDstPan p => Some p | _ => None end.
Definition src_pan_call (c : call) := match c with CSrcPan p => Some p | _ => None end.
Definition dst_call (c : call) := match c with CDst a => Some a | _ => None end.
Definition src_call (c : call) := match c with CSrc a => Some a | _ => None end.
Definition header_call (c : call) := match c with CHeader h => Some h | _ => None end.
Definition payload_ie_call (c : call) := match c with CPayloadIe p => Some p | _ => None end.
Definition payload_call (c : call) := match c with CPayload p => Some p | _ => None end.
Definition is_addressing_call (c : call) : bool :=
  match c with CDstPan _ | CSrcPan _ | CDst _ | CSrc _ => true | _ => false end.
Definition is_ie_call (c : call) : bool := match c with CHeader _ | CPayloadIe _ => true | _ => false end.
Definition or_else {A} (o d : option A) : option A := match o with Some x => Some x | None => d end.
(** The frame asked for by starting with [s] and calling [cs]: the last value given for each field, all
    information elements in order, a frame control that says so, version 2020 as soon as there is an
    information element. *)
Definition asked (s : start) (cs : list call) : FrameRepr :=
  let seq := or_else (last_of seq_call cs) (match s with SImmAck x => Some x | _ => None end) in
  let ies := existsb is_ie_call cs in
  mkFrame
    {| fr_frame_type := match s with SImmAck _ | SAck => FtAck | SBeacon | SEnhancedBeacon => FtBeacon | SData _ => FtData end;
       fr_security_enabled := false; fr_frame_pending := false; fr_ack_request := false; fr_pan_id_compression := false;
       fr_sequence_number_suppression := negb (has seq);
       fr_information_elements_present := ies;
       fr_dst_addressing_mode := match last_of dst_call cs with Some (AShort _) => AmShort | Some (AExtended _) => AmExtended | _ => AmAbsent end;
       fr_src_addressing_mode := match last_of src_call cs with Some (AShort _) => AmShort | Some (AExtended _) => AmExtended | _ => AmAbsent end;
       fr_frame_version := if ies then V2020 else match s with SAck | SEnhancedBeacon => V2020 | _ => V2006 end |}
    seq
    (if existsb is_addressing_call cs
     then Some (mkAfRepr (last_of dst_pan_call cs) (last_of dst_call cs) (last_of src_pan_call cs) (last_of src_call cs)) else None)
    (if ies then Some (mkIes (all_of header_call cs) (all_of payload_ie_call cs)) else None)
    (or_else (last_of payload_call cs) (match s with SData p => Some p | _ => None end)).
