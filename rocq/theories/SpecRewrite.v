(** SpecRewrite.v -- what a DataFrame shows to its user, in terms of the public readers only; for C90 (rewriting a
    frame in place). *)
From Verif Require Import Base Spec SpecFrame FrameControl Addressing Ie Frames.

(** Everything the readers of a data frame return: the frame control, the sequence number, the addressing fields, the
    (id, content) pairs of the header and payload information elements, the payload. *)
Record shown := mkShown {
  sh_control : FrameControlRepr;
  sh_seq : option N;
  sh_addressing : option AddressingFieldsRepr;
  sh_elements : option (list (outcome N * outcome (list N)) * list (outcome N * outcome (list N)));
  sh_payload : option (list N) }.

Definition elements (d : list N) : outcome (list (outcome N * outcome (list N)) * list (outcome N * outcome (list N))) :=
  let* (hs, _) := ies_headers d in
  let* (ps, _) := ies_payloads d in
  Done (map (fun e => (hie_element_id e, hie_content e)) hs, map (fun e => (pie_group_id e, pie_content e)) ps).

(** DataFrame::new accepts [b] and its readers return [s]. *)
Definition reads (b : list N) (s : shown) : Prop :=
  data_new b = Done (Ok b) /\
  (exists fc, data_frame_control b = Done fc /\ fcr_parse fc = Done (Ok (sh_control s))) /\
  data_sequence_number b = Done (sh_seq s) /\
  (exists o, data_addressing b = Done o /\ option_map afr_parse o = option_map Done (sh_addressing s)) /\
  (exists o, data_ies b = Done o /\ option_map elements o = option_map Done (sh_elements s)) /\
  data_payload b = Done (sh_payload s).

(** One field replaced. *)
Definition with_control (c : FrameControlRepr) (s : shown) : shown :=
  mkShown c (sh_seq s) (sh_addressing s) (sh_elements s) (sh_payload s).
Definition with_seq (x : option N) (s : shown) : shown :=
  mkShown (sh_control s) x (sh_addressing s) (sh_elements s) (sh_payload s).
Definition with_addressing (a : option AddressingFieldsRepr) (s : shown) : shown :=
  mkShown (sh_control s) (sh_seq s) a (sh_elements s) (sh_payload s).
Definition with_payload (p : option (list N)) (s : shown) : shown :=
  mkShown (sh_control s) (sh_seq s) (sh_addressing s) (sh_elements s) p.

(** The payload as octets: none is the empty one. *)
Definition payload_octets (p : option (list N)) : list N := match p with Some l => l | None => [] end.
Definition as_payload (l : list N) : option (list N) := match l with [] => None | _ => Some l end.

(** [c] with the flags that are set in [old] set as well. *)
Definition joined (old c : FrameControlRepr) : FrameControlRepr :=
  mkFcRepr (fr_frame_type c)
    (fr_security_enabled old || fr_security_enabled c) (fr_frame_pending old || fr_frame_pending c)
    (fr_ack_request old || fr_ack_request c) (fr_pan_id_compression old || fr_pan_id_compression c)
    (fr_sequence_number_suppression old || fr_sequence_number_suppression c)
    (fr_information_elements_present old || fr_information_elements_present c)
    (fr_dst_addressing_mode c) (fr_src_addressing_mode c) (fr_frame_version c).

(** [old] and [c] may differ only in frame type, frame pending and acknowledgement request: the fields that do not say
    where the other fields of the frame are. *)
Definition same_shape (old c : FrameControlRepr) : Prop :=
  fr_security_enabled c = fr_security_enabled old /\ fr_pan_id_compression c = fr_pan_id_compression old /\
  fr_sequence_number_suppression c = fr_sequence_number_suppression old /\
  fr_information_elements_present c = fr_information_elements_present old /\
  fr_dst_addressing_mode c = fr_dst_addressing_mode old /\ fr_src_addressing_mode c = fr_src_addressing_mode old /\
  fr_frame_version c = fr_frame_version old.

(** The flags set in [old] are set in [c]. *)
Definition keeps_flags (old c : FrameControlRepr) : Prop :=
  (fr_security_enabled old = true -> fr_security_enabled c = true) /\
  (fr_frame_pending old = true -> fr_frame_pending c = true) /\
  (fr_ack_request old = true -> fr_ack_request c = true) /\
  (fr_pan_id_compression old = true -> fr_pan_id_compression c = true) /\
  (fr_sequence_number_suppression old = true -> fr_sequence_number_suppression c = true) /\
  (fr_information_elements_present old = true -> fr_information_elements_present c = true).
