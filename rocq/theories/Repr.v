(** Repr.v -- model of dot15d4-frame/src/repr/mod.rs (FrameRepr) and repr/builder.rs (FrameBuilder). *)
From Verif Require Import Base FrameControl Addressing Ie ReprIe Frames.

(** ** FrameRepr *)
(** repr/mod.rs:21-33 *)
Record FrameRepr := mkFrame {
  f_control : FrameControlRepr;
  f_sequence_number : option N;
  f_addressing : option AddressingFieldsRepr;
  f_ies : option IesRepr;
  f_payload : option (list N) }.

(** [o.map(f).transpose()?] *)
Definition parse_ies (o : option (list N)) : outcome (result (option IesRepr)) :=
  match o with
  | None => Done (Ok None)
  | Some d => try (ies_parse d) (fun r => Done (Ok (Some r)))
  end.
(** repr/mod.rs:37-55 [FrameRepr::parse]; the reader is its buffer *)
Definition frame_parse (b : list N) : outcome (result FrameRepr) :=
  let* fc := data_frame_control b in
  try (fcr_parse fc) (fun fcr =>
  let* af := data_addressing b in
  let* a := match af with Some af => some (afr_parse af) | None => Done None end in
  let* i := data_ies b in
  try (parse_ies i) (fun ies =>
  let* s := data_sequence_number b in
  let* p := data_payload b in
  Done (Ok (mkFrame fcr s a ies p)))).
(** repr/mod.rs:58-83 [FrameRepr::validate] *)
Definition frame_validate (r : FrameRepr) : result unit :=
  let is_data := match fr_frame_type (f_control r) with FtData => true | _ => false end in
  if is_data && negb (match f_addressing r with Some _ => true | None => false end) then Err
  else if is_data && negb (match f_payload r with Some _ => true | None => false end) then Err
  else match (match f_addressing r with Some a => afr_validate a (f_control r) | None => Ok tt end) with
  | Err => Err
  | Ok _ =>
      match f_payload r with
      | Some [] => Err
      | _ => Ok tt
      end
  end.
(** repr/mod.rs:86-106 [FrameRepr::buffer_len] *)
Definition frame_buffer_len (r : FrameRepr) : outcome nat :=
  let len := 2 in
  let len := match f_sequence_number r with Some _ => len + 1 | None => len end in
  let* len := match f_addressing r with
    | Some a => let* n := afr_buffer_len a (f_control r) in Done (len + n) | None => Done len end in
  let has_payload := match f_payload r with Some _ => true | None => false end in
  let len := match f_ies r with Some i => len + ies_buffer_len i has_payload | None => len end in
  Done (match f_payload r with Some p => len + length p | None => len end).
(** repr/mod.rs:109-123 [FrameRepr::emit] *)
Definition frame_emit (r : FrameRepr) (b : list N) : outcome (list N) :=
  let* b := data_set_frame_control (f_control r) b in
  let* b := match f_sequence_number r with Some x => data_set_sequence_number x b | None => Done b end in
  let* b := match f_addressing r with Some a => data_set_addressing_fields a b | None => Done b end in
  let has_payload := match f_payload r with Some _ => true | None => false end in
  let* b := match f_ies r with Some i => data_set_ies i has_payload b | None => Done b end in
  match f_payload r with Some p => data_set_payload p b | None => Done b end.

(** ** FrameBuilder. A builder is the frame it holds (builder.rs:11-14). *)
(** The frame control the five constructors start from (builder.rs:21-32 and following): only the type, the
    version and the sequence number suppression differ. *)
Definition start_control (t : FrameType) (v : FrameVersion) (sns : bool) : FrameControlRepr :=
  {| fr_frame_type := t; fr_security_enabled := false; fr_frame_pending := false; fr_ack_request := false;
     fr_pan_id_compression := false; fr_sequence_number_suppression := sns;
     fr_information_elements_present := false; fr_dst_addressing_mode := AmAbsent;
     fr_src_addressing_mode := AmAbsent; fr_frame_version := v |}.
(** builder.rs:18-39 *)
Definition new_imm_ack (seq : N) : FrameRepr := mkFrame (start_control FtAck V2006 false) (Some seq) None None None.
(** builder.rs:42-63 *)
Definition new_ack : FrameRepr := mkFrame (start_control FtAck V2020 true) None None None None.
(** builder.rs:68-89 *)
Definition new_beacon : FrameRepr := mkFrame (start_control FtBeacon V2006 true) None None None None.
(** builder.rs:94-115 *)
Definition new_enhanced_beacon : FrameRepr := mkFrame (start_control FtBeacon V2020 true) None None None None.
(** builder.rs:120-141 *)
Definition new_data (payload : list N) : FrameRepr := mkFrame (start_control FtData V2006 true) None None None (Some payload).

(** field updates of the frame control *)
Definition with_sns (x : bool) (c : FrameControlRepr) : FrameControlRepr :=
  {| fr_frame_type := fr_frame_type c; fr_security_enabled := fr_security_enabled c; fr_frame_pending := fr_frame_pending c;
     fr_ack_request := fr_ack_request c; fr_pan_id_compression := fr_pan_id_compression c;
     fr_sequence_number_suppression := x;
     fr_information_elements_present := fr_information_elements_present c;
     fr_dst_addressing_mode := fr_dst_addressing_mode c; fr_src_addressing_mode := fr_src_addressing_mode c;
     fr_frame_version := fr_frame_version c |}.
Definition with_comp (x : bool) (c : FrameControlRepr) : FrameControlRepr :=
  {| fr_frame_type := fr_frame_type c; fr_security_enabled := fr_security_enabled c; fr_frame_pending := fr_frame_pending c;
     fr_ack_request := fr_ack_request c; fr_pan_id_compression := x;
     fr_sequence_number_suppression := fr_sequence_number_suppression c;
     fr_information_elements_present := fr_information_elements_present c;
     fr_dst_addressing_mode := fr_dst_addressing_mode c; fr_src_addressing_mode := fr_src_addressing_mode c;
     fr_frame_version := fr_frame_version c |}.
Definition with_dst (m : AddressingMode) (c : FrameControlRepr) : FrameControlRepr :=
  {| fr_frame_type := fr_frame_type c; fr_security_enabled := fr_security_enabled c; fr_frame_pending := fr_frame_pending c;
     fr_ack_request := fr_ack_request c; fr_pan_id_compression := fr_pan_id_compression c;
     fr_sequence_number_suppression := fr_sequence_number_suppression c;
     fr_information_elements_present := fr_information_elements_present c;
     fr_dst_addressing_mode := m; fr_src_addressing_mode := fr_src_addressing_mode c;
     fr_frame_version := fr_frame_version c |}.
Definition with_src (m : AddressingMode) (c : FrameControlRepr) : FrameControlRepr :=
  {| fr_frame_type := fr_frame_type c; fr_security_enabled := fr_security_enabled c; fr_frame_pending := fr_frame_pending c;
     fr_ack_request := fr_ack_request c; fr_pan_id_compression := fr_pan_id_compression c;
     fr_sequence_number_suppression := fr_sequence_number_suppression c;
     fr_information_elements_present := fr_information_elements_present c;
     fr_dst_addressing_mode := fr_dst_addressing_mode c; fr_src_addressing_mode := m;
     fr_frame_version := fr_frame_version c |}.
(** information_elements_present = true and version 2020 (builder.rs:209, 217, 229, 237) *)
Definition with_ies (c : FrameControlRepr) : FrameControlRepr :=
  {| fr_frame_type := fr_frame_type c; fr_security_enabled := fr_security_enabled c; fr_frame_pending := fr_frame_pending c;
     fr_ack_request := fr_ack_request c; fr_pan_id_compression := fr_pan_id_compression c;
     fr_sequence_number_suppression := fr_sequence_number_suppression c;
     fr_information_elements_present := true;
     fr_dst_addressing_mode := fr_dst_addressing_mode c; fr_src_addressing_mode := fr_src_addressing_mode c;
     fr_frame_version := V2020 |}.

(** [get_or_insert_with(default)] *)
Definition af_or_default (o : option AddressingFieldsRepr) : AddressingFieldsRepr :=
  match o with Some a => a | None => mkAfRepr None None None None end.
Definition ies_or_default (o : option IesRepr) : IesRepr := match o with Some i => i | None => mkIes [] [] end.

(** builder.rs:149-153 *)
Definition b_set_sequence_number (x : N) (f : FrameRepr) : FrameRepr :=
  mkFrame (with_sns false (f_control f)) (Some x) (f_addressing f) (f_ies f) (f_payload f).
(** builder.rs:156-163 *)
Definition b_set_dst_pan_id (p : N) (f : FrameRepr) : FrameRepr :=
  let a := af_or_default (f_addressing f) in
  mkFrame (f_control f) (f_sequence_number f)
    (Some (mkAfRepr (Some p) (ar_dst_address a) (ar_src_pan_id a) (ar_src_address a))) (f_ies f) (f_payload f).
(** builder.rs:166-172 *)
Definition b_set_src_pan_id (p : N) (f : FrameRepr) : FrameRepr :=
  let a := af_or_default (f_addressing f) in
  mkFrame (f_control f) (f_sequence_number f)
    (Some (mkAfRepr (ar_dst_pan_id a) (ar_dst_address a) (Some p) (ar_src_address a))) (f_ies f) (f_payload f).
(** builder.rs:178-185 *)
Definition b_set_dst_address (x : Address) (f : FrameRepr) : FrameRepr :=
  let a := af_or_default (f_addressing f) in
  mkFrame (with_dst (mode_of_address x) (f_control f)) (f_sequence_number f)
    (Some (mkAfRepr (ar_dst_pan_id a) (Some x) (ar_src_pan_id a) (ar_src_address a))) (f_ies f) (f_payload f).
(** builder.rs:191-198 *)
Definition b_set_src_address (x : Address) (f : FrameRepr) : FrameRepr :=
  let a := af_or_default (f_addressing f) in
  mkFrame (with_src (mode_of_address x) (f_control f)) (f_sequence_number f)
    (Some (mkAfRepr (ar_dst_pan_id a) (ar_dst_address a) (ar_src_pan_id a) (Some x))) (f_ies f) (f_payload f).
(** builder.rs:208-220; [push(ie).unwrap()] panics beyond the capacity 16 (repr/ie/mod.rs:17-22) *)
Definition b_add_header (h : HeaderIE) (f : FrameRepr) : outcome FrameRepr :=
  let i := ies_or_default (f_ies f) in
  if length (ir_header i) <? 16 then
    Done (mkFrame (with_ies (f_control f)) (f_sequence_number f) (f_addressing f)
            (Some (mkIes (ir_header i ++ [h]) (ir_payload i))) (f_payload f))
  else Panic.
(** builder.rs:228-240 *)
Definition b_add_payload (p : PayloadIE) (f : FrameRepr) : outcome FrameRepr :=
  let i := ies_or_default (f_ies f) in
  if length (ir_payload i) <? 16 then
    Done (mkFrame (with_ies (f_control f)) (f_sequence_number f) (f_addressing f)
            (Some (mkIes (ir_header i) (ir_payload i ++ [p]))) (f_payload f))
  else Panic.
(** builder.rs:243-246 *)
Definition b_set_payload (p : list N) (f : FrameRepr) : FrameRepr :=
  mkFrame (f_control f) (f_sequence_number f) (f_addressing f) (f_ies f) (Some p).

Definition with_addressing (a : option AddressingFieldsRepr) (c : FrameControlRepr) (f : FrameRepr) : FrameRepr :=
  mkFrame c (f_sequence_number f) a (f_ies f) (f_payload f).
(** [addr.src_pan_id = None] / [addr.dst_pan_id = None] *)
Definition drop_src_pan (a : AddressingFieldsRepr) := mkAfRepr (ar_dst_pan_id a) (ar_dst_address a) None (ar_src_address a).
Definition drop_dst_pan (a : AddressingFieldsRepr) := mkAfRepr None (ar_dst_address a) (ar_src_pan_id a) (ar_src_address a).
(** builder.rs:254-349 [finalize]. The match arms are in source order; the three short/extended arms with two
    PAN IDs (276-296) are the same code. *)
Definition b_finalize (f : FrameRepr) : result FrameRepr :=
  let c := f_control f in
  match fr_frame_version c with
  | V2020 =>
      match f_addressing f with
      | None => Err
      | Some a =>
          let done comp a := Ok (with_addressing (Some a) (with_comp comp c) f) in
          match ar_dst_address a, ar_src_address a, ar_dst_pan_id a, ar_src_pan_id a with
          | None, None, None, None => done false a
          | None, None, Some _, None => done true a
          | Some _, None, Some _, None => done false a
          | None, Some _, None, Some _ => done false a
          | None, Some _, None, None => done true a
          | Some (AExtended _), Some (AExtended _), Some _, None => done false a
          | Some (AExtended _), Some (AExtended _), None, None => done true a
          | Some (AShort _), Some (AShort _), Some dst, Some src
          | Some (AShort _), Some (AExtended _), Some dst, Some src
          | Some (AExtended _), Some (AShort _), Some dst, Some src =>
              if (dst =? src)%N then done true (drop_src_pan a) else done false a
          | Some (AShort _), Some (AExtended _), Some _, None => done true a
          | Some (AExtended _), Some (AShort _), Some _, None => done true a
          | Some (AShort _), Some (AShort _), Some _, None => done true a
          | _, _, _, _ => Err
          end
      end
  | _ =>
      match fr_frame_type c with
      | FtAck =>
          match f_sequence_number f with
          | None => Err
          | Some _ => Ok (with_addressing None c f)
          end
      | _ =>
          match f_addressing f with
          | None => Err
          | Some a =>
              match ar_dst_address a, ar_src_address a, ar_dst_pan_id a, ar_src_pan_id a with
              | Some _, Some _, Some dst, Some src =>
                  if (dst =? src)%N then Ok (with_addressing (Some (drop_src_pan a)) (with_comp true c) f) else Ok f
              | Some _, None, Some _, _ => Ok (with_addressing (Some (drop_src_pan a)) (with_comp false c) f)
              | None, Some _, _, Some _ => Ok (with_addressing (Some (drop_dst_pan a)) (with_comp false c) f)
              | _, _, _, _ => Err
              end
          end
      end
  end.
