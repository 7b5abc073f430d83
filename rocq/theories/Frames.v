(** Frames.v -- model of dot15d4-frame/src/frames/{data,ack,mod}.rs and of EnhancedBeacon
    (frames/beacon.rs:450-603). A frame reader is its buffer. *)
From Verif Require Import Base FrameControl Addressing AuxSec Ie ReprIe Beacon.

(** [!suppressed as usize] / [if !suppressed { offset += 1 }] *)
Definition seq_size (suppressed : bool) : nat := if suppressed then 0 else 1.

(** [if let Some(af) = self.addressing() { offset += af.len() }] *)
Definition add_af_len (o : option AddressingFields) (offset : nat) : outcome nat :=
  match o with Some af => let* n := af_len af in Done (offset + n) | None => Done offset end.

(** ** DataFrame (data.rs) *)
(** data.rs:78-80 *)
Definition data_frame_control (b : list N) : outcome (list N) := slice_to b 2.
(** data.rs:56-70 *)
Definition data_check_len (b : list N) : outcome bool :=
  if (length b <? 2) || (127 <? length b) then Done false
  else
    let* fc := data_frame_control b in
    let* s := fc_sequence_number_suppression fc in
    if negb s && (length b <? 3) then Done false else Done true.
(** data.rs:21-53 [DataFrame::new]; enum equality with Unknown is written as a match. *)
Definition data_new (b : list N) : outcome (result (list N)) :=
  let* c := data_check_len b in
  if negb c then Done Err
  else
    let* fc := data_frame_control b in
    let* sec := fc_security_enabled fc in
    if sec then Done Err
    else
      let* t := fc_frame_type fc in
      match t with FtUnknown => Done Err | _ =>
      let* v := fc_frame_version fc in
      match v with VUnknown => Done Err | _ =>
      let* d := fc_dst_addressing_mode fc in
      match d with AmUnknown => Done Err | _ =>
      let* s := fc_src_addressing_mode fc in
      match s with AmUnknown => Done Err | _ => Done (Ok b) end end end end.
(** data.rs:83-89 *)
Definition data_sequence_number (b : list N) : outcome (option N) :=
  let* fc := data_frame_control b in
  let* s := fc_sequence_number_suppression fc in
  if s then Done None else let* x := idx b 2 in Done (Some x).
(** data.rs:92-100 *)
Definition data_addressing (b : list N) : outcome (option AddressingFields) :=
  let* fc := data_frame_control b in
  let* s := fc_sequence_number_suppression fc in
  let* rest := (if s then slice_from b 2 else slice_from b 3) in
  let* r := af_new rest fc in
  Done (ok r).
(** data.rs:103-121 *)
Definition data_aux (b : list N) : outcome (option (list N)) :=
  let* fc := data_frame_control b in
  let* sec := fc_security_enabled fc in
  if sec then
    let* s := fc_sequence_number_suppression fc in
    let* af := data_addressing b in
    let* offset := add_af_len af (2 + seq_size s) in
    let* rest := slice_from b offset in
    Done (Some rest)
  else Done None.
(** data.rs:124-138 *)
Definition data_ies (b : list N) : outcome (option (list N)) :=
  let* fc := data_frame_control b in
  let* p := fc_information_elements_present fc in
  if p then
    let* s := fc_sequence_number_suppression fc in
    let* af := data_addressing b in
    let* offset := add_af_len af (2 + seq_size s) in
    let* rest := slice_from b offset in
    let* r := ies_new rest in
    Done (ok r)
  else Done None.
(** data.rs:143-173 *)
Definition data_payload (b : list N) : outcome (option (list N)) :=
  let* fc := data_frame_control b in
  let* s := fc_sequence_number_suppression fc in
  let* af := data_addressing b in
  let* offset := add_af_len af (2 + seq_size s) in
  let* sec := fc_security_enabled fc in
  let* offset := (if sec then
      let* a := data_aux b in let* a := unwrap a in let* n := aux_len a in Done (offset + n)
    else Done offset) in
  let* p := fc_information_elements_present fc in
  let* offset := (if p then
      let* i := data_ies b in
      match i with Some i => let* n := ies_len i in Done (offset + n) | None => Done offset end
    else Done offset) in
  if length b <=? offset then Done None
  else let* rest := slice_from b offset in Done (Some rest).

(** [FrameControl::new_unchecked(&mut buffer[..2])] followed by writes through it *)
Definition on_control (f : list N -> outcome (list N)) (b : list N) : outcome (list N) :=
  let* fc := slice_to b 2 in
  let* fc' := f fc in
  write_at b 0 fc'.
(** data.rs:179-191 [set_frame_control]: the same ten setters in the same order as
    FrameControlRepr::emit *)
Definition data_set_frame_control (r : FrameControlRepr) (b : list N) : outcome (list N) :=
  on_control (fcr_emit r) b.
(** data.rs:199-205 *)
Definition data_set_sequence_number (x : N) (b : list N) : outcome (list N) :=
  let* b := on_control (fc_set_sequence_number_suppression false) b in
  set_idx b 2 x.
(** data.rs:209-215; [split_at_mut(start)] panics when start > len *)
Definition data_set_addressing_fields (r : AddressingFieldsRepr) (b : list N) : outcome (list N) :=
  let* fc := data_frame_control b in
  let* s := fc_sequence_number_suppression fc in
  let start := 2 + seq_size s in
  let* hd := slice_to b start in
  let* tl := slice_from b start in
  let* tl' := af_write_fields tl r in
  Done (hd ++ tl').
(** data.rs:225-238 *)
Definition data_set_ies (r : IesRepr) (contains_payload : bool) (b : list N) : outcome (list N) :=
  let* fc := data_frame_control b in
  let* s := fc_sequence_number_suppression fc in
  let* af := data_addressing b in
  let* offset := add_af_len af (2 + seq_size s) in
  let* hd := slice_to b offset in
  let* tl := slice_from b offset in
  let* tl' := ies_emit r contains_payload tl in
  Done (hd ++ tl').
(** data.rs:241-262; [copy_from_slice] panics unless the lengths are equal *)
Definition data_set_payload (payload : list N) (b : list N) : outcome (list N) :=
  let* fc := data_frame_control b in
  let* s := fc_sequence_number_suppression fc in
  let* af := data_addressing b in
  let* offset := add_af_len af (2 + seq_size s) in
  let* sec := fc_security_enabled fc in
  let* offset := (if sec then
      let* a := data_aux b in let* a := unwrap a in let* n := aux_len a in Done (offset + n)
    else Done offset) in
  let* p := fc_information_elements_present fc in
  let* offset := (if p then
      let* i := data_ies b in let* i := unwrap i in let* n := ies_len i in Done (offset + n)
    else Done offset) in
  let* hd := slice_to b offset in
  let* tl := slice_from b offset in
  if length tl =? length payload then Done (hd ++ payload) else Panic.

(** ** EnhancedBeacon (beacon.rs:450-603): the same code as DataFrame's reader, written out again *)
(** beacon.rs:507-509 *)
Definition eb_frame_control (b : list N) : outcome (list N) := slice_to b 2.
(** beacon.rs:486-500 *)
Definition eb_check_len (b : list N) : outcome bool :=
  if (length b <? 2) || (127 <? length b) then Done false
  else
    let* fc := eb_frame_control b in
    let* s := fc_sequence_number_suppression fc in
    if negb s && (length b <? 3) then Done false else Done true.
(** beacon.rs:456-484 *)
Definition eb_new (b : list N) : outcome (result (list N)) :=
  let* c := eb_check_len b in
  if negb c then Done Err
  else
    let* fc := eb_frame_control b in
    let* sec := fc_security_enabled fc in
    if sec then Done Err
    else
      let* t := fc_frame_type fc in
      match t with FtUnknown => Done Err | _ =>
      let* v := fc_frame_version fc in
      match v with VUnknown => Done Err | _ =>
      let* d := fc_dst_addressing_mode fc in
      match d with AmUnknown => Done Err | _ =>
      let* s := fc_src_addressing_mode fc in
      match s with AmUnknown => Done Err | _ => Done (Ok b) end end end end.
(** beacon.rs:512-518 *)
Definition eb_sequence_number (b : list N) : outcome (option N) :=
  let* fc := eb_frame_control b in
  let* s := fc_sequence_number_suppression fc in
  if s then Done None else let* x := idx b 2 in Done (Some x).
(** beacon.rs:521-529 *)
Definition eb_addressing (b : list N) : outcome (option AddressingFields) :=
  let* fc := eb_frame_control b in
  let* s := fc_sequence_number_suppression fc in
  let* rest := (if s then slice_from b 2 else slice_from b 3) in
  let* r := af_new rest fc in
  Done (ok r).
(** beacon.rs:531-549 *)
Definition eb_aux (b : list N) : outcome (option (list N)) :=
  let* fc := eb_frame_control b in
  let* sec := fc_security_enabled fc in
  if sec then
    let* s := fc_sequence_number_suppression fc in
    let* af := eb_addressing b in
    let* offset := add_af_len af (2 + seq_size s) in
    let* rest := slice_from b offset in
    Done (Some rest)
  else Done None.
(** beacon.rs:552-566 *)
Definition eb_ies (b : list N) : outcome (option (list N)) :=
  let* fc := eb_frame_control b in
  let* p := fc_information_elements_present fc in
  if p then
    let* s := fc_sequence_number_suppression fc in
    let* af := eb_addressing b in
    let* offset := add_af_len af (2 + seq_size s) in
    let* rest := slice_from b offset in
    let* r := ies_new rest in
    Done (ok r)
  else Done None.
(** beacon.rs:571-602 *)
Definition eb_payload (b : list N) : outcome (option (list N)) :=
  let* fc := eb_frame_control b in
  let* s := fc_sequence_number_suppression fc in
  let* af := eb_addressing b in
  let* offset := add_af_len af (2 + seq_size s) in
  let* sec := fc_security_enabled fc in
  let* offset := (if sec then
      let* a := eb_aux b in let* a := unwrap a in let* n := aux_len a in Done (offset + n)
    else Done offset) in
  let* p := fc_information_elements_present fc in
  let* offset := (if p then
      let* i := eb_ies b in
      match i with Some i => let* n := ies_len i in Done (offset + n) | None => Done offset end
    else Done offset) in
  if length b <=? offset then Done None
  else let* rest := slice_from b offset in Done (Some rest).

(** ** Ack (ack.rs:9-50) *)
(** ack.rs:15-34 *)
Definition ack_new (b : list N) : result (list N) := if negb (length b =? 3) then Err else Ok b.
(** ack.rs:42-44: [FrameControl::new(&buf[..2]).unwrap()] *)
Definition ack_frame_control (b : list N) : outcome (list N) :=
  let* s := slice_to b 2 in unwrap (ok (fc_new s)).
(** ack.rs:47-49 *)
Definition ack_sequence_number (b : list N) : outcome N := idx b 2.

(** ** EnhancedAck (ack.rs:53-177) *)
(** ack.rs:59-67: the length check is commented out *)
Definition ea_new (b : list N) : result (list N) := Ok b.
(** ack.rs:80-82 *)
Definition ea_frame_control (b : list N) : outcome (list N) :=
  let* s := slice_to b 2 in unwrap (ok (fc_new s)).
(** ack.rs:85-91 *)
Definition ea_sequence_number (b : list N) : outcome (option N) :=
  let* fc := ea_frame_control b in
  let* s := fc_sequence_number_suppression fc in
  if s then Done None else let* x := idx b 2 in Done (Some x).
(** ack.rs:94-100 *)
Definition ea_addressing (b : list N) : outcome (option AddressingFields) :=
  let* fc := ea_frame_control b in
  let* s := fc_sequence_number_suppression fc in
  let* rest := (if s then slice_from b 2 else slice_from b 3) in
  let* r := af_new rest fc in
  Done (ok r).
(** ack.rs:103-121 *)
Definition ea_aux (b : list N) : outcome (option (list N)) :=
  let* fc := ea_frame_control b in
  let* s := fc_sequence_number_suppression fc in
  let* af := ea_addressing b in
  let* offset := add_af_len af (2 + seq_size s) in
  let* sec := fc_security_enabled fc in
  if sec then let* rest := slice_from b offset in Done (Some rest) else Done None.
(** ack.rs:124-146 *)
Definition ea_ies (b : list N) : outcome (option (list N)) :=
  let* fc := ea_frame_control b in
  let* s := fc_sequence_number_suppression fc in
  let* af := ea_addressing b in
  let* offset := add_af_len af (2 + seq_size s) in
  let* sec := fc_security_enabled fc in
  let* offset := (if sec then
      let* a := ea_aux b in
      match a with Some a => let* n := aux_len a in Done (offset + n) | None => Done offset end
    else Done offset) in
  let* p := fc_information_elements_present fc in
  if p then
    let* rest := slice_from b offset in
    let* r := ies_new rest in
    let* i := unwrap (ok r) in Done (Some i)
  else Done None.
(** ack.rs:151-176 *)
Definition ea_payload (b : list N) : outcome (option (list N)) :=
  let* fc := ea_frame_control b in
  let* s := fc_sequence_number_suppression fc in
  let* af := ea_addressing b in
  let* offset := add_af_len af (2 + seq_size s) in
  let* sec := fc_security_enabled fc in
  let* offset := (if sec then
      let* a := ea_aux b in
      match a with Some a => let* n := aux_len a in Done (offset + n) | None => Done offset end
    else Done offset) in
  let* p := fc_information_elements_present fc in
  let* offset := (if p then
      let* i := ea_ies b in
      match i with Some i => let* n := ies_len i in Done (offset + n) | None => Done offset end
    else Done offset) in
  let* rest := slice_from b offset in
  Done (Some rest).

(** ** Frame (mod.rs:93-246) *)
Inductive Frame :=
| FAck (b : list N) | FEnhancedAck (b : list N) | FBeacon (b : list N)
| FEnhancedBeacon (b : list N) | FData (b : list N).

(** the [?] operator followed by [Ok(Variant(..))] *)
Definition wrap {A B} (f : A -> B) (r : result A) : result B :=
  match r with Ok a => Ok (f a) | Err => Err end.

(** mod.rs:109-136 [Frame::new] *)
Definition frame_new (b : list N) : outcome (result Frame) :=
  if length b <? 2 then Done Err
  else
    let* s := slice_to b 2 in
    match fc_new s with
    | Err => Done Err
    | Ok fc =>
        let* t := fc_frame_type fc in
        match t with
        | FtAck =>
            let* v := fc_frame_version fc in
            match v with
            | V2003 | V2006 => Done (wrap FAck (ack_new b))
            | V2020 => Done (wrap FEnhancedAck (ea_new b))
            | VUnknown => Done Err
            end
        | FtBeacon =>
            let* v := fc_frame_version fc in
            match v with
            | V2003 | V2006 => let* r := beacon_new b in Done (wrap FBeacon r)
            | V2020 => let* r := eb_new b in Done (wrap FEnhancedBeacon r)
            | VUnknown => Done Err
            end
        | FtData => let* r := data_new b in Done (wrap FData r)
        | _ => Done Err
        end
    end.

Definition some {A} (m : outcome A) : outcome (option A) := let* a := m in Done (Some a).

(** mod.rs:188-196 *)
Definition frame_frame_control (f : Frame) : outcome (list N) :=
  match f with
  | FAck b => ack_frame_control b | FEnhancedAck b => ea_frame_control b
  | FBeacon b => beacon_frame_control b | FEnhancedBeacon b => eb_frame_control b
  | FData b => data_frame_control b
  end.
(** mod.rs:199-207 *)
Definition frame_sequence_number (f : Frame) : outcome (option N) :=
  match f with
  | FAck b => some (ack_sequence_number b) | FEnhancedAck b => ea_sequence_number b
  | FBeacon b => some (beacon_sequence_number b) | FEnhancedBeacon b => eb_sequence_number b
  | FData b => data_sequence_number b
  end.
(** mod.rs:210-218 *)
Definition frame_addressing (f : Frame) : outcome (option AddressingFields) :=
  match f with
  | FAck b => Done None | FEnhancedAck b => ea_addressing b
  | FBeacon b => some (beacon_addressing b) | FEnhancedBeacon b => eb_addressing b
  | FData b => data_addressing b
  end.
(** mod.rs:221-229 *)
Definition frame_aux (f : Frame) : outcome (option (list N)) :=
  match f with
  | FAck b => Done None | FEnhancedAck b => ea_aux b
  | FBeacon b => beacon_aux b | FEnhancedBeacon b => eb_aux b | FData b => data_aux b
  end.
(** mod.rs:232-240 *)
Definition frame_ies (f : Frame) : outcome (option (list N)) :=
  match f with
  | FAck b => Done None | FEnhancedAck b => ea_ies b
  | FBeacon b => Done None | FEnhancedBeacon b => eb_ies b | FData b => data_ies b
  end.
(** mod.rs:245-253; Beacon::payload (beacon.rs:101-117) always returns Some *)
Definition frame_payload (f : Frame) : outcome (option (list N)) :=
  match f with
  | FAck b => Done None | FEnhancedAck b => ea_payload b
  | FBeacon b => some (beacon_payload b) | FEnhancedBeacon b => eb_payload b | FData b => data_payload b
  end.
