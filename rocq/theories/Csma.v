(** Csma.v -- model of the sequential part of dot15d4/src/csma/mod.rs: what the CSMA device decides about a
    received buffer and how it edits a frame before sending it. The tasks that use these functions are in
    CsmaTasks.v. *)
From Verif Require Import Base FrameControl Addressing Frames Repr Time PhyConfig.

(** The constants of csma/user_configurable_constants.rs:6-28 (for a release build: OUT_DIR/config.rs generated by
    build.rs from the same names). They are parameters of the model, so every theorem holds for every choice.
    u16 values are [N], durations are microseconds. *)
Record Params := mkParams {
  p_min_be : N;               (* MAC_MIN_BE *)
  p_max_be : N;               (* MAC_MAX_BE *)
  p_backoffs : N;             (* MAC_MAX_CSMA_BACKOFFS *)
  p_unit : Z;                 (* MAC_UNIT_BACKOFF_DURATION *)
  p_retries : N;              (* MAC_MAX_FRAME_RETIES *)
  p_aifs : Z;                 (* MAC_AIFS_PERIOD *)
  p_sifs : Z;                 (* MAC_SIFS_PERIOD *)
  p_pan_id : N;               (* MAC_PAN_ID *)
  p_implicit_broadcast : bool (* MAC_IMPLICIT_BROADCAST *) }.
(** The values of user_configurable_constants.rs:12-27; UNIT_BACKOFF_PERIOD * SYMBOL_RATE_INV_US = 20 * 16
    (csma/constants.rs:5-57). *)
Definition default_params : Params := mkParams 0 8 16 320 3 1000 1000 65535 false.

(** csma/mod.rs:44-64 [CsmaConfig] *)
Record CsmaConfig := mkConfig {
  ack_unicast : bool;
  ack_broadcast : bool;
  ignore_not_for_us : bool;
  ack_everything : bool;
  c_channel : Channel;
  overwrite_dst_pan_id : bool;
  overwrite_src_pan_id : bool }.
(** csma/mod.rs:66-78 *)
Definition config_default : CsmaConfig := mkConfig true false true false Ch26 false true.

(** phy/radio/mod.rs:7-13, 65-90: the device formats of a Radio implementation. [dev_data b] is
    RadioFrame::new_checked(b): the offset and length of data()/data_mut() inside the buffer, or None if the check
    fails. [dev_header n] is what TxToken::consume writes in front of the [n]-octet slice it hands to its closure.
    Simplification: the frame accessors are assumed to be pure and in range ([dev_ok]), as slices of the buffer
    are. *)
Record Device := mkDevice {
  dev_data : list N -> option (nat * nat);
  dev_header : nat -> list N }.
Definition dev_ok (dv : Device) : Prop := forall b o n, dev_data dv b = Some (o, n) -> o + n <= length b.
(** The radio of the crate's tests (phy/radio/mod.rs:326-383) *)
Definition test_device : Device :=
  mkDevice (fun b => if length b <? 127 then None else Some (0, 127)) (fun _ => []).
(** A device that, like the nRF radio, stores the length of the frame in the first octet. *)
Definition length_device : Device :=
  mkDevice (fun b => match b with n :: rest => if (n <=? N.of_nat (length rest))%N then Some (1, N.to_nat n) else None | [] => None end)
    (fun n => [N.of_nat n]).

(** TxToken::consume(len, f) on a buffer *)
Definition consume (dv : Device) (len : nat) (f : list N -> outcome (list N)) (b : list N) : outcome (list N) :=
  let h := dev_header dv len in
  let* s := slice b (length h) (length h + len) in
  let* s' := f s in
  Done (h ++ s' ++ skipn (length h + len) b).

(** [frame.addressing().and_then(|fields| fields.dst_address())] (csma/mod.rs:148, 240, 328) *)
Definition data_dst_address (b : list N) : outcome (option Address) :=
  let* af := data_addressing b in
  match af with Some af => af_dst_address af | None => Done None end.
(** [frame.addressing().and_then(|fields| fields.dst_pan_id())] (csma/mod.rs:155-157) *)
Definition data_dst_pan_id (b : list N) : outcome (option N) :=
  let* af := data_addressing b in
  match af with Some af => af_dst_pan_id af | None => Done None end.

(** csma/constants.rs:14 *)
Definition broadcast_pan_id : N := 65535.

(** csma/mod.rs:138-171 [is_package_for_us]; [b] is the frame's buffer *)
Definition is_package_for_us (P : Params) (hw : list N) (b : list N) : outcome bool :=
  let* fc := data_frame_control b in
  let* t := fc_frame_type fc in
  match t with FtUnknown => Done false | _ =>
  let* fc := data_frame_control b in
  let* v := fc_frame_version fc in
  match v with VUnknown => Done false | _ =>
  let* d := data_dst_address b in
  match (match d with
         | Some addr => Some addr
         | None => if p_implicit_broadcast P then Some ABroadcast else None
         end) with
  | None => Done false
  | Some addr =>
      let* pan := data_dst_pan_id b in
      let dst_pan_id := match pan with Some p => p | None => broadcast_pan_id end in
      if negb (dst_pan_id =? p_pan_id P)%N && negb (dst_pan_id =? broadcast_pan_id)%N then Done false
      else if is_broadcast addr then Done true
      else match addr with
      | AAbsent => Done false
      | AShort a => let* h := slice_from hw 6 in let* a := slice_to a 2 in Done (bytes_eqb h a)
      | AExtended a => Done (bytes_eqb hw a)
      end
  end end end.

(** csma/mod.rs:216-256: what to do with a buffer the radio filled; None = [continue 'outer],
    Some (should_ack, sequence_number) otherwise *)
Definition rx_decide (P : Params) (cfg : CsmaConfig) (dv : Device) (hw : list N) (buf : list N)
  : outcome (option (bool * option N)) :=
  match dev_data dv buf with
  | None => Done None
  | Some (o, n) =>
      let* data := slice buf o (o + n) in
      let* r := data_new data in
      match r with
      | Err => Done None
      | Ok b =>
          let* us := is_package_for_us P hw b in
          if negb us && ignore_not_for_us cfg then Done None
          else
            let* fc := data_frame_control b in
            let* t := fc_frame_type fc in
            match t with
            | FtAck => Done None
            | _ =>
                let* d := data_dst_address b in
                let* should_ack :=
                  (if ack_everything cfg then Done true
                   else
                     let* fc := data_frame_control b in
                     let* a := fc_ack_request fc in
                     if negb a then Done false
                     else match d with
                     | Some addr => Done (if is_broadcast addr then ack_broadcast cfg else ack_unicast cfg)
                     | None => Done false
                     end) in
                let* s := data_sequence_number b in
                Done (Some (should_ack, s))
            end
      end
  end.

(** csma/mod.rs:267-274: write the acknowledgement of [seq] into the ACK buffer. [.expect] panics on Err. *)
Definition build_ack (dv : Device) (seq : N) (tx_ack : list N) : outcome (list N) :=
  match b_finalize (new_imm_ack seq) with
  | Err => Panic
  | Ok r => let* n := frame_buffer_len r in consume dv n (frame_emit r) tx_ack
  end.

(** csma/mod.rs:34-39 [TransmissionTaskError] *)
Inductive TaskError := InvalidIEEEFrame | InvalidDeviceFrame.
Inductive tx_result (A : Type) := TxOk (a : A) | TxErr (e : TaskError).
Arguments TxOk {A} a.
Arguments TxErr {A} e.

(** RadioFrame::new_checked(buffer), then DataFrame::new(frame.data_mut()), then [f] on the frame: the shared
    shape of csma/mod.rs:319-323 and 358-361. [f] returns a value and the new frame octets. *)
Definition with_frame {A} (dv : Device) (buf : list N) (f : list N -> outcome (A * list N))
  : outcome (tx_result A * list N) :=
  match dev_data dv buf with
  | None => Done (TxErr InvalidDeviceFrame, buf)
  | Some (o, n) =>
      let* data := slice buf o (o + n) in
      let* r := data_new data in
      match r with
      | Err => Done (TxErr InvalidIEEEFrame, buf)
      | Ok b =>
          let* (a, b') := f b in
          let* buf' := write_at buf o b' in
          Done (TxOk a, buf')
      end
  end.

(** csma/mod.rs:312-349; the value is (sequence number, data().len() as u8) *)
Definition set_ack_request_if_possible (cfg : CsmaConfig) (dv : Device) (buf : list N)
  : outcome (tx_result (option (N * N)) * list N) :=
  with_frame dv buf (fun b =>
    let frame_len := (N.of_nat (length b) mod 256)%N in
    let* fc := data_frame_control b in
    let* t := fc_frame_type fc in
    let no := let* b' := on_control (fc_set_ack_request false) b in Done (None, b') in
    let yes := let* b' := on_control (fc_set_ack_request true) b in
               let* s := data_sequence_number b' in
               Done (match s with Some s => Some (s, frame_len) | None => None end, b') in
    match t with
    | FtData | FtMacCommand =>
        let* d := data_dst_address b in
        match d with
        | Some addr =>
            if is_unicast addr && ack_unicast cfg then yes
            else if is_broadcast addr && ack_broadcast cfg then yes
            else no
        | None => no
        end
    | _ => no
    end).

(** csma/mod.rs:351-395 *)
Definition overwrite_pan_id (P : Params) (cfg : CsmaConfig) (dv : Device) (buf : list N)
  : outcome (tx_result unit * list N) :=
  with_frame dv buf (fun b =>
    let* af := data_addressing b in
    match af with
    | None => Done (tt, b)
    | Some af =>
        let* r := afr_parse af in
        let differs o := match o with Some p => negb (p =? p_pan_id P)%N | None => false end in
        let cs := overwrite_src_pan_id cfg && differs (ar_src_pan_id r) in
        let r := if cs then mkAfRepr (ar_dst_pan_id r) (ar_dst_address r) (Some (p_pan_id P)) (ar_src_address r) else r in
        let cd := overwrite_dst_pan_id cfg && differs (ar_dst_pan_id r) in
        let r := if cd then mkAfRepr (Some (p_pan_id P)) (ar_dst_address r) (ar_src_pan_id r) (ar_src_address r) else r in
        if cs || cd then let* b' := data_set_addressing_fields r b in Done (tt, b')
        else Done (tt, b)
    end).

(** csma/mod.rs:411-422: does the buffer hold an acknowledgement of [seq]? *)
Definition is_ack_for (dv : Device) (seq : N) (buf : list N) : outcome bool :=
  match dev_data dv buf with
  | None => Done false
  | Some (o, n) =>
      let* data := slice buf o (o + n) in
      let* r := data_new data in
      match r with
      | Err => Done false
      | Ok b =>
          let* fc := data_frame_control b in
          let* t := fc_frame_type fc in
          match t with
          | FtAck =>
              let* s := data_sequence_number b in
              Done (match s with Some s => (s =? seq)%N | None => false end)
          | _ => Done false
          end
      end
  end.
