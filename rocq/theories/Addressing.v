(** Addressing.v -- model of dot15d4-frame/src/addressing.rs (except the text
    form of addresses, see AddressText.v) and of repr/addressing.rs. *)
From Verif Require Import Base FrameControl.

(** addressing.rs:7-17 [Address]. The arrays [u8; 2] / [u8; 8] are lists;
    [address_wf] states the length the Rust type guarantees. *)
Inductive Address :=
| AAbsent
| AShort (v : list N)
| AExtended (v : list N).

Definition address_wf (a : Address) : Prop :=
  match a with
  | AAbsent => True
  | AShort v => length v = 2 /\ octets v
  | AExtended v => length v = 8 /\ octets v
  end.

Fixpoint bytes_eqb (a b : list N) : bool :=
  match a, b with
  | [], [] => true
  | x :: a', y :: b' => (x =? y)%N && bytes_eqb a' b'
  | _, _ => false
  end.

(** addressing.rs:8 [derive(PartialEq)]. *)
Definition address_eqb (a b : Address) : bool :=
  match a, b with
  | AAbsent, AAbsent => true
  | AShort x, AShort y => bytes_eqb x y
  | AExtended x, AExtended y => bytes_eqb x y
  | _, _ => false
  end.

(** addressing.rs:21 [Address::BROADCAST]. *)
Definition ABroadcast : Address := AShort [255; 255]%N.
(** addressing.rs:29-31 *)
Definition is_broadcast (a : Address) : bool := address_eqb a ABroadcast.
(** addressing.rs:24-26 *)
Definition is_unicast (a : Address) : bool := negb (is_broadcast a).

(** addressing.rs:34-48 [Address::from]; [unreachable!()] for other lengths. *)
Definition address_from (a : list N) : outcome Address :=
  if length a =? 0 then Done AAbsent
  else if length a =? 2 then Done (AShort a)
  else if length a =? 8 then Done (AExtended a)
  else Panic.

(** addressing.rs:51-57 *)
Definition as_bytes (a : Address) : list N :=
  match a with AAbsent => [] | AShort v => v | AExtended v => v end.

(** addressing.rs:60-70; [&value[..2]] cannot fail on an 8-octet array. *)
Definition to_short (a : Address) : option Address :=
  match a with
  | AShort v => Some (AShort v)
  | AExtended v => Some (AShort (firstn 2 v))
  | AAbsent => None
  end.

(** addressing.rs:84-90 *)
Definition address_len (a : Address) : nat :=
  match a with AAbsent => 0 | AShort _ => 2 | AExtended _ => 8 end.
(** addressing.rs:93-105 *)
Definition is_absent (a : Address) : bool := match a with AAbsent => true | _ => false end.
Definition is_short (a : Address) : bool := match a with AShort _ => true | _ => false end.
Definition is_extended (a : Address) : bool := match a with AExtended _ => true | _ => false end.

(** addressing.rs:135-143 [From<Address> for AddressingMode]. *)
Definition mode_of_address (a : Address) : AddressingMode :=
  match a with AAbsent => AmAbsent | AShort _ => AmShort | AExtended _ => AmExtended end.

(** addressing.rs:270-325 [address_present_flags]:
    (dst PAN present, dst mode, src PAN present, src mode). *)
Definition address_present_flags (v : FrameVersion) (d s : AddressingMode) (comp : bool)
  : option (bool * AddressingMode * bool * AddressingMode) :=
  match v with
  | V2003 | V2006 =>
      match d, s, comp with
      | (AmShort | AmExtended), (AmShort | AmExtended), false => Some (true, d, true, s)
      | (AmShort | AmExtended), (AmShort | AmExtended), true => Some (true, d, false, s)
      | AmAbsent, (AmShort | AmExtended), false => Some (false, AmAbsent, true, s)
      | (AmShort | AmExtended), AmAbsent, false => Some (true, d, false, AmAbsent)
      | _, _, _ => None
      end
  | V2020 =>
      match d, s, comp with
      | AmAbsent, AmAbsent, false => Some (false, AmAbsent, false, AmAbsent)
      | AmAbsent, AmAbsent, true => Some (true, AmAbsent, false, AmAbsent)
      | _, AmAbsent, false => Some (true, d, false, AmAbsent)
      | _, AmAbsent, true => Some (false, d, false, AmAbsent)
      | AmAbsent, _, false => Some (false, AmAbsent, true, s)
      | AmAbsent, _, true => Some (false, AmAbsent, false, s)
      | AmExtended, AmExtended, false => Some (true, AmExtended, false, AmExtended)
      | AmExtended, AmExtended, true => Some (false, AmExtended, false, AmExtended)
      | AmShort, AmShort, false => Some (true, AmShort, true, AmShort)
      | AmShort, AmExtended, false => Some (true, AmShort, true, AmExtended)
      | AmExtended, AmShort, false => Some (true, AmExtended, true, AmShort)
      | AmShort, AmExtended, true => Some (true, AmShort, false, AmExtended)
      | AmExtended, AmShort, true => Some (true, AmExtended, false, AmShort)
      | AmShort, AmShort, true => Some (true, AmShort, false, AmShort)
      | _, _, _ => None
      end
  | VUnknown => None
  end.

(** An [AddressingFields { buffer, fc }] (addressing.rs:196-201) is the pair
    (octets of the addressing fields and what follows, octets of the frame control). *)
Record AddressingFields := mkAf { af_buffer : list N; af_fc : list N }.

(** The call [Self::address_present_flags(self.fc.frame_version(), ...)],
    addressing.rs:224-229 and passim. *)
Definition af_flags (af : AddressingFields)
  : outcome (option (bool * AddressingMode * bool * AddressingMode)) :=
  let* v := fc_frame_version (af_fc af) in
  let* d := fc_dst_addressing_mode (af_fc af) in
  let* s := fc_src_addressing_mode (af_fc af) in
  let* c := fc_pan_id_compression (af_fc af) in
  Done (address_present_flags v d s c).

Definition two_if (b : bool) : nat := if b then 2 else 0.

(** addressing.rs:222-240 [check_len] *)
Definition af_check_len (af : AddressingFields) : outcome bool :=
  let* f := af_flags af in
  match f with
  | None => Done false
  | Some (dp, dm, sp, sm) =>
      Done (two_if dp + AddressingMode_size dm + two_if sp + AddressingMode_size sm
              <=? length (af_buffer af))
  end.

(** addressing.rs:211-219 [AddressingFields::new] *)
Definition af_new (b fc : list N) : outcome (result AddressingFields) :=
  let* c := af_check_len (mkAf b fc) in
  if c then Done (Ok (mkAf b fc)) else Done Err.

(** addressing.rs:392-404 *)
Definition af_dst_pan_id (af : AddressingFields) : outcome (option N) :=
  let* f := af_flags af in
  match f with
  | Some (true, _, _, _) =>
      let* b := slice_to (af_buffer af) 2 in
      let* x := idx b 0 in let* y := idx b 1 in
      Done (Some (from_le [x; y]))
  | _ => Done None
  end.

(** addressing.rs:407-422 *)
Definition af_src_pan_id (af : AddressingFields) : outcome (option N) :=
  let* f := af_flags af in
  match f with
  | Some (dp, dm, true, _) =>
      let offset := two_if dp + AddressingMode_size dm in
      let* b := slice_from (af_buffer af) offset in
      let* b := slice_to b 2 in
      let* x := idx b 0 in let* y := idx b 1 in
      Done (Some (from_le [x; y]))
  | _ => Done None
  end.

(** The three-way match on the address mode shared by addressing.rs:337-352 and 370-385. *)
Definition af_read_address (b : list N) (m : AddressingMode) (offset : nat) : outcome (option Address) :=
  match m with
  | AmAbsent => Done (Some AAbsent)
  | AmShort => let* raw := slice b offset (offset + 2) in Done (Some (AShort (rev raw)))
  | AmExtended => let* raw := slice b offset (offset + 8) in Done (Some (AExtended (rev raw)))
  | AmUnknown => Done None
  end.

(** addressing.rs:328-356 *)
Definition af_dst_address (af : AddressingFields) : outcome (option Address) :=
  let* f := af_flags af in
  match f with
  | Some (dp, dm, _, _) => af_read_address (af_buffer af) dm (two_if dp)
  | None => Done None
  end.

(** addressing.rs:359-389 *)
Definition af_src_address (af : AddressingFields) : outcome (option Address) :=
  let* f := af_flags af in
  match f with
  | Some (dp, dm, sp, sm) =>
      af_read_address (af_buffer af) sm (two_if dp + AddressingMode_size dm + two_if sp)
  | None => Done None
  end.

(** The matches in addressing.rs:254-258 and 262-266: [unreachable!()] for Unknown. *)
Definition mode_len (m : AddressingMode) : outcome nat :=
  match m with AmAbsent => Done 0 | AmShort => Done 2 | AmExtended => Done 8 | AmUnknown => Panic end.

Definition len_if_some {A} (o : option A) : nat := match o with Some _ => 2 | None => 0 end.

(** addressing.rs:250-268 [AddressingFields::len] *)
Definition af_len (af : AddressingFields) : outcome nat :=
  let* dp := af_dst_pan_id af in
  let* dm := fc_dst_addressing_mode (af_fc af) in
  let* dl := mode_len dm in
  let* sp := af_src_pan_id af in
  let* sm := fc_src_addressing_mode (af_fc af) in
  let* sl := mode_len sm in
  Done (len_if_some dp + dl + len_if_some sp + sl).

(** repr/addressing.rs:6-17 [AddressingFieldsRepr]. *)
Record AddressingFieldsRepr := mkAfRepr {
  ar_dst_pan_id : option N;
  ar_dst_address : option Address;
  ar_src_pan_id : option N;
  ar_src_address : option Address }.

(** repr/addressing.rs:21-28 [AddressingFieldsRepr::parse] *)
Definition afr_parse (af : AddressingFields) : outcome AddressingFieldsRepr :=
  let* dp := af_dst_pan_id af in
  let* da := af_dst_address af in
  let* sp := af_src_pan_id af in
  let* sa := af_src_address af in
  Done (mkAfRepr dp da sp sa).

(** repr/addressing.rs:31-46 [validate] *)
Definition afr_validate (r : AddressingFieldsRepr) (fc : FrameControlRepr) : result unit :=
  match fr_frame_type fc, r with
  | FtData, mkAfRepr None None None None => Err
  | _, _ => Ok tt
  end.

(** repr/addressing.rs:49-67 [buffer_len] *)
Definition afr_buffer_len (r : AddressingFieldsRepr) (fc : FrameControlRepr) : outcome nat :=
  let* dl := mode_len (fr_dst_addressing_mode fc) in
  let* sl := mode_len (fr_src_addressing_mode fc) in
  Done (len_if_some (ar_dst_pan_id r) + dl + len_if_some (ar_src_pan_id r) + sl).

(** addressing.rs:454-458 / 478-482: write a PAN id and advance the offset. *)
Definition write_pan (b : list N) (offset : nat) (p : option N) : outcome (list N * nat) :=
  match p with
  | Some id => let* b' := write_at b offset (to_le 2 id) in Done (b', offset + 2)
  | None => Done (b, offset)
  end.

(** addressing.rs:460-476 / 484-499: write an address reversed and advance the offset.
    For [Some Absent] the slice [[offset..][..0]] is still taken: it panics when
    offset > len. *)
Definition write_address (b : list N) (offset : nat) (a : option Address) : outcome (list N * nat) :=
  match a with
  | Some a => let* b' := write_at b offset (rev (as_bytes a)) in Done (b', offset + address_len a)
  | None => Done (b, offset)
  end.

(** addressing.rs:451-500 [write_fields] *)
Definition af_write_fields (b : list N) (r : AddressingFieldsRepr) : outcome (list N) :=
  let* (b, o) := write_pan b 0 (ar_dst_pan_id r) in
  let* (b, o) := write_address b o (ar_dst_address r) in
  let* (b, o) := write_pan b o (ar_src_pan_id r) in
  let* (b, o) := write_address b o (ar_src_address r) in
  Done b.
