(** Beacon.v -- model of dot15d4-frame/src/frames/beacon.rs:13-118 (Beacon) and 148-467 (superframe orders,
    GTS fields, pending addresses). The records themselves are generated by #[frame] (Macro.v). *)
From Verif Require Import Base FrameControl Addressing AuxSec Macro IeContent.

(** numeric and boolean getters of a generated record *)
Definition get_num (ds : list decl) (i : nat) (b : list N) : outcome N :=
  let* v := get ds i b in match v with VNum n => Done n | _ => Panic end.
Definition get_rec (ds : list decl) (i : nat) (b : list N) : outcome (result (list N)) :=
  let* v := get ds i b in match v with VRec r => Done r | _ => Panic end.
Definition get_slice (ds : list decl) (i : nat) (b : list N) : outcome (list N) :=
  let* v := get ds i b in match v with VSlice s => Done s | _ => Panic end.

(** beacon.rs:148-203: [BeaconOrder], [SuperframeOrder] ([None] is OnDemand resp. Inactive) *)
Definition order_from (v : N) : option N := if (v <=? 14)%N then Some v else None.
Definition order_to (o : option N) : N := match o with Some v => v | None => 15%N end.
Definition beacon_order (b : list N) : outcome (option N) := let* v := get_num SuperframeSpecification 0 b in Done (order_from v).
Definition superframe_order (b : list N) : outcome (option N) := let* v := get_num SuperframeSpecification 1 b in Done (order_from v).

(** ** GTS *)
(** [GtsSpecification::descriptor_count] *)
Definition gts_count (b : list N) : outcome nat := let* v := get_num GtsSpecification 0 b in Done (N.to_nat v).
(** beacon.rs:284-288 iterator: data, count, terminated *)
Record gts_iter := mkGts { gi_data : list N; gi_count : nat; gi_terminated : bool }.
(** beacon.rs:264-282 [slots] *)
Definition gts_slots_iter (b : list N) : outcome gts_iter :=
  let* c := gts_count b in
  if c =? 0 then Done (mkGts [] 0 true)
  else let* s := slice_from b 1 in
       let* t := slice_to s (1 + c * rec_size GtsSlot) in
       Done (mkGts t 0 false).
(** beacon.rs:293-315 [next]; a slot is (its octets and what follows, direction: true = transmit).
    [>> self.count] of a u8 by 8 or more panics. *)
Definition gts_next (st : gts_iter) : outcome (option (list N * bool) * gts_iter) :=
  let L := rec_size GtsSlot in
  if gi_terminated st then Done (None, st)
  else if length (gi_data st) <=? 1 + gi_count st * L then Done (None, st)
  else
    let* d0 := idx (gi_data st) 0 in
    if gi_count st <? 8 then
      let dir := negb (N.land (N.shiftr d0 (N.of_nat (gi_count st))) 1 =? 0)%N in
      let* s := slice_from (gi_data st) (1 + gi_count st * L) in
      match rec_new GtsSlot s with
      | Err => Done (None, st)
      | Ok s => let c := gi_count st + 1 in
                Done (Some (s, dir), mkGts (gi_data st) c (length (gi_data st) <=? 1 + c * L))
      end
    else Panic.
Definition gts_slots (b : list N) : outcome (list (list N * bool)) :=
  let* it := gts_slots_iter b in drainS gts_next (S (S (length b))) it.
(** [GtsSlot] accessors: Address::from over the two octets *)
Definition slot_short_address (s : list N) : outcome Address := let* a := get_slice GtsSlot 0 s in address_from a.
Definition slot_starting_slot (s : list N) : outcome N := get_num GtsSlot 1 s.
Definition slot_length (s : list N) : outcome N := get_num GtsSlot 2 s.
(** beacon.rs:215-220 [GtsInfo::length] *)
Definition gts_info_spec (b : list N) : outcome (result (list N)) := get_rec GtsInfo 0 b.
Definition gts_info_length (b : list N) : outcome nat :=
  let* r := gts_info_spec b in let* s := unwrap (ok r) in let* c := gts_count s in Done (1 + c * rec_size GtsSlot).

(** ** Pending addresses *)
(** beacon.rs:366-371 *)
Definition pa_counts (b : list N) : outcome (nat * nat) :=
  let* r := get_rec PendingAddress 0 b in let* s := unwrap (ok r) in
  let* sh := get_num PendingAddressSpecification 0 s in
  let* ex := get_num PendingAddressSpecification 2 s in
  Done (N.to_nat sh, N.to_nat ex).
Definition pa_length (b : list N) : outcome nat := let* (s, e) := pa_counts b in Done (1 + s * 2 + e * 8).
(** beacon.rs:395-411 *)
Record pa_iter := mkPa { pi_data : list N; pi_short : nat; pi_ext : nat; pi_terminated : bool }.
(** beacon.rs:413-450 [next] *)
Definition pa_next (st : pa_iter) : outcome (option Address * pa_iter) :=
  if pi_terminated st then Done (None, st)
  else match pi_short st with
  | S k => if length (pi_data st) <? 2 then Done (None, st)
           else let* s := slice_to (pi_data st) 2 in
                let* r := slice_from (pi_data st) 2 in
                Done (Some (AShort s), mkPa r k (pi_ext st) false)
  | O => match pi_ext st with
         | S k => if length (pi_data st) <? 8 then Done (None, st)
                  else let* s := slice_to (pi_data st) 8 in
                       let* r := slice_from (pi_data st) 8 in
                       Done (Some (AExtended s), mkPa r 0 k false)
         | O => Done (None, mkPa (pi_data st) 0 0 true)
         end
  end.
(** beacon.rs:373-380 [pending_addresses] *)
Definition pa_addresses (b : list N) : outcome (list Address) :=
  let* (s, e) := pa_counts b in
  let* n := pa_length b in
  let* r := slice_from b 1 in
  let* d := slice_to r (n - 1) in
  drainS pa_next (S (s + e)) (mkPa d s e false).

(** ** Beacon (13-118): [new] and [check_len] are todo!() *)
Definition beacon_new (b : list N) : outcome (result (list N)) := Panic.
Definition beacon_frame_control (b : list N) : outcome (list N) := slice_to b 2.
Definition beacon_sequence_number (b : list N) : outcome N := idx b 2.
Definition beacon_addressing (b : list N) : outcome AddressingFields :=
  let* s := slice_from b 3 in let* fc := beacon_frame_control b in Done (mkAf s fc).
Definition beacon_aux (b : list N) : outcome (option (list N)) :=
  let* fc := beacon_frame_control b in
  let* sec := fc_security_enabled fc in
  if sec then
    let* af := beacon_addressing b in let* n := af_len af in
    let* s := slice_from b (3 + n) in Done (Some s)
  else Done None.
(** the offset of the superframe specification, computed alike in 62-68, 73-79, 86-92 and 104-110 *)
Definition beacon_offset (b : list N) : outcome nat :=
  let* af := beacon_addressing b in let* n := af_len af in
  let* fc := beacon_frame_control b in
  let* sec := fc_security_enabled fc in
  if sec then let* o := beacon_aux b in let* a := unwrap o in let* m := aux_len a in Done (3 + n + m)
  else Done (3 + n).
Definition beacon_superframe (b : list N) : outcome (list N) :=
  let* o := beacon_offset b in let* s := slice_from b o in slice_to s 2.
Definition beacon_gts_info (b : list N) : outcome (list N) :=
  let* o := beacon_offset b in slice_from b (o + 2).
Definition beacon_pending (b : list N) : outcome (list N) :=
  let* o := beacon_offset b in
  let* g := beacon_gts_info b in let* n := gts_info_length g in slice_from b (o + 2 + n).
Definition beacon_payload (b : list N) : outcome (list N) :=
  let* o := beacon_offset b in
  let* g := beacon_gts_info b in let* n := gts_info_length g in
  let* p := beacon_pending b in let* m := pa_length p in
  slice_from b (o + 2 + n + m).
