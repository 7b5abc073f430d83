(** Ie.v -- model of dot15d4-frame/src/ie/{mod,headers,payloads,nested}.rs: descriptors,
    iterators and the InformationElements reader. The contents of the individual IEs are in
    IeContent.v. An IE reader is its data slice. Enum ids are represented by their discriminant
    ([id as u16]); reading maps every unlisted value to the discriminant of Unknown. *)
From Verif Require Import Base FrameControl.

(** [u16::from_le_bytes([b[0], b[1]])] with [b = &data[0..2]] (headers.rs:51-52 and passim);
    nested.rs uses [&data[0..]] instead, which panics for the same inputs. *)
Definition ie_raw (d : list N) : outcome N :=
  let* s := slice d 0 2 in
  let* b0 := idx s 0 in
  let* b1 := idx s 1 in
  Done (from_le [b0; b1]).

(** ** Header IEs (headers.rs) *)
Definition mem (x : N) (l : list N) : bool := existsb (N.eqb x) l.
(** headers.rs:126-166: the discriminants of [HeaderElementId]; Unkown = 0x80. *)
Definition header_ids : list N :=
  [0x00; 0x1a; 0x1b; 0x1c; 0x1d; 0x1e; 0x21; 0x22; 0x23; 0x24; 0x25; 0x26; 0x27; 0x28; 0x29; 0x2b; 0x7e; 0x7f]%N.
Definition HeUnknown : N := 0x80%N.
Definition HeTimeCorrection : N := 0x1e%N.
Definition HeTermination1 : N := 0x7e%N.
Definition HeTermination2 : N := 0x7f%N.
(** headers.rs:168-192 [From<u8> for HeaderElementId] *)
Definition HeaderElementId_from (v : N) : N := if mem v header_ids then v else HeUnknown.

(** headers.rs:21-35 [HeaderInformationElement::new] *)
Definition hie_new (d : list N) : result (list N) := if 2 <=? length d then Ok d else Err.
(** headers.rs:50-53 [len] *)
Definition hie_len (d : list N) : outcome nat :=
  let* raw := ie_raw d in Done (N.to_nat (N.land raw 0xFE)).
(** headers.rs:56-60 [element_id] *)
Definition hie_element_id (d : list N) : outcome N :=
  let* raw := ie_raw d in Done (HeaderElementId_from (N.land (N.shiftr raw 7) 0xFF)).
(** headers.rs:63-65 [content] *)
Definition hie_content (d : list N) : outcome (list N) :=
  let* n := hie_len d in
  let* s := slice_from d 2 in
  slice_to s n.
(** headers.rs:75-82 [set_length] *)
Definition hie_set_length (len : N) (d : list N) : outcome (list N) :=
  let* raw := ie_raw d in
  write_at d 0 (to_le 2 (N.lor (N.land raw (u16_not 0xFE)) (N.land len 0xFE))).
(** headers.rs:85-93 [set_element_id] *)
Definition hie_set_element_id (id : N) (d : list N) : outcome (list N) :=
  let* raw := ie_raw d in
  write_at d 0 (to_le 2 (N.lor (N.land raw (u16_not 0x7F80)) (N.land (u16_shl id 7) 0x7F80))).

(** The three IE iterators (headers.rs:207-211, payloads.rs:140-144, nested.rs:1297-1301). *)
Record ie_iter := mkIt { it_data : list N; it_offset : nat; it_terminated : bool }.

(** headers.rs:220-243 [Iterator::next]. A failing [new] is [.ok()?]: the iterator state is unchanged. *)
Definition hie_next (st : ie_iter) : outcome (option (list N) * ie_iter) :=
  if it_terminated st then Done (None, st)
  else
    let* s := slice_from (it_data st) (it_offset st) in
    match hie_new s with
    | Err => Done (None, st)
    | Ok ie =>
        let* id := hie_element_id ie in
        let t := (id =? HeTermination1)%N || (id =? HeTermination2)%N in
        let* n := hie_len ie in
        let off := it_offset st + (n + 2) in
        Done (Some ie, mkIt (it_data st) off (if length (it_data st) <=? off then true else t))
    end.

(** ** Payload IEs (payloads.rs) *)
(** payloads.rs:115-126: discriminants of [PayloadGroupId]; Unknown = 0x10. *)
Definition payload_ids : list N := [0x00; 0x01; 0x02; 0x0f]%N.
Definition PgUnknown : N := 0x10%N.
Definition PgMlme : N := 0x01%N.
Definition PgTermination : N := 0x0f%N.
(** payloads.rs:128-138 *)
Definition PayloadGroupId_from (v : N) : N := if mem v payload_ids then v else PgUnknown.
(** payloads.rs:18-32 *)
Definition pie_new (d : list N) : result (list N) := if 2 <=? length d then Ok d else Err.
(** payloads.rs:41-44 *)
Definition pie_length (d : list N) : outcome nat :=
  let* raw := ie_raw d in Done (N.to_nat (N.land raw 0x3FF)).
(** payloads.rs:47-51 *)
Definition pie_group_id (d : list N) : outcome N :=
  let* raw := ie_raw d in Done (PayloadGroupId_from (N.land (N.shiftr raw 11) 7)).
(** payloads.rs:54-56 *)
Definition pie_content (d : list N) : outcome (list N) :=
  let* n := pie_length d in
  let* s := slice_from d 2 in
  slice_to s n.
(** payloads.rs:78-84 *)
Definition pie_set_length (len : N) (d : list N) : outcome (list N) :=
  let* raw := ie_raw d in
  write_at d 0 (to_le 2 (N.lor (N.land raw (u16_not 0x7FF)) (N.land len 0x7FF))).
(** payloads.rs:87-93 *)
Definition pie_set_group_id (id : N) (d : list N) : outcome (list N) :=
  let* raw := ie_raw d in
  write_at d 0 (to_le 2 (N.lor (N.lor (N.land raw (u16_not 0x7800)) (u16_shl id 11)) 0x8000)).

(** payloads.rs:153-177 *)
Definition pie_next (st : ie_iter) : outcome (option (list N) * ie_iter) :=
  if it_terminated st then Done (None, st)
  else
    let* s := slice_from (it_data st) (it_offset st) in
    match pie_new s with
    | Err => Done (None, mkIt (it_data st) (it_offset st) true)
    | Ok ie =>
        let* id := pie_group_id ie in
        let* n := pie_length ie in
        let off := it_offset st + (n + 2) in
        Done (Some ie, mkIt (it_data st) off (if length (it_data st) <=? off then true else (id =? PgTermination)%N))
    end.

(** ** Nested IEs (nested.rs) *)
(** nested.rs:216-285, 287-324: discriminants of [NestedSubIdShort]; Unkown = 0x47. *)
Definition nested_short_ids : list N :=
  [0x1a; 0x1b; 0x1c; 0x1d; 0x1e; 0x1f; 0x20; 0x21; 0x22; 0x23; 0x24; 0x25; 0x26; 0x27; 0x28; 0x29;
   0x2b; 0x2c; 0x2d; 0x2e; 0x2f; 0x30; 0x31; 0x32; 0x33; 0x34; 0x35; 0x36; 0x37; 0x38; 0x39; 0x40; 0x46]%N.
(** nested.rs:338-345; Unkown = 0x0a. *)
Definition nested_long_ids : list N := [0x08; 0x09]%N.
Inductive NestedSubId := SubShort (id : N) | SubLong (id : N).
Definition NestedSubIdShort_from (v : N) : N := if mem v nested_short_ids then v else 0x47%N.
Definition NestedSubIdLong_from (v : N) : N := if mem v nested_long_ids then v else 0x0a%N.
Definition NsTschSynchronization : N := 0x1a%N.
Definition NsTschSlotframeAndLink : N := 0x1b%N.
Definition NsTschTimeslot : N := 0x1c%N.
Definition NlChannelHopping : N := 0x09%N.

(** nested.rs:88-91 [is_long] *)
Definition nie_is_long (d : list N) : outcome bool :=
  let* raw := ie_raw d in Done (flag_at 15 raw).
(** nested.rs:62-69 [length] *)
Definition nie_length (d : list N) : outcome nat :=
  let* l := nie_is_long d in
  let* raw := ie_raw d in
  Done (N.to_nat (if l then N.land raw 0x3FF else N.land raw 0x7F)).
(** nested.rs:72-80 [sub_id] *)
Definition nie_sub_id (d : list N) : outcome NestedSubId :=
  let* raw := ie_raw d in
  let* l := nie_is_long d in
  Done (if l then SubLong (NestedSubIdLong_from (N.land (N.shiftr raw 11) 0xF))
        else SubShort (NestedSubIdShort_from (N.land (N.shiftr raw 8) 0x3F))).
(** nested.rs:32-53 [new], [check_len] *)
Definition nie_new (d : list N) : outcome (result (list N)) :=
  if length d <? 2 then Done Err
  else let* n := nie_length d in Done (if n + 2 <=? length d then Ok d else Err).
(** nested.rs:94-96 [content] *)
Definition nie_content (d : list N) : outcome (list N) :=
  let* n := nie_length d in
  let* s := slice_from d 2 in
  slice_to s n.
Definition sub_is_short (id : NestedSubId) : bool := match id with SubShort _ => true | SubLong _ => false end.
(** nested.rs:106-117 [set_length] *)
Definition nie_set_length (len : N) (id : NestedSubId) (d : list N) : outcome (list N) :=
  let mask := if sub_is_short id then 0xFF%N else 0x7FF%N in
  let* raw := ie_raw d in
  write_at d 0 (to_le 2 (N.lor (N.land raw (u16_not mask)) (N.land len mask))).
(** nested.rs:120-135 [set_sub_id] *)
Definition nie_set_sub_id (id : NestedSubId) (d : list N) : outcome (list N) :=
  let mask := if sub_is_short id then 0x7F00%N else 0x7800%N in
  let* raw := ie_raw d in
  let v := match id with
           | SubShort i => u16_shl i 8
           | SubLong i => N.lor (u16_shl i 11) 0x8000
           end in
  write_at d 0 (to_le 2 (N.lor (N.land raw (u16_not mask)) v)).

(** nested.rs:1316-1341: the yielded element is cut to its own octets. *)
Definition nie_next (st : ie_iter) : outcome (option (list N) * ie_iter) :=
  if it_terminated st then Done (None, st)
  else
    let* s := slice_from (it_data st) (it_offset st) in
    let* r := nie_new s in
    match r with
    | Err => Done (None, mkIt (it_data st) (it_offset st) true)
    | Ok ie =>
        let* n := nie_length ie in
        let* t := slice_from (it_data st) (it_offset st) in
        let* cut := slice_to t (n + 2) in
        let off := it_offset st + (n + 2) in
        Done (Some cut, mkIt (it_data st) off (if length (it_data st) <=? off then true else false))
    end.

(** ** Draining an iterator: [for x in iter] / [while iter.next().is_some() {}].
    Recursion on fuel; running out of fuel is [Panic], so every "does not panic" theorem also proves
    that the loop ends within the fuel. *)
Fixpoint drain (next : ie_iter -> outcome (option (list N) * ie_iter)) (fuel : nat) (st : ie_iter)
  : outcome (list (list N) * ie_iter) :=
  match fuel with
  | O => Panic
  | S f =>
      let* (x, st') := next st in
      match x with
      | None => Done ([], st')
      | Some e => let* (es, st'') := drain next f st' in Done (e :: es, st'')
      end
  end.

(** fuel that suffices: every element takes at least two octets *)
Definition ie_fuel (d : list N) : nat := S (length d).

(** ** InformationElements (ie/mod.rs) *)
(** ie/mod.rs:77-83 [header_information_elements] *)
Definition ies_header_iter (d : list N) : ie_iter := mkIt d 0 (length d =? 0).
Definition ies_headers (d : list N) : outcome (list (list N) * ie_iter) :=
  drain hie_next (ie_fuel d) (ies_header_iter d).

Fixpoint sum_lens (l : list (list N)) : outcome nat :=
  match l with
  | [] => Done 0
  | e :: r => let* n := hie_len e in let* m := sum_lens r in Done ((n + 2) + m)
  end.

(** ie/mod.rs:86-100 [payload_information_elements]: [&data[start..]] panics when start > len. *)
Definition ies_payload_iter (d : list N) : outcome ie_iter :=
  let* (hs, _) := ies_headers d in
  let* start := sum_lens hs in
  let terminated := length d <=? start in
  let* rest := slice_from d start in
  Done (mkIt rest 0 terminated).
Definition ies_payloads (d : list N) : outcome (list (list N) * ie_iter) :=
  let* it := ies_payload_iter d in
  drain pie_next (ie_fuel d) it.

(** ie/mod.rs:38-57 [check_len] *)
Definition ies_check_len (d : list N) : outcome bool :=
  let* (_, it) := ies_headers d in
  let len := it_offset it in
  if length d <? len then Done false
  else
    let* (_, it) := ies_payloads d in
    Done (len + it_offset it <=? length d).

(** ie/mod.rs:27-36 [new] *)
Definition ies_new (d : list N) : outcome (result (list N)) :=
  let* c := ies_check_len d in Done (if c then Ok d else Err).

(** ie/mod.rs:65-75 [len] *)
Definition ies_len (d : list N) : outcome nat :=
  let* (_, it) := ies_headers d in
  let* (_, it') := ies_payloads d in
  Done (it_offset it + it_offset it').

(** payloads.rs:66-69 [nested_information_elements]: asserts the MLME group, then iterates over [content()]. *)
Definition pie_nested_iter (d : list N) : outcome ie_iter :=
  let* g := pie_group_id d in
  if (g =? PgMlme)%N then let* c := pie_content d in Done (mkIt c 0 false) else Panic.
Definition pie_nested (d : list N) : outcome (list (list N)) :=
  let* it := pie_nested_iter d in
  let* (es, _) := drain nie_next (ie_fuel (it_data it)) it in
  Done es.
