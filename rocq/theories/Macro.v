(** Macro.v -- model of the attribute macro #[frame] (dot15d4-macros/src/lib.rs) and of the records declared
    with it (dot15d4-frame/src/ie/headers.rs:245-336, 423-454, dot15d4-frame/src/frames/beacon.rs:120-420).
    A record is the list of its field declarations; the macro turns it into a [new], a [size] and one getter
    per field. The types i16/i32 (which no record uses and for which the macro generates code that does not
    compile) and [#[field]] members (plain struct members, no octets) are left out. *)
From Verif Require Import Base.

(** Rust type of a field, as the macro distinguishes them (lib.rs:132-222); [TRec n] is a nested record of size n. *)
Inductive fty := TBool | TU8 | TU16 | TU32 | TU64 | TSlice | TRec (n : nat).
(** One field: its type, #[bytes(n)] and #[bits(k)] attributes *)
Record decl := mkD { d_ty : fty; d_bytes : option nat; d_bits : option nat }.

(** lib.rs:66-67, 266-284: the running (offset, bits_offset) after a field *)
Definition advance (st : nat * nat) (d : decl) : nat * nat :=
  let '(off, bo) := st in
  let off := match d_bytes d with Some n => off + n | None => off end in
  match d_bits d with
  | Some k => let bo := bo + k in
              if (bo mod 8 =? 0) && (0 <? bo) then (off + 1, 0) else (off, bo)
  | None => (off, bo)
  end.
(** offset and bit offset at which field [i] is read *)
Fixpoint place (st : nat * nat) (ds : list decl) (i : nat) : option (nat * nat * decl) :=
  match ds, i with
  | [], _ => None
  | d :: _, O => Some (fst st, snd st, d)
  | d :: r, S j => place (advance st d) r j
  end.
(** lib.rs:292-295 [size] *)
Definition rec_size (ds : list decl) : nat := fst (fold_left advance ds (0, 0)).
(** lib.rs:43-64 [new] *)
Definition rec_new (ds : list decl) (b : list N) : result (list N) := if rec_size ds <=? length b then Ok b else Err.

(** values returned by getters *)
Inductive fval := VBool (x : bool) | VNum (n : N) | VSlice (s : list N) | VRec (s : result (list N)).
(** lib.rs:91-117: the effective number of bytes *)
Definition eff_bytes (d : decl) : option nat :=
  match d_bytes d with
  | Some n => Some n
  | None => match d_ty d with TBool | TU8 => Some 1 | TU16 => Some 2 | TU32 => Some 4 | TU64 => Some 8 | _ => None end
  end.
(** [buffer[0]], ..., [buffer[n-1]] assembled little-endian *)
Definition rd_n (s : list N) (n : nat) : outcome N := let* t := slice_to s n in Done (from_le t).
(** lib.rs:132-222: the getter of a field at (off, bo); shifting a u8 by 8 or more panics *)
Definition read_at (b : list N) (off bo : nat) (d : decl) : outcome fval :=
  let* s := slice_from b off in
  match d_ty d with
  | TBool => let* x := idx s 0 in
             if bo <? 8 then Done (VBool (negb (N.land (N.shiftr x (N.of_nat bo)) 1 =? 0)%N)) else Panic
  | TU8 => let* x := idx s 0 in
           match d_bits d with
           | Some k => if bo <? 8 then Done (VNum (N.land (N.shiftr x (N.of_nat bo)) (2 ^ N.of_nat k - 1))) else Panic
           | None => Done (VNum x)
           end
  | TU16 => let* v := rd_n s 2 in Done (VNum v)
  | TU32 => match eff_bytes d with
            | Some 3 => let* v := rd_n s 3 in Done (VNum (256 * v))
            | _ => let* v := rd_n s 4 in Done (VNum v)
            end
  | TU64 => let* v := rd_n s 8 in Done (VNum v)
  | TSlice => match eff_bytes d with
              | Some 0 => Done (VSlice s)
              | Some n => let* t := slice_to s n in Done (VSlice t)
              | None => Done (VSlice s)
              end
  | TRec n => let* t := slice_to s n in Done (VRec (if n <=? length t then Ok t else Err))
  end.
(** the getter of field [i] of a record *)
Definition get (ds : list decl) (i : nat) (b : list N) : outcome fval :=
  match place (0, 0) ds i with
  | Some (off, bo, d) => read_at b off bo d
  | None => Panic
  end.

(** ** The declared records *)
Definition byt (t : fty) (n : nat) : decl := mkD t (Some n) None.
Definition bts (t : fty) (k : nat) : decl := mkD t None (Some k).
Definition plain (t : fty) : decl := mkD t None None.
(** headers.rs:245-256 *)
Definition VendorSpecific : list decl := [byt TU32 3; byt TSlice 0].
(** headers.rs:258-269; [rendezvous_time] only when the buffer has more than four octets *)
Definition Csl : list decl := [plain TU16; plain TU16; plain TU16].
Definition csl_rendezvous_time (b : list N) : outcome (option fval) :=
  if 4 <? length b then let* v := get Csl 2 b in Done (Some v) else Done None.
(** headers.rs:271-281 *)
Definition Rit : list decl := [plain TU8; plain TU8; plain TU16].
(** headers.rs:283-300 *)
Definition DsmeSuperframeSpecification : list decl := [bts TU8 4; bts TBool 1; bts TBool 1; bts TBool 1; bts TBool 1].
(** headers.rs:302-311 *)
Definition TimeSynchronizationSpecification : list decl := [byt TSlice 8; plain TU16].
(** headers.rs:313-327 *)
Definition ChannelHoppingSpecification : list decl := [plain TU8; plain TU8; plain TU16; plain TU8; byt TSlice 0].
(** headers.rs:329-336 *)
Definition RendezvousTime : list decl := [plain TU16; plain TU16].
(** headers.rs:438-454 *)
Definition CfpSpecification : list decl := [bts TU8 3; bts TU8 5; bts TU8 4; bts TBool 1].
(** beacon.rs:120-146 *)
Definition SuperframeSpecification : list decl := [bts TU8 4; bts TU8 4; bts TU8 4; bts TBool 1; bts TBool 1; bts TBool 1; bts TBool 1].
(** headers.rs:422-436 *)
Definition SimplifiedSuperframeSpecification : list decl :=
  [plain TU16; byt (TRec (rec_size SuperframeSpecification)) 2; byt (TRec (rec_size CfpSpecification)) 2].
(** beacon.rs:318-331 *)
Definition GtsSpecification : list decl := [bts TU8 3; bts TU8 4; bts TBool 1].
(** beacon.rs:205-213 *)
Definition GtsInfo : list decl := [bts (TRec (rec_size GtsSpecification)) 8; bts TU8 1].
(** beacon.rs:222-240 (the direction is a plain member) *)
Definition GtsSlot : list decl := [byt TSlice 2; bts TU8 4; bts TU8 4].
(** beacon.rs:382-393 *)
Definition PendingAddressSpecification : list decl := [bts TU8 3; bts TU8 1; bts TU8 3; bts TU8 1].
(** beacon.rs:360-364 *)
Definition PendingAddress : list decl := [bts (TRec (rec_size PendingAddressSpecification)) 8].
