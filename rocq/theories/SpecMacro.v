(** SpecMacro.v -- what a fixed-layout record means: its fields follow one another without gaps, in
    declaration order, in the octets read as one little-endian number. *)
From Verif Require Import Base Spec Macro.

(** number of bits of a field: declared with #[bits], else with #[bytes], else the size of its type *)
Definition width (d : decl) : nat :=
  match d_bits d, d_bytes d with
  | Some k, _ => k
  | None, Some n => 8 * n
  | None, None => match d_ty d with TBool => 1 | TU8 => 8 | TU16 => 16 | TU32 => 32 | TU64 => 64 | TSlice => 0 | TRec n => 8 * n end
  end.
(** first bit of field [i] *)
Definition position (ds : list decl) (i : nat) : nat := list_sum (map width (firstn i ds)).
Definition total (ds : list decl) : nat := list_sum (map width ds).
(** its value in the octets [b] *)
Definition value_at (d : decl) (pos : nat) (b : list N) : fval :=
  match d_ty d with
  | TBool => VBool (bit (N.of_nat pos) (from_le b))
  | TU8 | TU16 | TU32 | TU64 => VNum (field (N.of_nat pos) (N.of_nat (width d)) (from_le b))
  | TSlice => VSlice (if width d =? 0 then skipn (pos / 8) b else firstn (width d / 8) (skipn (pos / 8) b))
  | TRec n => VRec (Ok (firstn n (skipn (pos / 8) b)))
  end.
(** the record is read according to its declaration: [new] accepts exactly the buffers that are long enough, and of those
    every getter returns its field *)
Definition reads_right (ds : list decl) : Prop :=
  total ds = 8 * rec_size ds /\
  (forall b, rec_new ds b = if total ds <=? 8 * length b then Ok b else Err) /\
  forall b, octets b -> rec_new ds b = Ok b ->
  forall i d, nth_error ds i = Some d -> get ds i b = Done (value_at d (position ds i) b).
