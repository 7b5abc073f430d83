(** Base.v -- conventions shared by the whole model.

    - an octet is an [N] below 256, a buffer is a [list N];
    - a Rust panic is the explicit outcome [Panic];
    - Rust's [Result<_, Error>] is [result] ([Error] is a unit struct,
      dot15d4-frame/src/lib.rs:213-218);
    - a write through [&mut] is a function returning the new buffer.
    No code of /repo is modelled here except for the panicking behaviour of the
    core slice operations used everywhere. *)
From Coq Require Export List Arith NArith ZArith Bool Lia.
Export ListNotations.
#[global] Arguments N.mul : simpl never.
#[global] Arguments N.add : simpl never.
#[global] Arguments N.sub : simpl never.
#[global] Arguments N.div : simpl never.
#[global] Arguments N.modulo : simpl never.

(** ** Outcomes: normal return or panic *)
Inductive outcome (A : Type) : Type :=
| Done (a : A)
| Panic.
Arguments Done {A} a.
Arguments Panic {A}.

(** dot15d4-frame/src/lib.rs:213-218 [Result<T>] with the unit error. *)
Inductive result (A : Type) : Type :=
| Ok (a : A)
| Err.
Arguments Ok {A} a.
Arguments Err {A}.

Definition bind {A B} (m : outcome A) (k : A -> outcome B) : outcome B :=
  match m with Done a => k a | Panic => Panic end.

Notation "'let*' x ':=' e 'in' k" := (bind e (fun x => k))
  (at level 200, x pattern, right associativity).

(** [Result::ok] *)
Definition ok {A} (r : result A) : option A :=
  match r with Ok a => Some a | Err => None end.

(** [Option::unwrap] / [Result::unwrap]: panic on [None]/[Err]. *)
Definition unwrap {A} (o : option A) : outcome A :=
  match o with Some a => Done a | None => Panic end.

(** ** Octets *)
Definition octet (x : N) : Prop := (x < 256)%N.
Definition octets (l : list N) : Prop := Forall octet l.

(** core slice indexing [b[i]]: panics when out of range. *)
Definition idx (b : list N) (i : nat) : outcome N :=
  match nth_error b i with Some x => Done x | None => Panic end.

(** [&b[lo..hi]]: panics unless lo <= hi <= len. *)
Definition slice (b : list N) (lo hi : nat) : outcome (list N) :=
  if (lo <=? hi) && (hi <=? length b)
  then Done (firstn (hi - lo) (skipn lo b)) else Panic.

(** [&b[..hi]] *)
Definition slice_to (b : list N) (hi : nat) : outcome (list N) :=
  if hi <=? length b then Done (firstn hi b) else Panic.

(** [&b[lo..]] *)
Definition slice_from (b : list N) (lo : nat) : outcome (list N) :=
  if lo <=? length b then Done (skipn lo b) else Panic.

(** [b[off..][..bytes.len()].copy_from_slice(bytes)] *)
Definition write_at (b : list N) (off : nat) (bytes : list N) : outcome (list N) :=
  if off + length bytes <=? length b
  then Done (firstn off b ++ bytes ++ skipn (off + length bytes) b) else Panic.

(** [b[i] = x] *)
Definition set_idx (b : list N) (i : nat) (x : N) : outcome (list N) :=
  write_at b i [x].

(** ** Integers in octets *)
(** [u16::from_le_bytes] / [u32::from_le_bytes] / ... *)
Fixpoint from_le (l : list N) : N :=
  match l with
  | [] => 0
  | x :: r => x + 256 * from_le r
  end%N.

(** [v.to_le_bytes()] for an [n]-octet integer. *)
Fixpoint to_le (n : nat) (v : N) : list N :=
  match n with
  | O => []
  | S n' => (v mod 256)%N :: to_le n' (v / 256)%N
  end.

(** ** Loop helper: for every x < n, f x (used to sweep finite domains) *)
Definition all_below (n : N) (f : N -> bool) : bool :=
  snd (N.iter n (fun p => (N.succ (fst p), snd p && f (fst p))) (0%N, true)).
