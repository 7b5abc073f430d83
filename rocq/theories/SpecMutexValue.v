(** Specification vocabulary for the value protected by a mutex: what guards read and write, oldest first. *)
From Coq Require Import List.
Import ListNotations.
From Verif Require Import Sync SpecSync MutexValue.

Section Spec.
Context {T : Type}.
Inductive value_event :=
| VLock (e : mutex_event)             (* lock, try_lock, drop of a guard, wake-ups: as in SpecSync.v *)
| VRead (g : nat) (v : T)             (* [*g] was [v] *)
| VWrite (g : nat) (v : T)            (* [*g = v] *)
| VExclusive (old v : T).             (* the owner of the mutex, through get_mut: it was [old] and is set to [v] *)

(** the guards in existence *)
Definition locks (tr : list value_event) : list mutex_event := flat_map (fun e => match e with VLock e => [e] | _ => [] end) tr.
Definition holders (tr : list value_event) : list nat := guards (locks tr).

(** The histories of a mutex created with the value [v0]: any number of tasks and guards, any schedule. Rust lets a program
    read and write through a guard while it has the guard, and call get_mut only when no guard exists (it needs [&mut]). *)
Inductive value_history (v0 : T) : list value_event -> Mutex T -> Prop :=
| vh_new : value_history v0 [] (mutex_of v0)
| vh_lock tr m f t b m' w r : value_history v0 tr m -> mv_lock t m = (b, m', w) -> granted r b ->
    (forall g, r = Some g -> ~ In g (holders tr)) ->
    value_history v0 (tr ++ map VLock (MPoll f t r :: map MWake w)) m'
| vh_try tr m b m' r : value_history v0 tr m -> mv_try_lock m = (b, m') -> granted r b ->
    (forall g, r = Some g -> ~ In g (holders tr)) ->
    value_history v0 (tr ++ map VLock [MTry r]) m'
| vh_drop tr m g m' w : value_history v0 tr m -> In g (holders tr) -> mv_drop m = (m', w) ->
    value_history v0 (tr ++ map VLock (MDrop g :: map MWake w)) m'
| vh_cancel tr m f : value_history v0 tr m -> value_history v0 (tr ++ map VLock [MCancel f]) m
| vh_read tr m g : value_history v0 tr m -> In g (holders tr) -> value_history v0 (tr ++ [VRead g (mv_deref m)]) m
| vh_write tr m g v : value_history v0 tr m -> In g (holders tr) -> value_history v0 (tr ++ [VWrite g v]) (mv_deref_mut v m)
| vh_exclusive tr m v : value_history v0 tr m -> holders tr = [] ->
    value_history v0 (tr ++ [VExclusive (mv_value m) v]) (mv_get_mut v m).

(** the value after a history: the last one written *)
Definition value_step (x : T) (e : value_event) : T := match e with VWrite _ v | VExclusive _ v => v | _ => x end.
Definition value_after (v0 : T) (tr : list value_event) : T := fold_left value_step tr v0.

(** what guard [g] knows: the value it read last, since it was handed out and since it wrote *)
Definition is_grant (g : nat) (e : mutex_event) : bool :=
  match e with MPoll _ _ (Some h) | MTry (Some h) => Nat.eqb h g | _ => false end.
Definition known_step (g : nat) (k : option T) (e : value_event) : option T :=
  match e with
  | VLock e => if is_grant g e then None else k
  | VRead h v => if Nat.eqb h g then Some v else k
  | VWrite h _ => if Nat.eqb h g then None else k
  | VExclusive _ _ => k
  end.
Definition known (g : nat) (tr : list value_event) : option T := fold_left (known_step g) tr None.

(** a program that only ever replaces a value it has read, with the holder's guard, by [f] of it: [*guard += 1], with any
    number of awaits between the read and the write *)
Definition read_modify_write (f : T -> T) (tr : list value_event) : Prop :=
  (forall a g v b, tr = a ++ VWrite g v :: b -> exists x, known g a = Some x /\ v = f x) /\
  (forall a x v b, tr = a ++ VExclusive x v :: b -> v = f x).
(** how often it did so *)
Definition updates (tr : list value_event) : nat := length (filter (fun e => match e with VWrite _ _ | VExclusive _ _ => true | _ => false end) tr).
Fixpoint times (n : nat) (f : T -> T) (x : T) : T := match n with O => x | S n => f (times n f x) end.
End Spec.
Arguments value_event T : clear implicits.
