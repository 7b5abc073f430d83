(** Model of the value inside dot15d4/src/sync/mutex.rs: Sync.v has the state (locked, waker), this file adds the UnsafeCell.
    References obtained from a guard are modelled by the reads and writes made through them. *)
From Verif Require Import Sync.

Section Value.
Context {T : Type}.
(** mutex.rs 18-22: struct Mutex *)
Record Mutex := mkMutexV { mv_state : MutexState; mv_value : T }.
(** mutex.rs 25-34: Mutex::new *)
Definition mutex_of (v : T) : Mutex := mkMutexV mutex_new v.
(** mutex.rs 36-42, 112-141: a poll of lock() with waker [t] *)
Definition mv_lock (t : nat) (m : Mutex) : bool * Mutex * list nat :=
  let '(b, s, w) := lock_poll t (mv_state m) in (b, mkMutexV s (mv_value m), w).
(** mutex.rs 44-54: try_lock *)
Definition mv_try_lock (m : Mutex) : bool * Mutex := let (b, s) := try_lock (mv_state m) in (b, mkMutexV s (mv_value m)).
(** mutex.rs 92-104: MutexGuard::drop *)
Definition mv_drop (m : Mutex) : Mutex * list nat := let (s, w) := guard_drop (mv_state m) in (mkMutexV s (mv_value m), w).
(** mutex.rs 77-83: Deref, and reading through the reference. 67-69: Mutex::read, the same access without a guard (unsafe; not
    used in the crate) *)
Definition mv_deref (m : Mutex) : T := mv_value m.
(** mutex.rs 86-91: DerefMut, and assigning [v] through the reference *)
Definition mv_deref_mut (v : T) (m : Mutex) : Mutex := mkMutexV (mv_state m) v.
(** mutex.rs 58-61: get_mut, and assigning through the reference *)
Definition mv_get_mut (v : T) (m : Mutex) : Mutex := mkMutexV (mv_state m) v.
End Value.
Arguments Mutex T : clear implicits.
