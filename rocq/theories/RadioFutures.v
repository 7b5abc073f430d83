(** RadioFutures.v -- dot15d4/src/phy/radio/futures.rs. *)
From Coq Require Import List.
Import ListNotations.
From Verif Require Import Async.

Section Radio.
Context {Op : Type -> Type}.
(** futures.rs:43-60 [transmit] and 67-84 [receive], which only differ in the radio's methods: [prepare] is the poll of
    prepare_transmit/prepare_receive, [operate] that of transmit/receive, [cancel] the call of
    cancel_current_opperation. The OnDrop guard (futures.rs:8-36) is created before the first await and defused (44-47:
    the closure is dropped without being called) before the return, so its destructor runs exactly if the future is
    dropped while suspended. Not modelled: the RefCell around the radio; the RefMut is declared after OnDrop and hence
    dropped before it, so the closure's borrow_mut succeeds. *)
Definition radio_future {A} (cancel : Op unit) (prepare : Op bool) (operate : Op (option A)) : prog (Op := Op) A :=
  scoped [cancel] (bind (await_ready prepare) (fun _ => await operate)).
End Radio.
