(** Async.v -- futures. A future is what the compiler makes of an async block: a program that performs operations
    and suspends at await points. [Op B] are the operations with a result of type [B]; what they do to the world is
    given separately ([sem]), so nothing here depends on what the operations are.

    Modelled here: sync/select.rs, sync/join.rs, and the await/drop behaviour of async blocks (not code of /repo).
    [prog] is coinductive because tasks do not terminate. *)
From Coq Require Import List Bool.
Import ListNotations.

Section Async.
Context {Op : Type -> Type}.

(** - [Ret a]: completed with [a];
    - [Tau p]: an internal step (a loop iteration);
    - [Vis o k]: perform [o], continue with its result;
    - [Pend c p]: return Poll::Pending; [p] is what the next poll continues with, [c] the operations performed by the
      destructors of the live local variables, innermost first, if the future is dropped here;
    - [Fail]: panic (unwinding is not modelled). *)
CoInductive prog (A : Type) : Type :=
| Ret (a : A)
| Tau (p : prog A)
| Vis {B : Type} (o : Op B) (k : B -> prog A)
| Pend (c : list (Op unit)) (p : prog A)
| Fail.
Arguments Ret {A} a.
Arguments Tau {A} p.
Arguments Vis {A B} o k.
Arguments Pend {A} c p.
Arguments Fail {A}.

(** one step of unfolding of a coinductive program: [p = frob p] *)
Definition frob {A} (p : prog A) : prog A :=
  match p with Ret a => Ret a | Tau p => Tau p | Vis o k => Vis o k | Pend c p => Pend c p | Fail => Fail end.
Lemma frob_eq {A} (p : prog A) : p = frob p.
Proof. destruct p; reflexivity. Qed.

(** [let x = p; k(x)], also for [p.await] followed by [k] *)
CoFixpoint bind {A B} (p : prog A) (k : A -> prog B) : prog B :=
  match p with
  | Ret a => k a
  | Tau p => Tau (bind p k)
  | Vis o f => Vis o (fun b => bind (f b) k)
  | Pend c p => Pend c (bind p k)
  | Fail => Fail
  end.

(** one operation *)
Definition act {B} (o : Op B) : prog B := Vis o (fun b => Ret b).

(** The scope of a local variable whose destructor performs [c]: if the future is dropped while suspended in [p], [c] is
    performed after what is live inside [p]. (When the scope is left normally the program performs the destructor
    itself.) *)
CoFixpoint scoped {A} (c : list (Op unit)) (p : prog A) : prog A :=
  match p with
  | Ret a => Ret a
  | Tau p => Tau (scoped c p)
  | Vis o k => Vis o (fun b => scoped c (k b))
  | Pend c' p => Pend (c' ++ c) (scoped c p)
  | Fail => Fail
  end.

(** [loop { s = body(s) }]: [inl s] continues with the next iteration, [inr a] leaves the loop *)
CoFixpoint iter_from {S A} (body : S -> prog (S + A)) (p : prog (S + A)) : prog A :=
  match p with
  | Ret (inl s) => Tau (iter_from body (body s))
  | Ret (inr a) => Ret a
  | Tau p => Tau (iter_from body p)
  | Vis o k => Vis o (fun b => iter_from body (k b))
  | Pend c p => Pend c (iter_from body p)
  | Fail => Fail
  end.
Definition iter {S A} (body : S -> prog (S + A)) (s : S) : prog A := iter_from body (body s).

(** A future that polls the operation [o] until it is ready; between polls it is suspended. *)
CoFixpoint await {A} (o : Op (option A)) : prog A :=
  Vis o (fun r => match r with Some a => Ret a | None => Pend [] (await o) end).
(** the same for a result without content *)
CoFixpoint await_ready (o : Op bool) : prog unit :=
  Vis o (fun r : bool => if r then Ret tt else Pend [] (await_ready o)).

(** the destructors [c], then [p] *)
Fixpoint cleanup {A} (c : list (Op unit)) (p : prog A) : prog A :=
  match c with [] => p | o :: c => Vis o (fun _ => cleanup c p) end.

(** sync/yield_now.rs:5-17: the first poll wakes the own waker ([wake]) and is Pending, the second is Ready *)
Definition yield_now_with (wake : Op unit) : prog unit := Vis wake (fun _ => Pend [] (Ret tt)).

(** ** select (sync/select.rs:22-40) *)
(** [select_first p c q]: SelectFuture::poll is polling f1 = [p]; f2 = [q] was left with destructors [c] ([] before its
    first poll). [select_second c p q]: f1 returned Pending, f2 = [q] is being polled. When the future is ready it is
    consumed by the await, and the child that is not finished is dropped. *)
CoFixpoint select_first {A B} (p : prog A) (c : list (Op unit)) (q : prog B) : prog (A + B) :=
  match p with
  | Ret a => cleanup c (Ret (inl a))
  | Tau p => Tau (select_first p c q)
  | Vis o k => Vis o (fun b => select_first (k b) c q)
  | Pend c' p => Tau (select_second c' p q)
  | Fail => Fail
  end
with select_second {A B} (c : list (Op unit)) (p : prog A) (q : prog B) : prog (A + B) :=
  match q with
  | Ret b => cleanup c (Ret (inr b))
  | Tau q => Tau (select_second c p q)
  | Vis o k => Vis o (fun b => select_second c p (k b))
  | Pend c' q => Pend (c ++ c') (select_first p c' q)
  | Fail => Fail
  end.
(** sync/select.rs:10-15 *)
Definition select {A B} (p : prog A) (q : prog B) : prog (A + B) := select_first p [] q.

(** ** join (sync/join.rs) *)
(** join.rs:20-23, the field types [Either<F, Option<F::Output>>]: still running, suspended with destructors [c], or
    finished with its output (the Option is Some until the JoinFuture is ready). *)
Inductive child (A : Type) : Type := Running (c : list (Op unit)) (p : prog A) | Finished (a : A).
Arguments Running {A} c p.
Arguments Finished {A} a.
(** join.rs:32-51 JoinFuture::poll: [join_first p r] is polling f1, [join_second l q] is polling f2; a finished child is
    not polled (join.rs:66). *)
CoFixpoint join_first {A B} (p : prog A) (r : child B) : prog (A * B) :=
  match p with
  | Ret a => match r with
             | Running c q => Tau (join_second (Finished a) q)
             | Finished b => Ret (a, b)
             end
  | Tau p => Tau (join_first p r)
  | Vis o k => Vis o (fun b => join_first (k b) r)
  | Pend c p => match r with
                | Running _ q => Tau (join_second (Running c p) q)
                | Finished b => Pend c (join_first p (Finished b))
                end
  | Fail => Fail
  end
with join_second {A B} (l : child A) (q : prog B) : prog (A * B) :=
  match q with
  | Ret b => match l with
             | Running c p => Pend c (join_first p (Finished b))
             | Finished a => Ret (a, b)
             end
  | Tau q => Tau (join_second l q)
  | Vis o k => Vis o (fun b => join_second l (k b))
  | Pend c q => match l with
                | Running c' p => Pend (c' ++ c) (join_first p (Running c q))
                | Finished a => Pend c (join_second (Finished a) q)
                end
  | Fail => Fail
  end.
(** join.rs:10-18 *)
Definition join {A B} (p : prog A) (q : prog B) : prog (A * B) := join_first p (Running [] q).

(** ** Meaning *)
(** [sem o w b w']: in the world [w], operation [o] may return [b] and leave the world as [w']. *)
Context {W : Type}.
Variable sem : forall B : Type, Op B -> W -> B -> W -> Prop.

(** The result of one call of Future::poll. *)
Inductive polled (A : Type) : Type :=
| Ready (a : A)
| Pending (c : list (Op unit)) (p : prog A)
| Panicked.
Arguments Ready {A} a.
Arguments Pending {A} c p.
Arguments Panicked {A}.

(** One call of poll that ends after at most [n] steps. *)
Fixpoint poll_in (n : nat) {A} (p : prog A) (w : W) (r : polled A) (w' : W) : Prop :=
  match n with
  | O => False
  | S n =>
      match p with
      | Ret a => r = Ready a /\ w' = w
      | Tau p => poll_in n p w r w'
      | Vis o k => exists b w1, sem _ o w b w1 /\ poll_in n (k b) w1 r w'
      | Pend c p => r = Pending c p /\ w' = w
      | Fail => r = Panicked /\ w' = w
      end
  end.
Definition polls {A} (p : prog A) (w : W) (r : polled A) (w' : W) : Prop := exists n, poll_in n p w r w'.

(** Dropping a future suspended with destructors [c]. *)
Fixpoint drops (c : list (Op unit)) (w w' : W) : Prop :=
  match c with
  | [] => w' = w
  | o :: c => exists w1, sem _ o w tt w1 /\ drops c w1 w'
  end.

(** A single step of a task; a suspended task continues when it is polled again ([wake w w']: what may happen between
    two polls). *)
Variable between : W -> W -> Prop.
Definition mstep {A} (p : prog A) (w : W) (p' : prog A) (w' : W) : Prop :=
  match p with
  | Ret _ => False
  | Tau q => p' = q /\ w' = w
  | Vis o k => exists b, sem _ o w b w' /\ p' = k b
  | Pend c q => p' = q /\ between w w'
  | Fail => False
  end.
(** Everything a task can do, in any environment. *)
Inductive reach {A} (p : prog A) (w : W) : prog A -> W -> Prop :=
| reach_here : reach p w p w
| reach_step q v q' v' : reach p w q v -> mstep q v q' v' -> reach p w q' v'.
End Async.

Arguments Ret {Op A} a.
Arguments Tau {Op A} p.
Arguments Vis {Op A B} o k.
Arguments Pend {Op A} c p.
Arguments Fail {Op A}.
Arguments Running {Op A} c p.
Arguments Finished {Op A} a.
Arguments Ready {Op A} a.
Arguments Pending {Op A} c p.
Arguments Panicked {Op A}.
Notation "'do' x <- p ; k" := (bind p (fun x => k)) (at level 200, x pattern, right associativity).
Notation "p ;; k" := (bind p (fun _ => k)) (at level 199, right associativity).
