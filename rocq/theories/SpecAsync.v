(** SpecAsync.v -- what one poll of select, join and yield_now does, in terms of the polls of their children.
    Independent of how Async.v composes the programs. *)
From Coq Require Import List.
Import ListNotations.
From Verif Require Import Async.

Section Spec.
Context {Op : Type -> Type} {W : Type}.
Variable sem : forall B : Type, Op B -> W -> B -> W -> Prop.

(** One poll of select over the children [p] and [q], where [q] was last suspended with destructors [c], in the world
    [w], ends with [r] in the world [w']; [left] says what a child suspended this way leaves for the next poll:
    the children and the destructors of the second one. *)
Inductive select_poll {A B} (left : prog (Op := Op) A -> list (Op unit) -> prog (Op := Op) B -> prog (Op := Op) (A + B))
  (p : prog A) (c : list (Op unit)) (q : prog B) (w : W) : polled (Op := Op) (A + B) -> W -> Prop :=
| first_ready a w1 w' :            (* the second child is not polled but dropped *)
    polls sem p w (Ready a) w1 -> drops sem c w1 w' -> select_poll left p c q w (Ready (inl a)) w'
| first_panics w' :
    polls sem p w Panicked w' -> select_poll left p c q w Panicked w'
| second_ready c1 p1 w1 b w2 w' :  (* the first child was polled before, is pending, and is dropped *)
    polls sem p w (Pending c1 p1) w1 -> polls sem q w1 (Ready b) w2 -> drops sem c1 w2 w' ->
    select_poll left p c q w (Ready (inr b)) w'
| second_panics c1 p1 w1 w' :
    polls sem p w (Pending c1 p1) w1 -> polls sem q w1 Panicked w' -> select_poll left p c q w Panicked w'
| neither_ready c1 p1 w1 c2 q1 w' : (* both were polled once; the next poll continues both *)
    polls sem p w (Pending c1 p1) w1 -> polls sem q w1 (Pending c2 q1) w' ->
    select_poll left p c q w (Pending (c1 ++ c2) (left p1 c2 q1)) w'.

(** A child of join that was not finished before this poll is polled; a finished one is not. *)
Inductive child_poll {A} : child (Op := Op) A -> W -> child (Op := Op) A -> W -> Prop :=
| child_done a w : child_poll (Finished a) w (Finished a) w
| child_finishes c p a w w' : polls sem p w (Ready a) w' -> child_poll (Running c p) w (Finished a) w'
| child_waits c p c1 p1 w w' : polls sem p w (Pending c1 p1) w' -> child_poll (Running c p) w (Running c1 p1) w'.
Inductive child_panics {A} : child (Op := Op) A -> W -> W -> Prop :=
| child_panic c p w w' : polls sem p w Panicked w' -> child_panics (Running c p) w w'.
Definition child_drops {A} (l : child (Op := Op) A) : list (Op unit) :=
  match l with Running c _ => c | Finished _ => [] end.

(** One poll of join over children [l] and [r]: each unfinished child is polled once, first [l]; it is ready iff both
    are finished then, with both results. *)
Inductive join_poll {A B} (left : child (Op := Op) A -> child (Op := Op) B -> prog (Op := Op) (A * B))
  (l : child (Op := Op) A) (r : child (Op := Op) B) (w : W) : polled (Op := Op) (A * B) -> W -> Prop :=
| left_panics w' : child_panics l w w' -> join_poll left l r w Panicked w'
| right_panics l1 w1 w' : child_poll l w l1 w1 -> child_panics r w1 w' -> join_poll left l r w Panicked w'
| both_finished a b w1 w' :
    child_poll l w (Finished a) w1 -> child_poll r w1 (Finished b) w' -> join_poll left l r w (Ready (a, b)) w'
| not_yet l1 r1 w1 w' :
    child_poll l w l1 w1 -> child_poll r w1 r1 w' ->
    (forall a b, ~ (l1 = Finished a /\ r1 = Finished b)) ->
    join_poll left l r w (Pending (child_drops l1 ++ child_drops r1) (left l1 r1)) w'.
End Spec.
