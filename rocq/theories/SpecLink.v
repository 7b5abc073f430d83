(** SpecLink.v -- vocabulary for two running CSMA devices, A and B, within earshot of each other only (C87): what was sent, what
    was heard, and a medium that loses frames but neither invents, alters nor reorders them. Uses of the model only the types of
    events and configurations. *)
From Coq Require Import List NArith.
Import ListNotations.
From Verif Require Import Base Spec SpecFrame FrameControl SpecFrames PhyConfig Csma SpecCsma CsmaTasks CsmaWorld SpecTasks SpecExchange.

(** ** One device *)
(** The buffers whose transmission was completed, in order: each is the one prepared last by the task that transmits.
    [tx], [rx]: what the transmit and the receive task have prepared last. *)
Fixpoint aired_from (tx rx : option (list N)) (h : list event) : list (list N) :=
  match h with
  | [] => []
  | PrepareTx Tx _ b _ :: h => aired_from (Some b) rx h
  | PrepareTx Rx _ b _ :: h => aired_from tx (Some b) h
  | Transmit t (Some true) :: h =>
      match (match t with Tx => tx | Rx => rx end) with
      | Some b => b :: aired_from tx rx h
      | None => aired_from tx rx h
      end
  | _ :: h => aired_from tx rx h
  end.
Definition aired (h : list event) : list (list N) := aired_from None None h.
(** The buffers received without error, by either task, in order. *)
Fixpoint heard (h : list event) : list (list N) :=
  match h with
  | [] => []
  | Receive _ (Some (true, buf)) :: h => buf :: heard h
  | _ :: h => heard h
  end.
(** The buffer holds a frame with sequence number [s]. *)
Definition numbered (dv : Device) (s : N) (buf : list N) : Prop :=
  exists o b r, holds dv buf o b /\ acceptable b r /\ sequence_number r b = Some s.
(** The upper layer is told that a frame was given up. *)
Definition gave_up (e : event) : bool := match e with Report CcaFailed | Report AckFailed => true | _ => false end.
Definition takes (e : event) : bool := match e with NextFrame (Some _) => true | _ => false end.

(** ** Two devices *)
(** The same frame, in the formats of two devices. *)
Definition carried (from to : Device) (b buf : list N) : Prop := exists o w o', holds from b o w /\ holds to buf o' w.
(** [got] are some of [sent], in order; [R]: being a copy. *)
Inductive copies {A B} (R : A -> B -> Prop) : list A -> list B -> Prop :=
| copies_nil : copies R [] []
| copies_got a b sent got : R a b -> copies R sent got -> copies R (a :: sent) (b :: got)
| copies_lost a sent got : copies R sent got -> copies R (a :: sent) got.
(** Events of the two devices in the order in which they happen. *)
Inductive side := SideA | SideB.
Definition side_eqb (x y : side) : bool := match x, y with SideA, SideA | SideB, SideB => true | _, _ => false end.
Definition of_side (x : side) (l : list (side * event)) : list event := map snd (filter (fun e => side_eqb x (fst e)) l).
(** At any time, what a device has heard is what the other one has sent so far, up to losses. *)
Definition medium (dvA dvB : Device) (l : list (side * event)) : Prop := forall l1 l2, l = l1 ++ l2 ->
  copies (carried dvA dvB) (aired (of_side SideA l1)) (heard (of_side SideB l1)) /\
  copies (carried dvB dvA) (aired (of_side SideB l1)) (heard (of_side SideA l1)).

(** Two devices have run, with any upper layers and schedules, and this is what happened. *)
Record link (SA SB : Setup) (l : list (side * event)) : Prop := {
  link_a : setup_ok SA /\ steady (s_device SA) /\ shows_written (s_device SA);
  link_b : setup_ok SB /\ steady (s_device SB) /\ shows_written (s_device SB);
  link_runs_a : exists p w, reachable SA p w /\ w_hist w = of_side SideA l;
  link_runs_b : exists p w, reachable SB p w /\ w_hist w = of_side SideB l;
  link_medium : medium (s_device SA) (s_device SB) l }.
