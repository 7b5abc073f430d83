(** Build.v -- model of dot15d4/build.rs: the generated file with the user configurable constants, and of the constants
    of dot15d4/src/csma/constants.rs its values refer to. Texts are strings of octets. *)
From Coq Require Import String Ascii ZArith List Permutation.
From Verif Require Import Base Csma.
Import ListNotations.
Open Scope string_scope.

(** build.rs:8-30: name, type, default value *)
Definition configs : list (string * (string * string)) :=
  [("MAC_MIN_BE", ("u16", "0"));
   ("MAC_MAX_BE", ("u16", "8"));
   ("MAC_MAX_CSMA_BACKOFFS", ("u16", "16"));
   ("MAC_UNIT_BACKOFF_DURATION", ("Duration", "Duration::from_us((UNIT_BACKOFF_PERIOD * SYMBOL_RATE_INV_US) as i64)"));
   ("MAC_MAX_FRAME_RETIES", ("u16", "3"));
   ("CSMA_INTER_FRAME_TIME", ("Duration", "Duration::from_us(1000)"));
   ("MAC_AIFS_PERIOD", ("Duration", "Duration::from_us(1000)"));
   ("MAC_SIFS_PERIOD", ("Duration", "Duration::from_us(1000)"));
   ("MAC_LIFS_PERIOD", ("Duration", "Duration::from_us(10_000)"));
   ("MAC_PAN_ID", ("u16", "0xffff"));
   ("MAC_IMPLICIT_BROADCAST", ("bool", "false"))].

(** A line of the generated file: [use X;] or [pub const N: T = V;]. *)
Inductive line := Use (path : string) | Const (name ty value : string).

(** An environment variable, as std::env::vars() yields it; it panics on one that is not Unicode. *)
Inductive variable := Var (name value : string) | NotUnicode.

(** str::strip_prefix *)
Fixpoint strip_prefix (p s : string) : option string :=
  match p, s with
  | EmptyString, _ => Some s
  | String a p, String b s => if Ascii.eqb a b then strip_prefix p s else None
  | String _ _, EmptyString => None
  end.

(** HashMap::remove_entry *)
Fixpoint remove_entry (name : string) (m : list (string * (string * string))) : option ((string * string) * list (string * (string * string))) :=
  match m with
  | [] => None
  | (k, v) :: m =>
      if String.eqb k name then Some (v, m)
      else match remove_entry name m with Some (w, m) => Some (w, (k, v) :: m) | None => None end
  end.

(** build.rs:49-59: the lines written for the variables that are set, and the configurations that remain *)
Fixpoint collect (env : list variable) (m : list (string * (string * string))) : outcome (list line * list (string * (string * string))) :=
  match env with
  | [] => Done ([], m)
  | NotUnicode :: _ => Panic
  | Var var value :: env =>
      match strip_prefix "DOT15D4_" var with
      | None => collect env m
      | Some name =>
          match remove_entry name m with
          | None => Panic
          | Some ((ty, _), m) =>
              match collect env m with Done (data, m) => Done (Const name ty value :: data, m) | Panic => Panic end
          end
      end
  end.

(** build.rs:39-46, 62-64. The remaining configurations are written in the order [o] a HashMap iterates in: any. *)
Inductive builds (env : list variable) : outcome (list line) -> Prop :=
| builds_panic : collect env configs = Panic -> builds env Panic
| builds_done data m o : collect env configs = Done (data, m) -> Permutation m o ->
    builds env (Done (Use "crate::time::Duration" :: Use "crate::csma::{SYMBOL_RATE_INV_US, UNIT_BACKOFF_PERIOD}" :: data ++
      map (fun c => Const (fst c) (fst (snd c)) (snd (snd c))) o)).
