(** SpecBuild.v -- the documented configuration variables. *)
From Coq Require Import String Ascii List ZArith.
Import ListNotations.
Open Scope string_scope.

(** README.md:33-39 *)
Definition documented : list string :=
  ["DOT15D4_MAC_MIN_BE"; "DOT15D4_MAC_MAX_BE"; "DOT15D4_MAC_UNIT_BACKOFF_DURATION"; "DOT15D4_MAC_MAX_FRAME_RETRIES";
   "DOT15D4_MAC_AIFS_PERIOD"; "DOT15D4_MAC_SIFS_PERIOD"; "DOT15D4_MAC_LIFS_PERIOD"].
(** The constants the crate uses (csma/mod.rs, csma/transmission.rs), their types, and their values in the unit tests
    (user_configurable_constants.rs:14-29), as text. *)
Definition used : list (string * (string * string)) :=
  [("MAC_MIN_BE", ("u16", "0")); ("MAC_MAX_BE", ("u16", "8")); ("MAC_MAX_CSMA_BACKOFFS", ("u16", "16"));
   ("MAC_UNIT_BACKOFF_DURATION", ("Duration", "Duration::from_us((UNIT_BACKOFF_PERIOD * SYMBOL_RATE_INV_US) as i64)"));
   ("MAC_MAX_FRAME_RETIES", ("u16", "3"));
   ("MAC_AIFS_PERIOD", ("Duration", "Duration::from_us(1000)"));
   ("MAC_SIFS_PERIOD", ("Duration", "Duration::from_us(1000)"));
   ("MAC_LIFS_PERIOD", ("Duration", "Duration::from_us(10_000)"));
   ("MAC_PAN_ID", ("u16", "0xffff")); ("MAC_IMPLICIT_BROADCAST", ("bool", "false"))].
(** All that can be configured: the above, and one constant the crate does not use. *)
Definition configurable : list string := map fst used ++ ["CSMA_INTER_FRAME_TIME"].

(** What the values mean: a u16 literal, true or false, or a Duration made from an i64 literal or from the constants of
    csma/constants.rs. Other texts are not interpreted. *)
Definition digit (c : Ascii.ascii) : option Z :=
  let n := Z.of_nat (Ascii.nat_of_ascii c) in
  if ((48 <=? n) && (n <=? 57))%Z%bool then Some (n - 48)%Z
  else if ((97 <=? n) && (n <=? 102))%Z%bool then Some (n - 87)%Z
  else if ((65 <=? n) && (n <=? 70))%Z%bool then Some (n - 55)%Z else None.
Fixpoint digits (base acc : Z) (s : string) : option Z :=
  match s with
  | EmptyString => Some acc
  | String "_"%char s => digits base acc s
  | String c s => match digit c with Some d => if (d <? base)%Z then digits base (base * acc + d)%Z s else None | None => None end
  end.
Definition literal (s : string) : option Z :=
  match s with
  | EmptyString => None
  | String "0"%char (String "x"%char s) => match s with EmptyString => None | _ => digits 16 0 s end
  | String c _ => match digit c with Some _ => digits 10 0 s | None => None end
  end.
Definition below (limit : Z) (o : option Z) : option Z := match o with Some n => if (n <? limit)%Z then Some n else None | None => None end.
(** TURNAROUND_TIME + CCA_TIME symbols of 1_000_000 / 62_500 us *)
Definition unit_backoff : Z := ((12 + 8) * (1000000 / 62500))%Z.
Definition u16_value (s : string) : option Z := below (2 ^ 16)%Z (literal s).
Definition bool_value (s : string) : option bool := if String.eqb s "true" then Some true else if String.eqb s "false" then Some false else None.
Definition duration_value (s : string) : option Z :=
  if String.eqb s "Duration::from_us((UNIT_BACKOFF_PERIOD * SYMBOL_RATE_INV_US) as i64)" then Some unit_backoff
  else if String.prefix "Duration::from_us(" s then
    let rest := substring 18 (String.length s - 19) s in
    if String.eqb s ("Duration::from_us(" ++ rest ++ ")") then below (2 ^ 63)%Z (literal rest) else None
  else None.
