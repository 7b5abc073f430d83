(** SpecDisplay.v -- what a shown number is. *)
From Coq Require Import String.
From Verif Require Import Base SpecAddressText Display.

(** [numeral base s v]: the text [s] is the number [v] written in base [base] with lower-case digits and without leading
    zeros *)
Inductive numeral (base : N) : list N -> N -> Prop :=
| num_one c d : low_digit c d -> (d < base)%N -> numeral base [c] d
| num_snoc s v c d : numeral base s v -> (0 < v)%N -> low_digit c d -> (d < base)%N -> numeral base (s ++ [c]) (base * v + d).

(** the text [t] shows [h] hundredths of a millisecond, with a minus sign if [neg] *)
Definition shows_ms (t : list N) (neg : bool) (h : N) : Prop := exists i c1 c2 u d1 d2,
  t = (if neg then txt "-" else []) ++ i ++ txt "." ++ [c1; c2] ++ txt "ms" /\
  numeral 10 i u /\ low_digit c1 d1 /\ low_digit c2 d2 /\ (d1 < 10)%N /\ (d2 < 10)%N /\ h = (100 * u + 10 * d1 + d2)%N.

(** [t] shows the time [us] in milliseconds, to the nearest hundredth *)
Definition shows_time (us : Z) (t : list N) : Prop := exists h, shows_ms t (us <? 0)%Z h /\ (Z.abs (10 * Z.of_N h - Z.abs us) <= 5)%Z.

(** the set link options, in this order, with bars between them *)
Inductive barred : list (list N) -> list N -> Prop :=
| bar_nil : barred [] []
| bar_one p : barred [p] p
| bar_more p q r t : barred (q :: r) t -> barred (p :: q :: r) (p ++ txt " | " ++ t).
Definition flags_of (o : N) : list (list N) :=
  (if N.testbit o 0 then [txt "Tx"] else []) ++ (if N.testbit o 1 then [txt "Rx"] else []) ++ (if N.testbit o 2 then [txt "Shared"] else []) ++
  (if N.testbit o 3 then [txt "TimeKeeping"] else []) ++ (if N.testbit o 4 then [txt "Priority"] else []).

(** "[1, a, ff]": the octets of a slice, in base [base] *)
Inductive shown_list (base : N) : list N -> list N -> Prop :=
| sl_one s v : numeral base s v -> shown_list base s [v]
| sl_more s v r vs : numeral base s v -> shown_list base r vs -> shown_list base (s ++ txt ", " ++ r) (v :: vs).
Definition shown_slice (base : N) (t : list N) (v : list N) : Prop :=
  (v = [] /\ t = txt "[]") \/ exists s, t = txt "[" ++ s ++ txt "]" /\ shown_list base s v.

(** labelled lines *)
Definition lines (l : list (string * list N)) : list N := concat (map (fun p => txt (fst p) ++ snd p ++ [10%N]) l).
(** a line only if there is something to show *)
Definition line_if {A} (label : string) (o : option A) (shown : A -> list N -> Prop) (l : list (string * list N)) : Prop :=
  match o with None => l = [] | Some x => exists t, l = [(label, t)] /\ shown x t end.

(** the names of the ids (IEEE 802.15.4-2020, tables 7-7, 7-15, 7-16, 7-17, in the spelling of the crate) *)
Local Open Scope string_scope.
Definition header_table : list (N * string) :=
  [(0, "VendorSpecificHeader"); (26, "Csl"); (27, "Rit"); (28, "DsmePanDescriptor"); (29, "RendezvousTime"); (30, "TimeCorrection");
   (33, "ExtendedDsmePanDescriptor"); (34, "FragmentSequenceContextDescription"); (35, "SimplifiedSuperframeSpecification");
   (36, "SimplifiedGtsSpecification"); (37, "LecimCapabilities"); (38, "TrleDescriptor"); (39, "RccCapabilities"); (40, "RccnDescriptor");
   (41, "GlobalTime"); (43, "Da"); (126, "HeaderTermination1"); (127, "HeaderTermination2")]%N.
Definition payload_table : list (N * string) := [(0, "Esdu"); (1, "Mlme"); (2, "VendorSpecific"); (15, "PayloadTermination")]%N.
Definition nested_long_table : list (N * string) := [(8, "VendorSpecificNested"); (9, "ChannelHopping")]%N.
Definition nested_short_table : list (N * string) :=
  [(26, "TschSynchronization"); (27, "TschSlotframeAndLink"); (28, "TschTimeslot"); (29, "HoppingTiming"); (30, "EnhancedBeaconFilter"); (31, "MacMetrics");
   (32, "AllMacMetrics"); (33, "CoexistenceSpecification"); (34, "SunDeviceCapabilities"); (35, "SunFskGenericPhy"); (36, "ModeSwitchParameter");
   (37, "PhyParameterChange"); (38, "OQpskPhyMode"); (39, "PcaAllocation"); (40, "LecimDsssOperatingMode"); (41, "LecimFskOperatingMode");
   (43, "TvwsPhyOperatingMode"); (44, "TvwsDeviceCapabilities"); (45, "TvwsDeviceCategory"); (46, "TvwsDeviceIdentification"); (47, "TvwsDeviceLocation");
   (48, "TvwsChannelInformationQuery"); (49, "TvwsChannelInformationSource"); (50, "Ctm"); (51, "Timestamp"); (52, "TimestampDifference");
   (53, "TmctpSpecification"); (54, "RccPhyOperatingMode"); (55, "LinkMargin"); (56, "RsGfskDeviceCapabilities"); (57, "MultiPhy");
   (64, "VendorSpecific"); (70, "Srm")]%N.
