(** SpecAddressing.v -- which addressing fields a MAC header carries, transcribed from
    the standard, and where they are. Independent of Addressing.v's functions. *)
From Verif Require Import Base Spec SpecFrame FrameControl Addressing.

Definition present (m : AddressingMode) : bool :=
  match m with AmShort | AmExtended => true | _ => false end.

(** IEEE 802.15.4-2006 7.2.1.1.5: with both addresses present, PAN ID compression
    elides the source PAN ID; with one address present its PAN ID is present and
    compression must be 0. (Headers with no address at all carry no addressing field
    and are handled by the ACK format.) *)
Definition legacy_presence (d s : AddressingMode) (comp dp sp : bool) : Prop :=
  (present d || present s = true) /\ (comp = true -> present d && present s = true) /\
  dp = present d /\ sp = (present s && negb (present d && comp)).

Inductive side := No | Any | Sh | Ex.   (* "not present" / "present" / "short" / "extended" *)
Definition matches_side (x : side) (m : AddressingMode) : Prop :=
  match x with No => m = AmAbsent | Any => present m = true | Sh => m = AmShort | Ex => m = AmExtended end.

(** IEEE 802.15.4-2020 table 7-2: destination address, source address, destination PAN ID,
    source PAN ID, PAN ID compression. *)
Definition table_7_2 : list (side * side * bool * bool * bool) :=
  [ (No,  No,  false, false, false);
    (No,  No,  true,  false, true);
    (Any, No,  true,  false, false);
    (Any, No,  false, false, true);
    (No,  Any, false, true,  false);
    (No,  Any, false, false, true);
    (Ex,  Ex,  true,  false, false);
    (Ex,  Ex,  false, false, true);
    (Sh,  Sh,  true,  true,  false);
    (Sh,  Ex,  true,  true,  false);
    (Ex,  Sh,  true,  true,  false);
    (Sh,  Ex,  true,  false, true);
    (Ex,  Sh,  true,  false, true);
    (Sh,  Sh,  true,  false, true) ].

Definition presence_2020 (d s : AddressingMode) (comp dp sp : bool) : Prop :=
  exists x y, In (x, y, dp, sp, comp) table_7_2 /\ matches_side x d /\ matches_side y s.

(** The header layout defined by the standard for (version, modes, compression). *)
Definition ieee_presence (v : FrameVersion) (d s : AddressingMode) (comp dp sp : bool) : Prop :=
  d <> AmUnknown /\ s <> AmUnknown /\
  match v with
  | V2003 | V2006 => legacy_presence d s comp dp sp
  | V2020 => presence_2020 d s comp dp sp
  | VUnknown => False
  end.

Definition pan_size (p : bool) : nat := if p then 2 else 0.
Definition addr_size (m : AddressingMode) : nat :=
  match m with AmShort => 2 | AmExtended => 8 | _ => 0 end.

(** Octets [off .. off+n-1] of [b]. *)
Definition window (b : list N) (off n : nat) : list N := firstn n (skipn off b).

(** A PAN ID at [off] (little-endian), if present. *)
Definition pan_at (p : bool) (b : list N) (off : nat) : option N :=
  if p then Some (nth off b 0 + 256 * nth (off + 1) b 0)%N else None.

(** The address of mode [m] at [off]; over the air the octets are in reverse order. *)
Definition addr_at (m : AddressingMode) (b : list N) (off : nat) : Address :=
  match m with
  | AmShort => AShort (rev (window b off 2))
  | AmExtended => AExtended (rev (window b off 8))
  | _ => AAbsent
  end.

(** The representation [r] has exactly the fields of the layout. *)
Definition repr_matches (r : AddressingFieldsRepr) (d s : AddressingMode) (dp sp : bool) : Prop :=
  (exists da sa, ar_dst_address r = Some da /\ ar_src_address r = Some sa /\
     mode_of_address da = d /\ mode_of_address sa = s /\ address_wf da /\ address_wf sa) /\
  (if dp then exists p, ar_dst_pan_id r = Some p /\ (p < 65536)%N else ar_dst_pan_id r = None) /\
  (if sp then exists p, ar_src_pan_id r = Some p /\ (p < 65536)%N else ar_src_pan_id r = None).

(** The standard's addressing layout for the frame control [r]: which PAN IDs are present. *)
Definition layout (r : FrameControlRepr) (dp sp : bool) : Prop :=
  ieee_presence (fr_frame_version r) (fr_dst_addressing_mode r) (fr_src_addressing_mode r)
    (fr_pan_id_compression r) dp sp.

(** Total size of the addressing fields of that layout. *)
Definition layout_size (r : FrameControlRepr) (dp sp : bool) : nat :=
  pan_size dp + addr_size (fr_dst_addressing_mode r) + pan_size sp + addr_size (fr_src_addressing_mode r).

(** Octets of a PAN ID / an address over the air. *)
Definition pan_octets (p : option N) : list N :=
  match p with Some v => [v mod 256; v / 256]%N | None => [] end.
Definition addr_octets (a : option Address) : list N :=
  match a with Some (AShort v) => rev v | Some (AExtended v) => rev v | _ => [] end.
Definition addressing_octets (r : AddressingFieldsRepr) : list N :=
  pan_octets (ar_dst_pan_id r) ++ addr_octets (ar_dst_address r) ++
  pan_octets (ar_src_pan_id r) ++ addr_octets (ar_src_address r).
