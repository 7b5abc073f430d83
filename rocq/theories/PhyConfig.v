(** Model of the radio configuration (dot15d4/src/phy/config.rs) *)
From Coq Require Import ZArith NArith.
From Verif Require Import Base.

(** phy/config.rs 4-37: enum Channel *)
Inductive Channel := Ch11 | Ch12 | Ch13 | Ch14 | Ch15 | Ch16 | Ch17 | Ch18 | Ch19 | Ch20 | Ch21 | Ch22 | Ch23 | Ch24 | Ch25 | Ch26.
(** phy/config.rs 39-64: TryFrom<i32> *)
Definition channel_try_from (v : Z) : result Channel :=
  match v with
  | 11 => Ok Ch11 | 12 => Ok Ch12 | 13 => Ok Ch13 | 14 => Ok Ch14 | 15 => Ok Ch15 | 16 => Ok Ch16 | 17 => Ok Ch17 | 18 => Ok Ch18
  | 19 => Ok Ch19 | 20 => Ok Ch20 | 21 => Ok Ch21 | 22 => Ok Ch22 | 23 => Ok Ch23 | 24 => Ok Ch24 | 25 => Ok Ch25 | 26 => Ok Ch26
  | _ => Err
  end%Z.
(** phy/config.rs 66-87: From<Channel> for u8 *)
Definition channel_u8 (c : Channel) : N :=
  match c with
  | Ch11 => 11 | Ch12 => 12 | Ch13 => 13 | Ch14 => 14 | Ch15 => 15 | Ch16 => 16 | Ch17 => 17 | Ch18 => 18
  | Ch19 => 19 | Ch20 => 20 | Ch21 => 21 | Ch22 => 22 | Ch23 => 23 | Ch24 => 24 | Ch25 => 25 | Ch26 => 26
  end%N.
(** phy/config.rs 89-93: Default *)
Definition channel_default : Channel := Ch26.
(** phy/config.rs 95-99: RxConfig, 101-114: TxConfig *)
Record RxConfig := mkRx { rx_channel : Channel }.
Record TxConfig := mkTx { tx_channel : Channel; tx_cca : bool }.
Definition tx_default : TxConfig := mkTx channel_default false.
Definition tx_default_with_cca : TxConfig := mkTx (tx_channel tx_default) true.
