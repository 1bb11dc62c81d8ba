(* What is claimed of texts in flex data messages *)
From Coq Require Import ZArith List Bool.
From Verif Require Import Base Packet PacketSpec Sysex Endpoint Flex FlexSpec Lyrics.
Import ListNotations.
Local Open Scope Z_scope.

(* addressed to a channel of a group or to a group *)
Definition key_ok (k : flex_key) : Prop :=
  0 <= fk_group k < 16 /\ 0 <= fk_channel k < 16 /\ (fk_address k = 0 \/ fk_address k = 1 /\ fk_channel k = 0) /\
  1 <= fk_bank k <= 255 /\ is_u8 (fk_status k).

(* packets with a part of a text about [k], by their bytes *)
Definition spells (k : flex_key) (p : packet) : bool :=
  let b i := nth i (bytes p) 0 in
  (b 0%nat =? 13 * 16 + fk_group k) && (b 1%nat mod 64 =? 16 * fk_address k + fk_channel k) &&
  (b 2%nat =? fk_bank k) && (b 3%nat =? fk_status k).
Definition about_key (k : flex_key) (x : flex_key * list Z) : bool := flex_key_eqb k (fst x).
