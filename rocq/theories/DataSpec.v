(* SysEx data packets as byte sequences (UMP specification 7.7 and 7.8). *)
From Coq Require Import ZArith List Bool.
From Verif Require Import Base Packet PacketSpec Messages.
Import ListNotations.
Local Open Scope Z_scope.

(* byte i of a packet *)
Definition at_ (p : packet) (i : nat) : Z := nth i (bytes p) 0.

(* type 3; byte 1 is format (0 to 3) and number of bytes (0 to 6); the payload starts at byte 2 *)
Definition sysex7_like (p : packet) : Prop := at_ p 0 / 16 = 3 /\ at_ p 1 / 16 <= 3 /\ at_ p 1 mod 16 <= 6.
Definition count7 (p : packet) : nat := Z.to_nat (at_ p 1 mod 16).
Definition payload7 (p : packet) : list Z := firstn (count7 p) (skipn 2 (bytes p)).

(* type 5; the number of bytes (1 to 14) includes the stream id, which is byte 2; the payload starts at byte 3 *)
Definition sysex8_like (p : packet) : Prop := at_ p 0 / 16 = 5 /\ at_ p 1 / 16 <= 3 /\ 1 <= at_ p 1 mod 16 <= 14.
Definition count8 (p : packet) : nat := Z.to_nat (at_ p 1 mod 16 - 1).
Definition payload8 (p : packet) : list Z := firstn (count8 p) (skipn 3 (bytes p)).

(* p and q are equal except for the bytes listed *)
Definition same_but (l : list nat) (p q : packet) : Prop :=
  forall i, (i < 16)%nat -> ~ In i l -> at_ q i = at_ p i.

(* the functions that make an empty packet, and the format they stand for *)
Definition sysex7_makers : list (Z * (Z -> res packet)) :=
  [(0, make_sysex7_complete_packet); (1, make_sysex7_start_packet); (2, make_sysex7_continue_packet); (3, make_sysex7_end_packet)].
Definition sysex8_makers : list (Z * (Z -> Z -> packet)) :=
  [(0, make_sysex8_complete_packet); (1, make_sysex8_start_packet); (2, make_sysex8_continue_packet); (3, make_sysex8_end_packet)].
