(* Model of the parts of inc/midi/data_message.h and inc/midi/extended_data_message.h that Messages.v
   leaves out, and of building a packet byte by byte. *)
From Coq Require Import ZArith List Bool.
From Verif Require Import Base Packet Messages.
Import ListNotations.
Local Open Scope Z_scope.
Local Open Scope res_scope.

(* data_message.h:103-110  data_message; the second constructor keeps whatever status it is given *)
Definition data_message0 : packet := packet1 0x30000000.
Definition data_message (st : Z) : packet := packet1 (Z.lor 0x30000000 (Z.shiftl st 16)).
(* data_message.h:160-163  the free function is_data_message *)
Definition is_data_packet (p : packet) : bool := type p =? 0x3.
(* extended_data_message.h:110-117 *)
Definition extended_data_message0 : packet := packet1 0x50000000.
Definition extended_data_message (st : Z) : packet := packet1 (Z.lor 0x50000000 (Z.shiftl st 16)).
(* extended_data_message.h:162-165 *)
Definition is_extended_data_packet (p : packet) : bool := type p =? 0x5.

(* data_message.h:103-106, 50  sysex7_packet() *)
Definition sysex7_packet_default : packet := packet1 0x30000000.
(* data_message.h:81  sysex7_packet_view::status *)
Definition sysex7_view_status (p : packet) : Z := Z.land (status p) 0xF0.
(* data_message.h:80 and extended_data_message.h:85  group *)
Definition data_view_group (p : packet) : Z := group p.
(* data_message.h:168-174; the view refers to the packet *)
Definition as_sysex7_packet_view (p : packet) : option packet := if is_sysex7_packet p then Some p else None.

(* extended_data_message.h:110-113, 121-124  sysex8_packet() *)
Definition sysex8_packet_default : packet := packet1 (Z.lor 0x50000000 0x00010000).
(* extended_data_message.h:130-133 *)
Definition sysex8_set_stream_id (p : packet) (i : Z) : res packet := set_byte p 2 i.
(* extended_data_message.h:147-150 *)
Definition sysex8_set_payload_byte (p : packet) (b : nat) (d : Z) : res packet := set_byte p (3 + b) d.
(* extended_data_message.h:200-206 *)
Definition as_sysex8_packet_view (p : packet) : option packet := if is_sysex8_packet p then Some p else None.

(* a user's loop: add_payload_byte for each byte *)
Fixpoint add_all (add : packet -> Z -> res packet) (p : packet) (l : list Z) : res packet :=
  match l with
  | [] => Ok p
  | b :: r => q <- add p b ;; add_all add q r
  end.
