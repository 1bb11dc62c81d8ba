(* Model of the basic packet constructors and views:
   inc/midi/system_message.h, inc/midi/midi1_channel_voice_message.h,
   inc/midi/data_message.h, inc/midi/extended_data_message.h *)
From Coq Require Import ZArith List Bool.
From Verif Require Import Base Packet.
Import ListNotations.
Local Open Scope Z_scope.
Local Open Scope res_scope.

(* ---- system_message.h ------------------------------------------------------ *)

(* system_message.h:90-93, 126-129  system_message(group, status, data1, data2).
   The int operands of | are converted to uint32_t. *)
Definition make_system_message (group status d1 d2 : Z) : packet :=
  packet1 (Z.lor (Z.lor (Z.lor (Z.lor 0x10000000
     (Z.shiftl (Z.land group 0x0F) 24)) (Z.shiftl status 16)) (Z.shiftl d1 8)) d2).

(* system_message.h:131-137; the static_casts to uint7_t (uint8_t) keep 7 bit values *)
Definition make_song_position_message (group position : Z) : packet :=
  make_system_message group 0xF2
    (u8 (Z.land position 0x7F)) (u8 (Z.land (Z.shiftr position 7) 0x7F)).

(* system_message.h:64-65 *)
Definition system_data_byte_1 (p : packet) : Z := Z.land (byte3 p) 0x7F.
Definition system_data_byte_2 (p : packet) : Z := Z.land (byte4 p) 0x7F.
(* system_message.h:104-112 *)
Definition get_song_position (p : packet) : Z :=
  if status p =? 0xF2
  then Z.lor (system_data_byte_1 p) (Z.shiftl (system_data_byte_2 p) 7)
  else 0.
(* system_message.h:116-122 *)
Definition as_system_message_view (p : packet) : option packet :=
  if type p =? pt_system then Some p else None.

(* ---- midi1_channel_voice_message.h: constructor ---------------------------- *)

(* midi1_channel_voice_message.h:102-108 *)
Definition midi1_cv (group status d1 d2 : Z) : packet :=
  packet1 (Z.lor (Z.lor (Z.lor (Z.lor 0x20000000
     (Z.shiftl (Z.land group 0x0F) 24)) (Z.shiftl status 16)) (Z.shiftl d1 8)) d2).

(* ---- data_message.h -------------------------------------------------------- *)

(* data_message.h:107-118  data_message(status), sysex7_packet(status, group) *)
Definition sysex7_packet (st g : Z) : res packet :=
  set_group (packet1 (Z.lor 0x30000000 (Z.shiftl st 16))) g.

(* data_message.h:141-156 *)
Definition make_sysex7_complete_packet (g : Z) : res packet := sysex7_packet 0x00 g.
Definition make_sysex7_start_packet (g : Z) : res packet := sysex7_packet 0x10 g.
Definition make_sysex7_continue_packet (g : Z) : res packet := sysex7_packet 0x20 g.
Definition make_sysex7_end_packet (g : Z) : res packet := sysex7_packet 0x30 g.

(* data_message.h:54, 82  sysex7_packet::format, sysex7_packet_view::format *)
Definition sysex7_format (p : packet) : Z := Z.land (Z.shiftr (status p) 4) 3.
(* data_message.h:59, 83 *)
Definition sysex7_payload_size (p : packet) : nat := Z.to_nat (Z.land (status p) 0x0F).
(* data_message.h:56, 84 *)
Definition sysex7_payload_byte (p : packet) (b : nat) : res Z := get_byte p (2 + b).
(* data_message.h:120-123 *)
Definition sysex7_set_payload_byte (p : packet) (b : nat) (d : Z) : res packet :=
  set_byte_7bit p (2 + b) d.

(* data_message.h:125-129; the sum is converted to uint8_t by the parameter of set_byte *)
Definition sysex7_set_payload_size (p : packet) (size : nat) : res packet :=
  assert_ (size <=? 6)%nat ;;;
  set_byte p 1 (u8 (Z.land (status p) 0xF0 + Z.land (Z.of_nat size) 0x0F)).

(* data_message.h:131-137 *)
Definition sysex7_add_payload_byte (p : packet) (byte : Z) : res packet :=
  let size := sysex7_payload_size p in
  assert_ (size <? 6)%nat ;;;
  q <- set_byte_7bit p (2 + size) byte ;;
  sysex7_set_payload_size q (size + 1).

(* data_message.h:160-167 *)
Definition is_sysex7_packet (p : packet) : bool :=
  (type p =? pt_data) && (Z.land (status p) 0xF0 <=? 0x30) && (Z.land (status p) 0x0F <=? 6).

(* ---- extended_data_message.h ----------------------------------------------- *)

(* extended_data_message.h:125-128; group is used unmasked (group_t is uint8_t) *)
Definition sysex8_packet (st stream g : Z) : packet :=
  packet1 (u32 (Z.lor (Z.lor (Z.lor 0x50010000 (Z.shiftl g 24)) (Z.shiftl st 16)) (Z.shiftl stream 8))).

(* extended_data_message.h:175-190 *)
Definition make_sysex8_complete_packet (stream g : Z) : packet := sysex8_packet 0x00 stream g.
Definition make_sysex8_start_packet (stream g : Z) : packet := sysex8_packet 0x10 stream g.
Definition make_sysex8_continue_packet (stream g : Z) : packet := sysex8_packet 0x20 stream g.
Definition make_sysex8_end_packet (stream g : Z) : packet := sysex8_packet 0x30 stream g.

(* extended_data_message.h:56, 86 *)
Definition sysex8_format (p : packet) : Z := Z.land (Z.shiftr (status p) 4) 3.
(* extended_data_message.h:58, 87 *)
Definition sysex8_stream_id (p : packet) : res Z := get_byte p 2.
(* extended_data_message.h:135-139, 194-198 *)
Definition sysex8_payload_size (p : packet) : nat :=
  let s := Z.land (status p) 0x0F in
  if 0 <? s then Z.to_nat (s - 1) else 0%nat.
(* extended_data_message.h:61, 89 *)
Definition sysex8_payload_byte (p : packet) (b : nat) : res Z := get_byte p (3 + b).

(* extended_data_message.h:141-145 *)
Definition sysex8_set_payload_size (p : packet) (size : nat) : res packet :=
  assert_ (size <=? 13)%nat ;;;
  set_byte p 1 (u8 (Z.land (status p) 0xF0 + Z.land (Z.of_nat (size + 1)) 0x0F)).

(* extended_data_message.h:152-158 *)
Definition sysex8_add_payload_byte (p : packet) (byte : Z) : res packet :=
  let size := sysex8_payload_size p in
  assert_ (size <? 13)%nat ;;;
  q <- set_byte p (3 + size) byte ;;
  sysex8_set_payload_size q (size + 1).

(* extended_data_message.h:167-171 *)
Definition is_sysex8_packet (p : packet) : bool :=
  (type p =? pt_extended_data) && (Z.land (status p) 0xF0 <=? 0x30) &&
  (0 <? Z.land (status p) 0x0F) && (Z.land (status p) 0x0F <=? 14).
