(* Model of inc/midi/utility_message.h and of the messages in
   inc/midi/jitter_reduction_timestamps.h *)
From Coq Require Import ZArith List Bool.
From Verif Require Import Base Packet.
Import ListNotations.
Local Open Scope Z_scope.
Local Open Scope res_scope.

(* utility_message.h:75-78, 82-85 *)
Definition make_utility_message (status payload : Z) : packet :=
  packet1 (Z.lor (u32 (Z.shiftl status 16)) payload).

(* utility_message.h:53-66: the view asserts the type on construction *)
Definition utility_view (p : packet) : res packet :=
  assert_ (type p =? pt_utility) ;;; Ok p.
(* utility_message.h:62 *)
Definition utility_payload (p : packet) : Z := Z.lor (u16 (Z.shiftl (byte3 p) 8)) (byte4 p).

(* universal_packet.h:68-72 *)
Definition us_jr_clock : Z := 0x10.
Definition us_jr_timestamp : Z := 0x20.

(* jitter_reduction_timestamps.h:90-93 *)
Definition jr_get_timestamp (p : packet) : res Z :=
  a <- get_byte p 2 ;; b <- get_byte p 3 ;; Ok (Z.lor (u16 (Z.shiftl a 8)) b).

(* jitter_reduction_timestamps.h:94-98 *)
Definition jr_set_timestamp (p : packet) (ts : Z) : res packet :=
  q <- set_byte p 2 (u8 (Z.shiftr ts 8)) ;; set_byte q 3 (u8 (Z.land ts 0xFF)).

(* jitter_reduction_timestamps.h:101-110 *)
Definition jr_message (status ts : Z) : res packet :=
  p <- set_type packet0 pt_utility ;;
  p <- set_byte p 1 status ;;
  jr_set_timestamp p ts.

(* jitter_reduction_timestamps.h:115-136 *)
Definition jr_clock_message (ts : Z) : res packet := jr_message us_jr_clock ts.
Definition jr_timestamp_message (ts : Z) : res packet := jr_message us_jr_timestamp ts.
