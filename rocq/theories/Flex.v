(* Model of inc/midi/flex_data_message.h (abbreviated FD.h); conventions as in Endpoint.v.
   packet_address is channel = 0 or group = 1. *)
From Coq Require Import ZArith List Bool.
From Verif Require Import Base Packet Sysex Endpoint.
Import ListNotations.
Local Open Scope Z_scope.
Local Open Scope res_scope.

(* universal_packet.h:64 *)
Definition pa_channel : Z := 0.
Definition pa_group : Z := 1.

(* FD.h:133-136 *)
Definition flex_data_message0 (group : Z) : packet :=
  packet1 (Z.lor 0xD0000000 (Z.shiftl (Z.land group 0x0F) 24)).
(* FD.h:137-155 *)
Definition flex_data_message (dbg : bool) (group format address channel bank st d1 d2 d3 : Z) : res packet :=
  check dbg (channel <=? 15) ;;;
  check dbg ((address =? pa_channel) || (channel =? 0)) ;;;
  Ok (mkP
    (Z.lor (Z.lor (Z.lor (Z.lor 0xD0000000 (Z.shiftl (Z.land group 0x0F) 24))
      (u32 (Z.shiftl (Z.lor (Z.lor (Z.shiftl format 6) (Z.shiftl address 4)) (Z.land channel 0x0F)) 16)))
      (Z.shiftl bank 8)) st)
    d1 d2 d3).

(* FD.h:50-53 and, of the view, 73-81 *)
Definition flex_format (p : packet) : Z := Z.shiftr (Z.land (byte2 p) 0xC0) 6.
Definition flex_address (p : packet) : Z := Z.shiftr (Z.land (byte2 p) 0x30) 4.
Definition flex_channel (p : packet) : Z := Z.land (byte2 p) 0x0F.
Definition flex_status_bank (p : packet) : Z := byte3 p.
Definition flex_status (p : packet) : Z := byte4 p.
Definition flex_data1 (p : packet) : Z := w1 p.
Definition flex_data2 (p : packet) : Z := w2 p.
Definition flex_data3 (p : packet) : Z := w3 p.

(* FD.h:159-178; n is the number of remaining bytes *)
Fixpoint flex_payload_loop (p : packet) (b n : nat) : res (list Z) :=
  match n with
  | O => Ok []
  | S m =>
      c <- get_byte p b ;;
      if c =? 0 then Ok [] else r <- flex_payload_loop p (S b) m ;; Ok (c :: r)
  end.
Definition flex_payload_as_string (p : packet) : res (list Z) := flex_payload_loop p 4 12.

(* FD.h:182-185 *)
Definition is_flex_data_message (p : packet) : bool := type p =? pt_flex_data.
(* FD.h:67-71 and 189-195 *)
Definition flex_data_message_view (dbg : bool) (p : packet) : res packet :=
  check dbg (type p =? pt_flex_data) ;;; Ok p.
Definition as_flex_data_message_view (dbg : bool) (p : packet) : res (option packet) :=
  if is_flex_data_message p then v <- flex_data_message_view dbg p ;; Ok (Some v) else Ok None.

(* FD.h:199-210 *)
Definition make_flex_data_message (dbg : bool) (group format address channel bank st d1 d2 d3 : Z) : res packet :=
  flex_data_message dbg group format address channel bank st d1 d2 d3.
(* FD.h:214-235 *)
Definition make_flex_data_text_message (dbg : bool) (group format address channel bank st : Z) (text : list Z) : res packet :=
  check dbg (size text <=? 12) ;;;
  check dbg ((format =? pf_complete) || (format =? pf_end) || (size text =? 12)) ;;;
  r <- flex_data_message dbg group format address channel bank st 0 0 0 ;;
  put_chars set_byte r 4 text.
(* FD.h:239-243 *)
Definition make_set_tempo_message (dbg : bool) (group tempo : Z) : res packet :=
  make_flex_data_message dbg group pf_complete pa_group 0 0x00 0x00 tempo 0 0.
(* FD.h:245-255 *)
Definition make_set_time_signature_message (dbg : bool) (group numerator denominator notes : Z) : res packet :=
  r <- make_flex_data_message dbg group pf_complete pa_group 0 0x00 0x01 0 0 0 ;;
  r <- set_byte r 4 numerator ;;
  r <- set_byte r 5 denominator ;;
  set_byte r 6 notes.
(* FD.h:257-273 *)
Definition make_set_metronome_message (dbg : bool) (group clocks a1 a2 a3 s1 s2 : Z) : res packet :=
  r <- make_flex_data_message dbg group pf_complete pa_group 0 0x00 0x02 0 0 0 ;;
  r <- set_byte r 4 clocks ;;
  r <- set_byte r 5 a1 ;;
  r <- set_byte r 6 a2 ;;
  r <- set_byte r 7 a3 ;;
  r <- set_byte r 8 s1 ;;
  set_byte r 9 s2.
(* FD.h:275-281 *)
Definition make_set_key_signature_message (dbg : bool) (group address channel sharps tonic : Z) : res packet :=
  r <- make_flex_data_message dbg group pf_complete address channel 0x00 0x05 0 0 0 ;;
  set_byte r 4 (u8 (Z.lor (Z.shiftl sharps 4) (Z.land tonic 0x0F))).
(* FD.h:283-287 *)
Definition make_set_chord_message (dbg : bool) (group address channel d1 d2 d3 : Z) : res packet :=
  make_flex_data_message dbg group pf_complete address channel 0x00 0x06 d1 d2 d3.
