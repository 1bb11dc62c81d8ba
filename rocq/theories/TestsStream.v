(* The unit tests of tests/midi1_byte_stream_tests.cpp, run on the model.  These are checks of the model against the
   results its authors expect of the code, not proofs. *)
From Coq Require Import ZArith List Bool.
From Verif Require Import Base Bits Packet Messages DataPackets Sysex ByteStream Types ChannelVoice.
Import ListNotations.
Local Open Scope Z_scope.
Local Open Scope res_scope.

Definition PK (p : res packet) : res event := q <- p ;; Ok (EPacket q).
Fixpoint all_ok {A} (l : list (res A)) : res (list A) :=
  match l with [] => Ok [] | a :: r => x <- a ;; y <- all_ok r ;; Ok (x :: y) end.
(* the calls the mock receives for all bytes, from a new parser with or without SysEx callback *)
Definition stream_events (cb : bool) (bs : list Z) : res (list event) :=
  r <- feed_all (new_parser 0 cb true) bs ;; Ok (snd r).

(* line 136 *)
Example parser_system_messages : stream_events true
    [0xF8; 0xF9; 0xF1; 0x09; 0xFA; 0xF2; 0x11; 0x44; 0xFB; 0xF3; 0x75; 0xFC; 0xF4; 0x02; 0xFD; 0xF5; 0x27; 0xFE; 0xF6; 0xFF; 0x33; 0xFA; 0xFE] =
    all_ok [PK (Ok (make_system_message 0 0xf8 0 0));
     PK (Ok (make_system_message 0 0xf1 0x09 0));
     PK (Ok (make_system_message 0 0xfa 0 0));
     PK (Ok (make_system_message 0 0xf2 0x11 0x44));
     PK (Ok (make_system_message 0 0xfb 0 0));
     PK (Ok (make_system_message 0 0xf3 0x75 0));
     PK (Ok (make_system_message 0 0xfc 0 0));
     PK (Ok (make_system_message 0 0xfe 0 0));
     PK (Ok (make_system_message 0 0xf6 0 0));
     PK (Ok (make_system_message 0 0xff 0 0));
     PK (Ok (make_system_message 0 0xfa 0 0));
     PK (Ok (make_system_message 0 0xfe 0 0))].
Proof. vm_compute. reflexivity. Qed.

(* line 200 *)
Example parser_channel_voice_messages : stream_events true
    [0x83; 0x45; 0x6E; 0x9E; 0x30; 0x7F; 0xAA; 0x44; 0x03; 0x77; 0xB0; 0x07; 0x70; 0xC5; 0x11; 0xDB; 0x14; 0xE5; 0x03; 0x72] =
    all_ok [PK (Ok (make_midi1_cv 0 0x80 3 0x45 0x6E));
     PK (Ok (make_midi1_cv 0 0x90 14 0x30 0x7F));
     PK (Ok (make_midi1_cv 0 0xa0 10 0x44 0x03));
     PK (Ok (make_midi1_cv 0 0xb0 0 0x07 0x70));
     PK (Ok (make_midi1_cv 0 0xc0 5 0x11 0));
     PK (Ok (make_midi1_cv 0 0xd0 11 0x14 0));
     PK (Ok (make_midi1_cv 0 0xe0 5 0x03 0x72))].
Proof. vm_compute. reflexivity. Qed.

(* line 259 *)
Example parser_running_status : stream_events true
    [0xA5; 0x44; 0x03; 0x44; 0x77; 0xB8; 0x07; 0x70; 0x72; 0x79; 0x7A; 0xC6; 0x11; 0x12; 0xD2; 0x14; 0x64; 0xE5; 0x03; 0x72; 0x08; 0x74] =
    all_ok [PK (Ok (make_midi1_cv 0 0xa0 5 0x44 0x03));
     PK (Ok (make_midi1_cv 0 0xa0 5 0x44 0x77));
     PK (Ok (make_midi1_cv 0 0xb0 8 0x07 0x70));
     PK (Ok (make_midi1_cv 0 0xb0 8 0x72 0x79));
     PK (Ok (make_midi1_cv 0 0xc0 6 0x11 0));
     PK (Ok (make_midi1_cv 0 0xc0 6 0x12 0));
     PK (Ok (make_midi1_cv 0 0xd0 2 0x14 0));
     PK (Ok (make_midi1_cv 0 0xd0 2 0x64 0));
     PK (Ok (make_midi1_cv 0 0xe0 5 0x03 0x72));
     PK (Ok (make_midi1_cv 0 0xe0 5 0x08 0x74))].
Proof. vm_compute. reflexivity. Qed.

(* line 321 *)
Example parser_system_common_cancels_running_status : stream_events true
    [0xC6; 0x11; 0x12; 0xD2; 0x14; 0x64; 0xF6; 0x00; 0xE5; 0x03; 0x72] =
    all_ok [PK (Ok (make_midi1_cv 0 0xc0 6 0x11 0));
     PK (Ok (make_midi1_cv 0 0xc0 6 0x12 0));
     PK (Ok (make_midi1_cv 0 0xd0 2 0x14 0));
     PK (Ok (make_midi1_cv 0 0xd0 2 0x64 0));
     PK (Ok (make_system_message 0 0xf6 0 0));
     PK (Ok (make_midi1_cv 0 0xe0 5 0x03 0x72))].
Proof. vm_compute. reflexivity. Qed.

(* line 378 *)
Example parser_system_realtime_intersperes_running_status : stream_events true
    [0xA5; 0x44; 0x03; 0x44; 0xFA; 0x77; 0xB8; 0x07; 0x70; 0xFB; 0x72; 0x79; 0x7A; 0xC6; 0x11; 0x12; 0xD2; 0xFE; 0x14; 0x64; 0xE5; 0x03; 0xFF; 0x72; 0x08; 0x74] =
    all_ok [PK (Ok (make_midi1_cv 0 0xa0 5 0x44 0x03));
     PK (Ok (make_system_message 0 0xfa 0 0));
     PK (Ok (make_midi1_cv 0 0xa0 5 0x44 0x77));
     PK (Ok (make_midi1_cv 0 0xb0 8 0x07 0x70));
     PK (Ok (make_system_message 0 0xfb 0 0));
     PK (Ok (make_midi1_cv 0 0xb0 8 0x72 0x79));
     PK (Ok (make_midi1_cv 0 0xc0 6 0x11 0));
     PK (Ok (make_midi1_cv 0 0xc0 6 0x12 0));
     PK (Ok (make_system_message 0 0xfe 0 0));
     PK (Ok (make_midi1_cv 0 0xd0 2 0x14 0));
     PK (Ok (make_midi1_cv 0 0xd0 2 0x64 0));
     PK (Ok (make_system_message 0 0xff 0 0));
     PK (Ok (make_midi1_cv 0 0xe0 5 0x03 0x72));
     PK (Ok (make_midi1_cv 0 0xe0 5 0x08 0x74))].
Proof. vm_compute. reflexivity. Qed.

(* line 445 *)
Example parser_sysex_callback : stream_events true
    [0xF0; 0x7D; 0x25; 0x50; 0x44; 0xF7; 0xF0; 0x00; 0x21; 0x09; 0x44; 0x03; 0x44; 0x77; 0x07; 0x70; 0x72; 0x79; 0xF7; 0xF0; 0x00; 0x02; 0x0B; 0x11; 0x12; 0x14; 0x64; 0x03; 0x72; 0x08; 0x74; 0x22; 0xF7] =
    all_ok [Ok (ESysex (mkSx 0x7D0000 [0x25; 0x50; 0x44]));
     Ok (ESysex (mkSx 0x002109 [0x44; 0x03; 0x44; 0x77; 0x07; 0x70; 0x72; 0x79]));
     Ok (ESysex (mkSx 0x00020B [0x11; 0x12; 0x14; 0x64; 0x03; 0x72; 0x08; 0x74; 0x22]))].
Proof. vm_compute. reflexivity. Qed.

(* line 499 *)
Example parser_sysex_packets : stream_events false
    [0xF0; 0x7D; 0x25; 0x50; 0x44; 0xF7; 0xF0; 0x00; 0x21; 0x09; 0x44; 0x03; 0x44; 0x77; 0x07; 0x70; 0x72; 0x79; 0xF7; 0xF0; 0x00; 0x02; 0x0B; 0x11; 0x12; 0x14; 0x64; 0x03; 0x72; 0x08; 0x74; 0x22; 0x37; 0x7D; 0x3A; 0xF7] =
    all_ok [PK (Ok (mkP 0x30047D25 0x50440000 0 0));
     PK (Ok (mkP 0x30160021 0x09440344 0 0));
     PK (Ok (mkP 0x30357707 0x70727900 0 0));
     PK (Ok (mkP 0x30160002 0x0B111214 0 0));
     PK (Ok (mkP 0x30266403 0x72087422 0 0));
     PK (Ok (mkP 0x3033377D 0x3A000000 0 0))].
Proof. vm_compute. reflexivity. Qed.

(* line 555 *)
Example parser_sysex_intersperse_system_realtime_callback : stream_events true
    [0xF0; 0x7D; 0xF8; 0x25; 0x50; 0x44; 0xF7; 0xF0; 0x00; 0xFA; 0x21; 0x09; 0x44; 0x03; 0xFB; 0x44; 0x77; 0x07; 0x70; 0x72; 0x79; 0xF7; 0xF0; 0x00; 0x02; 0x0B; 0xFC; 0x11; 0x12; 0x14; 0xFE; 0x64; 0x03; 0x72; 0x08; 0x74; 0x22; 0xF7; 0xFF] =
    all_ok [PK (Ok (make_system_message 0 0xf8 0 0));
     Ok (ESysex (mkSx 0x7D0000 [0x25; 0x50; 0x44]));
     PK (Ok (make_system_message 0 0xfa 0 0));
     PK (Ok (make_system_message 0 0xfb 0 0));
     Ok (ESysex (mkSx 0x002109 [0x44; 0x03; 0x44; 0x77; 0x07; 0x70; 0x72; 0x79]));
     PK (Ok (make_system_message 0 0xfc 0 0));
     PK (Ok (make_system_message 0 0xfe 0 0));
     Ok (ESysex (mkSx 0x00020B [0x11; 0x12; 0x14; 0x64; 0x03; 0x72; 0x08; 0x74; 0x22]));
     PK (Ok (make_system_message 0 0xff 0 0))].
Proof. vm_compute. reflexivity. Qed.

(* line 597 *)
Example parser_sysex_intersperse_system_realtime_packets : stream_events false
    [0xF0; 0x7D; 0xF8; 0x25; 0x50; 0x44; 0xF7; 0xF0; 0x00; 0xFA; 0x21; 0x09; 0x44; 0x03; 0xFB; 0x44; 0x77; 0x07; 0x70; 0x72; 0x79; 0xF7; 0xF0; 0x00; 0x02; 0x0B; 0xFC; 0x11; 0x12; 0x14; 0xFE; 0x64; 0x03; 0x72; 0x08; 0x74; 0x22; 0xF7; 0xFF] =
    all_ok [PK (Ok (make_system_message 0 0xf8 0 0));
     PK (Ok (mkP 0x30047D25 0x50440000 0 0));
     PK (Ok (make_system_message 0 0xfa 0 0));
     PK (Ok (make_system_message 0 0xfb 0 0));
     PK (Ok (mkP 0x30160021 0x09440344 0 0));
     PK (Ok (mkP 0x30357707 0x70727900 0 0));
     PK (Ok (make_system_message 0 0xfc 0 0));
     PK (Ok (mkP 0x30160002 0x0B111214 0 0));
     PK (Ok (make_system_message 0 0xfe 0 0));
     PK (Ok (mkP 0x30266403 0x72087422 0 0));
     PK (Ok (mkP 0x30300000 0x00000000 0 0));
     PK (Ok (make_system_message 0 0xff 0 0))].
Proof. vm_compute. reflexivity. Qed.

(* line 641 *)
Example parser_sysex_intersperse_other_callback : stream_events true
    [0xF0; 0x7D; 0x25; 0x50; 0xF2; 0x44; 0x11; 0xF7; 0xF0; 0x00; 0x21; 0x09; 0x44; 0x03; 0x44; 0x77; 0x9C; 0x07; 0x70; 0x72; 0x79; 0xF7; 0xF0; 0x00; 0x02; 0x0B; 0x11; 0x12; 0x14; 0x64; 0x03; 0x72; 0x08; 0x74; 0x22; 0xF7] =
    all_ok [PK (Ok (make_system_message 0 0xf2 0x44 0x11));
     PK (Ok (make_midi1_cv 0 0x90 12 0x07 0x70));
     PK (Ok (make_midi1_cv 0 0x90 12 0x72 0x79));
     Ok (ESysex (mkSx 0x00020B [0x11; 0x12; 0x14; 0x64; 0x03; 0x72; 0x08; 0x74; 0x22]))].
Proof. vm_compute. reflexivity. Qed.

(* line 672 *)
Example parser_sysex_intersperse_other_packets : stream_events false
    [0xF0; 0x7D; 0x25; 0x50; 0xF2; 0x44; 0x11; 0xF7; 0xF0; 0x00; 0x21; 0x09; 0x44; 0x03; 0x44; 0x77; 0x9C; 0x07; 0x70; 0x72; 0x79; 0xF7; 0xF0; 0x00; 0x02; 0x0B; 0x11; 0x12; 0x14; 0x64; 0x03; 0x72; 0x08; 0x74; 0x22; 0xF7] =
    all_ok [PK (Ok (make_system_message 0 0xf2 0x44 0x11));
     PK (Ok (mkP 0x30160021 0x09440344 0 0));
     PK (Ok (make_midi1_cv 0 0x90 12 0x07 0x70));
     PK (Ok (make_midi1_cv 0 0x90 12 0x72 0x79));
     PK (Ok (mkP 0x30160002 0x0B111214 0 0));
     PK (Ok (mkP 0x30266403 0x72087422 0 0));
     PK (Ok (mkP 0x30300000 0x00000000 0 0))].
Proof. vm_compute. reflexivity. Qed.

(* line 704 *)
Example parser_real_world_stream_callback : stream_events true
    [0xF0; 0x7D; 0xF8; 0x25; 0x50; 0x44; 0xF7; 0x84; 0x33; 0x74; 0x22; 0x56; 0xF0; 0x00; 0xFA; 0x21; 0x09; 0x44; 0x03; 0xFB; 0x44; 0x77; 0x07; 0x70; 0x72; 0x79; 0xF7; 0xF1; 0x6C; 0xF0; 0x00; 0x02; 0x0B; 0xFC; 0x11; 0x12; 0x14; 0xFE; 0x64; 0x03; 0x72; 0x08; 0x74; 0x22; 0xF7; 0xFF; 0xB4; 0x07; 0x10] =
    all_ok [PK (Ok (make_system_message 0 0xf8 0 0));
     Ok (ESysex (mkSx 0x7D0000 [0x25; 0x50; 0x44]));
     PK (Ok (make_midi1_cv 0 0x80 4 0x33 0x74));
     PK (Ok (make_midi1_cv 0 0x80 4 0x22 0x56));
     PK (Ok (make_system_message 0 0xfa 0 0));
     PK (Ok (make_system_message 0 0xfb 0 0));
     Ok (ESysex (mkSx 0x002109 [0x44; 0x03; 0x44; 0x77; 0x07; 0x70; 0x72; 0x79]));
     PK (Ok (make_system_message 0 0xf1 0x6C 0));
     PK (Ok (make_system_message 0 0xfc 0 0));
     PK (Ok (make_system_message 0 0xfe 0 0));
     Ok (ESysex (mkSx 0x00020B [0x11; 0x12; 0x14; 0x64; 0x03; 0x72; 0x08; 0x74; 0x22]));
     PK (Ok (make_system_message 0 0xff 0 0));
     PK (Ok (make_midi1_cv 0 0xb0 4 0x07 0x10))].
Proof. vm_compute. reflexivity. Qed.

(* line 756 *)
Example parser_real_world_stream_packets : stream_events false
    [0xF0; 0x7D; 0xF8; 0x25; 0x50; 0x44; 0xF7; 0x84; 0x33; 0x74; 0x22; 0x56; 0xF0; 0x00; 0xFA; 0x21; 0x09; 0x44; 0x03; 0xFB; 0x44; 0x77; 0x07; 0x70; 0x72; 0x79; 0xF7; 0xF1; 0x6C; 0xF0; 0x00; 0x02; 0x0B; 0xFC; 0x11; 0x12; 0x14; 0xFE; 0x64; 0x03; 0x72; 0x08; 0x74; 0x22; 0x33; 0xF7; 0xFF; 0xB4; 0x07; 0x10] =
    all_ok [PK (Ok (make_system_message 0 0xf8 0 0));
     PK (Ok (mkP 0x30047D25 0x50440000 0 0));
     PK (Ok (make_midi1_cv 0 0x80 4 0x33 0x74));
     PK (Ok (make_midi1_cv 0 0x80 4 0x22 0x56));
     PK (Ok (make_system_message 0 0xfa 0 0));
     PK (Ok (make_system_message 0 0xfb 0 0));
     PK (Ok (mkP 0x30160021 0x09440344 0 0));
     PK (Ok (mkP 0x30357707 0x70727900 0 0));
     PK (Ok (make_system_message 0 0xf1 0x6C 0));
     PK (Ok (make_system_message 0 0xfc 0 0));
     PK (Ok (mkP 0x30160002 0x0B111214 0 0));
     PK (Ok (make_system_message 0 0xfe 0 0));
     PK (Ok (mkP 0x30266403 0x72087422 0 0));
     PK (Ok (mkP 0x30313300 0x00000000 0 0));
     PK (Ok (make_system_message 0 0xff 0 0));
     PK (Ok (make_midi1_cv 0 0xb0 4 0x07 0x10))].
Proof. vm_compute. reflexivity. Qed.

(* line 805 *)
Example parser_invalid_sysex : stream_events true
    [0xF0; 0xF7; 0xF0; 0x00; 0xF7; 0xF0; 0x00; 0x11; 0xF7; 0xF0; 0x7D; 0xF7; 0xF0; 0x00; 0x21; 0x09; 0xF7] =
    all_ok [Ok (ESysex (mkSx 0x7D0000 []));
     Ok (ESysex (mkSx 0x002109 []))].
Proof. vm_compute. reflexivity. Qed.

(* line 849 *)
Example parser_no_sysex_callback : stream_events false
    [0x83; 0x45; 0x6E; 0xF0; 0x01; 0x02; 0xF7; 0x9E; 0x30; 0x7F; 0xF0; 0xF7] =
    all_ok [PK (Ok (make_midi1_cv 0 0x80 3 0x45 0x6E));
     PK (p <- make_sysex7_complete_packet 0 ;; add_all sysex7_add_payload_byte p [0x01; 0x02]);
     PK (Ok (make_midi1_cv 0 0x90 14 0x30 0x7F))].
Proof. vm_compute. reflexivity. Qed.


(* lines 65-83, 87-106 *)
Example parser_constructors_and_group :
  (r <- feed_all (new_parser 5 false true) [0x91; 0x39; 100] ;; Ok (map (fun e => match e with EPacket p => group p | ESysex _ => 99 end) (snd r))) = Ok [5] /\
  (r <- feed_all (parser_set_group (new_parser 0 false true) 9) [0xFA] ;; Ok (map (fun e => match e with EPacket p => group p | ESysex _ => 99 end) (snd r))) = Ok [9].
Proof. vm_compute. split; reflexivity. Qed.
(* line 110 *)
Example parser_enable_callbacks :
  (r <- parser_calls (new_parser 0 false true) [CFeed [0xF8]; CEnable false; CFeed [0xF9]; CEnable true; CFeed [0xFA]] ;; Ok (List.length (snd r))) = Ok 2%nat.
Proof. vm_compute. reflexivity. Qed.
(* line 832 *)
Example parser_reset_drops :
  (r <- parser_calls (new_parser 0 true true) [CFeed [0xF0; 0x00; 0x11]; CReset; CFeed [0x11; 0xF7]] ;; Ok (snd r)) = Ok [].
Proof. vm_compute. reflexivity. Qed.
(* line 883 *)
Example parser_large_sysex :
  let data := map (fun i => i mod 128) (zrange 1234 0) in
  stream_events true ([0xF0; 0x10] ++ data ++ [0xF7]) = Ok [ESysex (mkSx 0x100000 data)].
Proof. vm_compute. reflexivity. Qed.

(* line 918 *)
Example size_system_messages :
  map (fun c => (c, midi1_byte_stream_size (packet1 c)))
    [0x10012345; 0x13112345; 0x1A254621; 0x16312345; 0x17412345; 0x19512345; 0x1C654621; 0x12712345; 0x1D854621; 0x12912345; 0x14A54621; 0x1FB12345; 0x17C54621; 0x14D12345; 0x10E54621; 0x11F01234; 0x1CF14321; 0x16F21234; 0x19F34321; 0x1AF41234; 0x11F54321; 0x12F61234; 0x18F74321; 0x1EF81234; 0x13F94321; 0x14FA1234; 0x1BFB4321; 0x19FC1234; 0x18FD4321; 0x17FE1234; 0x1FFF4321] =
    [(0x10012345, 0%nat); (0x13112345, 0%nat); (0x1A254621, 0%nat); (0x16312345, 0%nat); (0x17412345, 0%nat); (0x19512345, 0%nat); (0x1C654621, 0%nat); (0x12712345, 0%nat); (0x1D854621, 0%nat); (0x12912345, 0%nat); (0x14A54621, 0%nat); (0x1FB12345, 0%nat); (0x17C54621, 0%nat); (0x14D12345, 0%nat); (0x10E54621, 0%nat); (0x11F01234, 0%nat); (0x1CF14321, 2%nat); (0x16F21234, 3%nat); (0x19F34321, 2%nat); (0x1AF41234, 0%nat); (0x11F54321, 0%nat); (0x12F61234, 1%nat); (0x18F74321, 0%nat); (0x1EF81234, 1%nat); (0x13F94321, 0%nat); (0x14FA1234, 1%nat); (0x1BFB4321, 1%nat); (0x19FC1234, 1%nat); (0x18FD4321, 0%nat); (0x17FE1234, 1%nat); (0x1FFF4321, 1%nat)].
Proof. vm_compute. reflexivity. Qed.

(* line 940 *)
Example size_channel_voice_messages :
  map (fun c => (c, midi1_byte_stream_size (packet1 c)))
    [0x20012345; 0x23112345; 0x2A254621; 0x26312345; 0x27412345; 0x29512345; 0x2C654621; 0x22712345; 0x2D854621; 0x22912345; 0x24A54621; 0x2FB12345; 0x27C54621; 0x24D12345; 0x2AE41234; 0x2FFF4321] =
    [(0x20012345, 0%nat); (0x23112345, 0%nat); (0x2A254621, 0%nat); (0x26312345, 0%nat); (0x27412345, 0%nat); (0x29512345, 0%nat); (0x2C654621, 0%nat); (0x22712345, 0%nat); (0x2D854621, 3%nat); (0x22912345, 3%nat); (0x24A54621, 3%nat); (0x2FB12345, 3%nat); (0x27C54621, 2%nat); (0x24D12345, 2%nat); (0x2AE41234, 3%nat); (0x2FFF4321, 0%nat)].
Proof. vm_compute. reflexivity. Qed.

(* line 961 *)
Example size_data_messages :
  map (fun c => (c, midi1_byte_stream_size (packet1 c)))
    [0x30002345; 0x33012345; 0x3A024621; 0x36032345; 0x37042345; 0x39052345; 0x3C064621; 0x32072345; 0x3D084621; 0x32092345; 0x340A4621; 0x3F0B2345; 0x370C4621; 0x340D2345; 0x3A0E1234; 0x3F0F4321; 0x30102345; 0x33112345; 0x3A124621; 0x36132345; 0x37142345; 0x39152345; 0x3C164621; 0x32172345; 0x3D184621; 0x32192345; 0x341A4621; 0x3F1B2345; 0x371C4621; 0x341D2345; 0x3A1E1234; 0x3F1F4321; 0x30202345; 0x33212345; 0x3A224621; 0x36232345; 0x37242345; 0x39252345; 0x3C264621; 0x32272345; 0x3D284621; 0x32292345; 0x342A4621; 0x3F2B2345; 0x372C4621; 0x342D2345; 0x3A2E1234; 0x3F2F4321; 0x30302345; 0x33312345; 0x3A324621; 0x36332345; 0x37342345; 0x39352345; 0x3C364621; 0x32372345; 0x3D384621; 0x32392345; 0x343A4621; 0x3F3B2345; 0x373C4621; 0x343D2345; 0x3A3E1234; 0x3F3F4321] =
    [(0x30002345, 0%nat); (0x33012345, 1%nat); (0x3A024621, 2%nat); (0x36032345, 3%nat); (0x37042345, 4%nat); (0x39052345, 5%nat); (0x3C064621, 6%nat); (0x32072345, 0%nat); (0x3D084621, 0%nat); (0x32092345, 0%nat); (0x340A4621, 0%nat); (0x3F0B2345, 0%nat); (0x370C4621, 0%nat); (0x340D2345, 0%nat); (0x3A0E1234, 0%nat); (0x3F0F4321, 0%nat); (0x30102345, 0%nat); (0x33112345, 1%nat); (0x3A124621, 2%nat); (0x36132345, 3%nat); (0x37142345, 4%nat); (0x39152345, 5%nat); (0x3C164621, 6%nat); (0x32172345, 0%nat); (0x3D184621, 0%nat); (0x32192345, 0%nat); (0x341A4621, 0%nat); (0x3F1B2345, 0%nat); (0x371C4621, 0%nat); (0x341D2345, 0%nat); (0x3A1E1234, 0%nat); (0x3F1F4321, 0%nat); (0x30202345, 0%nat); (0x33212345, 1%nat); (0x3A224621, 2%nat); (0x36232345, 3%nat); (0x37242345, 4%nat); (0x39252345, 5%nat); (0x3C264621, 6%nat); (0x32272345, 0%nat); (0x3D284621, 0%nat); (0x32292345, 0%nat); (0x342A4621, 0%nat); (0x3F2B2345, 0%nat); (0x372C4621, 0%nat); (0x342D2345, 0%nat); (0x3A2E1234, 0%nat); (0x3F2F4321, 0%nat); (0x30302345, 0%nat); (0x33312345, 1%nat); (0x3A324621, 2%nat); (0x36332345, 3%nat); (0x37342345, 4%nat); (0x39352345, 5%nat); (0x3C364621, 6%nat); (0x32372345, 0%nat); (0x3D384621, 0%nat); (0x32392345, 0%nat); (0x343A4621, 0%nat); (0x3F3B2345, 0%nat); (0x373C4621, 0%nat); (0x343D2345, 0%nat); (0x3A3E1234, 0%nat); (0x3F3F4321, 0%nat)].
Proof. vm_compute. reflexivity. Qed.

(* line 907 *)
Example size_utility_messages :
  forallb (fun d => (midi1_byte_stream_size (packet1 (Z.shiftl d 16)) =? 0)%nat) (zrange 256 0) = true.
Proof. vm_compute. reflexivity. Qed.

Example size_data_messages_reserved :
  forallb (fun d => (midi1_byte_stream_size (packet1 (Z.shiftl d 16)) =? 0)%nat) (zrange 192 0x3040) = true.
Proof. vm_compute. reflexivity. Qed.

(* line 1018 *)
Example from_system_messages :
  map (fun v => from_midi1_byte_stream (Z.land v 0xFF) (Z.land (Z.shiftr v 8) 0xFF) (Z.land (Z.shiftr v 16) 0xFF))
    [0x6876F0; 0x1234F1; 0x4321F2; 0x2B3DF3; 0x7C6AF4; 0x7117F5; 0x4231F6; 0x6759F7; 0x6C7BF8; 0x2748F9; 0x1728FA; 0x2817FB; 0x1425FC; 0x5C4DFD; 0x141DFE; 0x105EFF] =
    map packet1 [0; 0x10F13412; 0x10F22143; 0x10F33D2B; 0; 0; 0x10F63142; 0; 0x10F87B6C; 0; 0x10FA2817; 0x10FB1728; 0x10FC2514; 0; 0x10FE1D14; 0x10FF5E10].
Proof. vm_compute. reflexivity. Qed.

(* line 1052 *)
Example from_channel_voice_messages :
  map (fun v => from_midi1_byte_stream (Z.land v 0xFF) (Z.land (Z.shiftr v 8) 0xFF) (Z.land (Z.shiftr v 16) 0xFF))
    [0x687683; 0x12349E; 0x4321A4; 0x2B3DB9; 0x7C6ACC; 0x7117D5; 0x4231E2] =
    map packet1 [0x20837668; 0x209E3412; 0x20A42143; 0x20B93D2B; 0x20CC6A7C; 0x20D51771; 0x20E23142].
Proof. vm_compute. reflexivity. Qed.

(* line 1074 *)
Example from_invalid_data :
  map (fun v => from_midi1_byte_stream v 0 0) (zrange 128 0) = repeat (packet1 0) 128.
Proof. vm_compute. reflexivity. Qed.

(* line 1088 *)
Example to_midi1_byte_stream_system :
  map to_midi1_byte_stream [
    make_system_message 0 0xF0 0 0;
    make_system_message 0 0xF4 0 0;
    make_system_message 0 0xF5 0 0;
    make_system_message 0 0xF7 0 0;
    make_system_message 0 0xF9 0 0;
    make_system_message 0 0xFD 0 0;
    make_system_message 0 0xf1 0x35 0;
    make_system_message 0 0xf2 0x37 0x6A;
    make_system_message 0 0xf3 0x36 0;
    make_system_message 0 0xf6 0 0;
    make_system_message 0 0xf8 0 0;
    make_system_message 0 0xfa 0 0;
    make_system_message 0 0xfb 0 0;
    make_system_message 0 0xfc 0 0;
    make_system_message 0 0xfe 0 0;
    make_system_message 0 0xff 0 0] =
    [Ok []; Ok []; Ok []; Ok []; Ok []; Ok []; Ok [0xF1; 0x35]; Ok [0xF2; 0x37; 0x6A]; Ok [0xF3; 0x36]; Ok [0xF6]; Ok [0xF8]; Ok [0xFA]; Ok [0xFB]; Ok [0xFC]; Ok [0xFE]; Ok [0xFF]].
Proof. vm_compute. reflexivity. Qed.

(* line 1263 *)
Example to_midi1_byte_stream_data :
  map (fun w => to_midi1_byte_stream (mkP w 0x03040506 0 0))
    [0x34200102; 0x34050102; 0x34060102; 0x34000102; 0x34110102; 0x34160102; 0x34100102; 0x34240102; 0x34260102; 0x34330102; 0x34360102; 0x34300102] =
    [Ok []; Ok [0xF0; 1; 2; 3; 4; 5; 0xF7]; Ok [0xF0; 1; 2; 3; 4; 5; 6; 0xF7]; Ok [0xF0; 0xF7]; Ok [0xF0; 1]; Ok [0xF0; 1; 2; 3; 4; 5; 6]; Ok [0xF0]; Ok [1; 2; 3; 4]; Ok [1; 2; 3; 4; 5; 6]; Ok [1; 2; 3; 0xF7]; Ok [1; 2; 3; 4; 5; 6; 0xF7]; Ok [0xF7]].
Proof. vm_compute. reflexivity. Qed.

Example to_midi1_byte_stream_data_invalid : forallb (fun s => match to_midi1_byte_stream (packet1 (0x39000102 + Z.shiftl s 16)) with Ok [] => true | _ => false end)
  (zrange (Z.to_nat (0x10 - 0x07)) 0x07 ++ zrange (Z.to_nat (0x20 - 0x17)) 0x17 ++ zrange (Z.to_nat (0x30 - 0x27)) 0x27 ++ zrange (Z.to_nat (0xFF - 0x37)) 0x37) = true.
Proof. vm_compute. reflexivity. Qed.
(* line 1190 *)
Example to_midi1_byte_stream_channel_voice :
  map to_midi1_byte_stream (map (fun s => make_midi1_cv 0 s 1 2 0) [0x00; 0x10; 0x20; 0x30; 0x40; 0x50; 0x60; 0x70]) = repeat (Ok []) 8 /\
  map to_midi1_byte_stream (map (fun s => make_midi1_cv 0 s 1 2 0) (zrange 15 0xF0)) = repeat (Ok []) 15 /\
  map to_midi1_byte_stream [
    make_midi1_note_off 0 10 110 (velocity_of_uint7 100); make_midi1_note_on 0 8 88 (velocity_of_uint7 37);
    make_midi1_poly_pressure 7 0xA 18 (controller_of_uint7 73); make_midi1_program_change 4 5 6;
    make_midi1_channel_pressure 0xE 0xC (controller_of_uint7 0xA); make_midi1_pitch_bend 4 6 0x80000000] =
    [Ok [0x8A; 110; 100]; Ok [0x98; 88; 37]; Ok [0xAA; 18; 73]; Ok [0xC5; 6]; Ok [0xDC; 0x0A]; Ok [0xE6; 0x00; 0x40]].
Proof. vm_compute. repeat split. Qed.
