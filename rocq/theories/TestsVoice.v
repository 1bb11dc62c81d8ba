(* The unit tests of tests/channel_voice_message_tests.cpp, tests/midi1_channel_voice_message_tests.cpp, tests/midi2_channel_voice_message_tests.cpp, run on the model with assertions.
   These are checks of the model against the results its authors expect of the code, not proofs. *)
From Coq Require Import ZArith List Bool.
From Verif Require Import Base Bits Packet Messages Sysex Types Floats TestsTypes ChannelVoice Utility Flex Endpoint DataPackets TestsBase TestsPacketBase.
Import ListNotations.
Local Open Scope Z_scope.
Local Open Scope res_scope.

(* ==== tests/channel_voice_message_tests.cpp ==== *)


(* line 42 *)
Example test_is_channel_voice_message_with_status : all_true [
    (over (map (fun k => 0 + 16 * k) (zrange 16 0)) (fun m1 => [
      (over (zrange 16 0) (fun t2 => [
      (Ok (Bool.eqb (andb (orb (Z.eqb t2 2) (Z.eqb t2 4)) (Z.eqb 0 m1)) (is_channel_voice_message_with_status (mkP (u32 (Z.lor (Z.lor (Z.lor (Z.shiftl t2 28) 0) t2) 0)) 0 0 0) (u8 m1))));
      (Ok (Bool.eqb (andb (orb (Z.eqb t2 2) (Z.eqb t2 4)) (Z.eqb 16 m1)) (is_channel_voice_message_with_status (mkP (u32 (Z.lor (Z.lor (Z.lor (Z.shiftl t2 28) 1048576) t2) 1)) 0 0 0) (u8 m1))));
      (Ok (Bool.eqb (andb (orb (Z.eqb t2 2) (Z.eqb t2 4)) (Z.eqb 32 m1)) (is_channel_voice_message_with_status (mkP (u32 (Z.lor (Z.lor (Z.lor (Z.shiftl t2 28) 2097152) t2) 2)) 0 0 0) (u8 m1))));
      (Ok (Bool.eqb (andb (orb (Z.eqb t2 2) (Z.eqb t2 4)) (Z.eqb 48 m1)) (is_channel_voice_message_with_status (mkP (u32 (Z.lor (Z.lor (Z.lor (Z.shiftl t2 28) 3145728) t2) 3)) 0 0 0) (u8 m1))));
      (Ok (Bool.eqb (andb (orb (Z.eqb t2 2) (Z.eqb t2 4)) (Z.eqb 64 m1)) (is_channel_voice_message_with_status (mkP (u32 (Z.lor (Z.lor (Z.lor (Z.shiftl t2 28) 4194304) t2) 4)) 0 0 0) (u8 m1))));
      (Ok (Bool.eqb (andb (orb (Z.eqb t2 2) (Z.eqb t2 4)) (Z.eqb 80 m1)) (is_channel_voice_message_with_status (mkP (u32 (Z.lor (Z.lor (Z.lor (Z.shiftl t2 28) 5242880) t2) 5)) 0 0 0) (u8 m1))));
      (Ok (Bool.eqb (andb (orb (Z.eqb t2 2) (Z.eqb t2 4)) (Z.eqb 96 m1)) (is_channel_voice_message_with_status (mkP (u32 (Z.lor (Z.lor (Z.lor (Z.shiftl t2 28) 6291456) t2) 6)) 0 0 0) (u8 m1))));
      (Ok (Bool.eqb (andb (orb (Z.eqb t2 2) (Z.eqb t2 4)) (Z.eqb 112 m1)) (is_channel_voice_message_with_status (mkP (u32 (Z.lor (Z.lor (Z.lor (Z.shiftl t2 28) 7340032) t2) 7)) 0 0 0) (u8 m1))));
      (Ok (Bool.eqb (andb (orb (Z.eqb t2 2) (Z.eqb t2 4)) (Z.eqb 128 m1)) (is_channel_voice_message_with_status (mkP (u32 (Z.lor (Z.lor (Z.lor (Z.shiftl t2 28) 8388608) t2) 8)) 0 0 0) (u8 m1))));
      (Ok (Bool.eqb (andb (orb (Z.eqb t2 2) (Z.eqb t2 4)) (Z.eqb 144 m1)) (is_channel_voice_message_with_status (mkP (u32 (Z.lor (Z.lor (Z.lor (Z.shiftl t2 28) 9437184) t2) 9)) 0 0 0) (u8 m1))));
      (Ok (Bool.eqb (andb (orb (Z.eqb t2 2) (Z.eqb t2 4)) (Z.eqb 160 m1)) (is_channel_voice_message_with_status (mkP (u32 (Z.lor (Z.lor (Z.lor (Z.shiftl t2 28) 10485760) t2) 10)) 0 0 0) (u8 m1))));
      (Ok (Bool.eqb (andb (orb (Z.eqb t2 2) (Z.eqb t2 4)) (Z.eqb 176 m1)) (is_channel_voice_message_with_status (mkP (u32 (Z.lor (Z.lor (Z.lor (Z.shiftl t2 28) 11534336) t2) 11)) 0 0 0) (u8 m1))));
      (Ok (Bool.eqb (andb (orb (Z.eqb t2 2) (Z.eqb t2 4)) (Z.eqb 192 m1)) (is_channel_voice_message_with_status (mkP (u32 (Z.lor (Z.lor (Z.lor (Z.shiftl t2 28) 12582912) t2) 12)) 0 0 0) (u8 m1))));
      (Ok (Bool.eqb (andb (orb (Z.eqb t2 2) (Z.eqb t2 4)) (Z.eqb 208 m1)) (is_channel_voice_message_with_status (mkP (u32 (Z.lor (Z.lor (Z.lor (Z.shiftl t2 28) 13631488) t2) 13)) 0 0 0) (u8 m1))));
      (Ok (Bool.eqb (andb (orb (Z.eqb t2 2) (Z.eqb t2 4)) (Z.eqb 224 m1)) (is_channel_voice_message_with_status (mkP (u32 (Z.lor (Z.lor (Z.lor (Z.shiftl t2 28) 14680064) t2) 14)) 0 0 0) (u8 m1))));
      (Ok (Bool.eqb (andb (orb (Z.eqb t2 2) (Z.eqb t2 4)) (Z.eqb 240 m1)) (is_channel_voice_message_with_status (mkP (u32 (Z.lor (Z.lor (Z.lor (Z.shiftl t2 28) 15728640) t2) 15)) 0 0 0) (u8 m1))))]))]))].
Proof. vm_compute. repeat constructor. Qed.

(* line 63 *)
Example test_is_note_on_message : all_true [
    (b_ <- (Ok (is_note_on_message (make_midi1_note_off 0 2 67 32768))) ;; Ok (negb b_));
    (Ok (is_note_on_message (make_midi1_note_on 4 7 99 (velocity_of_uint7 100))));
    (b_ <- (Ok (is_note_on_message (make_midi1_note_on 13 5 60 (velocity_of_uint7 0)))) ;; Ok (negb b_));
    (b_ <- (Ok (is_note_on_message (make_midi1_poly_pressure 14 2 64 (controller_of_uint7 77)))) ;; Ok (negb b_));
    (b_ <- (Ok (is_note_on_message (make_midi1_control_change 5 15 7 (controller_of_uint7 100)))) ;; Ok (negb b_));
    (b_ <- (Ok (is_note_on_message (make_midi1_program_change 14 7 42))) ;; Ok (negb b_));
    (b_ <- (Ok (is_note_on_message (make_midi1_channel_pressure 8 8 (controller_of_uint7 77)))) ;; Ok (negb b_));
    (b_ <- (x4 <- (x3 <- (pitch_bend_of_uint14 8177) ;; Ok (make_midi1_pitch_bend 1 13 x3)) ;; Ok (is_note_on_message x4)) ;; Ok (negb b_));
    (b_ <- (Ok (is_note_on_message (make_registered_per_note_controller 15 10 44 2 123456))) ;; Ok (negb b_));
    (b_ <- (Ok (is_note_on_message (make_assignable_per_note_controller 3 7 64 99 987654))) ;; Ok (negb b_));
    (b_ <- (Ok (is_note_on_message (make_registered_controller 2 9 0 4 123456))) ;; Ok (negb b_));
    (b_ <- (Ok (is_note_on_message (make_assignable_controller 8 0 4 12 987654))) ;; Ok (negb b_));
    (b_ <- (Ok (is_note_on_message (make_relative_registered_controller 2 9 0 4 (-1234)))) ;; Ok (negb b_));
    (b_ <- (Ok (is_note_on_message (make_relative_assignable_controller 8 0 4 12 111))) ;; Ok (negb b_));
    (b_ <- (Ok (is_note_on_message (make_per_note_pitch_bend 11 12 13 2147483649))) ;; Ok (negb b_));
    (b_ <- (Ok (is_note_on_message (make_midi2_cv 1 112 2 3 4 2880154539))) ;; Ok (negb b_));
    (b_ <- (Ok (is_note_on_message (make_midi2_note_off 0 2 67 4660 0 0))) ;; Ok (negb b_));
    (Ok (is_note_on_message (make_midi2_note_on 4 7 99 17767)));
    (Ok (is_note_on_message (make_midi2_note_on 13 5 60 0)));
    (Ok (is_note_on_message (make_midi2_note_on_pitch 9 10 127 40960 (pitch_7_9_of_note 60))));
    (b_ <- (Ok (is_note_on_message (make_midi2_poly_pressure 14 2 64 1737075661))) ;; Ok (negb b_));
    (b_ <- (Ok (is_note_on_message (make_midi2_control_change 5 15 7 2309737967))) ;; Ok (negb b_));
    (b_ <- (Ok (is_note_on_message (make_midi2_program_change_bank 14 7 0 42))) ;; Ok (negb b_));
    (b_ <- (Ok (is_note_on_message (make_midi2_channel_pressure 8 8 2882400001))) ;; Ok (negb b_));
    (b_ <- (Ok (is_note_on_message (make_midi2_pitch_bend 1 13 2415919103))) ;; Ok (negb b_));
    (over (zrange 256 0) (fun i5 => [
      (b_ <- (Ok (is_note_on_message (make_utility_message (u8 i5) (u16 (u32 (Z.mul (u8 i5) (u8 i5))))))) ;; Ok (negb b_));
      (b_ <- (Ok (is_note_on_message (make_system_message (u8 (Z.land (u8 i5) 15)) (u8 i5) (u8 (u32 (Z.mul (u8 i5) (u8 i5)))) 0))) ;; Ok (negb b_));
      (b_ <- (Ok (is_note_on_message (make_packet 3 (u8 (Z.land (u8 i5) 15)) (u8 i5) (u32 (Z.mul (u8 i5) (u8 i5)))))) ;; Ok (negb b_));
      (b_ <- (Ok (is_note_on_message (make_packet 5 (u8 (Z.land (u8 i5) 15)) (u8 i5) (u32 (Z.mul (u8 i5) (u8 i5)))))) ;; Ok (negb b_));
      (b_ <- (Ok (is_note_on_message (make_packet 6 (u8 (Z.land (u8 i5) 15)) (u8 i5) (u32 (Z.mul (u8 i5) (u8 i5)))))) ;; Ok (negb b_));
      (b_ <- (Ok (is_note_on_message (make_packet 7 (u8 (Z.land (u8 i5) 15)) (u8 i5) (u32 (Z.mul (u8 i5) (u8 i5)))))) ;; Ok (negb b_));
      (b_ <- (Ok (is_note_on_message (make_packet 8 (u8 (Z.land (u8 i5) 15)) (u8 i5) (u32 (Z.mul (u8 i5) (u8 i5)))))) ;; Ok (negb b_));
      (b_ <- (Ok (is_note_on_message (make_packet 9 (u8 (Z.land (u8 i5) 15)) (u8 i5) (u32 (Z.mul (u8 i5) (u8 i5)))))) ;; Ok (negb b_));
      (b_ <- (Ok (is_note_on_message (make_packet 10 (u8 (Z.land (u8 i5) 15)) (u8 i5) (u32 (Z.mul (u8 i5) (u8 i5)))))) ;; Ok (negb b_));
      (b_ <- (Ok (is_note_on_message (make_packet 11 (u8 (Z.land (u8 i5) 15)) (u8 i5) (u32 (Z.mul (u8 i5) (u8 i5)))))) ;; Ok (negb b_));
      (b_ <- (Ok (is_note_on_message (make_packet 12 (u8 (Z.land (u8 i5) 15)) (u8 i5) (u32 (Z.mul (u8 i5) (u8 i5)))))) ;; Ok (negb b_));
      (b_ <- (Ok (is_note_on_message (make_packet 13 (u8 (Z.land (u8 i5) 15)) (u8 i5) (u32 (Z.mul (u8 i5) (u8 i5)))))) ;; Ok (negb b_));
      (b_ <- (Ok (is_note_on_message (make_packet 14 (u8 (Z.land (u8 i5) 15)) (u8 i5) (u32 (Z.mul (u8 i5) (u8 i5)))))) ;; Ok (negb b_));
      (b_ <- (Ok (is_note_on_message (make_packet 15 (u8 (Z.land (u8 i5) 15)) (u8 i5) (u32 (Z.mul (u8 i5) (u8 i5)))))) ;; Ok (negb b_))]))].
Proof. vm_compute. repeat constructor. Qed.

(* line 137 *)
Example test_is_note_off_message : all_true [
    (Ok (is_note_off_message (make_midi1_note_off 0 2 67 32768)));
    (b_ <- (Ok (is_note_off_message (make_midi1_note_on 4 7 99 (velocity_of_uint7 100)))) ;; Ok (negb b_));
    (Ok (is_note_off_message (make_midi1_note_on 13 5 60 (velocity_of_uint7 0))));
    (b_ <- (Ok (is_note_off_message (make_midi1_poly_pressure 14 2 64 (controller_of_uint7 77)))) ;; Ok (negb b_));
    (b_ <- (Ok (is_note_off_message (make_midi1_control_change 5 15 7 (controller_of_uint7 100)))) ;; Ok (negb b_));
    (b_ <- (Ok (is_note_off_message (make_midi1_program_change 14 7 42))) ;; Ok (negb b_));
    (b_ <- (Ok (is_note_off_message (make_midi1_channel_pressure 8 8 (controller_of_uint7 77)))) ;; Ok (negb b_));
    (b_ <- (x7 <- (x6 <- (pitch_bend_of_uint14 8177) ;; Ok (make_midi1_pitch_bend 1 13 x6)) ;; Ok (is_note_off_message x7)) ;; Ok (negb b_));
    (b_ <- (Ok (is_note_off_message (make_registered_per_note_controller 15 10 44 2 123456))) ;; Ok (negb b_));
    (b_ <- (Ok (is_note_off_message (make_assignable_per_note_controller 3 7 64 99 987654))) ;; Ok (negb b_));
    (b_ <- (Ok (is_note_off_message (make_registered_controller 2 9 0 4 123456))) ;; Ok (negb b_));
    (b_ <- (Ok (is_note_off_message (make_assignable_controller 8 0 4 12 987654))) ;; Ok (negb b_));
    (b_ <- (Ok (is_note_off_message (make_relative_registered_controller 2 9 0 4 (-1234)))) ;; Ok (negb b_));
    (b_ <- (Ok (is_note_off_message (make_relative_assignable_controller 8 0 4 12 111))) ;; Ok (negb b_));
    (b_ <- (Ok (is_note_off_message (make_per_note_pitch_bend 11 12 13 2147483649))) ;; Ok (negb b_));
    (b_ <- (Ok (is_note_off_message (make_midi2_cv 1 112 2 3 4 2880154539))) ;; Ok (negb b_));
    (Ok (is_note_off_message (make_midi2_note_off 0 2 67 4660 0 0)));
    (b_ <- (Ok (is_note_off_message (make_midi2_note_on 4 7 99 17767))) ;; Ok (negb b_));
    (b_ <- (Ok (is_note_off_message (make_midi2_note_on 13 5 60 0))) ;; Ok (negb b_));
    (b_ <- (Ok (is_note_off_message (make_midi2_note_on_pitch 9 10 127 40960 (pitch_7_9_of_note 60)))) ;; Ok (negb b_));
    (b_ <- (Ok (is_note_off_message (make_midi2_poly_pressure 14 2 64 1737075661))) ;; Ok (negb b_));
    (b_ <- (Ok (is_note_off_message (make_midi2_control_change 5 15 7 2309737967))) ;; Ok (negb b_));
    (b_ <- (Ok (is_note_off_message (make_midi2_program_change_bank 14 7 0 42))) ;; Ok (negb b_));
    (b_ <- (Ok (is_note_off_message (make_midi2_channel_pressure 8 8 2882400001))) ;; Ok (negb b_));
    (b_ <- (Ok (is_note_off_message (make_midi2_pitch_bend 1 13 2415919103))) ;; Ok (negb b_));
    (over (zrange 256 0) (fun i8 => [
      (b_ <- (Ok (is_note_off_message (make_utility_message (u8 i8) (u16 (u32 (Z.mul (u8 i8) (u8 i8))))))) ;; Ok (negb b_));
      (b_ <- (Ok (is_note_off_message (make_system_message (u8 (Z.land (u8 i8) 15)) (u8 i8) (u8 (u32 (Z.mul (u8 i8) (u8 i8)))) 0))) ;; Ok (negb b_));
      (b_ <- (Ok (is_note_off_message (make_packet 3 (u8 (Z.land (u8 i8) 15)) (u8 i8) (u32 (Z.mul (u8 i8) (u8 i8)))))) ;; Ok (negb b_));
      (b_ <- (Ok (is_note_off_message (make_packet 5 (u8 (Z.land (u8 i8) 15)) (u8 i8) (u32 (Z.mul (u8 i8) (u8 i8)))))) ;; Ok (negb b_));
      (b_ <- (Ok (is_note_off_message (make_packet 6 (u8 (Z.land (u8 i8) 15)) (u8 i8) (u32 (Z.mul (u8 i8) (u8 i8)))))) ;; Ok (negb b_));
      (b_ <- (Ok (is_note_off_message (make_packet 7 (u8 (Z.land (u8 i8) 15)) (u8 i8) (u32 (Z.mul (u8 i8) (u8 i8)))))) ;; Ok (negb b_));
      (b_ <- (Ok (is_note_off_message (make_packet 8 (u8 (Z.land (u8 i8) 15)) (u8 i8) (u32 (Z.mul (u8 i8) (u8 i8)))))) ;; Ok (negb b_));
      (b_ <- (Ok (is_note_off_message (make_packet 9 (u8 (Z.land (u8 i8) 15)) (u8 i8) (u32 (Z.mul (u8 i8) (u8 i8)))))) ;; Ok (negb b_));
      (b_ <- (Ok (is_note_off_message (make_packet 10 (u8 (Z.land (u8 i8) 15)) (u8 i8) (u32 (Z.mul (u8 i8) (u8 i8)))))) ;; Ok (negb b_));
      (b_ <- (Ok (is_note_off_message (make_packet 11 (u8 (Z.land (u8 i8) 15)) (u8 i8) (u32 (Z.mul (u8 i8) (u8 i8)))))) ;; Ok (negb b_));
      (b_ <- (Ok (is_note_off_message (make_packet 12 (u8 (Z.land (u8 i8) 15)) (u8 i8) (u32 (Z.mul (u8 i8) (u8 i8)))))) ;; Ok (negb b_));
      (b_ <- (Ok (is_note_off_message (make_packet 13 (u8 (Z.land (u8 i8) 15)) (u8 i8) (u32 (Z.mul (u8 i8) (u8 i8)))))) ;; Ok (negb b_));
      (b_ <- (Ok (is_note_off_message (make_packet 14 (u8 (Z.land (u8 i8) 15)) (u8 i8) (u32 (Z.mul (u8 i8) (u8 i8)))))) ;; Ok (negb b_));
      (b_ <- (Ok (is_note_off_message (make_packet 15 (u8 (Z.land (u8 i8) 15)) (u8 i8) (u32 (Z.mul (u8 i8) (u8 i8)))))) ;; Ok (negb b_))]))].
Proof. vm_compute. repeat constructor. Qed.

(* line 212 *)
Example test_get_note_nr : all_true [
    (Ok (Z.eqb (get_note_nr (make_midi1_note_off 0 2 67 32768)) 67));
    (Ok (Z.eqb (get_note_nr (make_midi1_note_on 13 5 60 (velocity_of_uint7 0))) 60));
    (Ok (Z.eqb (get_note_nr (make_midi1_poly_pressure 14 2 64 (controller_of_uint7 77))) 64));
    (Ok (Z.eqb (get_note_nr (make_registered_per_note_controller 15 10 44 2 123456)) 44));
    (Ok (Z.eqb (get_note_nr (make_assignable_per_note_controller 3 7 64 99 987654)) 64));
    (Ok (Z.eqb (get_note_nr (make_per_note_pitch_bend 11 12 13 2147483649)) 13));
    (Ok (Z.eqb (get_note_nr (make_midi2_note_off 0 2 67 4660 0 0)) 67));
    (Ok (Z.eqb (get_note_nr (make_midi2_note_on 4 7 99 17767)) 99));
    (Ok (Z.eqb (get_note_nr (make_midi2_note_on 13 5 60 0)) 60));
    (Ok (Z.eqb (get_note_nr (make_midi2_note_on_pitch 9 10 127 40960 (pitch_7_9_of_note 60))) 127));
    (Ok (Z.eqb (get_note_nr (make_midi2_poly_pressure 14 2 64 1737075661)) 64))].
Proof. vm_compute. repeat constructor. Qed.

(* line 244 *)
Example test_get_note_pitch : all_true [
    (Ok (Z.eqb (get_note_pitch (make_midi1_note_off 0 2 67 32768)) (pitch_7_9_of_note 67)));
    (Ok (Z.eqb (get_note_pitch (make_midi1_note_on 13 5 60 (velocity_of_uint7 0))) (pitch_7_9_of_note 60)));
    (Ok (Z.eqb (get_note_pitch (make_midi2_note_off 0 2 67 4660 0 0)) (pitch_7_9_of_note 67)));
    (Ok (Z.eqb (get_note_pitch (make_midi2_note_on 4 7 99 17767)) (pitch_7_9_of_note 99)));
    (Ok (Z.eqb (get_note_pitch (make_midi2_note_on 13 5 60 0)) (pitch_7_9_of_note 60)));
    (Ok (Z.eqb (get_note_pitch (make_midi2_note_on_pitch 9 10 127 40960 (pitch_7_9_of_note 60))) (pitch_7_9_of_note 60)));
    (x11 <- (x10 <- (x9 <- (pitch_7_9_of_float (lit32 11724390 (-17))) ;; Ok (make_midi2_note_on_pitch 9 10 127 40960 x9)) ;; Ok (get_note_pitch x10)) ;; x12 <- (pitch_7_9_of_float (lit32 11724390 (-17))) ;; Ok (Z.eqb x11 x12))].
Proof. vm_compute. repeat constructor. Qed.

(* line 274 *)
Example test_get_note_velocity : all_true [
    (Ok (Z.eqb (get_note_velocity (make_midi1_note_off 0 2 67 32768)) (velocity_of_uint7 64)));
    (Ok (Z.eqb (get_note_velocity (make_midi1_note_on 13 5 60 (velocity_of_uint7 0))) (velocity_of_uint7 64)));
    (Ok (Z.eqb (get_note_velocity (make_midi1_note_on 9 12 32 (velocity_of_uint7 44))) (velocity_of_uint7 44)));
    (Ok (Z.eqb (get_note_velocity (make_midi1_note_on 5 6 7 (velocity_of_uint7 127))) (velocity_of_uint7 127)));
    (Ok (Z.eqb (get_note_velocity (make_midi2_note_off 0 2 67 4660 0 0)) 4660));
    (Ok (Z.eqb (get_note_velocity (make_midi2_note_on 4 7 99 17767)) 17767));
    (Ok (Z.eqb (get_note_velocity (make_midi2_note_on 13 5 60 0)) 0));
    (Ok (Z.eqb (get_note_velocity (make_midi2_note_on_pitch 9 10 127 40960 (pitch_7_9_of_note 60))) 40960))].
Proof. vm_compute. repeat constructor. Qed.

(* line 306 *)
Example test_is_poly_pressure_message : all_true [
    (b_ <- (Ok (is_poly_pressure_message (make_midi1_note_off 0 2 67 32768))) ;; Ok (negb b_));
    (b_ <- (Ok (is_poly_pressure_message (make_midi1_note_on 4 7 99 (velocity_of_uint7 100)))) ;; Ok (negb b_));
    (b_ <- (Ok (is_poly_pressure_message (make_midi1_note_on 13 5 60 (velocity_of_uint7 0)))) ;; Ok (negb b_));
    (Ok (is_poly_pressure_message (make_midi1_poly_pressure 14 2 64 (controller_of_uint7 77))));
    (b_ <- (Ok (is_poly_pressure_message (make_midi1_control_change 5 15 7 (controller_of_uint7 100)))) ;; Ok (negb b_));
    (b_ <- (Ok (is_poly_pressure_message (make_midi1_program_change 14 7 42))) ;; Ok (negb b_));
    (b_ <- (Ok (is_poly_pressure_message (make_midi1_channel_pressure 8 8 (controller_of_uint7 77)))) ;; Ok (negb b_));
    (b_ <- (x14 <- (x13 <- (pitch_bend_of_uint14 8177) ;; Ok (make_midi1_pitch_bend 1 13 x13)) ;; Ok (is_poly_pressure_message x14)) ;; Ok (negb b_));
    (b_ <- (Ok (is_poly_pressure_message (make_registered_per_note_controller 15 10 44 2 123456))) ;; Ok (negb b_));
    (b_ <- (Ok (is_poly_pressure_message (make_assignable_per_note_controller 3 7 64 99 987654))) ;; Ok (negb b_));
    (b_ <- (Ok (is_poly_pressure_message (make_registered_controller 2 9 0 4 123456))) ;; Ok (negb b_));
    (b_ <- (Ok (is_poly_pressure_message (make_assignable_controller 8 0 4 12 987654))) ;; Ok (negb b_));
    (b_ <- (Ok (is_poly_pressure_message (make_relative_registered_controller 2 9 0 4 (-1234)))) ;; Ok (negb b_));
    (b_ <- (Ok (is_poly_pressure_message (make_relative_assignable_controller 8 0 4 12 111))) ;; Ok (negb b_));
    (b_ <- (Ok (is_poly_pressure_message (make_per_note_pitch_bend 11 12 13 2147483649))) ;; Ok (negb b_));
    (b_ <- (Ok (is_poly_pressure_message (make_midi2_cv 1 112 2 3 4 2880154539))) ;; Ok (negb b_));
    (b_ <- (Ok (is_poly_pressure_message (make_midi2_note_off 0 2 67 4660 0 0))) ;; Ok (negb b_));
    (b_ <- (Ok (is_poly_pressure_message (make_midi2_note_on 4 7 99 17767))) ;; Ok (negb b_));
    (b_ <- (Ok (is_poly_pressure_message (make_midi2_note_on 13 5 60 0))) ;; Ok (negb b_));
    (b_ <- (Ok (is_poly_pressure_message (make_midi2_note_on_pitch 9 10 127 40960 (pitch_7_9_of_note 60)))) ;; Ok (negb b_));
    (Ok (is_poly_pressure_message (make_midi2_poly_pressure 14 2 64 1737075661)));
    (b_ <- (Ok (is_poly_pressure_message (make_midi2_control_change 5 15 7 2309737967))) ;; Ok (negb b_));
    (b_ <- (Ok (is_poly_pressure_message (make_midi2_program_change_bank 14 7 0 42))) ;; Ok (negb b_));
    (b_ <- (Ok (is_poly_pressure_message (make_midi2_channel_pressure 8 8 2882400001))) ;; Ok (negb b_));
    (b_ <- (Ok (is_poly_pressure_message (make_midi2_pitch_bend 1 13 2415919103))) ;; Ok (negb b_));
    (over (zrange 256 0) (fun i15 => [
      (b_ <- (Ok (is_poly_pressure_message (make_utility_message (u8 i15) (u16 (u32 (Z.mul (u8 i15) (u8 i15))))))) ;; Ok (negb b_));
      (b_ <- (Ok (is_poly_pressure_message (make_system_message (u8 (Z.land (u8 i15) 15)) (u8 i15) (u8 (u32 (Z.mul (u8 i15) (u8 i15)))) 0))) ;; Ok (negb b_));
      (b_ <- (Ok (is_poly_pressure_message (make_packet 3 (u8 (Z.land (u8 i15) 15)) (u8 i15) (u32 (Z.mul (u8 i15) (u8 i15)))))) ;; Ok (negb b_));
      (b_ <- (Ok (is_poly_pressure_message (make_packet 5 (u8 (Z.land (u8 i15) 15)) (u8 i15) (u32 (Z.mul (u8 i15) (u8 i15)))))) ;; Ok (negb b_));
      (b_ <- (Ok (is_poly_pressure_message (make_packet 6 (u8 (Z.land (u8 i15) 15)) (u8 i15) (u32 (Z.mul (u8 i15) (u8 i15)))))) ;; Ok (negb b_));
      (b_ <- (Ok (is_poly_pressure_message (make_packet 7 (u8 (Z.land (u8 i15) 15)) (u8 i15) (u32 (Z.mul (u8 i15) (u8 i15)))))) ;; Ok (negb b_));
      (b_ <- (Ok (is_poly_pressure_message (make_packet 8 (u8 (Z.land (u8 i15) 15)) (u8 i15) (u32 (Z.mul (u8 i15) (u8 i15)))))) ;; Ok (negb b_));
      (b_ <- (Ok (is_poly_pressure_message (make_packet 9 (u8 (Z.land (u8 i15) 15)) (u8 i15) (u32 (Z.mul (u8 i15) (u8 i15)))))) ;; Ok (negb b_));
      (b_ <- (Ok (is_poly_pressure_message (make_packet 10 (u8 (Z.land (u8 i15) 15)) (u8 i15) (u32 (Z.mul (u8 i15) (u8 i15)))))) ;; Ok (negb b_));
      (b_ <- (Ok (is_poly_pressure_message (make_packet 11 (u8 (Z.land (u8 i15) 15)) (u8 i15) (u32 (Z.mul (u8 i15) (u8 i15)))))) ;; Ok (negb b_));
      (b_ <- (Ok (is_poly_pressure_message (make_packet 12 (u8 (Z.land (u8 i15) 15)) (u8 i15) (u32 (Z.mul (u8 i15) (u8 i15)))))) ;; Ok (negb b_));
      (b_ <- (Ok (is_poly_pressure_message (make_packet 13 (u8 (Z.land (u8 i15) 15)) (u8 i15) (u32 (Z.mul (u8 i15) (u8 i15)))))) ;; Ok (negb b_));
      (b_ <- (Ok (is_poly_pressure_message (make_packet 14 (u8 (Z.land (u8 i15) 15)) (u8 i15) (u32 (Z.mul (u8 i15) (u8 i15)))))) ;; Ok (negb b_));
      (b_ <- (Ok (is_poly_pressure_message (make_packet 15 (u8 (Z.land (u8 i15) 15)) (u8 i15) (u32 (Z.mul (u8 i15) (u8 i15)))))) ;; Ok (negb b_))]))].
Proof. vm_compute. repeat constructor. Qed.

(* line 387 *)
Example test_get_poly_pressure_value : all_true [
    (Ok (Z.eqb (get_poly_pressure_value (make_midi1_poly_pressure 5 15 7 (controller_of_uint7 38))) (controller_of_uint7 38)));
    (Ok (Z.eqb (get_poly_pressure_value (make_midi1_poly_pressure 3 8 66 (controller_of_uint7 77))) (controller_of_uint7 77)));
    (x18 <- (x17 <- (x16 <- (controller_of_float (lit32 11576279 (-25))) ;; Ok (make_midi2_poly_pressure 1 4 99 x16)) ;; Ok (get_poly_pressure_value x17)) ;; x19 <- (controller_of_float (lit32 11576279 (-25))) ;; Ok (Z.eqb x18 x19));
    (Ok (Z.eqb (get_poly_pressure_value (make_midi2_poly_pressure 9 0 49 12345)) 12345));
    (Ok (Z.eqb (get_poly_pressure_value (make_midi2_poly_pressure 2 14 8 (controller_of_uint7 109))) (controller_of_uint7 109)))].
Proof. vm_compute. repeat constructor. Qed.

(* line 415 *)
Example test_is_control_change_message : all_true [
    (b_ <- (Ok (is_control_change_message (make_midi1_note_off 0 2 67 32768))) ;; Ok (negb b_));
    (b_ <- (Ok (is_control_change_message (make_midi1_note_on 4 7 99 (velocity_of_uint7 100)))) ;; Ok (negb b_));
    (b_ <- (Ok (is_control_change_message (make_midi1_note_on 13 5 60 (velocity_of_uint7 0)))) ;; Ok (negb b_));
    (b_ <- (Ok (is_control_change_message (make_midi1_poly_pressure 14 2 64 (controller_of_uint7 77)))) ;; Ok (negb b_));
    (Ok (is_control_change_message (make_midi1_control_change 5 15 7 (controller_of_uint7 100))));
    (b_ <- (Ok (is_control_change_message (make_midi1_program_change 14 7 42))) ;; Ok (negb b_));
    (b_ <- (Ok (is_control_change_message (make_midi1_channel_pressure 8 8 (controller_of_uint7 77)))) ;; Ok (negb b_));
    (b_ <- (x21 <- (x20 <- (pitch_bend_of_uint14 8177) ;; Ok (make_midi1_pitch_bend 1 13 x20)) ;; Ok (is_control_change_message x21)) ;; Ok (negb b_));
    (b_ <- (Ok (is_control_change_message (make_registered_per_note_controller 15 10 44 2 123456))) ;; Ok (negb b_));
    (b_ <- (Ok (is_control_change_message (make_assignable_per_note_controller 3 7 64 99 987654))) ;; Ok (negb b_));
    (b_ <- (Ok (is_control_change_message (make_registered_controller 2 9 0 4 123456))) ;; Ok (negb b_));
    (b_ <- (Ok (is_control_change_message (make_assignable_controller 8 0 4 12 987654))) ;; Ok (negb b_));
    (b_ <- (Ok (is_control_change_message (make_relative_registered_controller 2 9 0 4 (-1234)))) ;; Ok (negb b_));
    (b_ <- (Ok (is_control_change_message (make_relative_assignable_controller 8 0 4 12 111))) ;; Ok (negb b_));
    (b_ <- (Ok (is_control_change_message (make_per_note_pitch_bend 11 12 13 2147483649))) ;; Ok (negb b_));
    (b_ <- (Ok (is_control_change_message (make_midi2_cv 1 112 2 3 4 2880154539))) ;; Ok (negb b_));
    (b_ <- (Ok (is_control_change_message (make_midi2_note_off 0 2 67 4660 0 0))) ;; Ok (negb b_));
    (b_ <- (Ok (is_control_change_message (make_midi2_note_on 4 7 99 17767))) ;; Ok (negb b_));
    (b_ <- (Ok (is_control_change_message (make_midi2_note_on 13 5 60 0))) ;; Ok (negb b_));
    (b_ <- (Ok (is_control_change_message (make_midi2_note_on_pitch 9 10 127 40960 (pitch_7_9_of_note 60)))) ;; Ok (negb b_));
    (b_ <- (Ok (is_control_change_message (make_midi2_poly_pressure 14 2 64 1737075661))) ;; Ok (negb b_));
    (Ok (is_control_change_message (make_midi2_control_change 5 15 7 2309737967)));
    (b_ <- (Ok (is_control_change_message (make_midi2_program_change_bank 14 7 0 42))) ;; Ok (negb b_));
    (b_ <- (Ok (is_control_change_message (make_midi2_channel_pressure 8 8 2882400001))) ;; Ok (negb b_));
    (b_ <- (Ok (is_control_change_message (make_midi2_pitch_bend 1 13 2415919103))) ;; Ok (negb b_));
    (over (zrange 256 0) (fun i22 => [
      (b_ <- (Ok (is_control_change_message (make_utility_message (u8 i22) (u16 (u32 (Z.mul (u8 i22) (u8 i22))))))) ;; Ok (negb b_));
      (b_ <- (Ok (is_control_change_message (make_system_message (u8 (Z.land (u8 i22) 15)) (u8 i22) (u8 (u32 (Z.mul (u8 i22) (u8 i22)))) 0))) ;; Ok (negb b_));
      (b_ <- (Ok (is_control_change_message (make_packet 3 (u8 (Z.land (u8 i22) 15)) (u8 i22) (u32 (Z.mul (u8 i22) (u8 i22)))))) ;; Ok (negb b_));
      (b_ <- (Ok (is_control_change_message (make_packet 5 (u8 (Z.land (u8 i22) 15)) (u8 i22) (u32 (Z.mul (u8 i22) (u8 i22)))))) ;; Ok (negb b_));
      (b_ <- (Ok (is_control_change_message (make_packet 6 (u8 (Z.land (u8 i22) 15)) (u8 i22) (u32 (Z.mul (u8 i22) (u8 i22)))))) ;; Ok (negb b_));
      (b_ <- (Ok (is_control_change_message (make_packet 7 (u8 (Z.land (u8 i22) 15)) (u8 i22) (u32 (Z.mul (u8 i22) (u8 i22)))))) ;; Ok (negb b_));
      (b_ <- (Ok (is_control_change_message (make_packet 8 (u8 (Z.land (u8 i22) 15)) (u8 i22) (u32 (Z.mul (u8 i22) (u8 i22)))))) ;; Ok (negb b_));
      (b_ <- (Ok (is_control_change_message (make_packet 9 (u8 (Z.land (u8 i22) 15)) (u8 i22) (u32 (Z.mul (u8 i22) (u8 i22)))))) ;; Ok (negb b_));
      (b_ <- (Ok (is_control_change_message (make_packet 10 (u8 (Z.land (u8 i22) 15)) (u8 i22) (u32 (Z.mul (u8 i22) (u8 i22)))))) ;; Ok (negb b_));
      (b_ <- (Ok (is_control_change_message (make_packet 11 (u8 (Z.land (u8 i22) 15)) (u8 i22) (u32 (Z.mul (u8 i22) (u8 i22)))))) ;; Ok (negb b_));
      (b_ <- (Ok (is_control_change_message (make_packet 12 (u8 (Z.land (u8 i22) 15)) (u8 i22) (u32 (Z.mul (u8 i22) (u8 i22)))))) ;; Ok (negb b_));
      (b_ <- (Ok (is_control_change_message (make_packet 13 (u8 (Z.land (u8 i22) 15)) (u8 i22) (u32 (Z.mul (u8 i22) (u8 i22)))))) ;; Ok (negb b_));
      (b_ <- (Ok (is_control_change_message (make_packet 14 (u8 (Z.land (u8 i22) 15)) (u8 i22) (u32 (Z.mul (u8 i22) (u8 i22)))))) ;; Ok (negb b_));
      (b_ <- (Ok (is_control_change_message (make_packet 15 (u8 (Z.land (u8 i22) 15)) (u8 i22) (u32 (Z.mul (u8 i22) (u8 i22)))))) ;; Ok (negb b_))]))].
Proof. vm_compute. repeat constructor. Qed.

(* line 496 *)
Example test_get_controller_id : all_true [
    (Ok (Z.eqb (get_controller_nr (make_midi1_control_change 5 15 7 (controller_of_uint7 100))) 7));
    (Ok (Z.eqb (get_controller_nr (make_midi1_control_change 0 5 66 (controller_of_uint7 100))) 66));
    (Ok (Z.eqb (get_controller_nr (make_midi2_control_change 5 15 7 (controller_of_uint7 100))) 7));
    (Ok (Z.eqb (get_controller_nr (make_midi2_control_change 0 5 66 (controller_of_uint7 100))) 66))].
Proof. vm_compute. repeat constructor. Qed.

(* line 517 *)
Example test_get_controller_value : all_true [
    (Ok (Z.eqb (get_controller_value (make_midi1_control_change 5 15 7 (controller_of_uint7 100))) (controller_of_uint7 100)));
    (Ok (Z.eqb (get_controller_value (make_midi1_control_change 3 4 13 (controller_of_uint7 31))) (controller_of_uint7 31)));
    (Ok (Z.eqb (get_controller_value (make_midi2_control_change 5 15 7 (controller_of_uint7 100))) (controller_of_uint7 100)));
    (x25 <- (x24 <- (x23 <- (controller_of_float (lit32 11576279 (-25))) ;; Ok (make_midi2_control_change 1 4 99 x23)) ;; Ok (get_controller_value x24)) ;; x26 <- (controller_of_float (lit32 11576279 (-25))) ;; Ok (Z.eqb x25 x26));
    (Ok (Z.eqb (get_controller_value (make_midi2_control_change 9 0 49 12345)) 12345))].
Proof. vm_compute. repeat constructor. Qed.

(* line 541 *)
Example test_is_program_change_message : all_true [
    (b_ <- (Ok (is_program_change_message (make_midi1_note_off 0 2 67 32768))) ;; Ok (negb b_));
    (b_ <- (Ok (is_program_change_message (make_midi1_note_on 4 7 99 (velocity_of_uint7 100)))) ;; Ok (negb b_));
    (b_ <- (Ok (is_program_change_message (make_midi1_note_on 13 5 60 (velocity_of_uint7 0)))) ;; Ok (negb b_));
    (b_ <- (Ok (is_program_change_message (make_midi1_poly_pressure 14 2 64 (controller_of_uint7 77)))) ;; Ok (negb b_));
    (b_ <- (Ok (is_program_change_message (make_midi1_control_change 5 15 7 (controller_of_uint7 100)))) ;; Ok (negb b_));
    (Ok (is_program_change_message (make_midi1_program_change 14 7 42)));
    (b_ <- (Ok (is_program_change_message (make_midi1_channel_pressure 8 8 (controller_of_uint7 77)))) ;; Ok (negb b_));
    (b_ <- (x28 <- (x27 <- (pitch_bend_of_uint14 8177) ;; Ok (make_midi1_pitch_bend 1 13 x27)) ;; Ok (is_program_change_message x28)) ;; Ok (negb b_));
    (b_ <- (Ok (is_program_change_message (make_registered_per_note_controller 15 10 44 2 123456))) ;; Ok (negb b_));
    (b_ <- (Ok (is_program_change_message (make_assignable_per_note_controller 3 7 64 99 987654))) ;; Ok (negb b_));
    (b_ <- (Ok (is_program_change_message (make_registered_controller 2 9 0 4 123456))) ;; Ok (negb b_));
    (b_ <- (Ok (is_program_change_message (make_assignable_controller 8 0 4 12 987654))) ;; Ok (negb b_));
    (b_ <- (Ok (is_program_change_message (make_relative_registered_controller 2 9 0 4 (-1234)))) ;; Ok (negb b_));
    (b_ <- (Ok (is_program_change_message (make_relative_assignable_controller 8 0 4 12 111))) ;; Ok (negb b_));
    (b_ <- (Ok (is_program_change_message (make_per_note_pitch_bend 11 12 13 2147483649))) ;; Ok (negb b_));
    (b_ <- (Ok (is_program_change_message (make_midi2_cv 1 112 2 3 4 2880154539))) ;; Ok (negb b_));
    (b_ <- (Ok (is_program_change_message (make_midi2_note_off 0 2 67 4660 0 0))) ;; Ok (negb b_));
    (b_ <- (Ok (is_program_change_message (make_midi2_note_on 4 7 99 17767))) ;; Ok (negb b_));
    (b_ <- (Ok (is_program_change_message (make_midi2_note_on 13 5 60 0))) ;; Ok (negb b_));
    (b_ <- (Ok (is_program_change_message (make_midi2_note_on_pitch 9 10 127 40960 (pitch_7_9_of_note 60)))) ;; Ok (negb b_));
    (b_ <- (Ok (is_program_change_message (make_midi2_poly_pressure 14 2 64 1737075661))) ;; Ok (negb b_));
    (b_ <- (Ok (is_program_change_message (make_midi2_control_change 5 15 7 2309737967))) ;; Ok (negb b_));
    (Ok (is_program_change_message (make_midi2_program_change_bank 14 7 0 42)));
    (b_ <- (Ok (is_program_change_message (make_midi2_channel_pressure 8 8 2882400001))) ;; Ok (negb b_));
    (b_ <- (Ok (is_program_change_message (make_midi2_pitch_bend 1 13 2415919103))) ;; Ok (negb b_));
    (over (zrange 256 0) (fun i29 => [
      (b_ <- (Ok (is_program_change_message (make_utility_message (u8 i29) (u16 (u32 (Z.mul (u8 i29) (u8 i29))))))) ;; Ok (negb b_));
      (b_ <- (Ok (is_program_change_message (make_system_message (u8 (Z.land (u8 i29) 15)) (u8 i29) (u8 (u32 (Z.mul (u8 i29) (u8 i29)))) 0))) ;; Ok (negb b_));
      (b_ <- (Ok (is_program_change_message (make_packet 3 (u8 (Z.land (u8 i29) 15)) (u8 i29) (u32 (Z.mul (u8 i29) (u8 i29)))))) ;; Ok (negb b_));
      (b_ <- (Ok (is_program_change_message (make_packet 5 (u8 (Z.land (u8 i29) 15)) (u8 i29) (u32 (Z.mul (u8 i29) (u8 i29)))))) ;; Ok (negb b_));
      (b_ <- (Ok (is_program_change_message (make_packet 6 (u8 (Z.land (u8 i29) 15)) (u8 i29) (u32 (Z.mul (u8 i29) (u8 i29)))))) ;; Ok (negb b_));
      (b_ <- (Ok (is_program_change_message (make_packet 7 (u8 (Z.land (u8 i29) 15)) (u8 i29) (u32 (Z.mul (u8 i29) (u8 i29)))))) ;; Ok (negb b_));
      (b_ <- (Ok (is_program_change_message (make_packet 8 (u8 (Z.land (u8 i29) 15)) (u8 i29) (u32 (Z.mul (u8 i29) (u8 i29)))))) ;; Ok (negb b_));
      (b_ <- (Ok (is_program_change_message (make_packet 9 (u8 (Z.land (u8 i29) 15)) (u8 i29) (u32 (Z.mul (u8 i29) (u8 i29)))))) ;; Ok (negb b_));
      (b_ <- (Ok (is_program_change_message (make_packet 10 (u8 (Z.land (u8 i29) 15)) (u8 i29) (u32 (Z.mul (u8 i29) (u8 i29)))))) ;; Ok (negb b_));
      (b_ <- (Ok (is_program_change_message (make_packet 11 (u8 (Z.land (u8 i29) 15)) (u8 i29) (u32 (Z.mul (u8 i29) (u8 i29)))))) ;; Ok (negb b_));
      (b_ <- (Ok (is_program_change_message (make_packet 12 (u8 (Z.land (u8 i29) 15)) (u8 i29) (u32 (Z.mul (u8 i29) (u8 i29)))))) ;; Ok (negb b_));
      (b_ <- (Ok (is_program_change_message (make_packet 13 (u8 (Z.land (u8 i29) 15)) (u8 i29) (u32 (Z.mul (u8 i29) (u8 i29)))))) ;; Ok (negb b_));
      (b_ <- (Ok (is_program_change_message (make_packet 14 (u8 (Z.land (u8 i29) 15)) (u8 i29) (u32 (Z.mul (u8 i29) (u8 i29)))))) ;; Ok (negb b_));
      (b_ <- (Ok (is_program_change_message (make_packet 15 (u8 (Z.land (u8 i29) 15)) (u8 i29) (u32 (Z.mul (u8 i29) (u8 i29)))))) ;; Ok (negb b_))]))].
Proof. vm_compute. repeat constructor. Qed.

(* line 622 *)
Example test_get_program_value : all_true [
    (Ok (Z.eqb (get_program_value (make_midi1_program_change 5 15 99)) 99));
    (Ok (Z.eqb (get_program_value (make_midi1_program_change 3 8 13)) 13));
    (Ok (Z.eqb (get_program_value (make_midi2_program_change 1 4 18)) 18));
    (Ok (Z.eqb (get_program_value (make_midi2_program_change 9 0 44)) 44))].
Proof. vm_compute. repeat constructor. Qed.

(* line 639 *)
Example test_is_channel_pressure_message : all_true [
    (b_ <- (Ok (is_channel_pressure_message (make_midi1_note_off 0 2 67 32768))) ;; Ok (negb b_));
    (b_ <- (Ok (is_channel_pressure_message (make_midi1_note_on 4 7 99 (velocity_of_uint7 100)))) ;; Ok (negb b_));
    (b_ <- (Ok (is_channel_pressure_message (make_midi1_note_on 13 5 60 (velocity_of_uint7 0)))) ;; Ok (negb b_));
    (b_ <- (Ok (is_channel_pressure_message (make_midi1_poly_pressure 14 2 64 (controller_of_uint7 77)))) ;; Ok (negb b_));
    (b_ <- (Ok (is_channel_pressure_message (make_midi1_control_change 5 15 7 (controller_of_uint7 100)))) ;; Ok (negb b_));
    (b_ <- (Ok (is_channel_pressure_message (make_midi1_program_change 14 7 42))) ;; Ok (negb b_));
    (Ok (is_channel_pressure_message (make_midi1_channel_pressure 8 8 (controller_of_uint7 77))));
    (b_ <- (x31 <- (x30 <- (pitch_bend_of_uint14 8177) ;; Ok (make_midi1_pitch_bend 1 13 x30)) ;; Ok (is_channel_pressure_message x31)) ;; Ok (negb b_));
    (b_ <- (Ok (is_channel_pressure_message (make_registered_per_note_controller 15 10 44 2 123456))) ;; Ok (negb b_));
    (b_ <- (Ok (is_channel_pressure_message (make_assignable_per_note_controller 3 7 64 99 987654))) ;; Ok (negb b_));
    (b_ <- (Ok (is_channel_pressure_message (make_registered_controller 2 9 0 4 123456))) ;; Ok (negb b_));
    (b_ <- (Ok (is_channel_pressure_message (make_assignable_controller 8 0 4 12 987654))) ;; Ok (negb b_));
    (b_ <- (Ok (is_channel_pressure_message (make_relative_registered_controller 2 9 0 4 (-1234)))) ;; Ok (negb b_));
    (b_ <- (Ok (is_channel_pressure_message (make_relative_assignable_controller 8 0 4 12 111))) ;; Ok (negb b_));
    (b_ <- (Ok (is_channel_pressure_message (make_per_note_pitch_bend 11 12 13 2147483649))) ;; Ok (negb b_));
    (b_ <- (Ok (is_channel_pressure_message (make_midi2_cv 1 112 2 3 4 2880154539))) ;; Ok (negb b_));
    (b_ <- (Ok (is_channel_pressure_message (make_midi2_note_off 0 2 67 4660 0 0))) ;; Ok (negb b_));
    (b_ <- (Ok (is_channel_pressure_message (make_midi2_note_on 4 7 99 17767))) ;; Ok (negb b_));
    (b_ <- (Ok (is_channel_pressure_message (make_midi2_note_on 13 5 60 0))) ;; Ok (negb b_));
    (b_ <- (Ok (is_channel_pressure_message (make_midi2_note_on_pitch 9 10 127 40960 (pitch_7_9_of_note 60)))) ;; Ok (negb b_));
    (b_ <- (Ok (is_channel_pressure_message (make_midi2_poly_pressure 14 2 64 1737075661))) ;; Ok (negb b_));
    (b_ <- (Ok (is_channel_pressure_message (make_midi2_control_change 5 15 7 2309737967))) ;; Ok (negb b_));
    (b_ <- (Ok (is_channel_pressure_message (make_midi2_program_change_bank 14 7 0 42))) ;; Ok (negb b_));
    (Ok (is_channel_pressure_message (make_midi2_channel_pressure 8 8 2882400001)));
    (b_ <- (Ok (is_channel_pressure_message (make_midi2_pitch_bend 1 13 2415919103))) ;; Ok (negb b_));
    (over (zrange 256 0) (fun i32 => [
      (b_ <- (Ok (is_channel_pressure_message (make_utility_message (u8 i32) (u16 (u32 (Z.mul (u8 i32) (u8 i32))))))) ;; Ok (negb b_));
      (b_ <- (Ok (is_channel_pressure_message (make_system_message (u8 (Z.land (u8 i32) 15)) (u8 i32) (u8 (u32 (Z.mul (u8 i32) (u8 i32)))) 0))) ;; Ok (negb b_));
      (b_ <- (Ok (is_channel_pressure_message (make_packet 3 (u8 (Z.land (u8 i32) 15)) (u8 i32) (u32 (Z.mul (u8 i32) (u8 i32)))))) ;; Ok (negb b_));
      (b_ <- (Ok (is_channel_pressure_message (make_packet 5 (u8 (Z.land (u8 i32) 15)) (u8 i32) (u32 (Z.mul (u8 i32) (u8 i32)))))) ;; Ok (negb b_));
      (b_ <- (Ok (is_channel_pressure_message (make_packet 6 (u8 (Z.land (u8 i32) 15)) (u8 i32) (u32 (Z.mul (u8 i32) (u8 i32)))))) ;; Ok (negb b_));
      (b_ <- (Ok (is_channel_pressure_message (make_packet 7 (u8 (Z.land (u8 i32) 15)) (u8 i32) (u32 (Z.mul (u8 i32) (u8 i32)))))) ;; Ok (negb b_));
      (b_ <- (Ok (is_channel_pressure_message (make_packet 8 (u8 (Z.land (u8 i32) 15)) (u8 i32) (u32 (Z.mul (u8 i32) (u8 i32)))))) ;; Ok (negb b_));
      (b_ <- (Ok (is_channel_pressure_message (make_packet 9 (u8 (Z.land (u8 i32) 15)) (u8 i32) (u32 (Z.mul (u8 i32) (u8 i32)))))) ;; Ok (negb b_));
      (b_ <- (Ok (is_channel_pressure_message (make_packet 10 (u8 (Z.land (u8 i32) 15)) (u8 i32) (u32 (Z.mul (u8 i32) (u8 i32)))))) ;; Ok (negb b_));
      (b_ <- (Ok (is_channel_pressure_message (make_packet 11 (u8 (Z.land (u8 i32) 15)) (u8 i32) (u32 (Z.mul (u8 i32) (u8 i32)))))) ;; Ok (negb b_));
      (b_ <- (Ok (is_channel_pressure_message (make_packet 12 (u8 (Z.land (u8 i32) 15)) (u8 i32) (u32 (Z.mul (u8 i32) (u8 i32)))))) ;; Ok (negb b_));
      (b_ <- (Ok (is_channel_pressure_message (make_packet 13 (u8 (Z.land (u8 i32) 15)) (u8 i32) (u32 (Z.mul (u8 i32) (u8 i32)))))) ;; Ok (negb b_));
      (b_ <- (Ok (is_channel_pressure_message (make_packet 14 (u8 (Z.land (u8 i32) 15)) (u8 i32) (u32 (Z.mul (u8 i32) (u8 i32)))))) ;; Ok (negb b_));
      (b_ <- (Ok (is_channel_pressure_message (make_packet 15 (u8 (Z.land (u8 i32) 15)) (u8 i32) (u32 (Z.mul (u8 i32) (u8 i32)))))) ;; Ok (negb b_))]))].
Proof. vm_compute. repeat constructor. Qed.

(* line 721 *)
Example test_get_channel_pressure_value : all_true [
    (Ok (Z.eqb (get_channel_pressure_value (make_midi1_channel_pressure 5 15 (controller_of_uint7 38))) (controller_of_uint7 38)));
    (Ok (Z.eqb (get_channel_pressure_value (make_midi1_channel_pressure 3 8 (controller_of_uint7 77))) (controller_of_uint7 77)));
    (x35 <- (x34 <- (x33 <- (controller_of_float (lit32 11576279 (-25))) ;; Ok (make_midi2_channel_pressure 1 4 x33)) ;; Ok (get_channel_pressure_value x34)) ;; x36 <- (controller_of_float (lit32 11576279 (-25))) ;; Ok (Z.eqb x35 x36));
    (Ok (Z.eqb (get_channel_pressure_value (make_midi2_channel_pressure 9 0 12345)) 12345));
    (Ok (Z.eqb (get_channel_pressure_value (make_midi2_channel_pressure 2 14 (controller_of_uint7 109))) (controller_of_uint7 109)))].
Proof. vm_compute. repeat constructor. Qed.

(* line 749 *)
Example test_is_channel_pitch_bend_message : all_true [
    (b_ <- (Ok (is_channel_pitch_bend_message (make_midi1_note_off 0 2 67 32768))) ;; Ok (negb b_));
    (b_ <- (Ok (is_channel_pitch_bend_message (make_midi1_note_on 4 7 99 (velocity_of_uint7 100)))) ;; Ok (negb b_));
    (b_ <- (Ok (is_channel_pitch_bend_message (make_midi1_note_on 13 5 60 (velocity_of_uint7 0)))) ;; Ok (negb b_));
    (b_ <- (Ok (is_channel_pitch_bend_message (make_midi1_poly_pressure 14 2 64 (controller_of_uint7 77)))) ;; Ok (negb b_));
    (b_ <- (Ok (is_channel_pitch_bend_message (make_midi1_control_change 5 15 7 (controller_of_uint7 100)))) ;; Ok (negb b_));
    (b_ <- (Ok (is_channel_pitch_bend_message (make_midi1_program_change 14 7 42))) ;; Ok (negb b_));
    (b_ <- (Ok (is_channel_pitch_bend_message (make_midi1_channel_pressure 8 8 (controller_of_uint7 77)))) ;; Ok (negb b_));
    (x38 <- (x37 <- (pitch_bend_of_uint14 8177) ;; Ok (make_midi1_pitch_bend 1 13 x37)) ;; Ok (is_channel_pitch_bend_message x38));
    (b_ <- (Ok (is_channel_pitch_bend_message (make_registered_per_note_controller 15 10 44 2 123456))) ;; Ok (negb b_));
    (b_ <- (Ok (is_channel_pitch_bend_message (make_assignable_per_note_controller 3 7 64 99 987654))) ;; Ok (negb b_));
    (b_ <- (Ok (is_channel_pitch_bend_message (make_registered_controller 2 9 0 4 123456))) ;; Ok (negb b_));
    (b_ <- (Ok (is_channel_pitch_bend_message (make_assignable_controller 8 0 4 12 987654))) ;; Ok (negb b_));
    (b_ <- (Ok (is_channel_pitch_bend_message (make_relative_registered_controller 2 9 0 4 (-1234)))) ;; Ok (negb b_));
    (b_ <- (Ok (is_channel_pitch_bend_message (make_relative_assignable_controller 8 0 4 12 111))) ;; Ok (negb b_));
    (b_ <- (Ok (is_channel_pitch_bend_message (make_per_note_pitch_bend 11 12 13 2147483649))) ;; Ok (negb b_));
    (b_ <- (Ok (is_channel_pitch_bend_message (make_midi2_cv 1 112 2 3 4 2880154539))) ;; Ok (negb b_));
    (b_ <- (Ok (is_channel_pitch_bend_message (make_midi2_note_off 0 2 67 4660 0 0))) ;; Ok (negb b_));
    (b_ <- (Ok (is_channel_pitch_bend_message (make_midi2_note_on 4 7 99 17767))) ;; Ok (negb b_));
    (b_ <- (Ok (is_channel_pitch_bend_message (make_midi2_note_on 13 5 60 0))) ;; Ok (negb b_));
    (b_ <- (Ok (is_channel_pitch_bend_message (make_midi2_note_on_pitch 9 10 127 40960 (pitch_7_9_of_note 60)))) ;; Ok (negb b_));
    (b_ <- (Ok (is_channel_pitch_bend_message (make_midi2_poly_pressure 14 2 64 1737075661))) ;; Ok (negb b_));
    (b_ <- (Ok (is_channel_pitch_bend_message (make_midi2_control_change 5 15 7 2309737967))) ;; Ok (negb b_));
    (b_ <- (Ok (is_channel_pitch_bend_message (make_midi2_program_change_bank 14 7 0 42))) ;; Ok (negb b_));
    (b_ <- (Ok (is_channel_pitch_bend_message (make_midi2_channel_pressure 8 8 2882400001))) ;; Ok (negb b_));
    (Ok (is_channel_pitch_bend_message (make_midi2_pitch_bend 1 13 2415919103)));
    (over (zrange 256 0) (fun i39 => [
      (b_ <- (Ok (is_channel_pitch_bend_message (make_utility_message (u8 i39) (u16 (u32 (Z.mul (u8 i39) (u8 i39))))))) ;; Ok (negb b_));
      (b_ <- (Ok (is_channel_pitch_bend_message (make_system_message (u8 (Z.land (u8 i39) 15)) (u8 i39) (u8 (u32 (Z.mul (u8 i39) (u8 i39)))) 0))) ;; Ok (negb b_));
      (b_ <- (Ok (is_channel_pitch_bend_message (make_packet 3 (u8 (Z.land (u8 i39) 15)) (u8 i39) (u32 (Z.mul (u8 i39) (u8 i39)))))) ;; Ok (negb b_));
      (b_ <- (Ok (is_channel_pitch_bend_message (make_packet 5 (u8 (Z.land (u8 i39) 15)) (u8 i39) (u32 (Z.mul (u8 i39) (u8 i39)))))) ;; Ok (negb b_));
      (b_ <- (Ok (is_channel_pitch_bend_message (make_packet 6 (u8 (Z.land (u8 i39) 15)) (u8 i39) (u32 (Z.mul (u8 i39) (u8 i39)))))) ;; Ok (negb b_));
      (b_ <- (Ok (is_channel_pitch_bend_message (make_packet 7 (u8 (Z.land (u8 i39) 15)) (u8 i39) (u32 (Z.mul (u8 i39) (u8 i39)))))) ;; Ok (negb b_));
      (b_ <- (Ok (is_channel_pitch_bend_message (make_packet 8 (u8 (Z.land (u8 i39) 15)) (u8 i39) (u32 (Z.mul (u8 i39) (u8 i39)))))) ;; Ok (negb b_));
      (b_ <- (Ok (is_channel_pitch_bend_message (make_packet 9 (u8 (Z.land (u8 i39) 15)) (u8 i39) (u32 (Z.mul (u8 i39) (u8 i39)))))) ;; Ok (negb b_));
      (b_ <- (Ok (is_channel_pitch_bend_message (make_packet 10 (u8 (Z.land (u8 i39) 15)) (u8 i39) (u32 (Z.mul (u8 i39) (u8 i39)))))) ;; Ok (negb b_));
      (b_ <- (Ok (is_channel_pitch_bend_message (make_packet 11 (u8 (Z.land (u8 i39) 15)) (u8 i39) (u32 (Z.mul (u8 i39) (u8 i39)))))) ;; Ok (negb b_));
      (b_ <- (Ok (is_channel_pitch_bend_message (make_packet 12 (u8 (Z.land (u8 i39) 15)) (u8 i39) (u32 (Z.mul (u8 i39) (u8 i39)))))) ;; Ok (negb b_));
      (b_ <- (Ok (is_channel_pitch_bend_message (make_packet 13 (u8 (Z.land (u8 i39) 15)) (u8 i39) (u32 (Z.mul (u8 i39) (u8 i39)))))) ;; Ok (negb b_));
      (b_ <- (Ok (is_channel_pitch_bend_message (make_packet 14 (u8 (Z.land (u8 i39) 15)) (u8 i39) (u32 (Z.mul (u8 i39) (u8 i39)))))) ;; Ok (negb b_));
      (b_ <- (Ok (is_channel_pitch_bend_message (make_packet 15 (u8 (Z.land (u8 i39) 15)) (u8 i39) (u32 (Z.mul (u8 i39) (u8 i39)))))) ;; Ok (negb b_))]))].
Proof. vm_compute. repeat constructor. Qed.

(* line 833 *)
Example test_get_channel_pitch_bend_value : all_true [
    (x42 <- (x41 <- (x40 <- (pitch_bend_of_uint14 12500) ;; Ok (make_midi1_pitch_bend 5 15 x40)) ;; get_channel_pitch_bend_value x41) ;; x43 <- (pitch_bend_of_uint14 12500) ;; Ok (Z.eqb x42 x43));
    (x50 <- (x49 <- (x48 <- (pitch_bend_of_float (lit32 11576279 (-25))) ;; Ok (make_midi2_pitch_bend 1 4 x48)) ;; get_channel_pitch_bend_value x49) ;; x51 <- (pitch_bend_of_float (lit32 11576279 (-25))) ;; Ok (Z.eqb x50 x51));
    (x54 <- (x53 <- (x52 <- (pitch_bend_of_uint14 1234) ;; Ok (make_midi2_pitch_bend 9 0 x52)) ;; get_channel_pitch_bend_value x53) ;; x55 <- (pitch_bend_of_uint14 1234) ;; Ok (Z.eqb x54 x55));
    (x56 <- (get_channel_pitch_bend_value (make_midi2_pitch_bend 2 14 2166572391)) ;; Ok (Z.eqb x56 2166572391))].
Proof. vm_compute. repeat constructor. Qed.

(* line 857 *)
Example test_as_midi1_channel_voice_message : all_true [
    (x58 <- (x57 <- (midi2_view (make_midi2_note_on 4 7 99 17767)) ;; Ok (as_midi1 x57)) ;; Ok (opt_some x58));
    (x60 <- (x59 <- (x57 <- (midi2_view (make_midi2_note_on 4 7 99 17767)) ;; Ok (as_midi1 x57)) ;; opt_get x59) ;; packet_eq x60 (make_midi1_note_on 4 7 99 17767));
    (x62 <- (x61 <- (midi2_view (make_midi2_note_on 13 5 60 0)) ;; Ok (as_midi1 x61)) ;; Ok (opt_some x62));
    (x64 <- (x63 <- (x61 <- (midi2_view (make_midi2_note_on 13 5 60 0)) ;; Ok (as_midi1 x61)) ;; opt_get x63) ;; packet_eq x64 (make_midi1_note_on 13 5 60 (velocity_of_uint7 1)));
    (b_ <- (x66 <- (x65 <- (midi2_view (make_midi2_note_on_pitch 9 10 127 40960 (pitch_7_9_of_note 60))) ;; Ok (as_midi1 x65)) ;; Ok (opt_some x66)) ;; Ok (negb b_));
    (x68 <- (x67 <- (midi2_view (make_midi2_note_off 3 9 66 4660 0 0)) ;; Ok (as_midi1 x67)) ;; Ok (opt_some x68));
    (x70 <- (x69 <- (x67 <- (midi2_view (make_midi2_note_off 3 9 66 4660 0 0)) ;; Ok (as_midi1 x67)) ;; opt_get x69) ;; packet_eq x70 (make_midi1_note_off 3 9 66 4660));
    (x72 <- (x71 <- (midi2_view (make_midi2_note_off 13 5 60 (velocity_of_uint7 0) 0 0)) ;; Ok (as_midi1 x71)) ;; Ok (opt_some x72));
    (x74 <- (x73 <- (x71 <- (midi2_view (make_midi2_note_off 13 5 60 (velocity_of_uint7 0) 0 0)) ;; Ok (as_midi1 x71)) ;; opt_get x73) ;; packet_eq x74 (make_midi1_note_off 13 5 60 (velocity_of_uint7 0)));
    (b_ <- (x76 <- (x75 <- (midi2_view (make_midi2_note_off 9 10 127 40960 4 16)) ;; Ok (as_midi1 x75)) ;; Ok (opt_some x76)) ;; Ok (negb b_));
    (x78 <- (x77 <- (midi2_view (make_midi2_poly_pressure 14 2 64 (controller_of_uint7 77))) ;; Ok (as_midi1 x77)) ;; Ok (opt_some x78));
    (x80 <- (x79 <- (x77 <- (midi2_view (make_midi2_poly_pressure 14 2 64 (controller_of_uint7 77))) ;; Ok (as_midi1 x77)) ;; opt_get x79) ;; packet_eq x80 (make_midi1_poly_pressure 14 2 64 (controller_of_uint7 77)));
    (x82 <- (x81 <- (midi2_view (make_midi2_poly_pressure 14 2 64 1737075661)) ;; Ok (as_midi1 x81)) ;; Ok (opt_some x82));
    (x84 <- (x83 <- (x81 <- (midi2_view (make_midi2_poly_pressure 14 2 64 1737075661)) ;; Ok (as_midi1 x81)) ;; opt_get x83) ;; packet_eq x84 (make_midi1_poly_pressure 14 2 64 1737075661));
    (x86 <- (x85 <- (midi2_view (make_midi2_control_change 5 15 7 2309737967)) ;; Ok (as_midi1 x85)) ;; Ok (opt_some x86));
    (x88 <- (x87 <- (x85 <- (midi2_view (make_midi2_control_change 5 15 7 2309737967)) ;; Ok (as_midi1 x85)) ;; opt_get x87) ;; packet_eq x88 (make_midi1_control_change 5 15 7 2309737967));
    (x90 <- (x89 <- (midi2_view (make_midi2_control_change 9 0 49 12345)) ;; Ok (as_midi1 x89)) ;; Ok (opt_some x90));
    (x92 <- (x91 <- (x89 <- (midi2_view (make_midi2_control_change 9 0 49 12345)) ;; Ok (as_midi1 x89)) ;; opt_get x91) ;; packet_eq x92 (make_midi1_control_change 9 0 49 12345));
    (b_ <- (x94 <- (x93 <- (midi2_view (make_midi2_control_change 9 0 0 12345)) ;; Ok (as_midi1 x93)) ;; Ok (opt_some x94)) ;; Ok (negb b_));
    (b_ <- (x96 <- (x95 <- (midi2_view (make_midi2_control_change 9 0 6 12345)) ;; Ok (as_midi1 x95)) ;; Ok (opt_some x96)) ;; Ok (negb b_));
    (b_ <- (x98 <- (x97 <- (midi2_view (make_midi2_control_change 9 0 32 12345)) ;; Ok (as_midi1 x97)) ;; Ok (opt_some x98)) ;; Ok (negb b_));
    (b_ <- (x100 <- (x99 <- (midi2_view (make_midi2_control_change 9 0 38 12345)) ;; Ok (as_midi1 x99)) ;; Ok (opt_some x100)) ;; Ok (negb b_));
    (b_ <- (x102 <- (x101 <- (midi2_view (make_midi2_control_change 9 0 88 12345)) ;; Ok (as_midi1 x101)) ;; Ok (opt_some x102)) ;; Ok (negb b_));
    (b_ <- (x104 <- (x103 <- (midi2_view (make_midi2_control_change 9 0 98 12345)) ;; Ok (as_midi1 x103)) ;; Ok (opt_some x104)) ;; Ok (negb b_));
    (b_ <- (x106 <- (x105 <- (midi2_view (make_midi2_control_change 9 0 99 12345)) ;; Ok (as_midi1 x105)) ;; Ok (opt_some x106)) ;; Ok (negb b_));
    (b_ <- (x108 <- (x107 <- (midi2_view (make_midi2_control_change 9 0 100 12345)) ;; Ok (as_midi1 x107)) ;; Ok (opt_some x108)) ;; Ok (negb b_));
    (b_ <- (x110 <- (x109 <- (midi2_view (make_midi2_control_change 9 0 101 12345)) ;; Ok (as_midi1 x109)) ;; Ok (opt_some x110)) ;; Ok (negb b_));
    (x112 <- (x111 <- (midi2_view (make_midi2_program_change 14 7 42)) ;; Ok (as_midi1 x111)) ;; Ok (opt_some x112));
    (x114 <- (x113 <- (x111 <- (midi2_view (make_midi2_program_change 14 7 42)) ;; Ok (as_midi1 x111)) ;; opt_get x113) ;; packet_eq x114 (make_midi1_program_change 14 7 42));
    (x116 <- (x115 <- (midi2_view (make_midi2_program_change 9 0 44)) ;; Ok (as_midi1 x115)) ;; Ok (opt_some x116));
    (x118 <- (x117 <- (x115 <- (midi2_view (make_midi2_program_change 9 0 44)) ;; Ok (as_midi1 x115)) ;; opt_get x117) ;; packet_eq x118 (make_midi1_program_change 9 0 44));
    (b_ <- (x120 <- (x119 <- (midi2_view (make_midi2_program_change_bank 14 7 0 42)) ;; Ok (as_midi1 x119)) ;; Ok (opt_some x120)) ;; Ok (negb b_));
    (x122 <- (x121 <- (midi2_view (make_midi2_channel_pressure 8 8 2882400001)) ;; Ok (as_midi1 x121)) ;; Ok (opt_some x122));
    (x124 <- (x123 <- (x121 <- (midi2_view (make_midi2_channel_pressure 8 8 2882400001)) ;; Ok (as_midi1 x121)) ;; opt_get x123) ;; packet_eq x124 (make_midi1_channel_pressure 8 8 2882400001));
    (x126 <- (x125 <- (midi2_view (make_midi2_channel_pressure 2 14 (controller_of_uint7 109))) ;; Ok (as_midi1 x125)) ;; Ok (opt_some x126));
    (x128 <- (x127 <- (x125 <- (midi2_view (make_midi2_channel_pressure 2 14 (controller_of_uint7 109))) ;; Ok (as_midi1 x125)) ;; opt_get x127) ;; packet_eq x128 (make_midi1_channel_pressure 2 14 (controller_of_uint7 109)));
    (x138 <- (x137 <- (midi2_view (make_midi2_pitch_bend 2 14 2166572391)) ;; Ok (as_midi1 x137)) ;; Ok (opt_some x138));
    (x140 <- (x139 <- (x137 <- (midi2_view (make_midi2_pitch_bend 2 14 2166572391)) ;; Ok (as_midi1 x137)) ;; opt_get x139) ;; packet_eq x140 (make_midi1_pitch_bend 2 14 2166572391));
    (b_ <- (x142 <- (x141 <- (midi2_view (make_registered_per_note_controller 15 10 44 2 123456)) ;; Ok (as_midi1 x141)) ;; Ok (opt_some x142)) ;; Ok (negb b_));
    (b_ <- (x144 <- (x143 <- (midi2_view (make_assignable_per_note_controller 3 7 64 99 987654)) ;; Ok (as_midi1 x143)) ;; Ok (opt_some x144)) ;; Ok (negb b_));
    (b_ <- (x146 <- (x145 <- (midi2_view (make_registered_controller 2 9 0 4 123456)) ;; Ok (as_midi1 x145)) ;; Ok (opt_some x146)) ;; Ok (negb b_));
    (b_ <- (x148 <- (x147 <- (midi2_view (make_assignable_per_note_controller 3 7 64 99 987654)) ;; Ok (as_midi1 x147)) ;; Ok (opt_some x148)) ;; Ok (negb b_));
    (b_ <- (x150 <- (x149 <- (midi2_view (make_relative_registered_controller 2 9 0 4 (-1234))) ;; Ok (as_midi1 x149)) ;; Ok (opt_some x150)) ;; Ok (negb b_));
    (b_ <- (x152 <- (x151 <- (midi2_view (make_relative_assignable_controller 8 0 4 12 111)) ;; Ok (as_midi1 x151)) ;; Ok (opt_some x152)) ;; Ok (negb b_));
    (b_ <- (x154 <- (x153 <- (midi2_view (make_per_note_pitch_bend 11 12 13 2147483649)) ;; Ok (as_midi1 x153)) ;; Ok (opt_some x154)) ;; Ok (negb b_));
    (b_ <- (x156 <- (x155 <- (midi2_view (make_per_note_management 2 7 66 1)) ;; Ok (as_midi1 x155)) ;; Ok (opt_some x156)) ;; Ok (negb b_))].
Proof. vm_compute. repeat constructor. Qed.

(* line 1020 *)
Example test_as_midi2_channel_voice_message : all_true [
    (x159 <- (x158 <- (x157 <- (midi1_view (make_midi1_note_on 4 7 99 (velocity_of_uint7 75))) ;; as_midi2 x157) ;; opt_get x158) ;; packet_eq x159 (make_midi2_note_on 4 7 99 (velocity_of_uint7 75)));
    (x162 <- (x161 <- (x160 <- (midi1_view (make_midi1_note_on 13 5 60 (velocity_of_uint7 0))) ;; as_midi2 x160) ;; opt_get x161) ;; packet_eq x162 (make_midi2_note_off 13 5 60 (velocity_of_uint7 64) 0 0));
    (x165 <- (x164 <- (x163 <- (midi1_view (make_midi1_note_off 3 9 66 (velocity_of_uint7 112))) ;; as_midi2 x163) ;; opt_get x164) ;; packet_eq x165 (make_midi2_note_off 3 9 66 (velocity_of_uint7 112) 0 0));
    (x168 <- (x167 <- (x166 <- (midi1_view (make_midi1_note_off 13 5 60 (velocity_of_uint7 0))) ;; as_midi2 x166) ;; opt_get x167) ;; packet_eq x168 (make_midi2_note_off 13 5 60 (velocity_of_uint7 0) 0 0));
    (x171 <- (x170 <- (x169 <- (midi1_view (make_midi1_poly_pressure 14 2 64 (controller_of_uint7 77))) ;; as_midi2 x169) ;; opt_get x170) ;; packet_eq x171 (make_midi2_poly_pressure 14 2 64 (controller_of_uint7 77)));
    (x174 <- (x173 <- (x172 <- (midi1_view (make_midi1_poly_pressure 14 2 64 (controller_of_uint7 115))) ;; as_midi2 x172) ;; opt_get x173) ;; packet_eq x174 (make_midi2_poly_pressure 14 2 64 (controller_of_uint7 115)));
    (x177 <- (x176 <- (x175 <- (midi1_view (make_midi1_control_change 5 15 7 (controller_of_uint7 19))) ;; as_midi2 x175) ;; opt_get x176) ;; packet_eq x177 (make_midi2_control_change 5 15 7 (controller_of_uint7 19)));
    (x180 <- (x179 <- (x178 <- (midi1_view (make_midi1_control_change 9 0 49 (controller_of_uint7 65))) ;; as_midi2 x178) ;; opt_get x179) ;; packet_eq x180 (make_midi2_control_change 9 0 49 (controller_of_uint7 65)));
    (b_ <- (x182 <- (x181 <- (midi1_view (make_midi1_control_change 9 0 0 12345)) ;; as_midi2 x181) ;; Ok (opt_some x182)) ;; Ok (negb b_));
    (b_ <- (x184 <- (x183 <- (midi1_view (make_midi1_control_change 9 0 6 12345)) ;; as_midi2 x183) ;; Ok (opt_some x184)) ;; Ok (negb b_));
    (b_ <- (x186 <- (x185 <- (midi1_view (make_midi1_control_change 9 0 32 12345)) ;; as_midi2 x185) ;; Ok (opt_some x186)) ;; Ok (negb b_));
    (b_ <- (x188 <- (x187 <- (midi1_view (make_midi1_control_change 9 0 38 12345)) ;; as_midi2 x187) ;; Ok (opt_some x188)) ;; Ok (negb b_));
    (b_ <- (x190 <- (x189 <- (midi1_view (make_midi1_control_change 9 0 88 12345)) ;; as_midi2 x189) ;; Ok (opt_some x190)) ;; Ok (negb b_));
    (b_ <- (x192 <- (x191 <- (midi1_view (make_midi1_control_change 9 0 98 12345)) ;; as_midi2 x191) ;; Ok (opt_some x192)) ;; Ok (negb b_));
    (b_ <- (x194 <- (x193 <- (midi1_view (make_midi1_control_change 9 0 99 12345)) ;; as_midi2 x193) ;; Ok (opt_some x194)) ;; Ok (negb b_));
    (b_ <- (x196 <- (x195 <- (midi1_view (make_midi1_control_change 9 0 100 12345)) ;; as_midi2 x195) ;; Ok (opt_some x196)) ;; Ok (negb b_));
    (b_ <- (x198 <- (x197 <- (midi1_view (make_midi1_control_change 9 0 101 12345)) ;; as_midi2 x197) ;; Ok (opt_some x198)) ;; Ok (negb b_));
    (x201 <- (x200 <- (x199 <- (midi1_view (make_midi1_program_change 14 7 42)) ;; as_midi2 x199) ;; opt_get x200) ;; packet_eq x201 (make_midi2_program_change 14 7 42));
    (x204 <- (x203 <- (x202 <- (midi1_view (make_midi1_program_change 9 0 44)) ;; as_midi2 x202) ;; opt_get x203) ;; packet_eq x204 (make_midi2_program_change 9 0 44));
    (x207 <- (x206 <- (x205 <- (midi1_view (make_midi1_channel_pressure 8 8 (controller_of_uint7 81))) ;; as_midi2 x205) ;; opt_get x206) ;; packet_eq x207 (make_midi2_channel_pressure 8 8 (controller_of_uint7 81)));
    (x210 <- (x209 <- (x208 <- (midi1_view (make_midi1_channel_pressure 2 14 (controller_of_uint7 109))) ;; as_midi2 x208) ;; opt_get x209) ;; packet_eq x210 (make_midi2_channel_pressure 2 14 (controller_of_uint7 109)));
    (x223 <- (x221 <- (x220 <- (x219 <- (x218 <- (pitch_bend_of_uint14 1234) ;; Ok (make_midi1_pitch_bend 2 14 x218)) ;; midi1_view x219) ;; as_midi2 x220) ;; opt_get x221) ;; x224 <- (x222 <- (pitch_bend_of_uint14 1234) ;; Ok (make_midi2_pitch_bend 2 14 x222)) ;; packet_eq x223 x224);
    (b_ <- (x226 <- (x225 <- (midi1_view (make_midi1_cv 5 0 4 1 2)) ;; as_midi2 x225) ;; Ok (opt_some x226)) ;; Ok (negb b_))].
Proof. vm_compute. repeat constructor. Qed.

(* ==== tests/midi1_channel_voice_message_tests.cpp ==== *)


(* line 53 *)
Example test_constructors : all_true [
    (Ok (is_midi1_channel_voice_message (midi1_cv 4 150 44 101)));
    (x227 <- (word (midi1_cv 4 150 44 101) 0%nat) ;; Ok (Z.eqb 613821541 x227));
    (x228 <- (word (midi1_cv 4 150 44 101) 1%nat) ;; Ok (Z.eqb 0 x228));
    (x229 <- (word (midi1_cv 4 150 44 101) 2%nat) ;; Ok (Z.eqb 0 x229));
    (x230 <- (word (midi1_cv 4 150 44 101) 3%nat) ;; Ok (Z.eqb 0 x230));
    (x231 <- (n_ <- (Ok (psize (midi1_cv 4 150 44 101))) ;; Ok (Z.of_nat n_)) ;; Ok (Z.eqb 1 x231));
    (Ok (Z.eqb 2 (type (midi1_cv 4 150 44 101))));
    (Ok (Z.eqb 4 (group (midi1_cv 4 150 44 101))));
    (Ok (Z.eqb 150 (status (midi1_cv 4 150 44 101))));
    (Ok (Z.eqb 150 (byte2 (midi1_cv 4 150 44 101))));
    (Ok (Z.eqb 44 (byte3 (midi1_cv 4 150 44 101))));
    (Ok (Z.eqb 101 (byte4 (midi1_cv 4 150 44 101))));
    (Ok (opt_some (as_midi1_view (midi1_cv 4 150 44 101))));
    (x233 <- (x232 <- (midi1_view (midi1_cv 4 150 44 101)) ;; Ok (group x232)) ;; Ok (Z.eqb 4 x233));
    (x235 <- (x234 <- (midi1_view (midi1_cv 4 150 44 101)) ;; Ok (m1_status x234)) ;; Ok (Z.eqb 144 x235));
    (x237 <- (x236 <- (midi1_view (midi1_cv 4 150 44 101)) ;; Ok (m1_channel x236)) ;; Ok (Z.eqb 6 x237));
    (x239 <- (x238 <- (midi1_view (midi1_cv 4 150 44 101)) ;; Ok (m1_data_byte_1 x238)) ;; Ok (Z.eqb 44 x239));
    (x241 <- (x240 <- (midi1_view (midi1_cv 4 150 44 101)) ;; Ok (m1_data_byte_2 x240)) ;; Ok (Z.eqb 101 x241))].
Proof. vm_compute. repeat constructor. Qed.

(* line 88 *)
Example test_midi1_channel_voice_message_view : all_true [
    (Ok (is_midi1_channel_voice_message (midi1_cv 4 150 44 101)));
    (Ok (opt_some (as_midi1_view (midi1_cv 4 150 44 101))));
    (x243 <- (x242 <- (midi1_view (midi1_cv 4 150 44 101)) ;; Ok (group x242)) ;; Ok (Z.eqb 4 x243));
    (x245 <- (x244 <- (midi1_view (midi1_cv 4 150 44 101)) ;; Ok (m1_status x244)) ;; Ok (Z.eqb 144 x245));
    (x247 <- (x246 <- (midi1_view (midi1_cv 4 150 44 101)) ;; Ok (m1_channel x246)) ;; Ok (Z.eqb 6 x247));
    (x249 <- (x248 <- (midi1_view (midi1_cv 4 150 44 101)) ;; Ok (m1_data_byte_1 x248)) ;; Ok (Z.eqb 44 x249));
    (x251 <- (x250 <- (midi1_view (midi1_cv 4 150 44 101)) ;; Ok (m1_data_byte_2 x250)) ;; Ok (Z.eqb 101 x251))].
Proof. vm_compute. repeat constructor. Qed.

(* line 109 *)
Example test_channel : all_true [
    (x252 <- (channel (mkP 546186053 0 0 0)) ;; Ok (Z.eqb 14 x252));
    (x253 <- (channel (mkP 596779845 0 0 0)) ;; Ok (Z.eqb 2 x253));
    (x254 <- (channel (mkP 715474465 0 0 0)) ;; Ok (Z.eqb 5 x254));
    (x255 <- (channel (mkP 649143109 0 0 0)) ;; Ok (Z.eqb 1 x255));
    (x256 <- (channel (mkP 667755333 0 0 0)) ;; Ok (Z.eqb 13 x256));
    (x257 <- (channel (mkP 701113157 0 0 0)) ;; Ok (Z.eqb 10 x257));
    (x258 <- (channel (mkP 753354273 0 0 0)) ;; Ok (Z.eqb 7 x258))].
Proof. vm_compute. repeat constructor. Qed.

(* line 125 *)
Example test_data_bytes : all_true [
    (x260 <- (x259 <- (midi1_view (mkP 545342515 0 0 0)) ;; Ok (m1_data_byte_1 x259)) ;; Ok (Z.eqb x260 68));
    (x262 <- (x261 <- (midi1_view (mkP 545342515 0 0 0)) ;; Ok (m1_data_byte_2 x261)) ;; Ok (Z.eqb x262 51));
    (x264 <- (x263 <- (midi1_view (mkP 686954300 0 0 0)) ;; Ok (m1_data_byte_1 x263)) ;; Ok (Z.eqb 23 x264));
    (x266 <- (x265 <- (midi1_view (mkP 686954300 0 0 0)) ;; Ok (m1_data_byte_2 x265)) ;; Ok (Z.eqb 60 x266));
    (x268 <- (x267 <- (midi1_view (mkP 749076738 0 0 0)) ;; Ok (m1_data_byte_1 x267)) ;; Ok (Z.eqb 1 x268));
    (x270 <- (x269 <- (midi1_view (mkP 749076738 0 0 0)) ;; Ok (m1_data_byte_2 x269)) ;; Ok (Z.eqb 2 x270))].
Proof. vm_compute. repeat constructor. Qed.

(* line 154 *)
Example test_get_14bit_value : all_true [
    (x272 <- (x271 <- (midi1_view (mkP 636551168 0 0 0)) ;; Ok (m1_get_14bit_value x271)) ;; Ok (Z.eqb 0 x272));
    (x274 <- (x273 <- (midi1_view (mkP 545342515 0 0 0)) ;; Ok (m1_get_14bit_value x273)) ;; Ok (Z.eqb 6596 x274));
    (x276 <- (x275 <- (midi1_view (mkP 686954300 0 0 0)) ;; Ok (m1_get_14bit_value x275)) ;; Ok (Z.eqb 7703 x276));
    (x278 <- (x277 <- (midi1_view (mkP 749076738 0 0 0)) ;; Ok (m1_get_14bit_value x277)) ;; Ok (Z.eqb 257 x278));
    (x280 <- (x279 <- (midi1_view (mkP 753270848 0 0 0)) ;; Ok (m1_get_14bit_value x279)) ;; Ok (Z.eqb 8192 x280));
    (x282 <- (x281 <- (midi1_view (mkP 753303423 0 0 0)) ;; Ok (m1_get_14bit_value x281)) ;; Ok (Z.eqb 16383 x282))].
Proof. vm_compute. repeat constructor. Qed.

(* line 201 *)
Example test_make_midi1_channel_voice_message : all_true [
    (packet_eq (mkP 697660536 0 0 0) (make_midi1_cv 9 144 5 116 120));
    (packet_eq (mkP 751436800 0 0 0) (make_midi1_cv 12 192 10 4 0));
    (packet_eq (mkP 548093046 0 0 0) (make_midi1_cv 0 171 0 60 118));
    (packet_eq (mkP 615859575 0 0 0) (make_midi1_cv 4 176 53 69 119))].
Proof. vm_compute. repeat constructor. Qed.

(* line 230 *)
Example test_make_midi1_note_off_message : all_true [
    (packet_eq (mkP 612978723 0 0 0) (make_midi1_note_off 4 9 80 (velocity_of_uint7 35)));
    (packet_eq (mkP 764286033 0 0 0) (make_midi1_note_off 13 14 20 (velocity_of_uint7 209)))].
Proof. vm_compute. repeat constructor. Qed.

(* line 245 *)
Example test_make_note_on_message : all_true [
    (packet_eq (mkP 680792577 0 0 0) (make_midi1_note_on 8 4 18 (velocity_of_uint7 1)));
    (packet_eq (mkP 663975792 0 0 0) (make_midi1_note_on 7 3 119 (velocity_of_uint7 240)))].
Proof. vm_compute. repeat constructor. Qed.

(* line 260 *)
Example test_make_midi1_poly_pressure_message : all_true [
    (packet_eq (mkP 547447666 0 0 0) (make_midi1_poly_pressure 0 1 99 (controller_of_uint7 114)));
    (packet_eq (mkP 648626303 0 0 0) (make_midi1_poly_pressure 6 9 64 (controller_of_uint7 255)))].
Proof. vm_compute. repeat constructor. Qed.

(* line 277 *)
Example test_make_midi1_control_change_message : all_true [
    (packet_eq (mkP 699676790 0 0 0) (make_midi1_control_change 9 4 56 (controller_of_uint7 118)));
    (packet_eq (mkP 733758816 0 0 0) (make_midi1_control_change 11 12 197 (controller_of_uint7 96)))].
Proof. vm_compute. repeat constructor. Qed.

(* line 294 *)
Example test_make_midi1_program_change_message : all_true [
    (packet_eq (mkP 784556800 0 0 0) (make_midi1_program_change 14 3 99));
    (packet_eq (mkP 701187328 0 0 0) (make_midi1_program_change 9 11 197))].
Proof. vm_compute. repeat constructor. Qed.

(* line 309 *)
Example test_make_midi1_channel_pressure_message : all_true [
    (packet_eq (mkP 785611008 0 0 0) (make_midi1_channel_pressure 14 3 (controller_of_uint7 121)));
    (packet_eq (mkP 702243584 0 0 0) (make_midi1_channel_pressure 9 11 (controller_of_uint7 99)))].
Proof. vm_compute. repeat constructor. Qed.

(* line 326 *)
Example test_make_midi1_pitch_bend_message : all_true [
    (x284 <- (x283 <- (pitch_bend_of_uint14 8192) ;; Ok (make_midi1_pitch_bend 12 9 x283)) ;; packet_eq (mkP 753467456 0 0 0) x284);
    (x286 <- (x285 <- (pitch_bend_of_uint14 9234) ;; Ok (make_midi1_pitch_bend 3 7 x285)) ;; packet_eq (mkP 602346056 0 0 0) x286)].
Proof. vm_compute. repeat constructor. Qed.

(* line 341 *)
Example test_construct_from_ump : all_true [
    (packet_eq (make_midi1_note_on 1 1 1 (velocity_of_uint7 1)) (make_midi1_note_on 1 1 1 (velocity_of_uint7 1)));
    (packet_eq (make_midi1_channel_pressure 1 1 (controller_of_uint7 1)) (make_midi1_channel_pressure 1 1 (controller_of_uint7 1)));
    (packet_eq (make_midi1_cv 1 144 1 1 1) (make_midi1_cv 1 144 1 1 1));
    (packet_eq (make_midi1_program_change 1 1 1) (make_midi1_program_change 1 1 1))].
Proof. vm_compute. repeat constructor. Qed.

(* ==== tests/midi2_channel_voice_message_tests.cpp ==== *)


(* line 35 *)
Example test_constructors_ : all_true [
    (Ok (is_midi2_channel_voice_message (midi2_cv 4 144 6 44 88 3489660928)));
    (x287 <- (word (midi2_cv 4 144 6 44 88 3489660928) 0%nat) ;; Ok (Z.eqb 1150692440 x287));
    (x288 <- (word (midi2_cv 4 144 6 44 88 3489660928) 1%nat) ;; Ok (Z.eqb 3489660928 x288));
    (x289 <- (word (midi2_cv 4 144 6 44 88 3489660928) 2%nat) ;; Ok (Z.eqb 0 x289));
    (x290 <- (word (midi2_cv 4 144 6 44 88 3489660928) 3%nat) ;; Ok (Z.eqb 0 x290));
    (x291 <- (n_ <- (Ok (psize (midi2_cv 4 144 6 44 88 3489660928))) ;; Ok (Z.of_nat n_)) ;; Ok (Z.eqb 2 x291));
    (Ok (Z.eqb 4 (type (midi2_cv 4 144 6 44 88 3489660928))));
    (Ok (Z.eqb 4 (group (midi2_cv 4 144 6 44 88 3489660928))));
    (Ok (Z.eqb 150 (status (midi2_cv 4 144 6 44 88 3489660928))));
    (Ok (Z.eqb 150 (byte2 (midi2_cv 4 144 6 44 88 3489660928))));
    (Ok (Z.eqb 44 (byte3 (midi2_cv 4 144 6 44 88 3489660928))));
    (Ok (Z.eqb 88 (byte4 (midi2_cv 4 144 6 44 88 3489660928))));
    (Ok (opt_some (as_midi2_view (midi2_cv 4 144 6 44 88 3489660928))));
    (x293 <- (x292 <- (midi2_view (midi2_cv 4 144 6 44 88 3489660928)) ;; Ok (group x292)) ;; Ok (Z.eqb 4 x293));
    (x295 <- (x294 <- (midi2_view (midi2_cv 4 144 6 44 88 3489660928)) ;; Ok (m2_status x294)) ;; Ok (Z.eqb 144 x295));
    (x297 <- (x296 <- (midi2_view (midi2_cv 4 144 6 44 88 3489660928)) ;; Ok (m2_channel x296)) ;; Ok (Z.eqb 6 x297));
    (x299 <- (x298 <- (midi2_view (midi2_cv 4 144 6 44 88 3489660928)) ;; Ok (m2_byte3 x298)) ;; Ok (Z.eqb 44 x299));
    (x301 <- (x300 <- (midi2_view (midi2_cv 4 144 6 44 88 3489660928)) ;; Ok (m2_byte4 x300)) ;; Ok (Z.eqb 88 x301));
    (x303 <- (x302 <- (midi2_view (midi2_cv 4 144 6 44 88 3489660928)) ;; Ok (m2_data x302)) ;; Ok (Z.eqb 3489660928 x303));
    (Ok (is_midi2_channel_voice_message (mkP 1132624460 2271560481 0 0)));
    (x304 <- (word (mkP 1132624460 2271560481 0 0) 0%nat) ;; Ok (Z.eqb 1132624460 x304));
    (x305 <- (word (mkP 1132624460 2271560481 0 0) 1%nat) ;; Ok (Z.eqb 2271560481 x305));
    (x306 <- (word (mkP 1132624460 2271560481 0 0) 2%nat) ;; Ok (Z.eqb 0 x306));
    (x307 <- (word (mkP 1132624460 2271560481 0 0) 3%nat) ;; Ok (Z.eqb 0 x307));
    (x308 <- (n_ <- (Ok (psize (mkP 1132624460 2271560481 0 0))) ;; Ok (Z.of_nat n_)) ;; Ok (Z.eqb 2 x308));
    (Ok (Z.eqb 4 (type (mkP 1132624460 2271560481 0 0))));
    (Ok (Z.eqb 3 (group (mkP 1132624460 2271560481 0 0))));
    (Ok (Z.eqb 130 (status (mkP 1132624460 2271560481 0 0))));
    (Ok (Z.eqb 130 (byte2 (mkP 1132624460 2271560481 0 0))));
    (Ok (Z.eqb 122 (byte3 (mkP 1132624460 2271560481 0 0))));
    (Ok (Z.eqb 76 (byte4 (mkP 1132624460 2271560481 0 0))));
    (Ok (opt_some (as_midi2_view (mkP 1132624460 2271560481 0 0))));
    (x310 <- (x309 <- (midi2_view (mkP 1132624460 2271560481 0 0)) ;; Ok (group x309)) ;; Ok (Z.eqb 3 x310));
    (x312 <- (x311 <- (midi2_view (mkP 1132624460 2271560481 0 0)) ;; Ok (m2_status x311)) ;; Ok (Z.eqb 128 x312));
    (x314 <- (x313 <- (midi2_view (mkP 1132624460 2271560481 0 0)) ;; Ok (m2_channel x313)) ;; Ok (Z.eqb 2 x314));
    (x316 <- (x315 <- (midi2_view (mkP 1132624460 2271560481 0 0)) ;; Ok (m2_byte3 x315)) ;; Ok (Z.eqb 122 x316));
    (x318 <- (x317 <- (midi2_view (mkP 1132624460 2271560481 0 0)) ;; Ok (m2_byte4 x317)) ;; Ok (Z.eqb 76 x318));
    (x320 <- (x319 <- (midi2_view (mkP 1132624460 2271560481 0 0)) ;; Ok (m2_data x319)) ;; Ok (Z.eqb 2271560481 x320))].
Proof. vm_compute. repeat constructor. Qed.

(* line 100 *)
Example test_midi2_channel_voice_message_view : all_true [
    (Ok (opt_some (as_midi2_view (midi2_cv 4 144 6 44 88 3489660928))));
    (x322 <- (x321 <- (midi2_view (midi2_cv 4 144 6 44 88 3489660928)) ;; Ok (group x321)) ;; Ok (Z.eqb 4 x322));
    (x324 <- (x323 <- (midi2_view (midi2_cv 4 144 6 44 88 3489660928)) ;; Ok (m2_status x323)) ;; Ok (Z.eqb 144 x324));
    (x326 <- (x325 <- (midi2_view (midi2_cv 4 144 6 44 88 3489660928)) ;; Ok (m2_channel x325)) ;; Ok (Z.eqb 6 x326));
    (x328 <- (x327 <- (midi2_view (midi2_cv 4 144 6 44 88 3489660928)) ;; Ok (m2_byte3 x327)) ;; Ok (Z.eqb 44 x328));
    (x330 <- (x329 <- (midi2_view (midi2_cv 4 144 6 44 88 3489660928)) ;; Ok (m2_byte4 x329)) ;; Ok (Z.eqb 88 x330));
    (x332 <- (x331 <- (midi2_view (midi2_cv 4 144 6 44 88 3489660928)) ;; Ok (m2_data x331)) ;; Ok (Z.eqb 3489660928 x332));
    (Ok (opt_some (as_midi2_view (midi2_cv 7 128 5 99 10 2147483649))));
    (x334 <- (x333 <- (midi2_view (midi2_cv 7 128 5 99 10 2147483649)) ;; Ok (group x333)) ;; Ok (Z.eqb 7 x334));
    (x336 <- (x335 <- (midi2_view (midi2_cv 7 128 5 99 10 2147483649)) ;; Ok (m2_status x335)) ;; Ok (Z.eqb 128 x336));
    (x338 <- (x337 <- (midi2_view (midi2_cv 7 128 5 99 10 2147483649)) ;; Ok (m2_channel x337)) ;; Ok (Z.eqb 5 x338));
    (x340 <- (x339 <- (midi2_view (midi2_cv 7 128 5 99 10 2147483649)) ;; Ok (m2_byte3 x339)) ;; Ok (Z.eqb 99 x340));
    (x342 <- (x341 <- (midi2_view (midi2_cv 7 128 5 99 10 2147483649)) ;; Ok (m2_byte4 x341)) ;; Ok (Z.eqb 10 x342));
    (x344 <- (x343 <- (midi2_view (midi2_cv 7 128 5 99 10 2147483649)) ;; Ok (m2_data x343)) ;; Ok (Z.eqb 2147483649 x344));
    (b_ <- (Ok (opt_some (as_midi2_view (make_midi1_note_on 1 1 70 (velocity_of_uint7 120))))) ;; Ok (negb b_))].
Proof. vm_compute. repeat constructor. Qed.

(* line 142 *)
Example test_make_midi2_channel_voice_message : all_true [
    (packet_eq (mkP 1234531328 305419896 0 0) (make_midi2_cv 9 144 5 116 0 305419896));
    (packet_eq (mkP 1148076800 2147537187 0 0) (make_midi2_cv 4 96 14 67 0 2147537187));
    (Ok (is_per_note_pitch_bend_message (make_midi2_cv 4 96 14 67 0 2147537187)));
    (packet_eq (mkP 1277494370 2882400000 0 0) (make_midi2_cv 12 32 5 4 98 2882400000));
    (Ok (is_registered_controller_message (make_midi2_cv 12 32 5 4 98 2882400000)));
    (packet_eq (mkP 1090060291 0 0 0) (make_midi2_cv 0 251 9 0 3 0));
    (packet_eq (mkP 1085621504 119 0 0) (make_midi2_cv 0 176 53 69 0 119))].
Proof. vm_compute. repeat constructor. Qed.

(* line 180 *)
Example test_make_midi2_note_off_message : all_true [
    (packet_eq (mkP 1149849600 3508731904 0 0) (make_midi2_note_off 4 9 80 53539 0 0));
    (packet_eq (mkP 1301156865 3508770934 0 0) (make_midi2_note_off 13 14 20 53539 1 39030))].
Proof. vm_compute. repeat constructor. Qed.

(* line 197 *)
Example test_make_midi2_note_on_message : all_true [
    (packet_eq (mkP 1217663488 16908288 0 0) (make_midi2_note_on 8 4 18 258));
    (packet_eq (mkP 1200846595 4026622261 0 0) (make_midi2_note_on_attribute 7 3 119 61441 3 24885))].
Proof. vm_compute. repeat constructor. Qed.

(* line 214 *)
Example test_make_midi2_poly_pressure_message : all_true [
    (packet_eq (mkP 1084318464 1028733 0 0) (make_midi2_poly_pressure 0 1 99 1028733));
    (packet_eq (mkP 1185497088 100000000 0 0) (make_midi2_poly_pressure 6 9 64 100000000))].
Proof. vm_compute. repeat constructor. Qed.

(* line 231 *)
Example test_make_registered_per_note_controller_message : all_true [
    (packet_eq (mkP 1326328909 860116326 0 0) (make_registered_per_note_controller 15 14 44 77 860116326));
    (Ok (is_registered_per_note_controller_message (make_registered_per_note_controller 15 14 44 77 860116326)));
    (Ok (Z.eqb (get_per_note_controller_index (make_registered_per_note_controller 15 14 44 77 860116326)) 77));
    (b_ <- (Ok (is_registered_per_note_controller_pitch_message (make_registered_per_note_controller 15 14 44 77 860116326))) ;; Ok (negb b_));
    (packet_eq (mkP 1090859844 85 0 0) (make_registered_per_note_controller 1 5 51 68 85));
    (Ok (is_registered_per_note_controller_message (make_registered_per_note_controller 1 5 51 68 85)));
    (Ok (Z.eqb (get_per_note_controller_index (make_registered_per_note_controller 1 5 51 68 85)) 68));
    (b_ <- (Ok (is_registered_per_note_controller_pitch_message (make_registered_per_note_controller 1 5 51 68 85))) ;; Ok (negb b_));
    (packet_eq (mkP 1191460867 305419896 0 0) (make_registered_per_note_controller 7 4 64 3 305419896));
    (Ok (is_registered_per_note_controller_message (make_registered_per_note_controller 7 4 64 3 305419896)));
    (Ok (Z.eqb (get_per_note_controller_index (make_registered_per_note_controller 7 4 64 3 305419896)) 3));
    (Ok (is_registered_per_note_controller_pitch_message (make_registered_per_note_controller 7 4 64 3 305419896)))].
Proof. vm_compute. repeat constructor. Qed.

(* line 264 *)
Example test_make_assignable_per_note_controller_message : all_true [
    (packet_eq (mkP 1310528052 1146447479 0 0) (make_assignable_per_note_controller 14 13 18 52 1146447479));
    (Ok (is_assignable_per_note_controller_message (make_assignable_per_note_controller 14 13 18 52 1146447479)));
    (Ok (Z.eqb (get_per_note_controller_index (make_assignable_per_note_controller 14 13 18 52 1146447479)) 52));
    (packet_eq (mkP 1108619587 1979711572 0 0) (make_assignable_per_note_controller 2 4 49 67 1979711572))].
Proof. vm_compute. repeat constructor. Qed.

(* line 284 *)
Example test_make_per_note_management_message : all_true [
    (packet_eq (mkP 1190462466 0 0 0) (make_per_note_management 6 5 4 2));
    (packet_eq (mkP 1123500545 0 0 0) (make_per_note_management 2 7 66 1));
    (packet_eq (mkP 1342005251 0 0 0) (make_per_note_management 15 13 96 3))].
Proof. vm_compute. repeat constructor. Qed.

(* line 306 *)
Example test_make_midi2_control_change_message : all_true [
    (packet_eq (mkP 1236547584 2557891634 0 0) (make_midi2_control_change 9 4 56 2557891634));
    (packet_eq (mkP 1270629632 3735928559 0 0) (make_midi2_control_change 11 12 197 3735928559))].
Proof. vm_compute. repeat constructor. Qed.

(* line 323 *)
Example test_make_registered_controller_message : all_true [
    (packet_eq (mkP 1126631749 2148536336 0 0) (make_registered_controller 3 7 9 69 2148536336));
    (Ok (is_registered_controller_message (make_registered_controller 3 7 9 69 2148536336)));
    (packet_eq (mkP 1310934273 3735928559 0 0) (make_registered_controller 14 3 197 1 3735928559));
    (packet_eq (mkP 1261177203 195934910 0 0) (make_registered_controller 11 12 9 243 195934910))].
Proof. vm_compute. repeat constructor. Qed.

(* line 346 *)
Example test_make_assignable_controller_message : all_true [
    (packet_eq (mkP 1127680325 2148536336 0 0) (make_assignable_controller 3 7 9 69 2148536336));
    (Ok (is_assignable_controller_message (make_assignable_controller 3 7 9 69 2148536336)));
    (packet_eq (mkP 1311982849 3735928559 0 0) (make_assignable_controller 14 3 197 1 3735928559));
    (packet_eq (mkP 1262225779 195934910 0 0) (make_assignable_controller 11 12 9 243 195934910))].
Proof. vm_compute. repeat constructor. Qed.

(* line 369 *)
Example test_make_relative_registered_controller_message : all_true [
    (packet_eq (mkP 1128728901 4294966774 0 0) (make_relative_registered_controller 3 7 9 69 (-522)));
    (packet_eq (mkP 1313031425 1024 0 0) (make_relative_registered_controller 14 3 197 1 1024));
    (packet_eq (mkP 1263274355 4294967197 0 0) (make_relative_registered_controller 11 12 9 243 (-99)))].
Proof. vm_compute. repeat constructor. Qed.

(* line 391 *)
Example test_make_relative_assignable_controller_message : all_true [
    (packet_eq (mkP 1129777477 4294966774 0 0) (make_relative_assignable_controller 3 7 9 69 (-522)));
    (packet_eq (mkP 1314080001 1024 0 0) (make_relative_assignable_controller 14 3 197 1 1024));
    (packet_eq (mkP 1264322931 4294967197 0 0) (make_relative_assignable_controller 11 12 9 243 (-99)))].
Proof. vm_compute. repeat constructor. Qed.

(* line 413 *)
Example test_make_midi2_program_change_message : all_true [
    (packet_eq (mkP 1321402368 1660944384 0 0) (make_midi2_program_change 14 3 99));
    (packet_eq (mkP 1238040576 1157627904 0 0) (make_midi2_program_change 9 11 197));
    (packet_eq (mkP 1103626241 83895348 0 0) (make_midi2_program_change_bank 1 8 5 4660));
    (packet_eq (mkP 1237516289 2130715678 0 0) (make_midi2_program_change_bank 9 3 127 53790))].
Proof. vm_compute. repeat constructor. Qed.

(* line 440 *)
Example test_make_midi2_channel_pressure_message : all_true [
    (packet_eq (mkP 1322450944 2032613447 0 0) (make_midi2_channel_pressure 14 3 2032613447));
    (packet_eq (mkP 1239089152 29384756 0 0) (make_midi2_channel_pressure 9 11 29384756))].
Proof. vm_compute. repeat constructor. Qed.

(* line 457 *)
Example test_make_midi2_pitch_bend_message : all_true [
    (packet_eq (mkP 1290338304 2147483648 0 0) (make_midi2_pitch_bend 12 9 2147483648));
    (packet_eq (mkP 1139212288 1142056245 0 0) (make_midi2_pitch_bend 3 7 1142056245))].
Proof. vm_compute. repeat constructor. Qed.

(* line 474 *)
Example test_make_per_note_pitch_bend_message : all_true [
    (packet_eq (mkP 1281969408 2147483648 0 0) (make_per_note_pitch_bend 12 9 77 2147483648));
    (Ok (Z.eqb (get_per_note_pitch_bend_value (make_per_note_pitch_bend 12 9 77 2147483648)) 2147483648));
    (packet_eq (mkP 1130861568 1142056245 0 0) (make_per_note_pitch_bend 3 7 148 1142056245));
    (Ok (Z.eqb (get_per_note_pitch_bend_value (make_per_note_pitch_bend 3 7 148 1142056245)) 1142056245))].
Proof. vm_compute. repeat constructor. Qed.

(* line 493 *)
Example test_is_midi2_type_query_functions : all_true [
    (b_ <- (Ok (is_midi2_channel_voice_message (make_midi1_note_on 1 1 60 (velocity_of_uint7 90)))) ;; Ok (negb b_));
    (b_ <- (Ok (is_registered_controller_message (make_midi1_note_on 1 1 60 (velocity_of_uint7 90)))) ;; Ok (negb b_));
    (b_ <- (Ok (is_assignable_controller_message (make_midi1_note_on 1 1 60 (velocity_of_uint7 90)))) ;; Ok (negb b_));
    (b_ <- (Ok (is_registered_per_note_controller_message (make_midi1_note_on 1 1 60 (velocity_of_uint7 90)))) ;; Ok (negb b_));
    (b_ <- (Ok (is_assignable_per_note_controller_message (make_midi1_note_on 1 1 60 (velocity_of_uint7 90)))) ;; Ok (negb b_));
    (b_ <- (Ok (is_per_note_pitch_bend_message (make_midi1_note_on 1 1 60 (velocity_of_uint7 90)))) ;; Ok (negb b_));
    (Ok (is_midi2_channel_voice_message (make_midi2_cv 12 32 5 4 98 2882400000)));
    (Ok (is_registered_controller_message (make_midi2_cv 12 32 5 4 98 2882400000)));
    (b_ <- (Ok (is_assignable_controller_message (make_midi2_cv 12 32 5 4 98 2882400000))) ;; Ok (negb b_));
    (b_ <- (Ok (is_registered_per_note_controller_message (make_midi2_cv 12 32 5 4 98 2882400000))) ;; Ok (negb b_));
    (b_ <- (Ok (is_assignable_per_note_controller_message (make_midi2_cv 12 32 5 4 98 2882400000))) ;; Ok (negb b_));
    (b_ <- (Ok (is_per_note_pitch_bend_message (make_midi2_cv 12 32 5 4 98 2882400000))) ;; Ok (negb b_));
    (Ok (is_midi2_channel_voice_message (make_assignable_controller 3 7 9 69 2148536336)));
    (b_ <- (Ok (is_registered_controller_message (make_assignable_controller 3 7 9 69 2148536336))) ;; Ok (negb b_));
    (Ok (is_assignable_controller_message (make_assignable_controller 3 7 9 69 2148536336)));
    (b_ <- (Ok (is_registered_per_note_controller_message (make_assignable_controller 3 7 9 69 2148536336))) ;; Ok (negb b_));
    (b_ <- (Ok (is_assignable_per_note_controller_message (make_assignable_controller 3 7 9 69 2148536336))) ;; Ok (negb b_));
    (b_ <- (Ok (is_per_note_pitch_bend_message (make_assignable_controller 3 7 9 69 2148536336))) ;; Ok (negb b_));
    (Ok (is_midi2_channel_voice_message (make_registered_per_note_controller 1 5 51 68 85)));
    (b_ <- (Ok (is_registered_controller_message (make_registered_per_note_controller 1 5 51 68 85))) ;; Ok (negb b_));
    (b_ <- (Ok (is_assignable_controller_message (make_registered_per_note_controller 1 5 51 68 85))) ;; Ok (negb b_));
    (Ok (is_registered_per_note_controller_message (make_registered_per_note_controller 1 5 51 68 85)));
    (Ok (Z.eqb (get_per_note_controller_index (make_registered_per_note_controller 1 5 51 68 85)) 68));
    (b_ <- (Ok (is_assignable_per_note_controller_message (make_registered_per_note_controller 1 5 51 68 85))) ;; Ok (negb b_));
    (b_ <- (Ok (is_per_note_pitch_bend_message (make_registered_per_note_controller 1 5 51 68 85))) ;; Ok (negb b_));
    (Ok (is_midi2_channel_voice_message (make_assignable_per_note_controller 14 13 18 52 1146447479)));
    (b_ <- (Ok (is_registered_controller_message (make_assignable_per_note_controller 14 13 18 52 1146447479))) ;; Ok (negb b_));
    (b_ <- (Ok (is_assignable_controller_message (make_assignable_per_note_controller 14 13 18 52 1146447479))) ;; Ok (negb b_));
    (b_ <- (Ok (is_registered_per_note_controller_message (make_assignable_per_note_controller 14 13 18 52 1146447479))) ;; Ok (negb b_));
    (Ok (is_assignable_per_note_controller_message (make_assignable_per_note_controller 14 13 18 52 1146447479)));
    (Ok (Z.eqb (get_per_note_controller_index (make_assignable_per_note_controller 14 13 18 52 1146447479)) 52));
    (b_ <- (Ok (is_per_note_pitch_bend_message (make_assignable_per_note_controller 14 13 18 52 1146447479))) ;; Ok (negb b_));
    (Ok (is_midi2_channel_voice_message (make_midi2_cv 4 96 14 67 0 2147537187)));
    (b_ <- (Ok (is_registered_controller_message (make_midi2_cv 4 96 14 67 0 2147537187))) ;; Ok (negb b_));
    (b_ <- (Ok (is_assignable_controller_message (make_midi2_cv 4 96 14 67 0 2147537187))) ;; Ok (negb b_));
    (b_ <- (Ok (is_registered_per_note_controller_message (make_midi2_cv 4 96 14 67 0 2147537187))) ;; Ok (negb b_));
    (b_ <- (Ok (is_assignable_per_note_controller_message (make_midi2_cv 4 96 14 67 0 2147537187))) ;; Ok (negb b_));
    (Ok (is_per_note_pitch_bend_message (make_midi2_cv 4 96 14 67 0 2147537187)))].
Proof. vm_compute. repeat constructor. Qed.

(* line 565 *)
Example test_notes_with_attribute : all_true [
    (b_ <- (x347 <- (x345 <- (velocity_of_double (lit64 8106479329266893 (-53))) ;; x346 <- (pitch_7_9_of_double (lit64 4637300241308058 (-46))) ;; Ok (make_midi2_note_on_pitch 1 1 60 x345 x346)) ;; Ok (is_note_on_with_attribute x347 0)) ;; Ok (negb b_));
    (b_ <- (x348 <- (x345 <- (velocity_of_double (lit64 8106479329266893 (-53))) ;; x346 <- (pitch_7_9_of_double (lit64 4637300241308058 (-46))) ;; Ok (make_midi2_note_on_pitch 1 1 60 x345 x346)) ;; Ok (is_note_on_with_attribute x348 1)) ;; Ok (negb b_));
    (x349 <- (x345 <- (velocity_of_double (lit64 8106479329266893 (-53))) ;; x346 <- (pitch_7_9_of_double (lit64 4637300241308058 (-46))) ;; Ok (make_midi2_note_on_pitch 1 1 60 x345 x346)) ;; Ok (is_note_on_with_attribute x349 3));
    (b_ <- (x350 <- (x345 <- (velocity_of_double (lit64 8106479329266893 (-53))) ;; x346 <- (pitch_7_9_of_double (lit64 4637300241308058 (-46))) ;; Ok (make_midi2_note_on_pitch 1 1 60 x345 x346)) ;; Ok (is_note_off_with_attribute x350 0)) ;; Ok (negb b_));
    (b_ <- (x351 <- (x345 <- (velocity_of_double (lit64 8106479329266893 (-53))) ;; x346 <- (pitch_7_9_of_double (lit64 4637300241308058 (-46))) ;; Ok (make_midi2_note_on_pitch 1 1 60 x345 x346)) ;; Ok (is_note_off_with_attribute x351 1)) ;; Ok (negb b_));
    (b_ <- (x352 <- (x345 <- (velocity_of_double (lit64 8106479329266893 (-53))) ;; x346 <- (pitch_7_9_of_double (lit64 4637300241308058 (-46))) ;; Ok (make_midi2_note_on_pitch 1 1 60 x345 x346)) ;; Ok (is_note_off_with_attribute x352 3)) ;; Ok (negb b_));
    (x353 <- (x345 <- (velocity_of_double (lit64 8106479329266893 (-53))) ;; x346 <- (pitch_7_9_of_double (lit64 4637300241308058 (-46))) ;; Ok (make_midi2_note_on_pitch 1 1 60 x345 x346)) ;; Ok (is_note_on_with_pitch_7_9 x353));
    (x355 <- (x354 <- (x345 <- (velocity_of_double (lit64 8106479329266893 (-53))) ;; x346 <- (pitch_7_9_of_double (lit64 4637300241308058 (-46))) ;; Ok (make_midi2_note_on_pitch 1 1 60 x345 x346)) ;; Ok (get_midi2_note_attribute x354)) ;; Ok (Z.eqb x355 3));
    (x357 <- (x356 <- (x345 <- (velocity_of_double (lit64 8106479329266893 (-53))) ;; x346 <- (pitch_7_9_of_double (lit64 4637300241308058 (-46))) ;; Ok (make_midi2_note_on_pitch 1 1 60 x345 x346)) ;; Ok (get_midi2_note_attribute_data x356)) ;; x358 <- (pitch_7_9_of_double (lit64 4637300241308058 (-46))) ;; Ok (Z.eqb x357 x358));
    (b_ <- (Ok (is_note_on_with_attribute (make_midi2_note_on_attribute 5 9 88 (velocity_of_uint7 44) 1 1234) 0)) ;; Ok (negb b_));
    (Ok (is_note_on_with_attribute (make_midi2_note_on_attribute 5 9 88 (velocity_of_uint7 44) 1 1234) 1));
    (b_ <- (Ok (is_note_on_with_attribute (make_midi2_note_on_attribute 5 9 88 (velocity_of_uint7 44) 1 1234) 3)) ;; Ok (negb b_));
    (b_ <- (Ok (is_note_off_with_attribute (make_midi2_note_on_attribute 5 9 88 (velocity_of_uint7 44) 1 1234) 0)) ;; Ok (negb b_));
    (b_ <- (Ok (is_note_off_with_attribute (make_midi2_note_on_attribute 5 9 88 (velocity_of_uint7 44) 1 1234) 1)) ;; Ok (negb b_));
    (b_ <- (Ok (is_note_off_with_attribute (make_midi2_note_on_attribute 5 9 88 (velocity_of_uint7 44) 1 1234) 3)) ;; Ok (negb b_));
    (b_ <- (Ok (is_note_on_with_pitch_7_9 (make_midi2_note_on_attribute 5 9 88 (velocity_of_uint7 44) 1 1234))) ;; Ok (negb b_));
    (Ok (Z.eqb (get_midi2_note_attribute (make_midi2_note_on_attribute 5 9 88 (velocity_of_uint7 44) 1 1234)) 1));
    (Ok (Z.eqb (get_midi2_note_attribute_data (make_midi2_note_on_attribute 5 9 88 (velocity_of_uint7 44) 1 1234)) 1234));
    (b_ <- (x360 <- (x359 <- (velocity_of_double (lit64 8106479329266893 (-53))) ;; Ok (make_midi2_note_off 1 1 60 x359 2 43981)) ;; Ok (is_note_on_with_attribute x360 0)) ;; Ok (negb b_));
    (b_ <- (x361 <- (x359 <- (velocity_of_double (lit64 8106479329266893 (-53))) ;; Ok (make_midi2_note_off 1 1 60 x359 2 43981)) ;; Ok (is_note_on_with_attribute x361 1)) ;; Ok (negb b_));
    (b_ <- (x362 <- (x359 <- (velocity_of_double (lit64 8106479329266893 (-53))) ;; Ok (make_midi2_note_off 1 1 60 x359 2 43981)) ;; Ok (is_note_on_with_attribute x362 3)) ;; Ok (negb b_));
    (b_ <- (x363 <- (x359 <- (velocity_of_double (lit64 8106479329266893 (-53))) ;; Ok (make_midi2_note_off 1 1 60 x359 2 43981)) ;; Ok (is_note_on_with_attribute x363 2)) ;; Ok (negb b_));
    (b_ <- (x364 <- (x359 <- (velocity_of_double (lit64 8106479329266893 (-53))) ;; Ok (make_midi2_note_off 1 1 60 x359 2 43981)) ;; Ok (is_note_off_with_attribute x364 0)) ;; Ok (negb b_));
    (b_ <- (x365 <- (x359 <- (velocity_of_double (lit64 8106479329266893 (-53))) ;; Ok (make_midi2_note_off 1 1 60 x359 2 43981)) ;; Ok (is_note_off_with_attribute x365 1)) ;; Ok (negb b_));
    (x366 <- (x359 <- (velocity_of_double (lit64 8106479329266893 (-53))) ;; Ok (make_midi2_note_off 1 1 60 x359 2 43981)) ;; Ok (is_note_off_with_attribute x366 2));
    (b_ <- (x367 <- (x359 <- (velocity_of_double (lit64 8106479329266893 (-53))) ;; Ok (make_midi2_note_off 1 1 60 x359 2 43981)) ;; Ok (is_note_on_with_pitch_7_9 x367)) ;; Ok (negb b_));
    (x369 <- (x368 <- (x359 <- (velocity_of_double (lit64 8106479329266893 (-53))) ;; Ok (make_midi2_note_off 1 1 60 x359 2 43981)) ;; Ok (get_midi2_note_attribute x368)) ;; Ok (Z.eqb x369 2));
    (x371 <- (x370 <- (x359 <- (velocity_of_double (lit64 8106479329266893 (-53))) ;; Ok (make_midi2_note_off 1 1 60 x359 2 43981)) ;; Ok (get_midi2_note_attribute_data x370)) ;; Ok (Z.eqb x371 43981));
    (Ok (is_note_on_with_attribute (make_midi2_note_on 1 1 60 (velocity_of_uint7 90)) 0));
    (b_ <- (Ok (is_note_on_with_attribute (make_midi2_note_on 1 1 60 (velocity_of_uint7 90)) 1)) ;; Ok (negb b_));
    (b_ <- (Ok (is_note_on_with_attribute (make_midi2_note_on 1 1 60 (velocity_of_uint7 90)) 3)) ;; Ok (negb b_));
    (b_ <- (Ok (is_note_off_with_attribute (make_midi2_note_on 1 1 60 (velocity_of_uint7 90)) 0)) ;; Ok (negb b_));
    (b_ <- (Ok (is_note_off_with_attribute (make_midi2_note_on 1 1 60 (velocity_of_uint7 90)) 1)) ;; Ok (negb b_));
    (b_ <- (Ok (is_note_off_with_attribute (make_midi2_note_on 1 1 60 (velocity_of_uint7 90)) 2)) ;; Ok (negb b_));
    (b_ <- (Ok (is_note_on_with_pitch_7_9 (make_midi2_note_on 1 1 60 (velocity_of_uint7 90)))) ;; Ok (negb b_));
    (b_ <- (Ok (is_note_on_with_attribute (make_midi1_note_on 1 1 60 (velocity_of_uint7 90)) 0)) ;; Ok (negb b_));
    (b_ <- (Ok (is_note_on_with_attribute (make_midi1_note_on 1 1 60 (velocity_of_uint7 90)) 1)) ;; Ok (negb b_));
    (b_ <- (Ok (is_note_on_with_attribute (make_midi1_note_on 1 1 60 (velocity_of_uint7 90)) 3)) ;; Ok (negb b_));
    (b_ <- (Ok (is_note_off_with_attribute (make_midi1_note_on 1 1 60 (velocity_of_uint7 90)) 0)) ;; Ok (negb b_));
    (b_ <- (Ok (is_note_off_with_attribute (make_midi1_note_on 1 1 60 (velocity_of_uint7 90)) 1)) ;; Ok (negb b_));
    (b_ <- (Ok (is_note_off_with_attribute (make_midi1_note_on 1 1 60 (velocity_of_uint7 90)) 2)) ;; Ok (negb b_));
    (b_ <- (Ok (is_note_on_with_pitch_7_9 (make_midi1_note_on 1 1 60 (velocity_of_uint7 90)))) ;; Ok (negb b_));
    (b_ <- (Ok (is_note_on_with_attribute (make_midi2_cv 12 32 5 4 98 2882400000) 0)) ;; Ok (negb b_));
    (b_ <- (Ok (is_note_on_with_attribute (make_midi2_cv 12 32 5 4 98 2882400000) 1)) ;; Ok (negb b_));
    (b_ <- (Ok (is_note_on_with_attribute (make_midi2_cv 12 32 5 4 98 2882400000) 3)) ;; Ok (negb b_));
    (b_ <- (Ok (is_note_off_with_attribute (make_midi2_cv 12 32 5 4 98 2882400000) 0)) ;; Ok (negb b_));
    (b_ <- (Ok (is_note_off_with_attribute (make_midi2_cv 12 32 5 4 98 2882400000) 1)) ;; Ok (negb b_));
    (b_ <- (Ok (is_note_off_with_attribute (make_midi2_cv 12 32 5 4 98 2882400000) 2)) ;; Ok (negb b_));
    (b_ <- (Ok (is_note_on_with_pitch_7_9 (make_midi2_cv 12 32 5 4 98 2882400000))) ;; Ok (negb b_));
    (b_ <- (Ok (is_note_on_with_attribute (make_assignable_controller 3 7 9 69 2148536336) 0)) ;; Ok (negb b_));
    (b_ <- (Ok (is_note_on_with_attribute (make_assignable_controller 3 7 9 69 2148536336) 1)) ;; Ok (negb b_));
    (b_ <- (Ok (is_note_on_with_attribute (make_assignable_controller 3 7 9 69 2148536336) 3)) ;; Ok (negb b_));
    (b_ <- (Ok (is_note_off_with_attribute (make_assignable_controller 3 7 9 69 2148536336) 0)) ;; Ok (negb b_));
    (b_ <- (Ok (is_note_off_with_attribute (make_assignable_controller 3 7 9 69 2148536336) 1)) ;; Ok (negb b_));
    (b_ <- (Ok (is_note_off_with_attribute (make_assignable_controller 3 7 9 69 2148536336) 2)) ;; Ok (negb b_));
    (b_ <- (Ok (is_note_on_with_pitch_7_9 (make_assignable_controller 3 7 9 69 2148536336))) ;; Ok (negb b_))].
Proof. vm_compute. repeat constructor. Qed.

(* line 661 *)
Example test_pitch_bend_sensitivities : all_true [
    (x373 <- (x372 <- (pitch_7_25_of_note 5) ;; Ok (make_registered_controller 0 14 0 0 x372)) ;; Ok (is_pitch_bend_sensitivity_message x373));
    (b_ <- (x374 <- (x372 <- (pitch_7_25_of_note 5) ;; Ok (make_registered_controller 0 14 0 0 x372)) ;; Ok (is_per_note_pitch_bend_sensitivity_message x374)) ;; Ok (negb b_));
    (x376 <- (x375 <- (x372 <- (pitch_7_25_of_note 5) ;; Ok (make_registered_controller 0 14 0 0 x372)) ;; Ok (get_pitch_bend_sensitivity_value x375)) ;; x377 <- (pitch_7_25_of_note 5) ;; Ok (Z.eqb x376 x377));
    (x379 <- (x378 <- (pitch_7_25_of_double (lit64 7318349394477056 (-51))) ;; Ok (make_registered_controller 4 7 0 0 x378)) ;; Ok (is_pitch_bend_sensitivity_message x379));
    (b_ <- (x380 <- (x378 <- (pitch_7_25_of_double (lit64 7318349394477056 (-51))) ;; Ok (make_registered_controller 4 7 0 0 x378)) ;; Ok (is_per_note_pitch_bend_sensitivity_message x380)) ;; Ok (negb b_));
    (x382 <- (x381 <- (x378 <- (pitch_7_25_of_double (lit64 7318349394477056 (-51))) ;; Ok (make_registered_controller 4 7 0 0 x378)) ;; Ok (get_pitch_bend_sensitivity_value x381)) ;; x383 <- (pitch_7_25_of_double (lit64 7318349394477056 (-51))) ;; Ok (Z.eqb x382 x383));
    (b_ <- (x385 <- (x384 <- (pitch_7_25_of_note 8) ;; Ok (make_registered_controller 0 14 0 7 x384)) ;; Ok (is_pitch_bend_sensitivity_message x385)) ;; Ok (negb b_));
    (x386 <- (x384 <- (pitch_7_25_of_note 8) ;; Ok (make_registered_controller 0 14 0 7 x384)) ;; Ok (is_per_note_pitch_bend_sensitivity_message x386));
    (x388 <- (x387 <- (x384 <- (pitch_7_25_of_note 8) ;; Ok (make_registered_controller 0 14 0 7 x384)) ;; Ok (get_per_note_pitch_bend_sensitivity_value x387)) ;; x389 <- (pitch_7_25_of_note 8) ;; Ok (Z.eqb x388 x389));
    (b_ <- (x391 <- (x390 <- (pitch_7_25_of_double (lit64 8858580467037766 (-51))) ;; Ok (make_registered_controller 4 7 0 7 x390)) ;; Ok (is_pitch_bend_sensitivity_message x391)) ;; Ok (negb b_));
    (x392 <- (x390 <- (pitch_7_25_of_double (lit64 8858580467037766 (-51))) ;; Ok (make_registered_controller 4 7 0 7 x390)) ;; Ok (is_per_note_pitch_bend_sensitivity_message x392));
    (x394 <- (x393 <- (x390 <- (pitch_7_25_of_double (lit64 8858580467037766 (-51))) ;; Ok (make_registered_controller 4 7 0 7 x390)) ;; Ok (get_per_note_pitch_bend_sensitivity_value x393)) ;; x395 <- (pitch_7_25_of_double (lit64 8858580467037766 (-51))) ;; Ok (Z.eqb x394 x395));
    (b_ <- (x397 <- (x396 <- (pitch_7_25_of_note 2) ;; Ok (make_registered_controller 0 14 1 0 x396)) ;; Ok (is_pitch_bend_sensitivity_message x397)) ;; Ok (negb b_));
    (b_ <- (x398 <- (x396 <- (pitch_7_25_of_note 2) ;; Ok (make_registered_controller 0 14 1 0 x396)) ;; Ok (is_per_note_pitch_bend_sensitivity_message x398)) ;; Ok (negb b_));
    (b_ <- (Ok (is_pitch_bend_sensitivity_message (make_registered_controller 0 14 0 2 (controller_of_uint7 4)))) ;; Ok (negb b_));
    (b_ <- (Ok (is_per_note_pitch_bend_sensitivity_message (make_registered_controller 0 14 0 2 (controller_of_uint7 4)))) ;; Ok (negb b_));
    (b_ <- (Ok (is_pitch_bend_sensitivity_message (make_midi2_channel_pressure 14 3 2032613447))) ;; Ok (negb b_));
    (b_ <- (Ok (is_per_note_pitch_bend_sensitivity_message (make_midi2_channel_pressure 14 3 2032613447))) ;; Ok (negb b_))].
Proof. vm_compute. repeat constructor. Qed.
