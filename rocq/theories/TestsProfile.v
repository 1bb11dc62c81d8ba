(* The unit tests of tests/ci_profile_configuration_tests.cpp, run on the model with assertions.
   These are checks of the model against the results its authors expect of the code, not proofs. *)
From Coq Require Import ZArith List Bool.
From Verif Require Import Base Packet Messages Sysex UniversalSysex CapInq PropEx TestsBase.
Import ListNotations.
Local Open Scope Z_scope.
Local Open Scope res_scope.

(* ---- tests/ci_profile_configuration_tests.cpp ---- *)


(* line 40 *)
Example test_profile_id : all_true [
    (Ok (Z.eqb 126 (pr1 (mkProf 0x7E 0 0 0 0))));
    (Ok (Z.eqb 0 (pr2 (mkProf 0x7E 0 0 0 0))));
    (Ok (Z.eqb 0 (pr3 (mkProf 0x7E 0 0 0 0))));
    (Ok (Z.eqb 0 (pr4 (mkProf 0x7E 0 0 0 0))));
    (Ok (Z.eqb 0 (pr5 (mkProf 0x7E 0 0 0 0))));
    (Ok (Z.eqb 126 (pr1 (mkProf 126 2 3 4 5))));
    (Ok (Z.eqb 2 (pr2 (mkProf 126 2 3 4 5))));
    (Ok (Z.eqb 3 (pr3 (mkProf 126 2 3 4 5))));
    (Ok (Z.eqb 4 (pr4 (mkProf 126 2 3 4 5))));
    (Ok (Z.eqb 5 (pr5 (mkProf 126 2 3 4 5))));
    (Ok (Z.eqb 0 (pr1 (mkProf 0 33 9 127 1))));
    (Ok (Z.eqb 33 (pr2 (mkProf 0 33 9 127 1))));
    (Ok (Z.eqb 9 (pr3 (mkProf 0 33 9 127 1))));
    (Ok (Z.eqb 127 (pr4 (mkProf 0 33 9 127 1))));
    (Ok (Z.eqb 1 (pr5 (mkProf 0 33 9 127 1))));
    (Ok (list_eqb (profile_bytes (mkProf 0x7E 0 0 0 0)) (profile_bytes (mkProf 0x7E 0 0 0 0))));
    (b_ <- (Ok (list_eqb (profile_bytes (mkProf 0x7E 0 0 0 0)) (profile_bytes (mkProf 126 2 3 4 5)))) ;; Ok (negb b_));
    (b_ <- (Ok (list_eqb (profile_bytes (mkProf 0x7E 0 0 0 0)) (profile_bytes (mkProf 0 33 9 127 1)))) ;; Ok (negb b_));
    (b_ <- (Ok (list_eqb (profile_bytes (mkProf 0x7E 0 0 0 0)) (profile_bytes (mkProf 126 2 3 4 5)))) ;; Ok (negb b_));
    (b_ <- (Ok (list_eqb (profile_bytes (mkProf 126 2 3 4 5)) (profile_bytes (mkProf 0x7E 0 0 0 0)))) ;; Ok (negb b_));
    (Ok (list_eqb (profile_bytes (mkProf 126 2 3 4 5)) (profile_bytes (mkProf 126 2 3 4 5))));
    (b_ <- (Ok (list_eqb (profile_bytes (mkProf 126 2 3 4 5)) (profile_bytes (mkProf 0 33 9 127 1)))) ;; Ok (negb b_));
    (Ok (list_eqb (profile_bytes (mkProf 126 2 3 4 5)) (profile_bytes (mkProf 126 2 3 4 5))));
    (b_ <- (Ok (list_eqb (profile_bytes (mkProf 0 33 9 127 1)) (profile_bytes (mkProf 0x7E 0 0 0 0)))) ;; Ok (negb b_));
    (b_ <- (Ok (list_eqb (profile_bytes (mkProf 0 33 9 127 1)) (profile_bytes (mkProf 126 2 3 4 5)))) ;; Ok (negb b_));
    (Ok (list_eqb (profile_bytes (mkProf 0 33 9 127 1)) (profile_bytes (mkProf 0 33 9 127 1))));
    (b_ <- (Ok (list_eqb (profile_bytes (mkProf 0 33 9 127 1)) (profile_bytes (mkProf 126 2 3 4 5)))) ;; Ok (negb b_));
    (b_ <- (Ok (list_eqb (profile_bytes (mkProf 126 2 3 4 5)) (profile_bytes (mkProf 0x7E 0 0 0 0)))) ;; Ok (negb b_));
    (Ok (list_eqb (profile_bytes (mkProf 126 2 3 4 5)) (profile_bytes (mkProf 126 2 3 4 5))));
    (b_ <- (Ok (list_eqb (profile_bytes (mkProf 126 2 3 4 5)) (profile_bytes (mkProf 0 33 9 127 1)))) ;; Ok (negb b_));
    (Ok (list_eqb (profile_bytes (mkProf 126 2 3 4 5)) (profile_bytes (mkProf 126 2 3 4 5))));
    (b_ <- (Ok (list_eqb (profile_bytes (mkProf 126 2 3 4 5)) (profile_bytes (mkProf 126 2 3 5 5)))) ;; Ok (negb b_));
    (b_ <- (Ok (list_eqb (profile_bytes (mkProf 126 2 3 4 5)) (profile_bytes (mkProf 126 2 3 4 6)))) ;; Ok (negb b_));
    (b_ <- (Ok (list_eqb (profile_bytes (mkProf 126 2 3 5 5)) (profile_bytes (mkProf 126 2 3 4 6)))) ;; Ok (negb b_));
    (b_ <- (Ok (list_eqb (profile_bytes (mkProf 126 2 3 4 6)) (profile_bytes (mkProf 126 2 3 5 5)))) ;; Ok (negb b_))].
Proof. vm_compute. repeat constructor. Qed.

(* line 96 *)
Example test_profile_inquiry : all_true [
    (profile_inquiry_validate (mkSx 0x7E0000 [127; 13; 32; 2; 120; 86; 52; 18; 119; 85; 51; 17]));
    (x1 <- (as_view true profile_inquiry_validate (mkSx 0x7E0000 [127; 13; 32; 2; 120; 86; 52; 18; 119; 85; 51; 17])) ;; Ok (opt_some x1));
    (x3 <- (x2 <- (ci_view true (mkSx 0x7E0000 [127; 13; 32; 2; 120; 86; 52; 18; 119; 85; 51; 17])) ;; view_device_id x2) ;; Ok (Z.eqb 127 x3));
    (x5 <- (x4 <- (ci_view true (mkSx 0x7E0000 [127; 13; 32; 2; 120; 86; 52; 18; 119; 85; 51; 17])) ;; view_type x4) ;; Ok (Z.eqb 32269 x5));
    (x7 <- (x6 <- (ci_view true (mkSx 0x7E0000 [127; 13; 32; 2; 120; 86; 52; 18; 119; 85; 51; 17])) ;; view_subtype x6) ;; Ok (Z.eqb 32 x7));
    (x9 <- (x8 <- (ci_view true (mkSx 0x7E0000 [127; 13; 32; 2; 120; 86; 52; 18; 119; 85; 51; 17])) ;; message_version x8) ;; Ok (Z.eqb 2 x9));
    (x11 <- (x10 <- (ci_view true (mkSx 0x7E0000 [127; 13; 32; 2; 120; 86; 52; 18; 119; 85; 51; 17])) ;; source_muid x10) ;; Ok (Z.eqb 38611832 x11));
    (x13 <- (x12 <- (ci_view true (mkSx 0x7E0000 [127; 13; 32; 2; 120; 86; 52; 18; 119; 85; 51; 17])) ;; destination_muid x12) ;; Ok (Z.eqb 36498167 x13));
    (profile_inquiry_validate (mkSx 0x7E0000 [127; 13; 32; 2; 120; 86; 52; 18; 119; 85; 51; 17]));
    (x14 <- (as_view true profile_inquiry_validate (mkSx 0x7E0000 [127; 13; 32; 2; 120; 86; 52; 18; 119; 85; 51; 17])) ;; Ok (opt_some x14));
    (profile_inquiry_validate (mkSx 0x7E0000 [127; 13; 32; 2; 120; 86; 52; 18; 119; 85; 51; 17; 4]));
    (x15 <- (as_view true profile_inquiry_validate (mkSx 0x7E0000 [127; 13; 32; 2; 120; 86; 52; 18; 119; 85; 51; 17; 4])) ;; Ok (opt_some x15));
    (b_ <- (profile_inquiry_validate (mkSx 0x7E0000 [127; 13; 33; 0; 120; 86; 52; 18; 119; 85; 51; 17; 4])) ;; Ok (negb b_));
    (b_ <- (x16 <- (as_view true profile_inquiry_validate (mkSx 0x7E0000 [127; 13; 33; 0; 120; 86; 52; 18; 119; 85; 51; 17; 4])) ;; Ok (opt_some x16)) ;; Ok (negb b_));
    (b_ <- (profile_inquiry_validate (mkSx 0x7E0000 [127; 13; 32; 2; 120; 86; 52; 18; 119; 85; 51])) ;; Ok (negb b_));
    (b_ <- (x17 <- (as_view true profile_inquiry_validate (mkSx 0x7E0000 [127; 13; 32; 2; 120; 86; 52; 18; 119; 85; 51])) ;; Ok (opt_some x17)) ;; Ok (negb b_));
    (b_ <- (profile_inquiry_validate (mkSx 0x002109 [4; 5; 6; 7; 8; 9; 10; 11; 12; 13; 14; 247])) ;; Ok (negb b_));
    (b_ <- (x18 <- (as_view true profile_inquiry_validate (mkSx 0x002109 [4; 5; 6; 7; 8; 9; 10; 11; 12; 13; 14; 247])) ;; Ok (opt_some x18)) ;; Ok (negb b_));
    (x19 <- (make_profile_inquiry_message true 124147012 38611832 8) ;; profile_inquiry_validate x19);
    (x21 <- (x20 <- (make_profile_inquiry_message true 124147012 38611832 8) ;; as_view true profile_inquiry_validate x20) ;; Ok (opt_some x21));
    (x24 <- (x23 <- (x22 <- (make_profile_inquiry_message true 124147012 38611832 8) ;; ci_view true x22) ;; Ok (view_data_size x23)) ;; Ok (Z.eqb 12 x24));
    (x26 <- (x25 <- (x22 <- (make_profile_inquiry_message true 124147012 38611832 8) ;; ci_view true x22) ;; view_device_id x25) ;; Ok (Z.eqb 8 x26));
    (x28 <- (x27 <- (x22 <- (make_profile_inquiry_message true 124147012 38611832 8) ;; ci_view true x22) ;; message_version x27) ;; Ok (Z.eqb 2 x28));
    (x30 <- (x29 <- (x22 <- (make_profile_inquiry_message true 124147012 38611832 8) ;; ci_view true x22) ;; source_muid x29) ;; Ok (Z.eqb 124147012 x30));
    (x32 <- (x31 <- (x22 <- (make_profile_inquiry_message true 124147012 38611832 8) ;; ci_view true x22) ;; destination_muid x31) ;; Ok (Z.eqb 38611832 x32));
    (x35 <- (x34 <- (x33 <- (make_profile_inquiry_message true 119944516 5 127) ;; ci_view true x33) ;; Ok (view_data_size x34)) ;; Ok (Z.eqb 12 x35));
    (x37 <- (x36 <- (x33 <- (make_profile_inquiry_message true 119944516 5 127) ;; ci_view true x33) ;; view_device_id x36) ;; Ok (Z.eqb 127 x37));
    (x39 <- (x38 <- (x33 <- (make_profile_inquiry_message true 119944516 5 127) ;; ci_view true x33) ;; message_version x38) ;; Ok (Z.eqb 2 x39));
    (x41 <- (x40 <- (x33 <- (make_profile_inquiry_message true 119944516 5 127) ;; ci_view true x33) ;; source_muid x40) ;; Ok (Z.eqb 119944516 x41));
    (x43 <- (x42 <- (x33 <- (make_profile_inquiry_message true 119944516 5 127) ;; ci_view true x33) ;; destination_muid x42) ;; Ok (Z.eqb 5 x43))].
Proof. vm_compute. repeat constructor. Qed.

(* line 203 *)
Example test_profile_inquiry_reply_view_make_profiles : all_true [
    (profile_inquiry_reply_validate (mkSx 0x7E0000 [127; 13; 33; 0; 120; 86; 52; 18; 68; 51; 34; 17; 2; 0; 0; 33; 9; 42; 7; 126; 3; 2; 1; 0; 1; 0; 126; 1; 2; 3; 4; 0; 0]));
    (x46 <- (x45 <- (x44 <- (ci_view true (mkSx 0x7E0000 [127; 13; 33; 0; 120; 86; 52; 18; 68; 51; 34; 17; 2; 0; 0; 33; 9; 42; 7; 126; 3; 2; 1; 0; 1; 0; 126; 1; 2; 3; 4; 0; 0])) ;; enabled_profiles true x44) ;; Ok (size x45)) ;; Ok (Z.eqb 2 x46));
    (x49 <- (x48 <- (x47 <- (x44 <- (ci_view true (mkSx 0x7E0000 [127; 13; 33; 0; 120; 86; 52; 18; 68; 51; 34; 17; 2; 0; 0; 33; 9; 42; 7; 126; 3; 2; 1; 0; 1; 0; 126; 1; 2; 3; 4; 0; 0])) ;; enabled_profiles true x44) ;; vec_at x47 0%nat) ;; Ok (pr1 x48)) ;; Ok (Z.eqb 0 x49));
    (x52 <- (x51 <- (x50 <- (x44 <- (ci_view true (mkSx 0x7E0000 [127; 13; 33; 0; 120; 86; 52; 18; 68; 51; 34; 17; 2; 0; 0; 33; 9; 42; 7; 126; 3; 2; 1; 0; 1; 0; 126; 1; 2; 3; 4; 0; 0])) ;; enabled_profiles true x44) ;; vec_at x50 0%nat) ;; Ok (pr2 x51)) ;; Ok (Z.eqb 33 x52));
    (x55 <- (x54 <- (x53 <- (x44 <- (ci_view true (mkSx 0x7E0000 [127; 13; 33; 0; 120; 86; 52; 18; 68; 51; 34; 17; 2; 0; 0; 33; 9; 42; 7; 126; 3; 2; 1; 0; 1; 0; 126; 1; 2; 3; 4; 0; 0])) ;; enabled_profiles true x44) ;; vec_at x53 0%nat) ;; Ok (pr3 x54)) ;; Ok (Z.eqb 9 x55));
    (x58 <- (x57 <- (x56 <- (x44 <- (ci_view true (mkSx 0x7E0000 [127; 13; 33; 0; 120; 86; 52; 18; 68; 51; 34; 17; 2; 0; 0; 33; 9; 42; 7; 126; 3; 2; 1; 0; 1; 0; 126; 1; 2; 3; 4; 0; 0])) ;; enabled_profiles true x44) ;; vec_at x56 0%nat) ;; Ok (pr4 x57)) ;; Ok (Z.eqb 42 x58));
    (x61 <- (x60 <- (x59 <- (x44 <- (ci_view true (mkSx 0x7E0000 [127; 13; 33; 0; 120; 86; 52; 18; 68; 51; 34; 17; 2; 0; 0; 33; 9; 42; 7; 126; 3; 2; 1; 0; 1; 0; 126; 1; 2; 3; 4; 0; 0])) ;; enabled_profiles true x44) ;; vec_at x59 0%nat) ;; Ok (pr5 x60)) ;; Ok (Z.eqb 7 x61));
    (x64 <- (x63 <- (x62 <- (x44 <- (ci_view true (mkSx 0x7E0000 [127; 13; 33; 0; 120; 86; 52; 18; 68; 51; 34; 17; 2; 0; 0; 33; 9; 42; 7; 126; 3; 2; 1; 0; 1; 0; 126; 1; 2; 3; 4; 0; 0])) ;; enabled_profiles true x44) ;; vec_at x62 1%nat) ;; Ok (pr1 x63)) ;; Ok (Z.eqb 126 x64));
    (x67 <- (x66 <- (x65 <- (x44 <- (ci_view true (mkSx 0x7E0000 [127; 13; 33; 0; 120; 86; 52; 18; 68; 51; 34; 17; 2; 0; 0; 33; 9; 42; 7; 126; 3; 2; 1; 0; 1; 0; 126; 1; 2; 3; 4; 0; 0])) ;; enabled_profiles true x44) ;; vec_at x65 1%nat) ;; Ok (pr2 x66)) ;; Ok (Z.eqb 3 x67));
    (x70 <- (x69 <- (x68 <- (x44 <- (ci_view true (mkSx 0x7E0000 [127; 13; 33; 0; 120; 86; 52; 18; 68; 51; 34; 17; 2; 0; 0; 33; 9; 42; 7; 126; 3; 2; 1; 0; 1; 0; 126; 1; 2; 3; 4; 0; 0])) ;; enabled_profiles true x44) ;; vec_at x68 1%nat) ;; Ok (pr3 x69)) ;; Ok (Z.eqb 2 x70));
    (x73 <- (x72 <- (x71 <- (x44 <- (ci_view true (mkSx 0x7E0000 [127; 13; 33; 0; 120; 86; 52; 18; 68; 51; 34; 17; 2; 0; 0; 33; 9; 42; 7; 126; 3; 2; 1; 0; 1; 0; 126; 1; 2; 3; 4; 0; 0])) ;; enabled_profiles true x44) ;; vec_at x71 1%nat) ;; Ok (pr4 x72)) ;; Ok (Z.eqb 1 x73));
    (x76 <- (x75 <- (x74 <- (x44 <- (ci_view true (mkSx 0x7E0000 [127; 13; 33; 0; 120; 86; 52; 18; 68; 51; 34; 17; 2; 0; 0; 33; 9; 42; 7; 126; 3; 2; 1; 0; 1; 0; 126; 1; 2; 3; 4; 0; 0])) ;; enabled_profiles true x44) ;; vec_at x74 1%nat) ;; Ok (pr5 x75)) ;; Ok (Z.eqb 0 x76));
    (x79 <- (x78 <- (x77 <- (ci_view true (mkSx 0x7E0000 [127; 13; 33; 0; 120; 86; 52; 18; 68; 51; 34; 17; 2; 0; 0; 33; 9; 42; 7; 126; 3; 2; 1; 0; 1; 0; 126; 1; 2; 3; 4; 0; 0])) ;; disabled_profiles true x77) ;; Ok (size x78)) ;; Ok (Z.eqb 1 x79));
    (x82 <- (x81 <- (x80 <- (x77 <- (ci_view true (mkSx 0x7E0000 [127; 13; 33; 0; 120; 86; 52; 18; 68; 51; 34; 17; 2; 0; 0; 33; 9; 42; 7; 126; 3; 2; 1; 0; 1; 0; 126; 1; 2; 3; 4; 0; 0])) ;; disabled_profiles true x77) ;; vec_at x80 0%nat) ;; Ok (pr1 x81)) ;; Ok (Z.eqb 126 x82));
    (x85 <- (x84 <- (x83 <- (x77 <- (ci_view true (mkSx 0x7E0000 [127; 13; 33; 0; 120; 86; 52; 18; 68; 51; 34; 17; 2; 0; 0; 33; 9; 42; 7; 126; 3; 2; 1; 0; 1; 0; 126; 1; 2; 3; 4; 0; 0])) ;; disabled_profiles true x77) ;; vec_at x83 0%nat) ;; Ok (pr2 x84)) ;; Ok (Z.eqb 1 x85));
    (x88 <- (x87 <- (x86 <- (x77 <- (ci_view true (mkSx 0x7E0000 [127; 13; 33; 0; 120; 86; 52; 18; 68; 51; 34; 17; 2; 0; 0; 33; 9; 42; 7; 126; 3; 2; 1; 0; 1; 0; 126; 1; 2; 3; 4; 0; 0])) ;; disabled_profiles true x77) ;; vec_at x86 0%nat) ;; Ok (pr3 x87)) ;; Ok (Z.eqb 2 x88));
    (x91 <- (x90 <- (x89 <- (x77 <- (ci_view true (mkSx 0x7E0000 [127; 13; 33; 0; 120; 86; 52; 18; 68; 51; 34; 17; 2; 0; 0; 33; 9; 42; 7; 126; 3; 2; 1; 0; 1; 0; 126; 1; 2; 3; 4; 0; 0])) ;; disabled_profiles true x77) ;; vec_at x89 0%nat) ;; Ok (pr4 x90)) ;; Ok (Z.eqb 3 x91))].
Proof. vm_compute. repeat constructor. Qed.

(* line 249 *)
Example test_profile_inquiry_reply_view : all_true [
    (profile_inquiry_reply_validate (mkSx 0x7E0000 [10; 13; 33; 2; 120; 86; 52; 18; 119; 85; 51; 17; 0; 0; 0; 0]));
    (x92 <- (as_view true profile_inquiry_reply_validate (mkSx 0x7E0000 [10; 13; 33; 2; 120; 86; 52; 18; 119; 85; 51; 17; 0; 0; 0; 0])) ;; Ok (opt_some x92));
    (x94 <- (x93 <- (ci_view true (mkSx 0x7E0000 [10; 13; 33; 2; 120; 86; 52; 18; 119; 85; 51; 17; 0; 0; 0; 0])) ;; view_device_id x93) ;; Ok (Z.eqb 10 x94));
    (x96 <- (x95 <- (ci_view true (mkSx 0x7E0000 [10; 13; 33; 2; 120; 86; 52; 18; 119; 85; 51; 17; 0; 0; 0; 0])) ;; view_type x95) ;; Ok (Z.eqb 32269 x96));
    (x98 <- (x97 <- (ci_view true (mkSx 0x7E0000 [10; 13; 33; 2; 120; 86; 52; 18; 119; 85; 51; 17; 0; 0; 0; 0])) ;; view_subtype x97) ;; Ok (Z.eqb 33 x98));
    (x100 <- (x99 <- (ci_view true (mkSx 0x7E0000 [10; 13; 33; 2; 120; 86; 52; 18; 119; 85; 51; 17; 0; 0; 0; 0])) ;; message_version x99) ;; Ok (Z.eqb 2 x100));
    (x102 <- (x101 <- (ci_view true (mkSx 0x7E0000 [10; 13; 33; 2; 120; 86; 52; 18; 119; 85; 51; 17; 0; 0; 0; 0])) ;; source_muid x101) ;; Ok (Z.eqb 38611832 x102));
    (x104 <- (x103 <- (ci_view true (mkSx 0x7E0000 [10; 13; 33; 2; 120; 86; 52; 18; 119; 85; 51; 17; 0; 0; 0; 0])) ;; destination_muid x103) ;; Ok (Z.eqb 36498167 x104));
    (b_ <- (x105 <- (ci_view true (mkSx 0x7E0000 [10; 13; 33; 2; 120; 86; 52; 18; 119; 85; 51; 17; 0; 0; 0; 0])) ;; has_enabled_profiles x105) ;; Ok (negb b_));
    (b_ <- (x106 <- (ci_view true (mkSx 0x7E0000 [10; 13; 33; 2; 120; 86; 52; 18; 119; 85; 51; 17; 0; 0; 0; 0])) ;; has_disabled_profiles x106) ;; Ok (negb b_));
    (x108 <- (x107 <- (ci_view true (mkSx 0x7E0000 [10; 13; 33; 2; 120; 86; 52; 18; 119; 85; 51; 17; 0; 0; 0; 0])) ;; num_enabled_profiles x107) ;; Ok (Z.eqb 0 x108));
    (x110 <- (x109 <- (ci_view true (mkSx 0x7E0000 [10; 13; 33; 2; 120; 86; 52; 18; 119; 85; 51; 17; 0; 0; 0; 0])) ;; num_disabled_profiles x109) ;; Ok (Z.eqb 0 x110));
    (x112 <- (x111 <- (ci_view true (mkSx 0x7E0000 [10; 13; 33; 2; 120; 86; 52; 18; 119; 85; 51; 17; 0; 0; 0; 0])) ;; enabled_profiles true x111) ;; Ok (is_nil x112));
    (x114 <- (x113 <- (ci_view true (mkSx 0x7E0000 [10; 13; 33; 2; 120; 86; 52; 18; 119; 85; 51; 17; 0; 0; 0; 0])) ;; disabled_profiles true x113) ;; Ok (is_nil x114));
    (profile_inquiry_reply_validate (mkSx 0x7E0000 [10; 13; 33; 2; 120; 86; 52; 18; 119; 85; 51; 17; 0; 0; 0; 0; 0; 0; 0]));
    (x115 <- (as_view true profile_inquiry_reply_validate (mkSx 0x7E0000 [10; 13; 33; 2; 120; 86; 52; 18; 119; 85; 51; 17; 0; 0; 0; 0; 0; 0; 0])) ;; Ok (opt_some x115));
    (profile_inquiry_reply_validate (mkSx 0x7E0000 [10; 13; 33; 2; 120; 86; 52; 18; 119; 85; 51; 17; 0; 0; 2; 0; 126; 1; 2; 3; 4; 0; 33; 9; 11; 77]));
    (x116 <- (as_view true profile_inquiry_reply_validate (mkSx 0x7E0000 [10; 13; 33; 2; 120; 86; 52; 18; 119; 85; 51; 17; 0; 0; 2; 0; 126; 1; 2; 3; 4; 0; 33; 9; 11; 77])) ;; Ok (opt_some x116));
    (x118 <- (x117 <- (ci_view true (mkSx 0x7E0000 [10; 13; 33; 2; 120; 86; 52; 18; 119; 85; 51; 17; 0; 0; 2; 0; 126; 1; 2; 3; 4; 0; 33; 9; 11; 77])) ;; view_device_id x117) ;; Ok (Z.eqb 10 x118));
    (x120 <- (x119 <- (ci_view true (mkSx 0x7E0000 [10; 13; 33; 2; 120; 86; 52; 18; 119; 85; 51; 17; 0; 0; 2; 0; 126; 1; 2; 3; 4; 0; 33; 9; 11; 77])) ;; view_type x119) ;; Ok (Z.eqb 32269 x120));
    (x122 <- (x121 <- (ci_view true (mkSx 0x7E0000 [10; 13; 33; 2; 120; 86; 52; 18; 119; 85; 51; 17; 0; 0; 2; 0; 126; 1; 2; 3; 4; 0; 33; 9; 11; 77])) ;; view_subtype x121) ;; Ok (Z.eqb 33 x122));
    (x124 <- (x123 <- (ci_view true (mkSx 0x7E0000 [10; 13; 33; 2; 120; 86; 52; 18; 119; 85; 51; 17; 0; 0; 2; 0; 126; 1; 2; 3; 4; 0; 33; 9; 11; 77])) ;; message_version x123) ;; Ok (Z.eqb 2 x124));
    (x126 <- (x125 <- (ci_view true (mkSx 0x7E0000 [10; 13; 33; 2; 120; 86; 52; 18; 119; 85; 51; 17; 0; 0; 2; 0; 126; 1; 2; 3; 4; 0; 33; 9; 11; 77])) ;; source_muid x125) ;; Ok (Z.eqb 38611832 x126));
    (x128 <- (x127 <- (ci_view true (mkSx 0x7E0000 [10; 13; 33; 2; 120; 86; 52; 18; 119; 85; 51; 17; 0; 0; 2; 0; 126; 1; 2; 3; 4; 0; 33; 9; 11; 77])) ;; destination_muid x127) ;; Ok (Z.eqb 36498167 x128));
    (b_ <- (x129 <- (ci_view true (mkSx 0x7E0000 [10; 13; 33; 2; 120; 86; 52; 18; 119; 85; 51; 17; 0; 0; 2; 0; 126; 1; 2; 3; 4; 0; 33; 9; 11; 77])) ;; has_enabled_profiles x129) ;; Ok (negb b_));
    (x131 <- (x130 <- (ci_view true (mkSx 0x7E0000 [10; 13; 33; 2; 120; 86; 52; 18; 119; 85; 51; 17; 0; 0; 2; 0; 126; 1; 2; 3; 4; 0; 33; 9; 11; 77])) ;; enabled_profiles true x130) ;; Ok (is_nil x131));
    (x132 <- (ci_view true (mkSx 0x7E0000 [10; 13; 33; 2; 120; 86; 52; 18; 119; 85; 51; 17; 0; 0; 2; 0; 126; 1; 2; 3; 4; 0; 33; 9; 11; 77])) ;; has_disabled_profiles x132);
    (x134 <- (x133 <- (ci_view true (mkSx 0x7E0000 [10; 13; 33; 2; 120; 86; 52; 18; 119; 85; 51; 17; 0; 0; 2; 0; 126; 1; 2; 3; 4; 0; 33; 9; 11; 77])) ;; num_disabled_profiles x133) ;; Ok (Z.eqb 2 x134));
    (x137 <- (x136 <- (x135 <- (ci_view true (mkSx 0x7E0000 [10; 13; 33; 2; 120; 86; 52; 18; 119; 85; 51; 17; 0; 0; 2; 0; 126; 1; 2; 3; 4; 0; 33; 9; 11; 77])) ;; disabled_profiles true x135) ;; Ok (size x136)) ;; Ok (Z.eqb 2 x137));
    (x138 <- (x135 <- (ci_view true (mkSx 0x7E0000 [10; 13; 33; 2; 120; 86; 52; 18; 119; 85; 51; 17; 0; 0; 2; 0; 126; 1; 2; 3; 4; 0; 33; 9; 11; 77])) ;; disabled_profiles true x135) ;; Ok (profs_at (skipz 16 (sx_data (mkSx 0x7E0000 [10; 13; 33; 2; 120; 86; 52; 18; 119; 85; 51; 17; 0; 0; 2; 0; 126; 1; 2; 3; 4; 0; 33; 9; 11; 77]))) x138));
    (profile_inquiry_reply_validate (mkSx 0x7E0000 [2; 13; 33; 2; 119; 85; 51; 17; 120; 86; 52; 18; 2; 0; 65; 0; 0; 8; 9; 126; 3; 2; 1; 0; 0; 0]));
    (x140 <- (as_view true profile_inquiry_reply_validate (mkSx 0x7E0000 [2; 13; 33; 2; 119; 85; 51; 17; 120; 86; 52; 18; 2; 0; 65; 0; 0; 8; 9; 126; 3; 2; 1; 0; 0; 0])) ;; Ok (opt_some x140));
    (x142 <- (x141 <- (ci_view true (mkSx 0x7E0000 [2; 13; 33; 2; 119; 85; 51; 17; 120; 86; 52; 18; 2; 0; 65; 0; 0; 8; 9; 126; 3; 2; 1; 0; 0; 0])) ;; view_device_id x141) ;; Ok (Z.eqb 2 x142));
    (x144 <- (x143 <- (ci_view true (mkSx 0x7E0000 [2; 13; 33; 2; 119; 85; 51; 17; 120; 86; 52; 18; 2; 0; 65; 0; 0; 8; 9; 126; 3; 2; 1; 0; 0; 0])) ;; view_type x143) ;; Ok (Z.eqb 32269 x144));
    (x146 <- (x145 <- (ci_view true (mkSx 0x7E0000 [2; 13; 33; 2; 119; 85; 51; 17; 120; 86; 52; 18; 2; 0; 65; 0; 0; 8; 9; 126; 3; 2; 1; 0; 0; 0])) ;; view_subtype x145) ;; Ok (Z.eqb 33 x146));
    (x148 <- (x147 <- (ci_view true (mkSx 0x7E0000 [2; 13; 33; 2; 119; 85; 51; 17; 120; 86; 52; 18; 2; 0; 65; 0; 0; 8; 9; 126; 3; 2; 1; 0; 0; 0])) ;; message_version x147) ;; Ok (Z.eqb 2 x148));
    (x150 <- (x149 <- (ci_view true (mkSx 0x7E0000 [2; 13; 33; 2; 119; 85; 51; 17; 120; 86; 52; 18; 2; 0; 65; 0; 0; 8; 9; 126; 3; 2; 1; 0; 0; 0])) ;; source_muid x149) ;; Ok (Z.eqb 36498167 x150));
    (x152 <- (x151 <- (ci_view true (mkSx 0x7E0000 [2; 13; 33; 2; 119; 85; 51; 17; 120; 86; 52; 18; 2; 0; 65; 0; 0; 8; 9; 126; 3; 2; 1; 0; 0; 0])) ;; destination_muid x151) ;; Ok (Z.eqb 38611832 x152));
    (x153 <- (ci_view true (mkSx 0x7E0000 [2; 13; 33; 2; 119; 85; 51; 17; 120; 86; 52; 18; 2; 0; 65; 0; 0; 8; 9; 126; 3; 2; 1; 0; 0; 0])) ;; has_enabled_profiles x153);
    (x155 <- (x154 <- (ci_view true (mkSx 0x7E0000 [2; 13; 33; 2; 119; 85; 51; 17; 120; 86; 52; 18; 2; 0; 65; 0; 0; 8; 9; 126; 3; 2; 1; 0; 0; 0])) ;; num_enabled_profiles x154) ;; Ok (Z.eqb 2 x155));
    (x158 <- (x157 <- (x156 <- (ci_view true (mkSx 0x7E0000 [2; 13; 33; 2; 119; 85; 51; 17; 120; 86; 52; 18; 2; 0; 65; 0; 0; 8; 9; 126; 3; 2; 1; 0; 0; 0])) ;; enabled_profiles true x156) ;; Ok (size x157)) ;; Ok (Z.eqb 2 x158));
    (x159 <- (x156 <- (ci_view true (mkSx 0x7E0000 [2; 13; 33; 2; 119; 85; 51; 17; 120; 86; 52; 18; 2; 0; 65; 0; 0; 8; 9; 126; 3; 2; 1; 0; 0; 0])) ;; enabled_profiles true x156) ;; Ok (profs_at (skipz 14 (sx_data (mkSx 0x7E0000 [2; 13; 33; 2; 119; 85; 51; 17; 120; 86; 52; 18; 2; 0; 65; 0; 0; 8; 9; 126; 3; 2; 1; 0; 0; 0]))) x159));
    (b_ <- (x161 <- (ci_view true (mkSx 0x7E0000 [2; 13; 33; 2; 119; 85; 51; 17; 120; 86; 52; 18; 2; 0; 65; 0; 0; 8; 9; 126; 3; 2; 1; 0; 0; 0])) ;; has_disabled_profiles x161) ;; Ok (negb b_));
    (x163 <- (x162 <- (ci_view true (mkSx 0x7E0000 [2; 13; 33; 2; 119; 85; 51; 17; 120; 86; 52; 18; 2; 0; 65; 0; 0; 8; 9; 126; 3; 2; 1; 0; 0; 0])) ;; num_disabled_profiles x162) ;; Ok (Z.eqb 0 x163));
    (x165 <- (x164 <- (ci_view true (mkSx 0x7E0000 [2; 13; 33; 2; 119; 85; 51; 17; 120; 86; 52; 18; 2; 0; 65; 0; 0; 8; 9; 126; 3; 2; 1; 0; 0; 0])) ;; disabled_profiles true x164) ;; Ok (is_nil x165));
    (profile_inquiry_reply_validate (mkSx 0x7E0000 [127; 13; 33; 2; 18; 52; 86; 120; 120; 86; 52; 18; 1; 0; 0; 33; 9; 42; 7; 3; 0; 126; 1; 2; 3; 4; 0; 33; 9; 11; 77; 126; 4; 3; 2; 1]));
    (x166 <- (as_view true profile_inquiry_reply_validate (mkSx 0x7E0000 [127; 13; 33; 2; 18; 52; 86; 120; 120; 86; 52; 18; 1; 0; 0; 33; 9; 42; 7; 3; 0; 126; 1; 2; 3; 4; 0; 33; 9; 11; 77; 126; 4; 3; 2; 1])) ;; Ok (opt_some x166));
    (x168 <- (x167 <- (ci_view true (mkSx 0x7E0000 [127; 13; 33; 2; 18; 52; 86; 120; 120; 86; 52; 18; 1; 0; 0; 33; 9; 42; 7; 3; 0; 126; 1; 2; 3; 4; 0; 33; 9; 11; 77; 126; 4; 3; 2; 1])) ;; view_device_id x167) ;; Ok (Z.eqb 127 x168));
    (x170 <- (x169 <- (ci_view true (mkSx 0x7E0000 [127; 13; 33; 2; 18; 52; 86; 120; 120; 86; 52; 18; 1; 0; 0; 33; 9; 42; 7; 3; 0; 126; 1; 2; 3; 4; 0; 33; 9; 11; 77; 126; 4; 3; 2; 1])) ;; view_type x169) ;; Ok (Z.eqb 32269 x170));
    (x172 <- (x171 <- (ci_view true (mkSx 0x7E0000 [127; 13; 33; 2; 18; 52; 86; 120; 120; 86; 52; 18; 1; 0; 0; 33; 9; 42; 7; 3; 0; 126; 1; 2; 3; 4; 0; 33; 9; 11; 77; 126; 4; 3; 2; 1])) ;; view_subtype x171) ;; Ok (Z.eqb 33 x172));
    (x174 <- (x173 <- (ci_view true (mkSx 0x7E0000 [127; 13; 33; 2; 18; 52; 86; 120; 120; 86; 52; 18; 1; 0; 0; 33; 9; 42; 7; 3; 0; 126; 1; 2; 3; 4; 0; 33; 9; 11; 77; 126; 4; 3; 2; 1])) ;; message_version x173) ;; Ok (Z.eqb 2 x174));
    (x176 <- (x175 <- (ci_view true (mkSx 0x7E0000 [127; 13; 33; 2; 18; 52; 86; 120; 120; 86; 52; 18; 1; 0; 0; 33; 9; 42; 7; 3; 0; 126; 1; 2; 3; 4; 0; 33; 9; 11; 77; 126; 4; 3; 2; 1])) ;; source_muid x175) ;; Ok (Z.eqb 253073938 x176));
    (x178 <- (x177 <- (ci_view true (mkSx 0x7E0000 [127; 13; 33; 2; 18; 52; 86; 120; 120; 86; 52; 18; 1; 0; 0; 33; 9; 42; 7; 3; 0; 126; 1; 2; 3; 4; 0; 33; 9; 11; 77; 126; 4; 3; 2; 1])) ;; destination_muid x177) ;; Ok (Z.eqb 38611832 x178));
    (x179 <- (ci_view true (mkSx 0x7E0000 [127; 13; 33; 2; 18; 52; 86; 120; 120; 86; 52; 18; 1; 0; 0; 33; 9; 42; 7; 3; 0; 126; 1; 2; 3; 4; 0; 33; 9; 11; 77; 126; 4; 3; 2; 1])) ;; has_enabled_profiles x179);
    (x181 <- (x180 <- (ci_view true (mkSx 0x7E0000 [127; 13; 33; 2; 18; 52; 86; 120; 120; 86; 52; 18; 1; 0; 0; 33; 9; 42; 7; 3; 0; 126; 1; 2; 3; 4; 0; 33; 9; 11; 77; 126; 4; 3; 2; 1])) ;; num_enabled_profiles x180) ;; Ok (Z.eqb 1 x181));
    (x184 <- (x183 <- (x182 <- (ci_view true (mkSx 0x7E0000 [127; 13; 33; 2; 18; 52; 86; 120; 120; 86; 52; 18; 1; 0; 0; 33; 9; 42; 7; 3; 0; 126; 1; 2; 3; 4; 0; 33; 9; 11; 77; 126; 4; 3; 2; 1])) ;; enabled_profiles true x182) ;; Ok (size x183)) ;; Ok (Z.eqb 1 x184));
    (x185 <- (x182 <- (ci_view true (mkSx 0x7E0000 [127; 13; 33; 2; 18; 52; 86; 120; 120; 86; 52; 18; 1; 0; 0; 33; 9; 42; 7; 3; 0; 126; 1; 2; 3; 4; 0; 33; 9; 11; 77; 126; 4; 3; 2; 1])) ;; enabled_profiles true x182) ;; Ok (profs_at (skipz 14 (sx_data (mkSx 0x7E0000 [127; 13; 33; 2; 18; 52; 86; 120; 120; 86; 52; 18; 1; 0; 0; 33; 9; 42; 7; 3; 0; 126; 1; 2; 3; 4; 0; 33; 9; 11; 77; 126; 4; 3; 2; 1]))) x185));
    (x187 <- (ci_view true (mkSx 0x7E0000 [127; 13; 33; 2; 18; 52; 86; 120; 120; 86; 52; 18; 1; 0; 0; 33; 9; 42; 7; 3; 0; 126; 1; 2; 3; 4; 0; 33; 9; 11; 77; 126; 4; 3; 2; 1])) ;; has_disabled_profiles x187);
    (x189 <- (x188 <- (ci_view true (mkSx 0x7E0000 [127; 13; 33; 2; 18; 52; 86; 120; 120; 86; 52; 18; 1; 0; 0; 33; 9; 42; 7; 3; 0; 126; 1; 2; 3; 4; 0; 33; 9; 11; 77; 126; 4; 3; 2; 1])) ;; num_disabled_profiles x188) ;; Ok (Z.eqb 3 x189));
    (x192 <- (x191 <- (x190 <- (ci_view true (mkSx 0x7E0000 [127; 13; 33; 2; 18; 52; 86; 120; 120; 86; 52; 18; 1; 0; 0; 33; 9; 42; 7; 3; 0; 126; 1; 2; 3; 4; 0; 33; 9; 11; 77; 126; 4; 3; 2; 1])) ;; disabled_profiles true x190) ;; Ok (size x191)) ;; Ok (Z.eqb 3 x192));
    (x194 <- (x193 <- (x186 <- (x182 <- (ci_view true (mkSx 0x7E0000 [127; 13; 33; 2; 18; 52; 86; 120; 120; 86; 52; 18; 1; 0; 0; 33; 9; 42; 7; 3; 0; 126; 1; 2; 3; 4; 0; 33; 9; 11; 77; 126; 4; 3; 2; 1])) ;; enabled_profiles true x182) ;; Ok (after_profs (skipz 14 (sx_data (mkSx 0x7E0000 [127; 13; 33; 2; 18; 52; 86; 120; 120; 86; 52; 18; 1; 0; 0; 33; 9; 42; 7; 3; 0; 126; 1; 2; 3; 4; 0; 33; 9; 11; 77; 126; 4; 3; 2; 1]))) x186)) ;; Ok (skipz 2 x193)) ;; x195 <- (x190 <- (ci_view true (mkSx 0x7E0000 [127; 13; 33; 2; 18; 52; 86; 120; 120; 86; 52; 18; 1; 0; 0; 33; 9; 42; 7; 3; 0; 126; 1; 2; 3; 4; 0; 33; 9; 11; 77; 126; 4; 3; 2; 1])) ;; disabled_profiles true x190) ;; Ok (profs_at x194 x195));
    (b_ <- (profile_inquiry_reply_validate (mkSx 0x7E0000 [10; 13; 20; 2; 120; 86; 52; 18; 18; 52; 86; 120; 0; 0; 2; 0; 126; 1; 2; 3; 4; 0; 33; 9; 0; 11])) ;; Ok (negb b_));
    (b_ <- (x198 <- (as_view true profile_inquiry_reply_validate (mkSx 0x7E0000 [10; 13; 20; 2; 120; 86; 52; 18; 18; 52; 86; 120; 0; 0; 2; 0; 126; 1; 2; 3; 4; 0; 33; 9; 0; 11])) ;; Ok (opt_some x198)) ;; Ok (negb b_));
    (b_ <- (profile_inquiry_reply_validate (mkSx 0x7E0000 [10; 13; 33; 2; 120; 86; 52; 18; 18; 52; 86; 120; 0; 1; 2; 0; 126; 1; 2; 3; 4; 0; 33; 9; 0; 11])) ;; Ok (negb b_));
    (b_ <- (x199 <- (as_view true profile_inquiry_reply_validate (mkSx 0x7E0000 [10; 13; 33; 2; 120; 86; 52; 18; 18; 52; 86; 120; 0; 1; 2; 0; 126; 1; 2; 3; 4; 0; 33; 9; 0; 11])) ;; Ok (opt_some x199)) ;; Ok (negb b_));
    (b_ <- (profile_inquiry_reply_validate (mkSx 0x7E0000 [127; 13; 33; 2; 18; 52; 86; 120; 120; 86; 52; 18; 1; 0; 0; 33; 9; 42; 7; 12; 3; 0; 126; 1; 2; 3; 4; 0; 33; 9; 11; 77; 126; 1; 2; 3])) ;; Ok (negb b_));
    (b_ <- (x200 <- (as_view true profile_inquiry_reply_validate (mkSx 0x7E0000 [127; 13; 33; 2; 18; 52; 86; 120; 120; 86; 52; 18; 1; 0; 0; 33; 9; 42; 7; 12; 3; 0; 126; 1; 2; 3; 4; 0; 33; 9; 11; 77; 126; 1; 2; 3])) ;; Ok (opt_some x200)) ;; Ok (negb b_));
    (b_ <- (profile_inquiry_reply_validate (mkSx 0x002109 [4; 5; 6; 7; 8; 9; 10; 11; 12; 13; 14; 247])) ;; Ok (negb b_));
    (b_ <- (x201 <- (as_view true profile_inquiry_reply_validate (mkSx 0x002109 [4; 5; 6; 7; 8; 9; 10; 11; 12; 13; 14; 247])) ;; Ok (opt_some x201)) ;; Ok (negb b_))].
Proof. vm_compute. repeat constructor. Qed.

(* line 460 *)
Example test_make_profile_inquiry_reply_from_carray : all_true [
    (x203 <- (x202 <- (make_profile_inquiry_reply_n true 124147012 18193 [] 0 [] 0 8) ;; Ok (dsize x202)) ;; Ok (Z.eqb 16 x203));
    (x204 <- (make_profile_inquiry_reply_n true 124147012 18193 [] 0 [] 0 8) ;; profile_inquiry_reply_validate x204);
    (x206 <- (x205 <- (make_profile_inquiry_reply_n true 124147012 18193 [] 0 [] 0 8) ;; as_view true profile_inquiry_reply_validate x205) ;; Ok (opt_some x206));
    (x209 <- (x208 <- (x207 <- (make_profile_inquiry_reply_n true 124147012 18193 [] 0 [] 0 8) ;; ci_view true x207) ;; view_device_id x208) ;; Ok (Z.eqb 8 x209));
    (x211 <- (x210 <- (x207 <- (make_profile_inquiry_reply_n true 124147012 18193 [] 0 [] 0 8) ;; ci_view true x207) ;; view_type x210) ;; Ok (Z.eqb 32269 x211));
    (x213 <- (x212 <- (x207 <- (make_profile_inquiry_reply_n true 124147012 18193 [] 0 [] 0 8) ;; ci_view true x207) ;; view_subtype x212) ;; Ok (Z.eqb 33 x213));
    (x215 <- (x214 <- (x207 <- (make_profile_inquiry_reply_n true 124147012 18193 [] 0 [] 0 8) ;; ci_view true x207) ;; message_version x214) ;; Ok (Z.eqb 2 x215));
    (x217 <- (x216 <- (x207 <- (make_profile_inquiry_reply_n true 124147012 18193 [] 0 [] 0 8) ;; ci_view true x207) ;; source_muid x216) ;; Ok (Z.eqb 124147012 x217));
    (x219 <- (x218 <- (x207 <- (make_profile_inquiry_reply_n true 124147012 18193 [] 0 [] 0 8) ;; ci_view true x207) ;; destination_muid x218) ;; Ok (Z.eqb 18193 x219));
    (b_ <- (x220 <- (x207 <- (make_profile_inquiry_reply_n true 124147012 18193 [] 0 [] 0 8) ;; ci_view true x207) ;; has_enabled_profiles x220) ;; Ok (negb b_));
    (x222 <- (x221 <- (x207 <- (make_profile_inquiry_reply_n true 124147012 18193 [] 0 [] 0 8) ;; ci_view true x207) ;; num_enabled_profiles x221) ;; Ok (Z.eqb 0 x222));
    (x225 <- (x224 <- (x223 <- (x207 <- (make_profile_inquiry_reply_n true 124147012 18193 [] 0 [] 0 8) ;; ci_view true x207) ;; enabled_profiles true x223) ;; Ok (size x224)) ;; Ok (Z.eqb 0 x225));
    (b_ <- (x226 <- (x207 <- (make_profile_inquiry_reply_n true 124147012 18193 [] 0 [] 0 8) ;; ci_view true x207) ;; has_disabled_profiles x226) ;; Ok (negb b_));
    (x228 <- (x227 <- (x207 <- (make_profile_inquiry_reply_n true 124147012 18193 [] 0 [] 0 8) ;; ci_view true x207) ;; num_disabled_profiles x227) ;; Ok (Z.eqb 0 x228));
    (x231 <- (x230 <- (x229 <- (x207 <- (make_profile_inquiry_reply_n true 124147012 18193 [] 0 [] 0 8) ;; ci_view true x207) ;; disabled_profiles true x229) ;; Ok (size x230)) ;; Ok (Z.eqb 0 x231));
    (x233 <- (x232 <- (make_profile_inquiry_reply_n true 19088743 214748364 [] 0 [(mkProf 126 1 2 3 4); (mkProf 0 33 9 11 77)] 2 10) ;; Ok (dsize x232)) ;; Ok (Z.eqb 26 x233));
    (x234 <- (make_profile_inquiry_reply_n true 19088743 214748364 [] 0 [(mkProf 126 1 2 3 4); (mkProf 0 33 9 11 77)] 2 10) ;; profile_inquiry_reply_validate x234);
    (x236 <- (x235 <- (make_profile_inquiry_reply_n true 19088743 214748364 [] 0 [(mkProf 126 1 2 3 4); (mkProf 0 33 9 11 77)] 2 10) ;; as_view true profile_inquiry_reply_validate x235) ;; Ok (opt_some x236));
    (x239 <- (x238 <- (x237 <- (make_profile_inquiry_reply_n true 19088743 214748364 [] 0 [(mkProf 126 1 2 3 4); (mkProf 0 33 9 11 77)] 2 10) ;; ci_view true x237) ;; view_device_id x238) ;; Ok (Z.eqb 10 x239));
    (x241 <- (x240 <- (x237 <- (make_profile_inquiry_reply_n true 19088743 214748364 [] 0 [(mkProf 126 1 2 3 4); (mkProf 0 33 9 11 77)] 2 10) ;; ci_view true x237) ;; view_type x240) ;; Ok (Z.eqb 32269 x241));
    (x243 <- (x242 <- (x237 <- (make_profile_inquiry_reply_n true 19088743 214748364 [] 0 [(mkProf 126 1 2 3 4); (mkProf 0 33 9 11 77)] 2 10) ;; ci_view true x237) ;; view_subtype x242) ;; Ok (Z.eqb 33 x243));
    (x245 <- (x244 <- (x237 <- (make_profile_inquiry_reply_n true 19088743 214748364 [] 0 [(mkProf 126 1 2 3 4); (mkProf 0 33 9 11 77)] 2 10) ;; ci_view true x237) ;; message_version x244) ;; Ok (Z.eqb 2 x245));
    (x247 <- (x246 <- (x237 <- (make_profile_inquiry_reply_n true 19088743 214748364 [] 0 [(mkProf 126 1 2 3 4); (mkProf 0 33 9 11 77)] 2 10) ;; ci_view true x237) ;; source_muid x246) ;; Ok (Z.eqb 19088743 x247));
    (x249 <- (x248 <- (x237 <- (make_profile_inquiry_reply_n true 19088743 214748364 [] 0 [(mkProf 126 1 2 3 4); (mkProf 0 33 9 11 77)] 2 10) ;; ci_view true x237) ;; destination_muid x248) ;; Ok (Z.eqb 214748364 x249));
    (b_ <- (x250 <- (x237 <- (make_profile_inquiry_reply_n true 19088743 214748364 [] 0 [(mkProf 126 1 2 3 4); (mkProf 0 33 9 11 77)] 2 10) ;; ci_view true x237) ;; has_enabled_profiles x250) ;; Ok (negb b_));
    (x252 <- (x251 <- (x237 <- (make_profile_inquiry_reply_n true 19088743 214748364 [] 0 [(mkProf 126 1 2 3 4); (mkProf 0 33 9 11 77)] 2 10) ;; ci_view true x237) ;; enabled_profiles true x251) ;; Ok (is_nil x252));
    (x253 <- (x237 <- (make_profile_inquiry_reply_n true 19088743 214748364 [] 0 [(mkProf 126 1 2 3 4); (mkProf 0 33 9 11 77)] 2 10) ;; ci_view true x237) ;; has_disabled_profiles x253);
    (x255 <- (x254 <- (x237 <- (make_profile_inquiry_reply_n true 19088743 214748364 [] 0 [(mkProf 126 1 2 3 4); (mkProf 0 33 9 11 77)] 2 10) ;; ci_view true x237) ;; num_disabled_profiles x254) ;; Ok (Z.eqb 2 x255));
    (x258 <- (x257 <- (x256 <- (x237 <- (make_profile_inquiry_reply_n true 19088743 214748364 [] 0 [(mkProf 126 1 2 3 4); (mkProf 0 33 9 11 77)] 2 10) ;; ci_view true x237) ;; disabled_profiles true x256) ;; Ok (size x257)) ;; Ok (Z.eqb 2 x258));
    (x259 <- (x256 <- (x237 <- (make_profile_inquiry_reply_n true 19088743 214748364 [] 0 [(mkProf 126 1 2 3 4); (mkProf 0 33 9 11 77)] 2 10) ;; ci_view true x237) ;; disabled_profiles true x256) ;; Ok (profs_eqb [(mkProf 126 1 2 3 4); (mkProf 0 33 9 11 77)] x259));
    (x261 <- (x260 <- (make_profile_inquiry_reply_n true 18036055 35931752 [(mkProf 65 0 0 8 0); (mkProf 0 33 9 11 77)] 2 [] 0 2) ;; Ok (dsize x260)) ;; Ok (Z.eqb 26 x261));
    (x262 <- (make_profile_inquiry_reply_n true 18036055 35931752 [(mkProf 65 0 0 8 0); (mkProf 0 33 9 11 77)] 2 [] 0 2) ;; profile_inquiry_reply_validate x262);
    (x264 <- (x263 <- (make_profile_inquiry_reply_n true 18036055 35931752 [(mkProf 65 0 0 8 0); (mkProf 0 33 9 11 77)] 2 [] 0 2) ;; as_view true profile_inquiry_reply_validate x263) ;; Ok (opt_some x264));
    (x267 <- (x266 <- (x265 <- (make_profile_inquiry_reply_n true 18036055 35931752 [(mkProf 65 0 0 8 0); (mkProf 0 33 9 11 77)] 2 [] 0 2) ;; ci_view true x265) ;; view_device_id x266) ;; Ok (Z.eqb 2 x267));
    (x269 <- (x268 <- (x265 <- (make_profile_inquiry_reply_n true 18036055 35931752 [(mkProf 65 0 0 8 0); (mkProf 0 33 9 11 77)] 2 [] 0 2) ;; ci_view true x265) ;; view_type x268) ;; Ok (Z.eqb 32269 x269));
    (x271 <- (x270 <- (x265 <- (make_profile_inquiry_reply_n true 18036055 35931752 [(mkProf 65 0 0 8 0); (mkProf 0 33 9 11 77)] 2 [] 0 2) ;; ci_view true x265) ;; view_subtype x270) ;; Ok (Z.eqb 33 x271));
    (x273 <- (x272 <- (x265 <- (make_profile_inquiry_reply_n true 18036055 35931752 [(mkProf 65 0 0 8 0); (mkProf 0 33 9 11 77)] 2 [] 0 2) ;; ci_view true x265) ;; message_version x272) ;; Ok (Z.eqb 2 x273));
    (x275 <- (x274 <- (x265 <- (make_profile_inquiry_reply_n true 18036055 35931752 [(mkProf 65 0 0 8 0); (mkProf 0 33 9 11 77)] 2 [] 0 2) ;; ci_view true x265) ;; source_muid x274) ;; Ok (Z.eqb 18036055 x275));
    (x277 <- (x276 <- (x265 <- (make_profile_inquiry_reply_n true 18036055 35931752 [(mkProf 65 0 0 8 0); (mkProf 0 33 9 11 77)] 2 [] 0 2) ;; ci_view true x265) ;; destination_muid x276) ;; Ok (Z.eqb 35931752 x277));
    (x278 <- (x265 <- (make_profile_inquiry_reply_n true 18036055 35931752 [(mkProf 65 0 0 8 0); (mkProf 0 33 9 11 77)] 2 [] 0 2) ;; ci_view true x265) ;; has_enabled_profiles x278);
    (x280 <- (x279 <- (x265 <- (make_profile_inquiry_reply_n true 18036055 35931752 [(mkProf 65 0 0 8 0); (mkProf 0 33 9 11 77)] 2 [] 0 2) ;; ci_view true x265) ;; num_enabled_profiles x279) ;; Ok (Z.eqb 2 x280));
    (x283 <- (x282 <- (x281 <- (x265 <- (make_profile_inquiry_reply_n true 18036055 35931752 [(mkProf 65 0 0 8 0); (mkProf 0 33 9 11 77)] 2 [] 0 2) ;; ci_view true x265) ;; enabled_profiles true x281) ;; Ok (size x282)) ;; Ok (Z.eqb 2 x283));
    (x284 <- (x281 <- (x265 <- (make_profile_inquiry_reply_n true 18036055 35931752 [(mkProf 65 0 0 8 0); (mkProf 0 33 9 11 77)] 2 [] 0 2) ;; ci_view true x265) ;; enabled_profiles true x281) ;; Ok (profs_eqb [(mkProf 65 0 0 8 0); (mkProf 0 33 9 11 77)] x284));
    (b_ <- (x285 <- (x265 <- (make_profile_inquiry_reply_n true 18036055 35931752 [(mkProf 65 0 0 8 0); (mkProf 0 33 9 11 77)] 2 [] 0 2) ;; ci_view true x265) ;; has_disabled_profiles x285) ;; Ok (negb b_));
    (x287 <- (x286 <- (x265 <- (make_profile_inquiry_reply_n true 18036055 35931752 [(mkProf 65 0 0 8 0); (mkProf 0 33 9 11 77)] 2 [] 0 2) ;; ci_view true x265) ;; num_disabled_profiles x286) ;; Ok (Z.eqb 0 x287));
    (x289 <- (x288 <- (x265 <- (make_profile_inquiry_reply_n true 18036055 35931752 [(mkProf 65 0 0 8 0); (mkProf 0 33 9 11 77)] 2 [] 0 2) ;; ci_view true x265) ;; disabled_profiles true x288) ;; Ok (is_nil x289));
    (x291 <- (x290 <- (make_profile_inquiry_reply_n true 139867154 76706660 [(mkProf 0 33 9 42 7)] 1 [(mkProf 126 1 2 3 4); (mkProf 0 33 9 11 77); (mkProf 126 3 2 1 0)] 3 127) ;; Ok (dsize x290)) ;; Ok (Z.eqb 36 x291));
    (x292 <- (make_profile_inquiry_reply_n true 139867154 76706660 [(mkProf 0 33 9 42 7)] 1 [(mkProf 126 1 2 3 4); (mkProf 0 33 9 11 77); (mkProf 126 3 2 1 0)] 3 127) ;; profile_inquiry_reply_validate x292);
    (x294 <- (x293 <- (make_profile_inquiry_reply_n true 139867154 76706660 [(mkProf 0 33 9 42 7)] 1 [(mkProf 126 1 2 3 4); (mkProf 0 33 9 11 77); (mkProf 126 3 2 1 0)] 3 127) ;; as_view true profile_inquiry_reply_validate x293) ;; Ok (opt_some x294));
    (x297 <- (x296 <- (x295 <- (make_profile_inquiry_reply_n true 139867154 76706660 [(mkProf 0 33 9 42 7)] 1 [(mkProf 126 1 2 3 4); (mkProf 0 33 9 11 77); (mkProf 126 3 2 1 0)] 3 127) ;; ci_view true x295) ;; view_device_id x296) ;; Ok (Z.eqb 127 x297));
    (x299 <- (x298 <- (x295 <- (make_profile_inquiry_reply_n true 139867154 76706660 [(mkProf 0 33 9 42 7)] 1 [(mkProf 126 1 2 3 4); (mkProf 0 33 9 11 77); (mkProf 126 3 2 1 0)] 3 127) ;; ci_view true x295) ;; view_type x298) ;; Ok (Z.eqb 32269 x299));
    (x301 <- (x300 <- (x295 <- (make_profile_inquiry_reply_n true 139867154 76706660 [(mkProf 0 33 9 42 7)] 1 [(mkProf 126 1 2 3 4); (mkProf 0 33 9 11 77); (mkProf 126 3 2 1 0)] 3 127) ;; ci_view true x295) ;; view_subtype x300) ;; Ok (Z.eqb 33 x301));
    (x303 <- (x302 <- (x295 <- (make_profile_inquiry_reply_n true 139867154 76706660 [(mkProf 0 33 9 42 7)] 1 [(mkProf 126 1 2 3 4); (mkProf 0 33 9 11 77); (mkProf 126 3 2 1 0)] 3 127) ;; ci_view true x295) ;; message_version x302) ;; Ok (Z.eqb 2 x303));
    (x305 <- (x304 <- (x295 <- (make_profile_inquiry_reply_n true 139867154 76706660 [(mkProf 0 33 9 42 7)] 1 [(mkProf 126 1 2 3 4); (mkProf 0 33 9 11 77); (mkProf 126 3 2 1 0)] 3 127) ;; ci_view true x295) ;; source_muid x304) ;; Ok (Z.eqb 139867154 x305));
    (x307 <- (x306 <- (x295 <- (make_profile_inquiry_reply_n true 139867154 76706660 [(mkProf 0 33 9 42 7)] 1 [(mkProf 126 1 2 3 4); (mkProf 0 33 9 11 77); (mkProf 126 3 2 1 0)] 3 127) ;; ci_view true x295) ;; destination_muid x306) ;; Ok (Z.eqb 76706660 x307));
    (x308 <- (x295 <- (make_profile_inquiry_reply_n true 139867154 76706660 [(mkProf 0 33 9 42 7)] 1 [(mkProf 126 1 2 3 4); (mkProf 0 33 9 11 77); (mkProf 126 3 2 1 0)] 3 127) ;; ci_view true x295) ;; has_enabled_profiles x308);
    (x310 <- (x309 <- (x295 <- (make_profile_inquiry_reply_n true 139867154 76706660 [(mkProf 0 33 9 42 7)] 1 [(mkProf 126 1 2 3 4); (mkProf 0 33 9 11 77); (mkProf 126 3 2 1 0)] 3 127) ;; ci_view true x295) ;; num_enabled_profiles x309) ;; Ok (Z.eqb 1 x310));
    (x313 <- (x312 <- (x311 <- (x295 <- (make_profile_inquiry_reply_n true 139867154 76706660 [(mkProf 0 33 9 42 7)] 1 [(mkProf 126 1 2 3 4); (mkProf 0 33 9 11 77); (mkProf 126 3 2 1 0)] 3 127) ;; ci_view true x295) ;; enabled_profiles true x311) ;; Ok (size x312)) ;; Ok (Z.eqb 1 x313));
    (x314 <- (x311 <- (x295 <- (make_profile_inquiry_reply_n true 139867154 76706660 [(mkProf 0 33 9 42 7)] 1 [(mkProf 126 1 2 3 4); (mkProf 0 33 9 11 77); (mkProf 126 3 2 1 0)] 3 127) ;; ci_view true x295) ;; enabled_profiles true x311) ;; Ok (profs_eqb [(mkProf 0 33 9 42 7)] x314));
    (x315 <- (x295 <- (make_profile_inquiry_reply_n true 139867154 76706660 [(mkProf 0 33 9 42 7)] 1 [(mkProf 126 1 2 3 4); (mkProf 0 33 9 11 77); (mkProf 126 3 2 1 0)] 3 127) ;; ci_view true x295) ;; has_disabled_profiles x315);
    (x317 <- (x316 <- (x295 <- (make_profile_inquiry_reply_n true 139867154 76706660 [(mkProf 0 33 9 42 7)] 1 [(mkProf 126 1 2 3 4); (mkProf 0 33 9 11 77); (mkProf 126 3 2 1 0)] 3 127) ;; ci_view true x295) ;; num_disabled_profiles x316) ;; Ok (Z.eqb 3 x317));
    (x320 <- (x319 <- (x318 <- (x295 <- (make_profile_inquiry_reply_n true 139867154 76706660 [(mkProf 0 33 9 42 7)] 1 [(mkProf 126 1 2 3 4); (mkProf 0 33 9 11 77); (mkProf 126 3 2 1 0)] 3 127) ;; ci_view true x295) ;; disabled_profiles true x318) ;; Ok (size x319)) ;; Ok (Z.eqb 3 x320));
    (x321 <- (x318 <- (x295 <- (make_profile_inquiry_reply_n true 139867154 76706660 [(mkProf 0 33 9 42 7)] 1 [(mkProf 126 1 2 3 4); (mkProf 0 33 9 11 77); (mkProf 126 3 2 1 0)] 3 127) ;; ci_view true x295) ;; disabled_profiles true x318) ;; Ok (profs_eqb [(mkProf 126 1 2 3 4); (mkProf 0 33 9 11 77); (mkProf 126 3 2 1 0)] x321));
    (x323 <- (x322 <- (make_profile_inquiry_reply_n true 126182209 19088743 (repeat (mkProf 0x7E 0 0 0 0) (Z.to_nat 256)) 256 (repeat (mkProf 0x7E 0 0 0 0) (Z.to_nat 322)) 322 127) ;; Ok (dsize x322)) ;; Ok (Z.eqb 2906 x323));
    (x324 <- (make_profile_inquiry_reply_n true 126182209 19088743 (repeat (mkProf 0x7E 0 0 0 0) (Z.to_nat 256)) 256 (repeat (mkProf 0x7E 0 0 0 0) (Z.to_nat 322)) 322 127) ;; profile_inquiry_reply_validate x324);
    (x326 <- (x325 <- (make_profile_inquiry_reply_n true 126182209 19088743 (repeat (mkProf 0x7E 0 0 0 0) (Z.to_nat 256)) 256 (repeat (mkProf 0x7E 0 0 0 0) (Z.to_nat 322)) 322 127) ;; as_view true profile_inquiry_reply_validate x325) ;; Ok (opt_some x326));
    (x329 <- (x328 <- (x327 <- (make_profile_inquiry_reply_n true 126182209 19088743 (repeat (mkProf 0x7E 0 0 0 0) (Z.to_nat 256)) 256 (repeat (mkProf 0x7E 0 0 0 0) (Z.to_nat 322)) 322 127) ;; ci_view true x327) ;; view_device_id x328) ;; Ok (Z.eqb 127 x329));
    (x331 <- (x330 <- (x327 <- (make_profile_inquiry_reply_n true 126182209 19088743 (repeat (mkProf 0x7E 0 0 0 0) (Z.to_nat 256)) 256 (repeat (mkProf 0x7E 0 0 0 0) (Z.to_nat 322)) 322 127) ;; ci_view true x327) ;; view_type x330) ;; Ok (Z.eqb 32269 x331));
    (x333 <- (x332 <- (x327 <- (make_profile_inquiry_reply_n true 126182209 19088743 (repeat (mkProf 0x7E 0 0 0 0) (Z.to_nat 256)) 256 (repeat (mkProf 0x7E 0 0 0 0) (Z.to_nat 322)) 322 127) ;; ci_view true x327) ;; view_subtype x332) ;; Ok (Z.eqb 33 x333));
    (x335 <- (x334 <- (x327 <- (make_profile_inquiry_reply_n true 126182209 19088743 (repeat (mkProf 0x7E 0 0 0 0) (Z.to_nat 256)) 256 (repeat (mkProf 0x7E 0 0 0 0) (Z.to_nat 322)) 322 127) ;; ci_view true x327) ;; message_version x334) ;; Ok (Z.eqb 2 x335));
    (x337 <- (x336 <- (x327 <- (make_profile_inquiry_reply_n true 126182209 19088743 (repeat (mkProf 0x7E 0 0 0 0) (Z.to_nat 256)) 256 (repeat (mkProf 0x7E 0 0 0 0) (Z.to_nat 322)) 322 127) ;; ci_view true x327) ;; source_muid x336) ;; Ok (Z.eqb 126182209 x337));
    (x339 <- (x338 <- (x327 <- (make_profile_inquiry_reply_n true 126182209 19088743 (repeat (mkProf 0x7E 0 0 0 0) (Z.to_nat 256)) 256 (repeat (mkProf 0x7E 0 0 0 0) (Z.to_nat 322)) 322 127) ;; ci_view true x327) ;; destination_muid x338) ;; Ok (Z.eqb 19088743 x339));
    (x340 <- (x327 <- (make_profile_inquiry_reply_n true 126182209 19088743 (repeat (mkProf 0x7E 0 0 0 0) (Z.to_nat 256)) 256 (repeat (mkProf 0x7E 0 0 0 0) (Z.to_nat 322)) 322 127) ;; ci_view true x327) ;; has_enabled_profiles x340);
    (x342 <- (x341 <- (x327 <- (make_profile_inquiry_reply_n true 126182209 19088743 (repeat (mkProf 0x7E 0 0 0 0) (Z.to_nat 256)) 256 (repeat (mkProf 0x7E 0 0 0 0) (Z.to_nat 322)) 322 127) ;; ci_view true x327) ;; num_enabled_profiles x341) ;; Ok (Z.eqb 256 x342));
    (x345 <- (x344 <- (x343 <- (x327 <- (make_profile_inquiry_reply_n true 126182209 19088743 (repeat (mkProf 0x7E 0 0 0 0) (Z.to_nat 256)) 256 (repeat (mkProf 0x7E 0 0 0 0) (Z.to_nat 322)) 322 127) ;; ci_view true x327) ;; enabled_profiles true x343) ;; Ok (size x344)) ;; Ok (Z.eqb 256 x345));
    (x346 <- (x343 <- (x327 <- (make_profile_inquiry_reply_n true 126182209 19088743 (repeat (mkProf 0x7E 0 0 0 0) (Z.to_nat 256)) 256 (repeat (mkProf 0x7E 0 0 0 0) (Z.to_nat 322)) 322 127) ;; ci_view true x327) ;; enabled_profiles true x343) ;; Ok (profs_eqb (repeat (mkProf 0x7E 0 0 0 0) (Z.to_nat 256)) x346));
    (x347 <- (x327 <- (make_profile_inquiry_reply_n true 126182209 19088743 (repeat (mkProf 0x7E 0 0 0 0) (Z.to_nat 256)) 256 (repeat (mkProf 0x7E 0 0 0 0) (Z.to_nat 322)) 322 127) ;; ci_view true x327) ;; has_disabled_profiles x347);
    (x349 <- (x348 <- (x327 <- (make_profile_inquiry_reply_n true 126182209 19088743 (repeat (mkProf 0x7E 0 0 0 0) (Z.to_nat 256)) 256 (repeat (mkProf 0x7E 0 0 0 0) (Z.to_nat 322)) 322 127) ;; ci_view true x327) ;; num_disabled_profiles x348) ;; Ok (Z.eqb 322 x349));
    (x352 <- (x351 <- (x350 <- (x327 <- (make_profile_inquiry_reply_n true 126182209 19088743 (repeat (mkProf 0x7E 0 0 0 0) (Z.to_nat 256)) 256 (repeat (mkProf 0x7E 0 0 0 0) (Z.to_nat 322)) 322 127) ;; ci_view true x327) ;; disabled_profiles true x350) ;; Ok (size x351)) ;; Ok (Z.eqb 322 x352));
    (x353 <- (x350 <- (x327 <- (make_profile_inquiry_reply_n true 126182209 19088743 (repeat (mkProf 0x7E 0 0 0 0) (Z.to_nat 256)) 256 (repeat (mkProf 0x7E 0 0 0 0) (Z.to_nat 322)) 322 127) ;; ci_view true x327) ;; disabled_profiles true x350) ;; Ok (profs_eqb (repeat (mkProf 0x7E 0 0 0 0) (Z.to_nat 322)) x353))].
Proof. vm_compute. repeat constructor. Qed.

(* line 692 *)
Example test_make_profile_inquiry_reply_from_vector : all_true [
    (x355 <- (x354 <- (make_profile_inquiry_reply true 258364740 125269879 [] [] 8) ;; Ok (dsize x354)) ;; Ok (Z.eqb 16 x355));
    (x356 <- (make_profile_inquiry_reply true 258364740 125269879 [] [] 8) ;; profile_inquiry_reply_validate x356);
    (x358 <- (x357 <- (make_profile_inquiry_reply true 258364740 125269879 [] [] 8) ;; as_view true profile_inquiry_reply_validate x357) ;; Ok (opt_some x358));
    (x361 <- (x360 <- (x359 <- (make_profile_inquiry_reply true 258364740 125269879 [] [] 8) ;; ci_view true x359) ;; view_device_id x360) ;; Ok (Z.eqb 8 x361));
    (x363 <- (x362 <- (x359 <- (make_profile_inquiry_reply true 258364740 125269879 [] [] 8) ;; ci_view true x359) ;; view_type x362) ;; Ok (Z.eqb 32269 x363));
    (x365 <- (x364 <- (x359 <- (make_profile_inquiry_reply true 258364740 125269879 [] [] 8) ;; ci_view true x359) ;; view_subtype x364) ;; Ok (Z.eqb 33 x365));
    (x367 <- (x366 <- (x359 <- (make_profile_inquiry_reply true 258364740 125269879 [] [] 8) ;; ci_view true x359) ;; message_version x366) ;; Ok (Z.eqb 2 x367));
    (x369 <- (x368 <- (x359 <- (make_profile_inquiry_reply true 258364740 125269879 [] [] 8) ;; ci_view true x359) ;; source_muid x368) ;; Ok (Z.eqb 258364740 x369));
    (x371 <- (x370 <- (x359 <- (make_profile_inquiry_reply true 258364740 125269879 [] [] 8) ;; ci_view true x359) ;; destination_muid x370) ;; Ok (Z.eqb 125269879 x371));
    (b_ <- (x372 <- (x359 <- (make_profile_inquiry_reply true 258364740 125269879 [] [] 8) ;; ci_view true x359) ;; has_enabled_profiles x372) ;; Ok (negb b_));
    (x374 <- (x373 <- (x359 <- (make_profile_inquiry_reply true 258364740 125269879 [] [] 8) ;; ci_view true x359) ;; num_enabled_profiles x373) ;; Ok (Z.eqb 0 x374));
    (x377 <- (x376 <- (x375 <- (x359 <- (make_profile_inquiry_reply true 258364740 125269879 [] [] 8) ;; ci_view true x359) ;; enabled_profiles true x375) ;; Ok (size x376)) ;; Ok (Z.eqb 0 x377));
    (b_ <- (x378 <- (x359 <- (make_profile_inquiry_reply true 258364740 125269879 [] [] 8) ;; ci_view true x359) ;; has_disabled_profiles x378) ;; Ok (negb b_));
    (x380 <- (x379 <- (x359 <- (make_profile_inquiry_reply true 258364740 125269879 [] [] 8) ;; ci_view true x359) ;; num_disabled_profiles x379) ;; Ok (Z.eqb 0 x380));
    (x383 <- (x382 <- (x381 <- (x359 <- (make_profile_inquiry_reply true 258364740 125269879 [] [] 8) ;; ci_view true x359) ;; disabled_profiles true x381) ;; Ok (size x382)) ;; Ok (Z.eqb 0 x383));
    (x385 <- (x384 <- (make_profile_inquiry_reply true 36984440 5 [] [(mkProf 126 1 2 3 4); (mkProf 0 33 9 11 77)] 10) ;; Ok (dsize x384)) ;; Ok (Z.eqb 26 x385));
    (x386 <- (make_profile_inquiry_reply true 36984440 5 [] [(mkProf 126 1 2 3 4); (mkProf 0 33 9 11 77)] 10) ;; profile_inquiry_reply_validate x386);
    (x388 <- (x387 <- (make_profile_inquiry_reply true 36984440 5 [] [(mkProf 126 1 2 3 4); (mkProf 0 33 9 11 77)] 10) ;; as_view true profile_inquiry_reply_validate x387) ;; Ok (opt_some x388));
    (x391 <- (x390 <- (x389 <- (make_profile_inquiry_reply true 36984440 5 [] [(mkProf 126 1 2 3 4); (mkProf 0 33 9 11 77)] 10) ;; ci_view true x389) ;; view_device_id x390) ;; Ok (Z.eqb 10 x391));
    (x393 <- (x392 <- (x389 <- (make_profile_inquiry_reply true 36984440 5 [] [(mkProf 126 1 2 3 4); (mkProf 0 33 9 11 77)] 10) ;; ci_view true x389) ;; view_type x392) ;; Ok (Z.eqb 32269 x393));
    (x395 <- (x394 <- (x389 <- (make_profile_inquiry_reply true 36984440 5 [] [(mkProf 126 1 2 3 4); (mkProf 0 33 9 11 77)] 10) ;; ci_view true x389) ;; view_subtype x394) ;; Ok (Z.eqb 33 x395));
    (x397 <- (x396 <- (x389 <- (make_profile_inquiry_reply true 36984440 5 [] [(mkProf 126 1 2 3 4); (mkProf 0 33 9 11 77)] 10) ;; ci_view true x389) ;; message_version x396) ;; Ok (Z.eqb 2 x397));
    (x399 <- (x398 <- (x389 <- (make_profile_inquiry_reply true 36984440 5 [] [(mkProf 126 1 2 3 4); (mkProf 0 33 9 11 77)] 10) ;; ci_view true x389) ;; source_muid x398) ;; Ok (Z.eqb 36984440 x399));
    (x401 <- (x400 <- (x389 <- (make_profile_inquiry_reply true 36984440 5 [] [(mkProf 126 1 2 3 4); (mkProf 0 33 9 11 77)] 10) ;; ci_view true x389) ;; destination_muid x400) ;; Ok (Z.eqb 5 x401));
    (b_ <- (x402 <- (x389 <- (make_profile_inquiry_reply true 36984440 5 [] [(mkProf 126 1 2 3 4); (mkProf 0 33 9 11 77)] 10) ;; ci_view true x389) ;; has_enabled_profiles x402) ;; Ok (negb b_));
    (x404 <- (x403 <- (x389 <- (make_profile_inquiry_reply true 36984440 5 [] [(mkProf 126 1 2 3 4); (mkProf 0 33 9 11 77)] 10) ;; ci_view true x389) ;; enabled_profiles true x403) ;; Ok (is_nil x404));
    (x405 <- (x389 <- (make_profile_inquiry_reply true 36984440 5 [] [(mkProf 126 1 2 3 4); (mkProf 0 33 9 11 77)] 10) ;; ci_view true x389) ;; has_disabled_profiles x405);
    (x407 <- (x406 <- (x389 <- (make_profile_inquiry_reply true 36984440 5 [] [(mkProf 126 1 2 3 4); (mkProf 0 33 9 11 77)] 10) ;; ci_view true x389) ;; num_disabled_profiles x406) ;; Ok (Z.eqb 2 x407));
    (x410 <- (x409 <- (x408 <- (x389 <- (make_profile_inquiry_reply true 36984440 5 [] [(mkProf 126 1 2 3 4); (mkProf 0 33 9 11 77)] 10) ;; ci_view true x389) ;; disabled_profiles true x408) ;; Ok (size x409)) ;; Ok (Z.eqb 2 x410));
    (x411 <- (x408 <- (x389 <- (make_profile_inquiry_reply true 36984440 5 [] [(mkProf 126 1 2 3 4); (mkProf 0 33 9 11 77)] 10) ;; ci_view true x389) ;; disabled_profiles true x408) ;; Ok (profs_eqb [(mkProf 126 1 2 3 4); (mkProf 0 33 9 11 77)] x411));
    (x413 <- (x412 <- (make_profile_inquiry_reply true 204690807 181062346 [(mkProf 65 0 0 8 1); (mkProf 0 33 9 11 77)] [] 2) ;; Ok (dsize x412)) ;; Ok (Z.eqb 26 x413));
    (x414 <- (make_profile_inquiry_reply true 204690807 181062346 [(mkProf 65 0 0 8 1); (mkProf 0 33 9 11 77)] [] 2) ;; profile_inquiry_reply_validate x414);
    (x416 <- (x415 <- (make_profile_inquiry_reply true 204690807 181062346 [(mkProf 65 0 0 8 1); (mkProf 0 33 9 11 77)] [] 2) ;; as_view true profile_inquiry_reply_validate x415) ;; Ok (opt_some x416));
    (x419 <- (x418 <- (x417 <- (make_profile_inquiry_reply true 204690807 181062346 [(mkProf 65 0 0 8 1); (mkProf 0 33 9 11 77)] [] 2) ;; ci_view true x417) ;; view_device_id x418) ;; Ok (Z.eqb 2 x419));
    (x421 <- (x420 <- (x417 <- (make_profile_inquiry_reply true 204690807 181062346 [(mkProf 65 0 0 8 1); (mkProf 0 33 9 11 77)] [] 2) ;; ci_view true x417) ;; view_type x420) ;; Ok (Z.eqb 32269 x421));
    (x423 <- (x422 <- (x417 <- (make_profile_inquiry_reply true 204690807 181062346 [(mkProf 65 0 0 8 1); (mkProf 0 33 9 11 77)] [] 2) ;; ci_view true x417) ;; view_subtype x422) ;; Ok (Z.eqb 33 x423));
    (x425 <- (x424 <- (x417 <- (make_profile_inquiry_reply true 204690807 181062346 [(mkProf 65 0 0 8 1); (mkProf 0 33 9 11 77)] [] 2) ;; ci_view true x417) ;; message_version x424) ;; Ok (Z.eqb 2 x425));
    (x427 <- (x426 <- (x417 <- (make_profile_inquiry_reply true 204690807 181062346 [(mkProf 65 0 0 8 1); (mkProf 0 33 9 11 77)] [] 2) ;; ci_view true x417) ;; source_muid x426) ;; Ok (Z.eqb 204690807 x427));
    (x429 <- (x428 <- (x417 <- (make_profile_inquiry_reply true 204690807 181062346 [(mkProf 65 0 0 8 1); (mkProf 0 33 9 11 77)] [] 2) ;; ci_view true x417) ;; destination_muid x428) ;; Ok (Z.eqb 181062346 x429));
    (x430 <- (x417 <- (make_profile_inquiry_reply true 204690807 181062346 [(mkProf 65 0 0 8 1); (mkProf 0 33 9 11 77)] [] 2) ;; ci_view true x417) ;; has_enabled_profiles x430);
    (x432 <- (x431 <- (x417 <- (make_profile_inquiry_reply true 204690807 181062346 [(mkProf 65 0 0 8 1); (mkProf 0 33 9 11 77)] [] 2) ;; ci_view true x417) ;; num_enabled_profiles x431) ;; Ok (Z.eqb 2 x432));
    (x435 <- (x434 <- (x433 <- (x417 <- (make_profile_inquiry_reply true 204690807 181062346 [(mkProf 65 0 0 8 1); (mkProf 0 33 9 11 77)] [] 2) ;; ci_view true x417) ;; enabled_profiles true x433) ;; Ok (size x434)) ;; Ok (Z.eqb 2 x435));
    (x436 <- (x433 <- (x417 <- (make_profile_inquiry_reply true 204690807 181062346 [(mkProf 65 0 0 8 1); (mkProf 0 33 9 11 77)] [] 2) ;; ci_view true x417) ;; enabled_profiles true x433) ;; Ok (profs_eqb [(mkProf 65 0 0 8 1); (mkProf 0 33 9 11 77)] x436));
    (b_ <- (x437 <- (x417 <- (make_profile_inquiry_reply true 204690807 181062346 [(mkProf 65 0 0 8 1); (mkProf 0 33 9 11 77)] [] 2) ;; ci_view true x417) ;; has_disabled_profiles x437) ;; Ok (negb b_));
    (x439 <- (x438 <- (x417 <- (make_profile_inquiry_reply true 204690807 181062346 [(mkProf 65 0 0 8 1); (mkProf 0 33 9 11 77)] [] 2) ;; ci_view true x417) ;; num_disabled_profiles x438) ;; Ok (Z.eqb 0 x439));
    (x441 <- (x440 <- (x417 <- (make_profile_inquiry_reply true 204690807 181062346 [(mkProf 65 0 0 8 1); (mkProf 0 33 9 11 77)] [] 2) ;; ci_view true x417) ;; disabled_profiles true x440) ;; Ok (is_nil x441));
    (x443 <- (x442 <- (make_profile_inquiry_reply true 139867154 26313074 [(mkProf 0 33 9 42 7)] [(mkProf 126 1 2 3 4); (mkProf 0 33 9 11 77); (mkProf 126 4 3 2 1)] 127) ;; Ok (dsize x442)) ;; Ok (Z.eqb 36 x443));
    (x444 <- (make_profile_inquiry_reply true 139867154 26313074 [(mkProf 0 33 9 42 7)] [(mkProf 126 1 2 3 4); (mkProf 0 33 9 11 77); (mkProf 126 4 3 2 1)] 127) ;; profile_inquiry_reply_validate x444);
    (x446 <- (x445 <- (make_profile_inquiry_reply true 139867154 26313074 [(mkProf 0 33 9 42 7)] [(mkProf 126 1 2 3 4); (mkProf 0 33 9 11 77); (mkProf 126 4 3 2 1)] 127) ;; as_view true profile_inquiry_reply_validate x445) ;; Ok (opt_some x446));
    (x449 <- (x448 <- (x447 <- (make_profile_inquiry_reply true 139867154 26313074 [(mkProf 0 33 9 42 7)] [(mkProf 126 1 2 3 4); (mkProf 0 33 9 11 77); (mkProf 126 4 3 2 1)] 127) ;; ci_view true x447) ;; view_device_id x448) ;; Ok (Z.eqb 127 x449));
    (x451 <- (x450 <- (x447 <- (make_profile_inquiry_reply true 139867154 26313074 [(mkProf 0 33 9 42 7)] [(mkProf 126 1 2 3 4); (mkProf 0 33 9 11 77); (mkProf 126 4 3 2 1)] 127) ;; ci_view true x447) ;; view_type x450) ;; Ok (Z.eqb 32269 x451));
    (x453 <- (x452 <- (x447 <- (make_profile_inquiry_reply true 139867154 26313074 [(mkProf 0 33 9 42 7)] [(mkProf 126 1 2 3 4); (mkProf 0 33 9 11 77); (mkProf 126 4 3 2 1)] 127) ;; ci_view true x447) ;; view_subtype x452) ;; Ok (Z.eqb 33 x453));
    (x455 <- (x454 <- (x447 <- (make_profile_inquiry_reply true 139867154 26313074 [(mkProf 0 33 9 42 7)] [(mkProf 126 1 2 3 4); (mkProf 0 33 9 11 77); (mkProf 126 4 3 2 1)] 127) ;; ci_view true x447) ;; message_version x454) ;; Ok (Z.eqb 2 x455));
    (x457 <- (x456 <- (x447 <- (make_profile_inquiry_reply true 139867154 26313074 [(mkProf 0 33 9 42 7)] [(mkProf 126 1 2 3 4); (mkProf 0 33 9 11 77); (mkProf 126 4 3 2 1)] 127) ;; ci_view true x447) ;; source_muid x456) ;; Ok (Z.eqb 139867154 x457));
    (x459 <- (x458 <- (x447 <- (make_profile_inquiry_reply true 139867154 26313074 [(mkProf 0 33 9 42 7)] [(mkProf 126 1 2 3 4); (mkProf 0 33 9 11 77); (mkProf 126 4 3 2 1)] 127) ;; ci_view true x447) ;; destination_muid x458) ;; Ok (Z.eqb 26313074 x459));
    (x460 <- (x447 <- (make_profile_inquiry_reply true 139867154 26313074 [(mkProf 0 33 9 42 7)] [(mkProf 126 1 2 3 4); (mkProf 0 33 9 11 77); (mkProf 126 4 3 2 1)] 127) ;; ci_view true x447) ;; has_enabled_profiles x460);
    (x462 <- (x461 <- (x447 <- (make_profile_inquiry_reply true 139867154 26313074 [(mkProf 0 33 9 42 7)] [(mkProf 126 1 2 3 4); (mkProf 0 33 9 11 77); (mkProf 126 4 3 2 1)] 127) ;; ci_view true x447) ;; num_enabled_profiles x461) ;; Ok (Z.eqb 1 x462));
    (x465 <- (x464 <- (x463 <- (x447 <- (make_profile_inquiry_reply true 139867154 26313074 [(mkProf 0 33 9 42 7)] [(mkProf 126 1 2 3 4); (mkProf 0 33 9 11 77); (mkProf 126 4 3 2 1)] 127) ;; ci_view true x447) ;; enabled_profiles true x463) ;; Ok (size x464)) ;; Ok (Z.eqb 1 x465));
    (x466 <- (x463 <- (x447 <- (make_profile_inquiry_reply true 139867154 26313074 [(mkProf 0 33 9 42 7)] [(mkProf 126 1 2 3 4); (mkProf 0 33 9 11 77); (mkProf 126 4 3 2 1)] 127) ;; ci_view true x447) ;; enabled_profiles true x463) ;; Ok (profs_eqb [(mkProf 0 33 9 42 7)] x466));
    (x467 <- (x447 <- (make_profile_inquiry_reply true 139867154 26313074 [(mkProf 0 33 9 42 7)] [(mkProf 126 1 2 3 4); (mkProf 0 33 9 11 77); (mkProf 126 4 3 2 1)] 127) ;; ci_view true x447) ;; has_disabled_profiles x467);
    (x469 <- (x468 <- (x447 <- (make_profile_inquiry_reply true 139867154 26313074 [(mkProf 0 33 9 42 7)] [(mkProf 126 1 2 3 4); (mkProf 0 33 9 11 77); (mkProf 126 4 3 2 1)] 127) ;; ci_view true x447) ;; num_disabled_profiles x468) ;; Ok (Z.eqb 3 x469));
    (x472 <- (x471 <- (x470 <- (x447 <- (make_profile_inquiry_reply true 139867154 26313074 [(mkProf 0 33 9 42 7)] [(mkProf 126 1 2 3 4); (mkProf 0 33 9 11 77); (mkProf 126 4 3 2 1)] 127) ;; ci_view true x447) ;; disabled_profiles true x470) ;; Ok (size x471)) ;; Ok (Z.eqb 3 x472));
    (x473 <- (x470 <- (x447 <- (make_profile_inquiry_reply true 139867154 26313074 [(mkProf 0 33 9 42 7)] [(mkProf 126 1 2 3 4); (mkProf 0 33 9 11 77); (mkProf 126 4 3 2 1)] 127) ;; ci_view true x447) ;; disabled_profiles true x470) ;; Ok (profs_eqb [(mkProf 126 1 2 3 4); (mkProf 0 33 9 11 77); (mkProf 126 4 3 2 1)] x473))].
Proof. vm_compute. repeat constructor. Qed.

(* line 865 *)
Example test_profile_id_view : all_true [
    (x475 <- (x474 <- (make_profile_on_request true 19088744 36984457 (mkProf 1 2 3 4 5) (mkDest 13 1)) ;; Ok (dsize x474)) ;; Ok (Z.geb x475 17));
    (x476 <- (make_profile_on_request true 19088744 36984457 (mkProf 1 2 3 4 5) (mkDest 13 1)) ;; profile_id_validate x476);
    (x478 <- (x477 <- (make_profile_on_request true 19088744 36984457 (mkProf 1 2 3 4 5) (mkDest 13 1)) ;; as_view true profile_id_validate x477) ;; Ok (opt_some x478));
    (x481 <- (x480 <- (x479 <- (make_profile_on_request true 19088744 36984457 (mkProf 1 2 3 4 5) (mkDest 13 1)) ;; ci_view true x479) ;; view_device_id x480) ;; Ok (Z.eqb 13 x481));
    (x483 <- (x482 <- (x479 <- (make_profile_on_request true 19088744 36984457 (mkProf 1 2 3 4 5) (mkDest 13 1)) ;; ci_view true x479) ;; view_type x482) ;; Ok (Z.eqb 32269 x483));
    (x485 <- (x484 <- (x479 <- (make_profile_on_request true 19088744 36984457 (mkProf 1 2 3 4 5) (mkDest 13 1)) ;; ci_view true x479) ;; view_subtype x484) ;; Ok (Z.eqb 34 x485));
    (x487 <- (x486 <- (x479 <- (make_profile_on_request true 19088744 36984457 (mkProf 1 2 3 4 5) (mkDest 13 1)) ;; ci_view true x479) ;; message_version x486) ;; Ok (Z.eqb 2 x487));
    (x489 <- (x488 <- (x479 <- (make_profile_on_request true 19088744 36984457 (mkProf 1 2 3 4 5) (mkDest 13 1)) ;; ci_view true x479) ;; source_muid x488) ;; Ok (Z.eqb 19088744 x489));
    (x491 <- (x490 <- (x479 <- (make_profile_on_request true 19088744 36984457 (mkProf 1 2 3 4 5) (mkDest 13 1)) ;; ci_view true x479) ;; destination_muid x490) ;; Ok (Z.eqb 36984457 x491));
    (x494 <- (x493 <- (x492 <- (x479 <- (make_profile_on_request true 19088744 36984457 (mkProf 1 2 3 4 5) (mkDest 13 1)) ;; ci_view true x479) ;; view_profile x492) ;; Ok (profile_bytes x493)) ;; Ok (list_eqb (profile_bytes (mkProf 1 2 3 4 5)) x494));
    (x496 <- (x495 <- (make_profile_disabled_notification true 126182162 36984457 (mkProf 126 68 51 34 17) (mkDest 0x7F 0)) ;; Ok (dsize x495)) ;; Ok (Z.geb x496 17));
    (x497 <- (make_profile_disabled_notification true 126182162 36984457 (mkProf 126 68 51 34 17) (mkDest 0x7F 0)) ;; profile_id_validate x497);
    (x499 <- (x498 <- (make_profile_disabled_notification true 126182162 36984457 (mkProf 126 68 51 34 17) (mkDest 0x7F 0)) ;; as_view true profile_id_validate x498) ;; Ok (opt_some x499));
    (x502 <- (x501 <- (x500 <- (make_profile_disabled_notification true 126182162 36984457 (mkProf 126 68 51 34 17) (mkDest 0x7F 0)) ;; ci_view true x500) ;; view_device_id x501) ;; Ok (Z.eqb 127 x502));
    (x504 <- (x503 <- (x500 <- (make_profile_disabled_notification true 126182162 36984457 (mkProf 126 68 51 34 17) (mkDest 0x7F 0)) ;; ci_view true x500) ;; view_type x503) ;; Ok (Z.eqb 32269 x504));
    (x506 <- (x505 <- (x500 <- (make_profile_disabled_notification true 126182162 36984457 (mkProf 126 68 51 34 17) (mkDest 0x7F 0)) ;; ci_view true x500) ;; view_subtype x505) ;; Ok (Z.eqb 37 x506));
    (x508 <- (x507 <- (x500 <- (make_profile_disabled_notification true 126182162 36984457 (mkProf 126 68 51 34 17) (mkDest 0x7F 0)) ;; ci_view true x500) ;; message_version x507) ;; Ok (Z.eqb 2 x508));
    (x510 <- (x509 <- (x500 <- (make_profile_disabled_notification true 126182162 36984457 (mkProf 126 68 51 34 17) (mkDest 0x7F 0)) ;; ci_view true x500) ;; source_muid x509) ;; Ok (Z.eqb 126182162 x510));
    (x512 <- (x511 <- (x500 <- (make_profile_disabled_notification true 126182162 36984457 (mkProf 126 68 51 34 17) (mkDest 0x7F 0)) ;; ci_view true x500) ;; destination_muid x511) ;; Ok (Z.eqb 36984457 x512));
    (x515 <- (x514 <- (x513 <- (x500 <- (make_profile_disabled_notification true 126182162 36984457 (mkProf 126 68 51 34 17) (mkDest 0x7F 0)) ;; ci_view true x500) ;; view_profile x513) ;; Ok (profile_bytes x514)) ;; Ok (list_eqb (profile_bytes (mkProf 126 68 51 34 17)) x515));
    (x517 <- (x516 <- (make_profile_added_notification true 126235666 36984457 (mkProf 126 68 51 34 17) 127) ;; Ok (dsize x516)) ;; Ok (Z.geb x517 17));
    (x518 <- (make_profile_added_notification true 126235666 36984457 (mkProf 126 68 51 34 17) 127) ;; profile_id_validate x518);
    (x520 <- (x519 <- (make_profile_added_notification true 126235666 36984457 (mkProf 126 68 51 34 17) 127) ;; as_view true profile_id_validate x519) ;; Ok (opt_some x520));
    (x523 <- (x522 <- (x521 <- (make_profile_added_notification true 126235666 36984457 (mkProf 126 68 51 34 17) 127) ;; ci_view true x521) ;; view_device_id x522) ;; Ok (Z.eqb 127 x523));
    (x525 <- (x524 <- (x521 <- (make_profile_added_notification true 126235666 36984457 (mkProf 126 68 51 34 17) 127) ;; ci_view true x521) ;; view_type x524) ;; Ok (Z.eqb 32269 x525));
    (x527 <- (x526 <- (x521 <- (make_profile_added_notification true 126235666 36984457 (mkProf 126 68 51 34 17) 127) ;; ci_view true x521) ;; view_subtype x526) ;; Ok (Z.eqb 38 x527));
    (x529 <- (x528 <- (x521 <- (make_profile_added_notification true 126235666 36984457 (mkProf 126 68 51 34 17) 127) ;; ci_view true x521) ;; message_version x528) ;; Ok (Z.eqb 2 x529));
    (x531 <- (x530 <- (x521 <- (make_profile_added_notification true 126235666 36984457 (mkProf 126 68 51 34 17) 127) ;; ci_view true x521) ;; source_muid x530) ;; Ok (Z.eqb 126235666 x531));
    (x533 <- (x532 <- (x521 <- (make_profile_added_notification true 126235666 36984457 (mkProf 126 68 51 34 17) 127) ;; ci_view true x521) ;; destination_muid x532) ;; Ok (Z.eqb 36984457 x533));
    (x536 <- (x535 <- (x534 <- (x521 <- (make_profile_added_notification true 126235666 36984457 (mkProf 126 68 51 34 17) 127) ;; ci_view true x521) ;; view_profile x534) ;; Ok (profile_bytes x535)) ;; Ok (list_eqb (profile_bytes (mkProf 126 68 51 34 17)) x536));
    (b_ <- (profile_id_validate (mkSx 0x7E0000 [127; 8; 38; 2; 120; 86; 52; 18; 119; 85; 51; 17; 68; 85; 102; 18; 52])) ;; Ok (negb b_));
    (b_ <- (x537 <- (as_view true profile_id_validate (mkSx 0x7E0000 [127; 8; 38; 2; 120; 86; 52; 18; 119; 85; 51; 17; 68; 85; 102; 18; 52])) ;; Ok (opt_some x537)) ;; Ok (negb b_));
    (b_ <- (profile_id_validate (mkSx 0x7E0000 [127; 13; 40; 2; 120; 86; 52; 18; 119; 85; 51; 17; 68; 85; 102; 18; 52])) ;; Ok (negb b_));
    (b_ <- (x538 <- (as_view true profile_id_validate (mkSx 0x7E0000 [127; 13; 40; 2; 120; 86; 52; 18; 119; 85; 51; 17; 68; 85; 102; 18; 52])) ;; Ok (opt_some x538)) ;; Ok (negb b_));
    (b_ <- (profile_id_validate (mkSx 0x7E0000 [127; 13; 38; 2; 120; 86; 52; 18; 119; 85; 51])) ;; Ok (negb b_));
    (b_ <- (x539 <- (as_view true profile_id_validate (mkSx 0x7E0000 [127; 13; 38; 2; 120; 86; 52; 18; 119; 85; 51])) ;; Ok (opt_some x539)) ;; Ok (negb b_));
    (profile_id_validate (mkSx 0x7E0000 [127; 13; 38; 2; 120; 86; 52; 18; 119; 85; 51; 17; 68; 85; 102; 18; 52; 86]));
    (x540 <- (as_view true profile_id_validate (mkSx 0x7E0000 [127; 13; 38; 2; 120; 86; 52; 18; 119; 85; 51; 17; 68; 85; 102; 18; 52; 86])) ;; Ok (opt_some x540))].
Proof. vm_compute. repeat constructor. Qed.

(* line 1002 *)
Example test_profile_destination_view : all_true [
    (x542 <- (x541 <- (make_profile_on_request true 19088744 36984457 (mkProf 1 2 3 4 5) (mkDest 13 1)) ;; Ok (dsize x541)) ;; Ok (Z.geb x542 19));
    (x543 <- (make_profile_on_request true 19088744 36984457 (mkProf 1 2 3 4 5) (mkDest 13 1)) ;; profile_destination_validate x543);
    (x545 <- (x544 <- (make_profile_on_request true 19088744 36984457 (mkProf 1 2 3 4 5) (mkDest 13 1)) ;; as_view true profile_destination_validate x544) ;; Ok (opt_some x545));
    (x548 <- (x547 <- (x546 <- (make_profile_on_request true 19088744 36984457 (mkProf 1 2 3 4 5) (mkDest 13 1)) ;; ci_view true x546) ;; view_device_id x547) ;; Ok (Z.eqb 13 x548));
    (x550 <- (x549 <- (x546 <- (make_profile_on_request true 19088744 36984457 (mkProf 1 2 3 4 5) (mkDest 13 1)) ;; ci_view true x546) ;; view_type x549) ;; Ok (Z.eqb 32269 x550));
    (x552 <- (x551 <- (x546 <- (make_profile_on_request true 19088744 36984457 (mkProf 1 2 3 4 5) (mkDest 13 1)) ;; ci_view true x546) ;; view_subtype x551) ;; Ok (Z.eqb 34 x552));
    (x554 <- (x553 <- (x546 <- (make_profile_on_request true 19088744 36984457 (mkProf 1 2 3 4 5) (mkDest 13 1)) ;; ci_view true x546) ;; message_version x553) ;; Ok (Z.eqb 2 x554));
    (x556 <- (x555 <- (x546 <- (make_profile_on_request true 19088744 36984457 (mkProf 1 2 3 4 5) (mkDest 13 1)) ;; ci_view true x546) ;; source_muid x555) ;; Ok (Z.eqb 19088744 x556));
    (x558 <- (x557 <- (x546 <- (make_profile_on_request true 19088744 36984457 (mkProf 1 2 3 4 5) (mkDest 13 1)) ;; ci_view true x546) ;; destination_muid x557) ;; Ok (Z.eqb 36984457 x558));
    (x561 <- (x560 <- (x559 <- (x546 <- (make_profile_on_request true 19088744 36984457 (mkProf 1 2 3 4 5) (mkDest 13 1)) ;; ci_view true x546) ;; view_profile x559) ;; Ok (profile_bytes x560)) ;; Ok (list_eqb (profile_bytes (mkProf 1 2 3 4 5)) x561));
    (x563 <- (x562 <- (x546 <- (make_profile_on_request true 19088744 36984457 (mkProf 1 2 3 4 5) (mkDest 13 1)) ;; ci_view true x546) ;; view_num_channels x562) ;; Ok (Z.eqb 1 x563));
    (x565 <- (x564 <- (x546 <- (make_profile_on_request true 19088744 36984457 (mkProf 1 2 3 4 5) (mkDest 13 1)) ;; ci_view true x546) ;; view_destination x564) ;; Ok (dest_eqb (mkDest 13 1) x565));
    (x567 <- (x566 <- (make_profile_disabled_notification true 126182162 36984457 (mkProf 126 68 51 34 17) (mkDest 0x7F 0)) ;; Ok (dsize x566)) ;; Ok (Z.geb x567 19));
    (x568 <- (make_profile_disabled_notification true 126182162 36984457 (mkProf 126 68 51 34 17) (mkDest 0x7F 0)) ;; profile_destination_validate x568);
    (x570 <- (x569 <- (make_profile_disabled_notification true 126182162 36984457 (mkProf 126 68 51 34 17) (mkDest 0x7F 0)) ;; as_view true profile_destination_validate x569) ;; Ok (opt_some x570));
    (x573 <- (x572 <- (x571 <- (make_profile_disabled_notification true 126182162 36984457 (mkProf 126 68 51 34 17) (mkDest 0x7F 0)) ;; ci_view true x571) ;; view_device_id x572) ;; Ok (Z.eqb 127 x573));
    (x575 <- (x574 <- (x571 <- (make_profile_disabled_notification true 126182162 36984457 (mkProf 126 68 51 34 17) (mkDest 0x7F 0)) ;; ci_view true x571) ;; view_type x574) ;; Ok (Z.eqb 32269 x575));
    (x577 <- (x576 <- (x571 <- (make_profile_disabled_notification true 126182162 36984457 (mkProf 126 68 51 34 17) (mkDest 0x7F 0)) ;; ci_view true x571) ;; view_subtype x576) ;; Ok (Z.eqb 37 x577));
    (x579 <- (x578 <- (x571 <- (make_profile_disabled_notification true 126182162 36984457 (mkProf 126 68 51 34 17) (mkDest 0x7F 0)) ;; ci_view true x571) ;; message_version x578) ;; Ok (Z.eqb 2 x579));
    (x581 <- (x580 <- (x571 <- (make_profile_disabled_notification true 126182162 36984457 (mkProf 126 68 51 34 17) (mkDest 0x7F 0)) ;; ci_view true x571) ;; source_muid x580) ;; Ok (Z.eqb 126182162 x581));
    (x583 <- (x582 <- (x571 <- (make_profile_disabled_notification true 126182162 36984457 (mkProf 126 68 51 34 17) (mkDest 0x7F 0)) ;; ci_view true x571) ;; destination_muid x582) ;; Ok (Z.eqb 36984457 x583));
    (x586 <- (x585 <- (x584 <- (x571 <- (make_profile_disabled_notification true 126182162 36984457 (mkProf 126 68 51 34 17) (mkDest 0x7F 0)) ;; ci_view true x571) ;; view_profile x584) ;; Ok (profile_bytes x585)) ;; Ok (list_eqb (profile_bytes (mkProf 126 68 51 34 17)) x586));
    (x588 <- (x587 <- (x571 <- (make_profile_disabled_notification true 126182162 36984457 (mkProf 126 68 51 34 17) (mkDest 0x7F 0)) ;; ci_view true x571) ;; view_num_channels x587) ;; Ok (Z.eqb 0 x588));
    (x590 <- (x589 <- (x571 <- (make_profile_disabled_notification true 126182162 36984457 (mkProf 126 68 51 34 17) (mkDest 0x7F 0)) ;; ci_view true x571) ;; view_destination x589) ;; Ok (dest_eqb (mkDest 127 0) x590));
    (b_ <- (x591 <- (make_profile_added_notification true 126235666 36984457 (mkProf 126 68 51 34 17) 127) ;; profile_destination_validate x591) ;; Ok (negb b_));
    (b_ <- (x593 <- (x592 <- (make_profile_added_notification true 126235666 36984457 (mkProf 126 68 51 34 17) 127) ;; as_view true profile_destination_validate x592) ;; Ok (opt_some x593)) ;; Ok (negb b_));
    (b_ <- (profile_destination_validate (mkSx 0x7E0000 [127; 8; 38; 2; 120; 86; 52; 18; 119; 85; 51; 17; 68; 85; 102; 18; 52; 1; 0])) ;; Ok (negb b_));
    (b_ <- (x594 <- (as_view true profile_destination_validate (mkSx 0x7E0000 [127; 8; 38; 2; 120; 86; 52; 18; 119; 85; 51; 17; 68; 85; 102; 18; 52; 1; 0])) ;; Ok (opt_some x594)) ;; Ok (negb b_));
    (b_ <- (profile_destination_validate (mkSx 0x7E0000 [127; 13; 38; 2; 120; 86; 52; 18; 119; 85; 51; 17; 68; 85; 102; 18; 52; 1; 0])) ;; Ok (negb b_));
    (b_ <- (x595 <- (as_view true profile_destination_validate (mkSx 0x7E0000 [127; 13; 38; 2; 120; 86; 52; 18; 119; 85; 51; 17; 68; 85; 102; 18; 52; 1; 0])) ;; Ok (opt_some x595)) ;; Ok (negb b_));
    (b_ <- (profile_destination_validate (mkSx 0x7E0000 [127; 13; 35; 2; 120; 86; 52; 18; 119; 85; 51])) ;; Ok (negb b_));
    (b_ <- (x596 <- (as_view true profile_destination_validate (mkSx 0x7E0000 [127; 13; 35; 2; 120; 86; 52; 18; 119; 85; 51])) ;; Ok (opt_some x596)) ;; Ok (negb b_));
    (profile_destination_validate (mkSx 0x7E0000 [127; 13; 36; 2; 120; 86; 52; 18; 119; 85; 51; 17; 68; 85; 102; 18; 52; 1; 0; 17; 34]));
    (x597 <- (as_view true profile_destination_validate (mkSx 0x7E0000 [127; 13; 36; 2; 120; 86; 52; 18; 119; 85; 51; 17; 68; 85; 102; 18; 52; 1; 0; 17; 34])) ;; Ok (opt_some x597))].
Proof. vm_compute. repeat constructor. Qed.

(* line 1146 *)
Example test_set_profile_on : all_true [
    (x599 <- (x598 <- (make_profile_on_request true 19088743 0 (mkProf 1 2 3 4 5) (mkDest 6 1)) ;; Ok (dsize x598)) ;; Ok (Z.eqb 19 x599));
    (x600 <- (make_profile_on_request true 19088743 0 (mkProf 1 2 3 4 5) (mkDest 6 1)) ;; profile_destination_validate x600);
    (x602 <- (x601 <- (make_profile_on_request true 19088743 0 (mkProf 1 2 3 4 5) (mkDest 6 1)) ;; as_view true profile_destination_validate x601) ;; Ok (opt_some x602));
    (x605 <- (x604 <- (x603 <- (make_profile_on_request true 19088743 0 (mkProf 1 2 3 4 5) (mkDest 6 1)) ;; ci_view true x603) ;; view_device_id x604) ;; Ok (Z.eqb 6 x605));
    (x607 <- (x606 <- (x603 <- (make_profile_on_request true 19088743 0 (mkProf 1 2 3 4 5) (mkDest 6 1)) ;; ci_view true x603) ;; view_type x606) ;; Ok (Z.eqb 32269 x607));
    (x609 <- (x608 <- (x603 <- (make_profile_on_request true 19088743 0 (mkProf 1 2 3 4 5) (mkDest 6 1)) ;; ci_view true x603) ;; view_subtype x608) ;; Ok (Z.eqb 34 x609));
    (x611 <- (x610 <- (x603 <- (make_profile_on_request true 19088743 0 (mkProf 1 2 3 4 5) (mkDest 6 1)) ;; ci_view true x603) ;; message_version x610) ;; Ok (Z.eqb 2 x611));
    (x613 <- (x612 <- (x603 <- (make_profile_on_request true 19088743 0 (mkProf 1 2 3 4 5) (mkDest 6 1)) ;; ci_view true x603) ;; source_muid x612) ;; Ok (Z.eqb 19088743 x613));
    (x615 <- (x614 <- (x603 <- (make_profile_on_request true 19088743 0 (mkProf 1 2 3 4 5) (mkDest 6 1)) ;; ci_view true x603) ;; destination_muid x614) ;; Ok (Z.eqb 0 x615));
    (x618 <- (x617 <- (x616 <- (x603 <- (make_profile_on_request true 19088743 0 (mkProf 1 2 3 4 5) (mkDest 6 1)) ;; ci_view true x603) ;; view_profile x616) ;; Ok (profile_bytes x617)) ;; Ok (list_eqb (profile_bytes (mkProf 1 2 3 4 5)) x618));
    (x620 <- (x619 <- (x603 <- (make_profile_on_request true 19088743 0 (mkProf 1 2 3 4 5) (mkDest 6 1)) ;; ci_view true x603) ;; view_num_channels x619) ;; Ok (Z.eqb 1 x620));
    (x622 <- (x621 <- (x603 <- (make_profile_on_request true 19088743 0 (mkProf 1 2 3 4 5) (mkDest 6 1)) ;; ci_view true x603) ;; view_destination x621) ;; Ok (dest_eqb (mkDest 6 1) x622));
    (x624 <- (x623 <- (make_profile_on_request true 139867154 33554431 (mkProf 126 68 51 34 17) (mkDest 0x7F 0)) ;; Ok (dsize x623)) ;; Ok (Z.eqb 19 x624));
    (x625 <- (make_profile_on_request true 139867154 33554431 (mkProf 126 68 51 34 17) (mkDest 0x7F 0)) ;; profile_destination_validate x625);
    (x627 <- (x626 <- (make_profile_on_request true 139867154 33554431 (mkProf 126 68 51 34 17) (mkDest 0x7F 0)) ;; as_view true profile_destination_validate x626) ;; Ok (opt_some x627));
    (x630 <- (x629 <- (x628 <- (make_profile_on_request true 139867154 33554431 (mkProf 126 68 51 34 17) (mkDest 0x7F 0)) ;; ci_view true x628) ;; view_device_id x629) ;; Ok (Z.eqb 127 x630));
    (x632 <- (x631 <- (x628 <- (make_profile_on_request true 139867154 33554431 (mkProf 126 68 51 34 17) (mkDest 0x7F 0)) ;; ci_view true x628) ;; view_type x631) ;; Ok (Z.eqb 32269 x632));
    (x634 <- (x633 <- (x628 <- (make_profile_on_request true 139867154 33554431 (mkProf 126 68 51 34 17) (mkDest 0x7F 0)) ;; ci_view true x628) ;; view_subtype x633) ;; Ok (Z.eqb 34 x634));
    (x636 <- (x635 <- (x628 <- (make_profile_on_request true 139867154 33554431 (mkProf 126 68 51 34 17) (mkDest 0x7F 0)) ;; ci_view true x628) ;; message_version x635) ;; Ok (Z.eqb 2 x636));
    (x638 <- (x637 <- (x628 <- (make_profile_on_request true 139867154 33554431 (mkProf 126 68 51 34 17) (mkDest 0x7F 0)) ;; ci_view true x628) ;; source_muid x637) ;; Ok (Z.eqb 139867154 x638));
    (x640 <- (x639 <- (x628 <- (make_profile_on_request true 139867154 33554431 (mkProf 126 68 51 34 17) (mkDest 0x7F 0)) ;; ci_view true x628) ;; destination_muid x639) ;; Ok (Z.eqb 33554431 x640));
    (x643 <- (x642 <- (x641 <- (x628 <- (make_profile_on_request true 139867154 33554431 (mkProf 126 68 51 34 17) (mkDest 0x7F 0)) ;; ci_view true x628) ;; view_profile x641) ;; Ok (profile_bytes x642)) ;; Ok (list_eqb (profile_bytes (mkProf 126 68 51 34 17)) x643));
    (x645 <- (x644 <- (x628 <- (make_profile_on_request true 139867154 33554431 (mkProf 126 68 51 34 17) (mkDest 0x7F 0)) ;; ci_view true x628) ;; view_num_channels x644) ;; Ok (Z.eqb 0 x645));
    (x647 <- (x646 <- (x628 <- (make_profile_on_request true 139867154 33554431 (mkProf 126 68 51 34 17) (mkDest 0x7F 0)) ;; ci_view true x628) ;; view_destination x646) ;; Ok (dest_eqb (mkDest 127 0) x647));
    (b_ <- (x649 <- (x648 <- (make_profile_on_request true 139867154 19088743 (mkProf 126 68 51 34 17) (mkDest 0x7E 0)) ;; set_data x648 2%nat 49) ;; profile_destination_validate x649) ;; Ok (negb b_));
    (b_ <- (x651 <- (x650 <- (x648 <- (make_profile_on_request true 139867154 19088743 (mkProf 126 68 51 34 17) (mkDest 0x7E 0)) ;; set_data x648 2%nat 49) ;; as_view true profile_destination_validate x650) ;; Ok (opt_some x651)) ;; Ok (negb b_))].
Proof. vm_compute. repeat constructor. Qed.

(* line 1215 *)
Example test_set_profile_off : all_true [
    (x653 <- (x652 <- (make_profile_off_request true 19088743 4711 (mkProf 1 2 3 4 5) (mkDest 5 5)) ;; Ok (dsize x652)) ;; Ok (Z.eqb 19 x653));
    (x654 <- (make_profile_off_request true 19088743 4711 (mkProf 1 2 3 4 5) (mkDest 5 5)) ;; profile_destination_validate x654);
    (x656 <- (x655 <- (make_profile_off_request true 19088743 4711 (mkProf 1 2 3 4 5) (mkDest 5 5)) ;; as_view true profile_destination_validate x655) ;; Ok (opt_some x656));
    (x659 <- (x658 <- (x657 <- (make_profile_off_request true 19088743 4711 (mkProf 1 2 3 4 5) (mkDest 5 5)) ;; ci_view true x657) ;; view_device_id x658) ;; Ok (Z.eqb 5 x659));
    (x661 <- (x660 <- (x657 <- (make_profile_off_request true 19088743 4711 (mkProf 1 2 3 4 5) (mkDest 5 5)) ;; ci_view true x657) ;; view_type x660) ;; Ok (Z.eqb 32269 x661));
    (x663 <- (x662 <- (x657 <- (make_profile_off_request true 19088743 4711 (mkProf 1 2 3 4 5) (mkDest 5 5)) ;; ci_view true x657) ;; view_subtype x662) ;; Ok (Z.eqb 35 x663));
    (x665 <- (x664 <- (x657 <- (make_profile_off_request true 19088743 4711 (mkProf 1 2 3 4 5) (mkDest 5 5)) ;; ci_view true x657) ;; message_version x664) ;; Ok (Z.eqb 2 x665));
    (x667 <- (x666 <- (x657 <- (make_profile_off_request true 19088743 4711 (mkProf 1 2 3 4 5) (mkDest 5 5)) ;; ci_view true x657) ;; source_muid x666) ;; Ok (Z.eqb 19088743 x667));
    (x669 <- (x668 <- (x657 <- (make_profile_off_request true 19088743 4711 (mkProf 1 2 3 4 5) (mkDest 5 5)) ;; ci_view true x657) ;; destination_muid x668) ;; Ok (Z.eqb 4711 x669));
    (x672 <- (x671 <- (x670 <- (x657 <- (make_profile_off_request true 19088743 4711 (mkProf 1 2 3 4 5) (mkDest 5 5)) ;; ci_view true x657) ;; view_profile x670) ;; Ok (profile_bytes x671)) ;; Ok (list_eqb (profile_bytes (mkProf 1 2 3 4 5)) x672));
    (x674 <- (x673 <- (x657 <- (make_profile_off_request true 19088743 4711 (mkProf 1 2 3 4 5) (mkDest 5 5)) ;; ci_view true x657) ;; view_num_channels x673) ;; Ok (Z.eqb 0 x674));
    (x676 <- (x675 <- (x657 <- (make_profile_off_request true 19088743 4711 (mkProf 1 2 3 4 5) (mkDest 5 5)) ;; ci_view true x657) ;; view_destination x675) ;; Ok (dest_eqb (mkDest 5 0) x676));
    (x678 <- (x677 <- (make_profile_off_request true 123089938 42 (mkProf 126 68 51 34 17) (mkDest 0x7E 0)) ;; Ok (dsize x677)) ;; Ok (Z.eqb 19 x678));
    (x679 <- (make_profile_off_request true 123089938 42 (mkProf 126 68 51 34 17) (mkDest 0x7E 0)) ;; profile_destination_validate x679);
    (x681 <- (x680 <- (make_profile_off_request true 123089938 42 (mkProf 126 68 51 34 17) (mkDest 0x7E 0)) ;; as_view true profile_destination_validate x680) ;; Ok (opt_some x681));
    (x684 <- (x683 <- (x682 <- (make_profile_off_request true 123089938 42 (mkProf 126 68 51 34 17) (mkDest 0x7E 0)) ;; ci_view true x682) ;; view_device_id x683) ;; Ok (Z.eqb 126 x684));
    (x686 <- (x685 <- (x682 <- (make_profile_off_request true 123089938 42 (mkProf 126 68 51 34 17) (mkDest 0x7E 0)) ;; ci_view true x682) ;; view_type x685) ;; Ok (Z.eqb 32269 x686));
    (x688 <- (x687 <- (x682 <- (make_profile_off_request true 123089938 42 (mkProf 126 68 51 34 17) (mkDest 0x7E 0)) ;; ci_view true x682) ;; view_subtype x687) ;; Ok (Z.eqb 35 x688));
    (x690 <- (x689 <- (x682 <- (make_profile_off_request true 123089938 42 (mkProf 126 68 51 34 17) (mkDest 0x7E 0)) ;; ci_view true x682) ;; message_version x689) ;; Ok (Z.eqb 2 x690));
    (x692 <- (x691 <- (x682 <- (make_profile_off_request true 123089938 42 (mkProf 126 68 51 34 17) (mkDest 0x7E 0)) ;; ci_view true x682) ;; source_muid x691) ;; Ok (Z.eqb 123089938 x692));
    (x694 <- (x693 <- (x682 <- (make_profile_off_request true 123089938 42 (mkProf 126 68 51 34 17) (mkDest 0x7E 0)) ;; ci_view true x682) ;; destination_muid x693) ;; Ok (Z.eqb 42 x694));
    (x697 <- (x696 <- (x695 <- (x682 <- (make_profile_off_request true 123089938 42 (mkProf 126 68 51 34 17) (mkDest 0x7E 0)) ;; ci_view true x682) ;; view_profile x695) ;; Ok (profile_bytes x696)) ;; Ok (list_eqb (profile_bytes (mkProf 126 68 51 34 17)) x697));
    (b_ <- (x699 <- (x698 <- (make_profile_off_request true 126182209 43164338 (mkProf 126 68 51 34 17) (mkDest 0 1)) ;; set_data x698 2%nat 49) ;; profile_destination_validate x699) ;; Ok (negb b_));
    (b_ <- (x701 <- (x700 <- (x698 <- (make_profile_off_request true 126182209 43164338 (mkProf 126 68 51 34 17) (mkDest 0 1)) ;; set_data x698 2%nat 49) ;; as_view true profile_destination_validate x700) ;; Ok (opt_some x701)) ;; Ok (negb b_))].
Proof. vm_compute. repeat constructor. Qed.

(* line 1282 *)
Example test_profile_enabled : all_true [
    (x703 <- (x702 <- (make_profile_enabled_notification true 36984440 1052688 (mkProf 1 2 3 4 5) (mkDest 13 1)) ;; Ok (dsize x702)) ;; Ok (Z.eqb 19 x703));
    (x704 <- (make_profile_enabled_notification true 36984440 1052688 (mkProf 1 2 3 4 5) (mkDest 13 1)) ;; profile_destination_validate x704);
    (x706 <- (x705 <- (make_profile_enabled_notification true 36984440 1052688 (mkProf 1 2 3 4 5) (mkDest 13 1)) ;; as_view true profile_destination_validate x705) ;; Ok (opt_some x706));
    (x709 <- (x708 <- (x707 <- (make_profile_enabled_notification true 36984440 1052688 (mkProf 1 2 3 4 5) (mkDest 13 1)) ;; ci_view true x707) ;; view_device_id x708) ;; Ok (Z.eqb 13 x709));
    (x711 <- (x710 <- (x707 <- (make_profile_enabled_notification true 36984440 1052688 (mkProf 1 2 3 4 5) (mkDest 13 1)) ;; ci_view true x707) ;; view_type x710) ;; Ok (Z.eqb 32269 x711));
    (x713 <- (x712 <- (x707 <- (make_profile_enabled_notification true 36984440 1052688 (mkProf 1 2 3 4 5) (mkDest 13 1)) ;; ci_view true x707) ;; view_subtype x712) ;; Ok (Z.eqb 36 x713));
    (x715 <- (x714 <- (x707 <- (make_profile_enabled_notification true 36984440 1052688 (mkProf 1 2 3 4 5) (mkDest 13 1)) ;; ci_view true x707) ;; message_version x714) ;; Ok (Z.eqb 2 x715));
    (x717 <- (x716 <- (x707 <- (make_profile_enabled_notification true 36984440 1052688 (mkProf 1 2 3 4 5) (mkDest 13 1)) ;; ci_view true x707) ;; source_muid x716) ;; Ok (Z.eqb 36984440 x717));
    (x719 <- (x718 <- (x707 <- (make_profile_enabled_notification true 36984440 1052688 (mkProf 1 2 3 4 5) (mkDest 13 1)) ;; ci_view true x707) ;; destination_muid x718) ;; Ok (Z.eqb 1052688 x719));
    (x722 <- (x721 <- (x720 <- (x707 <- (make_profile_enabled_notification true 36984440 1052688 (mkProf 1 2 3 4 5) (mkDest 13 1)) ;; ci_view true x707) ;; view_profile x720) ;; Ok (profile_bytes x721)) ;; Ok (list_eqb (profile_bytes (mkProf 1 2 3 4 5)) x722));
    (x724 <- (x723 <- (x707 <- (make_profile_enabled_notification true 36984440 1052688 (mkProf 1 2 3 4 5) (mkDest 13 1)) ;; ci_view true x707) ;; view_num_channels x723) ;; Ok (Z.eqb 1 x724));
    (x726 <- (x725 <- (x707 <- (make_profile_enabled_notification true 36984440 1052688 (mkProf 1 2 3 4 5) (mkDest 13 1)) ;; ci_view true x707) ;; view_destination x725) ;; Ok (dest_eqb (mkDest 13 1) x726));
    (x728 <- (x727 <- (make_profile_enabled_notification true 126235666 90469250 (mkProf 126 68 51 34 17) (mkDest 0x7E 0)) ;; Ok (dsize x727)) ;; Ok (Z.eqb 19 x728));
    (x729 <- (make_profile_enabled_notification true 126235666 90469250 (mkProf 126 68 51 34 17) (mkDest 0x7E 0)) ;; profile_destination_validate x729);
    (x731 <- (x730 <- (make_profile_enabled_notification true 126235666 90469250 (mkProf 126 68 51 34 17) (mkDest 0x7E 0)) ;; as_view true profile_destination_validate x730) ;; Ok (opt_some x731));
    (x734 <- (x733 <- (x732 <- (make_profile_enabled_notification true 126235666 90469250 (mkProf 126 68 51 34 17) (mkDest 0x7E 0)) ;; ci_view true x732) ;; view_device_id x733) ;; Ok (Z.eqb 126 x734));
    (x736 <- (x735 <- (x732 <- (make_profile_enabled_notification true 126235666 90469250 (mkProf 126 68 51 34 17) (mkDest 0x7E 0)) ;; ci_view true x732) ;; view_type x735) ;; Ok (Z.eqb 32269 x736));
    (x738 <- (x737 <- (x732 <- (make_profile_enabled_notification true 126235666 90469250 (mkProf 126 68 51 34 17) (mkDest 0x7E 0)) ;; ci_view true x732) ;; view_subtype x737) ;; Ok (Z.eqb 36 x738));
    (x740 <- (x739 <- (x732 <- (make_profile_enabled_notification true 126235666 90469250 (mkProf 126 68 51 34 17) (mkDest 0x7E 0)) ;; ci_view true x732) ;; message_version x739) ;; Ok (Z.eqb 2 x740));
    (x742 <- (x741 <- (x732 <- (make_profile_enabled_notification true 126235666 90469250 (mkProf 126 68 51 34 17) (mkDest 0x7E 0)) ;; ci_view true x732) ;; source_muid x741) ;; Ok (Z.eqb 126235666 x742));
    (x744 <- (x743 <- (x732 <- (make_profile_enabled_notification true 126235666 90469250 (mkProf 126 68 51 34 17) (mkDest 0x7E 0)) ;; ci_view true x732) ;; destination_muid x743) ;; Ok (Z.eqb 90469250 x744));
    (x747 <- (x746 <- (x745 <- (x732 <- (make_profile_enabled_notification true 126235666 90469250 (mkProf 126 68 51 34 17) (mkDest 0x7E 0)) ;; ci_view true x732) ;; view_profile x745) ;; Ok (profile_bytes x746)) ;; Ok (list_eqb (profile_bytes (mkProf 126 68 51 34 17)) x747));
    (x749 <- (x748 <- (x732 <- (make_profile_enabled_notification true 126235666 90469250 (mkProf 126 68 51 34 17) (mkDest 0x7E 0)) ;; ci_view true x732) ;; view_num_channels x748) ;; Ok (Z.eqb 0 x749));
    (x751 <- (x750 <- (x732 <- (make_profile_enabled_notification true 126235666 90469250 (mkProf 126 68 51 34 17) (mkDest 0x7E 0)) ;; ci_view true x732) ;; view_destination x750) ;; Ok (dest_eqb (mkDest 126 0) x751));
    (b_ <- (x753 <- (x752 <- (make_profile_enabled_notification true 139867154 1648695 (mkProf 126 68 51 34 17) (mkDest 0x7F 0)) ;; set_data x752 2%nat 49) ;; profile_destination_validate x753) ;; Ok (negb b_));
    (b_ <- (x755 <- (x754 <- (x752 <- (make_profile_enabled_notification true 139867154 1648695 (mkProf 126 68 51 34 17) (mkDest 0x7F 0)) ;; set_data x752 2%nat 49) ;; as_view true profile_destination_validate x754) ;; Ok (opt_some x755)) ;; Ok (negb b_))].
Proof. vm_compute. repeat constructor. Qed.

(* line 1353 *)
Example test_profile_disabled : all_true [
    (x757 <- (x756 <- (make_profile_disabled_notification true 19088743 5 (mkProf 1 2 3 4 5) (mkDest 13 9)) ;; Ok (dsize x756)) ;; Ok (Z.eqb 19 x757));
    (x758 <- (make_profile_disabled_notification true 19088743 5 (mkProf 1 2 3 4 5) (mkDest 13 9)) ;; profile_destination_validate x758);
    (x760 <- (x759 <- (make_profile_disabled_notification true 19088743 5 (mkProf 1 2 3 4 5) (mkDest 13 9)) ;; as_view true profile_destination_validate x759) ;; Ok (opt_some x760));
    (x763 <- (x762 <- (x761 <- (make_profile_disabled_notification true 19088743 5 (mkProf 1 2 3 4 5) (mkDest 13 9)) ;; ci_view true x761) ;; view_device_id x762) ;; Ok (Z.eqb 13 x763));
    (x765 <- (x764 <- (x761 <- (make_profile_disabled_notification true 19088743 5 (mkProf 1 2 3 4 5) (mkDest 13 9)) ;; ci_view true x761) ;; view_type x764) ;; Ok (Z.eqb 32269 x765));
    (x767 <- (x766 <- (x761 <- (make_profile_disabled_notification true 19088743 5 (mkProf 1 2 3 4 5) (mkDest 13 9)) ;; ci_view true x761) ;; view_subtype x766) ;; Ok (Z.eqb 37 x767));
    (x769 <- (x768 <- (x761 <- (make_profile_disabled_notification true 19088743 5 (mkProf 1 2 3 4 5) (mkDest 13 9)) ;; ci_view true x761) ;; message_version x768) ;; Ok (Z.eqb 2 x769));
    (x771 <- (x770 <- (x761 <- (make_profile_disabled_notification true 19088743 5 (mkProf 1 2 3 4 5) (mkDest 13 9)) ;; ci_view true x761) ;; source_muid x770) ;; Ok (Z.eqb 19088743 x771));
    (x773 <- (x772 <- (x761 <- (make_profile_disabled_notification true 19088743 5 (mkProf 1 2 3 4 5) (mkDest 13 9)) ;; ci_view true x761) ;; destination_muid x772) ;; Ok (Z.eqb 5 x773));
    (x776 <- (x775 <- (x774 <- (x761 <- (make_profile_disabled_notification true 19088743 5 (mkProf 1 2 3 4 5) (mkDest 13 9)) ;; ci_view true x761) ;; view_profile x774) ;; Ok (profile_bytes x775)) ;; Ok (list_eqb (profile_bytes (mkProf 1 2 3 4 5)) x776));
    (x778 <- (x777 <- (x761 <- (make_profile_disabled_notification true 19088743 5 (mkProf 1 2 3 4 5) (mkDest 13 9)) ;; ci_view true x761) ;; view_num_channels x777) ;; Ok (Z.eqb 9 x778));
    (x780 <- (x779 <- (x761 <- (make_profile_disabled_notification true 19088743 5 (mkProf 1 2 3 4 5) (mkDest 13 9)) ;; ci_view true x761) ;; view_destination x779) ;; Ok (dest_eqb (mkDest 13 9) x780));
    (x782 <- (x781 <- (make_profile_disabled_notification true 126182209 161061273 (mkProf 126 68 51 34 17) (mkDest 0x7E 0)) ;; Ok (dsize x781)) ;; Ok (Z.eqb 19 x782));
    (x783 <- (make_profile_disabled_notification true 126182209 161061273 (mkProf 126 68 51 34 17) (mkDest 0x7E 0)) ;; profile_destination_validate x783);
    (x785 <- (x784 <- (make_profile_disabled_notification true 126182209 161061273 (mkProf 126 68 51 34 17) (mkDest 0x7E 0)) ;; as_view true profile_destination_validate x784) ;; Ok (opt_some x785));
    (x788 <- (x787 <- (x786 <- (make_profile_disabled_notification true 126182209 161061273 (mkProf 126 68 51 34 17) (mkDest 0x7E 0)) ;; ci_view true x786) ;; view_device_id x787) ;; Ok (Z.eqb 126 x788));
    (x790 <- (x789 <- (x786 <- (make_profile_disabled_notification true 126182209 161061273 (mkProf 126 68 51 34 17) (mkDest 0x7E 0)) ;; ci_view true x786) ;; view_type x789) ;; Ok (Z.eqb 32269 x790));
    (x792 <- (x791 <- (x786 <- (make_profile_disabled_notification true 126182209 161061273 (mkProf 126 68 51 34 17) (mkDest 0x7E 0)) ;; ci_view true x786) ;; view_subtype x791) ;; Ok (Z.eqb 37 x792));
    (x794 <- (x793 <- (x786 <- (make_profile_disabled_notification true 126182209 161061273 (mkProf 126 68 51 34 17) (mkDest 0x7E 0)) ;; ci_view true x786) ;; message_version x793) ;; Ok (Z.eqb 2 x794));
    (x796 <- (x795 <- (x786 <- (make_profile_disabled_notification true 126182209 161061273 (mkProf 126 68 51 34 17) (mkDest 0x7E 0)) ;; ci_view true x786) ;; source_muid x795) ;; Ok (Z.eqb 126182209 x796));
    (x798 <- (x797 <- (x786 <- (make_profile_disabled_notification true 126182209 161061273 (mkProf 126 68 51 34 17) (mkDest 0x7E 0)) ;; ci_view true x786) ;; destination_muid x797) ;; Ok (Z.eqb 161061273 x798));
    (x801 <- (x800 <- (x799 <- (x786 <- (make_profile_disabled_notification true 126182209 161061273 (mkProf 126 68 51 34 17) (mkDest 0x7E 0)) ;; ci_view true x786) ;; view_profile x799) ;; Ok (profile_bytes x800)) ;; Ok (list_eqb (profile_bytes (mkProf 126 68 51 34 17)) x801));
    (x803 <- (x802 <- (x786 <- (make_profile_disabled_notification true 126182209 161061273 (mkProf 126 68 51 34 17) (mkDest 0x7E 0)) ;; ci_view true x786) ;; view_num_channels x802) ;; Ok (Z.eqb 0 x803));
    (x805 <- (x804 <- (x786 <- (make_profile_disabled_notification true 126182209 161061273 (mkProf 126 68 51 34 17) (mkDest 0x7E 0)) ;; ci_view true x786) ;; view_destination x804) ;; Ok (dest_eqb (mkDest 126 0) x805));
    (b_ <- (x807 <- (x806 <- (make_profile_disabled_notification true 126182162 13 (mkProf 126 68 51 34 17) (mkDest 0x7F 0)) ;; set_data x806 2%nat 49) ;; profile_destination_validate x807) ;; Ok (negb b_));
    (b_ <- (x809 <- (x808 <- (x806 <- (make_profile_disabled_notification true 126182162 13 (mkProf 126 68 51 34 17) (mkDest 0x7F 0)) ;; set_data x806 2%nat 49) ;; as_view true profile_destination_validate x808) ;; Ok (opt_some x809)) ;; Ok (negb b_))].
Proof. vm_compute. repeat constructor. Qed.

(* line 1424 *)
Example test_profile_added : all_true [
    (x811 <- (x810 <- (make_profile_added_notification true 19088743 5 (mkProf 1 2 3 4 5) 13) ;; Ok (dsize x810)) ;; Ok (Z.eqb 17 x811));
    (x812 <- (make_profile_added_notification true 19088743 5 (mkProf 1 2 3 4 5) 13) ;; profile_id_validate x812);
    (x814 <- (x813 <- (make_profile_added_notification true 19088743 5 (mkProf 1 2 3 4 5) 13) ;; as_view true profile_id_validate x813) ;; Ok (opt_some x814));
    (x817 <- (x816 <- (x815 <- (make_profile_added_notification true 19088743 5 (mkProf 1 2 3 4 5) 13) ;; ci_view true x815) ;; view_device_id x816) ;; Ok (Z.eqb 13 x817));
    (x819 <- (x818 <- (x815 <- (make_profile_added_notification true 19088743 5 (mkProf 1 2 3 4 5) 13) ;; ci_view true x815) ;; view_type x818) ;; Ok (Z.eqb 32269 x819));
    (x821 <- (x820 <- (x815 <- (make_profile_added_notification true 19088743 5 (mkProf 1 2 3 4 5) 13) ;; ci_view true x815) ;; view_subtype x820) ;; Ok (Z.eqb 38 x821));
    (x823 <- (x822 <- (x815 <- (make_profile_added_notification true 19088743 5 (mkProf 1 2 3 4 5) 13) ;; ci_view true x815) ;; message_version x822) ;; Ok (Z.eqb 2 x823));
    (x825 <- (x824 <- (x815 <- (make_profile_added_notification true 19088743 5 (mkProf 1 2 3 4 5) 13) ;; ci_view true x815) ;; source_muid x824) ;; Ok (Z.eqb 19088743 x825));
    (x827 <- (x826 <- (x815 <- (make_profile_added_notification true 19088743 5 (mkProf 1 2 3 4 5) 13) ;; ci_view true x815) ;; destination_muid x826) ;; Ok (Z.eqb 5 x827));
    (x830 <- (x829 <- (x828 <- (x815 <- (make_profile_added_notification true 19088743 5 (mkProf 1 2 3 4 5) 13) ;; ci_view true x815) ;; view_profile x828) ;; Ok (profile_bytes x829)) ;; Ok (list_eqb (profile_bytes (mkProf 1 2 3 4 5)) x830));
    (x832 <- (x831 <- (make_profile_added_notification true 126182209 161061273 (mkProf 126 68 51 34 17) 127) ;; Ok (dsize x831)) ;; Ok (Z.eqb 17 x832));
    (x833 <- (make_profile_added_notification true 126182209 161061273 (mkProf 126 68 51 34 17) 127) ;; profile_id_validate x833);
    (x835 <- (x834 <- (make_profile_added_notification true 126182209 161061273 (mkProf 126 68 51 34 17) 127) ;; as_view true profile_id_validate x834) ;; Ok (opt_some x835));
    (x838 <- (x837 <- (x836 <- (make_profile_added_notification true 126182209 161061273 (mkProf 126 68 51 34 17) 127) ;; ci_view true x836) ;; view_device_id x837) ;; Ok (Z.eqb 127 x838));
    (x840 <- (x839 <- (x836 <- (make_profile_added_notification true 126182209 161061273 (mkProf 126 68 51 34 17) 127) ;; ci_view true x836) ;; view_type x839) ;; Ok (Z.eqb 32269 x840));
    (x842 <- (x841 <- (x836 <- (make_profile_added_notification true 126182209 161061273 (mkProf 126 68 51 34 17) 127) ;; ci_view true x836) ;; view_subtype x841) ;; Ok (Z.eqb 38 x842));
    (x844 <- (x843 <- (x836 <- (make_profile_added_notification true 126182209 161061273 (mkProf 126 68 51 34 17) 127) ;; ci_view true x836) ;; message_version x843) ;; Ok (Z.eqb 2 x844));
    (x846 <- (x845 <- (x836 <- (make_profile_added_notification true 126182209 161061273 (mkProf 126 68 51 34 17) 127) ;; ci_view true x836) ;; source_muid x845) ;; Ok (Z.eqb 126182209 x846));
    (x848 <- (x847 <- (x836 <- (make_profile_added_notification true 126182209 161061273 (mkProf 126 68 51 34 17) 127) ;; ci_view true x836) ;; destination_muid x847) ;; Ok (Z.eqb 161061273 x848));
    (x851 <- (x850 <- (x849 <- (x836 <- (make_profile_added_notification true 126182209 161061273 (mkProf 126 68 51 34 17) 127) ;; ci_view true x836) ;; view_profile x849) ;; Ok (profile_bytes x850)) ;; Ok (list_eqb (profile_bytes (mkProf 126 68 51 34 17)) x851));
    (b_ <- (x853 <- (x852 <- (make_profile_added_notification true 126182162 13 (mkProf 126 68 51 34 17) 127) ;; set_data x852 2%nat 49) ;; profile_id_validate x853) ;; Ok (negb b_));
    (b_ <- (x855 <- (x854 <- (x852 <- (make_profile_added_notification true 126182162 13 (mkProf 126 68 51 34 17) 127) ;; set_data x852 2%nat 49) ;; as_view true profile_id_validate x854) ;; Ok (opt_some x855)) ;; Ok (negb b_))].
Proof. vm_compute. repeat constructor. Qed.

(* line 1489 *)
Example test_profile_removed : all_true [
    (x857 <- (x856 <- (make_profile_removed_notification true 19088743 5 (mkProf 1 2 3 4 5) 13) ;; Ok (dsize x856)) ;; Ok (Z.eqb 17 x857));
    (x858 <- (make_profile_removed_notification true 19088743 5 (mkProf 1 2 3 4 5) 13) ;; profile_id_validate x858);
    (x860 <- (x859 <- (make_profile_removed_notification true 19088743 5 (mkProf 1 2 3 4 5) 13) ;; as_view true profile_id_validate x859) ;; Ok (opt_some x860));
    (x863 <- (x862 <- (x861 <- (make_profile_removed_notification true 19088743 5 (mkProf 1 2 3 4 5) 13) ;; ci_view true x861) ;; view_device_id x862) ;; Ok (Z.eqb 13 x863));
    (x865 <- (x864 <- (x861 <- (make_profile_removed_notification true 19088743 5 (mkProf 1 2 3 4 5) 13) ;; ci_view true x861) ;; view_type x864) ;; Ok (Z.eqb 32269 x865));
    (x867 <- (x866 <- (x861 <- (make_profile_removed_notification true 19088743 5 (mkProf 1 2 3 4 5) 13) ;; ci_view true x861) ;; view_subtype x866) ;; Ok (Z.eqb 39 x867));
    (x869 <- (x868 <- (x861 <- (make_profile_removed_notification true 19088743 5 (mkProf 1 2 3 4 5) 13) ;; ci_view true x861) ;; message_version x868) ;; Ok (Z.eqb 2 x869));
    (x871 <- (x870 <- (x861 <- (make_profile_removed_notification true 19088743 5 (mkProf 1 2 3 4 5) 13) ;; ci_view true x861) ;; source_muid x870) ;; Ok (Z.eqb 19088743 x871));
    (x873 <- (x872 <- (x861 <- (make_profile_removed_notification true 19088743 5 (mkProf 1 2 3 4 5) 13) ;; ci_view true x861) ;; destination_muid x872) ;; Ok (Z.eqb 5 x873));
    (x876 <- (x875 <- (x874 <- (x861 <- (make_profile_removed_notification true 19088743 5 (mkProf 1 2 3 4 5) 13) ;; ci_view true x861) ;; view_profile x874) ;; Ok (profile_bytes x875)) ;; Ok (list_eqb (profile_bytes (mkProf 1 2 3 4 5)) x876));
    (x878 <- (x877 <- (make_profile_removed_notification true 126182209 161061273 (mkProf 126 68 51 34 17) 127) ;; Ok (dsize x877)) ;; Ok (Z.eqb 17 x878));
    (x879 <- (make_profile_removed_notification true 126182209 161061273 (mkProf 126 68 51 34 17) 127) ;; profile_id_validate x879);
    (x881 <- (x880 <- (make_profile_removed_notification true 126182209 161061273 (mkProf 126 68 51 34 17) 127) ;; as_view true profile_id_validate x880) ;; Ok (opt_some x881));
    (x884 <- (x883 <- (x882 <- (make_profile_removed_notification true 126182209 161061273 (mkProf 126 68 51 34 17) 127) ;; ci_view true x882) ;; view_device_id x883) ;; Ok (Z.eqb 127 x884));
    (x886 <- (x885 <- (x882 <- (make_profile_removed_notification true 126182209 161061273 (mkProf 126 68 51 34 17) 127) ;; ci_view true x882) ;; view_type x885) ;; Ok (Z.eqb 32269 x886));
    (x888 <- (x887 <- (x882 <- (make_profile_removed_notification true 126182209 161061273 (mkProf 126 68 51 34 17) 127) ;; ci_view true x882) ;; view_subtype x887) ;; Ok (Z.eqb 39 x888));
    (x890 <- (x889 <- (x882 <- (make_profile_removed_notification true 126182209 161061273 (mkProf 126 68 51 34 17) 127) ;; ci_view true x882) ;; message_version x889) ;; Ok (Z.eqb 2 x890));
    (x892 <- (x891 <- (x882 <- (make_profile_removed_notification true 126182209 161061273 (mkProf 126 68 51 34 17) 127) ;; ci_view true x882) ;; source_muid x891) ;; Ok (Z.eqb 126182209 x892));
    (x894 <- (x893 <- (x882 <- (make_profile_removed_notification true 126182209 161061273 (mkProf 126 68 51 34 17) 127) ;; ci_view true x882) ;; destination_muid x893) ;; Ok (Z.eqb 161061273 x894));
    (x897 <- (x896 <- (x895 <- (x882 <- (make_profile_removed_notification true 126182209 161061273 (mkProf 126 68 51 34 17) 127) ;; ci_view true x882) ;; view_profile x895) ;; Ok (profile_bytes x896)) ;; Ok (list_eqb (profile_bytes (mkProf 126 68 51 34 17)) x897));
    (b_ <- (x899 <- (x898 <- (make_profile_removed_notification true 126182162 13 (mkProf 126 68 51 34 17) 127) ;; set_data x898 2%nat 49) ;; profile_id_validate x899) ;; Ok (negb b_));
    (b_ <- (x901 <- (x900 <- (x898 <- (make_profile_removed_notification true 126182162 13 (mkProf 126 68 51 34 17) 127) ;; set_data x898 2%nat 49) ;; as_view true profile_id_validate x900) ;; Ok (opt_some x901)) ;; Ok (negb b_))].
Proof. vm_compute. repeat constructor. Qed.

(* line 1552 *)
Example test_profile_details_inquiry_view : all_true [
    (details_inquiry_validate (mkSx 0x7E0000 [9; 13; 40; 2; 69; 86; 71; 56; 68; 51; 34; 17; 1; 2; 3; 4; 5; 52]));
    (x902 <- (as_view true details_inquiry_validate (mkSx 0x7E0000 [9; 13; 40; 2; 69; 86; 71; 56; 68; 51; 34; 17; 1; 2; 3; 4; 5; 52])) ;; Ok (opt_some x902));
    (x904 <- (x903 <- (ci_view true (mkSx 0x7E0000 [9; 13; 40; 2; 69; 86; 71; 56; 68; 51; 34; 17; 1; 2; 3; 4; 5; 52])) ;; view_device_id x903) ;; Ok (Z.eqb 9 x904));
    (x906 <- (x905 <- (ci_view true (mkSx 0x7E0000 [9; 13; 40; 2; 69; 86; 71; 56; 68; 51; 34; 17; 1; 2; 3; 4; 5; 52])) ;; view_type x905) ;; Ok (Z.eqb 32269 x906));
    (x908 <- (x907 <- (ci_view true (mkSx 0x7E0000 [9; 13; 40; 2; 69; 86; 71; 56; 68; 51; 34; 17; 1; 2; 3; 4; 5; 52])) ;; view_subtype x907) ;; Ok (Z.eqb 40 x908));
    (x910 <- (x909 <- (ci_view true (mkSx 0x7E0000 [9; 13; 40; 2; 69; 86; 71; 56; 68; 51; 34; 17; 1; 2; 3; 4; 5; 52])) ;; message_version x909) ;; Ok (Z.eqb 2 x910));
    (x912 <- (x911 <- (ci_view true (mkSx 0x7E0000 [9; 13; 40; 2; 69; 86; 71; 56; 68; 51; 34; 17; 1; 2; 3; 4; 5; 52])) ;; source_muid x911) ;; Ok (Z.eqb 118614853 x912));
    (x914 <- (x913 <- (ci_view true (mkSx 0x7E0000 [9; 13; 40; 2; 69; 86; 71; 56; 68; 51; 34; 17; 1; 2; 3; 4; 5; 52])) ;; destination_muid x913) ;; Ok (Z.eqb 36215236 x914));
    (x917 <- (x916 <- (x915 <- (ci_view true (mkSx 0x7E0000 [9; 13; 40; 2; 69; 86; 71; 56; 68; 51; 34; 17; 1; 2; 3; 4; 5; 52])) ;; view_profile x915) ;; Ok (profile_bytes x916)) ;; Ok (list_eqb (profile_bytes (mkProf 1 2 3 4 5)) x917));
    (x919 <- (x918 <- (ci_view true (mkSx 0x7E0000 [9; 13; 40; 2; 69; 86; 71; 56; 68; 51; 34; 17; 1; 2; 3; 4; 5; 52])) ;; details_inquiry_target x918) ;; Ok (Z.eqb 52 x919));
    (b_ <- (details_inquiry_validate (mkSx 0x7E0000 [9; 13; 34; 2; 69; 86; 71; 56; 68; 51; 34; 17; 1; 2; 3; 4; 5; 52])) ;; Ok (negb b_));
    (b_ <- (details_inquiry_validate (mkSx 0x7E0000 [9; 13; 40; 2; 69; 86; 71; 56; 68; 51; 34; 17; 1; 2; 3; 4; 5])) ;; Ok (negb b_))].
Proof. vm_compute. repeat constructor. Qed.

(* line 1633 *)
Example test_make_profile_details_inquiry : all_true [
    (x921 <- (x920 <- (make_profile_details_inquiry true 36984440 1052688 (mkProf 126 68 51 34 17) 50 126) ;; Ok (dsize x920)) ;; Ok (Z.eqb 18 x921));
    (x922 <- (make_profile_details_inquiry true 36984440 1052688 (mkProf 126 68 51 34 17) 50 126) ;; details_inquiry_validate x922);
    (x924 <- (x923 <- (make_profile_details_inquiry true 36984440 1052688 (mkProf 126 68 51 34 17) 50 126) ;; as_view true details_inquiry_validate x923) ;; Ok (opt_some x924));
    (x927 <- (x926 <- (x925 <- (make_profile_details_inquiry true 36984440 1052688 (mkProf 126 68 51 34 17) 50 126) ;; ci_view true x925) ;; view_device_id x926) ;; Ok (Z.eqb 126 x927));
    (x929 <- (x928 <- (x925 <- (make_profile_details_inquiry true 36984440 1052688 (mkProf 126 68 51 34 17) 50 126) ;; ci_view true x925) ;; view_type x928) ;; Ok (Z.eqb 32269 x929));
    (x931 <- (x930 <- (x925 <- (make_profile_details_inquiry true 36984440 1052688 (mkProf 126 68 51 34 17) 50 126) ;; ci_view true x925) ;; view_subtype x930) ;; Ok (Z.eqb 40 x931));
    (x933 <- (x932 <- (x925 <- (make_profile_details_inquiry true 36984440 1052688 (mkProf 126 68 51 34 17) 50 126) ;; ci_view true x925) ;; message_version x932) ;; Ok (Z.eqb 2 x933));
    (x935 <- (x934 <- (x925 <- (make_profile_details_inquiry true 36984440 1052688 (mkProf 126 68 51 34 17) 50 126) ;; ci_view true x925) ;; source_muid x934) ;; Ok (Z.eqb 36984440 x935));
    (x937 <- (x936 <- (x925 <- (make_profile_details_inquiry true 36984440 1052688 (mkProf 126 68 51 34 17) 50 126) ;; ci_view true x925) ;; destination_muid x936) ;; Ok (Z.eqb 1052688 x937));
    (x940 <- (x939 <- (x938 <- (x925 <- (make_profile_details_inquiry true 36984440 1052688 (mkProf 126 68 51 34 17) 50 126) ;; ci_view true x925) ;; view_profile x938) ;; Ok (profile_bytes x939)) ;; Ok (list_eqb (profile_bytes (mkProf 126 68 51 34 17)) x940));
    (x942 <- (x941 <- (x925 <- (make_profile_details_inquiry true 36984440 1052688 (mkProf 126 68 51 34 17) 50 126) ;; ci_view true x925) ;; details_inquiry_target x941) ;; Ok (Z.eqb 50 x942))].
Proof. vm_compute. repeat constructor. Qed.

(* line 1667 *)
Example test_profile_details_reply_view : all_true [
    (details_reply_validate (mkSx 0x7E0000 [9; 13; 41; 2; 69; 86; 71; 56; 68; 51; 34; 17; 1; 2; 3; 4; 5; 17; 9; 0; 9; 8; 7; 6; 5; 4; 3; 2; 1]));
    (x943 <- (as_view true details_reply_validate (mkSx 0x7E0000 [9; 13; 41; 2; 69; 86; 71; 56; 68; 51; 34; 17; 1; 2; 3; 4; 5; 17; 9; 0; 9; 8; 7; 6; 5; 4; 3; 2; 1])) ;; Ok (opt_some x943));
    (x945 <- (x944 <- (ci_view true (mkSx 0x7E0000 [9; 13; 41; 2; 69; 86; 71; 56; 68; 51; 34; 17; 1; 2; 3; 4; 5; 17; 9; 0; 9; 8; 7; 6; 5; 4; 3; 2; 1])) ;; view_device_id x944) ;; Ok (Z.eqb 9 x945));
    (x947 <- (x946 <- (ci_view true (mkSx 0x7E0000 [9; 13; 41; 2; 69; 86; 71; 56; 68; 51; 34; 17; 1; 2; 3; 4; 5; 17; 9; 0; 9; 8; 7; 6; 5; 4; 3; 2; 1])) ;; view_type x946) ;; Ok (Z.eqb 32269 x947));
    (x949 <- (x948 <- (ci_view true (mkSx 0x7E0000 [9; 13; 41; 2; 69; 86; 71; 56; 68; 51; 34; 17; 1; 2; 3; 4; 5; 17; 9; 0; 9; 8; 7; 6; 5; 4; 3; 2; 1])) ;; view_subtype x948) ;; Ok (Z.eqb 41 x949));
    (x951 <- (x950 <- (ci_view true (mkSx 0x7E0000 [9; 13; 41; 2; 69; 86; 71; 56; 68; 51; 34; 17; 1; 2; 3; 4; 5; 17; 9; 0; 9; 8; 7; 6; 5; 4; 3; 2; 1])) ;; message_version x950) ;; Ok (Z.eqb 2 x951));
    (x953 <- (x952 <- (ci_view true (mkSx 0x7E0000 [9; 13; 41; 2; 69; 86; 71; 56; 68; 51; 34; 17; 1; 2; 3; 4; 5; 17; 9; 0; 9; 8; 7; 6; 5; 4; 3; 2; 1])) ;; source_muid x952) ;; Ok (Z.eqb 118614853 x953));
    (x955 <- (x954 <- (ci_view true (mkSx 0x7E0000 [9; 13; 41; 2; 69; 86; 71; 56; 68; 51; 34; 17; 1; 2; 3; 4; 5; 17; 9; 0; 9; 8; 7; 6; 5; 4; 3; 2; 1])) ;; destination_muid x954) ;; Ok (Z.eqb 36215236 x955));
    (x957 <- (x956 <- (ci_view true (mkSx 0x7E0000 [9; 13; 41; 2; 69; 86; 71; 56; 68; 51; 34; 17; 1; 2; 3; 4; 5; 17; 9; 0; 9; 8; 7; 6; 5; 4; 3; 2; 1])) ;; details_reply_target x956) ;; Ok (Z.eqb 17 x957));
    (x959 <- (x958 <- (ci_view true (mkSx 0x7E0000 [9; 13; 41; 2; 69; 86; 71; 56; 68; 51; 34; 17; 1; 2; 3; 4; 5; 17; 9; 0; 9; 8; 7; 6; 5; 4; 3; 2; 1])) ;; target_data_length x958) ;; Ok (Z.eqb 9 x959));
    (x962 <- (x961 <- (x960 <- (ci_view true (mkSx 0x7E0000 [9; 13; 41; 2; 69; 86; 71; 56; 68; 51; 34; 17; 1; 2; 3; 4; 5; 17; 9; 0; 9; 8; 7; 6; 5; 4; 3; 2; 1])) ;; target_data x960) ;; vec_at x961 0%nat) ;; Ok (Z.eqb 9 x962));
    (x965 <- (x964 <- (x963 <- (ci_view true (mkSx 0x7E0000 [9; 13; 41; 2; 69; 86; 71; 56; 68; 51; 34; 17; 1; 2; 3; 4; 5; 17; 9; 0; 9; 8; 7; 6; 5; 4; 3; 2; 1])) ;; target_data x963) ;; vec_at x964 1%nat) ;; Ok (Z.eqb 8 x965));
    (x968 <- (x967 <- (x966 <- (ci_view true (mkSx 0x7E0000 [9; 13; 41; 2; 69; 86; 71; 56; 68; 51; 34; 17; 1; 2; 3; 4; 5; 17; 9; 0; 9; 8; 7; 6; 5; 4; 3; 2; 1])) ;; target_data x966) ;; vec_at x967 2%nat) ;; Ok (Z.eqb 7 x968));
    (x971 <- (x970 <- (x969 <- (ci_view true (mkSx 0x7E0000 [9; 13; 41; 2; 69; 86; 71; 56; 68; 51; 34; 17; 1; 2; 3; 4; 5; 17; 9; 0; 9; 8; 7; 6; 5; 4; 3; 2; 1])) ;; target_data x969) ;; vec_at x970 3%nat) ;; Ok (Z.eqb 6 x971));
    (x974 <- (x973 <- (x972 <- (ci_view true (mkSx 0x7E0000 [9; 13; 41; 2; 69; 86; 71; 56; 68; 51; 34; 17; 1; 2; 3; 4; 5; 17; 9; 0; 9; 8; 7; 6; 5; 4; 3; 2; 1])) ;; target_data x972) ;; vec_at x973 4%nat) ;; Ok (Z.eqb 5 x974));
    (x977 <- (x976 <- (x975 <- (ci_view true (mkSx 0x7E0000 [9; 13; 41; 2; 69; 86; 71; 56; 68; 51; 34; 17; 1; 2; 3; 4; 5; 17; 9; 0; 9; 8; 7; 6; 5; 4; 3; 2; 1])) ;; target_data x975) ;; vec_at x976 5%nat) ;; Ok (Z.eqb 4 x977));
    (x980 <- (x979 <- (x978 <- (ci_view true (mkSx 0x7E0000 [9; 13; 41; 2; 69; 86; 71; 56; 68; 51; 34; 17; 1; 2; 3; 4; 5; 17; 9; 0; 9; 8; 7; 6; 5; 4; 3; 2; 1])) ;; target_data x978) ;; vec_at x979 6%nat) ;; Ok (Z.eqb 3 x980));
    (x983 <- (x982 <- (x981 <- (ci_view true (mkSx 0x7E0000 [9; 13; 41; 2; 69; 86; 71; 56; 68; 51; 34; 17; 1; 2; 3; 4; 5; 17; 9; 0; 9; 8; 7; 6; 5; 4; 3; 2; 1])) ;; target_data x981) ;; vec_at x982 7%nat) ;; Ok (Z.eqb 2 x983));
    (x986 <- (x985 <- (x984 <- (ci_view true (mkSx 0x7E0000 [9; 13; 41; 2; 69; 86; 71; 56; 68; 51; 34; 17; 1; 2; 3; 4; 5; 17; 9; 0; 9; 8; 7; 6; 5; 4; 3; 2; 1])) ;; target_data x984) ;; vec_at x985 8%nat) ;; Ok (Z.eqb 1 x986));
    (b_ <- (details_reply_validate (mkSx 0x7E0000 [9; 13; 46; 2; 69; 86; 71; 56; 68; 51; 34; 17; 1; 2; 3; 4; 5; 17; 9; 0; 9; 8; 7; 6; 5; 4; 3; 2; 1])) ;; Ok (negb b_));
    (b_ <- (details_reply_validate (mkSx 0x7E0000 [9; 13; 41; 2; 69; 86; 71; 56; 68; 51; 34; 17; 1; 2; 3; 4; 5; 17; 0; 1; 9; 8; 7; 6; 5; 4; 3; 2; 1])) ;; Ok (negb b_))].
Proof. vm_compute. repeat constructor. Qed.

(* line 1724 *)
Example test_make_profile_details_reply : all_true [
    (x988 <- (x987 <- (make_profile_details_reply true 36984440 1052688 (mkProf 126 68 51 34 17) 50 [10; 9; 8; 7; 6; 5; 4; 3; 2; 1; 0] 127) ;; Ok (dsize x987)) ;; Ok (Z.eqb 31 x988));
    (x989 <- (make_profile_details_reply true 36984440 1052688 (mkProf 126 68 51 34 17) 50 [10; 9; 8; 7; 6; 5; 4; 3; 2; 1; 0] 127) ;; details_reply_validate x989);
    (x991 <- (x990 <- (make_profile_details_reply true 36984440 1052688 (mkProf 126 68 51 34 17) 50 [10; 9; 8; 7; 6; 5; 4; 3; 2; 1; 0] 127) ;; as_view true details_reply_validate x990) ;; Ok (opt_some x991));
    (x994 <- (x993 <- (x992 <- (make_profile_details_reply true 36984440 1052688 (mkProf 126 68 51 34 17) 50 [10; 9; 8; 7; 6; 5; 4; 3; 2; 1; 0] 127) ;; ci_view true x992) ;; view_device_id x993) ;; Ok (Z.eqb 127 x994));
    (x996 <- (x995 <- (x992 <- (make_profile_details_reply true 36984440 1052688 (mkProf 126 68 51 34 17) 50 [10; 9; 8; 7; 6; 5; 4; 3; 2; 1; 0] 127) ;; ci_view true x992) ;; view_type x995) ;; Ok (Z.eqb 32269 x996));
    (x998 <- (x997 <- (x992 <- (make_profile_details_reply true 36984440 1052688 (mkProf 126 68 51 34 17) 50 [10; 9; 8; 7; 6; 5; 4; 3; 2; 1; 0] 127) ;; ci_view true x992) ;; view_subtype x997) ;; Ok (Z.eqb 41 x998));
    (x1000 <- (x999 <- (x992 <- (make_profile_details_reply true 36984440 1052688 (mkProf 126 68 51 34 17) 50 [10; 9; 8; 7; 6; 5; 4; 3; 2; 1; 0] 127) ;; ci_view true x992) ;; message_version x999) ;; Ok (Z.eqb 2 x1000));
    (x1002 <- (x1001 <- (x992 <- (make_profile_details_reply true 36984440 1052688 (mkProf 126 68 51 34 17) 50 [10; 9; 8; 7; 6; 5; 4; 3; 2; 1; 0] 127) ;; ci_view true x992) ;; source_muid x1001) ;; Ok (Z.eqb 36984440 x1002));
    (x1004 <- (x1003 <- (x992 <- (make_profile_details_reply true 36984440 1052688 (mkProf 126 68 51 34 17) 50 [10; 9; 8; 7; 6; 5; 4; 3; 2; 1; 0] 127) ;; ci_view true x992) ;; destination_muid x1003) ;; Ok (Z.eqb 1052688 x1004));
    (x1007 <- (x1006 <- (x1005 <- (x992 <- (make_profile_details_reply true 36984440 1052688 (mkProf 126 68 51 34 17) 50 [10; 9; 8; 7; 6; 5; 4; 3; 2; 1; 0] 127) ;; ci_view true x992) ;; view_profile x1005) ;; Ok (profile_bytes x1006)) ;; Ok (list_eqb (profile_bytes (mkProf 126 68 51 34 17)) x1007));
    (x1009 <- (x1008 <- (x992 <- (make_profile_details_reply true 36984440 1052688 (mkProf 126 68 51 34 17) 50 [10; 9; 8; 7; 6; 5; 4; 3; 2; 1; 0] 127) ;; ci_view true x992) ;; details_reply_target x1008) ;; Ok (Z.eqb 50 x1009));
    (x1011 <- (x1010 <- (x992 <- (make_profile_details_reply true 36984440 1052688 (mkProf 126 68 51 34 17) 50 [10; 9; 8; 7; 6; 5; 4; 3; 2; 1; 0] 127) ;; ci_view true x992) ;; target_data_length x1010) ;; Ok (Z.eqb 11 x1011));
    (x1013 <- (x1012 <- (x992 <- (make_profile_details_reply true 36984440 1052688 (mkProf 126 68 51 34 17) 50 [10; 9; 8; 7; 6; 5; 4; 3; 2; 1; 0] 127) ;; ci_view true x992) ;; target_data x1012) ;; Ok (prefix_eqb 11 [10; 9; 8; 7; 6; 5; 4; 3; 2; 1; 0] x1013))].
Proof. vm_compute. repeat constructor. Qed.

(* line 1762 *)
Example test_profile_specific_data : all_true [
    (x1015 <- (x1014 <- (make_profile_specific_data true 19088743 5 (mkProf 1 2 3 4 5) [] 13) ;; Ok (dsize x1014)) ;; Ok (Z.eqb 21 x1015));
    (x1016 <- (make_profile_specific_data true 19088743 5 (mkProf 1 2 3 4 5) [] 13) ;; profile_specific_data_validate x1016);
    (x1018 <- (x1017 <- (make_profile_specific_data true 19088743 5 (mkProf 1 2 3 4 5) [] 13) ;; as_view true profile_specific_data_validate x1017) ;; Ok (opt_some x1018));
    (x1021 <- (x1020 <- (x1019 <- (make_profile_specific_data true 19088743 5 (mkProf 1 2 3 4 5) [] 13) ;; ci_view true x1019) ;; view_device_id x1020) ;; Ok (Z.eqb 13 x1021));
    (x1023 <- (x1022 <- (x1019 <- (make_profile_specific_data true 19088743 5 (mkProf 1 2 3 4 5) [] 13) ;; ci_view true x1019) ;; view_type x1022) ;; Ok (Z.eqb 32269 x1023));
    (x1025 <- (x1024 <- (x1019 <- (make_profile_specific_data true 19088743 5 (mkProf 1 2 3 4 5) [] 13) ;; ci_view true x1019) ;; view_subtype x1024) ;; Ok (Z.eqb 47 x1025));
    (x1027 <- (x1026 <- (x1019 <- (make_profile_specific_data true 19088743 5 (mkProf 1 2 3 4 5) [] 13) ;; ci_view true x1019) ;; message_version x1026) ;; Ok (Z.eqb 2 x1027));
    (x1029 <- (x1028 <- (x1019 <- (make_profile_specific_data true 19088743 5 (mkProf 1 2 3 4 5) [] 13) ;; ci_view true x1019) ;; source_muid x1028) ;; Ok (Z.eqb 19088743 x1029));
    (x1031 <- (x1030 <- (x1019 <- (make_profile_specific_data true 19088743 5 (mkProf 1 2 3 4 5) [] 13) ;; ci_view true x1019) ;; destination_muid x1030) ;; Ok (Z.eqb 5 x1031));
    (x1034 <- (x1033 <- (x1032 <- (x1019 <- (make_profile_specific_data true 19088743 5 (mkProf 1 2 3 4 5) [] 13) ;; ci_view true x1019) ;; view_profile x1032) ;; Ok (profile_bytes x1033)) ;; Ok (list_eqb (profile_bytes (mkProf 1 2 3 4 5)) x1034));
    (x1036 <- (x1035 <- (x1019 <- (make_profile_specific_data true 19088743 5 (mkProf 1 2 3 4 5) [] 13) ;; ci_view true x1019) ;; specific_data_size x1035) ;; Ok (Z.eqb 0 x1036));
    (x1039 <- (x1038 <- (make_profile_specific_data true 126182209 161061273 (mkProf 126 68 51 34 17) [1; 2; 3; 4] 127) ;; Ok (dsize x1038)) ;; Ok (Z.eqb 25 x1039));
    (x1040 <- (make_profile_specific_data true 126182209 161061273 (mkProf 126 68 51 34 17) [1; 2; 3; 4] 127) ;; profile_specific_data_validate x1040);
    (x1042 <- (x1041 <- (make_profile_specific_data true 126182209 161061273 (mkProf 126 68 51 34 17) [1; 2; 3; 4] 127) ;; as_view true profile_specific_data_validate x1041) ;; Ok (opt_some x1042));
    (x1045 <- (x1044 <- (x1043 <- (make_profile_specific_data true 126182209 161061273 (mkProf 126 68 51 34 17) [1; 2; 3; 4] 127) ;; ci_view true x1043) ;; view_device_id x1044) ;; Ok (Z.eqb 127 x1045));
    (x1047 <- (x1046 <- (x1043 <- (make_profile_specific_data true 126182209 161061273 (mkProf 126 68 51 34 17) [1; 2; 3; 4] 127) ;; ci_view true x1043) ;; view_type x1046) ;; Ok (Z.eqb 32269 x1047));
    (x1049 <- (x1048 <- (x1043 <- (make_profile_specific_data true 126182209 161061273 (mkProf 126 68 51 34 17) [1; 2; 3; 4] 127) ;; ci_view true x1043) ;; view_subtype x1048) ;; Ok (Z.eqb 47 x1049));
    (x1051 <- (x1050 <- (x1043 <- (make_profile_specific_data true 126182209 161061273 (mkProf 126 68 51 34 17) [1; 2; 3; 4] 127) ;; ci_view true x1043) ;; message_version x1050) ;; Ok (Z.eqb 2 x1051));
    (x1053 <- (x1052 <- (x1043 <- (make_profile_specific_data true 126182209 161061273 (mkProf 126 68 51 34 17) [1; 2; 3; 4] 127) ;; ci_view true x1043) ;; source_muid x1052) ;; Ok (Z.eqb 126182209 x1053));
    (x1055 <- (x1054 <- (x1043 <- (make_profile_specific_data true 126182209 161061273 (mkProf 126 68 51 34 17) [1; 2; 3; 4] 127) ;; ci_view true x1043) ;; destination_muid x1054) ;; Ok (Z.eqb 161061273 x1055));
    (x1058 <- (x1057 <- (x1056 <- (x1043 <- (make_profile_specific_data true 126182209 161061273 (mkProf 126 68 51 34 17) [1; 2; 3; 4] 127) ;; ci_view true x1043) ;; view_profile x1056) ;; Ok (profile_bytes x1057)) ;; Ok (list_eqb (profile_bytes (mkProf 126 68 51 34 17)) x1058));
    (x1060 <- (x1059 <- (x1043 <- (make_profile_specific_data true 126182209 161061273 (mkProf 126 68 51 34 17) [1; 2; 3; 4] 127) ;; ci_view true x1043) ;; specific_data_size x1059) ;; Ok (Z.eqb 4 x1060));
    (x1063 <- (x1062 <- (x1061 <- (x1043 <- (make_profile_specific_data true 126182209 161061273 (mkProf 126 68 51 34 17) [1; 2; 3; 4] 127) ;; ci_view true x1043) ;; specific_data x1061) ;; Ok (size x1062)) ;; Ok (Z.eqb x1063 4));
    (x1065 <- (x1064 <- (x1043 <- (make_profile_specific_data true 126182209 161061273 (mkProf 126 68 51 34 17) [1; 2; 3; 4] 127) ;; ci_view true x1043) ;; specific_data x1064) ;; Ok (prefix_eqb 4 [1; 2; 3; 4] x1065));
    (x1067 <- (x1066 <- (make_profile_specific_data_vector true 126182162 13 (mkProf 126 68 51 34 17) [10; 9; 8; 7; 6; 5; 4; 3; 2; 1; 0] 127) ;; Ok (dsize x1066)) ;; Ok (Z.eqb 32 x1067));
    (x1068 <- (make_profile_specific_data_vector true 126182162 13 (mkProf 126 68 51 34 17) [10; 9; 8; 7; 6; 5; 4; 3; 2; 1; 0] 127) ;; profile_specific_data_validate x1068);
    (x1070 <- (x1069 <- (make_profile_specific_data_vector true 126182162 13 (mkProf 126 68 51 34 17) [10; 9; 8; 7; 6; 5; 4; 3; 2; 1; 0] 127) ;; as_view true profile_specific_data_validate x1069) ;; Ok (opt_some x1070));
    (x1073 <- (x1072 <- (x1071 <- (make_profile_specific_data_vector true 126182162 13 (mkProf 126 68 51 34 17) [10; 9; 8; 7; 6; 5; 4; 3; 2; 1; 0] 127) ;; ci_view true x1071) ;; view_device_id x1072) ;; Ok (Z.eqb 127 x1073));
    (x1075 <- (x1074 <- (x1071 <- (make_profile_specific_data_vector true 126182162 13 (mkProf 126 68 51 34 17) [10; 9; 8; 7; 6; 5; 4; 3; 2; 1; 0] 127) ;; ci_view true x1071) ;; view_type x1074) ;; Ok (Z.eqb 32269 x1075));
    (x1077 <- (x1076 <- (x1071 <- (make_profile_specific_data_vector true 126182162 13 (mkProf 126 68 51 34 17) [10; 9; 8; 7; 6; 5; 4; 3; 2; 1; 0] 127) ;; ci_view true x1071) ;; view_subtype x1076) ;; Ok (Z.eqb 47 x1077));
    (x1079 <- (x1078 <- (x1071 <- (make_profile_specific_data_vector true 126182162 13 (mkProf 126 68 51 34 17) [10; 9; 8; 7; 6; 5; 4; 3; 2; 1; 0] 127) ;; ci_view true x1071) ;; message_version x1078) ;; Ok (Z.eqb 2 x1079));
    (x1081 <- (x1080 <- (x1071 <- (make_profile_specific_data_vector true 126182162 13 (mkProf 126 68 51 34 17) [10; 9; 8; 7; 6; 5; 4; 3; 2; 1; 0] 127) ;; ci_view true x1071) ;; source_muid x1080) ;; Ok (Z.eqb 126182162 x1081));
    (x1083 <- (x1082 <- (x1071 <- (make_profile_specific_data_vector true 126182162 13 (mkProf 126 68 51 34 17) [10; 9; 8; 7; 6; 5; 4; 3; 2; 1; 0] 127) ;; ci_view true x1071) ;; destination_muid x1082) ;; Ok (Z.eqb 13 x1083));
    (x1086 <- (x1085 <- (x1084 <- (x1071 <- (make_profile_specific_data_vector true 126182162 13 (mkProf 126 68 51 34 17) [10; 9; 8; 7; 6; 5; 4; 3; 2; 1; 0] 127) ;; ci_view true x1071) ;; view_profile x1084) ;; Ok (profile_bytes x1085)) ;; Ok (list_eqb (profile_bytes (mkProf 126 68 51 34 17)) x1086));
    (x1088 <- (x1087 <- (x1071 <- (make_profile_specific_data_vector true 126182162 13 (mkProf 126 68 51 34 17) [10; 9; 8; 7; 6; 5; 4; 3; 2; 1; 0] 127) ;; ci_view true x1071) ;; specific_data_size x1087) ;; Ok (Z.eqb 11 x1088));
    (x1091 <- (x1090 <- (x1089 <- (x1071 <- (make_profile_specific_data_vector true 126182162 13 (mkProf 126 68 51 34 17) [10; 9; 8; 7; 6; 5; 4; 3; 2; 1; 0] 127) ;; ci_view true x1071) ;; specific_data x1089) ;; Ok (size x1090)) ;; Ok (Z.eqb x1091 11));
    (x1093 <- (x1092 <- (x1071 <- (make_profile_specific_data_vector true 126182162 13 (mkProf 126 68 51 34 17) [10; 9; 8; 7; 6; 5; 4; 3; 2; 1; 0] 127) ;; ci_view true x1071) ;; specific_data x1092) ;; Ok (prefix_eqb 11 [10; 9; 8; 7; 6; 5; 4; 3; 2; 1; 0] x1093));
    (b_ <- (x1095 <- (x1094 <- (make_profile_specific_data_vector true 126182162 13 (mkProf 126 68 51 34 17) [10; 9; 8; 7; 6; 5; 4; 3; 2; 1; 0] 127) ;; set_data x1094 18%nat 7) ;; profile_specific_data_validate x1095) ;; Ok (negb b_))].
Proof. vm_compute. repeat constructor. Qed.

