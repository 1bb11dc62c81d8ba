(* The unit tests of tests/capability_inquiry_tests.cpp, tests/ci_process_inquiry_tests.cpp, run on the model with assertions.
   These are checks of the model against the results its authors expect of the code, not proofs. *)
From Coq Require Import ZArith List Bool.
From Verif Require Import Base Packet Messages Sysex UniversalSysex CapInq PropEx TestsBase.
Import ListNotations.
Local Open Scope Z_scope.
Local Open Scope res_scope.

(* ---- tests/capability_inquiry_tests.cpp ---- *)


(* line 40 *)
Example test_is_capability_inquiry_message : all_true [
    (is_capability_inquiry_message (mkSx 0x7E0000 [127; 13; 1; 0; 120; 86; 52; 18; 127; 127; 127; 127]));
    (x1 <- (universal_sysex_device_id_of (mkSx 0x7E0000 [127; 13; 1; 0; 120; 86; 52; 18; 127; 127; 127; 127])) ;; Ok (Z.eqb 127 x1));
    (x2 <- (universal_sysex_type_of (mkSx 0x7E0000 [127; 13; 1; 0; 120; 86; 52; 18; 127; 127; 127; 127])) ;; Ok (Z.eqb 32269 x2));
    (x3 <- (universal_sysex_subtype_of (mkSx 0x7E0000 [127; 13; 1; 0; 120; 86; 52; 18; 127; 127; 127; 127])) ;; Ok (Z.eqb 1 x3));
    (b_ <- (is_capability_inquiry_message (mkSx 0x7E0000 [127; 13; 1; 0; 120; 86; 52; 18; 127; 127; 127])) ;; Ok (negb b_));
    (b_ <- (is_capability_inquiry_message (mkSx 0x7E0000 [127; 3; 1; 0; 120; 86; 52; 18])) ;; Ok (negb b_));
    (b_ <- (is_capability_inquiry_message (mkSx 0x7E0000 [127; 13; 1; 120; 86; 52; 18])) ;; Ok (negb b_));
    (b_ <- (is_capability_inquiry_message (mkSx 0x002109 [4; 5; 6; 7; 8; 9; 10; 11; 12; 13; 14; 247])) ;; Ok (negb b_))].
Proof. vm_compute. repeat constructor. Qed.

(* line 82 *)
Example test_capability_inquiry_view : all_true [
    (is_capability_inquiry_message (mkSx 0x7E0000 [127; 13; 1; 0; 120; 86; 52; 18; 127; 127; 127; 127]));
    (x4 <- (universal_sysex_device_id_of (mkSx 0x7E0000 [127; 13; 1; 0; 120; 86; 52; 18; 127; 127; 127; 127])) ;; Ok (Z.eqb 127 x4));
    (x5 <- (universal_sysex_type_of (mkSx 0x7E0000 [127; 13; 1; 0; 120; 86; 52; 18; 127; 127; 127; 127])) ;; Ok (Z.eqb 32269 x5));
    (x6 <- (universal_sysex_subtype_of (mkSx 0x7E0000 [127; 13; 1; 0; 120; 86; 52; 18; 127; 127; 127; 127])) ;; Ok (Z.eqb 1 x6));
    (x7 <- (as_view true ci_validate (mkSx 0x7E0000 [127; 13; 1; 0; 120; 86; 52; 18; 127; 127; 127; 127])) ;; Ok (opt_some x7));
    (x10 <- (x9 <- (x8 <- (as_view true ci_validate (mkSx 0x7E0000 [127; 13; 1; 0; 120; 86; 52; 18; 127; 127; 127; 127])) ;; opt_get x8) ;; message_version x9) ;; Ok (Z.eqb 0 x10));
    (x13 <- (x12 <- (x11 <- (as_view true ci_validate (mkSx 0x7E0000 [127; 13; 1; 0; 120; 86; 52; 18; 127; 127; 127; 127])) ;; opt_get x11) ;; source_muid x12) ;; Ok (Z.eqb 38611832 x13));
    (x16 <- (x15 <- (x14 <- (as_view true ci_validate (mkSx 0x7E0000 [127; 13; 1; 0; 120; 86; 52; 18; 127; 127; 127; 127])) ;; opt_get x14) ;; destination_muid x15) ;; Ok (Z.eqb 268435455 x16));
    (b_ <- (x17 <- (as_view true ci_validate (mkSx 0x7E0000 [127; 13; 1; 0; 120; 86; 52; 18; 127; 127; 127])) ;; Ok (opt_some x17)) ;; Ok (negb b_));
    (b_ <- (x18 <- (as_view true ci_validate (mkSx 0x7E0000 [127; 3; 1; 0; 120; 86; 52; 18])) ;; Ok (opt_some x18)) ;; Ok (negb b_));
    (b_ <- (x19 <- (as_view true ci_validate (mkSx 0x7E0000 [127; 13; 1; 120; 86; 52; 18])) ;; Ok (opt_some x19)) ;; Ok (negb b_));
    (b_ <- (x20 <- (as_view true ci_validate (mkSx 0x002109 [4; 5; 6; 7; 8; 9; 10; 11; 12; 13; 14; 247])) ;; Ok (opt_some x20)) ;; Ok (negb b_))].
Proof. vm_compute. repeat constructor. Qed.

(* line 131 *)
Example test_message_constructor : all_true [
    (x21 <- (ci_message true 26 124147012 268435455 8) ;; is_capability_inquiry_message x21);
    (x23 <- (x22 <- (ci_message true 26 124147012 268435455 8) ;; message_device_id x22) ;; Ok (Z.eqb 8 x23));
    (x25 <- (x24 <- (ci_message true 26 124147012 268435455 8) ;; message_type x24) ;; Ok (Z.eqb 32269 x25));
    (x27 <- (x26 <- (ci_message true 26 124147012 268435455 8) ;; message_subtype x26) ;; Ok (Z.eqb 26 x27));
    (x29 <- (x28 <- (ci_message true 26 124147012 268435455 8) ;; message_version x28) ;; Ok (Z.eqb 2 x29));
    (x31 <- (x30 <- (ci_message true 26 124147012 268435455 8) ;; source_muid x30) ;; Ok (Z.eqb 124147012 x31));
    (x33 <- (x32 <- (ci_message true 26 124147012 268435455 8) ;; destination_muid x32) ;; Ok (Z.eqb 268435455 x33));
    (x35 <- (x34 <- (ci_message true 26 124147012 268435455 8) ;; Ok (dsize x34)) ;; Ok (Z.eqb 12 x35));
    (x37 <- (x36 <- (make_with_payload_size true 4 19922 788 6) ;; message_device_id x36) ;; Ok (Z.eqb 6 x37));
    (x39 <- (x38 <- (make_with_payload_size true 4 19922 788 6) ;; message_type x38) ;; Ok (Z.eqb 32269 x39));
    (x41 <- (x40 <- (make_with_payload_size true 4 19922 788 6) ;; message_subtype x40) ;; Ok (Z.eqb 4 x41));
    (x43 <- (x42 <- (make_with_payload_size true 4 19922 788 6) ;; message_version x42) ;; Ok (Z.eqb 2 x43));
    (x45 <- (x44 <- (make_with_payload_size true 4 19922 788 6) ;; source_muid x44) ;; Ok (Z.eqb 19922 x45));
    (x47 <- (x46 <- (make_with_payload_size true 4 19922 788 6) ;; destination_muid x46) ;; Ok (Z.eqb 788 x47));
    (x49 <- (x48 <- (make_with_payload_size true 4 19922 788 6) ;; Ok (dsize x48)) ;; Ok (Z.eqb 12 x49));
    (x51 <- (x50 <- (make_with_payload_size true 4 19922 788 6) ;; message_device_id x50) ;; Ok (Z.eqb 6 x51));
    (x53 <- (x52 <- (make_with_payload_size true 4 19922 788 6) ;; message_type x52) ;; Ok (Z.eqb 32269 x53));
    (x55 <- (x54 <- (make_with_payload_size true 4 19922 788 6) ;; message_subtype x54) ;; Ok (Z.eqb 4 x55));
    (x57 <- (x56 <- (make_with_payload_size true 4 19922 788 6) ;; message_version x56) ;; Ok (Z.eqb 2 x57));
    (x59 <- (x58 <- (make_with_payload_size true 4 19922 788 6) ;; source_muid x58) ;; Ok (Z.eqb 19922 x59));
    (x61 <- (x60 <- (make_with_payload_size true 4 19922 788 6) ;; destination_muid x60) ;; Ok (Z.eqb 788 x61));
    (x63 <- (x62 <- (make_with_payload_size true 4 19922 788 6) ;; Ok (dsize x62)) ;; Ok (Z.eqb 12 x63));
    (x66 <- (x65 <- (x64 <- (make_with_payload_size true 4 19922 788 6) ;; add_data true x64 [1; 2; 3; 4]) ;; Ok (dsize x65)) ;; Ok (Z.eqb 16 x66))].
Proof. vm_compute. repeat constructor. Qed.

(* line 202 *)
Example test_message_version : all_true [
    (is_capability_inquiry_message (mkSx 0x7E0000 [127; 13; 1; 0; 120; 86; 52; 18; 127; 127; 127; 127]));
    (x68 <- (x67 <- (ci_view true (mkSx 0x7E0000 [127; 13; 1; 0; 120; 86; 52; 18; 127; 127; 127; 127])) ;; message_version x67) ;; Ok (Z.eqb 0 x68));
    (is_capability_inquiry_message (mkSx 0x7E0000 [127; 13; 1; 5; 120; 86; 52; 18; 34; 51; 68; 85]));
    (x70 <- (x69 <- (ci_view true (mkSx 0x7E0000 [127; 13; 1; 5; 120; 86; 52; 18; 34; 51; 68; 85])) ;; message_version x69) ;; Ok (Z.eqb 5 x70));
    (is_capability_inquiry_message (mkSx 0x7E0000 [127; 13; 1; 119; 120; 86; 52; 18; 1; 2; 3; 4]));
    (x72 <- (x71 <- (ci_view true (mkSx 0x7E0000 [127; 13; 1; 119; 120; 86; 52; 18; 1; 2; 3; 4])) ;; message_version x71) ;; Ok (Z.eqb 119 x72))].
Proof. vm_compute. repeat constructor. Qed.

(* line 240 *)
Example test_message_muids : all_true [
    (is_capability_inquiry_message (mkSx 0x7E0000 [127; 13; 1; 0; 120; 86; 52; 18; 68; 51; 34; 17]));
    (x74 <- (x73 <- (ci_view true (mkSx 0x7E0000 [127; 13; 1; 0; 120; 86; 52; 18; 68; 51; 34; 17])) ;; source_muid x73) ;; Ok (Z.eqb 38611832 x74));
    (x76 <- (x75 <- (ci_view true (mkSx 0x7E0000 [127; 13; 1; 0; 120; 86; 52; 18; 68; 51; 34; 17])) ;; destination_muid x75) ;; Ok (Z.eqb 36215236 x76));
    (is_capability_inquiry_message (mkSx 0x7E0000 [127; 13; 1; 0; 68; 51; 34; 17; 69; 86; 71; 56]));
    (x78 <- (x77 <- (ci_view true (mkSx 0x7E0000 [127; 13; 1; 0; 68; 51; 34; 17; 69; 86; 71; 56])) ;; source_muid x77) ;; Ok (Z.eqb 36215236 x78));
    (x80 <- (x79 <- (ci_view true (mkSx 0x7E0000 [127; 13; 1; 0; 68; 51; 34; 17; 69; 86; 71; 56])) ;; destination_muid x79) ;; Ok (Z.eqb 118614853 x80));
    (is_capability_inquiry_message (mkSx 0x7E0000 [127; 13; 1; 0; 69; 86; 71; 56; 68; 51; 34; 17]));
    (x82 <- (x81 <- (ci_view true (mkSx 0x7E0000 [127; 13; 1; 0; 69; 86; 71; 56; 68; 51; 34; 17])) ;; source_muid x81) ;; Ok (Z.eqb 118614853 x82));
    (x84 <- (x83 <- (ci_view true (mkSx 0x7E0000 [127; 13; 1; 0; 69; 86; 71; 56; 68; 51; 34; 17])) ;; destination_muid x83) ;; Ok (Z.eqb 36215236 x84));
    (x86 <- (x85 <- (ci_message true 51 19088743 268435455 127) ;; source_muid x85) ;; Ok (Z.eqb 19088743 x86));
    (x88 <- (x87 <- (ci_message true 51 19088743 268435455 127) ;; destination_muid x87) ;; Ok (Z.eqb 268435455 x88));
    (x91 <- (x90 <- (x89 <- (ci_message true 51 19088743 268435455 127) ;; set_source_muid true x89 249346712) ;; source_muid x90) ;; Ok (Z.eqb 249346712 x91));
    (x94 <- (x93 <- (x92 <- (x89 <- (ci_message true 51 19088743 268435455 127) ;; set_source_muid true x89 249346712) ;; set_destination_muid true x92 142042709) ;; destination_muid x93) ;; Ok (Z.eqb 142042709 x94))].
Proof. vm_compute. repeat constructor. Qed.

(* line 294 *)
Example test_discovery_message_view : all_true [
    (is_capability_inquiry_message (mkSx 0x7E0000 [127; 13; 112; 1; 68; 51; 34; 17; 119; 85; 51; 17; 0; 33; 9; 0; 48; 25; 0; 0; 0; 4; 0; 32; 0; 8; 0; 0]));
    (discovery_inquiry_validate (mkSx 0x7E0000 [127; 13; 112; 1; 68; 51; 34; 17; 119; 85; 51; 17; 0; 33; 9; 0; 48; 25; 0; 0; 0; 4; 0; 32; 0; 8; 0; 0]));
    (x95 <- (as_view true discovery_inquiry_validate (mkSx 0x7E0000 [127; 13; 112; 1; 68; 51; 34; 17; 119; 85; 51; 17; 0; 33; 9; 0; 48; 25; 0; 0; 0; 4; 0; 32; 0; 8; 0; 0])) ;; Ok (opt_some x95));
    (x97 <- (x96 <- (ci_view true (mkSx 0x7E0000 [127; 13; 112; 1; 68; 51; 34; 17; 119; 85; 51; 17; 0; 33; 9; 0; 48; 25; 0; 0; 0; 4; 0; 32; 0; 8; 0; 0])) ;; view_device_id x96) ;; Ok (Z.eqb 127 x97));
    (x99 <- (x98 <- (ci_view true (mkSx 0x7E0000 [127; 13; 112; 1; 68; 51; 34; 17; 119; 85; 51; 17; 0; 33; 9; 0; 48; 25; 0; 0; 0; 4; 0; 32; 0; 8; 0; 0])) ;; view_type x98) ;; Ok (Z.eqb 32269 x99));
    (x101 <- (x100 <- (ci_view true (mkSx 0x7E0000 [127; 13; 112; 1; 68; 51; 34; 17; 119; 85; 51; 17; 0; 33; 9; 0; 48; 25; 0; 0; 0; 4; 0; 32; 0; 8; 0; 0])) ;; view_subtype x100) ;; Ok (Z.eqb 112 x101));
    (x103 <- (x102 <- (ci_view true (mkSx 0x7E0000 [127; 13; 112; 1; 68; 51; 34; 17; 119; 85; 51; 17; 0; 33; 9; 0; 48; 25; 0; 0; 0; 4; 0; 32; 0; 8; 0; 0])) ;; message_version x102) ;; Ok (Z.eqb 1 x103));
    (x105 <- (x104 <- (ci_view true (mkSx 0x7E0000 [127; 13; 112; 1; 68; 51; 34; 17; 119; 85; 51; 17; 0; 33; 9; 0; 48; 25; 0; 0; 0; 4; 0; 32; 0; 8; 0; 0])) ;; source_muid x104) ;; Ok (Z.eqb 36215236 x105));
    (x107 <- (x106 <- (ci_view true (mkSx 0x7E0000 [127; 13; 112; 1; 68; 51; 34; 17; 119; 85; 51; 17; 0; 33; 9; 0; 48; 25; 0; 0; 0; 4; 0; 32; 0; 8; 0; 0])) ;; destination_muid x106) ;; Ok (Z.eqb 36498167 x107));
    (x110 <- (x109 <- (x108 <- (ci_view true (mkSx 0x7E0000 [127; 13; 112; 1; 68; 51; 34; 17; 119; 85; 51; 17; 0; 33; 9; 0; 48; 25; 0; 0; 0; 4; 0; 32; 0; 8; 0; 0])) ;; discovery_identity x108) ;; Ok (di_manufacturer x109)) ;; Ok (Z.eqb 8457 x110));
    (x112 <- (x111 <- (x108 <- (ci_view true (mkSx 0x7E0000 [127; 13; 112; 1; 68; 51; 34; 17; 119; 85; 51; 17; 0; 33; 9; 0; 48; 25; 0; 0; 0; 4; 0; 32; 0; 8; 0; 0])) ;; discovery_identity x108) ;; Ok (di_family x111)) ;; Ok (Z.eqb 6144 x112));
    (x114 <- (x113 <- (x108 <- (ci_view true (mkSx 0x7E0000 [127; 13; 112; 1; 68; 51; 34; 17; 119; 85; 51; 17; 0; 33; 9; 0; 48; 25; 0; 0; 0; 4; 0; 32; 0; 8; 0; 0])) ;; discovery_identity x108) ;; Ok (di_model x113)) ;; Ok (Z.eqb 25 x114));
    (x116 <- (x115 <- (x108 <- (ci_view true (mkSx 0x7E0000 [127; 13; 112; 1; 68; 51; 34; 17; 119; 85; 51; 17; 0; 33; 9; 0; 48; 25; 0; 0; 0; 4; 0; 32; 0; 8; 0; 0])) ;; discovery_identity x108) ;; Ok (di_revision x115)) ;; Ok (Z.eqb 65536 x116));
    (x118 <- (x117 <- (ci_view true (mkSx 0x7E0000 [127; 13; 112; 1; 68; 51; 34; 17; 119; 85; 51; 17; 0; 33; 9; 0; 48; 25; 0; 0; 0; 4; 0; 32; 0; 8; 0; 0])) ;; discovery_categories x117) ;; Ok (Z.eqb 32 x118));
    (x120 <- (x119 <- (ci_view true (mkSx 0x7E0000 [127; 13; 112; 1; 68; 51; 34; 17; 119; 85; 51; 17; 0; 33; 9; 0; 48; 25; 0; 0; 0; 4; 0; 32; 0; 8; 0; 0])) ;; discovery_maximum_message_size x119) ;; Ok (Z.eqb 1024 x120));
    (x122 <- (x121 <- (ci_view true (mkSx 0x7E0000 [127; 13; 112; 1; 68; 51; 34; 17; 119; 85; 51; 17; 0; 33; 9; 0; 48; 25; 0; 0; 0; 4; 0; 32; 0; 8; 0; 0])) ;; discovery_output_path_id x121) ;; Ok (Z.eqb 0 x122));
    (is_capability_inquiry_message (mkSx 0x7E0000 [127; 13; 113; 2; 68; 51; 34; 17; 119; 85; 51; 17; 0; 33; 9; 0; 48; 25; 0; 0; 0; 1; 0; 32; 0; 8; 0; 0; 20; 12]));
    (discovery_reply_validate (mkSx 0x7E0000 [127; 13; 113; 2; 68; 51; 34; 17; 119; 85; 51; 17; 0; 33; 9; 0; 48; 25; 0; 0; 0; 1; 0; 32; 0; 8; 0; 0; 20; 12]));
    (x123 <- (as_view true discovery_reply_validate (mkSx 0x7E0000 [127; 13; 113; 2; 68; 51; 34; 17; 119; 85; 51; 17; 0; 33; 9; 0; 48; 25; 0; 0; 0; 1; 0; 32; 0; 8; 0; 0; 20; 12])) ;; Ok (opt_some x123));
    (x125 <- (x124 <- (ci_view true (mkSx 0x7E0000 [127; 13; 113; 2; 68; 51; 34; 17; 119; 85; 51; 17; 0; 33; 9; 0; 48; 25; 0; 0; 0; 1; 0; 32; 0; 8; 0; 0; 20; 12])) ;; view_device_id x124) ;; Ok (Z.eqb 127 x125));
    (x127 <- (x126 <- (ci_view true (mkSx 0x7E0000 [127; 13; 113; 2; 68; 51; 34; 17; 119; 85; 51; 17; 0; 33; 9; 0; 48; 25; 0; 0; 0; 1; 0; 32; 0; 8; 0; 0; 20; 12])) ;; view_type x126) ;; Ok (Z.eqb 32269 x127));
    (x129 <- (x128 <- (ci_view true (mkSx 0x7E0000 [127; 13; 113; 2; 68; 51; 34; 17; 119; 85; 51; 17; 0; 33; 9; 0; 48; 25; 0; 0; 0; 1; 0; 32; 0; 8; 0; 0; 20; 12])) ;; view_subtype x128) ;; Ok (Z.eqb 113 x129));
    (x131 <- (x130 <- (ci_view true (mkSx 0x7E0000 [127; 13; 113; 2; 68; 51; 34; 17; 119; 85; 51; 17; 0; 33; 9; 0; 48; 25; 0; 0; 0; 1; 0; 32; 0; 8; 0; 0; 20; 12])) ;; message_version x130) ;; Ok (Z.eqb 2 x131));
    (x133 <- (x132 <- (ci_view true (mkSx 0x7E0000 [127; 13; 113; 2; 68; 51; 34; 17; 119; 85; 51; 17; 0; 33; 9; 0; 48; 25; 0; 0; 0; 1; 0; 32; 0; 8; 0; 0; 20; 12])) ;; source_muid x132) ;; Ok (Z.eqb 36215236 x133));
    (x135 <- (x134 <- (ci_view true (mkSx 0x7E0000 [127; 13; 113; 2; 68; 51; 34; 17; 119; 85; 51; 17; 0; 33; 9; 0; 48; 25; 0; 0; 0; 1; 0; 32; 0; 8; 0; 0; 20; 12])) ;; destination_muid x134) ;; Ok (Z.eqb 36498167 x135));
    (x138 <- (x137 <- (x136 <- (ci_view true (mkSx 0x7E0000 [127; 13; 113; 2; 68; 51; 34; 17; 119; 85; 51; 17; 0; 33; 9; 0; 48; 25; 0; 0; 0; 1; 0; 32; 0; 8; 0; 0; 20; 12])) ;; discovery_identity x136) ;; Ok (di_manufacturer x137)) ;; Ok (Z.eqb 8457 x138));
    (x140 <- (x139 <- (x136 <- (ci_view true (mkSx 0x7E0000 [127; 13; 113; 2; 68; 51; 34; 17; 119; 85; 51; 17; 0; 33; 9; 0; 48; 25; 0; 0; 0; 1; 0; 32; 0; 8; 0; 0; 20; 12])) ;; discovery_identity x136) ;; Ok (di_family x139)) ;; Ok (Z.eqb 6144 x140));
    (x142 <- (x141 <- (x136 <- (ci_view true (mkSx 0x7E0000 [127; 13; 113; 2; 68; 51; 34; 17; 119; 85; 51; 17; 0; 33; 9; 0; 48; 25; 0; 0; 0; 1; 0; 32; 0; 8; 0; 0; 20; 12])) ;; discovery_identity x136) ;; Ok (di_model x141)) ;; Ok (Z.eqb 25 x142));
    (x144 <- (x143 <- (x136 <- (ci_view true (mkSx 0x7E0000 [127; 13; 113; 2; 68; 51; 34; 17; 119; 85; 51; 17; 0; 33; 9; 0; 48; 25; 0; 0; 0; 1; 0; 32; 0; 8; 0; 0; 20; 12])) ;; discovery_identity x136) ;; Ok (di_revision x143)) ;; Ok (Z.eqb 16384 x144));
    (x146 <- (x145 <- (ci_view true (mkSx 0x7E0000 [127; 13; 113; 2; 68; 51; 34; 17; 119; 85; 51; 17; 0; 33; 9; 0; 48; 25; 0; 0; 0; 1; 0; 32; 0; 8; 0; 0; 20; 12])) ;; discovery_categories x145) ;; Ok (Z.eqb 32 x146));
    (x148 <- (x147 <- (ci_view true (mkSx 0x7E0000 [127; 13; 113; 2; 68; 51; 34; 17; 119; 85; 51; 17; 0; 33; 9; 0; 48; 25; 0; 0; 0; 1; 0; 32; 0; 8; 0; 0; 20; 12])) ;; discovery_maximum_message_size x147) ;; Ok (Z.eqb 1024 x148));
    (x150 <- (x149 <- (ci_view true (mkSx 0x7E0000 [127; 13; 113; 2; 68; 51; 34; 17; 119; 85; 51; 17; 0; 33; 9; 0; 48; 25; 0; 0; 0; 1; 0; 32; 0; 8; 0; 0; 20; 12])) ;; discovery_output_path_id x149) ;; Ok (Z.eqb 20 x150));
    (x152 <- (x151 <- (ci_view true (mkSx 0x7E0000 [127; 13; 113; 2; 68; 51; 34; 17; 119; 85; 51; 17; 0; 33; 9; 0; 48; 25; 0; 0; 0; 1; 0; 32; 0; 8; 0; 0; 20; 12])) ;; discovery_function_block x151) ;; Ok (Z.eqb 12 x152));
    (b_ <- (discovery_inquiry_validate (mkSx 0x7E0000 [127; 12; 112; 1; 68; 51; 34; 17; 119; 85; 51; 17; 0; 33; 9; 0; 24; 25; 0; 0; 0; 1; 0; 32; 0; 8; 0; 0])) ;; Ok (negb b_));
    (b_ <- (discovery_reply_validate (mkSx 0x7E0000 [127; 13; 116; 1; 68; 51; 34; 17; 119; 85; 51; 17; 0; 33; 9; 0; 24; 25; 0; 0; 0; 1; 0; 32; 0; 8; 0; 0])) ;; Ok (negb b_));
    (b_ <- (discovery_inquiry_validate (mkSx 0x7E0000 [127; 13; 112; 1; 68; 51; 34; 17; 119; 85; 51; 17; 0; 33; 9; 0; 24; 25; 0; 0; 0; 1; 0; 32; 0; 8; 0])) ;; Ok (negb b_));
    (b_ <- (discovery_reply_validate (mkSx 0x7E0000 [127; 13; 113; 2; 68; 51; 34; 17; 119; 85; 51; 17; 0; 33; 9; 0; 24; 25; 0; 0; 0; 1; 0; 32; 0; 8; 0; 0])) ;; Ok (negb b_))].
Proof. vm_compute. repeat constructor. Qed.

(* line 397 *)
Example test_make_discovery_message_v1 : all_true [
    (x154 <- (x153 <- (make_discovery_message_v1 true 113 37966949 74565 (mkDevId 8457 5936 49 65541) 12 766) ;; Ok (dsize x153)) ;; Ok (Z.eqb 28 x154));
    (x155 <- (make_discovery_message_v1 true 113 37966949 74565 (mkDevId 8457 5936 49 65541) 12 766) ;; is_capability_inquiry_message x155);
    (x156 <- (make_discovery_message_v1 true 113 37966949 74565 (mkDevId 8457 5936 49 65541) 12 766) ;; discovery_reply_validate x156);
    (x159 <- (x158 <- (x157 <- (make_discovery_message_v1 true 113 37966949 74565 (mkDevId 8457 5936 49 65541) 12 766) ;; ci_view true x157) ;; view_device_id x158) ;; Ok (Z.eqb 127 x159));
    (x161 <- (x160 <- (x157 <- (make_discovery_message_v1 true 113 37966949 74565 (mkDevId 8457 5936 49 65541) 12 766) ;; ci_view true x157) ;; view_type x160) ;; Ok (Z.eqb 32269 x161));
    (x163 <- (x162 <- (x157 <- (make_discovery_message_v1 true 113 37966949 74565 (mkDevId 8457 5936 49 65541) 12 766) ;; ci_view true x157) ;; view_subtype x162) ;; Ok (Z.eqb 113 x163));
    (x165 <- (x164 <- (x157 <- (make_discovery_message_v1 true 113 37966949 74565 (mkDevId 8457 5936 49 65541) 12 766) ;; ci_view true x157) ;; message_version x164) ;; Ok (Z.eqb 1 x165));
    (x167 <- (x166 <- (x157 <- (make_discovery_message_v1 true 113 37966949 74565 (mkDevId 8457 5936 49 65541) 12 766) ;; ci_view true x157) ;; source_muid x166) ;; Ok (Z.eqb 37966949 x167));
    (x169 <- (x168 <- (x157 <- (make_discovery_message_v1 true 113 37966949 74565 (mkDevId 8457 5936 49 65541) 12 766) ;; ci_view true x157) ;; destination_muid x168) ;; Ok (Z.eqb 74565 x169));
    (x171 <- (x170 <- (x157 <- (make_discovery_message_v1 true 113 37966949 74565 (mkDevId 8457 5936 49 65541) 12 766) ;; ci_view true x157) ;; discovery_identity x170) ;; Ok (ident_eqb (mkDevId 8457 5936 49 65541) x171));
    (x173 <- (x172 <- (x157 <- (make_discovery_message_v1 true 113 37966949 74565 (mkDevId 8457 5936 49 65541) 12 766) ;; ci_view true x157) ;; discovery_categories x172) ;; Ok (Z.eqb 12 x173));
    (x175 <- (x174 <- (x157 <- (make_discovery_message_v1 true 113 37966949 74565 (mkDevId 8457 5936 49 65541) 12 766) ;; ci_view true x157) ;; discovery_maximum_message_size x174) ;; Ok (Z.eqb 766 x175))].
Proof. vm_compute. repeat constructor. Qed.

(* line 434 *)
Example test_discovery_inquiry_view : all_true [
    (is_capability_inquiry_message (mkSx 0x7E0000 [127; 13; 112; 1; 68; 51; 34; 17; 127; 127; 127; 127; 0; 33; 9; 0; 48; 25; 0; 0; 0; 4; 0; 32; 0; 8; 0; 0]));
    (discovery_inquiry_validate (mkSx 0x7E0000 [127; 13; 112; 1; 68; 51; 34; 17; 127; 127; 127; 127; 0; 33; 9; 0; 48; 25; 0; 0; 0; 4; 0; 32; 0; 8; 0; 0]));
    (x176 <- (as_view true discovery_inquiry_validate (mkSx 0x7E0000 [127; 13; 112; 1; 68; 51; 34; 17; 127; 127; 127; 127; 0; 33; 9; 0; 48; 25; 0; 0; 0; 4; 0; 32; 0; 8; 0; 0])) ;; Ok (opt_some x176));
    (x178 <- (x177 <- (ci_view true (mkSx 0x7E0000 [127; 13; 112; 1; 68; 51; 34; 17; 127; 127; 127; 127; 0; 33; 9; 0; 48; 25; 0; 0; 0; 4; 0; 32; 0; 8; 0; 0])) ;; view_device_id x177) ;; Ok (Z.eqb 127 x178));
    (x180 <- (x179 <- (ci_view true (mkSx 0x7E0000 [127; 13; 112; 1; 68; 51; 34; 17; 127; 127; 127; 127; 0; 33; 9; 0; 48; 25; 0; 0; 0; 4; 0; 32; 0; 8; 0; 0])) ;; view_type x179) ;; Ok (Z.eqb 32269 x180));
    (x182 <- (x181 <- (ci_view true (mkSx 0x7E0000 [127; 13; 112; 1; 68; 51; 34; 17; 127; 127; 127; 127; 0; 33; 9; 0; 48; 25; 0; 0; 0; 4; 0; 32; 0; 8; 0; 0])) ;; view_subtype x181) ;; Ok (Z.eqb 112 x182));
    (x184 <- (x183 <- (ci_view true (mkSx 0x7E0000 [127; 13; 112; 1; 68; 51; 34; 17; 127; 127; 127; 127; 0; 33; 9; 0; 48; 25; 0; 0; 0; 4; 0; 32; 0; 8; 0; 0])) ;; message_version x183) ;; Ok (Z.eqb 1 x184));
    (x186 <- (x185 <- (ci_view true (mkSx 0x7E0000 [127; 13; 112; 1; 68; 51; 34; 17; 127; 127; 127; 127; 0; 33; 9; 0; 48; 25; 0; 0; 0; 4; 0; 32; 0; 8; 0; 0])) ;; source_muid x185) ;; Ok (Z.eqb 36215236 x186));
    (x188 <- (x187 <- (ci_view true (mkSx 0x7E0000 [127; 13; 112; 1; 68; 51; 34; 17; 127; 127; 127; 127; 0; 33; 9; 0; 48; 25; 0; 0; 0; 4; 0; 32; 0; 8; 0; 0])) ;; destination_muid x187) ;; Ok (Z.eqb 268435455 x188));
    (x191 <- (x190 <- (x189 <- (ci_view true (mkSx 0x7E0000 [127; 13; 112; 1; 68; 51; 34; 17; 127; 127; 127; 127; 0; 33; 9; 0; 48; 25; 0; 0; 0; 4; 0; 32; 0; 8; 0; 0])) ;; discovery_identity x189) ;; Ok (di_manufacturer x190)) ;; Ok (Z.eqb 8457 x191));
    (x193 <- (x192 <- (x189 <- (ci_view true (mkSx 0x7E0000 [127; 13; 112; 1; 68; 51; 34; 17; 127; 127; 127; 127; 0; 33; 9; 0; 48; 25; 0; 0; 0; 4; 0; 32; 0; 8; 0; 0])) ;; discovery_identity x189) ;; Ok (di_family x192)) ;; Ok (Z.eqb 6144 x193));
    (x195 <- (x194 <- (x189 <- (ci_view true (mkSx 0x7E0000 [127; 13; 112; 1; 68; 51; 34; 17; 127; 127; 127; 127; 0; 33; 9; 0; 48; 25; 0; 0; 0; 4; 0; 32; 0; 8; 0; 0])) ;; discovery_identity x189) ;; Ok (di_model x194)) ;; Ok (Z.eqb 25 x195));
    (x197 <- (x196 <- (x189 <- (ci_view true (mkSx 0x7E0000 [127; 13; 112; 1; 68; 51; 34; 17; 127; 127; 127; 127; 0; 33; 9; 0; 48; 25; 0; 0; 0; 4; 0; 32; 0; 8; 0; 0])) ;; discovery_identity x189) ;; Ok (di_revision x196)) ;; Ok (Z.eqb 65536 x197));
    (x199 <- (x198 <- (ci_view true (mkSx 0x7E0000 [127; 13; 112; 1; 68; 51; 34; 17; 127; 127; 127; 127; 0; 33; 9; 0; 48; 25; 0; 0; 0; 4; 0; 32; 0; 8; 0; 0])) ;; discovery_categories x198) ;; Ok (Z.eqb 32 x199));
    (x201 <- (x200 <- (ci_view true (mkSx 0x7E0000 [127; 13; 112; 1; 68; 51; 34; 17; 127; 127; 127; 127; 0; 33; 9; 0; 48; 25; 0; 0; 0; 4; 0; 32; 0; 8; 0; 0])) ;; discovery_maximum_message_size x200) ;; Ok (Z.eqb 1024 x201));
    (x203 <- (x202 <- (ci_view true (mkSx 0x7E0000 [127; 13; 112; 1; 68; 51; 34; 17; 127; 127; 127; 127; 0; 33; 9; 0; 48; 25; 0; 0; 0; 4; 0; 32; 0; 8; 0; 0])) ;; discovery_output_path_id x202) ;; Ok (Z.eqb 0 x203));
    (is_capability_inquiry_message (mkSx 0x7E0000 [127; 13; 112; 2; 68; 51; 34; 17; 127; 127; 127; 127; 0; 33; 9; 0; 48; 25; 0; 0; 0; 1; 0; 32; 0; 8; 0; 0; 17]));
    (discovery_inquiry_validate (mkSx 0x7E0000 [127; 13; 112; 2; 68; 51; 34; 17; 127; 127; 127; 127; 0; 33; 9; 0; 48; 25; 0; 0; 0; 1; 0; 32; 0; 8; 0; 0; 17]));
    (x205 <- (x204 <- (ci_view true (mkSx 0x7E0000 [127; 13; 112; 2; 68; 51; 34; 17; 127; 127; 127; 127; 0; 33; 9; 0; 48; 25; 0; 0; 0; 1; 0; 32; 0; 8; 0; 0; 17])) ;; view_device_id x204) ;; Ok (Z.eqb 127 x205));
    (x207 <- (x206 <- (ci_view true (mkSx 0x7E0000 [127; 13; 112; 2; 68; 51; 34; 17; 127; 127; 127; 127; 0; 33; 9; 0; 48; 25; 0; 0; 0; 1; 0; 32; 0; 8; 0; 0; 17])) ;; view_type x206) ;; Ok (Z.eqb 32269 x207));
    (x209 <- (x208 <- (ci_view true (mkSx 0x7E0000 [127; 13; 112; 2; 68; 51; 34; 17; 127; 127; 127; 127; 0; 33; 9; 0; 48; 25; 0; 0; 0; 1; 0; 32; 0; 8; 0; 0; 17])) ;; view_subtype x208) ;; Ok (Z.eqb 112 x209));
    (x211 <- (x210 <- (ci_view true (mkSx 0x7E0000 [127; 13; 112; 2; 68; 51; 34; 17; 127; 127; 127; 127; 0; 33; 9; 0; 48; 25; 0; 0; 0; 1; 0; 32; 0; 8; 0; 0; 17])) ;; message_version x210) ;; Ok (Z.eqb 2 x211));
    (x213 <- (x212 <- (ci_view true (mkSx 0x7E0000 [127; 13; 112; 2; 68; 51; 34; 17; 127; 127; 127; 127; 0; 33; 9; 0; 48; 25; 0; 0; 0; 1; 0; 32; 0; 8; 0; 0; 17])) ;; source_muid x212) ;; Ok (Z.eqb 36215236 x213));
    (x215 <- (x214 <- (ci_view true (mkSx 0x7E0000 [127; 13; 112; 2; 68; 51; 34; 17; 127; 127; 127; 127; 0; 33; 9; 0; 48; 25; 0; 0; 0; 1; 0; 32; 0; 8; 0; 0; 17])) ;; destination_muid x214) ;; Ok (Z.eqb 268435455 x215));
    (x218 <- (x217 <- (x216 <- (ci_view true (mkSx 0x7E0000 [127; 13; 112; 2; 68; 51; 34; 17; 127; 127; 127; 127; 0; 33; 9; 0; 48; 25; 0; 0; 0; 1; 0; 32; 0; 8; 0; 0; 17])) ;; discovery_identity x216) ;; Ok (di_manufacturer x217)) ;; Ok (Z.eqb 8457 x218));
    (x220 <- (x219 <- (x216 <- (ci_view true (mkSx 0x7E0000 [127; 13; 112; 2; 68; 51; 34; 17; 127; 127; 127; 127; 0; 33; 9; 0; 48; 25; 0; 0; 0; 1; 0; 32; 0; 8; 0; 0; 17])) ;; discovery_identity x216) ;; Ok (di_family x219)) ;; Ok (Z.eqb 6144 x220));
    (x222 <- (x221 <- (x216 <- (ci_view true (mkSx 0x7E0000 [127; 13; 112; 2; 68; 51; 34; 17; 127; 127; 127; 127; 0; 33; 9; 0; 48; 25; 0; 0; 0; 1; 0; 32; 0; 8; 0; 0; 17])) ;; discovery_identity x216) ;; Ok (di_model x221)) ;; Ok (Z.eqb 25 x222));
    (x224 <- (x223 <- (x216 <- (ci_view true (mkSx 0x7E0000 [127; 13; 112; 2; 68; 51; 34; 17; 127; 127; 127; 127; 0; 33; 9; 0; 48; 25; 0; 0; 0; 1; 0; 32; 0; 8; 0; 0; 17])) ;; discovery_identity x216) ;; Ok (di_revision x223)) ;; Ok (Z.eqb 16384 x224));
    (x226 <- (x225 <- (ci_view true (mkSx 0x7E0000 [127; 13; 112; 2; 68; 51; 34; 17; 127; 127; 127; 127; 0; 33; 9; 0; 48; 25; 0; 0; 0; 1; 0; 32; 0; 8; 0; 0; 17])) ;; discovery_categories x225) ;; Ok (Z.eqb 32 x226));
    (x228 <- (x227 <- (ci_view true (mkSx 0x7E0000 [127; 13; 112; 2; 68; 51; 34; 17; 127; 127; 127; 127; 0; 33; 9; 0; 48; 25; 0; 0; 0; 1; 0; 32; 0; 8; 0; 0; 17])) ;; discovery_maximum_message_size x227) ;; Ok (Z.eqb 1024 x228));
    (x230 <- (x229 <- (ci_view true (mkSx 0x7E0000 [127; 13; 112; 2; 68; 51; 34; 17; 127; 127; 127; 127; 0; 33; 9; 0; 48; 25; 0; 0; 0; 1; 0; 32; 0; 8; 0; 0; 17])) ;; discovery_output_path_id x229) ;; Ok (Z.eqb 17 x230));
    (b_ <- (discovery_inquiry_validate (mkSx 0x7E0000 [127; 13; 113; 1; 68; 51; 34; 17; 127; 127; 127; 127; 0; 33; 9; 0; 24; 25; 0; 0; 0; 1; 0; 32; 0; 8; 0; 0])) ;; Ok (negb b_))].
Proof. vm_compute. repeat constructor. Qed.

(* line 509 *)
Example test_discovery_inquiry : all_true [
    (x232 <- (x231 <- (make_discovery_inquiry true 37966949 (mkDevId 8457 5936 49 65541) 12 766 0) ;; Ok (dsize x231)) ;; Ok (Z.eqb 29 x232));
    (x233 <- (make_discovery_inquiry true 37966949 (mkDevId 8457 5936 49 65541) 12 766 0) ;; is_capability_inquiry_message x233);
    (x234 <- (make_discovery_inquiry true 37966949 (mkDevId 8457 5936 49 65541) 12 766 0) ;; discovery_inquiry_validate x234);
    (x236 <- (x235 <- (make_discovery_inquiry true 37966949 (mkDevId 8457 5936 49 65541) 12 766 0) ;; as_view true discovery_inquiry_validate x235) ;; Ok (opt_some x236));
    (x239 <- (x238 <- (x237 <- (make_discovery_inquiry true 37966949 (mkDevId 8457 5936 49 65541) 12 766 0) ;; ci_view true x237) ;; view_device_id x238) ;; Ok (Z.eqb 127 x239));
    (x241 <- (x240 <- (x237 <- (make_discovery_inquiry true 37966949 (mkDevId 8457 5936 49 65541) 12 766 0) ;; ci_view true x237) ;; view_type x240) ;; Ok (Z.eqb 32269 x241));
    (x243 <- (x242 <- (x237 <- (make_discovery_inquiry true 37966949 (mkDevId 8457 5936 49 65541) 12 766 0) ;; ci_view true x237) ;; view_subtype x242) ;; Ok (Z.eqb 112 x243));
    (x245 <- (x244 <- (x237 <- (make_discovery_inquiry true 37966949 (mkDevId 8457 5936 49 65541) 12 766 0) ;; ci_view true x237) ;; message_version x244) ;; Ok (Z.eqb 2 x245));
    (x247 <- (x246 <- (x237 <- (make_discovery_inquiry true 37966949 (mkDevId 8457 5936 49 65541) 12 766 0) ;; ci_view true x237) ;; source_muid x246) ;; Ok (Z.eqb 37966949 x247));
    (x249 <- (x248 <- (x237 <- (make_discovery_inquiry true 37966949 (mkDevId 8457 5936 49 65541) 12 766 0) ;; ci_view true x237) ;; destination_muid x248) ;; Ok (Z.eqb 268435455 x249));
    (x251 <- (x250 <- (x237 <- (make_discovery_inquiry true 37966949 (mkDevId 8457 5936 49 65541) 12 766 0) ;; ci_view true x237) ;; discovery_identity x250) ;; Ok (ident_eqb (mkDevId 8457 5936 49 65541) x251));
    (x253 <- (x252 <- (x237 <- (make_discovery_inquiry true 37966949 (mkDevId 8457 5936 49 65541) 12 766 0) ;; ci_view true x237) ;; discovery_categories x252) ;; Ok (Z.eqb 12 x253));
    (x255 <- (x254 <- (x237 <- (make_discovery_inquiry true 37966949 (mkDevId 8457 5936 49 65541) 12 766 0) ;; ci_view true x237) ;; discovery_maximum_message_size x254) ;; Ok (Z.eqb 766 x255));
    (x257 <- (x256 <- (x237 <- (make_discovery_inquiry true 37966949 (mkDevId 8457 5936 49 65541) 12 766 0) ;; ci_view true x237) ;; discovery_output_path_id x256) ;; Ok (Z.eqb 0 x257))].
Proof. vm_compute. repeat constructor. Qed.

(* line 549 *)
Example test_make_discovery_inquiry_v1 : all_true [
    (x258 <- (make_discovery_inquiry_v1 true 37966949 (mkDevId 8457 5936 49 65541) 12 766) ;; is_capability_inquiry_message x258);
    (x259 <- (make_discovery_inquiry_v1 true 37966949 (mkDevId 8457 5936 49 65541) 12 766) ;; discovery_inquiry_validate x259);
    (x262 <- (x261 <- (x260 <- (make_discovery_inquiry_v1 true 37966949 (mkDevId 8457 5936 49 65541) 12 766) ;; ci_view true x260) ;; view_device_id x261) ;; Ok (Z.eqb 127 x262));
    (x264 <- (x263 <- (x260 <- (make_discovery_inquiry_v1 true 37966949 (mkDevId 8457 5936 49 65541) 12 766) ;; ci_view true x260) ;; view_type x263) ;; Ok (Z.eqb 32269 x264));
    (x266 <- (x265 <- (x260 <- (make_discovery_inquiry_v1 true 37966949 (mkDevId 8457 5936 49 65541) 12 766) ;; ci_view true x260) ;; view_subtype x265) ;; Ok (Z.eqb 112 x266));
    (x268 <- (x267 <- (x260 <- (make_discovery_inquiry_v1 true 37966949 (mkDevId 8457 5936 49 65541) 12 766) ;; ci_view true x260) ;; message_version x267) ;; Ok (Z.eqb 1 x268));
    (x270 <- (x269 <- (x260 <- (make_discovery_inquiry_v1 true 37966949 (mkDevId 8457 5936 49 65541) 12 766) ;; ci_view true x260) ;; source_muid x269) ;; Ok (Z.eqb 37966949 x270));
    (x272 <- (x271 <- (x260 <- (make_discovery_inquiry_v1 true 37966949 (mkDevId 8457 5936 49 65541) 12 766) ;; ci_view true x260) ;; destination_muid x271) ;; Ok (Z.eqb 268435455 x272));
    (x274 <- (x273 <- (x260 <- (make_discovery_inquiry_v1 true 37966949 (mkDevId 8457 5936 49 65541) 12 766) ;; ci_view true x260) ;; discovery_identity x273) ;; Ok (ident_eqb (mkDevId 8457 5936 49 65541) x274));
    (x276 <- (x275 <- (x260 <- (make_discovery_inquiry_v1 true 37966949 (mkDevId 8457 5936 49 65541) 12 766) ;; ci_view true x260) ;; discovery_categories x275) ;; Ok (Z.eqb 12 x276));
    (x278 <- (x277 <- (x260 <- (make_discovery_inquiry_v1 true 37966949 (mkDevId 8457 5936 49 65541) 12 766) ;; ci_view true x260) ;; discovery_maximum_message_size x277) ;; Ok (Z.eqb 766 x278))].
Proof. vm_compute. repeat constructor. Qed.

(* line 583 *)
Example test_discovery_reply_view : all_true [
    (is_capability_inquiry_message (mkSx 0x7E0000 [127; 13; 113; 1; 119; 85; 51; 17; 68; 51; 34; 17; 0; 33; 9; 1; 24; 25; 4; 1; 2; 4; 8; 32; 0; 8; 0; 0]));
    (discovery_reply_validate (mkSx 0x7E0000 [127; 13; 113; 1; 119; 85; 51; 17; 68; 51; 34; 17; 0; 33; 9; 1; 24; 25; 4; 1; 2; 4; 8; 32; 0; 8; 0; 0]));
    (x279 <- (as_view true discovery_reply_validate (mkSx 0x7E0000 [127; 13; 113; 1; 119; 85; 51; 17; 68; 51; 34; 17; 0; 33; 9; 1; 24; 25; 4; 1; 2; 4; 8; 32; 0; 8; 0; 0])) ;; Ok (opt_some x279));
    (x281 <- (x280 <- (ci_view true (mkSx 0x7E0000 [127; 13; 113; 1; 119; 85; 51; 17; 68; 51; 34; 17; 0; 33; 9; 1; 24; 25; 4; 1; 2; 4; 8; 32; 0; 8; 0; 0])) ;; view_device_id x280) ;; Ok (Z.eqb 127 x281));
    (x283 <- (x282 <- (ci_view true (mkSx 0x7E0000 [127; 13; 113; 1; 119; 85; 51; 17; 68; 51; 34; 17; 0; 33; 9; 1; 24; 25; 4; 1; 2; 4; 8; 32; 0; 8; 0; 0])) ;; view_type x282) ;; Ok (Z.eqb 32269 x283));
    (x285 <- (x284 <- (ci_view true (mkSx 0x7E0000 [127; 13; 113; 1; 119; 85; 51; 17; 68; 51; 34; 17; 0; 33; 9; 1; 24; 25; 4; 1; 2; 4; 8; 32; 0; 8; 0; 0])) ;; view_subtype x284) ;; Ok (Z.eqb 113 x285));
    (x287 <- (x286 <- (ci_view true (mkSx 0x7E0000 [127; 13; 113; 1; 119; 85; 51; 17; 68; 51; 34; 17; 0; 33; 9; 1; 24; 25; 4; 1; 2; 4; 8; 32; 0; 8; 0; 0])) ;; message_version x286) ;; Ok (Z.eqb 1 x287));
    (x289 <- (x288 <- (ci_view true (mkSx 0x7E0000 [127; 13; 113; 1; 119; 85; 51; 17; 68; 51; 34; 17; 0; 33; 9; 1; 24; 25; 4; 1; 2; 4; 8; 32; 0; 8; 0; 0])) ;; source_muid x288) ;; Ok (Z.eqb 36498167 x289));
    (x291 <- (x290 <- (ci_view true (mkSx 0x7E0000 [127; 13; 113; 1; 119; 85; 51; 17; 68; 51; 34; 17; 0; 33; 9; 1; 24; 25; 4; 1; 2; 4; 8; 32; 0; 8; 0; 0])) ;; destination_muid x290) ;; Ok (Z.eqb 36215236 x291));
    (x294 <- (x293 <- (x292 <- (ci_view true (mkSx 0x7E0000 [127; 13; 113; 1; 119; 85; 51; 17; 68; 51; 34; 17; 0; 33; 9; 1; 24; 25; 4; 1; 2; 4; 8; 32; 0; 8; 0; 0])) ;; discovery_identity x292) ;; Ok (di_manufacturer x293)) ;; Ok (Z.eqb 8457 x294));
    (x296 <- (x295 <- (x292 <- (ci_view true (mkSx 0x7E0000 [127; 13; 113; 1; 119; 85; 51; 17; 68; 51; 34; 17; 0; 33; 9; 1; 24; 25; 4; 1; 2; 4; 8; 32; 0; 8; 0; 0])) ;; discovery_identity x292) ;; Ok (di_family x295)) ;; Ok (Z.eqb 3073 x296));
    (x298 <- (x297 <- (x292 <- (ci_view true (mkSx 0x7E0000 [127; 13; 113; 1; 119; 85; 51; 17; 68; 51; 34; 17; 0; 33; 9; 1; 24; 25; 4; 1; 2; 4; 8; 32; 0; 8; 0; 0])) ;; discovery_identity x292) ;; Ok (di_model x297)) ;; Ok (Z.eqb 537 x298));
    (x300 <- (x299 <- (x292 <- (ci_view true (mkSx 0x7E0000 [127; 13; 113; 1; 119; 85; 51; 17; 68; 51; 34; 17; 0; 33; 9; 1; 24; 25; 4; 1; 2; 4; 8; 32; 0; 8; 0; 0])) ;; discovery_identity x292) ;; Ok (di_revision x299)) ;; Ok (Z.eqb 16843009 x300));
    (x302 <- (x301 <- (ci_view true (mkSx 0x7E0000 [127; 13; 113; 1; 119; 85; 51; 17; 68; 51; 34; 17; 0; 33; 9; 1; 24; 25; 4; 1; 2; 4; 8; 32; 0; 8; 0; 0])) ;; discovery_categories x301) ;; Ok (Z.eqb 32 x302));
    (x304 <- (x303 <- (ci_view true (mkSx 0x7E0000 [127; 13; 113; 1; 119; 85; 51; 17; 68; 51; 34; 17; 0; 33; 9; 1; 24; 25; 4; 1; 2; 4; 8; 32; 0; 8; 0; 0])) ;; discovery_maximum_message_size x303) ;; Ok (Z.eqb 1024 x304));
    (x306 <- (x305 <- (ci_view true (mkSx 0x7E0000 [127; 13; 113; 1; 119; 85; 51; 17; 68; 51; 34; 17; 0; 33; 9; 1; 24; 25; 4; 1; 2; 4; 8; 32; 0; 8; 0; 0])) ;; discovery_output_path_id x305) ;; Ok (Z.eqb 0 x306));
    (x308 <- (x307 <- (ci_view true (mkSx 0x7E0000 [127; 13; 113; 1; 119; 85; 51; 17; 68; 51; 34; 17; 0; 33; 9; 1; 24; 25; 4; 1; 2; 4; 8; 32; 0; 8; 0; 0])) ;; discovery_function_block x307) ;; Ok (Z.eqb 127 x308));
    (is_capability_inquiry_message (mkSx 0x7E0000 [127; 13; 113; 2; 119; 85; 51; 17; 68; 51; 34; 17; 0; 33; 9; 16; 48; 25; 0; 0; 0; 2; 0; 32; 0; 8; 0; 0; 119; 2]));
    (discovery_reply_validate (mkSx 0x7E0000 [127; 13; 113; 2; 119; 85; 51; 17; 68; 51; 34; 17; 0; 33; 9; 16; 48; 25; 0; 0; 0; 2; 0; 32; 0; 8; 0; 0; 119; 2]));
    (x309 <- (as_view true discovery_reply_validate (mkSx 0x7E0000 [127; 13; 113; 2; 119; 85; 51; 17; 68; 51; 34; 17; 0; 33; 9; 16; 48; 25; 0; 0; 0; 2; 0; 32; 0; 8; 0; 0; 119; 2])) ;; Ok (opt_some x309));
    (x311 <- (x310 <- (ci_view true (mkSx 0x7E0000 [127; 13; 113; 2; 119; 85; 51; 17; 68; 51; 34; 17; 0; 33; 9; 16; 48; 25; 0; 0; 0; 2; 0; 32; 0; 8; 0; 0; 119; 2])) ;; view_device_id x310) ;; Ok (Z.eqb 127 x311));
    (x313 <- (x312 <- (ci_view true (mkSx 0x7E0000 [127; 13; 113; 2; 119; 85; 51; 17; 68; 51; 34; 17; 0; 33; 9; 16; 48; 25; 0; 0; 0; 2; 0; 32; 0; 8; 0; 0; 119; 2])) ;; view_type x312) ;; Ok (Z.eqb 32269 x313));
    (x315 <- (x314 <- (ci_view true (mkSx 0x7E0000 [127; 13; 113; 2; 119; 85; 51; 17; 68; 51; 34; 17; 0; 33; 9; 16; 48; 25; 0; 0; 0; 2; 0; 32; 0; 8; 0; 0; 119; 2])) ;; view_subtype x314) ;; Ok (Z.eqb 113 x315));
    (x317 <- (x316 <- (ci_view true (mkSx 0x7E0000 [127; 13; 113; 2; 119; 85; 51; 17; 68; 51; 34; 17; 0; 33; 9; 16; 48; 25; 0; 0; 0; 2; 0; 32; 0; 8; 0; 0; 119; 2])) ;; message_version x316) ;; Ok (Z.eqb 2 x317));
    (x319 <- (x318 <- (ci_view true (mkSx 0x7E0000 [127; 13; 113; 2; 119; 85; 51; 17; 68; 51; 34; 17; 0; 33; 9; 16; 48; 25; 0; 0; 0; 2; 0; 32; 0; 8; 0; 0; 119; 2])) ;; source_muid x318) ;; Ok (Z.eqb 36498167 x319));
    (x321 <- (x320 <- (ci_view true (mkSx 0x7E0000 [127; 13; 113; 2; 119; 85; 51; 17; 68; 51; 34; 17; 0; 33; 9; 16; 48; 25; 0; 0; 0; 2; 0; 32; 0; 8; 0; 0; 119; 2])) ;; destination_muid x320) ;; Ok (Z.eqb 36215236 x321));
    (x324 <- (x323 <- (x322 <- (ci_view true (mkSx 0x7E0000 [127; 13; 113; 2; 119; 85; 51; 17; 68; 51; 34; 17; 0; 33; 9; 16; 48; 25; 0; 0; 0; 2; 0; 32; 0; 8; 0; 0; 119; 2])) ;; discovery_identity x322) ;; Ok (di_manufacturer x323)) ;; Ok (Z.eqb 8457 x324));
    (x326 <- (x325 <- (x322 <- (ci_view true (mkSx 0x7E0000 [127; 13; 113; 2; 119; 85; 51; 17; 68; 51; 34; 17; 0; 33; 9; 16; 48; 25; 0; 0; 0; 2; 0; 32; 0; 8; 0; 0; 119; 2])) ;; discovery_identity x322) ;; Ok (di_family x325)) ;; Ok (Z.eqb 6160 x326));
    (x328 <- (x327 <- (x322 <- (ci_view true (mkSx 0x7E0000 [127; 13; 113; 2; 119; 85; 51; 17; 68; 51; 34; 17; 0; 33; 9; 16; 48; 25; 0; 0; 0; 2; 0; 32; 0; 8; 0; 0; 119; 2])) ;; discovery_identity x322) ;; Ok (di_model x327)) ;; Ok (Z.eqb 25 x328));
    (x330 <- (x329 <- (x322 <- (ci_view true (mkSx 0x7E0000 [127; 13; 113; 2; 119; 85; 51; 17; 68; 51; 34; 17; 0; 33; 9; 16; 48; 25; 0; 0; 0; 2; 0; 32; 0; 8; 0; 0; 119; 2])) ;; discovery_identity x322) ;; Ok (di_revision x329)) ;; Ok (Z.eqb 32768 x330));
    (x332 <- (x331 <- (ci_view true (mkSx 0x7E0000 [127; 13; 113; 2; 119; 85; 51; 17; 68; 51; 34; 17; 0; 33; 9; 16; 48; 25; 0; 0; 0; 2; 0; 32; 0; 8; 0; 0; 119; 2])) ;; discovery_categories x331) ;; Ok (Z.eqb 32 x332));
    (x334 <- (x333 <- (ci_view true (mkSx 0x7E0000 [127; 13; 113; 2; 119; 85; 51; 17; 68; 51; 34; 17; 0; 33; 9; 16; 48; 25; 0; 0; 0; 2; 0; 32; 0; 8; 0; 0; 119; 2])) ;; discovery_maximum_message_size x333) ;; Ok (Z.eqb 1024 x334));
    (x336 <- (x335 <- (ci_view true (mkSx 0x7E0000 [127; 13; 113; 2; 119; 85; 51; 17; 68; 51; 34; 17; 0; 33; 9; 16; 48; 25; 0; 0; 0; 2; 0; 32; 0; 8; 0; 0; 119; 2])) ;; discovery_output_path_id x335) ;; Ok (Z.eqb 119 x336));
    (x338 <- (x337 <- (ci_view true (mkSx 0x7E0000 [127; 13; 113; 2; 119; 85; 51; 17; 68; 51; 34; 17; 0; 33; 9; 16; 48; 25; 0; 0; 0; 2; 0; 32; 0; 8; 0; 0; 119; 2])) ;; discovery_function_block x337) ;; Ok (Z.eqb 2 x338));
    (b_ <- (discovery_reply_validate (mkSx 0x7E0000 [127; 13; 112; 1; 119; 85; 51; 17; 68; 51; 34; 17; 0; 33; 9; 0; 24; 25; 0; 0; 0; 1; 0; 32; 0; 8; 0; 0; 1; 2])) ;; Ok (negb b_));
    (b_ <- (x339 <- (as_view true discovery_reply_validate (mkSx 0x7E0000 [127; 13; 112; 1; 119; 85; 51; 17; 68; 51; 34; 17; 0; 33; 9; 0; 24; 25; 0; 0; 0; 1; 0; 32; 0; 8; 0; 0; 1; 2])) ;; Ok (opt_some x339)) ;; Ok (negb b_))].
Proof. vm_compute. repeat constructor. Qed.

(* line 662 *)
Example test_discovery_reply : all_true [
    (x341 <- (x340 <- (make_discovery_reply true 54809958 37966949 (mkDevId 8457 5936 61 65541) 1 256 84 127) ;; Ok (dsize x340)) ;; Ok (Z.eqb 30 x341));
    (x342 <- (make_discovery_reply true 54809958 37966949 (mkDevId 8457 5936 61 65541) 1 256 84 127) ;; is_capability_inquiry_message x342);
    (x343 <- (make_discovery_reply true 54809958 37966949 (mkDevId 8457 5936 61 65541) 1 256 84 127) ;; discovery_reply_validate x343);
    (x345 <- (x344 <- (make_discovery_reply true 54809958 37966949 (mkDevId 8457 5936 61 65541) 1 256 84 127) ;; as_view true discovery_reply_validate x344) ;; Ok (opt_some x345));
    (x348 <- (x347 <- (x346 <- (make_discovery_reply true 54809958 37966949 (mkDevId 8457 5936 61 65541) 1 256 84 127) ;; ci_view true x346) ;; view_device_id x347) ;; Ok (Z.eqb 127 x348));
    (x350 <- (x349 <- (x346 <- (make_discovery_reply true 54809958 37966949 (mkDevId 8457 5936 61 65541) 1 256 84 127) ;; ci_view true x346) ;; view_type x349) ;; Ok (Z.eqb 32269 x350));
    (x352 <- (x351 <- (x346 <- (make_discovery_reply true 54809958 37966949 (mkDevId 8457 5936 61 65541) 1 256 84 127) ;; ci_view true x346) ;; view_subtype x351) ;; Ok (Z.eqb 113 x352));
    (x354 <- (x353 <- (x346 <- (make_discovery_reply true 54809958 37966949 (mkDevId 8457 5936 61 65541) 1 256 84 127) ;; ci_view true x346) ;; message_version x353) ;; Ok (Z.eqb 2 x354));
    (x356 <- (x355 <- (x346 <- (make_discovery_reply true 54809958 37966949 (mkDevId 8457 5936 61 65541) 1 256 84 127) ;; ci_view true x346) ;; discovery_identity x355) ;; Ok (ident_eqb (mkDevId 8457 5936 61 65541) x356));
    (x358 <- (x357 <- (x346 <- (make_discovery_reply true 54809958 37966949 (mkDevId 8457 5936 61 65541) 1 256 84 127) ;; ci_view true x346) ;; source_muid x357) ;; Ok (Z.eqb 54809958 x358));
    (x360 <- (x359 <- (x346 <- (make_discovery_reply true 54809958 37966949 (mkDevId 8457 5936 61 65541) 1 256 84 127) ;; ci_view true x346) ;; destination_muid x359) ;; Ok (Z.eqb 37966949 x360));
    (x362 <- (x361 <- (x346 <- (make_discovery_reply true 54809958 37966949 (mkDevId 8457 5936 61 65541) 1 256 84 127) ;; ci_view true x346) ;; discovery_categories x361) ;; Ok (Z.eqb 1 x362));
    (x364 <- (x363 <- (x346 <- (make_discovery_reply true 54809958 37966949 (mkDevId 8457 5936 61 65541) 1 256 84 127) ;; ci_view true x346) ;; discovery_maximum_message_size x363) ;; Ok (Z.eqb 256 x364));
    (x366 <- (x365 <- (x346 <- (make_discovery_reply true 54809958 37966949 (mkDevId 8457 5936 61 65541) 1 256 84 127) ;; ci_view true x346) ;; discovery_output_path_id x365) ;; Ok (Z.eqb 84 x366))].
Proof. vm_compute. repeat constructor. Qed.

(* line 703 *)
Example test_make_discovery_reply_v1 : all_true [
    (x368 <- (x367 <- (make_discovery_reply_v1 true 54809958 37966949 (mkDevId 8457 5936 61 65541) 1 256) ;; Ok (dsize x367)) ;; Ok (Z.eqb 28 x368));
    (x369 <- (make_discovery_reply_v1 true 54809958 37966949 (mkDevId 8457 5936 61 65541) 1 256) ;; is_capability_inquiry_message x369);
    (x370 <- (make_discovery_reply_v1 true 54809958 37966949 (mkDevId 8457 5936 61 65541) 1 256) ;; discovery_reply_validate x370);
    (x373 <- (x372 <- (x371 <- (make_discovery_reply_v1 true 54809958 37966949 (mkDevId 8457 5936 61 65541) 1 256) ;; ci_view true x371) ;; view_device_id x372) ;; Ok (Z.eqb 127 x373));
    (x375 <- (x374 <- (x371 <- (make_discovery_reply_v1 true 54809958 37966949 (mkDevId 8457 5936 61 65541) 1 256) ;; ci_view true x371) ;; view_type x374) ;; Ok (Z.eqb 32269 x375));
    (x377 <- (x376 <- (x371 <- (make_discovery_reply_v1 true 54809958 37966949 (mkDevId 8457 5936 61 65541) 1 256) ;; ci_view true x371) ;; view_subtype x376) ;; Ok (Z.eqb 113 x377));
    (x379 <- (x378 <- (x371 <- (make_discovery_reply_v1 true 54809958 37966949 (mkDevId 8457 5936 61 65541) 1 256) ;; ci_view true x371) ;; message_version x378) ;; Ok (Z.eqb 1 x379));
    (x381 <- (x380 <- (x371 <- (make_discovery_reply_v1 true 54809958 37966949 (mkDevId 8457 5936 61 65541) 1 256) ;; ci_view true x371) ;; discovery_identity x380) ;; Ok (ident_eqb (mkDevId 8457 5936 61 65541) x381));
    (x383 <- (x382 <- (x371 <- (make_discovery_reply_v1 true 54809958 37966949 (mkDevId 8457 5936 61 65541) 1 256) ;; ci_view true x371) ;; source_muid x382) ;; Ok (Z.eqb 54809958 x383));
    (x385 <- (x384 <- (x371 <- (make_discovery_reply_v1 true 54809958 37966949 (mkDevId 8457 5936 61 65541) 1 256) ;; ci_view true x371) ;; destination_muid x384) ;; Ok (Z.eqb 37966949 x385));
    (x387 <- (x386 <- (x371 <- (make_discovery_reply_v1 true 54809958 37966949 (mkDevId 8457 5936 61 65541) 1 256) ;; ci_view true x371) ;; discovery_categories x386) ;; Ok (Z.eqb 1 x387));
    (x389 <- (x388 <- (x371 <- (make_discovery_reply_v1 true 54809958 37966949 (mkDevId 8457 5936 61 65541) 1 256) ;; ci_view true x371) ;; discovery_maximum_message_size x388) ;; Ok (Z.eqb 256 x389));
    (x391 <- (x390 <- (x371 <- (make_discovery_reply_v1 true 54809958 37966949 (mkDevId 8457 5936 61 65541) 1 256) ;; ci_view true x371) ;; discovery_output_path_id x390) ;; Ok (Z.eqb 0 x391))].
Proof. vm_compute. repeat constructor. Qed.

(* line 740 *)
Example test_endpoint_information_inquiry_view : all_true [
    (is_capability_inquiry_message (mkSx 0x7E0000 [127; 13; 114; 2; 119; 85; 51; 17; 68; 51; 34; 17; 0]));
    (endpoint_inquiry_validate (mkSx 0x7E0000 [127; 13; 114; 2; 119; 85; 51; 17; 68; 51; 34; 17; 0]));
    (x392 <- (as_view true endpoint_inquiry_validate (mkSx 0x7E0000 [127; 13; 114; 2; 119; 85; 51; 17; 68; 51; 34; 17; 0])) ;; Ok (opt_some x392));
    (x394 <- (x393 <- (ci_view true (mkSx 0x7E0000 [127; 13; 114; 2; 119; 85; 51; 17; 68; 51; 34; 17; 0])) ;; view_device_id x393) ;; Ok (Z.eqb 127 x394));
    (x396 <- (x395 <- (ci_view true (mkSx 0x7E0000 [127; 13; 114; 2; 119; 85; 51; 17; 68; 51; 34; 17; 0])) ;; view_type x395) ;; Ok (Z.eqb 32269 x396));
    (x398 <- (x397 <- (ci_view true (mkSx 0x7E0000 [127; 13; 114; 2; 119; 85; 51; 17; 68; 51; 34; 17; 0])) ;; view_subtype x397) ;; Ok (Z.eqb 114 x398));
    (x400 <- (x399 <- (ci_view true (mkSx 0x7E0000 [127; 13; 114; 2; 119; 85; 51; 17; 68; 51; 34; 17; 0])) ;; message_version x399) ;; Ok (Z.eqb 2 x400));
    (x402 <- (x401 <- (ci_view true (mkSx 0x7E0000 [127; 13; 114; 2; 119; 85; 51; 17; 68; 51; 34; 17; 0])) ;; source_muid x401) ;; Ok (Z.eqb 36498167 x402));
    (x404 <- (x403 <- (ci_view true (mkSx 0x7E0000 [127; 13; 114; 2; 119; 85; 51; 17; 68; 51; 34; 17; 0])) ;; destination_muid x403) ;; Ok (Z.eqb 36215236 x404));
    (x406 <- (x405 <- (ci_view true (mkSx 0x7E0000 [127; 13; 114; 2; 119; 85; 51; 17; 68; 51; 34; 17; 0])) ;; endpoint_inquiry_status x405) ;; Ok (Z.eqb 0 x406));
    (b_ <- (endpoint_inquiry_validate (mkSx 0x7E0000 [127; 13; 115; 2; 119; 85; 51; 17; 68; 51; 34; 17; 0])) ;; Ok (negb b_));
    (b_ <- (x407 <- (as_view true endpoint_inquiry_validate (mkSx 0x7E0000 [127; 13; 115; 2; 119; 85; 51; 17; 68; 51; 34; 17; 0])) ;; Ok (opt_some x407)) ;; Ok (negb b_));
    (b_ <- (endpoint_inquiry_validate (mkSx 0x7E0000 [127; 13; 114; 2; 119; 85; 51; 17; 68; 51; 34; 17])) ;; Ok (negb b_));
    (b_ <- (x408 <- (as_view true endpoint_inquiry_validate (mkSx 0x7E0000 [127; 13; 114; 2; 119; 85; 51; 17; 68; 51; 34; 17])) ;; Ok (opt_some x408)) ;; Ok (negb b_))].
Proof. vm_compute. repeat constructor. Qed.

(* line 785 *)
Example test_make_endpoint_information_inquiry : all_true [
    (x409 <- (make_endpoint_information_inquiry true 54809958 37966949 34) ;; is_capability_inquiry_message x409);
    (x410 <- (make_endpoint_information_inquiry true 54809958 37966949 34) ;; endpoint_inquiry_validate x410);
    (x412 <- (x411 <- (make_endpoint_information_inquiry true 54809958 37966949 34) ;; Ok (dsize x411)) ;; Ok (Z.eqb 13 x412));
    (x415 <- (x414 <- (x413 <- (make_endpoint_information_inquiry true 54809958 37966949 34) ;; ci_view true x413) ;; view_device_id x414) ;; Ok (Z.eqb 127 x415));
    (x417 <- (x416 <- (x413 <- (make_endpoint_information_inquiry true 54809958 37966949 34) ;; ci_view true x413) ;; view_type x416) ;; Ok (Z.eqb 32269 x417));
    (x419 <- (x418 <- (x413 <- (make_endpoint_information_inquiry true 54809958 37966949 34) ;; ci_view true x413) ;; view_subtype x418) ;; Ok (Z.eqb 114 x419));
    (x421 <- (x420 <- (x413 <- (make_endpoint_information_inquiry true 54809958 37966949 34) ;; ci_view true x413) ;; message_version x420) ;; Ok (Z.eqb 2 x421));
    (x423 <- (x422 <- (x413 <- (make_endpoint_information_inquiry true 54809958 37966949 34) ;; ci_view true x413) ;; source_muid x422) ;; Ok (Z.eqb 54809958 x423));
    (x425 <- (x424 <- (x413 <- (make_endpoint_information_inquiry true 54809958 37966949 34) ;; ci_view true x413) ;; destination_muid x424) ;; Ok (Z.eqb 37966949 x425));
    (x427 <- (x426 <- (x413 <- (make_endpoint_information_inquiry true 54809958 37966949 34) ;; ci_view true x413) ;; endpoint_inquiry_status x426) ;; Ok (Z.eqb 34 x427))].
Proof. vm_compute. repeat constructor. Qed.

(* line 817 *)
Example test_endpoint_information_reply_view : all_true [
    (is_capability_inquiry_message (mkSx 0x7E0000 [127; 13; 115; 2; 119; 85; 51; 17; 68; 51; 34; 17; 0; 5; 0; 113; 98; 83; 68; 53]));
    (endpoint_reply_validate (mkSx 0x7E0000 [127; 13; 115; 2; 119; 85; 51; 17; 68; 51; 34; 17; 0; 5; 0; 113; 98; 83; 68; 53]));
    (x428 <- (as_view true endpoint_reply_validate (mkSx 0x7E0000 [127; 13; 115; 2; 119; 85; 51; 17; 68; 51; 34; 17; 0; 5; 0; 113; 98; 83; 68; 53])) ;; Ok (opt_some x428));
    (x430 <- (x429 <- (ci_view true (mkSx 0x7E0000 [127; 13; 115; 2; 119; 85; 51; 17; 68; 51; 34; 17; 0; 5; 0; 113; 98; 83; 68; 53])) ;; view_device_id x429) ;; Ok (Z.eqb 127 x430));
    (x432 <- (x431 <- (ci_view true (mkSx 0x7E0000 [127; 13; 115; 2; 119; 85; 51; 17; 68; 51; 34; 17; 0; 5; 0; 113; 98; 83; 68; 53])) ;; view_type x431) ;; Ok (Z.eqb 32269 x432));
    (x434 <- (x433 <- (ci_view true (mkSx 0x7E0000 [127; 13; 115; 2; 119; 85; 51; 17; 68; 51; 34; 17; 0; 5; 0; 113; 98; 83; 68; 53])) ;; view_subtype x433) ;; Ok (Z.eqb 115 x434));
    (x436 <- (x435 <- (ci_view true (mkSx 0x7E0000 [127; 13; 115; 2; 119; 85; 51; 17; 68; 51; 34; 17; 0; 5; 0; 113; 98; 83; 68; 53])) ;; message_version x435) ;; Ok (Z.eqb 2 x436));
    (x438 <- (x437 <- (ci_view true (mkSx 0x7E0000 [127; 13; 115; 2; 119; 85; 51; 17; 68; 51; 34; 17; 0; 5; 0; 113; 98; 83; 68; 53])) ;; source_muid x437) ;; Ok (Z.eqb 36498167 x438));
    (x440 <- (x439 <- (ci_view true (mkSx 0x7E0000 [127; 13; 115; 2; 119; 85; 51; 17; 68; 51; 34; 17; 0; 5; 0; 113; 98; 83; 68; 53])) ;; destination_muid x439) ;; Ok (Z.eqb 36215236 x440));
    (x442 <- (x441 <- (ci_view true (mkSx 0x7E0000 [127; 13; 115; 2; 119; 85; 51; 17; 68; 51; 34; 17; 0; 5; 0; 113; 98; 83; 68; 53])) ;; endpoint_reply_status x441) ;; Ok (Z.eqb 0 x442));
    (x444 <- (x443 <- (ci_view true (mkSx 0x7E0000 [127; 13; 115; 2; 119; 85; 51; 17; 68; 51; 34; 17; 0; 5; 0; 113; 98; 83; 68; 53])) ;; information_data_length x443) ;; Ok (Z.eqb 5 x444));
    (x447 <- (x446 <- (x445 <- (ci_view true (mkSx 0x7E0000 [127; 13; 115; 2; 119; 85; 51; 17; 68; 51; 34; 17; 0; 5; 0; 113; 98; 83; 68; 53])) ;; information_data x445) ;; vec_at x446 0%nat) ;; Ok (Z.eqb 113 x447));
    (x450 <- (x449 <- (x448 <- (ci_view true (mkSx 0x7E0000 [127; 13; 115; 2; 119; 85; 51; 17; 68; 51; 34; 17; 0; 5; 0; 113; 98; 83; 68; 53])) ;; information_data x448) ;; vec_at x449 1%nat) ;; Ok (Z.eqb 98 x450));
    (x453 <- (x452 <- (x451 <- (ci_view true (mkSx 0x7E0000 [127; 13; 115; 2; 119; 85; 51; 17; 68; 51; 34; 17; 0; 5; 0; 113; 98; 83; 68; 53])) ;; information_data x451) ;; vec_at x452 2%nat) ;; Ok (Z.eqb 83 x453));
    (x456 <- (x455 <- (x454 <- (ci_view true (mkSx 0x7E0000 [127; 13; 115; 2; 119; 85; 51; 17; 68; 51; 34; 17; 0; 5; 0; 113; 98; 83; 68; 53])) ;; information_data x454) ;; vec_at x455 3%nat) ;; Ok (Z.eqb 68 x456));
    (x459 <- (x458 <- (x457 <- (ci_view true (mkSx 0x7E0000 [127; 13; 115; 2; 119; 85; 51; 17; 68; 51; 34; 17; 0; 5; 0; 113; 98; 83; 68; 53])) ;; information_data x457) ;; vec_at x458 4%nat) ;; Ok (Z.eqb 53 x459));
    (b_ <- (endpoint_reply_validate (mkSx 0x7E0000 [127; 13; 117; 2; 119; 85; 51; 17; 68; 51; 34; 17; 0; 5; 0; 113; 98; 83; 68; 53])) ;; Ok (negb b_));
    (b_ <- (x460 <- (as_view true endpoint_reply_validate (mkSx 0x7E0000 [127; 13; 117; 2; 119; 85; 51; 17; 68; 51; 34; 17; 0; 5; 0; 113; 98; 83; 68; 53])) ;; Ok (opt_some x460)) ;; Ok (negb b_))].
Proof. vm_compute. repeat constructor. Qed.

(* line 887 *)
Example test_make_endpoint_information_reply : all_true [
    (x462 <- (x461 <- (make_endpoint_information_reply true 54809958 37966949 8 [9; 8; 7; 6; 5; 4; 3; 2; 1]) ;; Ok (dsize x461)) ;; Ok (Z.eqb 24 x462));
    (x463 <- (make_endpoint_information_reply true 54809958 37966949 8 [9; 8; 7; 6; 5; 4; 3; 2; 1]) ;; is_capability_inquiry_message x463);
    (x464 <- (make_endpoint_information_reply true 54809958 37966949 8 [9; 8; 7; 6; 5; 4; 3; 2; 1]) ;; endpoint_reply_validate x464);
    (x466 <- (x465 <- (make_endpoint_information_reply true 54809958 37966949 8 [9; 8; 7; 6; 5; 4; 3; 2; 1]) ;; as_view true endpoint_reply_validate x465) ;; Ok (opt_some x466));
    (x469 <- (x468 <- (x467 <- (make_endpoint_information_reply true 54809958 37966949 8 [9; 8; 7; 6; 5; 4; 3; 2; 1]) ;; ci_view true x467) ;; view_device_id x468) ;; Ok (Z.eqb 127 x469));
    (x471 <- (x470 <- (x467 <- (make_endpoint_information_reply true 54809958 37966949 8 [9; 8; 7; 6; 5; 4; 3; 2; 1]) ;; ci_view true x467) ;; view_type x470) ;; Ok (Z.eqb 32269 x471));
    (x473 <- (x472 <- (x467 <- (make_endpoint_information_reply true 54809958 37966949 8 [9; 8; 7; 6; 5; 4; 3; 2; 1]) ;; ci_view true x467) ;; view_subtype x472) ;; Ok (Z.eqb 115 x473));
    (x475 <- (x474 <- (x467 <- (make_endpoint_information_reply true 54809958 37966949 8 [9; 8; 7; 6; 5; 4; 3; 2; 1]) ;; ci_view true x467) ;; message_version x474) ;; Ok (Z.eqb 2 x475));
    (x477 <- (x476 <- (x467 <- (make_endpoint_information_reply true 54809958 37966949 8 [9; 8; 7; 6; 5; 4; 3; 2; 1]) ;; ci_view true x467) ;; source_muid x476) ;; Ok (Z.eqb 54809958 x477));
    (x479 <- (x478 <- (x467 <- (make_endpoint_information_reply true 54809958 37966949 8 [9; 8; 7; 6; 5; 4; 3; 2; 1]) ;; ci_view true x467) ;; destination_muid x478) ;; Ok (Z.eqb 37966949 x479));
    (x481 <- (x480 <- (x467 <- (make_endpoint_information_reply true 54809958 37966949 8 [9; 8; 7; 6; 5; 4; 3; 2; 1]) ;; ci_view true x467) ;; endpoint_reply_status x480) ;; Ok (Z.eqb 8 x481));
    (x483 <- (x482 <- (x467 <- (make_endpoint_information_reply true 54809958 37966949 8 [9; 8; 7; 6; 5; 4; 3; 2; 1]) ;; ci_view true x467) ;; information_data_length x482) ;; Ok (Z.eqb 9 x483));
    (x485 <- (x484 <- (x467 <- (make_endpoint_information_reply true 54809958 37966949 8 [9; 8; 7; 6; 5; 4; 3; 2; 1]) ;; ci_view true x467) ;; information_data x484) ;; Ok (list_eqb [9; 8; 7; 6; 5; 4; 3; 2; 1] x485))].
Proof. vm_compute. repeat constructor. Qed.

(* line 925 *)
Example test_invalidate_muid : all_true [
    (x487 <- (x486 <- (make_invalidate_muid_message true 37966949 162254319) ;; Ok (dsize x486)) ;; Ok (Z.eqb 16 x487));
    (x488 <- (make_invalidate_muid_message true 37966949 162254319) ;; is_capability_inquiry_message x488);
    (x489 <- (make_invalidate_muid_message true 37966949 162254319) ;; invalidate_muid_validate x489);
    (x491 <- (x490 <- (make_invalidate_muid_message true 37966949 162254319) ;; as_view true invalidate_muid_validate x490) ;; Ok (opt_some x491));
    (x494 <- (x493 <- (x492 <- (make_invalidate_muid_message true 37966949 162254319) ;; ci_view true x492) ;; view_device_id x493) ;; Ok (Z.eqb 127 x494));
    (x496 <- (x495 <- (x492 <- (make_invalidate_muid_message true 37966949 162254319) ;; ci_view true x492) ;; view_type x495) ;; Ok (Z.eqb 32269 x496));
    (x498 <- (x497 <- (x492 <- (make_invalidate_muid_message true 37966949 162254319) ;; ci_view true x492) ;; view_subtype x497) ;; Ok (Z.eqb 126 x498));
    (x500 <- (x499 <- (x492 <- (make_invalidate_muid_message true 37966949 162254319) ;; ci_view true x492) ;; message_version x499) ;; Ok (Z.eqb 2 x500));
    (x502 <- (x501 <- (x492 <- (make_invalidate_muid_message true 37966949 162254319) ;; ci_view true x492) ;; source_muid x501) ;; Ok (Z.eqb 37966949 x502));
    (x504 <- (x503 <- (x492 <- (make_invalidate_muid_message true 37966949 162254319) ;; ci_view true x492) ;; destination_muid x503) ;; Ok (Z.eqb 268435455 x504));
    (x506 <- (x505 <- (x492 <- (make_invalidate_muid_message true 37966949 162254319) ;; ci_view true x492) ;; target_muid x505) ;; Ok (Z.eqb 162254319 x506))].
Proof. vm_compute. repeat constructor. Qed.

(* line 956 *)
Example test_ack_view : all_true [
    (is_capability_inquiry_message (mkSx 0x7E0000 [9; 13; 125; 2; 69; 86; 71; 56; 68; 51; 34; 17; 69; 16; 10; 1; 1; 0; 0; 0; 7; 0; 84; 105; 109; 101; 111; 117; 116]));
    (ack_validate (mkSx 0x7E0000 [9; 13; 125; 2; 69; 86; 71; 56; 68; 51; 34; 17; 69; 16; 10; 1; 1; 0; 0; 0; 7; 0; 84; 105; 109; 101; 111; 117; 116]));
    (x507 <- (as_view true ack_validate (mkSx 0x7E0000 [9; 13; 125; 2; 69; 86; 71; 56; 68; 51; 34; 17; 69; 16; 10; 1; 1; 0; 0; 0; 7; 0; 84; 105; 109; 101; 111; 117; 116])) ;; Ok (opt_some x507));
    (x509 <- (x508 <- (ci_view true (mkSx 0x7E0000 [9; 13; 125; 2; 69; 86; 71; 56; 68; 51; 34; 17; 69; 16; 10; 1; 1; 0; 0; 0; 7; 0; 84; 105; 109; 101; 111; 117; 116])) ;; view_device_id x508) ;; Ok (Z.eqb 9 x509));
    (x511 <- (x510 <- (ci_view true (mkSx 0x7E0000 [9; 13; 125; 2; 69; 86; 71; 56; 68; 51; 34; 17; 69; 16; 10; 1; 1; 0; 0; 0; 7; 0; 84; 105; 109; 101; 111; 117; 116])) ;; view_type x510) ;; Ok (Z.eqb 32269 x511));
    (x513 <- (x512 <- (ci_view true (mkSx 0x7E0000 [9; 13; 125; 2; 69; 86; 71; 56; 68; 51; 34; 17; 69; 16; 10; 1; 1; 0; 0; 0; 7; 0; 84; 105; 109; 101; 111; 117; 116])) ;; view_subtype x512) ;; Ok (Z.eqb 125 x513));
    (x515 <- (x514 <- (ci_view true (mkSx 0x7E0000 [9; 13; 125; 2; 69; 86; 71; 56; 68; 51; 34; 17; 69; 16; 10; 1; 1; 0; 0; 0; 7; 0; 84; 105; 109; 101; 111; 117; 116])) ;; message_version x514) ;; Ok (Z.eqb 2 x515));
    (x517 <- (x516 <- (ci_view true (mkSx 0x7E0000 [9; 13; 125; 2; 69; 86; 71; 56; 68; 51; 34; 17; 69; 16; 10; 1; 1; 0; 0; 0; 7; 0; 84; 105; 109; 101; 111; 117; 116])) ;; source_muid x516) ;; Ok (Z.eqb 118614853 x517));
    (x519 <- (x518 <- (ci_view true (mkSx 0x7E0000 [9; 13; 125; 2; 69; 86; 71; 56; 68; 51; 34; 17; 69; 16; 10; 1; 1; 0; 0; 0; 7; 0; 84; 105; 109; 101; 111; 117; 116])) ;; destination_muid x518) ;; Ok (Z.eqb 36215236 x519));
    (x521 <- (x520 <- (ci_view true (mkSx 0x7E0000 [9; 13; 125; 2; 69; 86; 71; 56; 68; 51; 34; 17; 69; 16; 10; 1; 1; 0; 0; 0; 7; 0; 84; 105; 109; 101; 111; 117; 116])) ;; nack_transaction x520) ;; Ok (Z.eqb 69 x521));
    (x523 <- (x522 <- (ci_view true (mkSx 0x7E0000 [9; 13; 125; 2; 69; 86; 71; 56; 68; 51; 34; 17; 69; 16; 10; 1; 1; 0; 0; 0; 7; 0; 84; 105; 109; 101; 111; 117; 116])) ;; nack_status_code x522) ;; Ok (Z.eqb 16 x523));
    (x525 <- (x524 <- (ci_view true (mkSx 0x7E0000 [9; 13; 125; 2; 69; 86; 71; 56; 68; 51; 34; 17; 69; 16; 10; 1; 1; 0; 0; 0; 7; 0; 84; 105; 109; 101; 111; 117; 116])) ;; nack_status_data x524) ;; Ok (Z.eqb 10 x525));
    (x528 <- (x527 <- (x526 <- (ci_view true (mkSx 0x7E0000 [9; 13; 125; 2; 69; 86; 71; 56; 68; 51; 34; 17; 69; 16; 10; 1; 1; 0; 0; 0; 7; 0; 84; 105; 109; 101; 111; 117; 116])) ;; nack_details x526) ;; vec_at x527 0%nat) ;; Ok (Z.eqb 1 x528));
    (x531 <- (x530 <- (x529 <- (ci_view true (mkSx 0x7E0000 [9; 13; 125; 2; 69; 86; 71; 56; 68; 51; 34; 17; 69; 16; 10; 1; 1; 0; 0; 0; 7; 0; 84; 105; 109; 101; 111; 117; 116])) ;; nack_details x529) ;; vec_at x530 1%nat) ;; Ok (Z.eqb 1 x531));
    (x534 <- (x533 <- (x532 <- (ci_view true (mkSx 0x7E0000 [9; 13; 125; 2; 69; 86; 71; 56; 68; 51; 34; 17; 69; 16; 10; 1; 1; 0; 0; 0; 7; 0; 84; 105; 109; 101; 111; 117; 116])) ;; nack_details x532) ;; vec_at x533 2%nat) ;; Ok (Z.eqb 0 x534));
    (x537 <- (x536 <- (x535 <- (ci_view true (mkSx 0x7E0000 [9; 13; 125; 2; 69; 86; 71; 56; 68; 51; 34; 17; 69; 16; 10; 1; 1; 0; 0; 0; 7; 0; 84; 105; 109; 101; 111; 117; 116])) ;; nack_details x535) ;; vec_at x536 3%nat) ;; Ok (Z.eqb 0 x537));
    (x540 <- (x539 <- (x538 <- (ci_view true (mkSx 0x7E0000 [9; 13; 125; 2; 69; 86; 71; 56; 68; 51; 34; 17; 69; 16; 10; 1; 1; 0; 0; 0; 7; 0; 84; 105; 109; 101; 111; 117; 116])) ;; nack_details x538) ;; vec_at x539 4%nat) ;; Ok (Z.eqb 0 x540));
    (x542 <- (x541 <- (ci_view true (mkSx 0x7E0000 [9; 13; 125; 2; 69; 86; 71; 56; 68; 51; 34; 17; 69; 16; 10; 1; 1; 0; 0; 0; 7; 0; 84; 105; 109; 101; 111; 117; 116])) ;; nack_message_length x541) ;; Ok (Z.eqb 7 x542));
    (x544 <- (x543 <- (ci_view true (mkSx 0x7E0000 [9; 13; 125; 2; 69; 86; 71; 56; 68; 51; 34; 17; 69; 16; 10; 1; 1; 0; 0; 0; 7; 0; 84; 105; 109; 101; 111; 117; 116])) ;; nack_message x543) ;; Ok (list_eqb x544 [84; 105; 109; 101; 111; 117; 116]));
    (is_capability_inquiry_message (mkSx 0x7E0000 [126; 13; 125; 2; 119; 85; 51; 17; 68; 51; 34; 17; 34; 0; 0; 0; 0; 0; 0; 0; 0; 0]));
    (ack_validate (mkSx 0x7E0000 [126; 13; 125; 2; 119; 85; 51; 17; 68; 51; 34; 17; 34; 0; 0; 0; 0; 0; 0; 0; 0; 0]));
    (x545 <- (as_view true ack_validate (mkSx 0x7E0000 [126; 13; 125; 2; 119; 85; 51; 17; 68; 51; 34; 17; 34; 0; 0; 0; 0; 0; 0; 0; 0; 0])) ;; Ok (opt_some x545));
    (x547 <- (x546 <- (ci_view true (mkSx 0x7E0000 [126; 13; 125; 2; 119; 85; 51; 17; 68; 51; 34; 17; 34; 0; 0; 0; 0; 0; 0; 0; 0; 0])) ;; view_device_id x546) ;; Ok (Z.eqb 126 x547));
    (x549 <- (x548 <- (ci_view true (mkSx 0x7E0000 [126; 13; 125; 2; 119; 85; 51; 17; 68; 51; 34; 17; 34; 0; 0; 0; 0; 0; 0; 0; 0; 0])) ;; view_type x548) ;; Ok (Z.eqb 32269 x549));
    (x551 <- (x550 <- (ci_view true (mkSx 0x7E0000 [126; 13; 125; 2; 119; 85; 51; 17; 68; 51; 34; 17; 34; 0; 0; 0; 0; 0; 0; 0; 0; 0])) ;; view_subtype x550) ;; Ok (Z.eqb 125 x551));
    (x553 <- (x552 <- (ci_view true (mkSx 0x7E0000 [126; 13; 125; 2; 119; 85; 51; 17; 68; 51; 34; 17; 34; 0; 0; 0; 0; 0; 0; 0; 0; 0])) ;; message_version x552) ;; Ok (Z.eqb 2 x553));
    (x555 <- (x554 <- (ci_view true (mkSx 0x7E0000 [126; 13; 125; 2; 119; 85; 51; 17; 68; 51; 34; 17; 34; 0; 0; 0; 0; 0; 0; 0; 0; 0])) ;; source_muid x554) ;; Ok (Z.eqb 36498167 x555));
    (x557 <- (x556 <- (ci_view true (mkSx 0x7E0000 [126; 13; 125; 2; 119; 85; 51; 17; 68; 51; 34; 17; 34; 0; 0; 0; 0; 0; 0; 0; 0; 0])) ;; destination_muid x556) ;; Ok (Z.eqb 36215236 x557));
    (x559 <- (x558 <- (ci_view true (mkSx 0x7E0000 [126; 13; 125; 2; 119; 85; 51; 17; 68; 51; 34; 17; 34; 0; 0; 0; 0; 0; 0; 0; 0; 0])) ;; nack_transaction x558) ;; Ok (Z.eqb 34 x559));
    (x561 <- (x560 <- (ci_view true (mkSx 0x7E0000 [126; 13; 125; 2; 119; 85; 51; 17; 68; 51; 34; 17; 34; 0; 0; 0; 0; 0; 0; 0; 0; 0])) ;; nack_status_code x560) ;; Ok (Z.eqb 0 x561));
    (x563 <- (x562 <- (ci_view true (mkSx 0x7E0000 [126; 13; 125; 2; 119; 85; 51; 17; 68; 51; 34; 17; 34; 0; 0; 0; 0; 0; 0; 0; 0; 0])) ;; nack_status_data x562) ;; Ok (Z.eqb 0 x563));
    (x566 <- (x565 <- (x564 <- (ci_view true (mkSx 0x7E0000 [126; 13; 125; 2; 119; 85; 51; 17; 68; 51; 34; 17; 34; 0; 0; 0; 0; 0; 0; 0; 0; 0])) ;; nack_details x564) ;; vec_at x565 0%nat) ;; Ok (Z.eqb 0 x566));
    (x569 <- (x568 <- (x567 <- (ci_view true (mkSx 0x7E0000 [126; 13; 125; 2; 119; 85; 51; 17; 68; 51; 34; 17; 34; 0; 0; 0; 0; 0; 0; 0; 0; 0])) ;; nack_details x567) ;; vec_at x568 1%nat) ;; Ok (Z.eqb 0 x569));
    (x572 <- (x571 <- (x570 <- (ci_view true (mkSx 0x7E0000 [126; 13; 125; 2; 119; 85; 51; 17; 68; 51; 34; 17; 34; 0; 0; 0; 0; 0; 0; 0; 0; 0])) ;; nack_details x570) ;; vec_at x571 2%nat) ;; Ok (Z.eqb 0 x572));
    (x575 <- (x574 <- (x573 <- (ci_view true (mkSx 0x7E0000 [126; 13; 125; 2; 119; 85; 51; 17; 68; 51; 34; 17; 34; 0; 0; 0; 0; 0; 0; 0; 0; 0])) ;; nack_details x573) ;; vec_at x574 3%nat) ;; Ok (Z.eqb 0 x575));
    (x578 <- (x577 <- (x576 <- (ci_view true (mkSx 0x7E0000 [126; 13; 125; 2; 119; 85; 51; 17; 68; 51; 34; 17; 34; 0; 0; 0; 0; 0; 0; 0; 0; 0])) ;; nack_details x576) ;; vec_at x577 4%nat) ;; Ok (Z.eqb 0 x578));
    (x580 <- (x579 <- (ci_view true (mkSx 0x7E0000 [126; 13; 125; 2; 119; 85; 51; 17; 68; 51; 34; 17; 34; 0; 0; 0; 0; 0; 0; 0; 0; 0])) ;; nack_message_length x579) ;; Ok (Z.eqb 0 x580));
    (b_ <- (ack_validate (mkSx 0x7E0000 [126; 13; 126; 2; 119; 85; 51; 17; 68; 51; 34; 17; 34; 0; 0; 0; 0; 0; 0; 0; 0; 0])) ;; Ok (negb b_));
    (b_ <- (x581 <- (as_view true ack_validate (mkSx 0x7E0000 [126; 13; 126; 2; 119; 85; 51; 17; 68; 51; 34; 17; 34; 0; 0; 0; 0; 0; 0; 0; 0; 0])) ;; Ok (opt_some x581)) ;; Ok (negb b_));
    (b_ <- (ack_validate (mkSx 0x7E0000 [9; 13; 125; 2; 69; 86; 71; 56; 68; 51; 34; 17; 69; 16; 10; 1; 1; 0; 0; 0; 7; 0; 79; 111; 112; 115])) ;; Ok (negb b_));
    (b_ <- (x582 <- (as_view true ack_validate (mkSx 0x7E0000 [9; 13; 125; 2; 69; 86; 71; 56; 68; 51; 34; 17; 69; 16; 10; 1; 1; 0; 0; 0; 7; 0; 79; 111; 112; 115])) ;; Ok (opt_some x582)) ;; Ok (negb b_))].
Proof. vm_compute. repeat constructor. Qed.

(* line 1048 *)
Example test_make_ack_message : all_true [
    (x583 <- (make_ack_message true 37966949 19088743 4 54 16 20 [5; 4; 3; 2; 1] [65; 32; 109; 101; 115; 115; 97; 103; 101; 32; 116; 101; 120; 116]) ;; is_capability_inquiry_message x583);
    (x584 <- (make_ack_message true 37966949 19088743 4 54 16 20 [5; 4; 3; 2; 1] [65; 32; 109; 101; 115; 115; 97; 103; 101; 32; 116; 101; 120; 116]) ;; ack_validate x584);
    (x586 <- (x585 <- (make_ack_message true 37966949 19088743 4 54 16 20 [5; 4; 3; 2; 1] [65; 32; 109; 101; 115; 115; 97; 103; 101; 32; 116; 101; 120; 116]) ;; as_view true ack_validate x585) ;; Ok (opt_some x586));
    (x589 <- (x588 <- (x587 <- (make_ack_message true 37966949 19088743 4 54 16 20 [5; 4; 3; 2; 1] [65; 32; 109; 101; 115; 115; 97; 103; 101; 32; 116; 101; 120; 116]) ;; ci_view true x587) ;; view_device_id x588) ;; Ok (Z.eqb 4 x589));
    (x591 <- (x590 <- (x587 <- (make_ack_message true 37966949 19088743 4 54 16 20 [5; 4; 3; 2; 1] [65; 32; 109; 101; 115; 115; 97; 103; 101; 32; 116; 101; 120; 116]) ;; ci_view true x587) ;; view_type x590) ;; Ok (Z.eqb 32269 x591));
    (x593 <- (x592 <- (x587 <- (make_ack_message true 37966949 19088743 4 54 16 20 [5; 4; 3; 2; 1] [65; 32; 109; 101; 115; 115; 97; 103; 101; 32; 116; 101; 120; 116]) ;; ci_view true x587) ;; view_subtype x592) ;; Ok (Z.eqb 125 x593));
    (x595 <- (x594 <- (x587 <- (make_ack_message true 37966949 19088743 4 54 16 20 [5; 4; 3; 2; 1] [65; 32; 109; 101; 115; 115; 97; 103; 101; 32; 116; 101; 120; 116]) ;; ci_view true x587) ;; message_version x594) ;; Ok (Z.eqb 2 x595));
    (x597 <- (x596 <- (x587 <- (make_ack_message true 37966949 19088743 4 54 16 20 [5; 4; 3; 2; 1] [65; 32; 109; 101; 115; 115; 97; 103; 101; 32; 116; 101; 120; 116]) ;; ci_view true x587) ;; source_muid x596) ;; Ok (Z.eqb 37966949 x597));
    (x599 <- (x598 <- (x587 <- (make_ack_message true 37966949 19088743 4 54 16 20 [5; 4; 3; 2; 1] [65; 32; 109; 101; 115; 115; 97; 103; 101; 32; 116; 101; 120; 116]) ;; ci_view true x587) ;; destination_muid x598) ;; Ok (Z.eqb 19088743 x599));
    (x601 <- (x600 <- (x587 <- (make_ack_message true 37966949 19088743 4 54 16 20 [5; 4; 3; 2; 1] [65; 32; 109; 101; 115; 115; 97; 103; 101; 32; 116; 101; 120; 116]) ;; ci_view true x587) ;; nack_transaction x600) ;; Ok (Z.eqb 54 x601));
    (x603 <- (x602 <- (x587 <- (make_ack_message true 37966949 19088743 4 54 16 20 [5; 4; 3; 2; 1] [65; 32; 109; 101; 115; 115; 97; 103; 101; 32; 116; 101; 120; 116]) ;; ci_view true x587) ;; nack_status_code x602) ;; Ok (Z.eqb 16 x603));
    (x605 <- (x604 <- (x587 <- (make_ack_message true 37966949 19088743 4 54 16 20 [5; 4; 3; 2; 1] [65; 32; 109; 101; 115; 115; 97; 103; 101; 32; 116; 101; 120; 116]) ;; ci_view true x587) ;; nack_status_data x604) ;; Ok (Z.eqb 20 x605));
    (x607 <- (x606 <- (x587 <- (make_ack_message true 37966949 19088743 4 54 16 20 [5; 4; 3; 2; 1] [65; 32; 109; 101; 115; 115; 97; 103; 101; 32; 116; 101; 120; 116]) ;; ci_view true x587) ;; nack_details x606) ;; Ok (prefix_eqb 5 [5; 4; 3; 2; 1] x607));
    (x609 <- (x608 <- (x587 <- (make_ack_message true 37966949 19088743 4 54 16 20 [5; 4; 3; 2; 1] [65; 32; 109; 101; 115; 115; 97; 103; 101; 32; 116; 101; 120; 116]) ;; ci_view true x587) ;; nack_message_length x608) ;; Ok (Z.eqb 14 x609));
    (x611 <- (x610 <- (x587 <- (make_ack_message true 37966949 19088743 4 54 16 20 [5; 4; 3; 2; 1] [65; 32; 109; 101; 115; 115; 97; 103; 101; 32; 116; 101; 120; 116]) ;; ci_view true x587) ;; nack_message x610) ;; Ok (list_eqb x611 [65; 32; 109; 101; 115; 115; 97; 103; 101; 32; 116; 101; 120; 116]))].
Proof. vm_compute. repeat constructor. Qed.

(* line 1098 *)
Example test_nak_view : all_true [
    (is_capability_inquiry_message (mkSx 0x7E0000 [9; 13; 127; 2; 69; 86; 71; 56; 68; 51; 34; 17; 69; 16; 10; 1; 1; 0; 0; 0; 7; 0; 84; 105; 109; 101; 111; 117; 116]));
    (nak_validate (mkSx 0x7E0000 [9; 13; 127; 2; 69; 86; 71; 56; 68; 51; 34; 17; 69; 16; 10; 1; 1; 0; 0; 0; 7; 0; 84; 105; 109; 101; 111; 117; 116]));
    (x612 <- (as_view true nak_validate (mkSx 0x7E0000 [9; 13; 127; 2; 69; 86; 71; 56; 68; 51; 34; 17; 69; 16; 10; 1; 1; 0; 0; 0; 7; 0; 84; 105; 109; 101; 111; 117; 116])) ;; Ok (opt_some x612));
    (x614 <- (x613 <- (ci_view true (mkSx 0x7E0000 [9; 13; 127; 2; 69; 86; 71; 56; 68; 51; 34; 17; 69; 16; 10; 1; 1; 0; 0; 0; 7; 0; 84; 105; 109; 101; 111; 117; 116])) ;; view_device_id x613) ;; Ok (Z.eqb 9 x614));
    (x616 <- (x615 <- (ci_view true (mkSx 0x7E0000 [9; 13; 127; 2; 69; 86; 71; 56; 68; 51; 34; 17; 69; 16; 10; 1; 1; 0; 0; 0; 7; 0; 84; 105; 109; 101; 111; 117; 116])) ;; view_type x615) ;; Ok (Z.eqb 32269 x616));
    (x618 <- (x617 <- (ci_view true (mkSx 0x7E0000 [9; 13; 127; 2; 69; 86; 71; 56; 68; 51; 34; 17; 69; 16; 10; 1; 1; 0; 0; 0; 7; 0; 84; 105; 109; 101; 111; 117; 116])) ;; view_subtype x617) ;; Ok (Z.eqb 127 x618));
    (x620 <- (x619 <- (ci_view true (mkSx 0x7E0000 [9; 13; 127; 2; 69; 86; 71; 56; 68; 51; 34; 17; 69; 16; 10; 1; 1; 0; 0; 0; 7; 0; 84; 105; 109; 101; 111; 117; 116])) ;; message_version x619) ;; Ok (Z.eqb 2 x620));
    (x622 <- (x621 <- (ci_view true (mkSx 0x7E0000 [9; 13; 127; 2; 69; 86; 71; 56; 68; 51; 34; 17; 69; 16; 10; 1; 1; 0; 0; 0; 7; 0; 84; 105; 109; 101; 111; 117; 116])) ;; source_muid x621) ;; Ok (Z.eqb 118614853 x622));
    (x624 <- (x623 <- (ci_view true (mkSx 0x7E0000 [9; 13; 127; 2; 69; 86; 71; 56; 68; 51; 34; 17; 69; 16; 10; 1; 1; 0; 0; 0; 7; 0; 84; 105; 109; 101; 111; 117; 116])) ;; destination_muid x623) ;; Ok (Z.eqb 36215236 x624));
    (x626 <- (x625 <- (ci_view true (mkSx 0x7E0000 [9; 13; 127; 2; 69; 86; 71; 56; 68; 51; 34; 17; 69; 16; 10; 1; 1; 0; 0; 0; 7; 0; 84; 105; 109; 101; 111; 117; 116])) ;; nack_transaction x625) ;; Ok (Z.eqb 69 x626));
    (x628 <- (x627 <- (ci_view true (mkSx 0x7E0000 [9; 13; 127; 2; 69; 86; 71; 56; 68; 51; 34; 17; 69; 16; 10; 1; 1; 0; 0; 0; 7; 0; 84; 105; 109; 101; 111; 117; 116])) ;; nack_status_code x627) ;; Ok (Z.eqb 16 x628));
    (x630 <- (x629 <- (ci_view true (mkSx 0x7E0000 [9; 13; 127; 2; 69; 86; 71; 56; 68; 51; 34; 17; 69; 16; 10; 1; 1; 0; 0; 0; 7; 0; 84; 105; 109; 101; 111; 117; 116])) ;; nack_status_data x629) ;; Ok (Z.eqb 10 x630));
    (x633 <- (x632 <- (x631 <- (ci_view true (mkSx 0x7E0000 [9; 13; 127; 2; 69; 86; 71; 56; 68; 51; 34; 17; 69; 16; 10; 1; 1; 0; 0; 0; 7; 0; 84; 105; 109; 101; 111; 117; 116])) ;; nack_details x631) ;; vec_at x632 0%nat) ;; Ok (Z.eqb 1 x633));
    (x636 <- (x635 <- (x634 <- (ci_view true (mkSx 0x7E0000 [9; 13; 127; 2; 69; 86; 71; 56; 68; 51; 34; 17; 69; 16; 10; 1; 1; 0; 0; 0; 7; 0; 84; 105; 109; 101; 111; 117; 116])) ;; nack_details x634) ;; vec_at x635 1%nat) ;; Ok (Z.eqb 1 x636));
    (x639 <- (x638 <- (x637 <- (ci_view true (mkSx 0x7E0000 [9; 13; 127; 2; 69; 86; 71; 56; 68; 51; 34; 17; 69; 16; 10; 1; 1; 0; 0; 0; 7; 0; 84; 105; 109; 101; 111; 117; 116])) ;; nack_details x637) ;; vec_at x638 2%nat) ;; Ok (Z.eqb 0 x639));
    (x642 <- (x641 <- (x640 <- (ci_view true (mkSx 0x7E0000 [9; 13; 127; 2; 69; 86; 71; 56; 68; 51; 34; 17; 69; 16; 10; 1; 1; 0; 0; 0; 7; 0; 84; 105; 109; 101; 111; 117; 116])) ;; nack_details x640) ;; vec_at x641 3%nat) ;; Ok (Z.eqb 0 x642));
    (x645 <- (x644 <- (x643 <- (ci_view true (mkSx 0x7E0000 [9; 13; 127; 2; 69; 86; 71; 56; 68; 51; 34; 17; 69; 16; 10; 1; 1; 0; 0; 0; 7; 0; 84; 105; 109; 101; 111; 117; 116])) ;; nack_details x643) ;; vec_at x644 4%nat) ;; Ok (Z.eqb 0 x645));
    (x647 <- (x646 <- (ci_view true (mkSx 0x7E0000 [9; 13; 127; 2; 69; 86; 71; 56; 68; 51; 34; 17; 69; 16; 10; 1; 1; 0; 0; 0; 7; 0; 84; 105; 109; 101; 111; 117; 116])) ;; nack_message_length x646) ;; Ok (Z.eqb 7 x647));
    (x649 <- (x648 <- (ci_view true (mkSx 0x7E0000 [9; 13; 127; 2; 69; 86; 71; 56; 68; 51; 34; 17; 69; 16; 10; 1; 1; 0; 0; 0; 7; 0; 84; 105; 109; 101; 111; 117; 116])) ;; nack_message x648) ;; Ok (list_eqb x649 [84; 105; 109; 101; 111; 117; 116]));
    (is_capability_inquiry_message (mkSx 0x7E0000 [126; 13; 127; 2; 119; 85; 51; 17; 68; 51; 34; 17; 34; 0; 0; 0; 0; 0; 0; 0; 0; 0]));
    (nak_validate (mkSx 0x7E0000 [126; 13; 127; 2; 119; 85; 51; 17; 68; 51; 34; 17; 34; 0; 0; 0; 0; 0; 0; 0; 0; 0]));
    (x650 <- (as_view true nak_validate (mkSx 0x7E0000 [126; 13; 127; 2; 119; 85; 51; 17; 68; 51; 34; 17; 34; 0; 0; 0; 0; 0; 0; 0; 0; 0])) ;; Ok (opt_some x650));
    (x652 <- (x651 <- (ci_view true (mkSx 0x7E0000 [126; 13; 127; 2; 119; 85; 51; 17; 68; 51; 34; 17; 34; 0; 0; 0; 0; 0; 0; 0; 0; 0])) ;; view_device_id x651) ;; Ok (Z.eqb 126 x652));
    (x654 <- (x653 <- (ci_view true (mkSx 0x7E0000 [126; 13; 127; 2; 119; 85; 51; 17; 68; 51; 34; 17; 34; 0; 0; 0; 0; 0; 0; 0; 0; 0])) ;; view_type x653) ;; Ok (Z.eqb 32269 x654));
    (x656 <- (x655 <- (ci_view true (mkSx 0x7E0000 [126; 13; 127; 2; 119; 85; 51; 17; 68; 51; 34; 17; 34; 0; 0; 0; 0; 0; 0; 0; 0; 0])) ;; view_subtype x655) ;; Ok (Z.eqb 127 x656));
    (x658 <- (x657 <- (ci_view true (mkSx 0x7E0000 [126; 13; 127; 2; 119; 85; 51; 17; 68; 51; 34; 17; 34; 0; 0; 0; 0; 0; 0; 0; 0; 0])) ;; message_version x657) ;; Ok (Z.eqb 2 x658));
    (x660 <- (x659 <- (ci_view true (mkSx 0x7E0000 [126; 13; 127; 2; 119; 85; 51; 17; 68; 51; 34; 17; 34; 0; 0; 0; 0; 0; 0; 0; 0; 0])) ;; source_muid x659) ;; Ok (Z.eqb 36498167 x660));
    (x662 <- (x661 <- (ci_view true (mkSx 0x7E0000 [126; 13; 127; 2; 119; 85; 51; 17; 68; 51; 34; 17; 34; 0; 0; 0; 0; 0; 0; 0; 0; 0])) ;; destination_muid x661) ;; Ok (Z.eqb 36215236 x662));
    (x664 <- (x663 <- (ci_view true (mkSx 0x7E0000 [126; 13; 127; 2; 119; 85; 51; 17; 68; 51; 34; 17; 34; 0; 0; 0; 0; 0; 0; 0; 0; 0])) ;; nack_transaction x663) ;; Ok (Z.eqb 34 x664));
    (x666 <- (x665 <- (ci_view true (mkSx 0x7E0000 [126; 13; 127; 2; 119; 85; 51; 17; 68; 51; 34; 17; 34; 0; 0; 0; 0; 0; 0; 0; 0; 0])) ;; nack_status_code x665) ;; Ok (Z.eqb 0 x666));
    (x668 <- (x667 <- (ci_view true (mkSx 0x7E0000 [126; 13; 127; 2; 119; 85; 51; 17; 68; 51; 34; 17; 34; 0; 0; 0; 0; 0; 0; 0; 0; 0])) ;; nack_status_data x667) ;; Ok (Z.eqb 0 x668));
    (x671 <- (x670 <- (x669 <- (ci_view true (mkSx 0x7E0000 [126; 13; 127; 2; 119; 85; 51; 17; 68; 51; 34; 17; 34; 0; 0; 0; 0; 0; 0; 0; 0; 0])) ;; nack_details x669) ;; vec_at x670 0%nat) ;; Ok (Z.eqb 0 x671));
    (x674 <- (x673 <- (x672 <- (ci_view true (mkSx 0x7E0000 [126; 13; 127; 2; 119; 85; 51; 17; 68; 51; 34; 17; 34; 0; 0; 0; 0; 0; 0; 0; 0; 0])) ;; nack_details x672) ;; vec_at x673 1%nat) ;; Ok (Z.eqb 0 x674));
    (x677 <- (x676 <- (x675 <- (ci_view true (mkSx 0x7E0000 [126; 13; 127; 2; 119; 85; 51; 17; 68; 51; 34; 17; 34; 0; 0; 0; 0; 0; 0; 0; 0; 0])) ;; nack_details x675) ;; vec_at x676 2%nat) ;; Ok (Z.eqb 0 x677));
    (x680 <- (x679 <- (x678 <- (ci_view true (mkSx 0x7E0000 [126; 13; 127; 2; 119; 85; 51; 17; 68; 51; 34; 17; 34; 0; 0; 0; 0; 0; 0; 0; 0; 0])) ;; nack_details x678) ;; vec_at x679 3%nat) ;; Ok (Z.eqb 0 x680));
    (x683 <- (x682 <- (x681 <- (ci_view true (mkSx 0x7E0000 [126; 13; 127; 2; 119; 85; 51; 17; 68; 51; 34; 17; 34; 0; 0; 0; 0; 0; 0; 0; 0; 0])) ;; nack_details x681) ;; vec_at x682 4%nat) ;; Ok (Z.eqb 0 x683));
    (x685 <- (x684 <- (ci_view true (mkSx 0x7E0000 [126; 13; 127; 2; 119; 85; 51; 17; 68; 51; 34; 17; 34; 0; 0; 0; 0; 0; 0; 0; 0; 0])) ;; nack_message_length x684) ;; Ok (Z.eqb 0 x685));
    (b_ <- (nak_validate (mkSx 0x7E0000 [126; 13; 127; 1; 119; 85; 51; 17; 68; 51; 34; 17])) ;; Ok (negb b_));
    (b_ <- (x686 <- (as_view true nak_validate (mkSx 0x7E0000 [126; 13; 127; 1; 119; 85; 51; 17; 68; 51; 34; 17])) ;; Ok (opt_some x686)) ;; Ok (negb b_));
    (b_ <- (nak_validate (mkSx 0x7E0000 [126; 13; 126; 2; 119; 85; 51; 17; 68; 51; 34; 17; 34; 0; 0; 0; 0; 0; 0; 0; 0; 0])) ;; Ok (negb b_));
    (b_ <- (x687 <- (as_view true nak_validate (mkSx 0x7E0000 [126; 13; 126; 2; 119; 85; 51; 17; 68; 51; 34; 17; 34; 0; 0; 0; 0; 0; 0; 0; 0; 0])) ;; Ok (opt_some x687)) ;; Ok (negb b_));
    (b_ <- (nak_validate (mkSx 0x7E0000 [9; 13; 127; 2; 69; 86; 71; 56; 68; 51; 34; 17; 69; 16; 10; 1; 1; 0; 0; 0; 7; 0; 79; 111; 112; 115])) ;; Ok (negb b_));
    (b_ <- (x688 <- (as_view true nak_validate (mkSx 0x7E0000 [9; 13; 127; 2; 69; 86; 71; 56; 68; 51; 34; 17; 69; 16; 10; 1; 1; 0; 0; 0; 7; 0; 79; 111; 112; 115])) ;; Ok (opt_some x688)) ;; Ok (negb b_))].
Proof. vm_compute. repeat constructor. Qed.

(* line 1199 *)
Example test_make_nak_message_v1 : all_true [
    (x689 <- (make_nak_message_v1 true 37966949 19088743 8) ;; is_capability_inquiry_message x689);
    (x690 <- (make_nak_message_v1 true 37966949 19088743 8) ;; ci_validate x690);
    (x692 <- (x691 <- (make_nak_message_v1 true 37966949 19088743 8) ;; as_view true ci_validate x691) ;; Ok (opt_some x692));
    (x694 <- (x693 <- (make_nak_message_v1 true 37966949 19088743 8) ;; Ok (dsize x693)) ;; Ok (Z.eqb 12 x694));
    (x697 <- (x696 <- (x695 <- (make_nak_message_v1 true 37966949 19088743 8) ;; ci_view true x695) ;; view_type x696) ;; Ok (Z.eqb 32269 x697));
    (x699 <- (x698 <- (x695 <- (make_nak_message_v1 true 37966949 19088743 8) ;; ci_view true x695) ;; view_subtype x698) ;; Ok (Z.eqb 127 x699));
    (x701 <- (x700 <- (x695 <- (make_nak_message_v1 true 37966949 19088743 8) ;; ci_view true x695) ;; message_version x700) ;; Ok (Z.eqb 1 x701));
    (x703 <- (x702 <- (x695 <- (make_nak_message_v1 true 37966949 19088743 8) ;; ci_view true x695) ;; source_muid x702) ;; Ok (Z.eqb 37966949 x703));
    (x705 <- (x704 <- (x695 <- (make_nak_message_v1 true 37966949 19088743 8) ;; ci_view true x695) ;; destination_muid x704) ;; Ok (Z.eqb 19088743 x705));
    (x707 <- (x706 <- (x695 <- (make_nak_message_v1 true 37966949 19088743 8) ;; ci_view true x695) ;; view_device_id x706) ;; Ok (Z.eqb 8 x707));
    (x710 <- (x709 <- (x708 <- (make_discovery_reply_v1 true 54809958 37966949 (mkDevId 8457 5936 61 65541) 1 256) ;; ci_view true x708) ;; make_nak_reply_v1 true x709) ;; is_capability_inquiry_message x710);
    (x711 <- (x709 <- (x708 <- (make_discovery_reply_v1 true 54809958 37966949 (mkDevId 8457 5936 61 65541) 1 256) ;; ci_view true x708) ;; make_nak_reply_v1 true x709) ;; ci_validate x711);
    (x713 <- (x712 <- (x709 <- (x708 <- (make_discovery_reply_v1 true 54809958 37966949 (mkDevId 8457 5936 61 65541) 1 256) ;; ci_view true x708) ;; make_nak_reply_v1 true x709) ;; as_view true ci_validate x712) ;; Ok (opt_some x713));
    (x715 <- (x714 <- (x709 <- (x708 <- (make_discovery_reply_v1 true 54809958 37966949 (mkDevId 8457 5936 61 65541) 1 256) ;; ci_view true x708) ;; make_nak_reply_v1 true x709) ;; Ok (dsize x714)) ;; Ok (Z.eqb 12 x715));
    (x718 <- (x717 <- (x716 <- (x709 <- (x708 <- (make_discovery_reply_v1 true 54809958 37966949 (mkDevId 8457 5936 61 65541) 1 256) ;; ci_view true x708) ;; make_nak_reply_v1 true x709) ;; ci_view true x716) ;; view_type x717) ;; Ok (Z.eqb 32269 x718));
    (x720 <- (x719 <- (x716 <- (x709 <- (x708 <- (make_discovery_reply_v1 true 54809958 37966949 (mkDevId 8457 5936 61 65541) 1 256) ;; ci_view true x708) ;; make_nak_reply_v1 true x709) ;; ci_view true x716) ;; view_subtype x719) ;; Ok (Z.eqb 127 x720));
    (x722 <- (x721 <- (x716 <- (x709 <- (x708 <- (make_discovery_reply_v1 true 54809958 37966949 (mkDevId 8457 5936 61 65541) 1 256) ;; ci_view true x708) ;; make_nak_reply_v1 true x709) ;; ci_view true x716) ;; message_version x721) ;; Ok (Z.eqb 1 x722));
    (x724 <- (x723 <- (x716 <- (x709 <- (x708 <- (make_discovery_reply_v1 true 54809958 37966949 (mkDevId 8457 5936 61 65541) 1 256) ;; ci_view true x708) ;; make_nak_reply_v1 true x709) ;; ci_view true x716) ;; source_muid x723) ;; Ok (Z.eqb 37966949 x724));
    (x726 <- (x725 <- (x716 <- (x709 <- (x708 <- (make_discovery_reply_v1 true 54809958 37966949 (mkDevId 8457 5936 61 65541) 1 256) ;; ci_view true x708) ;; make_nak_reply_v1 true x709) ;; ci_view true x716) ;; destination_muid x725) ;; Ok (Z.eqb 54809958 x726));
    (x728 <- (x727 <- (x716 <- (x709 <- (x708 <- (make_discovery_reply_v1 true 54809958 37966949 (mkDevId 8457 5936 61 65541) 1 256) ;; ci_view true x708) ;; make_nak_reply_v1 true x709) ;; ci_view true x716) ;; view_device_id x727) ;; Ok (Z.eqb 127 x728))].
Proof. vm_compute. repeat constructor. Qed.

(* line 1260 *)
Example test_make_nak_message : all_true [
    (x729 <- (make_nak_message true 37966949 19088743 4 54 16 20 [5; 4; 3; 2; 1] [65; 32; 109; 101; 115; 115; 97; 103; 101; 32; 116; 101; 120; 116]) ;; is_capability_inquiry_message x729);
    (x730 <- (make_nak_message true 37966949 19088743 4 54 16 20 [5; 4; 3; 2; 1] [65; 32; 109; 101; 115; 115; 97; 103; 101; 32; 116; 101; 120; 116]) ;; nak_validate x730);
    (x732 <- (x731 <- (make_nak_message true 37966949 19088743 4 54 16 20 [5; 4; 3; 2; 1] [65; 32; 109; 101; 115; 115; 97; 103; 101; 32; 116; 101; 120; 116]) ;; as_view true nak_validate x731) ;; Ok (opt_some x732));
    (x735 <- (x734 <- (x733 <- (make_nak_message true 37966949 19088743 4 54 16 20 [5; 4; 3; 2; 1] [65; 32; 109; 101; 115; 115; 97; 103; 101; 32; 116; 101; 120; 116]) ;; ci_view true x733) ;; view_device_id x734) ;; Ok (Z.eqb 4 x735));
    (x737 <- (x736 <- (x733 <- (make_nak_message true 37966949 19088743 4 54 16 20 [5; 4; 3; 2; 1] [65; 32; 109; 101; 115; 115; 97; 103; 101; 32; 116; 101; 120; 116]) ;; ci_view true x733) ;; view_type x736) ;; Ok (Z.eqb 32269 x737));
    (x739 <- (x738 <- (x733 <- (make_nak_message true 37966949 19088743 4 54 16 20 [5; 4; 3; 2; 1] [65; 32; 109; 101; 115; 115; 97; 103; 101; 32; 116; 101; 120; 116]) ;; ci_view true x733) ;; view_subtype x738) ;; Ok (Z.eqb 127 x739));
    (x741 <- (x740 <- (x733 <- (make_nak_message true 37966949 19088743 4 54 16 20 [5; 4; 3; 2; 1] [65; 32; 109; 101; 115; 115; 97; 103; 101; 32; 116; 101; 120; 116]) ;; ci_view true x733) ;; message_version x740) ;; Ok (Z.eqb 2 x741));
    (x743 <- (x742 <- (x733 <- (make_nak_message true 37966949 19088743 4 54 16 20 [5; 4; 3; 2; 1] [65; 32; 109; 101; 115; 115; 97; 103; 101; 32; 116; 101; 120; 116]) ;; ci_view true x733) ;; source_muid x742) ;; Ok (Z.eqb 37966949 x743));
    (x745 <- (x744 <- (x733 <- (make_nak_message true 37966949 19088743 4 54 16 20 [5; 4; 3; 2; 1] [65; 32; 109; 101; 115; 115; 97; 103; 101; 32; 116; 101; 120; 116]) ;; ci_view true x733) ;; destination_muid x744) ;; Ok (Z.eqb 19088743 x745));
    (x747 <- (x746 <- (x733 <- (make_nak_message true 37966949 19088743 4 54 16 20 [5; 4; 3; 2; 1] [65; 32; 109; 101; 115; 115; 97; 103; 101; 32; 116; 101; 120; 116]) ;; ci_view true x733) ;; nack_transaction x746) ;; Ok (Z.eqb 54 x747));
    (x749 <- (x748 <- (x733 <- (make_nak_message true 37966949 19088743 4 54 16 20 [5; 4; 3; 2; 1] [65; 32; 109; 101; 115; 115; 97; 103; 101; 32; 116; 101; 120; 116]) ;; ci_view true x733) ;; nack_status_code x748) ;; Ok (Z.eqb 16 x749));
    (x751 <- (x750 <- (x733 <- (make_nak_message true 37966949 19088743 4 54 16 20 [5; 4; 3; 2; 1] [65; 32; 109; 101; 115; 115; 97; 103; 101; 32; 116; 101; 120; 116]) ;; ci_view true x733) ;; nack_status_data x750) ;; Ok (Z.eqb 20 x751));
    (x753 <- (x752 <- (x733 <- (make_nak_message true 37966949 19088743 4 54 16 20 [5; 4; 3; 2; 1] [65; 32; 109; 101; 115; 115; 97; 103; 101; 32; 116; 101; 120; 116]) ;; ci_view true x733) ;; nack_details x752) ;; Ok (prefix_eqb 5 [5; 4; 3; 2; 1] x753));
    (x755 <- (x754 <- (x733 <- (make_nak_message true 37966949 19088743 4 54 16 20 [5; 4; 3; 2; 1] [65; 32; 109; 101; 115; 115; 97; 103; 101; 32; 116; 101; 120; 116]) ;; ci_view true x733) ;; nack_message_length x754) ;; Ok (Z.eqb 14 x755));
    (x757 <- (x756 <- (x733 <- (make_nak_message true 37966949 19088743 4 54 16 20 [5; 4; 3; 2; 1] [65; 32; 109; 101; 115; 115; 97; 103; 101; 32; 116; 101; 120; 116]) ;; ci_view true x733) ;; nack_message x756) ;; Ok (list_eqb x757 [65; 32; 109; 101; 115; 115; 97; 103; 101; 32; 116; 101; 120; 116]));
    (x760 <- (x759 <- (x758 <- (make_notify_message true 43862066 92193834 42 0 9) ;; ci_view true x758) ;; make_nak_reply true x759 88 15 [5; 4; 3; 2; 1] [87; 104; 97; 116; 63; 33; 63]) ;; is_capability_inquiry_message x760);
    (x761 <- (x759 <- (x758 <- (make_notify_message true 43862066 92193834 42 0 9) ;; ci_view true x758) ;; make_nak_reply true x759 88 15 [5; 4; 3; 2; 1] [87; 104; 97; 116; 63; 33; 63]) ;; nak_validate x761);
    (x763 <- (x762 <- (x759 <- (x758 <- (make_notify_message true 43862066 92193834 42 0 9) ;; ci_view true x758) ;; make_nak_reply true x759 88 15 [5; 4; 3; 2; 1] [87; 104; 97; 116; 63; 33; 63]) ;; as_view true nak_validate x762) ;; Ok (opt_some x763));
    (x766 <- (x765 <- (x764 <- (x759 <- (x758 <- (make_notify_message true 43862066 92193834 42 0 9) ;; ci_view true x758) ;; make_nak_reply true x759 88 15 [5; 4; 3; 2; 1] [87; 104; 97; 116; 63; 33; 63]) ;; ci_view true x764) ;; view_device_id x765) ;; Ok (Z.eqb 9 x766));
    (x768 <- (x767 <- (x764 <- (x759 <- (x758 <- (make_notify_message true 43862066 92193834 42 0 9) ;; ci_view true x758) ;; make_nak_reply true x759 88 15 [5; 4; 3; 2; 1] [87; 104; 97; 116; 63; 33; 63]) ;; ci_view true x764) ;; view_type x767) ;; Ok (Z.eqb 32269 x768));
    (x770 <- (x769 <- (x764 <- (x759 <- (x758 <- (make_notify_message true 43862066 92193834 42 0 9) ;; ci_view true x758) ;; make_nak_reply true x759 88 15 [5; 4; 3; 2; 1] [87; 104; 97; 116; 63; 33; 63]) ;; ci_view true x764) ;; view_subtype x769) ;; Ok (Z.eqb 127 x770));
    (x772 <- (x771 <- (x764 <- (x759 <- (x758 <- (make_notify_message true 43862066 92193834 42 0 9) ;; ci_view true x758) ;; make_nak_reply true x759 88 15 [5; 4; 3; 2; 1] [87; 104; 97; 116; 63; 33; 63]) ;; ci_view true x764) ;; message_version x771) ;; Ok (Z.eqb 2 x772));
    (x774 <- (x773 <- (x764 <- (x759 <- (x758 <- (make_notify_message true 43862066 92193834 42 0 9) ;; ci_view true x758) ;; make_nak_reply true x759 88 15 [5; 4; 3; 2; 1] [87; 104; 97; 116; 63; 33; 63]) ;; ci_view true x764) ;; source_muid x773) ;; Ok (Z.eqb 92193834 x774));
    (x776 <- (x775 <- (x764 <- (x759 <- (x758 <- (make_notify_message true 43862066 92193834 42 0 9) ;; ci_view true x758) ;; make_nak_reply true x759 88 15 [5; 4; 3; 2; 1] [87; 104; 97; 116; 63; 33; 63]) ;; ci_view true x764) ;; destination_muid x775) ;; Ok (Z.eqb 43862066 x776));
    (x778 <- (x777 <- (x764 <- (x759 <- (x758 <- (make_notify_message true 43862066 92193834 42 0 9) ;; ci_view true x758) ;; make_nak_reply true x759 88 15 [5; 4; 3; 2; 1] [87; 104; 97; 116; 63; 33; 63]) ;; ci_view true x764) ;; nack_transaction x777) ;; Ok (Z.eqb 63 x778));
    (x780 <- (x779 <- (x764 <- (x759 <- (x758 <- (make_notify_message true 43862066 92193834 42 0 9) ;; ci_view true x758) ;; make_nak_reply true x759 88 15 [5; 4; 3; 2; 1] [87; 104; 97; 116; 63; 33; 63]) ;; ci_view true x764) ;; nack_status_code x779) ;; Ok (Z.eqb 88 x780));
    (x782 <- (x781 <- (x764 <- (x759 <- (x758 <- (make_notify_message true 43862066 92193834 42 0 9) ;; ci_view true x758) ;; make_nak_reply true x759 88 15 [5; 4; 3; 2; 1] [87; 104; 97; 116; 63; 33; 63]) ;; ci_view true x764) ;; nack_status_data x781) ;; Ok (Z.eqb 15 x782));
    (x784 <- (x783 <- (x764 <- (x759 <- (x758 <- (make_notify_message true 43862066 92193834 42 0 9) ;; ci_view true x758) ;; make_nak_reply true x759 88 15 [5; 4; 3; 2; 1] [87; 104; 97; 116; 63; 33; 63]) ;; ci_view true x764) ;; nack_details x783) ;; Ok (prefix_eqb 5 [5; 4; 3; 2; 1] x784));
    (x786 <- (x785 <- (x764 <- (x759 <- (x758 <- (make_notify_message true 43862066 92193834 42 0 9) ;; ci_view true x758) ;; make_nak_reply true x759 88 15 [5; 4; 3; 2; 1] [87; 104; 97; 116; 63; 33; 63]) ;; ci_view true x764) ;; nack_message_length x785) ;; Ok (Z.eqb 7 x786));
    (x788 <- (x787 <- (x764 <- (x759 <- (x758 <- (make_notify_message true 43862066 92193834 42 0 9) ;; ci_view true x758) ;; make_nak_reply true x759 88 15 [5; 4; 3; 2; 1] [87; 104; 97; 116; 63; 33; 63]) ;; ci_view true x764) ;; nack_message x787) ;; Ok (list_eqb x788 [87; 104; 97; 116; 63; 33; 63]))].
Proof. vm_compute. repeat constructor. Qed.

(* ---- tests/ci_process_inquiry_tests.cpp ---- *)


(* line 36 *)
Example test_process_inquiry_capabilities_inquiry : all_true [
    (x790 <- (x789 <- (make_process_inquiry_capabilities_inquiry true 124147012 38611832 8) ;; Ok (dsize x789)) ;; Ok (Z.eqb 12 x790));
    (x791 <- (make_process_inquiry_capabilities_inquiry true 124147012 38611832 8) ;; ci_validate x791);
    (x793 <- (x792 <- (make_process_inquiry_capabilities_inquiry true 124147012 38611832 8) ;; as_view true ci_validate x792) ;; Ok (opt_some x793));
    (x796 <- (x795 <- (x794 <- (make_process_inquiry_capabilities_inquiry true 124147012 38611832 8) ;; ci_view true x794) ;; view_device_id x795) ;; Ok (Z.eqb 8 x796));
    (x798 <- (x797 <- (x794 <- (make_process_inquiry_capabilities_inquiry true 124147012 38611832 8) ;; ci_view true x794) ;; message_version x797) ;; Ok (Z.eqb 2 x798));
    (x800 <- (x799 <- (x794 <- (make_process_inquiry_capabilities_inquiry true 124147012 38611832 8) ;; ci_view true x794) ;; source_muid x799) ;; Ok (Z.eqb 124147012 x800));
    (x802 <- (x801 <- (x794 <- (make_process_inquiry_capabilities_inquiry true 124147012 38611832 8) ;; ci_view true x794) ;; destination_muid x801) ;; Ok (Z.eqb 38611832 x802))].
Proof. vm_compute. repeat constructor. Qed.

(* line 63 *)
Example test_process_inquiry_capabilities_reply : all_true [
    (x804 <- (x803 <- (make_process_inquiry_capabilities_reply true 124147012 38611832 19 8) ;; Ok (dsize x803)) ;; Ok (Z.eqb 13 x804));
    (x805 <- (make_process_inquiry_capabilities_reply true 124147012 38611832 19 8) ;; is_capability_inquiry_message x805);
    (x806 <- (make_process_inquiry_capabilities_reply true 124147012 38611832 19 8) ;; process_capabilities_reply_validate x806);
    (x809 <- (x808 <- (x807 <- (make_process_inquiry_capabilities_reply true 124147012 38611832 19 8) ;; ci_view true x807) ;; message_version x808) ;; Ok (Z.eqb 2 x809));
    (x811 <- (x810 <- (x807 <- (make_process_inquiry_capabilities_reply true 124147012 38611832 19 8) ;; ci_view true x807) ;; source_muid x810) ;; Ok (Z.eqb 124147012 x811));
    (x813 <- (x812 <- (x807 <- (make_process_inquiry_capabilities_reply true 124147012 38611832 19 8) ;; ci_view true x807) ;; destination_muid x812) ;; Ok (Z.eqb 38611832 x813));
    (x815 <- (x814 <- (x807 <- (make_process_inquiry_capabilities_reply true 124147012 38611832 19 8) ;; ci_view true x807) ;; view_device_id x814) ;; Ok (Z.eqb 8 x815));
    (x817 <- (x816 <- (x807 <- (make_process_inquiry_capabilities_reply true 124147012 38611832 19 8) ;; ci_view true x807) ;; supported_features x816) ;; Ok (Z.eqb 19 x817))].
Proof. vm_compute. repeat constructor. Qed.

(* line 91 *)
Example test_midi_message_report_inquiry : all_true [
    (x819 <- (x818 <- (make_midi_message_report_inquiry true 124147012 38611832 18 52 86 120 4) ;; Ok (dsize x818)) ;; Ok (Z.eqb 17 x819));
    (x820 <- (make_midi_message_report_inquiry true 124147012 38611832 18 52 86 120 4) ;; is_capability_inquiry_message x820);
    (x821 <- (make_midi_message_report_inquiry true 124147012 38611832 18 52 86 120 4) ;; report_inquiry_validate x821);
    (x824 <- (x823 <- (x822 <- (make_midi_message_report_inquiry true 124147012 38611832 18 52 86 120 4) ;; ci_view true x822) ;; report_inquiry_data_control x823) ;; Ok (Z.eqb 18 x824));
    (x826 <- (x825 <- (x822 <- (make_midi_message_report_inquiry true 124147012 38611832 18 52 86 120 4) ;; ci_view true x822) ;; report_inquiry_system x825) ;; Ok (Z.eqb 52 x826));
    (x828 <- (x827 <- (x822 <- (make_midi_message_report_inquiry true 124147012 38611832 18 52 86 120 4) ;; ci_view true x822) ;; report_inquiry_controller x827) ;; Ok (Z.eqb 86 x828));
    (x830 <- (x829 <- (x822 <- (make_midi_message_report_inquiry true 124147012 38611832 18 52 86 120 4) ;; ci_view true x822) ;; report_inquiry_note x829) ;; Ok (Z.eqb 120 x830));
    (x832 <- (x831 <- (x822 <- (make_midi_message_report_inquiry true 124147012 38611832 18 52 86 120 4) ;; ci_view true x822) ;; view_device_id x831) ;; Ok (Z.eqb 4 x832));
    (x834 <- (x833 <- (x822 <- (make_midi_message_report_inquiry true 124147012 38611832 18 52 86 120 4) ;; ci_view true x822) ;; message_version x833) ;; Ok (Z.eqb 2 x834));
    (x836 <- (x835 <- (x822 <- (make_midi_message_report_inquiry true 124147012 38611832 18 52 86 120 4) ;; ci_view true x822) ;; source_muid x835) ;; Ok (Z.eqb 124147012 x836));
    (x838 <- (x837 <- (x822 <- (make_midi_message_report_inquiry true 124147012 38611832 18 52 86 120 4) ;; ci_view true x822) ;; destination_muid x837) ;; Ok (Z.eqb 38611832 x838))].
Proof. vm_compute. repeat constructor. Qed.

(* line 123 *)
Example test_midi_message_report_reply : all_true [
    (x840 <- (x839 <- (make_midi_message_report_reply true 124147012 118 84 50 10) ;; Ok (dsize x839)) ;; Ok (Z.eqb 16 x840));
    (x841 <- (make_midi_message_report_reply true 124147012 118 84 50 10) ;; is_capability_inquiry_message x841);
    (x842 <- (make_midi_message_report_reply true 124147012 118 84 50 10) ;; report_reply_validate x842);
    (x845 <- (x844 <- (x843 <- (make_midi_message_report_reply true 124147012 118 84 50 10) ;; ci_view true x843) ;; report_reply_system x844) ;; Ok (Z.eqb 118 x845));
    (x847 <- (x846 <- (x843 <- (make_midi_message_report_reply true 124147012 118 84 50 10) ;; ci_view true x843) ;; report_reply_controller x846) ;; Ok (Z.eqb 84 x847));
    (x849 <- (x848 <- (x843 <- (make_midi_message_report_reply true 124147012 118 84 50 10) ;; ci_view true x843) ;; report_reply_note x848) ;; Ok (Z.eqb 50 x849));
    (x851 <- (x850 <- (x843 <- (make_midi_message_report_reply true 124147012 118 84 50 10) ;; ci_view true x843) ;; view_device_id x850) ;; Ok (Z.eqb 10 x851));
    (x853 <- (x852 <- (x843 <- (make_midi_message_report_reply true 124147012 118 84 50 10) ;; ci_view true x843) ;; message_version x852) ;; Ok (Z.eqb 2 x853));
    (x855 <- (x854 <- (x843 <- (make_midi_message_report_reply true 124147012 118 84 50 10) ;; ci_view true x843) ;; source_muid x854) ;; Ok (Z.eqb 124147012 x855));
    (x857 <- (x856 <- (x843 <- (make_midi_message_report_reply true 124147012 118 84 50 10) ;; ci_view true x843) ;; destination_muid x856) ;; Ok (Z.eqb 268435455 x857))].
Proof. vm_compute. repeat constructor. Qed.

(* line 154 *)
Example test_midi_message_report_end : all_true [
    (x859 <- (x858 <- (make_midi_message_report_end true 124147012 3) ;; Ok (dsize x858)) ;; Ok (Z.eqb 12 x859));
    (x860 <- (make_midi_message_report_end true 124147012 3) ;; is_capability_inquiry_message x860);
    (x861 <- (make_midi_message_report_end true 124147012 3) ;; ci_validate x861);
    (x864 <- (x863 <- (x862 <- (make_midi_message_report_end true 124147012 3) ;; ci_view true x862) ;; view_device_id x863) ;; Ok (Z.eqb 3 x864));
    (x866 <- (x865 <- (x862 <- (make_midi_message_report_end true 124147012 3) ;; ci_view true x862) ;; message_version x865) ;; Ok (Z.eqb 2 x866));
    (x868 <- (x867 <- (x862 <- (make_midi_message_report_end true 124147012 3) ;; ci_view true x862) ;; source_muid x867) ;; Ok (Z.eqb 124147012 x868));
    (x870 <- (x869 <- (x862 <- (make_midi_message_report_end true 124147012 3) ;; ci_view true x862) ;; destination_muid x869) ;; Ok (Z.eqb 268435455 x870))].
Proof. vm_compute. repeat constructor. Qed.

