(* The unit tests of tests/universal_sysex_tests.cpp, tests/sysex_tests.cpp, run on the model with assertions.
   These are checks of the model against the results its authors expect of the code, not proofs. *)
From Coq Require Import ZArith List Bool.
From Verif Require Import Base Packet Messages Sysex UniversalSysex CapInq PropEx TestsBase.
Import ListNotations.
Local Open Scope Z_scope.
Local Open Scope res_scope.

(* ---- tests/universal_sysex_tests.cpp ---- *)


(* line 14 *)
Example test_sysex7 : all_true [
    (b_ <- (Ok (is_universal_sysex_message (mkSx 0x7E0000 []))) ;; Ok (negb b_));
    (x1 <- (universal_sysex_device_id_of (mkSx 0x7E0000 [])) ;; Ok (Z.eqb 255 x1));
    (x2 <- (universal_sysex_type_of (mkSx 0x7E0000 [])) ;; Ok (Z.eqb 0 x2));
    (x3 <- (universal_sysex_subtype_of (mkSx 0x7E0000 [])) ;; Ok (Z.eqb 0 x3));
    (b_ <- (Ok (is_universal_sysex_message (mkSx 0x7F0000 [170]))) ;; Ok (negb b_));
    (x4 <- (universal_sysex_device_id_of (mkSx 0x7F0000 [170])) ;; Ok (Z.eqb 255 x4));
    (x5 <- (universal_sysex_type_of (mkSx 0x7F0000 [170])) ;; Ok (Z.eqb 0 x5));
    (x6 <- (universal_sysex_subtype_of (mkSx 0x7F0000 [170])) ;; Ok (Z.eqb 0 x6));
    (b_ <- (Ok (is_universal_sysex_message (mkSx 0x040000 [18; 52; 86; 120]))) ;; Ok (negb b_));
    (Ok (is_universal_sysex_message (mkSx 0x7E0000 [127; 1])));
    (x7 <- (universal_sysex_device_id_of (mkSx 0x7E0000 [127; 1])) ;; Ok (Z.eqb 127 x7));
    (x8 <- (universal_sysex_type_of (mkSx 0x7E0000 [127; 1])) ;; Ok (Z.eqb 32257 x8));
    (x9 <- (universal_sysex_subtype_of (mkSx 0x7E0000 [127; 1])) ;; Ok (Z.eqb 0 x9));
    (x11 <- (x10 <- (message_view true (mkSx 0x7E0000 [127; 1])) ;; view_device_id x10) ;; Ok (Z.eqb 127 x11));
    (x13 <- (x12 <- (message_view true (mkSx 0x7E0000 [127; 1])) ;; view_type x12) ;; Ok (Z.eqb 32257 x13));
    (x15 <- (x14 <- (message_view true (mkSx 0x7E0000 [127; 1])) ;; view_subtype x14) ;; Ok (Z.eqb 0 x15));
    (Ok (is_universal_sysex_message (mkSx 0x7F0000 [4; 1; 1; 26; 43; 60; 77])));
    (x16 <- (universal_sysex_device_id_of (mkSx 0x7F0000 [4; 1; 1; 26; 43; 60; 77])) ;; Ok (Z.eqb 4 x16));
    (x17 <- (universal_sysex_type_of (mkSx 0x7F0000 [4; 1; 1; 26; 43; 60; 77])) ;; Ok (Z.eqb 32513 x17));
    (x18 <- (universal_sysex_subtype_of (mkSx 0x7F0000 [4; 1; 1; 26; 43; 60; 77])) ;; Ok (Z.eqb 1 x18));
    (x20 <- (x19 <- (message_view true (mkSx 0x7F0000 [4; 1; 1; 26; 43; 60; 77])) ;; view_device_id x19) ;; Ok (Z.eqb 4 x20));
    (x22 <- (x21 <- (message_view true (mkSx 0x7F0000 [4; 1; 1; 26; 43; 60; 77])) ;; view_type x21) ;; Ok (Z.eqb 32513 x22));
    (x24 <- (x23 <- (message_view true (mkSx 0x7F0000 [4; 1; 1; 26; 43; 60; 77])) ;; view_subtype x23) ;; Ok (Z.eqb 1 x24));
    (x26 <- (x25 <- (message_view true (mkSx 0x7F0000 [4; 1; 1; 26; 43; 60; 77])) ;; Ok (view_data_size x25)) ;; Ok (Z.eqb 7 x26))].
Proof. vm_compute. repeat constructor. Qed.

(* line 83 *)
Example test_set_device_id : all_true [
    (Ok (is_universal_sysex_message (mkSx 0x7F0000 [4; 1; 1; 26; 43; 60; 77])));
    (x27 <- (message_device_id (mkSx 0x7F0000 [4; 1; 1; 26; 43; 60; 77])) ;; Ok (Z.eqb 4 x27));
    (x29 <- (x28 <- (set_device_id true (mkSx 0x7F0000 [4; 1; 1; 26; 43; 60; 77]) 9) ;; message_device_id x28) ;; Ok (Z.eqb 9 x29))].
Proof. vm_compute. repeat constructor. Qed.

(* line 102 *)
Example test_universal_sysex_view : all_true [
    (b_ <- (x30 <- (as_universal_sysex_view true (mkSx 0x7E0000 [])) ;; Ok (opt_some x30)) ;; Ok (negb b_));
    (b_ <- (x31 <- (as_universal_sysex_view true (mkSx 0x7F0000 [170])) ;; Ok (opt_some x31)) ;; Ok (negb b_));
    (b_ <- (x32 <- (as_universal_sysex_view true (mkSx 0x040000 [18; 52; 86; 120])) ;; Ok (opt_some x32)) ;; Ok (negb b_));
    (x33 <- (as_universal_sysex_view true (mkSx 0x7E0000 [127; 1])) ;; Ok (opt_some x33));
    (x36 <- (x35 <- (x34 <- (as_universal_sysex_view true (mkSx 0x7E0000 [127; 1])) ;; opt_get x34) ;; view_device_id x35) ;; Ok (Z.eqb 127 x36));
    (x39 <- (x38 <- (x37 <- (as_universal_sysex_view true (mkSx 0x7E0000 [127; 1])) ;; opt_get x37) ;; view_type x38) ;; Ok (Z.eqb 32257 x39));
    (x42 <- (x41 <- (x40 <- (as_universal_sysex_view true (mkSx 0x7E0000 [127; 1])) ;; opt_get x40) ;; view_subtype x41) ;; Ok (Z.eqb 0 x42));
    (x43 <- (as_universal_sysex_view true (mkSx 0x7F0000 [4; 1; 1; 26; 43; 60; 77])) ;; Ok (opt_some x43));
    (x46 <- (x45 <- (x44 <- (as_universal_sysex_view true (mkSx 0x7F0000 [4; 1; 1; 26; 43; 60; 77])) ;; opt_get x44) ;; view_device_id x45) ;; Ok (Z.eqb 4 x46));
    (x49 <- (x48 <- (x47 <- (as_universal_sysex_view true (mkSx 0x7F0000 [4; 1; 1; 26; 43; 60; 77])) ;; opt_get x47) ;; view_type x48) ;; Ok (Z.eqb 32513 x49));
    (x52 <- (x51 <- (x50 <- (as_universal_sysex_view true (mkSx 0x7F0000 [4; 1; 1; 26; 43; 60; 77])) ;; opt_get x50) ;; view_subtype x51) ;; Ok (Z.eqb 1 x52));
    (x55 <- (x54 <- (x53 <- (as_universal_sysex_view true (mkSx 0x7F0000 [4; 1; 1; 26; 43; 60; 77])) ;; opt_get x53) ;; Ok (view_data_size x54)) ;; Ok (Z.eqb 7 x55))].
Proof. vm_compute. repeat constructor. Qed.

(* line 152 *)
Example test_identity_request : all_true [
    (x57 <- (x56 <- (message_view true (mkSx 0x7E0000 [127; 6; 1])) ;; view_device_id x56) ;; Ok (Z.eqb 127 x57));
    (x59 <- (x58 <- (message_view true (mkSx 0x7E0000 [127; 6; 1])) ;; view_type x58) ;; Ok (Z.eqb 32262 x59));
    (x61 <- (x60 <- (message_view true (mkSx 0x7E0000 [127; 6; 1])) ;; view_subtype x60) ;; Ok (Z.eqb 1 x61));
    (is_identity_request (mkSx 0x7E0000 [127; 6; 1]));
    (b_ <- (is_identity_request (mkSx 0x7E0000 [127; 6; 2])) ;; Ok (negb b_));
    (b_ <- (is_identity_request (mkSx 0x7E0000 [127; 2; 1])) ;; Ok (negb b_));
    (b_ <- (is_identity_request (mkSx 0x002109 [4; 5; 6; 7; 8; 9; 10; 11; 12; 13; 14; 247])) ;; Ok (negb b_));
    (Ok (is_universal_sysex_message (make_identity_request 127)));
    (x62 <- (message_device_id (make_identity_request 127)) ;; Ok (Z.eqb 127 x62));
    (x63 <- (message_type (make_identity_request 127)) ;; Ok (Z.eqb 32262 x63));
    (x64 <- (message_subtype (make_identity_request 127)) ;; Ok (Z.eqb 1 x64));
    (is_identity_request (make_identity_request 127));
    (Ok (sysex_eq (make_identity_request 127) (make_identity_request 127)));
    (Ok (is_universal_sysex_message (make_identity_request 5)));
    (x65 <- (message_device_id (make_identity_request 5)) ;; Ok (Z.eqb 5 x65));
    (x66 <- (message_type (make_identity_request 5)) ;; Ok (Z.eqb 32262 x66));
    (x67 <- (message_subtype (make_identity_request 5)) ;; Ok (Z.eqb 1 x67));
    (is_identity_request (make_identity_request 5));
    (Ok (sysex_eq (make_identity_request 5) (make_identity_request 5)))].
Proof. vm_compute. repeat constructor. Qed.

(* line 227 *)
Example test_identity_reply : all_true [
    (x69 <- (x68 <- (message_view true (mkSx 0x7E0000 [0; 6; 2; 65; 115; 82; 52; 18; 0; 7; 124; 68])) ;; view_device_id x68) ;; Ok (Z.eqb 0 x69));
    (x71 <- (x70 <- (message_view true (mkSx 0x7E0000 [0; 6; 2; 65; 115; 82; 52; 18; 0; 7; 124; 68])) ;; view_type x70) ;; Ok (Z.eqb 32262 x71));
    (x73 <- (x72 <- (message_view true (mkSx 0x7E0000 [0; 6; 2; 65; 115; 82; 52; 18; 0; 7; 124; 68])) ;; view_subtype x72) ;; Ok (Z.eqb 2 x73));
    (is_identity_reply (mkSx 0x7E0000 [0; 6; 2; 65; 115; 82; 52; 18; 0; 7; 124; 68]));
    (x74 <- (as_identity_reply_view true (mkSx 0x7E0000 [0; 6; 2; 65; 115; 82; 52; 18; 0; 7; 124; 68])) ;; Ok (opt_some x74));
    (x76 <- (x75 <- (message_view true (mkSx 0x7E0000 [0; 6; 2; 65; 115; 82; 52; 18; 0; 7; 124; 68])) ;; as_identity_reply_view true x75) ;; Ok (opt_some x76));
    (x78 <- (x77 <- (message_view true (mkSx 0x7E0000 [0; 6; 2; 65; 115; 82; 52; 18; 0; 7; 124; 68])) ;; view_device_id x77) ;; Ok (Z.eqb 0 x78));
    (x81 <- (x80 <- (x79 <- (message_view true (mkSx 0x7E0000 [0; 6; 2; 65; 115; 82; 52; 18; 0; 7; 124; 68])) ;; reply_identity x79) ;; Ok (di_manufacturer x80)) ;; Ok (Z.eqb 4259840 x81));
    (x83 <- (x82 <- (x79 <- (message_view true (mkSx 0x7E0000 [0; 6; 2; 65; 115; 82; 52; 18; 0; 7; 124; 68])) ;; reply_identity x79) ;; Ok (di_family x82)) ;; Ok (Z.eqb 10611 x83));
    (x85 <- (x84 <- (x79 <- (message_view true (mkSx 0x7E0000 [0; 6; 2; 65; 115; 82; 52; 18; 0; 7; 124; 68])) ;; reply_identity x79) ;; Ok (di_model x84)) ;; Ok (Z.eqb 2356 x85));
    (x87 <- (x86 <- (x79 <- (message_view true (mkSx 0x7E0000 [0; 6; 2; 65; 115; 82; 52; 18; 0; 7; 124; 68])) ;; reply_identity x79) ;; Ok (di_revision x86)) ;; Ok (Z.eqb 144638848 x87));
    (x89 <- (x88 <- (message_view true (mkSx 0x7E0000 [84; 6; 2; 0; 33; 9; 48; 46; 49; 0; 5; 4; 4; 0])) ;; view_device_id x88) ;; Ok (Z.eqb 84 x89));
    (x91 <- (x90 <- (message_view true (mkSx 0x7E0000 [84; 6; 2; 0; 33; 9; 48; 46; 49; 0; 5; 4; 4; 0])) ;; view_type x90) ;; Ok (Z.eqb 32262 x91));
    (x93 <- (x92 <- (message_view true (mkSx 0x7E0000 [84; 6; 2; 0; 33; 9; 48; 46; 49; 0; 5; 4; 4; 0])) ;; view_subtype x92) ;; Ok (Z.eqb 2 x93));
    (is_identity_reply (mkSx 0x7E0000 [84; 6; 2; 0; 33; 9; 48; 46; 49; 0; 5; 4; 4; 0]));
    (x94 <- (as_identity_reply_view true (mkSx 0x7E0000 [84; 6; 2; 0; 33; 9; 48; 46; 49; 0; 5; 4; 4; 0])) ;; Ok (opt_some x94));
    (x96 <- (x95 <- (message_view true (mkSx 0x7E0000 [84; 6; 2; 0; 33; 9; 48; 46; 49; 0; 5; 4; 4; 0])) ;; as_identity_reply_view true x95) ;; Ok (opt_some x96));
    (x98 <- (x97 <- (message_view true (mkSx 0x7E0000 [84; 6; 2; 0; 33; 9; 48; 46; 49; 0; 5; 4; 4; 0])) ;; view_device_id x97) ;; Ok (Z.eqb 84 x98));
    (x101 <- (x100 <- (x99 <- (message_view true (mkSx 0x7E0000 [84; 6; 2; 0; 33; 9; 48; 46; 49; 0; 5; 4; 4; 0])) ;; reply_identity x99) ;; Ok (di_manufacturer x100)) ;; Ok (Z.eqb 8457 x101));
    (x103 <- (x102 <- (x99 <- (message_view true (mkSx 0x7E0000 [84; 6; 2; 0; 33; 9; 48; 46; 49; 0; 5; 4; 4; 0])) ;; reply_identity x99) ;; Ok (di_family x102)) ;; Ok (Z.eqb 5936 x103));
    (x105 <- (x104 <- (x99 <- (message_view true (mkSx 0x7E0000 [84; 6; 2; 0; 33; 9; 48; 46; 49; 0; 5; 4; 4; 0])) ;; reply_identity x99) ;; Ok (di_model x104)) ;; Ok (Z.eqb 49 x105));
    (x107 <- (x106 <- (x99 <- (message_view true (mkSx 0x7E0000 [84; 6; 2; 0; 33; 9; 48; 46; 49; 0; 5; 4; 4; 0])) ;; reply_identity x99) ;; Ok (di_revision x106)) ;; Ok (Z.eqb 66053 x107));
    (b_ <- (is_identity_reply (mkSx 0x7E0000 [127; 6; 1])) ;; Ok (negb b_));
    (b_ <- (x108 <- (as_identity_reply_view true (mkSx 0x7E0000 [127; 6; 1])) ;; Ok (opt_some x108)) ;; Ok (negb b_));
    (b_ <- (is_identity_reply (mkSx 0x002109 [4; 5; 6; 7; 8; 9; 10; 11; 12; 13; 14; 247])) ;; Ok (negb b_));
    (b_ <- (x109 <- (as_identity_reply_view true (mkSx 0x002109 [4; 5; 6; 7; 8; 9; 10; 11; 12; 13; 14; 247])) ;; Ok (opt_some x109)) ;; Ok (negb b_));
    (b_ <- (is_identity_reply (mkSx 0x7E0000 [84; 6; 2; 0; 33; 9; 48; 23; 49; 0; 5; 2; 1])) ;; Ok (negb b_));
    (b_ <- (x110 <- (as_identity_reply_view true (mkSx 0x7E0000 [84; 6; 2; 0; 33; 9; 48; 23; 49; 0; 5; 2; 1])) ;; Ok (opt_some x110)) ;; Ok (negb b_));
    (x111 <- (identity_reply true 8457 6144 32 256 127) ;; Ok (is_universal_sysex_message x111));
    (x113 <- (x112 <- (identity_reply true 8457 6144 32 256 127) ;; message_device_id x112) ;; Ok (Z.eqb 127 x113));
    (x115 <- (x114 <- (identity_reply true 8457 6144 32 256 127) ;; message_type x114) ;; Ok (Z.eqb 32262 x115));
    (x117 <- (x116 <- (identity_reply true 8457 6144 32 256 127) ;; message_subtype x116) ;; Ok (Z.eqb 2 x117));
    (x118 <- (identity_reply true 8457 6144 32 256 127) ;; is_identity_reply x118);
    (x120 <- (x119 <- (identity_reply true 8457 6144 32 256 127) ;; as_identity_reply_view true x119) ;; Ok (opt_some x120));
    (x123 <- (x122 <- (x121 <- (identity_reply true 8457 6144 32 256 127) ;; message_view true x121) ;; as_identity_reply_view true x122) ;; Ok (opt_some x123));
    (x127 <- (x126 <- (x125 <- (x124 <- (identity_reply true 8457 6144 32 256 127) ;; message_view true x124) ;; reply_identity x125) ;; Ok (di_manufacturer x126)) ;; Ok (Z.eqb 8457 x127));
    (x129 <- (x128 <- (x125 <- (x124 <- (identity_reply true 8457 6144 32 256 127) ;; message_view true x124) ;; reply_identity x125) ;; Ok (di_family x128)) ;; Ok (Z.eqb 6144 x129));
    (x131 <- (x130 <- (x125 <- (x124 <- (identity_reply true 8457 6144 32 256 127) ;; message_view true x124) ;; reply_identity x125) ;; Ok (di_model x130)) ;; Ok (Z.eqb 32 x131));
    (x133 <- (x132 <- (x125 <- (x124 <- (identity_reply true 8457 6144 32 256 127) ;; message_view true x124) ;; reply_identity x125) ;; Ok (di_revision x132)) ;; Ok (Z.eqb 256 x133));
    (x134 <- (identity_reply true 8457 6144 32 256 127) ;; x135 <- (identity_reply true 8457 6144 32 256 127) ;; Ok (sysex_eq x134 x135));
    (x136 <- (identity_reply true 4063232 4660 10863 19088743 128) ;; Ok (is_universal_sysex_message x136));
    (x138 <- (x137 <- (identity_reply true 4063232 4660 10863 19088743 128) ;; message_device_id x137) ;; Ok (Z.eqb 128 x138));
    (x140 <- (x139 <- (identity_reply true 4063232 4660 10863 19088743 128) ;; message_type x139) ;; Ok (Z.eqb 32262 x140));
    (x142 <- (x141 <- (identity_reply true 4063232 4660 10863 19088743 128) ;; message_subtype x141) ;; Ok (Z.eqb 2 x142));
    (x143 <- (identity_reply true 4063232 4660 10863 19088743 128) ;; is_identity_reply x143);
    (x145 <- (x144 <- (identity_reply true 4063232 4660 10863 19088743 128) ;; as_identity_reply_view true x144) ;; Ok (opt_some x145));
    (x148 <- (x147 <- (x146 <- (identity_reply true 4063232 4660 10863 19088743 128) ;; message_view true x146) ;; as_identity_reply_view true x147) ;; Ok (opt_some x148));
    (x152 <- (x151 <- (x150 <- (x149 <- (identity_reply true 4063232 4660 10863 19088743 128) ;; message_view true x149) ;; reply_identity x150) ;; Ok (di_manufacturer x151)) ;; Ok (Z.eqb 4063232 x152));
    (x154 <- (x153 <- (x150 <- (x149 <- (identity_reply true 4063232 4660 10863 19088743 128) ;; message_view true x149) ;; reply_identity x150) ;; Ok (di_family x153)) ;; Ok (Z.eqb 4660 x154));
    (x156 <- (x155 <- (x150 <- (x149 <- (identity_reply true 4063232 4660 10863 19088743 128) ;; message_view true x149) ;; reply_identity x150) ;; Ok (di_model x155)) ;; Ok (Z.eqb 10863 x156));
    (x158 <- (x157 <- (x150 <- (x149 <- (identity_reply true 4063232 4660 10863 19088743 128) ;; message_view true x149) ;; reply_identity x150) ;; Ok (di_revision x157)) ;; Ok (Z.eqb 19088743 x158));
    (x159 <- (identity_reply true 4063232 4660 10863 19088743 128) ;; x160 <- (identity_reply true 4063232 4660 10863 19088743 128) ;; Ok (sysex_eq x159 x160));
    (x161 <- (make_identity_reply true (mkDevId 4063232 8870 15423 36984440)) ;; Ok (is_universal_sysex_message x161));
    (x163 <- (x162 <- (make_identity_reply true (mkDevId 4063232 8870 15423 36984440)) ;; message_device_id x162) ;; Ok (Z.eqb 127 x163));
    (x165 <- (x164 <- (make_identity_reply true (mkDevId 4063232 8870 15423 36984440)) ;; message_type x164) ;; Ok (Z.eqb 32262 x165));
    (x167 <- (x166 <- (make_identity_reply true (mkDevId 4063232 8870 15423 36984440)) ;; message_subtype x166) ;; Ok (Z.eqb 2 x167));
    (x168 <- (make_identity_reply true (mkDevId 4063232 8870 15423 36984440)) ;; is_identity_reply x168);
    (x170 <- (x169 <- (make_identity_reply true (mkDevId 4063232 8870 15423 36984440)) ;; as_identity_reply_view true x169) ;; Ok (opt_some x170));
    (x173 <- (x172 <- (x171 <- (make_identity_reply true (mkDevId 4063232 8870 15423 36984440)) ;; message_view true x171) ;; as_identity_reply_view true x172) ;; Ok (opt_some x173));
    (x177 <- (x176 <- (x175 <- (x174 <- (make_identity_reply true (mkDevId 4063232 8870 15423 36984440)) ;; message_view true x174) ;; reply_identity x175) ;; Ok (di_manufacturer x176)) ;; Ok (Z.eqb 4063232 x177));
    (x179 <- (x178 <- (x175 <- (x174 <- (make_identity_reply true (mkDevId 4063232 8870 15423 36984440)) ;; message_view true x174) ;; reply_identity x175) ;; Ok (di_family x178)) ;; Ok (Z.eqb 8870 x179));
    (x181 <- (x180 <- (x175 <- (x174 <- (make_identity_reply true (mkDevId 4063232 8870 15423 36984440)) ;; message_view true x174) ;; reply_identity x175) ;; Ok (di_model x180)) ;; Ok (Z.eqb 15423 x181));
    (x183 <- (x182 <- (x175 <- (x174 <- (make_identity_reply true (mkDevId 4063232 8870 15423 36984440)) ;; message_view true x174) ;; reply_identity x175) ;; Ok (di_revision x182)) ;; Ok (Z.eqb 36984440 x183));
    (x184 <- (make_identity_reply true (mkDevId 4063232 8870 15423 36984440)) ;; x185 <- (make_identity_reply true (mkDevId 4063232 8870 15423 36984440)) ;; Ok (sysex_eq x184 x185))].
Proof. vm_compute. repeat constructor. Qed.

(* ---- tests/sysex_tests.cpp ---- *)


(* line 89 *)
Example test_sysex_constructor : all_true [
    (Ok (Z.eqb 0 (sx_id (mkSx 0 []))));
    (Ok (Z.eqb 0 (dsize (mkSx 0 []))));
    (Ok (Z.eqb 0 (total_data_size (mkSx 0 []))));
    (Ok (sysex_empty (mkSx 0 [])));
    (Ok (is_7bit (mkSx 0 [])));
    (b_ <- (Ok (is_8bit (mkSx 0 []))) ;; Ok (negb b_));
    (Ok (Z.eqb 262144 (sx_id (mkSx 0x040000 []))));
    (Ok (Z.eqb 0 (dsize (mkSx 0x040000 []))));
    (Ok (Z.eqb 1 (total_data_size (mkSx 0x040000 []))));
    (b_ <- (Ok (sysex_empty (mkSx 0x040000 []))) ;; Ok (negb b_));
    (Ok (is_7bit (mkSx 0x040000 [])));
    (b_ <- (Ok (is_8bit (mkSx 0x040000 []))) ;; Ok (negb b_));
    (Ok (Z.eqb 8457 (sx_id (mkSx 0x002109 []))));
    (Ok (Z.eqb 0 (dsize (mkSx 0x002109 []))));
    (Ok (Z.eqb 3 (total_data_size (mkSx 0x002109 []))));
    (b_ <- (Ok (sysex_empty (mkSx 0x002109 []))) ;; Ok (negb b_));
    (Ok (is_7bit (mkSx 0x002109 [])));
    (b_ <- (Ok (is_8bit (mkSx 0x002109 []))) ;; Ok (negb b_));
    (Ok (Z.eqb 4456448 (sx_id (mkSx 0x440000 [1; 2; 3; 4]))));
    (Ok (Z.eqb 4 (dsize (mkSx 0x440000 [1; 2; 3; 4]))));
    (Ok (Z.eqb 5 (total_data_size (mkSx 0x440000 [1; 2; 3; 4]))));
    (b_ <- (Ok (sysex_empty (mkSx 0x440000 [1; 2; 3; 4]))) ;; Ok (negb b_));
    (Ok (is_7bit (mkSx 0x440000 [1; 2; 3; 4])));
    (b_ <- (Ok (is_8bit (mkSx 0x440000 [1; 2; 3; 4]))) ;; Ok (negb b_));
    (Ok (Z.eqb 88 (sx_id (mkSx 0x000058 [170; 187; 204; 221; 238; 255]))));
    (Ok (Z.eqb 6 (dsize (mkSx 0x000058 [170; 187; 204; 221; 238; 255]))));
    (Ok (Z.eqb 9 (total_data_size (mkSx 0x000058 [170; 187; 204; 221; 238; 255]))));
    (b_ <- (Ok (sysex_empty (mkSx 0x000058 [170; 187; 204; 221; 238; 255]))) ;; Ok (negb b_));
    (b_ <- (Ok (is_7bit (mkSx 0x000058 [170; 187; 204; 221; 238; 255]))) ;; Ok (negb b_));
    (Ok (is_8bit (mkSx 0x000058 [170; 187; 204; 221; 238; 255])))].
Proof. vm_compute. repeat constructor. Qed.

(* line 164 *)
Example test_equality : all_true [
    (Ok (sysex_eq (mkSx 0x130000 []) (mkSx 0x130000 [])));
    (b_ <- (Ok (sysex_eq (mkSx 0x130000 []) (mkSx 0x130000 [1; 2; 3]))) ;; Ok (negb b_));
    (b_ <- (Ok (sysex_eq (mkSx 0x130000 []) (mkSx 0x002020 [1; 2; 3; 4]))) ;; Ok (negb b_));
    (b_ <- (Ok (sysex_eq (mkSx 0x130000 []) (mkSx 0x002020 [1; 2; 3; 4]))) ;; Ok (negb b_));
    (b_ <- (Ok (sysex_eq (mkSx 0x130000 [1; 2; 3]) (mkSx 0x130000 []))) ;; Ok (negb b_));
    (Ok (sysex_eq (mkSx 0x130000 [1; 2; 3]) (mkSx 0x130000 [1; 2; 3])));
    (b_ <- (Ok (sysex_eq (mkSx 0x130000 [1; 2; 3]) (mkSx 0x002020 [1; 2; 3; 4]))) ;; Ok (negb b_));
    (b_ <- (Ok (sysex_eq (mkSx 0x130000 [1; 2; 3]) (mkSx 0x002020 [1; 2; 3; 4]))) ;; Ok (negb b_));
    (b_ <- (Ok (sysex_eq (mkSx 0x002020 [1; 2; 3; 4]) (mkSx 0x130000 []))) ;; Ok (negb b_));
    (b_ <- (Ok (sysex_eq (mkSx 0x002020 [1; 2; 3; 4]) (mkSx 0x130000 [1; 2; 3]))) ;; Ok (negb b_));
    (Ok (sysex_eq (mkSx 0x002020 [1; 2; 3; 4]) (mkSx 0x002020 [1; 2; 3; 4])));
    (Ok (sysex_eq (mkSx 0x002020 [1; 2; 3; 4]) (mkSx 0x002020 [1; 2; 3; 4])));
    (b_ <- (Ok (sysex_eq (mkSx 0x002020 [1; 2; 3; 4]) (mkSx 0x130000 []))) ;; Ok (negb b_));
    (b_ <- (Ok (sysex_eq (mkSx 0x002020 [1; 2; 3; 4]) (mkSx 0x130000 [1; 2; 3]))) ;; Ok (negb b_));
    (Ok (sysex_eq (mkSx 0x002020 [1; 2; 3; 4]) (mkSx 0x002020 [1; 2; 3; 4])));
    (Ok (sysex_eq (mkSx 0x002020 [1; 2; 3; 4]) (mkSx 0x002020 [1; 2; 3; 4])))].
Proof. vm_compute. repeat constructor. Qed.

(* line 193 *)
Example test_assignment : all_true [
    (b_ <- (Ok (sysex_eq (mkSx 0x130000 []) (mkSx 0x130000 [1; 2; 3]))) ;; Ok (negb b_));
    (Ok (sysex_eq (mkSx 0x130000 [1; 2; 3]) (mkSx 0x130000 [1; 2; 3])))].
Proof. vm_compute. repeat constructor. Qed.

(* line 207 *)
Example test_sysex7_ : all_true [
    (Ok (sysex7_is_valid (mkSx 0x002109 [1; 2; 3; 4; 5; 6; 7; 8; 9])));
    (Ok (is_7bit (mkSx 0x002109 [1; 2; 3; 4; 5; 6; 7; 8; 9])));
    (b_ <- (Ok (is_8bit (mkSx 0x002109 [1; 2; 3; 4; 5; 6; 7; 8; 9]))) ;; Ok (negb b_));
    (b_ <- (Ok (sysex7_is_valid (mkSx 0x002109 [1; 2; 3; 4; 5; 6; 7; 8; 9; 171]))) ;; Ok (negb b_));
    (b_ <- (Ok (is_7bit (mkSx 0x002109 [1; 2; 3; 4; 5; 6; 7; 8; 9; 171]))) ;; Ok (negb b_));
    (Ok (is_8bit (mkSx 0x002109 [1; 2; 3; 4; 5; 6; 7; 8; 9; 171])))].
Proof. vm_compute. repeat constructor. Qed.

(* line 248 *)
Example test_sysex7_add_uintX : all_true [
    (x187 <- (x186 <- (add_uint7 true (mkSx 0x123456 []) 0) ;; Ok (dsize x186)) ;; Ok (Z.eqb 1 x187));
    (x190 <- (x189 <- (x188 <- (add_uint7 true (mkSx 0x123456 []) 0) ;; Ok (sx_data x188)) ;; vec_at x189 (Z.to_nat 0)) ;; Ok (Z.eqb 0 x190));
    (x193 <- (x192 <- (x191 <- (add_uint7 true (mkSx 0x123456 []) 0) ;; add_uint7 true x191 99) ;; Ok (dsize x192)) ;; Ok (Z.eqb 2 x193));
    (x196 <- (x195 <- (x194 <- (x191 <- (add_uint7 true (mkSx 0x123456 []) 0) ;; add_uint7 true x191 99) ;; Ok (sx_data x194)) ;; vec_at x195 (Z.to_nat 1)) ;; Ok (Z.eqb 99 x196));
    (x199 <- (x198 <- (x197 <- (x191 <- (add_uint7 true (mkSx 0x123456 []) 0) ;; add_uint7 true x191 99) ;; add_uint7 true x197 127) ;; Ok (dsize x198)) ;; Ok (Z.eqb 3 x199));
    (x202 <- (x201 <- (x200 <- (x197 <- (x191 <- (add_uint7 true (mkSx 0x123456 []) 0) ;; add_uint7 true x191 99) ;; add_uint7 true x197 127) ;; Ok (sx_data x200)) ;; vec_at x201 (Z.to_nat 2)) ;; Ok (Z.eqb 127 x202));
    (x204 <- (x203 <- (add_uint14 true (mkSx 0x123456 []) 0) ;; Ok (dsize x203)) ;; Ok (Z.eqb 2 x204));
    (x207 <- (x206 <- (x205 <- (add_uint14 true (mkSx 0x123456 []) 0) ;; Ok (sx_data x205)) ;; vec_at x206 (Z.to_nat 0)) ;; Ok (Z.eqb 0 x207));
    (x210 <- (x209 <- (x208 <- (add_uint14 true (mkSx 0x123456 []) 0) ;; Ok (sx_data x208)) ;; vec_at x209 (Z.to_nat 1)) ;; Ok (Z.eqb 0 x210));
    (x213 <- (x212 <- (x211 <- (add_uint14 true (mkSx 0x123456 []) 0) ;; add_uint14 true x211 99) ;; Ok (dsize x212)) ;; Ok (Z.eqb 4 x213));
    (x216 <- (x215 <- (x214 <- (x211 <- (add_uint14 true (mkSx 0x123456 []) 0) ;; add_uint14 true x211 99) ;; Ok (sx_data x214)) ;; vec_at x215 (Z.to_nat 2)) ;; Ok (Z.eqb 99 x216));
    (x219 <- (x218 <- (x217 <- (x211 <- (add_uint14 true (mkSx 0x123456 []) 0) ;; add_uint14 true x211 99) ;; Ok (sx_data x217)) ;; vec_at x218 (Z.to_nat 3)) ;; Ok (Z.eqb 0 x219));
    (x222 <- (x221 <- (x220 <- (x211 <- (add_uint14 true (mkSx 0x123456 []) 0) ;; add_uint14 true x211 99) ;; add_uint14 true x220 128) ;; Ok (dsize x221)) ;; Ok (Z.eqb 6 x222));
    (x225 <- (x224 <- (x223 <- (x220 <- (x211 <- (add_uint14 true (mkSx 0x123456 []) 0) ;; add_uint14 true x211 99) ;; add_uint14 true x220 128) ;; Ok (sx_data x223)) ;; vec_at x224 (Z.to_nat 4)) ;; Ok (Z.eqb 0 x225));
    (x228 <- (x227 <- (x226 <- (x220 <- (x211 <- (add_uint14 true (mkSx 0x123456 []) 0) ;; add_uint14 true x211 99) ;; add_uint14 true x220 128) ;; Ok (sx_data x226)) ;; vec_at x227 (Z.to_nat 5)) ;; Ok (Z.eqb 1 x228));
    (x231 <- (x230 <- (x229 <- (x220 <- (x211 <- (add_uint14 true (mkSx 0x123456 []) 0) ;; add_uint14 true x211 99) ;; add_uint14 true x220 128) ;; add_uint14 true x229 16383) ;; Ok (dsize x230)) ;; Ok (Z.eqb 8 x231));
    (x234 <- (x233 <- (x232 <- (x229 <- (x220 <- (x211 <- (add_uint14 true (mkSx 0x123456 []) 0) ;; add_uint14 true x211 99) ;; add_uint14 true x220 128) ;; add_uint14 true x229 16383) ;; Ok (sx_data x232)) ;; vec_at x233 (Z.to_nat 6)) ;; Ok (Z.eqb 127 x234));
    (x237 <- (x236 <- (x235 <- (x229 <- (x220 <- (x211 <- (add_uint14 true (mkSx 0x123456 []) 0) ;; add_uint14 true x211 99) ;; add_uint14 true x220 128) ;; add_uint14 true x229 16383) ;; Ok (sx_data x235)) ;; vec_at x236 (Z.to_nat 7)) ;; Ok (Z.eqb 127 x237));
    (x239 <- (x238 <- (add_uint28 true (mkSx 0x123456 []) 0) ;; Ok (dsize x238)) ;; Ok (Z.eqb 4 x239));
    (x242 <- (x241 <- (x240 <- (add_uint28 true (mkSx 0x123456 []) 0) ;; Ok (sx_data x240)) ;; vec_at x241 (Z.to_nat 0)) ;; Ok (Z.eqb 0 x242));
    (x245 <- (x244 <- (x243 <- (add_uint28 true (mkSx 0x123456 []) 0) ;; Ok (sx_data x243)) ;; vec_at x244 (Z.to_nat 1)) ;; Ok (Z.eqb 0 x245));
    (x248 <- (x247 <- (x246 <- (add_uint28 true (mkSx 0x123456 []) 0) ;; Ok (sx_data x246)) ;; vec_at x247 (Z.to_nat 2)) ;; Ok (Z.eqb 0 x248));
    (x251 <- (x250 <- (x249 <- (add_uint28 true (mkSx 0x123456 []) 0) ;; Ok (sx_data x249)) ;; vec_at x250 (Z.to_nat 3)) ;; Ok (Z.eqb 0 x251));
    (x254 <- (x253 <- (x252 <- (add_uint28 true (mkSx 0x123456 []) 0) ;; add_uint28 true x252 99) ;; Ok (dsize x253)) ;; Ok (Z.eqb 8 x254));
    (x257 <- (x256 <- (x255 <- (x252 <- (add_uint28 true (mkSx 0x123456 []) 0) ;; add_uint28 true x252 99) ;; Ok (sx_data x255)) ;; vec_at x256 (Z.to_nat 4)) ;; Ok (Z.eqb 99 x257));
    (x260 <- (x259 <- (x258 <- (x252 <- (add_uint28 true (mkSx 0x123456 []) 0) ;; add_uint28 true x252 99) ;; Ok (sx_data x258)) ;; vec_at x259 (Z.to_nat 5)) ;; Ok (Z.eqb 0 x260));
    (x263 <- (x262 <- (x261 <- (x252 <- (add_uint28 true (mkSx 0x123456 []) 0) ;; add_uint28 true x252 99) ;; Ok (sx_data x261)) ;; vec_at x262 (Z.to_nat 6)) ;; Ok (Z.eqb 0 x263));
    (x266 <- (x265 <- (x264 <- (x252 <- (add_uint28 true (mkSx 0x123456 []) 0) ;; add_uint28 true x252 99) ;; Ok (sx_data x264)) ;; vec_at x265 (Z.to_nat 7)) ;; Ok (Z.eqb 0 x266));
    (x269 <- (x268 <- (x267 <- (x252 <- (add_uint28 true (mkSx 0x123456 []) 0) ;; add_uint28 true x252 99) ;; add_uint28 true x267 128) ;; Ok (dsize x268)) ;; Ok (Z.eqb 12 x269));
    (x272 <- (x271 <- (x270 <- (x267 <- (x252 <- (add_uint28 true (mkSx 0x123456 []) 0) ;; add_uint28 true x252 99) ;; add_uint28 true x267 128) ;; Ok (sx_data x270)) ;; vec_at x271 (Z.to_nat 8)) ;; Ok (Z.eqb 0 x272));
    (x275 <- (x274 <- (x273 <- (x267 <- (x252 <- (add_uint28 true (mkSx 0x123456 []) 0) ;; add_uint28 true x252 99) ;; add_uint28 true x267 128) ;; Ok (sx_data x273)) ;; vec_at x274 (Z.to_nat 9)) ;; Ok (Z.eqb 1 x275));
    (x278 <- (x277 <- (x276 <- (x267 <- (x252 <- (add_uint28 true (mkSx 0x123456 []) 0) ;; add_uint28 true x252 99) ;; add_uint28 true x267 128) ;; Ok (sx_data x276)) ;; vec_at x277 (Z.to_nat 10)) ;; Ok (Z.eqb 0 x278));
    (x281 <- (x280 <- (x279 <- (x267 <- (x252 <- (add_uint28 true (mkSx 0x123456 []) 0) ;; add_uint28 true x252 99) ;; add_uint28 true x267 128) ;; Ok (sx_data x279)) ;; vec_at x280 (Z.to_nat 11)) ;; Ok (Z.eqb 0 x281));
    (x284 <- (x283 <- (x282 <- (x267 <- (x252 <- (add_uint28 true (mkSx 0x123456 []) 0) ;; add_uint28 true x252 99) ;; add_uint28 true x267 128) ;; add_uint28 true x282 16383) ;; Ok (dsize x283)) ;; Ok (Z.eqb 16 x284));
    (x287 <- (x286 <- (x285 <- (x282 <- (x267 <- (x252 <- (add_uint28 true (mkSx 0x123456 []) 0) ;; add_uint28 true x252 99) ;; add_uint28 true x267 128) ;; add_uint28 true x282 16383) ;; Ok (sx_data x285)) ;; vec_at x286 (Z.to_nat 12)) ;; Ok (Z.eqb 127 x287));
    (x290 <- (x289 <- (x288 <- (x282 <- (x267 <- (x252 <- (add_uint28 true (mkSx 0x123456 []) 0) ;; add_uint28 true x252 99) ;; add_uint28 true x267 128) ;; add_uint28 true x282 16383) ;; Ok (sx_data x288)) ;; vec_at x289 (Z.to_nat 13)) ;; Ok (Z.eqb 127 x290));
    (x293 <- (x292 <- (x291 <- (x282 <- (x267 <- (x252 <- (add_uint28 true (mkSx 0x123456 []) 0) ;; add_uint28 true x252 99) ;; add_uint28 true x267 128) ;; add_uint28 true x282 16383) ;; Ok (sx_data x291)) ;; vec_at x292 (Z.to_nat 14)) ;; Ok (Z.eqb 0 x293));
    (x296 <- (x295 <- (x294 <- (x282 <- (x267 <- (x252 <- (add_uint28 true (mkSx 0x123456 []) 0) ;; add_uint28 true x252 99) ;; add_uint28 true x267 128) ;; add_uint28 true x282 16383) ;; Ok (sx_data x294)) ;; vec_at x295 (Z.to_nat 15)) ;; Ok (Z.eqb 0 x296));
    (x299 <- (x298 <- (x297 <- (x282 <- (x267 <- (x252 <- (add_uint28 true (mkSx 0x123456 []) 0) ;; add_uint28 true x252 99) ;; add_uint28 true x267 128) ;; add_uint28 true x282 16383) ;; add_uint28 true x297 1193046) ;; Ok (dsize x298)) ;; Ok (Z.eqb 20 x299));
    (x302 <- (x301 <- (x300 <- (x297 <- (x282 <- (x267 <- (x252 <- (add_uint28 true (mkSx 0x123456 []) 0) ;; add_uint28 true x252 99) ;; add_uint28 true x267 128) ;; add_uint28 true x282 16383) ;; add_uint28 true x297 1193046) ;; Ok (sx_data x300)) ;; vec_at x301 (Z.to_nat 16)) ;; Ok (Z.eqb 86 x302));
    (x305 <- (x304 <- (x303 <- (x297 <- (x282 <- (x267 <- (x252 <- (add_uint28 true (mkSx 0x123456 []) 0) ;; add_uint28 true x252 99) ;; add_uint28 true x267 128) ;; add_uint28 true x282 16383) ;; add_uint28 true x297 1193046) ;; Ok (sx_data x303)) ;; vec_at x304 (Z.to_nat 17)) ;; Ok (Z.eqb 104 x305));
    (x308 <- (x307 <- (x306 <- (x297 <- (x282 <- (x267 <- (x252 <- (add_uint28 true (mkSx 0x123456 []) 0) ;; add_uint28 true x252 99) ;; add_uint28 true x267 128) ;; add_uint28 true x282 16383) ;; add_uint28 true x297 1193046) ;; Ok (sx_data x306)) ;; vec_at x307 (Z.to_nat 18)) ;; Ok (Z.eqb 72 x308));
    (x311 <- (x310 <- (x309 <- (x297 <- (x282 <- (x267 <- (x252 <- (add_uint28 true (mkSx 0x123456 []) 0) ;; add_uint28 true x252 99) ;; add_uint28 true x267 128) ;; add_uint28 true x282 16383) ;; add_uint28 true x297 1193046) ;; Ok (sx_data x309)) ;; vec_at x310 (Z.to_nat 19)) ;; Ok (Z.eqb 0 x311));
    (x314 <- (x313 <- (x312 <- (x297 <- (x282 <- (x267 <- (x252 <- (add_uint28 true (mkSx 0x123456 []) 0) ;; add_uint28 true x252 99) ;; add_uint28 true x267 128) ;; add_uint28 true x282 16383) ;; add_uint28 true x297 1193046) ;; add_uint28 true x312 19088743) ;; Ok (dsize x313)) ;; Ok (Z.eqb 24 x314));
    (x317 <- (x316 <- (x315 <- (x312 <- (x297 <- (x282 <- (x267 <- (x252 <- (add_uint28 true (mkSx 0x123456 []) 0) ;; add_uint28 true x252 99) ;; add_uint28 true x267 128) ;; add_uint28 true x282 16383) ;; add_uint28 true x297 1193046) ;; add_uint28 true x312 19088743) ;; Ok (sx_data x315)) ;; vec_at x316 (Z.to_nat 20)) ;; Ok (Z.eqb 103 x317));
    (x320 <- (x319 <- (x318 <- (x312 <- (x297 <- (x282 <- (x267 <- (x252 <- (add_uint28 true (mkSx 0x123456 []) 0) ;; add_uint28 true x252 99) ;; add_uint28 true x267 128) ;; add_uint28 true x282 16383) ;; add_uint28 true x297 1193046) ;; add_uint28 true x312 19088743) ;; Ok (sx_data x318)) ;; vec_at x319 (Z.to_nat 21)) ;; Ok (Z.eqb 10 x320));
    (x323 <- (x322 <- (x321 <- (x312 <- (x297 <- (x282 <- (x267 <- (x252 <- (add_uint28 true (mkSx 0x123456 []) 0) ;; add_uint28 true x252 99) ;; add_uint28 true x267 128) ;; add_uint28 true x282 16383) ;; add_uint28 true x297 1193046) ;; add_uint28 true x312 19088743) ;; Ok (sx_data x321)) ;; vec_at x322 (Z.to_nat 22)) ;; Ok (Z.eqb 13 x323));
    (x326 <- (x325 <- (x324 <- (x312 <- (x297 <- (x282 <- (x267 <- (x252 <- (add_uint28 true (mkSx 0x123456 []) 0) ;; add_uint28 true x252 99) ;; add_uint28 true x267 128) ;; add_uint28 true x282 16383) ;; add_uint28 true x297 1193046) ;; add_uint28 true x312 19088743) ;; Ok (sx_data x324)) ;; vec_at x325 (Z.to_nat 23)) ;; Ok (Z.eqb 9 x326));
    (x329 <- (x328 <- (x327 <- (x312 <- (x297 <- (x282 <- (x267 <- (x252 <- (add_uint28 true (mkSx 0x123456 []) 0) ;; add_uint28 true x252 99) ;; add_uint28 true x267 128) ;; add_uint28 true x282 16383) ;; add_uint28 true x297 1193046) ;; add_uint28 true x312 19088743) ;; add_uint28 true x327 268435455) ;; Ok (dsize x328)) ;; Ok (Z.eqb 28 x329));
    (x332 <- (x331 <- (x330 <- (x327 <- (x312 <- (x297 <- (x282 <- (x267 <- (x252 <- (add_uint28 true (mkSx 0x123456 []) 0) ;; add_uint28 true x252 99) ;; add_uint28 true x267 128) ;; add_uint28 true x282 16383) ;; add_uint28 true x297 1193046) ;; add_uint28 true x312 19088743) ;; add_uint28 true x327 268435455) ;; Ok (sx_data x330)) ;; vec_at x331 (Z.to_nat 24)) ;; Ok (Z.eqb 127 x332));
    (x335 <- (x334 <- (x333 <- (x327 <- (x312 <- (x297 <- (x282 <- (x267 <- (x252 <- (add_uint28 true (mkSx 0x123456 []) 0) ;; add_uint28 true x252 99) ;; add_uint28 true x267 128) ;; add_uint28 true x282 16383) ;; add_uint28 true x297 1193046) ;; add_uint28 true x312 19088743) ;; add_uint28 true x327 268435455) ;; Ok (sx_data x333)) ;; vec_at x334 (Z.to_nat 25)) ;; Ok (Z.eqb 127 x335));
    (x338 <- (x337 <- (x336 <- (x327 <- (x312 <- (x297 <- (x282 <- (x267 <- (x252 <- (add_uint28 true (mkSx 0x123456 []) 0) ;; add_uint28 true x252 99) ;; add_uint28 true x267 128) ;; add_uint28 true x282 16383) ;; add_uint28 true x297 1193046) ;; add_uint28 true x312 19088743) ;; add_uint28 true x327 268435455) ;; Ok (sx_data x336)) ;; vec_at x337 (Z.to_nat 26)) ;; Ok (Z.eqb 127 x338));
    (x341 <- (x340 <- (x339 <- (x327 <- (x312 <- (x297 <- (x282 <- (x267 <- (x252 <- (add_uint28 true (mkSx 0x123456 []) 0) ;; add_uint28 true x252 99) ;; add_uint28 true x267 128) ;; add_uint28 true x282 16383) ;; add_uint28 true x297 1193046) ;; add_uint28 true x312 19088743) ;; add_uint28 true x327 268435455) ;; Ok (sx_data x339)) ;; vec_at x340 (Z.to_nat 27)) ;; Ok (Z.eqb 127 x341));
    (x343 <- (x342 <- (add_uint32 (mkSx 0x123456 []) 0) ;; Ok (dsize x342)) ;; Ok (Z.eqb 5 x343));
    (x346 <- (x345 <- (x344 <- (add_uint32 (mkSx 0x123456 []) 0) ;; Ok (sx_data x344)) ;; vec_at x345 (Z.to_nat 0)) ;; Ok (Z.eqb 0 x346));
    (x349 <- (x348 <- (x347 <- (add_uint32 (mkSx 0x123456 []) 0) ;; Ok (sx_data x347)) ;; vec_at x348 (Z.to_nat 1)) ;; Ok (Z.eqb 0 x349));
    (x352 <- (x351 <- (x350 <- (add_uint32 (mkSx 0x123456 []) 0) ;; Ok (sx_data x350)) ;; vec_at x351 (Z.to_nat 2)) ;; Ok (Z.eqb 0 x352));
    (x355 <- (x354 <- (x353 <- (add_uint32 (mkSx 0x123456 []) 0) ;; Ok (sx_data x353)) ;; vec_at x354 (Z.to_nat 3)) ;; Ok (Z.eqb 0 x355));
    (x358 <- (x357 <- (x356 <- (add_uint32 (mkSx 0x123456 []) 0) ;; Ok (sx_data x356)) ;; vec_at x357 (Z.to_nat 4)) ;; Ok (Z.eqb 0 x358));
    (x360 <- (x359 <- (add_uint32 (mkSx 0x123456 []) 0) ;; make_uint32 x359 (Z.to_nat 0)) ;; Ok (Z.eqb 0 x360));
    (x363 <- (x362 <- (x361 <- (add_uint32 (mkSx 0x123456 []) 0) ;; add_uint32 x361 99) ;; Ok (dsize x362)) ;; Ok (Z.eqb 10 x363));
    (x366 <- (x365 <- (x364 <- (x361 <- (add_uint32 (mkSx 0x123456 []) 0) ;; add_uint32 x361 99) ;; Ok (sx_data x364)) ;; vec_at x365 (Z.to_nat 5)) ;; Ok (Z.eqb 99 x366));
    (x369 <- (x368 <- (x367 <- (x361 <- (add_uint32 (mkSx 0x123456 []) 0) ;; add_uint32 x361 99) ;; Ok (sx_data x367)) ;; vec_at x368 (Z.to_nat 6)) ;; Ok (Z.eqb 0 x369));
    (x372 <- (x371 <- (x370 <- (x361 <- (add_uint32 (mkSx 0x123456 []) 0) ;; add_uint32 x361 99) ;; Ok (sx_data x370)) ;; vec_at x371 (Z.to_nat 7)) ;; Ok (Z.eqb 0 x372));
    (x375 <- (x374 <- (x373 <- (x361 <- (add_uint32 (mkSx 0x123456 []) 0) ;; add_uint32 x361 99) ;; Ok (sx_data x373)) ;; vec_at x374 (Z.to_nat 8)) ;; Ok (Z.eqb 0 x375));
    (x378 <- (x377 <- (x376 <- (x361 <- (add_uint32 (mkSx 0x123456 []) 0) ;; add_uint32 x361 99) ;; Ok (sx_data x376)) ;; vec_at x377 (Z.to_nat 9)) ;; Ok (Z.eqb 0 x378));
    (x380 <- (x379 <- (x361 <- (add_uint32 (mkSx 0x123456 []) 0) ;; add_uint32 x361 99) ;; make_uint32 x379 (Z.to_nat 5)) ;; Ok (Z.eqb 99 x380));
    (x383 <- (x382 <- (x381 <- (x361 <- (add_uint32 (mkSx 0x123456 []) 0) ;; add_uint32 x361 99) ;; add_uint32 x381 128) ;; Ok (dsize x382)) ;; Ok (Z.eqb 15 x383));
    (x386 <- (x385 <- (x384 <- (x381 <- (x361 <- (add_uint32 (mkSx 0x123456 []) 0) ;; add_uint32 x361 99) ;; add_uint32 x381 128) ;; Ok (sx_data x384)) ;; vec_at x385 (Z.to_nat 10)) ;; Ok (Z.eqb 0 x386));
    (x389 <- (x388 <- (x387 <- (x381 <- (x361 <- (add_uint32 (mkSx 0x123456 []) 0) ;; add_uint32 x361 99) ;; add_uint32 x381 128) ;; Ok (sx_data x387)) ;; vec_at x388 (Z.to_nat 11)) ;; Ok (Z.eqb 1 x389));
    (x392 <- (x391 <- (x390 <- (x381 <- (x361 <- (add_uint32 (mkSx 0x123456 []) 0) ;; add_uint32 x361 99) ;; add_uint32 x381 128) ;; Ok (sx_data x390)) ;; vec_at x391 (Z.to_nat 12)) ;; Ok (Z.eqb 0 x392));
    (x395 <- (x394 <- (x393 <- (x381 <- (x361 <- (add_uint32 (mkSx 0x123456 []) 0) ;; add_uint32 x361 99) ;; add_uint32 x381 128) ;; Ok (sx_data x393)) ;; vec_at x394 (Z.to_nat 13)) ;; Ok (Z.eqb 0 x395));
    (x398 <- (x397 <- (x396 <- (x381 <- (x361 <- (add_uint32 (mkSx 0x123456 []) 0) ;; add_uint32 x361 99) ;; add_uint32 x381 128) ;; Ok (sx_data x396)) ;; vec_at x397 (Z.to_nat 14)) ;; Ok (Z.eqb 0 x398));
    (x400 <- (x399 <- (x381 <- (x361 <- (add_uint32 (mkSx 0x123456 []) 0) ;; add_uint32 x361 99) ;; add_uint32 x381 128) ;; make_uint32 x399 (Z.to_nat 10)) ;; Ok (Z.eqb 128 x400));
    (x403 <- (x402 <- (x401 <- (x381 <- (x361 <- (add_uint32 (mkSx 0x123456 []) 0) ;; add_uint32 x361 99) ;; add_uint32 x381 128) ;; add_uint32 x401 16383) ;; Ok (dsize x402)) ;; Ok (Z.eqb 20 x403));
    (x406 <- (x405 <- (x404 <- (x401 <- (x381 <- (x361 <- (add_uint32 (mkSx 0x123456 []) 0) ;; add_uint32 x361 99) ;; add_uint32 x381 128) ;; add_uint32 x401 16383) ;; Ok (sx_data x404)) ;; vec_at x405 (Z.to_nat 15)) ;; Ok (Z.eqb 127 x406));
    (x409 <- (x408 <- (x407 <- (x401 <- (x381 <- (x361 <- (add_uint32 (mkSx 0x123456 []) 0) ;; add_uint32 x361 99) ;; add_uint32 x381 128) ;; add_uint32 x401 16383) ;; Ok (sx_data x407)) ;; vec_at x408 (Z.to_nat 16)) ;; Ok (Z.eqb 127 x409));
    (x412 <- (x411 <- (x410 <- (x401 <- (x381 <- (x361 <- (add_uint32 (mkSx 0x123456 []) 0) ;; add_uint32 x361 99) ;; add_uint32 x381 128) ;; add_uint32 x401 16383) ;; Ok (sx_data x410)) ;; vec_at x411 (Z.to_nat 17)) ;; Ok (Z.eqb 0 x412));
    (x415 <- (x414 <- (x413 <- (x401 <- (x381 <- (x361 <- (add_uint32 (mkSx 0x123456 []) 0) ;; add_uint32 x361 99) ;; add_uint32 x381 128) ;; add_uint32 x401 16383) ;; Ok (sx_data x413)) ;; vec_at x414 (Z.to_nat 18)) ;; Ok (Z.eqb 0 x415));
    (x418 <- (x417 <- (x416 <- (x401 <- (x381 <- (x361 <- (add_uint32 (mkSx 0x123456 []) 0) ;; add_uint32 x361 99) ;; add_uint32 x381 128) ;; add_uint32 x401 16383) ;; Ok (sx_data x416)) ;; vec_at x417 (Z.to_nat 19)) ;; Ok (Z.eqb 0 x418));
    (x420 <- (x419 <- (x401 <- (x381 <- (x361 <- (add_uint32 (mkSx 0x123456 []) 0) ;; add_uint32 x361 99) ;; add_uint32 x381 128) ;; add_uint32 x401 16383) ;; make_uint32 x419 (Z.to_nat 15)) ;; Ok (Z.eqb 16383 x420));
    (x423 <- (x422 <- (x421 <- (x401 <- (x381 <- (x361 <- (add_uint32 (mkSx 0x123456 []) 0) ;; add_uint32 x361 99) ;; add_uint32 x381 128) ;; add_uint32 x401 16383) ;; add_uint32 x421 1193046) ;; Ok (dsize x422)) ;; Ok (Z.eqb 25 x423));
    (x426 <- (x425 <- (x424 <- (x421 <- (x401 <- (x381 <- (x361 <- (add_uint32 (mkSx 0x123456 []) 0) ;; add_uint32 x361 99) ;; add_uint32 x381 128) ;; add_uint32 x401 16383) ;; add_uint32 x421 1193046) ;; Ok (sx_data x424)) ;; vec_at x425 (Z.to_nat 20)) ;; Ok (Z.eqb 86 x426));
    (x429 <- (x428 <- (x427 <- (x421 <- (x401 <- (x381 <- (x361 <- (add_uint32 (mkSx 0x123456 []) 0) ;; add_uint32 x361 99) ;; add_uint32 x381 128) ;; add_uint32 x401 16383) ;; add_uint32 x421 1193046) ;; Ok (sx_data x427)) ;; vec_at x428 (Z.to_nat 21)) ;; Ok (Z.eqb 104 x429));
    (x432 <- (x431 <- (x430 <- (x421 <- (x401 <- (x381 <- (x361 <- (add_uint32 (mkSx 0x123456 []) 0) ;; add_uint32 x361 99) ;; add_uint32 x381 128) ;; add_uint32 x401 16383) ;; add_uint32 x421 1193046) ;; Ok (sx_data x430)) ;; vec_at x431 (Z.to_nat 22)) ;; Ok (Z.eqb 72 x432));
    (x435 <- (x434 <- (x433 <- (x421 <- (x401 <- (x381 <- (x361 <- (add_uint32 (mkSx 0x123456 []) 0) ;; add_uint32 x361 99) ;; add_uint32 x381 128) ;; add_uint32 x401 16383) ;; add_uint32 x421 1193046) ;; Ok (sx_data x433)) ;; vec_at x434 (Z.to_nat 23)) ;; Ok (Z.eqb 0 x435));
    (x438 <- (x437 <- (x436 <- (x421 <- (x401 <- (x381 <- (x361 <- (add_uint32 (mkSx 0x123456 []) 0) ;; add_uint32 x361 99) ;; add_uint32 x381 128) ;; add_uint32 x401 16383) ;; add_uint32 x421 1193046) ;; Ok (sx_data x436)) ;; vec_at x437 (Z.to_nat 24)) ;; Ok (Z.eqb 0 x438));
    (x440 <- (x439 <- (x421 <- (x401 <- (x381 <- (x361 <- (add_uint32 (mkSx 0x123456 []) 0) ;; add_uint32 x361 99) ;; add_uint32 x381 128) ;; add_uint32 x401 16383) ;; add_uint32 x421 1193046) ;; make_uint32 x439 (Z.to_nat 20)) ;; Ok (Z.eqb 1193046 x440));
    (x443 <- (x442 <- (x441 <- (x421 <- (x401 <- (x381 <- (x361 <- (add_uint32 (mkSx 0x123456 []) 0) ;; add_uint32 x361 99) ;; add_uint32 x381 128) ;; add_uint32 x401 16383) ;; add_uint32 x421 1193046) ;; add_uint32 x441 19088743) ;; Ok (dsize x442)) ;; Ok (Z.eqb 30 x443));
    (x446 <- (x445 <- (x444 <- (x441 <- (x421 <- (x401 <- (x381 <- (x361 <- (add_uint32 (mkSx 0x123456 []) 0) ;; add_uint32 x361 99) ;; add_uint32 x381 128) ;; add_uint32 x401 16383) ;; add_uint32 x421 1193046) ;; add_uint32 x441 19088743) ;; Ok (sx_data x444)) ;; vec_at x445 (Z.to_nat 25)) ;; Ok (Z.eqb 103 x446));
    (x449 <- (x448 <- (x447 <- (x441 <- (x421 <- (x401 <- (x381 <- (x361 <- (add_uint32 (mkSx 0x123456 []) 0) ;; add_uint32 x361 99) ;; add_uint32 x381 128) ;; add_uint32 x401 16383) ;; add_uint32 x421 1193046) ;; add_uint32 x441 19088743) ;; Ok (sx_data x447)) ;; vec_at x448 (Z.to_nat 26)) ;; Ok (Z.eqb 10 x449));
    (x452 <- (x451 <- (x450 <- (x441 <- (x421 <- (x401 <- (x381 <- (x361 <- (add_uint32 (mkSx 0x123456 []) 0) ;; add_uint32 x361 99) ;; add_uint32 x381 128) ;; add_uint32 x401 16383) ;; add_uint32 x421 1193046) ;; add_uint32 x441 19088743) ;; Ok (sx_data x450)) ;; vec_at x451 (Z.to_nat 27)) ;; Ok (Z.eqb 13 x452));
    (x455 <- (x454 <- (x453 <- (x441 <- (x421 <- (x401 <- (x381 <- (x361 <- (add_uint32 (mkSx 0x123456 []) 0) ;; add_uint32 x361 99) ;; add_uint32 x381 128) ;; add_uint32 x401 16383) ;; add_uint32 x421 1193046) ;; add_uint32 x441 19088743) ;; Ok (sx_data x453)) ;; vec_at x454 (Z.to_nat 28)) ;; Ok (Z.eqb 9 x455));
    (x458 <- (x457 <- (x456 <- (x441 <- (x421 <- (x401 <- (x381 <- (x361 <- (add_uint32 (mkSx 0x123456 []) 0) ;; add_uint32 x361 99) ;; add_uint32 x381 128) ;; add_uint32 x401 16383) ;; add_uint32 x421 1193046) ;; add_uint32 x441 19088743) ;; Ok (sx_data x456)) ;; vec_at x457 (Z.to_nat 29)) ;; Ok (Z.eqb 0 x458));
    (x460 <- (x459 <- (x441 <- (x421 <- (x401 <- (x381 <- (x361 <- (add_uint32 (mkSx 0x123456 []) 0) ;; add_uint32 x361 99) ;; add_uint32 x381 128) ;; add_uint32 x401 16383) ;; add_uint32 x421 1193046) ;; add_uint32 x441 19088743) ;; make_uint32 x459 (Z.to_nat 25)) ;; Ok (Z.eqb 19088743 x460));
    (x463 <- (x462 <- (x461 <- (x441 <- (x421 <- (x401 <- (x381 <- (x361 <- (add_uint32 (mkSx 0x123456 []) 0) ;; add_uint32 x361 99) ;; add_uint32 x381 128) ;; add_uint32 x401 16383) ;; add_uint32 x421 1193046) ;; add_uint32 x441 19088743) ;; add_uint32 x461 268435455) ;; Ok (dsize x462)) ;; Ok (Z.eqb 35 x463));
    (x466 <- (x465 <- (x464 <- (x461 <- (x441 <- (x421 <- (x401 <- (x381 <- (x361 <- (add_uint32 (mkSx 0x123456 []) 0) ;; add_uint32 x361 99) ;; add_uint32 x381 128) ;; add_uint32 x401 16383) ;; add_uint32 x421 1193046) ;; add_uint32 x441 19088743) ;; add_uint32 x461 268435455) ;; Ok (sx_data x464)) ;; vec_at x465 (Z.to_nat 30)) ;; Ok (Z.eqb 127 x466));
    (x469 <- (x468 <- (x467 <- (x461 <- (x441 <- (x421 <- (x401 <- (x381 <- (x361 <- (add_uint32 (mkSx 0x123456 []) 0) ;; add_uint32 x361 99) ;; add_uint32 x381 128) ;; add_uint32 x401 16383) ;; add_uint32 x421 1193046) ;; add_uint32 x441 19088743) ;; add_uint32 x461 268435455) ;; Ok (sx_data x467)) ;; vec_at x468 (Z.to_nat 31)) ;; Ok (Z.eqb 127 x469));
    (x472 <- (x471 <- (x470 <- (x461 <- (x441 <- (x421 <- (x401 <- (x381 <- (x361 <- (add_uint32 (mkSx 0x123456 []) 0) ;; add_uint32 x361 99) ;; add_uint32 x381 128) ;; add_uint32 x401 16383) ;; add_uint32 x421 1193046) ;; add_uint32 x441 19088743) ;; add_uint32 x461 268435455) ;; Ok (sx_data x470)) ;; vec_at x471 (Z.to_nat 32)) ;; Ok (Z.eqb 127 x472));
    (x475 <- (x474 <- (x473 <- (x461 <- (x441 <- (x421 <- (x401 <- (x381 <- (x361 <- (add_uint32 (mkSx 0x123456 []) 0) ;; add_uint32 x361 99) ;; add_uint32 x381 128) ;; add_uint32 x401 16383) ;; add_uint32 x421 1193046) ;; add_uint32 x441 19088743) ;; add_uint32 x461 268435455) ;; Ok (sx_data x473)) ;; vec_at x474 (Z.to_nat 33)) ;; Ok (Z.eqb 127 x475));
    (x478 <- (x477 <- (x476 <- (x461 <- (x441 <- (x421 <- (x401 <- (x381 <- (x361 <- (add_uint32 (mkSx 0x123456 []) 0) ;; add_uint32 x361 99) ;; add_uint32 x381 128) ;; add_uint32 x401 16383) ;; add_uint32 x421 1193046) ;; add_uint32 x441 19088743) ;; add_uint32 x461 268435455) ;; Ok (sx_data x476)) ;; vec_at x477 (Z.to_nat 34)) ;; Ok (Z.eqb 0 x478));
    (x480 <- (x479 <- (x461 <- (x441 <- (x421 <- (x401 <- (x381 <- (x361 <- (add_uint32 (mkSx 0x123456 []) 0) ;; add_uint32 x361 99) ;; add_uint32 x381 128) ;; add_uint32 x401 16383) ;; add_uint32 x421 1193046) ;; add_uint32 x441 19088743) ;; add_uint32 x461 268435455) ;; make_uint32 x479 (Z.to_nat 30)) ;; Ok (Z.eqb 268435455 x480));
    (x483 <- (x482 <- (x481 <- (x461 <- (x441 <- (x421 <- (x401 <- (x381 <- (x361 <- (add_uint32 (mkSx 0x123456 []) 0) ;; add_uint32 x361 99) ;; add_uint32 x381 128) ;; add_uint32 x401 16383) ;; add_uint32 x421 1193046) ;; add_uint32 x441 19088743) ;; add_uint32 x461 268435455) ;; add_uint32 x481 4294967295) ;; Ok (dsize x482)) ;; Ok (Z.eqb 40 x483));
    (x486 <- (x485 <- (x484 <- (x481 <- (x461 <- (x441 <- (x421 <- (x401 <- (x381 <- (x361 <- (add_uint32 (mkSx 0x123456 []) 0) ;; add_uint32 x361 99) ;; add_uint32 x381 128) ;; add_uint32 x401 16383) ;; add_uint32 x421 1193046) ;; add_uint32 x441 19088743) ;; add_uint32 x461 268435455) ;; add_uint32 x481 4294967295) ;; Ok (sx_data x484)) ;; vec_at x485 (Z.to_nat 35)) ;; Ok (Z.eqb 127 x486));
    (x489 <- (x488 <- (x487 <- (x481 <- (x461 <- (x441 <- (x421 <- (x401 <- (x381 <- (x361 <- (add_uint32 (mkSx 0x123456 []) 0) ;; add_uint32 x361 99) ;; add_uint32 x381 128) ;; add_uint32 x401 16383) ;; add_uint32 x421 1193046) ;; add_uint32 x441 19088743) ;; add_uint32 x461 268435455) ;; add_uint32 x481 4294967295) ;; Ok (sx_data x487)) ;; vec_at x488 (Z.to_nat 36)) ;; Ok (Z.eqb 127 x489));
    (x492 <- (x491 <- (x490 <- (x481 <- (x461 <- (x441 <- (x421 <- (x401 <- (x381 <- (x361 <- (add_uint32 (mkSx 0x123456 []) 0) ;; add_uint32 x361 99) ;; add_uint32 x381 128) ;; add_uint32 x401 16383) ;; add_uint32 x421 1193046) ;; add_uint32 x441 19088743) ;; add_uint32 x461 268435455) ;; add_uint32 x481 4294967295) ;; Ok (sx_data x490)) ;; vec_at x491 (Z.to_nat 37)) ;; Ok (Z.eqb 127 x492));
    (x495 <- (x494 <- (x493 <- (x481 <- (x461 <- (x441 <- (x421 <- (x401 <- (x381 <- (x361 <- (add_uint32 (mkSx 0x123456 []) 0) ;; add_uint32 x361 99) ;; add_uint32 x381 128) ;; add_uint32 x401 16383) ;; add_uint32 x421 1193046) ;; add_uint32 x441 19088743) ;; add_uint32 x461 268435455) ;; add_uint32 x481 4294967295) ;; Ok (sx_data x493)) ;; vec_at x494 (Z.to_nat 38)) ;; Ok (Z.eqb 127 x495));
    (x498 <- (x497 <- (x496 <- (x481 <- (x461 <- (x441 <- (x421 <- (x401 <- (x381 <- (x361 <- (add_uint32 (mkSx 0x123456 []) 0) ;; add_uint32 x361 99) ;; add_uint32 x381 128) ;; add_uint32 x401 16383) ;; add_uint32 x421 1193046) ;; add_uint32 x441 19088743) ;; add_uint32 x461 268435455) ;; add_uint32 x481 4294967295) ;; Ok (sx_data x496)) ;; vec_at x497 (Z.to_nat 39)) ;; Ok (Z.eqb 15 x498));
    (x500 <- (x499 <- (x481 <- (x461 <- (x441 <- (x421 <- (x401 <- (x381 <- (x361 <- (add_uint32 (mkSx 0x123456 []) 0) ;; add_uint32 x361 99) ;; add_uint32 x381 128) ;; add_uint32 x401 16383) ;; add_uint32 x421 1193046) ;; add_uint32 x441 19088743) ;; add_uint32 x461 268435455) ;; add_uint32 x481 4294967295) ;; make_uint32 x499 (Z.to_nat 35)) ;; Ok (Z.eqb 4294967295 x500))].
Proof. vm_compute. repeat constructor. Qed.

(* line 424 *)
Example test_sysex7_add_device_identity : all_true [
    (x502 <- (x501 <- (add_device_identity true (mkSx 0x123456 [4; 1; 144; 34; 77]) (mkDevId 8457 5936 49 65541)) ;; Ok (dsize x501)) ;; Ok (Z.eqb (Z.add (dsize (mkSx 0x123456 [4; 1; 144; 34; 77])) 11) x502));
    (x505 <- (x504 <- (x503 <- (add_device_identity true (mkSx 0x123456 [4; 1; 144; 34; 77]) (mkDevId 8457 5936 49 65541)) ;; Ok (sx_data x503)) ;; vec_at x504 (Z.to_nat (Z.add (dsize (mkSx 0x123456 [4; 1; 144; 34; 77])) 0))) ;; Ok (Z.eqb 0 x505));
    (x508 <- (x507 <- (x506 <- (add_device_identity true (mkSx 0x123456 [4; 1; 144; 34; 77]) (mkDevId 8457 5936 49 65541)) ;; Ok (sx_data x506)) ;; vec_at x507 (Z.to_nat (Z.add (dsize (mkSx 0x123456 [4; 1; 144; 34; 77])) 1))) ;; Ok (Z.eqb 33 x508));
    (x511 <- (x510 <- (x509 <- (add_device_identity true (mkSx 0x123456 [4; 1; 144; 34; 77]) (mkDevId 8457 5936 49 65541)) ;; Ok (sx_data x509)) ;; vec_at x510 (Z.to_nat (Z.add (dsize (mkSx 0x123456 [4; 1; 144; 34; 77])) 2))) ;; Ok (Z.eqb 9 x511));
    (x514 <- (x513 <- (x512 <- (add_device_identity true (mkSx 0x123456 [4; 1; 144; 34; 77]) (mkDevId 8457 5936 49 65541)) ;; Ok (sx_data x512)) ;; vec_at x513 (Z.to_nat (Z.add (dsize (mkSx 0x123456 [4; 1; 144; 34; 77])) 3))) ;; Ok (Z.eqb 48 x514));
    (x517 <- (x516 <- (x515 <- (add_device_identity true (mkSx 0x123456 [4; 1; 144; 34; 77]) (mkDevId 8457 5936 49 65541)) ;; Ok (sx_data x515)) ;; vec_at x516 (Z.to_nat (Z.add (dsize (mkSx 0x123456 [4; 1; 144; 34; 77])) 4))) ;; Ok (Z.eqb 46 x517));
    (x520 <- (x519 <- (x518 <- (add_device_identity true (mkSx 0x123456 [4; 1; 144; 34; 77]) (mkDevId 8457 5936 49 65541)) ;; Ok (sx_data x518)) ;; vec_at x519 (Z.to_nat (Z.add (dsize (mkSx 0x123456 [4; 1; 144; 34; 77])) 5))) ;; Ok (Z.eqb 49 x520));
    (x523 <- (x522 <- (x521 <- (add_device_identity true (mkSx 0x123456 [4; 1; 144; 34; 77]) (mkDevId 8457 5936 49 65541)) ;; Ok (sx_data x521)) ;; vec_at x522 (Z.to_nat (Z.add (dsize (mkSx 0x123456 [4; 1; 144; 34; 77])) 6))) ;; Ok (Z.eqb 0 x523));
    (x526 <- (x525 <- (x524 <- (add_device_identity true (mkSx 0x123456 [4; 1; 144; 34; 77]) (mkDevId 8457 5936 49 65541)) ;; Ok (sx_data x524)) ;; vec_at x525 (Z.to_nat (Z.add (dsize (mkSx 0x123456 [4; 1; 144; 34; 77])) 7))) ;; Ok (Z.eqb 5 x526));
    (x529 <- (x528 <- (x527 <- (add_device_identity true (mkSx 0x123456 [4; 1; 144; 34; 77]) (mkDevId 8457 5936 49 65541)) ;; Ok (sx_data x527)) ;; vec_at x528 (Z.to_nat (Z.add (dsize (mkSx 0x123456 [4; 1; 144; 34; 77])) 8))) ;; Ok (Z.eqb 0 x529));
    (x532 <- (x531 <- (x530 <- (add_device_identity true (mkSx 0x123456 [4; 1; 144; 34; 77]) (mkDevId 8457 5936 49 65541)) ;; Ok (sx_data x530)) ;; vec_at x531 (Z.to_nat (Z.add (dsize (mkSx 0x123456 [4; 1; 144; 34; 77])) 9))) ;; Ok (Z.eqb 4 x532));
    (x535 <- (x534 <- (x533 <- (add_device_identity true (mkSx 0x123456 [4; 1; 144; 34; 77]) (mkDevId 8457 5936 49 65541)) ;; Ok (sx_data x533)) ;; vec_at x534 (Z.to_nat (Z.add (dsize (mkSx 0x123456 [4; 1; 144; 34; 77])) 10))) ;; Ok (Z.eqb 0 x535));
    (x537 <- (x536 <- (add_device_identity true (mkSx 0x443322 [4; 16; 99; 22; 77]) (mkDevId 4259840 2055 4660 212436837)) ;; Ok (dsize x536)) ;; Ok (Z.eqb (Z.add (dsize (mkSx 0x443322 [4; 16; 99; 22; 77])) 11) x537));
    (x540 <- (x539 <- (x538 <- (add_device_identity true (mkSx 0x443322 [4; 16; 99; 22; 77]) (mkDevId 4259840 2055 4660 212436837)) ;; Ok (sx_data x538)) ;; vec_at x539 (Z.to_nat (Z.add (dsize (mkSx 0x443322 [4; 16; 99; 22; 77])) 0))) ;; Ok (Z.eqb 65 x540));
    (x543 <- (x542 <- (x541 <- (add_device_identity true (mkSx 0x443322 [4; 16; 99; 22; 77]) (mkDevId 4259840 2055 4660 212436837)) ;; Ok (sx_data x541)) ;; vec_at x542 (Z.to_nat (Z.add (dsize (mkSx 0x443322 [4; 16; 99; 22; 77])) 1))) ;; Ok (Z.eqb 0 x543));
    (x546 <- (x545 <- (x544 <- (add_device_identity true (mkSx 0x443322 [4; 16; 99; 22; 77]) (mkDevId 4259840 2055 4660 212436837)) ;; Ok (sx_data x544)) ;; vec_at x545 (Z.to_nat (Z.add (dsize (mkSx 0x443322 [4; 16; 99; 22; 77])) 2))) ;; Ok (Z.eqb 0 x546));
    (x549 <- (x548 <- (x547 <- (add_device_identity true (mkSx 0x443322 [4; 16; 99; 22; 77]) (mkDevId 4259840 2055 4660 212436837)) ;; Ok (sx_data x547)) ;; vec_at x548 (Z.to_nat (Z.add (dsize (mkSx 0x443322 [4; 16; 99; 22; 77])) 3))) ;; Ok (Z.eqb 7 x549));
    (x552 <- (x551 <- (x550 <- (add_device_identity true (mkSx 0x443322 [4; 16; 99; 22; 77]) (mkDevId 4259840 2055 4660 212436837)) ;; Ok (sx_data x550)) ;; vec_at x551 (Z.to_nat (Z.add (dsize (mkSx 0x443322 [4; 16; 99; 22; 77])) 4))) ;; Ok (Z.eqb 16 x552));
    (x555 <- (x554 <- (x553 <- (add_device_identity true (mkSx 0x443322 [4; 16; 99; 22; 77]) (mkDevId 4259840 2055 4660 212436837)) ;; Ok (sx_data x553)) ;; vec_at x554 (Z.to_nat (Z.add (dsize (mkSx 0x443322 [4; 16; 99; 22; 77])) 5))) ;; Ok (Z.eqb 52 x555));
    (x558 <- (x557 <- (x556 <- (add_device_identity true (mkSx 0x443322 [4; 16; 99; 22; 77]) (mkDevId 4259840 2055 4660 212436837)) ;; Ok (sx_data x556)) ;; vec_at x557 (Z.to_nat (Z.add (dsize (mkSx 0x443322 [4; 16; 99; 22; 77])) 6))) ;; Ok (Z.eqb 36 x558));
    (x561 <- (x560 <- (x559 <- (add_device_identity true (mkSx 0x443322 [4; 16; 99; 22; 77]) (mkDevId 4259840 2055 4660 212436837)) ;; Ok (sx_data x559)) ;; vec_at x560 (Z.to_nat (Z.add (dsize (mkSx 0x443322 [4; 16; 99; 22; 77])) 7))) ;; Ok (Z.eqb 101 x561));
    (x564 <- (x563 <- (x562 <- (add_device_identity true (mkSx 0x443322 [4; 16; 99; 22; 77]) (mkDevId 4259840 2055 4660 212436837)) ;; Ok (sx_data x562)) ;; vec_at x563 (Z.to_nat (Z.add (dsize (mkSx 0x443322 [4; 16; 99; 22; 77])) 8))) ;; Ok (Z.eqb 14 x564));
    (x567 <- (x566 <- (x565 <- (add_device_identity true (mkSx 0x443322 [4; 16; 99; 22; 77]) (mkDevId 4259840 2055 4660 212436837)) ;; Ok (sx_data x565)) ;; vec_at x566 (Z.to_nat (Z.add (dsize (mkSx 0x443322 [4; 16; 99; 22; 77])) 9))) ;; Ok (Z.eqb 38 x567));
    (x570 <- (x569 <- (x568 <- (add_device_identity true (mkSx 0x443322 [4; 16; 99; 22; 77]) (mkDevId 4259840 2055 4660 212436837)) ;; Ok (sx_data x568)) ;; vec_at x569 (Z.to_nat (Z.add (dsize (mkSx 0x443322 [4; 16; 99; 22; 77])) 10))) ;; Ok (Z.eqb 101 x570));
    (x573 <- (x572 <- (x571 <- (add_device_identity true (mkSx 0x443322 [4; 16; 99; 22; 77]) (mkDevId 4259840 2055 4660 212436837)) ;; add_device_identity true x571 (mkDevId 4259840 2055 4660 212436837)) ;; Ok (dsize x572)) ;; Ok (Z.eqb (Z.add (dsize (mkSx 0x443322 [4; 16; 99; 22; 77])) 22) x573));
    (x576 <- (x575 <- (x574 <- (x571 <- (add_device_identity true (mkSx 0x443322 [4; 16; 99; 22; 77]) (mkDevId 4259840 2055 4660 212436837)) ;; add_device_identity true x571 (mkDevId 4259840 2055 4660 212436837)) ;; Ok (sx_data x574)) ;; vec_at x575 (Z.to_nat (Z.add (dsize (mkSx 0x443322 [4; 16; 99; 22; 77])) 11))) ;; Ok (Z.eqb 65 x576));
    (x579 <- (x578 <- (x577 <- (x571 <- (add_device_identity true (mkSx 0x443322 [4; 16; 99; 22; 77]) (mkDevId 4259840 2055 4660 212436837)) ;; add_device_identity true x571 (mkDevId 4259840 2055 4660 212436837)) ;; Ok (sx_data x577)) ;; vec_at x578 (Z.to_nat (Z.add (dsize (mkSx 0x443322 [4; 16; 99; 22; 77])) 12))) ;; Ok (Z.eqb 0 x579));
    (x582 <- (x581 <- (x580 <- (x571 <- (add_device_identity true (mkSx 0x443322 [4; 16; 99; 22; 77]) (mkDevId 4259840 2055 4660 212436837)) ;; add_device_identity true x571 (mkDevId 4259840 2055 4660 212436837)) ;; Ok (sx_data x580)) ;; vec_at x581 (Z.to_nat (Z.add (dsize (mkSx 0x443322 [4; 16; 99; 22; 77])) 13))) ;; Ok (Z.eqb 0 x582));
    (x585 <- (x584 <- (x583 <- (x571 <- (add_device_identity true (mkSx 0x443322 [4; 16; 99; 22; 77]) (mkDevId 4259840 2055 4660 212436837)) ;; add_device_identity true x571 (mkDevId 4259840 2055 4660 212436837)) ;; Ok (sx_data x583)) ;; vec_at x584 (Z.to_nat (Z.add (dsize (mkSx 0x443322 [4; 16; 99; 22; 77])) 14))) ;; Ok (Z.eqb 7 x585));
    (x588 <- (x587 <- (x586 <- (x571 <- (add_device_identity true (mkSx 0x443322 [4; 16; 99; 22; 77]) (mkDevId 4259840 2055 4660 212436837)) ;; add_device_identity true x571 (mkDevId 4259840 2055 4660 212436837)) ;; Ok (sx_data x586)) ;; vec_at x587 (Z.to_nat (Z.add (dsize (mkSx 0x443322 [4; 16; 99; 22; 77])) 15))) ;; Ok (Z.eqb 16 x588));
    (x591 <- (x590 <- (x589 <- (x571 <- (add_device_identity true (mkSx 0x443322 [4; 16; 99; 22; 77]) (mkDevId 4259840 2055 4660 212436837)) ;; add_device_identity true x571 (mkDevId 4259840 2055 4660 212436837)) ;; Ok (sx_data x589)) ;; vec_at x590 (Z.to_nat (Z.add (dsize (mkSx 0x443322 [4; 16; 99; 22; 77])) 16))) ;; Ok (Z.eqb 52 x591));
    (x594 <- (x593 <- (x592 <- (x571 <- (add_device_identity true (mkSx 0x443322 [4; 16; 99; 22; 77]) (mkDevId 4259840 2055 4660 212436837)) ;; add_device_identity true x571 (mkDevId 4259840 2055 4660 212436837)) ;; Ok (sx_data x592)) ;; vec_at x593 (Z.to_nat (Z.add (dsize (mkSx 0x443322 [4; 16; 99; 22; 77])) 17))) ;; Ok (Z.eqb 36 x594));
    (x597 <- (x596 <- (x595 <- (x571 <- (add_device_identity true (mkSx 0x443322 [4; 16; 99; 22; 77]) (mkDevId 4259840 2055 4660 212436837)) ;; add_device_identity true x571 (mkDevId 4259840 2055 4660 212436837)) ;; Ok (sx_data x595)) ;; vec_at x596 (Z.to_nat (Z.add (dsize (mkSx 0x443322 [4; 16; 99; 22; 77])) 18))) ;; Ok (Z.eqb 101 x597));
    (x600 <- (x599 <- (x598 <- (x571 <- (add_device_identity true (mkSx 0x443322 [4; 16; 99; 22; 77]) (mkDevId 4259840 2055 4660 212436837)) ;; add_device_identity true x571 (mkDevId 4259840 2055 4660 212436837)) ;; Ok (sx_data x598)) ;; vec_at x599 (Z.to_nat (Z.add (dsize (mkSx 0x443322 [4; 16; 99; 22; 77])) 19))) ;; Ok (Z.eqb 14 x600));
    (x603 <- (x602 <- (x601 <- (x571 <- (add_device_identity true (mkSx 0x443322 [4; 16; 99; 22; 77]) (mkDevId 4259840 2055 4660 212436837)) ;; add_device_identity true x571 (mkDevId 4259840 2055 4660 212436837)) ;; Ok (sx_data x601)) ;; vec_at x602 (Z.to_nat (Z.add (dsize (mkSx 0x443322 [4; 16; 99; 22; 77])) 20))) ;; Ok (Z.eqb 38 x603));
    (x606 <- (x605 <- (x604 <- (x571 <- (add_device_identity true (mkSx 0x443322 [4; 16; 99; 22; 77]) (mkDevId 4259840 2055 4660 212436837)) ;; add_device_identity true x571 (mkDevId 4259840 2055 4660 212436837)) ;; Ok (sx_data x604)) ;; vec_at x605 (Z.to_nat (Z.add (dsize (mkSx 0x443322 [4; 16; 99; 22; 77])) 21))) ;; Ok (Z.eqb 101 x606))].
Proof. vm_compute. repeat constructor. Qed.

(* line 495 *)
Example test_sysex7_make_device_identity : all_true [
    (x608 <- (x607 <- (add_device_identity true (mkSx 0x000056 [4; 1; 9; 9; 22; 77]) (mkDevId 8457 5936 49 65541)) ;; make_device_identity x607 (Z.to_nat (dsize (mkSx 0x000056 [4; 1; 9; 9; 22; 77])))) ;; Ok (ident_eqb (mkDevId 8457 5936 49 65541) x608));
    (x611 <- (x610 <- (x609 <- (add_device_identity true (mkSx 0x000007 [4; 25; 9; 34; 77]) (mkDevId 4259840 2055 4660 5243138)) ;; add_device_identity true x609 (mkDevId 4259840 2055 4660 5243138)) ;; make_device_identity x610 (Z.to_nat (dsize (mkSx 0x000007 [4; 25; 9; 34; 77])))) ;; Ok (ident_eqb (mkDevId 4259840 2055 4660 5243138) x611));
    (x613 <- (x612 <- (x609 <- (add_device_identity true (mkSx 0x000007 [4; 25; 9; 34; 77]) (mkDevId 4259840 2055 4660 5243138)) ;; add_device_identity true x609 (mkDevId 4259840 2055 4660 5243138)) ;; make_device_identity x612 (Z.to_nat (Z.add (dsize (mkSx 0x000007 [4; 25; 9; 34; 77])) 11))) ;; Ok (ident_eqb (mkDevId 4259840 2055 4660 5243138) x613))].
Proof. vm_compute. repeat constructor. Qed.

(* line 532 *)
Example test_operators : all_true [
    (Ok (sysex_eq (mkSx 0x000007 [4; 25; 9; 34; 77]) (mkSx 0x000007 [4; 25; 9; 34; 77])));
    (b_ <- (Ok (sysex_eq (mkSx 0x000007 [4; 25; 9; 34; 77]) (mkSx 0x000007 [4; 25; 99; 34; 77]))) ;; Ok (negb b_));
    (b_ <- (Ok (sysex_eq (mkSx 0x000007 [4; 25; 9; 34; 77]) (mkSx 0x123456 [4; 1; 144; 34; 77]))) ;; Ok (negb b_));
    (b_ <- (Ok (sysex_eq (mkSx 0x000007 [4; 25; 9; 34; 77]) (mkSx 0x123456 [4; 17; 144; 34; 77]))) ;; Ok (negb b_));
    (b_ <- (Ok (sysex_eq (mkSx 0x000007 [4; 25; 99; 34; 77]) (mkSx 0x000007 [4; 25; 9; 34; 77]))) ;; Ok (negb b_));
    (Ok (sysex_eq (mkSx 0x000007 [4; 25; 99; 34; 77]) (mkSx 0x000007 [4; 25; 99; 34; 77])));
    (b_ <- (Ok (sysex_eq (mkSx 0x000007 [4; 25; 99; 34; 77]) (mkSx 0x123456 [4; 1; 144; 34; 77]))) ;; Ok (negb b_));
    (b_ <- (Ok (sysex_eq (mkSx 0x000007 [4; 25; 99; 34; 77]) (mkSx 0x123456 [4; 17; 144; 34; 77]))) ;; Ok (negb b_));
    (b_ <- (Ok (sysex_eq (mkSx 0x123456 [4; 1; 144; 34; 77]) (mkSx 0x000007 [4; 25; 9; 34; 77]))) ;; Ok (negb b_));
    (b_ <- (Ok (sysex_eq (mkSx 0x123456 [4; 1; 144; 34; 77]) (mkSx 0x000007 [4; 25; 99; 34; 77]))) ;; Ok (negb b_));
    (Ok (sysex_eq (mkSx 0x123456 [4; 1; 144; 34; 77]) (mkSx 0x123456 [4; 1; 144; 34; 77])));
    (b_ <- (Ok (sysex_eq (mkSx 0x123456 [4; 1; 144; 34; 77]) (mkSx 0x000007 [4; 25; 99; 34; 77]))) ;; Ok (negb b_));
    (b_ <- (Ok (sysex_eq (mkSx 0x123456 [4; 17; 144; 34; 77]) (mkSx 0x000007 [4; 25; 9; 34; 77]))) ;; Ok (negb b_));
    (b_ <- (Ok (sysex_eq (mkSx 0x123456 [4; 17; 144; 34; 77]) (mkSx 0x000007 [4; 25; 99; 34; 77]))) ;; Ok (negb b_));
    (b_ <- (Ok (sysex_eq (mkSx 0x123456 [4; 17; 144; 34; 77]) (mkSx 0x123456 [4; 1; 144; 34; 77]))) ;; Ok (negb b_));
    (Ok (sysex_eq (mkSx 0x123456 [4; 17; 144; 34; 77]) (mkSx 0x123456 [4; 17; 144; 34; 77])));
    (Ok (sysex_eq (mkSx 0x000007 [4; 25; 9; 34; 77]) (mkSx 0x000007 [4; 25; 9; 34; 77])));
    (b_ <- (Ok (sysex_eq (mkSx 0x000007 [4; 25; 9; 34; 77]) (mkSx 0x000007 [4; 25; 99; 34; 77]))) ;; Ok (negb b_));
    (b_ <- (Ok (sysex_eq (mkSx 0x000007 [4; 25; 9; 34; 77]) (mkSx 0x123456 [4; 1; 144; 34; 77]))) ;; Ok (negb b_));
    (b_ <- (Ok (sysex_eq (mkSx 0x000007 [4; 25; 9; 34; 77]) (mkSx 0x123456 [4; 17; 144; 34; 77]))) ;; Ok (negb b_));
    (b_ <- (Ok (sysex_eq (mkSx 0x000007 [4; 25; 99; 34; 77]) (mkSx 0x000007 [4; 25; 9; 34; 77]))) ;; Ok (negb b_));
    (Ok (sysex_eq (mkSx 0x000007 [4; 25; 99; 34; 77]) (mkSx 0x000007 [4; 25; 99; 34; 77])));
    (b_ <- (Ok (sysex_eq (mkSx 0x000007 [4; 25; 99; 34; 77]) (mkSx 0x123456 [4; 1; 144; 34; 77]))) ;; Ok (negb b_));
    (b_ <- (Ok (sysex_eq (mkSx 0x000007 [4; 25; 99; 34; 77]) (mkSx 0x123456 [4; 17; 144; 34; 77]))) ;; Ok (negb b_));
    (b_ <- (Ok (sysex_eq (mkSx 0x123456 [4; 1; 144; 34; 77]) (mkSx 0x000007 [4; 25; 9; 34; 77]))) ;; Ok (negb b_));
    (b_ <- (Ok (sysex_eq (mkSx 0x123456 [4; 1; 144; 34; 77]) (mkSx 0x000007 [4; 25; 99; 34; 77]))) ;; Ok (negb b_));
    (Ok (sysex_eq (mkSx 0x123456 [4; 1; 144; 34; 77]) (mkSx 0x123456 [4; 1; 144; 34; 77])));
    (b_ <- (Ok (sysex_eq (mkSx 0x123456 [4; 1; 144; 34; 77]) (mkSx 0x123456 [4; 17; 144; 34; 77]))) ;; Ok (negb b_));
    (b_ <- (Ok (sysex_eq (mkSx 0x123456 [4; 17; 144; 34; 77]) (mkSx 0x000007 [4; 25; 9; 34; 77]))) ;; Ok (negb b_));
    (b_ <- (Ok (sysex_eq (mkSx 0x123456 [4; 17; 144; 34; 77]) (mkSx 0x000007 [4; 25; 99; 34; 77]))) ;; Ok (negb b_));
    (b_ <- (Ok (sysex_eq (mkSx 0x123456 [4; 17; 144; 34; 77]) (mkSx 0x123456 [4; 1; 144; 34; 77]))) ;; Ok (negb b_));
    (Ok (sysex_eq (mkSx 0x123456 [4; 17; 144; 34; 77]) (mkSx 0x123456 [4; 17; 144; 34; 77])))].
Proof. vm_compute. repeat constructor. Qed.

