(* The unit tests of tests/ci_property_exchange_tests.cpp, run on the model with assertions.
   These are checks of the model against the results its authors expect of the code, not proofs. *)
From Coq Require Import ZArith List Bool.
From Verif Require Import Base Packet Messages Sysex UniversalSysex CapInq PropEx TestsBase.
Import ListNotations.
Local Open Scope Z_scope.
Local Open Scope res_scope.

(* ---- tests/ci_property_exchange_tests.cpp ---- *)


(* line 40 *)
Example test_property_exchange_capabilities_view : all_true [
    (pe_capabilities_validate (mkSx 0x7E0000 [127; 13; 48; 1; 120; 86; 52; 18; 119; 85; 51; 17; 2]));
    (x1 <- (as_view true pe_capabilities_validate (mkSx 0x7E0000 [127; 13; 48; 1; 120; 86; 52; 18; 119; 85; 51; 17; 2])) ;; Ok (opt_some x1));
    (x3 <- (x2 <- (ci_view true (mkSx 0x7E0000 [127; 13; 48; 1; 120; 86; 52; 18; 119; 85; 51; 17; 2])) ;; view_device_id x2) ;; Ok (Z.eqb 127 x3));
    (x5 <- (x4 <- (ci_view true (mkSx 0x7E0000 [127; 13; 48; 1; 120; 86; 52; 18; 119; 85; 51; 17; 2])) ;; view_type x4) ;; Ok (Z.eqb 32269 x5));
    (x7 <- (x6 <- (ci_view true (mkSx 0x7E0000 [127; 13; 48; 1; 120; 86; 52; 18; 119; 85; 51; 17; 2])) ;; view_subtype x6) ;; Ok (Z.eqb 48 x7));
    (x9 <- (x8 <- (ci_view true (mkSx 0x7E0000 [127; 13; 48; 1; 120; 86; 52; 18; 119; 85; 51; 17; 2])) ;; message_version x8) ;; Ok (Z.eqb 1 x9));
    (x11 <- (x10 <- (ci_view true (mkSx 0x7E0000 [127; 13; 48; 1; 120; 86; 52; 18; 119; 85; 51; 17; 2])) ;; source_muid x10) ;; Ok (Z.eqb 38611832 x11));
    (x13 <- (x12 <- (ci_view true (mkSx 0x7E0000 [127; 13; 48; 1; 120; 86; 52; 18; 119; 85; 51; 17; 2])) ;; destination_muid x12) ;; Ok (Z.eqb 36498167 x13));
    (x15 <- (x14 <- (ci_view true (mkSx 0x7E0000 [127; 13; 48; 1; 120; 86; 52; 18; 119; 85; 51; 17; 2])) ;; maximum_number_of_requests x14) ;; Ok (Z.eqb 2 x15));
    (x17 <- (x16 <- (ci_view true (mkSx 0x7E0000 [127; 13; 48; 1; 120; 86; 52; 18; 119; 85; 51; 17; 2])) ;; pe_version_major x16) ;; Ok (Z.eqb 0 x17));
    (x19 <- (x18 <- (ci_view true (mkSx 0x7E0000 [127; 13; 48; 1; 120; 86; 52; 18; 119; 85; 51; 17; 2])) ;; pe_version_minor x18) ;; Ok (Z.eqb 0 x19));
    (pe_capabilities_validate (mkSx 0x7E0000 [127; 13; 49; 2; 120; 86; 52; 18; 119; 85; 51; 17; 3; 1; 2]));
    (x20 <- (as_view true pe_capabilities_validate (mkSx 0x7E0000 [127; 13; 49; 2; 120; 86; 52; 18; 119; 85; 51; 17; 3; 1; 2])) ;; Ok (opt_some x20));
    (x22 <- (x21 <- (ci_view true (mkSx 0x7E0000 [127; 13; 49; 2; 120; 86; 52; 18; 119; 85; 51; 17; 3; 1; 2])) ;; view_device_id x21) ;; Ok (Z.eqb 127 x22));
    (x24 <- (x23 <- (ci_view true (mkSx 0x7E0000 [127; 13; 49; 2; 120; 86; 52; 18; 119; 85; 51; 17; 3; 1; 2])) ;; view_type x23) ;; Ok (Z.eqb 32269 x24));
    (x26 <- (x25 <- (ci_view true (mkSx 0x7E0000 [127; 13; 49; 2; 120; 86; 52; 18; 119; 85; 51; 17; 3; 1; 2])) ;; view_subtype x25) ;; Ok (Z.eqb 49 x26));
    (x28 <- (x27 <- (ci_view true (mkSx 0x7E0000 [127; 13; 49; 2; 120; 86; 52; 18; 119; 85; 51; 17; 3; 1; 2])) ;; message_version x27) ;; Ok (Z.eqb 2 x28));
    (x30 <- (x29 <- (ci_view true (mkSx 0x7E0000 [127; 13; 49; 2; 120; 86; 52; 18; 119; 85; 51; 17; 3; 1; 2])) ;; source_muid x29) ;; Ok (Z.eqb 38611832 x30));
    (x32 <- (x31 <- (ci_view true (mkSx 0x7E0000 [127; 13; 49; 2; 120; 86; 52; 18; 119; 85; 51; 17; 3; 1; 2])) ;; destination_muid x31) ;; Ok (Z.eqb 36498167 x32));
    (x34 <- (x33 <- (ci_view true (mkSx 0x7E0000 [127; 13; 49; 2; 120; 86; 52; 18; 119; 85; 51; 17; 3; 1; 2])) ;; maximum_number_of_requests x33) ;; Ok (Z.eqb 3 x34));
    (x36 <- (x35 <- (ci_view true (mkSx 0x7E0000 [127; 13; 49; 2; 120; 86; 52; 18; 119; 85; 51; 17; 3; 1; 2])) ;; pe_version_major x35) ;; Ok (Z.eqb 1 x36));
    (x38 <- (x37 <- (ci_view true (mkSx 0x7E0000 [127; 13; 49; 2; 120; 86; 52; 18; 119; 85; 51; 17; 3; 1; 2])) ;; pe_version_minor x37) ;; Ok (Z.eqb 2 x38));
    (b_ <- (pe_capabilities_validate (mkSx 0x7E0000 [127; 13; 49; 2; 120; 86; 52; 18; 119; 85; 51; 17; 2])) ;; Ok (negb b_));
    (b_ <- (x39 <- (as_view true pe_capabilities_validate (mkSx 0x7E0000 [127; 13; 49; 2; 120; 86; 52; 18; 119; 85; 51; 17; 2])) ;; Ok (opt_some x39)) ;; Ok (negb b_));
    (b_ <- (pe_capabilities_validate (mkSx 0x7E0000 [127; 14; 48; 1; 120; 86; 52; 18; 119; 85; 51; 17; 2])) ;; Ok (negb b_));
    (b_ <- (x40 <- (as_view true pe_capabilities_validate (mkSx 0x7E0000 [127; 14; 48; 1; 120; 86; 52; 18; 119; 85; 51; 17; 2])) ;; Ok (opt_some x40)) ;; Ok (negb b_));
    (b_ <- (pe_capabilities_validate (mkSx 0x7E0000 [127; 13; 33; 0; 120; 86; 52; 18; 119; 85; 51; 17; 2])) ;; Ok (negb b_));
    (b_ <- (x41 <- (as_view true pe_capabilities_validate (mkSx 0x7E0000 [127; 13; 33; 0; 120; 86; 52; 18; 119; 85; 51; 17; 2])) ;; Ok (opt_some x41)) ;; Ok (negb b_));
    (b_ <- (pe_capabilities_validate (mkSx 0x7E0000 [127; 13; 48; 1; 120; 86; 52; 18; 119; 85; 51; 17])) ;; Ok (negb b_));
    (b_ <- (x42 <- (as_view true pe_capabilities_validate (mkSx 0x7E0000 [127; 13; 48; 1; 120; 86; 52; 18; 119; 85; 51; 17])) ;; Ok (opt_some x42)) ;; Ok (negb b_));
    (b_ <- (pe_capabilities_validate (mkSx 0x7E0000 [127; 13; 49; 1; 120; 86; 52; 18; 119; 85; 51; 17])) ;; Ok (negb b_));
    (b_ <- (x43 <- (as_view true pe_capabilities_validate (mkSx 0x7E0000 [127; 13; 49; 1; 120; 86; 52; 18; 119; 85; 51; 17])) ;; Ok (opt_some x43)) ;; Ok (negb b_));
    (pe_capabilities_validate (mkSx 0x7E0000 [127; 13; 48; 1; 120; 86; 52; 18; 119; 85; 51; 17; 2; 1; 0]));
    (x44 <- (as_view true pe_capabilities_validate (mkSx 0x7E0000 [127; 13; 48; 1; 120; 86; 52; 18; 119; 85; 51; 17; 2; 1; 0])) ;; Ok (opt_some x44));
    (pe_capabilities_validate (mkSx 0x7E0000 [127; 13; 49; 1; 120; 86; 52; 18; 119; 85; 51; 17; 3; 4; 5]));
    (x45 <- (as_view true pe_capabilities_validate (mkSx 0x7E0000 [127; 13; 49; 1; 120; 86; 52; 18; 119; 85; 51; 17; 3; 4; 5])) ;; Ok (opt_some x45))].
Proof. vm_compute. repeat constructor. Qed.

(* line 150 *)
Example test_make_property_exchange_capabilities_inquiry : all_true [
    (x47 <- (x46 <- (make_pe_capabilities_inquiry true 19088743 267242409 3 5) ;; Ok (dsize x46)) ;; Ok (Z.eqb 15 x47));
    (x48 <- (make_pe_capabilities_inquiry true 19088743 267242409 3 5) ;; pe_capabilities_validate x48);
    (x50 <- (x49 <- (make_pe_capabilities_inquiry true 19088743 267242409 3 5) ;; as_view true pe_capabilities_validate x49) ;; Ok (opt_some x50));
    (x53 <- (x52 <- (x51 <- (make_pe_capabilities_inquiry true 19088743 267242409 3 5) ;; ci_view true x51) ;; view_device_id x52) ;; Ok (Z.eqb 5 x53));
    (x55 <- (x54 <- (x51 <- (make_pe_capabilities_inquiry true 19088743 267242409 3 5) ;; ci_view true x51) ;; view_type x54) ;; Ok (Z.eqb 32269 x55));
    (x57 <- (x56 <- (x51 <- (make_pe_capabilities_inquiry true 19088743 267242409 3 5) ;; ci_view true x51) ;; view_subtype x56) ;; Ok (Z.eqb 48 x57));
    (x59 <- (x58 <- (x51 <- (make_pe_capabilities_inquiry true 19088743 267242409 3 5) ;; ci_view true x51) ;; message_version x58) ;; Ok (Z.eqb 2 x59));
    (x61 <- (x60 <- (x51 <- (make_pe_capabilities_inquiry true 19088743 267242409 3 5) ;; ci_view true x51) ;; source_muid x60) ;; Ok (Z.eqb 19088743 x61));
    (x63 <- (x62 <- (x51 <- (make_pe_capabilities_inquiry true 19088743 267242409 3 5) ;; ci_view true x51) ;; destination_muid x62) ;; Ok (Z.eqb 267242409 x63));
    (x65 <- (x64 <- (x51 <- (make_pe_capabilities_inquiry true 19088743 267242409 3 5) ;; ci_view true x51) ;; maximum_number_of_requests x64) ;; Ok (Z.eqb 3 x65));
    (x67 <- (x66 <- (x51 <- (make_pe_capabilities_inquiry true 19088743 267242409 3 5) ;; ci_view true x51) ;; pe_version_major x66) ;; Ok (Z.eqb 0 x67));
    (x69 <- (x68 <- (x51 <- (make_pe_capabilities_inquiry true 19088743 267242409 3 5) ;; ci_view true x51) ;; pe_version_minor x68) ;; Ok (Z.eqb 0 x69));
    (x71 <- (x70 <- (make_pe_capabilities_inquiry true 8741650 1193046 1 127) ;; Ok (dsize x70)) ;; Ok (Z.eqb 15 x71));
    (x72 <- (make_pe_capabilities_inquiry true 8741650 1193046 1 127) ;; pe_capabilities_validate x72);
    (x74 <- (x73 <- (make_pe_capabilities_inquiry true 8741650 1193046 1 127) ;; as_view true pe_capabilities_validate x73) ;; Ok (opt_some x74));
    (x77 <- (x76 <- (x75 <- (make_pe_capabilities_inquiry true 8741650 1193046 1 127) ;; ci_view true x75) ;; view_device_id x76) ;; Ok (Z.eqb 127 x77));
    (x79 <- (x78 <- (x75 <- (make_pe_capabilities_inquiry true 8741650 1193046 1 127) ;; ci_view true x75) ;; view_type x78) ;; Ok (Z.eqb 32269 x79));
    (x81 <- (x80 <- (x75 <- (make_pe_capabilities_inquiry true 8741650 1193046 1 127) ;; ci_view true x75) ;; view_subtype x80) ;; Ok (Z.eqb 48 x81));
    (x83 <- (x82 <- (x75 <- (make_pe_capabilities_inquiry true 8741650 1193046 1 127) ;; ci_view true x75) ;; message_version x82) ;; Ok (Z.eqb 2 x83));
    (x85 <- (x84 <- (x75 <- (make_pe_capabilities_inquiry true 8741650 1193046 1 127) ;; ci_view true x75) ;; source_muid x84) ;; Ok (Z.eqb 8741650 x85));
    (x87 <- (x86 <- (x75 <- (make_pe_capabilities_inquiry true 8741650 1193046 1 127) ;; ci_view true x75) ;; destination_muid x86) ;; Ok (Z.eqb 1193046 x87));
    (x89 <- (x88 <- (x75 <- (make_pe_capabilities_inquiry true 8741650 1193046 1 127) ;; ci_view true x75) ;; maximum_number_of_requests x88) ;; Ok (Z.eqb 1 x89));
    (x91 <- (x90 <- (x75 <- (make_pe_capabilities_inquiry true 8741650 1193046 1 127) ;; ci_view true x75) ;; pe_version_major x90) ;; Ok (Z.eqb 0 x91));
    (x93 <- (x92 <- (x75 <- (make_pe_capabilities_inquiry true 8741650 1193046 1 127) ;; ci_view true x75) ;; pe_version_minor x92) ;; Ok (Z.eqb 0 x93));
    (x95 <- (x94 <- (make_pe_capabilities_inquiry true 19088743 159736594 7 127) ;; Ok (dsize x94)) ;; Ok (Z.eqb 15 x95));
    (x96 <- (make_pe_capabilities_inquiry true 19088743 159736594 7 127) ;; pe_capabilities_validate x96);
    (x98 <- (x97 <- (make_pe_capabilities_inquiry true 19088743 159736594 7 127) ;; as_view true pe_capabilities_validate x97) ;; Ok (opt_some x98));
    (x101 <- (x100 <- (x99 <- (make_pe_capabilities_inquiry true 19088743 159736594 7 127) ;; ci_view true x99) ;; view_device_id x100) ;; Ok (Z.eqb 127 x101));
    (x103 <- (x102 <- (x99 <- (make_pe_capabilities_inquiry true 19088743 159736594 7 127) ;; ci_view true x99) ;; view_type x102) ;; Ok (Z.eqb 32269 x103));
    (x105 <- (x104 <- (x99 <- (make_pe_capabilities_inquiry true 19088743 159736594 7 127) ;; ci_view true x99) ;; view_subtype x104) ;; Ok (Z.eqb 48 x105));
    (x107 <- (x106 <- (x99 <- (make_pe_capabilities_inquiry true 19088743 159736594 7 127) ;; ci_view true x99) ;; message_version x106) ;; Ok (Z.eqb 2 x107));
    (x109 <- (x108 <- (x99 <- (make_pe_capabilities_inquiry true 19088743 159736594 7 127) ;; ci_view true x99) ;; source_muid x108) ;; Ok (Z.eqb 19088743 x109));
    (x111 <- (x110 <- (x99 <- (make_pe_capabilities_inquiry true 19088743 159736594 7 127) ;; ci_view true x99) ;; destination_muid x110) ;; Ok (Z.eqb 159736594 x111));
    (x113 <- (x112 <- (x99 <- (make_pe_capabilities_inquiry true 19088743 159736594 7 127) ;; ci_view true x99) ;; maximum_number_of_requests x112) ;; Ok (Z.eqb 7 x113));
    (x115 <- (x114 <- (x99 <- (make_pe_capabilities_inquiry true 19088743 159736594 7 127) ;; ci_view true x99) ;; pe_version_major x114) ;; Ok (Z.eqb 0 x115));
    (x117 <- (x116 <- (x99 <- (make_pe_capabilities_inquiry true 19088743 159736594 7 127) ;; ci_view true x99) ;; pe_version_minor x116) ;; Ok (Z.eqb 0 x117))].
Proof. vm_compute. repeat constructor. Qed.

(* line 235 *)
Example test_reply_capabilities : all_true [
    (x119 <- (x118 <- (make_pe_capabilities_reply true 19088743 180150000 12 8) ;; Ok (dsize x118)) ;; Ok (Z.eqb 15 x119));
    (x120 <- (make_pe_capabilities_reply true 19088743 180150000 12 8) ;; pe_capabilities_validate x120);
    (x122 <- (x121 <- (make_pe_capabilities_reply true 19088743 180150000 12 8) ;; as_view true pe_capabilities_validate x121) ;; Ok (opt_some x122));
    (x125 <- (x124 <- (x123 <- (make_pe_capabilities_reply true 19088743 180150000 12 8) ;; ci_view true x123) ;; view_device_id x124) ;; Ok (Z.eqb 8 x125));
    (x127 <- (x126 <- (x123 <- (make_pe_capabilities_reply true 19088743 180150000 12 8) ;; ci_view true x123) ;; view_type x126) ;; Ok (Z.eqb 32269 x127));
    (x129 <- (x128 <- (x123 <- (make_pe_capabilities_reply true 19088743 180150000 12 8) ;; ci_view true x123) ;; view_subtype x128) ;; Ok (Z.eqb 49 x129));
    (x131 <- (x130 <- (x123 <- (make_pe_capabilities_reply true 19088743 180150000 12 8) ;; ci_view true x123) ;; message_version x130) ;; Ok (Z.eqb 2 x131));
    (x133 <- (x132 <- (x123 <- (make_pe_capabilities_reply true 19088743 180150000 12 8) ;; ci_view true x123) ;; source_muid x132) ;; Ok (Z.eqb 19088743 x133));
    (x135 <- (x134 <- (x123 <- (make_pe_capabilities_reply true 19088743 180150000 12 8) ;; ci_view true x123) ;; destination_muid x134) ;; Ok (Z.eqb 180150000 x135));
    (x137 <- (x136 <- (x123 <- (make_pe_capabilities_reply true 19088743 180150000 12 8) ;; ci_view true x123) ;; maximum_number_of_requests x136) ;; Ok (Z.eqb 12 x137));
    (x139 <- (x138 <- (x123 <- (make_pe_capabilities_reply true 19088743 180150000 12 8) ;; ci_view true x123) ;; pe_version_major x138) ;; Ok (Z.eqb 0 x139));
    (x141 <- (x140 <- (x123 <- (make_pe_capabilities_reply true 19088743 180150000 12 8) ;; ci_view true x123) ;; pe_version_minor x140) ;; Ok (Z.eqb 0 x141));
    (x143 <- (x142 <- (make_pe_capabilities_reply true 7693121 3745815 1 127) ;; Ok (dsize x142)) ;; Ok (Z.eqb 15 x143));
    (x144 <- (make_pe_capabilities_reply true 7693121 3745815 1 127) ;; pe_capabilities_validate x144);
    (x146 <- (x145 <- (make_pe_capabilities_reply true 7693121 3745815 1 127) ;; as_view true pe_capabilities_validate x145) ;; Ok (opt_some x146));
    (x149 <- (x148 <- (x147 <- (make_pe_capabilities_reply true 7693121 3745815 1 127) ;; ci_view true x147) ;; view_device_id x148) ;; Ok (Z.eqb 127 x149));
    (x151 <- (x150 <- (x147 <- (make_pe_capabilities_reply true 7693121 3745815 1 127) ;; ci_view true x147) ;; view_type x150) ;; Ok (Z.eqb 32269 x151));
    (x153 <- (x152 <- (x147 <- (make_pe_capabilities_reply true 7693121 3745815 1 127) ;; ci_view true x147) ;; view_subtype x152) ;; Ok (Z.eqb 49 x153));
    (x155 <- (x154 <- (x147 <- (make_pe_capabilities_reply true 7693121 3745815 1 127) ;; ci_view true x147) ;; message_version x154) ;; Ok (Z.eqb 2 x155));
    (x157 <- (x156 <- (x147 <- (make_pe_capabilities_reply true 7693121 3745815 1 127) ;; ci_view true x147) ;; source_muid x156) ;; Ok (Z.eqb 7693121 x157));
    (x159 <- (x158 <- (x147 <- (make_pe_capabilities_reply true 7693121 3745815 1 127) ;; ci_view true x147) ;; destination_muid x158) ;; Ok (Z.eqb 3745815 x159));
    (x161 <- (x160 <- (x147 <- (make_pe_capabilities_reply true 7693121 3745815 1 127) ;; ci_view true x147) ;; maximum_number_of_requests x160) ;; Ok (Z.eqb 1 x161));
    (x163 <- (x162 <- (x147 <- (make_pe_capabilities_reply true 7693121 3745815 1 127) ;; ci_view true x147) ;; pe_version_major x162) ;; Ok (Z.eqb 0 x163));
    (x165 <- (x164 <- (x147 <- (make_pe_capabilities_reply true 7693121 3745815 1 127) ;; ci_view true x147) ;; pe_version_minor x164) ;; Ok (Z.eqb 0 x165));
    (x167 <- (x166 <- (make_pe_capabilities_reply true 19088743 59933055 7 127) ;; Ok (dsize x166)) ;; Ok (Z.eqb 15 x167));
    (x168 <- (make_pe_capabilities_reply true 19088743 59933055 7 127) ;; pe_capabilities_validate x168);
    (x170 <- (x169 <- (make_pe_capabilities_reply true 19088743 59933055 7 127) ;; as_view true pe_capabilities_validate x169) ;; Ok (opt_some x170));
    (x173 <- (x172 <- (x171 <- (make_pe_capabilities_reply true 19088743 59933055 7 127) ;; ci_view true x171) ;; view_device_id x172) ;; Ok (Z.eqb 127 x173));
    (x175 <- (x174 <- (x171 <- (make_pe_capabilities_reply true 19088743 59933055 7 127) ;; ci_view true x171) ;; view_type x174) ;; Ok (Z.eqb 32269 x175));
    (x177 <- (x176 <- (x171 <- (make_pe_capabilities_reply true 19088743 59933055 7 127) ;; ci_view true x171) ;; view_subtype x176) ;; Ok (Z.eqb 49 x177));
    (x179 <- (x178 <- (x171 <- (make_pe_capabilities_reply true 19088743 59933055 7 127) ;; ci_view true x171) ;; message_version x178) ;; Ok (Z.eqb 2 x179));
    (x181 <- (x180 <- (x171 <- (make_pe_capabilities_reply true 19088743 59933055 7 127) ;; ci_view true x171) ;; source_muid x180) ;; Ok (Z.eqb 19088743 x181));
    (x183 <- (x182 <- (x171 <- (make_pe_capabilities_reply true 19088743 59933055 7 127) ;; ci_view true x171) ;; destination_muid x182) ;; Ok (Z.eqb 59933055 x183));
    (x185 <- (x184 <- (x171 <- (make_pe_capabilities_reply true 19088743 59933055 7 127) ;; ci_view true x171) ;; maximum_number_of_requests x184) ;; Ok (Z.eqb 7 x185));
    (x187 <- (x186 <- (x171 <- (make_pe_capabilities_reply true 19088743 59933055 7 127) ;; ci_view true x171) ;; pe_version_major x186) ;; Ok (Z.eqb 0 x187));
    (x189 <- (x188 <- (x171 <- (make_pe_capabilities_reply true 19088743 59933055 7 127) ;; ci_view true x171) ;; pe_version_minor x188) ;; Ok (Z.eqb 0 x189))].
Proof. vm_compute. repeat constructor. Qed.

(* line 319 *)
Example test_property_data_message_view : all_true [
    (property_data_validate (mkSx 0x7E0000 [10; 13; 52; 5; 120; 86; 52; 18; 18; 52; 86; 120; 0; 8; 0; 1; 2; 3; 4; 5; 6; 7; 8; 1; 0; 1; 0; 0; 0]));
    (x190 <- (as_view true property_data_validate (mkSx 0x7E0000 [10; 13; 52; 5; 120; 86; 52; 18; 18; 52; 86; 120; 0; 8; 0; 1; 2; 3; 4; 5; 6; 7; 8; 1; 0; 1; 0; 0; 0])) ;; Ok (opt_some x190));
    (x192 <- (x191 <- (ci_view true (mkSx 0x7E0000 [10; 13; 52; 5; 120; 86; 52; 18; 18; 52; 86; 120; 0; 8; 0; 1; 2; 3; 4; 5; 6; 7; 8; 1; 0; 1; 0; 0; 0])) ;; view_device_id x191) ;; Ok (Z.eqb 10 x192));
    (x194 <- (x193 <- (ci_view true (mkSx 0x7E0000 [10; 13; 52; 5; 120; 86; 52; 18; 18; 52; 86; 120; 0; 8; 0; 1; 2; 3; 4; 5; 6; 7; 8; 1; 0; 1; 0; 0; 0])) ;; view_type x193) ;; Ok (Z.eqb 32269 x194));
    (x196 <- (x195 <- (ci_view true (mkSx 0x7E0000 [10; 13; 52; 5; 120; 86; 52; 18; 18; 52; 86; 120; 0; 8; 0; 1; 2; 3; 4; 5; 6; 7; 8; 1; 0; 1; 0; 0; 0])) ;; view_subtype x195) ;; Ok (Z.eqb 52 x196));
    (x198 <- (x197 <- (ci_view true (mkSx 0x7E0000 [10; 13; 52; 5; 120; 86; 52; 18; 18; 52; 86; 120; 0; 8; 0; 1; 2; 3; 4; 5; 6; 7; 8; 1; 0; 1; 0; 0; 0])) ;; message_version x197) ;; Ok (Z.eqb 5 x198));
    (x200 <- (x199 <- (ci_view true (mkSx 0x7E0000 [10; 13; 52; 5; 120; 86; 52; 18; 18; 52; 86; 120; 0; 8; 0; 1; 2; 3; 4; 5; 6; 7; 8; 1; 0; 1; 0; 0; 0])) ;; source_muid x199) ;; Ok (Z.eqb 38611832 x200));
    (x202 <- (x201 <- (ci_view true (mkSx 0x7E0000 [10; 13; 52; 5; 120; 86; 52; 18; 18; 52; 86; 120; 0; 8; 0; 1; 2; 3; 4; 5; 6; 7; 8; 1; 0; 1; 0; 0; 0])) ;; destination_muid x201) ;; Ok (Z.eqb 253073938 x202));
    (x204 <- (x203 <- (ci_view true (mkSx 0x7E0000 [10; 13; 52; 5; 120; 86; 52; 18; 18; 52; 86; 120; 0; 8; 0; 1; 2; 3; 4; 5; 6; 7; 8; 1; 0; 1; 0; 0; 0])) ;; request_id x203) ;; Ok (Z.eqb 0 x204));
    (x206 <- (x205 <- (ci_view true (mkSx 0x7E0000 [10; 13; 52; 5; 120; 86; 52; 18; 18; 52; 86; 120; 0; 8; 0; 1; 2; 3; 4; 5; 6; 7; 8; 1; 0; 1; 0; 0; 0])) ;; header_size x205) ;; Ok (Z.eqb 8 x206));
    (x210 <- (x209 <- (ci_view true (mkSx 0x7E0000 [10; 13; 52; 5; 120; 86; 52; 18; 18; 52; 86; 120; 0; 8; 0; 1; 2; 3; 4; 5; 6; 7; 8; 1; 0; 1; 0; 0; 0])) ;; header_size x209) ;; x211 <- (x208 <- (ci_view true (mkSx 0x7E0000 [10; 13; 52; 5; 120; 86; 52; 18; 18; 52; 86; 120; 0; 8; 0; 1; 2; 3; 4; 5; 6; 7; 8; 1; 0; 1; 0; 0; 0])) ;; header_data x208) ;; Ok (prefix_eqb x210 x211 (skipz 15 (sx_data (mkSx 0x7E0000 [10; 13; 52; 5; 120; 86; 52; 18; 18; 52; 86; 120; 0; 8; 0; 1; 2; 3; 4; 5; 6; 7; 8; 1; 0; 1; 0; 0; 0])))));
    (x213 <- (x212 <- (ci_view true (mkSx 0x7E0000 [10; 13; 52; 5; 120; 86; 52; 18; 18; 52; 86; 120; 0; 8; 0; 1; 2; 3; 4; 5; 6; 7; 8; 1; 0; 1; 0; 0; 0])) ;; number_of_chunks x212) ;; Ok (Z.eqb 1 x213));
    (x215 <- (x214 <- (ci_view true (mkSx 0x7E0000 [10; 13; 52; 5; 120; 86; 52; 18; 18; 52; 86; 120; 0; 8; 0; 1; 2; 3; 4; 5; 6; 7; 8; 1; 0; 1; 0; 0; 0])) ;; number_of_this_chunk x214) ;; Ok (Z.eqb 1 x215));
    (x217 <- (x216 <- (ci_view true (mkSx 0x7E0000 [10; 13; 52; 5; 120; 86; 52; 18; 18; 52; 86; 120; 0; 8; 0; 1; 2; 3; 4; 5; 6; 7; 8; 1; 0; 1; 0; 0; 0])) ;; chunk_size x216) ;; Ok (Z.eqb 0 x217));
    (property_data_validate (mkSx 0x7E0000 [10; 13; 52; 5; 120; 86; 52; 18; 18; 52; 86; 120; 0; 8; 0; 1; 2; 3; 4; 5; 6; 7; 8; 1; 0; 1; 0; 0; 0; 1; 0; 1; 0]));
    (x219 <- (as_view true property_data_validate (mkSx 0x7E0000 [10; 13; 52; 5; 120; 86; 52; 18; 18; 52; 86; 120; 0; 8; 0; 1; 2; 3; 4; 5; 6; 7; 8; 1; 0; 1; 0; 0; 0; 1; 0; 1; 0])) ;; Ok (opt_some x219));
    (property_data_validate (mkSx 0x7E0000 [10; 13; 55; 1; 119; 85; 51; 17; 18; 52; 86; 120; 4; 16; 0; 1; 2; 3; 4; 5; 6; 7; 8; 0; 16; 32; 48; 64; 80; 96; 112; 16; 0; 1; 0; 1; 0; 51]));
    (x220 <- (as_view true property_data_validate (mkSx 0x7E0000 [10; 13; 55; 1; 119; 85; 51; 17; 18; 52; 86; 120; 4; 16; 0; 1; 2; 3; 4; 5; 6; 7; 8; 0; 16; 32; 48; 64; 80; 96; 112; 16; 0; 1; 0; 1; 0; 51])) ;; Ok (opt_some x220));
    (x222 <- (x221 <- (ci_view true (mkSx 0x7E0000 [10; 13; 55; 1; 119; 85; 51; 17; 18; 52; 86; 120; 4; 16; 0; 1; 2; 3; 4; 5; 6; 7; 8; 0; 16; 32; 48; 64; 80; 96; 112; 16; 0; 1; 0; 1; 0; 51])) ;; view_device_id x221) ;; Ok (Z.eqb 10 x222));
    (x224 <- (x223 <- (ci_view true (mkSx 0x7E0000 [10; 13; 55; 1; 119; 85; 51; 17; 18; 52; 86; 120; 4; 16; 0; 1; 2; 3; 4; 5; 6; 7; 8; 0; 16; 32; 48; 64; 80; 96; 112; 16; 0; 1; 0; 1; 0; 51])) ;; view_type x223) ;; Ok (Z.eqb 32269 x224));
    (x226 <- (x225 <- (ci_view true (mkSx 0x7E0000 [10; 13; 55; 1; 119; 85; 51; 17; 18; 52; 86; 120; 4; 16; 0; 1; 2; 3; 4; 5; 6; 7; 8; 0; 16; 32; 48; 64; 80; 96; 112; 16; 0; 1; 0; 1; 0; 51])) ;; view_subtype x225) ;; Ok (Z.eqb 55 x226));
    (x228 <- (x227 <- (ci_view true (mkSx 0x7E0000 [10; 13; 55; 1; 119; 85; 51; 17; 18; 52; 86; 120; 4; 16; 0; 1; 2; 3; 4; 5; 6; 7; 8; 0; 16; 32; 48; 64; 80; 96; 112; 16; 0; 1; 0; 1; 0; 51])) ;; message_version x227) ;; Ok (Z.eqb 1 x228));
    (x230 <- (x229 <- (ci_view true (mkSx 0x7E0000 [10; 13; 55; 1; 119; 85; 51; 17; 18; 52; 86; 120; 4; 16; 0; 1; 2; 3; 4; 5; 6; 7; 8; 0; 16; 32; 48; 64; 80; 96; 112; 16; 0; 1; 0; 1; 0; 51])) ;; source_muid x229) ;; Ok (Z.eqb 36498167 x230));
    (x232 <- (x231 <- (ci_view true (mkSx 0x7E0000 [10; 13; 55; 1; 119; 85; 51; 17; 18; 52; 86; 120; 4; 16; 0; 1; 2; 3; 4; 5; 6; 7; 8; 0; 16; 32; 48; 64; 80; 96; 112; 16; 0; 1; 0; 1; 0; 51])) ;; destination_muid x231) ;; Ok (Z.eqb 253073938 x232));
    (x234 <- (x233 <- (ci_view true (mkSx 0x7E0000 [10; 13; 55; 1; 119; 85; 51; 17; 18; 52; 86; 120; 4; 16; 0; 1; 2; 3; 4; 5; 6; 7; 8; 0; 16; 32; 48; 64; 80; 96; 112; 16; 0; 1; 0; 1; 0; 51])) ;; request_id x233) ;; Ok (Z.eqb 4 x234));
    (x236 <- (x235 <- (ci_view true (mkSx 0x7E0000 [10; 13; 55; 1; 119; 85; 51; 17; 18; 52; 86; 120; 4; 16; 0; 1; 2; 3; 4; 5; 6; 7; 8; 0; 16; 32; 48; 64; 80; 96; 112; 16; 0; 1; 0; 1; 0; 51])) ;; header_size x235) ;; Ok (Z.eqb 16 x236));
    (x240 <- (x239 <- (ci_view true (mkSx 0x7E0000 [10; 13; 55; 1; 119; 85; 51; 17; 18; 52; 86; 120; 4; 16; 0; 1; 2; 3; 4; 5; 6; 7; 8; 0; 16; 32; 48; 64; 80; 96; 112; 16; 0; 1; 0; 1; 0; 51])) ;; header_size x239) ;; x241 <- (x238 <- (ci_view true (mkSx 0x7E0000 [10; 13; 55; 1; 119; 85; 51; 17; 18; 52; 86; 120; 4; 16; 0; 1; 2; 3; 4; 5; 6; 7; 8; 0; 16; 32; 48; 64; 80; 96; 112; 16; 0; 1; 0; 1; 0; 51])) ;; header_data x238) ;; Ok (prefix_eqb x240 x241 (skipz 15 (sx_data (mkSx 0x7E0000 [10; 13; 55; 1; 119; 85; 51; 17; 18; 52; 86; 120; 4; 16; 0; 1; 2; 3; 4; 5; 6; 7; 8; 0; 16; 32; 48; 64; 80; 96; 112; 16; 0; 1; 0; 1; 0; 51])))));
    (x243 <- (x242 <- (ci_view true (mkSx 0x7E0000 [10; 13; 55; 1; 119; 85; 51; 17; 18; 52; 86; 120; 4; 16; 0; 1; 2; 3; 4; 5; 6; 7; 8; 0; 16; 32; 48; 64; 80; 96; 112; 16; 0; 1; 0; 1; 0; 51])) ;; number_of_chunks x242) ;; Ok (Z.eqb 16 x243));
    (x245 <- (x244 <- (ci_view true (mkSx 0x7E0000 [10; 13; 55; 1; 119; 85; 51; 17; 18; 52; 86; 120; 4; 16; 0; 1; 2; 3; 4; 5; 6; 7; 8; 0; 16; 32; 48; 64; 80; 96; 112; 16; 0; 1; 0; 1; 0; 51])) ;; number_of_this_chunk x244) ;; Ok (Z.eqb 1 x245));
    (x247 <- (x246 <- (ci_view true (mkSx 0x7E0000 [10; 13; 55; 1; 119; 85; 51; 17; 18; 52; 86; 120; 4; 16; 0; 1; 2; 3; 4; 5; 6; 7; 8; 0; 16; 32; 48; 64; 80; 96; 112; 16; 0; 1; 0; 1; 0; 51])) ;; chunk_size x246) ;; Ok (Z.eqb 1 x247));
    (x251 <- (x250 <- (x249 <- (ci_view true (mkSx 0x7E0000 [10; 13; 55; 1; 119; 85; 51; 17; 18; 52; 86; 120; 4; 16; 0; 1; 2; 3; 4; 5; 6; 7; 8; 0; 16; 32; 48; 64; 80; 96; 112; 16; 0; 1; 0; 1; 0; 51])) ;; chunk_data x249) ;; vec_at x250 0%nat) ;; Ok (Z.eqb 51 x251));
    (property_data_validate (mkSx 0x7E0000 [127; 13; 63; 17; 119; 85; 51; 17; 18; 52; 86; 120; 30; 16; 0; 1; 2; 3; 4; 5; 6; 7; 8; 0; 16; 32; 48; 64; 80; 96; 112; 0; 0; 0; 0; 0; 0]));
    (x252 <- (as_view true property_data_validate (mkSx 0x7E0000 [127; 13; 63; 17; 119; 85; 51; 17; 18; 52; 86; 120; 30; 16; 0; 1; 2; 3; 4; 5; 6; 7; 8; 0; 16; 32; 48; 64; 80; 96; 112; 0; 0; 0; 0; 0; 0])) ;; Ok (opt_some x252));
    (x254 <- (x253 <- (ci_view true (mkSx 0x7E0000 [127; 13; 63; 17; 119; 85; 51; 17; 18; 52; 86; 120; 30; 16; 0; 1; 2; 3; 4; 5; 6; 7; 8; 0; 16; 32; 48; 64; 80; 96; 112; 0; 0; 0; 0; 0; 0])) ;; view_device_id x253) ;; Ok (Z.eqb 127 x254));
    (x256 <- (x255 <- (ci_view true (mkSx 0x7E0000 [127; 13; 63; 17; 119; 85; 51; 17; 18; 52; 86; 120; 30; 16; 0; 1; 2; 3; 4; 5; 6; 7; 8; 0; 16; 32; 48; 64; 80; 96; 112; 0; 0; 0; 0; 0; 0])) ;; view_type x255) ;; Ok (Z.eqb 32269 x256));
    (x258 <- (x257 <- (ci_view true (mkSx 0x7E0000 [127; 13; 63; 17; 119; 85; 51; 17; 18; 52; 86; 120; 30; 16; 0; 1; 2; 3; 4; 5; 6; 7; 8; 0; 16; 32; 48; 64; 80; 96; 112; 0; 0; 0; 0; 0; 0])) ;; view_subtype x257) ;; Ok (Z.eqb 63 x258));
    (x260 <- (x259 <- (ci_view true (mkSx 0x7E0000 [127; 13; 63; 17; 119; 85; 51; 17; 18; 52; 86; 120; 30; 16; 0; 1; 2; 3; 4; 5; 6; 7; 8; 0; 16; 32; 48; 64; 80; 96; 112; 0; 0; 0; 0; 0; 0])) ;; message_version x259) ;; Ok (Z.eqb 17 x260));
    (x262 <- (x261 <- (ci_view true (mkSx 0x7E0000 [127; 13; 63; 17; 119; 85; 51; 17; 18; 52; 86; 120; 30; 16; 0; 1; 2; 3; 4; 5; 6; 7; 8; 0; 16; 32; 48; 64; 80; 96; 112; 0; 0; 0; 0; 0; 0])) ;; source_muid x261) ;; Ok (Z.eqb 36498167 x262));
    (x264 <- (x263 <- (ci_view true (mkSx 0x7E0000 [127; 13; 63; 17; 119; 85; 51; 17; 18; 52; 86; 120; 30; 16; 0; 1; 2; 3; 4; 5; 6; 7; 8; 0; 16; 32; 48; 64; 80; 96; 112; 0; 0; 0; 0; 0; 0])) ;; destination_muid x263) ;; Ok (Z.eqb 253073938 x264));
    (x266 <- (x265 <- (ci_view true (mkSx 0x7E0000 [127; 13; 63; 17; 119; 85; 51; 17; 18; 52; 86; 120; 30; 16; 0; 1; 2; 3; 4; 5; 6; 7; 8; 0; 16; 32; 48; 64; 80; 96; 112; 0; 0; 0; 0; 0; 0])) ;; request_id x265) ;; Ok (Z.eqb 30 x266));
    (x268 <- (x267 <- (ci_view true (mkSx 0x7E0000 [127; 13; 63; 17; 119; 85; 51; 17; 18; 52; 86; 120; 30; 16; 0; 1; 2; 3; 4; 5; 6; 7; 8; 0; 16; 32; 48; 64; 80; 96; 112; 0; 0; 0; 0; 0; 0])) ;; header_size x267) ;; Ok (Z.eqb 16 x268));
    (x272 <- (x271 <- (ci_view true (mkSx 0x7E0000 [127; 13; 63; 17; 119; 85; 51; 17; 18; 52; 86; 120; 30; 16; 0; 1; 2; 3; 4; 5; 6; 7; 8; 0; 16; 32; 48; 64; 80; 96; 112; 0; 0; 0; 0; 0; 0])) ;; header_size x271) ;; x273 <- (x270 <- (ci_view true (mkSx 0x7E0000 [127; 13; 63; 17; 119; 85; 51; 17; 18; 52; 86; 120; 30; 16; 0; 1; 2; 3; 4; 5; 6; 7; 8; 0; 16; 32; 48; 64; 80; 96; 112; 0; 0; 0; 0; 0; 0])) ;; header_data x270) ;; Ok (prefix_eqb x272 x273 (skipz 15 (sx_data (mkSx 0x7E0000 [127; 13; 63; 17; 119; 85; 51; 17; 18; 52; 86; 120; 30; 16; 0; 1; 2; 3; 4; 5; 6; 7; 8; 0; 16; 32; 48; 64; 80; 96; 112; 0; 0; 0; 0; 0; 0])))));
    (x275 <- (x274 <- (ci_view true (mkSx 0x7E0000 [127; 13; 63; 17; 119; 85; 51; 17; 18; 52; 86; 120; 30; 16; 0; 1; 2; 3; 4; 5; 6; 7; 8; 0; 16; 32; 48; 64; 80; 96; 112; 0; 0; 0; 0; 0; 0])) ;; number_of_chunks x274) ;; Ok (Z.eqb 0 x275));
    (x277 <- (x276 <- (ci_view true (mkSx 0x7E0000 [127; 13; 63; 17; 119; 85; 51; 17; 18; 52; 86; 120; 30; 16; 0; 1; 2; 3; 4; 5; 6; 7; 8; 0; 16; 32; 48; 64; 80; 96; 112; 0; 0; 0; 0; 0; 0])) ;; number_of_this_chunk x276) ;; Ok (Z.eqb 0 x277));
    (x279 <- (x278 <- (ci_view true (mkSx 0x7E0000 [127; 13; 63; 17; 119; 85; 51; 17; 18; 52; 86; 120; 30; 16; 0; 1; 2; 3; 4; 5; 6; 7; 8; 0; 16; 32; 48; 64; 80; 96; 112; 0; 0; 0; 0; 0; 0])) ;; chunk_size x278) ;; Ok (Z.eqb 0 x279));
    (b_ <- (property_data_validate (mkSx 0x7E0000 [10; 13; 54; 5; 120; 86; 52; 18; 18; 52; 86; 120; 4; 0; 1; 1; 2; 3; 4; 5; 6; 7; 8; 0; 2; 0; 1; 0; 0])) ;; Ok (negb b_));
    (b_ <- (x281 <- (as_view true property_data_validate (mkSx 0x7E0000 [10; 13; 54; 5; 120; 86; 52; 18; 18; 52; 86; 120; 4; 0; 1; 1; 2; 3; 4; 5; 6; 7; 8; 0; 2; 0; 1; 0; 0])) ;; Ok (opt_some x281)) ;; Ok (negb b_));
    (b_ <- (property_data_validate (mkSx 0x7E0000 [10; 13; 55; 0; 119; 85; 52; 17; 18; 52; 86; 120; 4; 18; 52; 1; 2; 3; 4; 5; 6; 7; 8; 0; 16; 32; 48; 64; 80; 96; 112; 18; 52; 1; 35; 86; 4])) ;; Ok (negb b_));
    (b_ <- (x282 <- (as_view true property_data_validate (mkSx 0x7E0000 [10; 13; 55; 0; 119; 85; 52; 17; 18; 52; 86; 120; 4; 18; 52; 1; 2; 3; 4; 5; 6; 7; 8; 0; 16; 32; 48; 64; 80; 96; 112; 18; 52; 1; 35; 86; 4])) ;; Ok (opt_some x282)) ;; Ok (negb b_));
    (b_ <- (property_data_validate (mkSx 0x7E0000 [127; 13; 60; 17; 119; 85; 56; 17; 18; 52; 86; 120; 4; 16; 0; 1; 2; 3; 4; 5; 6; 7; 8; 0; 16; 32; 48; 64; 80; 96; 112; 2; 0; 1; 0; 0; 0])) ;; Ok (negb b_));
    (b_ <- (x283 <- (as_view true property_data_validate (mkSx 0x7E0000 [127; 13; 60; 17; 119; 85; 56; 17; 18; 52; 86; 120; 4; 16; 0; 1; 2; 3; 4; 5; 6; 7; 8; 0; 16; 32; 48; 64; 80; 96; 112; 2; 0; 1; 0; 0; 0])) ;; Ok (opt_some x283)) ;; Ok (negb b_))].
Proof. vm_compute. repeat constructor. Qed.

(* line 465 *)
Example test_property_data_message_from_carray : all_true [
    (x285 <- (x284 <- (make_property_data_message true 52 19088743 65261 (Some [1; 2; 3; 4; 5; 6; 7; 8]) 1 1 None 5 10) ;; Ok (dsize x284)) ;; Ok (Z.eqb 29 x285));
    (x286 <- (make_property_data_message true 52 19088743 65261 (Some [1; 2; 3; 4; 5; 6; 7; 8]) 1 1 None 5 10) ;; property_data_validate x286);
    (x288 <- (x287 <- (make_property_data_message true 52 19088743 65261 (Some [1; 2; 3; 4; 5; 6; 7; 8]) 1 1 None 5 10) ;; as_view true property_data_validate x287) ;; Ok (opt_some x288));
    (x291 <- (x290 <- (x289 <- (make_property_data_message true 52 19088743 65261 (Some [1; 2; 3; 4; 5; 6; 7; 8]) 1 1 None 5 10) ;; ci_view true x289) ;; view_device_id x290) ;; Ok (Z.eqb 10 x291));
    (x293 <- (x292 <- (x289 <- (make_property_data_message true 52 19088743 65261 (Some [1; 2; 3; 4; 5; 6; 7; 8]) 1 1 None 5 10) ;; ci_view true x289) ;; view_type x292) ;; Ok (Z.eqb 32269 x293));
    (x295 <- (x294 <- (x289 <- (make_property_data_message true 52 19088743 65261 (Some [1; 2; 3; 4; 5; 6; 7; 8]) 1 1 None 5 10) ;; ci_view true x289) ;; view_subtype x294) ;; Ok (Z.eqb 52 x295));
    (x297 <- (x296 <- (x289 <- (make_property_data_message true 52 19088743 65261 (Some [1; 2; 3; 4; 5; 6; 7; 8]) 1 1 None 5 10) ;; ci_view true x289) ;; message_version x296) ;; Ok (Z.eqb 2 x297));
    (x299 <- (x298 <- (x289 <- (make_property_data_message true 52 19088743 65261 (Some [1; 2; 3; 4; 5; 6; 7; 8]) 1 1 None 5 10) ;; ci_view true x289) ;; source_muid x298) ;; Ok (Z.eqb 19088743 x299));
    (x301 <- (x300 <- (x289 <- (make_property_data_message true 52 19088743 65261 (Some [1; 2; 3; 4; 5; 6; 7; 8]) 1 1 None 5 10) ;; ci_view true x289) ;; destination_muid x300) ;; Ok (Z.eqb 65261 x301));
    (x303 <- (x302 <- (x289 <- (make_property_data_message true 52 19088743 65261 (Some [1; 2; 3; 4; 5; 6; 7; 8]) 1 1 None 5 10) ;; ci_view true x289) ;; request_id x302) ;; Ok (Z.eqb 5 x303));
    (x305 <- (x304 <- (x289 <- (make_property_data_message true 52 19088743 65261 (Some [1; 2; 3; 4; 5; 6; 7; 8]) 1 1 None 5 10) ;; ci_view true x289) ;; header_size x304) ;; Ok (Z.eqb 8 x305));
    (x309 <- (x308 <- (x289 <- (make_property_data_message true 52 19088743 65261 (Some [1; 2; 3; 4; 5; 6; 7; 8]) 1 1 None 5 10) ;; ci_view true x289) ;; header_size x308) ;; x310 <- (x307 <- (x289 <- (make_property_data_message true 52 19088743 65261 (Some [1; 2; 3; 4; 5; 6; 7; 8]) 1 1 None 5 10) ;; ci_view true x289) ;; header_data x307) ;; Ok (prefix_eqb x309 x310 [1; 2; 3; 4; 5; 6; 7; 8]));
    (x312 <- (x311 <- (x289 <- (make_property_data_message true 52 19088743 65261 (Some [1; 2; 3; 4; 5; 6; 7; 8]) 1 1 None 5 10) ;; ci_view true x289) ;; number_of_chunks x311) ;; Ok (Z.eqb 1 x312));
    (x314 <- (x313 <- (x289 <- (make_property_data_message true 52 19088743 65261 (Some [1; 2; 3; 4; 5; 6; 7; 8]) 1 1 None 5 10) ;; ci_view true x289) ;; number_of_this_chunk x313) ;; Ok (Z.eqb 1 x314));
    (x316 <- (x315 <- (x289 <- (make_property_data_message true 52 19088743 65261 (Some [1; 2; 3; 4; 5; 6; 7; 8]) 1 1 None 5 10) ;; ci_view true x289) ;; chunk_size x315) ;; Ok (Z.eqb 0 x316));
    (x319 <- (x318 <- (make_property_data_message true 55 20141431 253073938 None 16 4 (Some [1; 2; 3; 4; 5; 6; 7; 8; 0; 16; 32; 48; 64; 80; 96; 112]) 10 127) ;; Ok (dsize x318)) ;; Ok (Z.eqb 37 x319));
    (x320 <- (make_property_data_message true 55 20141431 253073938 None 16 4 (Some [1; 2; 3; 4; 5; 6; 7; 8; 0; 16; 32; 48; 64; 80; 96; 112]) 10 127) ;; property_data_validate x320);
    (x322 <- (x321 <- (make_property_data_message true 55 20141431 253073938 None 16 4 (Some [1; 2; 3; 4; 5; 6; 7; 8; 0; 16; 32; 48; 64; 80; 96; 112]) 10 127) ;; as_view true property_data_validate x321) ;; Ok (opt_some x322));
    (x325 <- (x324 <- (x323 <- (make_property_data_message true 55 20141431 253073938 None 16 4 (Some [1; 2; 3; 4; 5; 6; 7; 8; 0; 16; 32; 48; 64; 80; 96; 112]) 10 127) ;; ci_view true x323) ;; view_device_id x324) ;; Ok (Z.eqb 127 x325));
    (x327 <- (x326 <- (x323 <- (make_property_data_message true 55 20141431 253073938 None 16 4 (Some [1; 2; 3; 4; 5; 6; 7; 8; 0; 16; 32; 48; 64; 80; 96; 112]) 10 127) ;; ci_view true x323) ;; view_type x326) ;; Ok (Z.eqb 32269 x327));
    (x329 <- (x328 <- (x323 <- (make_property_data_message true 55 20141431 253073938 None 16 4 (Some [1; 2; 3; 4; 5; 6; 7; 8; 0; 16; 32; 48; 64; 80; 96; 112]) 10 127) ;; ci_view true x323) ;; view_subtype x328) ;; Ok (Z.eqb 55 x329));
    (x331 <- (x330 <- (x323 <- (make_property_data_message true 55 20141431 253073938 None 16 4 (Some [1; 2; 3; 4; 5; 6; 7; 8; 0; 16; 32; 48; 64; 80; 96; 112]) 10 127) ;; ci_view true x323) ;; message_version x330) ;; Ok (Z.eqb 2 x331));
    (x333 <- (x332 <- (x323 <- (make_property_data_message true 55 20141431 253073938 None 16 4 (Some [1; 2; 3; 4; 5; 6; 7; 8; 0; 16; 32; 48; 64; 80; 96; 112]) 10 127) ;; ci_view true x323) ;; source_muid x332) ;; Ok (Z.eqb 20141431 x333));
    (x335 <- (x334 <- (x323 <- (make_property_data_message true 55 20141431 253073938 None 16 4 (Some [1; 2; 3; 4; 5; 6; 7; 8; 0; 16; 32; 48; 64; 80; 96; 112]) 10 127) ;; ci_view true x323) ;; destination_muid x334) ;; Ok (Z.eqb 253073938 x335));
    (x337 <- (x336 <- (x323 <- (make_property_data_message true 55 20141431 253073938 None 16 4 (Some [1; 2; 3; 4; 5; 6; 7; 8; 0; 16; 32; 48; 64; 80; 96; 112]) 10 127) ;; ci_view true x323) ;; request_id x336) ;; Ok (Z.eqb 10 x337));
    (x339 <- (x338 <- (x323 <- (make_property_data_message true 55 20141431 253073938 None 16 4 (Some [1; 2; 3; 4; 5; 6; 7; 8; 0; 16; 32; 48; 64; 80; 96; 112]) 10 127) ;; ci_view true x323) ;; header_size x338) ;; Ok (Z.eqb 0 x339));
    (x342 <- (x341 <- (x323 <- (make_property_data_message true 55 20141431 253073938 None 16 4 (Some [1; 2; 3; 4; 5; 6; 7; 8; 0; 16; 32; 48; 64; 80; 96; 112]) 10 127) ;; ci_view true x323) ;; number_of_chunks x341) ;; Ok (Z.eqb 16 x342));
    (x344 <- (x343 <- (x323 <- (make_property_data_message true 55 20141431 253073938 None 16 4 (Some [1; 2; 3; 4; 5; 6; 7; 8; 0; 16; 32; 48; 64; 80; 96; 112]) 10 127) ;; ci_view true x323) ;; number_of_this_chunk x343) ;; Ok (Z.eqb 4 x344));
    (x346 <- (x345 <- (x323 <- (make_property_data_message true 55 20141431 253073938 None 16 4 (Some [1; 2; 3; 4; 5; 6; 7; 8; 0; 16; 32; 48; 64; 80; 96; 112]) 10 127) ;; ci_view true x323) ;; chunk_size x345) ;; Ok (Z.eqb 16 x346));
    (x350 <- (x349 <- (x323 <- (make_property_data_message true 55 20141431 253073938 None 16 4 (Some [1; 2; 3; 4; 5; 6; 7; 8; 0; 16; 32; 48; 64; 80; 96; 112]) 10 127) ;; ci_view true x323) ;; chunk_size x349) ;; x351 <- (x348 <- (x323 <- (make_property_data_message true 55 20141431 253073938 None 16 4 (Some [1; 2; 3; 4; 5; 6; 7; 8; 0; 16; 32; 48; 64; 80; 96; 112]) 10 127) ;; ci_view true x323) ;; chunk_data x348) ;; Ok (prefix_eqb x350 x351 [1; 2; 3; 4; 5; 6; 7; 8; 0; 16; 32; 48; 64; 80; 96; 112]));
    (x353 <- (x352 <- (make_property_data_message true 63 20141431 253073938 None 256 128 (Some [1; 2; 3; 4; 5; 6; 7; 8; 0; 16; 32; 48; 64; 80; 96; 112; 119; 85; 51; 17; 25]) 0 127) ;; Ok (dsize x352)) ;; Ok (Z.eqb 42 x353));
    (x354 <- (make_property_data_message true 63 20141431 253073938 None 256 128 (Some [1; 2; 3; 4; 5; 6; 7; 8; 0; 16; 32; 48; 64; 80; 96; 112; 119; 85; 51; 17; 25]) 0 127) ;; property_data_validate x354);
    (x356 <- (x355 <- (make_property_data_message true 63 20141431 253073938 None 256 128 (Some [1; 2; 3; 4; 5; 6; 7; 8; 0; 16; 32; 48; 64; 80; 96; 112; 119; 85; 51; 17; 25]) 0 127) ;; as_view true property_data_validate x355) ;; Ok (opt_some x356));
    (x359 <- (x358 <- (x357 <- (make_property_data_message true 63 20141431 253073938 None 256 128 (Some [1; 2; 3; 4; 5; 6; 7; 8; 0; 16; 32; 48; 64; 80; 96; 112; 119; 85; 51; 17; 25]) 0 127) ;; ci_view true x357) ;; view_device_id x358) ;; Ok (Z.eqb 127 x359));
    (x361 <- (x360 <- (x357 <- (make_property_data_message true 63 20141431 253073938 None 256 128 (Some [1; 2; 3; 4; 5; 6; 7; 8; 0; 16; 32; 48; 64; 80; 96; 112; 119; 85; 51; 17; 25]) 0 127) ;; ci_view true x357) ;; view_type x360) ;; Ok (Z.eqb 32269 x361));
    (x363 <- (x362 <- (x357 <- (make_property_data_message true 63 20141431 253073938 None 256 128 (Some [1; 2; 3; 4; 5; 6; 7; 8; 0; 16; 32; 48; 64; 80; 96; 112; 119; 85; 51; 17; 25]) 0 127) ;; ci_view true x357) ;; view_subtype x362) ;; Ok (Z.eqb 63 x363));
    (x365 <- (x364 <- (x357 <- (make_property_data_message true 63 20141431 253073938 None 256 128 (Some [1; 2; 3; 4; 5; 6; 7; 8; 0; 16; 32; 48; 64; 80; 96; 112; 119; 85; 51; 17; 25]) 0 127) ;; ci_view true x357) ;; message_version x364) ;; Ok (Z.eqb 2 x365));
    (x367 <- (x366 <- (x357 <- (make_property_data_message true 63 20141431 253073938 None 256 128 (Some [1; 2; 3; 4; 5; 6; 7; 8; 0; 16; 32; 48; 64; 80; 96; 112; 119; 85; 51; 17; 25]) 0 127) ;; ci_view true x357) ;; source_muid x366) ;; Ok (Z.eqb 20141431 x367));
    (x369 <- (x368 <- (x357 <- (make_property_data_message true 63 20141431 253073938 None 256 128 (Some [1; 2; 3; 4; 5; 6; 7; 8; 0; 16; 32; 48; 64; 80; 96; 112; 119; 85; 51; 17; 25]) 0 127) ;; ci_view true x357) ;; destination_muid x368) ;; Ok (Z.eqb 253073938 x369));
    (x371 <- (x370 <- (x357 <- (make_property_data_message true 63 20141431 253073938 None 256 128 (Some [1; 2; 3; 4; 5; 6; 7; 8; 0; 16; 32; 48; 64; 80; 96; 112; 119; 85; 51; 17; 25]) 0 127) ;; ci_view true x357) ;; request_id x370) ;; Ok (Z.eqb 0 x371));
    (x373 <- (x372 <- (x357 <- (make_property_data_message true 63 20141431 253073938 None 256 128 (Some [1; 2; 3; 4; 5; 6; 7; 8; 0; 16; 32; 48; 64; 80; 96; 112; 119; 85; 51; 17; 25]) 0 127) ;; ci_view true x357) ;; header_size x372) ;; Ok (Z.eqb 0 x373));
    (x376 <- (x375 <- (x357 <- (make_property_data_message true 63 20141431 253073938 None 256 128 (Some [1; 2; 3; 4; 5; 6; 7; 8; 0; 16; 32; 48; 64; 80; 96; 112; 119; 85; 51; 17; 25]) 0 127) ;; ci_view true x357) ;; number_of_chunks x375) ;; Ok (Z.eqb 256 x376));
    (x378 <- (x377 <- (x357 <- (make_property_data_message true 63 20141431 253073938 None 256 128 (Some [1; 2; 3; 4; 5; 6; 7; 8; 0; 16; 32; 48; 64; 80; 96; 112; 119; 85; 51; 17; 25]) 0 127) ;; ci_view true x357) ;; number_of_this_chunk x377) ;; Ok (Z.eqb 128 x378));
    (x380 <- (x379 <- (x357 <- (make_property_data_message true 63 20141431 253073938 None 256 128 (Some [1; 2; 3; 4; 5; 6; 7; 8; 0; 16; 32; 48; 64; 80; 96; 112; 119; 85; 51; 17; 25]) 0 127) ;; ci_view true x357) ;; chunk_size x379) ;; Ok (Z.eqb 21 x380));
    (x384 <- (x383 <- (x357 <- (make_property_data_message true 63 20141431 253073938 None 256 128 (Some [1; 2; 3; 4; 5; 6; 7; 8; 0; 16; 32; 48; 64; 80; 96; 112; 119; 85; 51; 17; 25]) 0 127) ;; ci_view true x357) ;; chunk_size x383) ;; x385 <- (x382 <- (x357 <- (make_property_data_message true 63 20141431 253073938 None 256 128 (Some [1; 2; 3; 4; 5; 6; 7; 8; 0; 16; 32; 48; 64; 80; 96; 112; 119; 85; 51; 17; 25]) 0 127) ;; ci_view true x357) ;; chunk_data x382) ;; Ok (prefix_eqb x384 x385 [1; 2; 3; 4; 5; 6; 7; 8; 0; 16; 32; 48; 64; 80; 96; 112; 119; 85; 51; 17; 25]));
    (x387 <- (x386 <- (make_property_data_message true 52 20141431 253073938 None 0 0 None 0 127) ;; Ok (dsize x386)) ;; Ok (Z.eqb 21 x387));
    (x388 <- (make_property_data_message true 52 20141431 253073938 None 0 0 None 0 127) ;; property_data_validate x388);
    (x390 <- (x389 <- (make_property_data_message true 52 20141431 253073938 None 0 0 None 0 127) ;; as_view true property_data_validate x389) ;; Ok (opt_some x390));
    (x393 <- (x392 <- (x391 <- (make_property_data_message true 52 20141431 253073938 None 0 0 None 0 127) ;; ci_view true x391) ;; view_device_id x392) ;; Ok (Z.eqb 127 x393));
    (x395 <- (x394 <- (x391 <- (make_property_data_message true 52 20141431 253073938 None 0 0 None 0 127) ;; ci_view true x391) ;; view_type x394) ;; Ok (Z.eqb 32269 x395));
    (x397 <- (x396 <- (x391 <- (make_property_data_message true 52 20141431 253073938 None 0 0 None 0 127) ;; ci_view true x391) ;; view_subtype x396) ;; Ok (Z.eqb 52 x397));
    (x399 <- (x398 <- (x391 <- (make_property_data_message true 52 20141431 253073938 None 0 0 None 0 127) ;; ci_view true x391) ;; message_version x398) ;; Ok (Z.eqb 2 x399));
    (x401 <- (x400 <- (x391 <- (make_property_data_message true 52 20141431 253073938 None 0 0 None 0 127) ;; ci_view true x391) ;; source_muid x400) ;; Ok (Z.eqb 20141431 x401));
    (x403 <- (x402 <- (x391 <- (make_property_data_message true 52 20141431 253073938 None 0 0 None 0 127) ;; ci_view true x391) ;; destination_muid x402) ;; Ok (Z.eqb 253073938 x403));
    (x405 <- (x404 <- (x391 <- (make_property_data_message true 52 20141431 253073938 None 0 0 None 0 127) ;; ci_view true x391) ;; request_id x404) ;; Ok (Z.eqb 0 x405));
    (x407 <- (x406 <- (x391 <- (make_property_data_message true 52 20141431 253073938 None 0 0 None 0 127) ;; ci_view true x391) ;; header_size x406) ;; Ok (Z.eqb 0 x407));
    (x410 <- (x409 <- (x391 <- (make_property_data_message true 52 20141431 253073938 None 0 0 None 0 127) ;; ci_view true x391) ;; number_of_chunks x409) ;; Ok (Z.eqb 0 x410));
    (x412 <- (x411 <- (x391 <- (make_property_data_message true 52 20141431 253073938 None 0 0 None 0 127) ;; ci_view true x391) ;; number_of_this_chunk x411) ;; Ok (Z.eqb 0 x412));
    (x414 <- (x413 <- (x391 <- (make_property_data_message true 52 20141431 253073938 None 0 0 None 0 127) ;; ci_view true x391) ;; chunk_size x413) ;; Ok (Z.eqb 0 x414));
    (b_ <- (x416 <- (make_property_data_message true 60 18036055 53827345 (Some [1; 2; 3; 4; 5; 6; 7; 8; 0; 16; 32; 48; 64; 80; 96; 112]) 16 4 None 10 127) ;; property_data_validate x416) ;; Ok (negb b_));
    (b_ <- (x418 <- (x417 <- (make_property_data_message true 60 18036055 53827345 (Some [1; 2; 3; 4; 5; 6; 7; 8; 0; 16; 32; 48; 64; 80; 96; 112]) 16 4 None 10 127) ;; as_view true property_data_validate x417) ;; Ok (opt_some x418)) ;; Ok (negb b_))].
Proof. vm_compute. repeat constructor. Qed.

(* line 616 *)
Example test_make_rjson : all_true [
    (Ok (list_eqb (make_rjson_text [97] [98]) [123; 34; 97; 34; 58; 34; 98; 34; 125]));
    (Ok (list_eqb (make_rjson_int [110; 117; 109; 98; 101; 114] 5) [123; 34; 110; 117; 109; 98; 101; 114; 34; 58; 53; 125]));
    (Ok (list_eqb (make_rjson_text [114; 101; 115; 111; 117; 114; 99; 101] [80; 114; 111; 103; 114; 97; 109; 76; 105; 115; 116]) [123; 34; 114; 101; 115; 111; 117; 114; 99; 101; 34; 58; 34; 80; 114; 111; 103; 114; 97; 109; 76; 105; 115; 116; 34; 125]));
    (Ok (list_eqb (make_rjson_text [115; 115; 106; 106; 101; 101] [106; 51; 55; 115; 106; 102]) [123; 34; 115; 115; 106; 106; 101; 101; 34; 58; 34; 106; 51; 55; 115; 106; 102; 34; 125]));
    (Ok (list_eqb (make_rjson_int [115; 116; 97; 116; 117; 115] 12345) [123; 34; 115; 116; 97; 116; 117; 115; 34; 58; 49; 50; 51; 52; 53; 125]));
    (x419 <- (make_rjson_text_options [114; 101; 115; 111; 117; 114; 99; 101] [80; 114; 111; 103; 114; 97; 109; 76; 105; 115; 116] [([97], [98]); ([99], [100]); ([48; 48], [49; 49])]) ;; Ok (list_eqb x419 [123; 34; 114; 101; 115; 111; 117; 114; 99; 101; 34; 58; 34; 80; 114; 111; 103; 114; 97; 109; 76; 105; 115; 116; 34; 44; 34; 97; 34; 58; 34; 98; 34; 44; 34; 99; 34; 58; 34; 100; 34; 44; 34; 48; 48; 34; 58; 49; 49; 125]));
    (x420 <- (make_rjson_text_options [114; 101; 115; 111; 117; 114; 99; 101] [86; 101; 110; 100; 111; 114; 82; 101; 115; 111; 117; 114; 99; 101] [([100; 101; 108; 116; 97], [45; 49; 48])]) ;; Ok (list_eqb x420 [123; 34; 114; 101; 115; 111; 117; 114; 99; 101; 34; 58; 34; 86; 101; 110; 100; 111; 114; 82; 101; 115; 111; 117; 114; 99; 101; 34; 44; 34; 100; 101; 108; 116; 97; 34; 58; 45; 49; 48; 125]))].
Proof. vm_compute. repeat constructor. Qed.

(* line 667 *)
Example test_get_property_data_inquiry : all_true [
    (get_property_data_validate (mkSx 0x7E0000 [10; 13; 52; 5; 120; 86; 52; 18; 119; 85; 51; 17; 3; 8; 0; 1; 2; 3; 4; 5; 6; 7; 8; 0; 0; 0; 0; 0; 0]));
    (x421 <- (as_view true get_property_data_validate (mkSx 0x7E0000 [10; 13; 52; 5; 120; 86; 52; 18; 119; 85; 51; 17; 3; 8; 0; 1; 2; 3; 4; 5; 6; 7; 8; 0; 0; 0; 0; 0; 0])) ;; Ok (opt_some x421));
    (x423 <- (x422 <- (ci_view true (mkSx 0x7E0000 [10; 13; 52; 5; 120; 86; 52; 18; 119; 85; 51; 17; 3; 8; 0; 1; 2; 3; 4; 5; 6; 7; 8; 0; 0; 0; 0; 0; 0])) ;; view_device_id x422) ;; Ok (Z.eqb 10 x423));
    (x425 <- (x424 <- (ci_view true (mkSx 0x7E0000 [10; 13; 52; 5; 120; 86; 52; 18; 119; 85; 51; 17; 3; 8; 0; 1; 2; 3; 4; 5; 6; 7; 8; 0; 0; 0; 0; 0; 0])) ;; view_type x424) ;; Ok (Z.eqb 32269 x425));
    (x427 <- (x426 <- (ci_view true (mkSx 0x7E0000 [10; 13; 52; 5; 120; 86; 52; 18; 119; 85; 51; 17; 3; 8; 0; 1; 2; 3; 4; 5; 6; 7; 8; 0; 0; 0; 0; 0; 0])) ;; view_subtype x426) ;; Ok (Z.eqb 52 x427));
    (x429 <- (x428 <- (ci_view true (mkSx 0x7E0000 [10; 13; 52; 5; 120; 86; 52; 18; 119; 85; 51; 17; 3; 8; 0; 1; 2; 3; 4; 5; 6; 7; 8; 0; 0; 0; 0; 0; 0])) ;; message_version x428) ;; Ok (Z.eqb 5 x429));
    (x431 <- (x430 <- (ci_view true (mkSx 0x7E0000 [10; 13; 52; 5; 120; 86; 52; 18; 119; 85; 51; 17; 3; 8; 0; 1; 2; 3; 4; 5; 6; 7; 8; 0; 0; 0; 0; 0; 0])) ;; source_muid x430) ;; Ok (Z.eqb 38611832 x431));
    (x433 <- (x432 <- (ci_view true (mkSx 0x7E0000 [10; 13; 52; 5; 120; 86; 52; 18; 119; 85; 51; 17; 3; 8; 0; 1; 2; 3; 4; 5; 6; 7; 8; 0; 0; 0; 0; 0; 0])) ;; destination_muid x432) ;; Ok (Z.eqb 36498167 x433));
    (x435 <- (x434 <- (ci_view true (mkSx 0x7E0000 [10; 13; 52; 5; 120; 86; 52; 18; 119; 85; 51; 17; 3; 8; 0; 1; 2; 3; 4; 5; 6; 7; 8; 0; 0; 0; 0; 0; 0])) ;; request_id x434) ;; Ok (Z.eqb 3 x435));
    (x437 <- (x436 <- (ci_view true (mkSx 0x7E0000 [10; 13; 52; 5; 120; 86; 52; 18; 119; 85; 51; 17; 3; 8; 0; 1; 2; 3; 4; 5; 6; 7; 8; 0; 0; 0; 0; 0; 0])) ;; header_size x436) ;; Ok (Z.eqb 8 x437));
    (x441 <- (x440 <- (ci_view true (mkSx 0x7E0000 [10; 13; 52; 5; 120; 86; 52; 18; 119; 85; 51; 17; 3; 8; 0; 1; 2; 3; 4; 5; 6; 7; 8; 0; 0; 0; 0; 0; 0])) ;; header_size x440) ;; x442 <- (x439 <- (ci_view true (mkSx 0x7E0000 [10; 13; 52; 5; 120; 86; 52; 18; 119; 85; 51; 17; 3; 8; 0; 1; 2; 3; 4; 5; 6; 7; 8; 0; 0; 0; 0; 0; 0])) ;; header_data x439) ;; Ok (prefix_eqb x441 x442 (skipz 15 (sx_data (mkSx 0x7E0000 [10; 13; 52; 5; 120; 86; 52; 18; 119; 85; 51; 17; 3; 8; 0; 1; 2; 3; 4; 5; 6; 7; 8; 0; 0; 0; 0; 0; 0])))));
    (x444 <- (x443 <- (ci_view true (mkSx 0x7E0000 [10; 13; 52; 5; 120; 86; 52; 18; 119; 85; 51; 17; 3; 8; 0; 1; 2; 3; 4; 5; 6; 7; 8; 0; 0; 0; 0; 0; 0])) ;; number_of_chunks x443) ;; Ok (Z.eqb 0 x444));
    (x446 <- (x445 <- (ci_view true (mkSx 0x7E0000 [10; 13; 52; 5; 120; 86; 52; 18; 119; 85; 51; 17; 3; 8; 0; 1; 2; 3; 4; 5; 6; 7; 8; 0; 0; 0; 0; 0; 0])) ;; number_of_this_chunk x445) ;; Ok (Z.eqb 0 x446));
    (get_property_data_validate (mkSx 0x7E0000 [10; 13; 52; 5; 120; 86; 52; 18; 119; 85; 51; 17; 3; 8; 0; 1; 2; 3; 4; 5; 6; 7; 8; 0; 0; 0; 0; 0; 0; 0; 0; 0; 0]));
    (x447 <- (as_view true get_property_data_validate (mkSx 0x7E0000 [10; 13; 52; 5; 120; 86; 52; 18; 119; 85; 51; 17; 3; 8; 0; 1; 2; 3; 4; 5; 6; 7; 8; 0; 0; 0; 0; 0; 0; 0; 0; 0; 0])) ;; Ok (opt_some x447));
    (b_ <- (get_property_data_validate (mkSx 0x7E0000 [10; 13; 53; 0; 120; 86; 52; 18; 119; 85; 51; 17; 3; 0; 8; 0; 1; 2; 3; 4; 5; 6; 7; 8; 1; 0; 1; 0; 0; 0])) ;; Ok (negb b_));
    (b_ <- (x448 <- (as_view true get_property_data_validate (mkSx 0x7E0000 [10; 13; 53; 0; 120; 86; 52; 18; 119; 85; 51; 17; 3; 0; 8; 0; 1; 2; 3; 4; 5; 6; 7; 8; 1; 0; 1; 0; 0; 0])) ;; Ok (opt_some x448)) ;; Ok (negb b_));
    (x450 <- (x449 <- (make_get_property_data_inquiry true 19088743 70459921 [82; 101; 115; 111; 117; 114; 99; 101; 76; 105; 115; 116] 17 10) ;; Ok (dsize x449)) ;; Ok (Z.eqb 48 x450));
    (x451 <- (make_get_property_data_inquiry true 19088743 70459921 [82; 101; 115; 111; 117; 114; 99; 101; 76; 105; 115; 116] 17 10) ;; get_property_data_validate x451);
    (x453 <- (x452 <- (make_get_property_data_inquiry true 19088743 70459921 [82; 101; 115; 111; 117; 114; 99; 101; 76; 105; 115; 116] 17 10) ;; as_view true get_property_data_validate x452) ;; Ok (opt_some x453));
    (x456 <- (x455 <- (x454 <- (make_get_property_data_inquiry true 19088743 70459921 [82; 101; 115; 111; 117; 114; 99; 101; 76; 105; 115; 116] 17 10) ;; ci_view true x454) ;; view_device_id x455) ;; Ok (Z.eqb 10 x456));
    (x458 <- (x457 <- (x454 <- (make_get_property_data_inquiry true 19088743 70459921 [82; 101; 115; 111; 117; 114; 99; 101; 76; 105; 115; 116] 17 10) ;; ci_view true x454) ;; view_type x457) ;; Ok (Z.eqb 32269 x458));
    (x460 <- (x459 <- (x454 <- (make_get_property_data_inquiry true 19088743 70459921 [82; 101; 115; 111; 117; 114; 99; 101; 76; 105; 115; 116] 17 10) ;; ci_view true x454) ;; view_subtype x459) ;; Ok (Z.eqb 52 x460));
    (x462 <- (x461 <- (x454 <- (make_get_property_data_inquiry true 19088743 70459921 [82; 101; 115; 111; 117; 114; 99; 101; 76; 105; 115; 116] 17 10) ;; ci_view true x454) ;; message_version x461) ;; Ok (Z.eqb 2 x462));
    (x464 <- (x463 <- (x454 <- (make_get_property_data_inquiry true 19088743 70459921 [82; 101; 115; 111; 117; 114; 99; 101; 76; 105; 115; 116] 17 10) ;; ci_view true x454) ;; source_muid x463) ;; Ok (Z.eqb 19088743 x464));
    (x466 <- (x465 <- (x454 <- (make_get_property_data_inquiry true 19088743 70459921 [82; 101; 115; 111; 117; 114; 99; 101; 76; 105; 115; 116] 17 10) ;; ci_view true x454) ;; destination_muid x465) ;; Ok (Z.eqb 70459921 x466));
    (x468 <- (x467 <- (x454 <- (make_get_property_data_inquiry true 19088743 70459921 [82; 101; 115; 111; 117; 114; 99; 101; 76; 105; 115; 116] 17 10) ;; ci_view true x454) ;; request_id x467) ;; Ok (Z.eqb 17 x468));
    (x470 <- (x469 <- (x454 <- (make_get_property_data_inquiry true 19088743 70459921 [82; 101; 115; 111; 117; 114; 99; 101; 76; 105; 115; 116] 17 10) ;; ci_view true x454) ;; header_size x469) ;; Ok (Z.eqb 27 x470));
    (x475 <- (x474 <- (x454 <- (make_get_property_data_inquiry true 19088743 70459921 [82; 101; 115; 111; 117; 114; 99; 101; 76; 105; 115; 116] 17 10) ;; ci_view true x454) ;; header_size x474) ;; x476 <- (x473 <- (x454 <- (make_get_property_data_inquiry true 19088743 70459921 [82; 101; 115; 111; 117; 114; 99; 101; 76; 105; 115; 116] 17 10) ;; ci_view true x454) ;; header_data x473) ;; Ok (prefix_eqb x475 x476 [123; 34; 114; 101; 115; 111; 117; 114; 99; 101; 34; 58; 34; 82; 101; 115; 111; 117; 114; 99; 101; 76; 105; 115; 116; 34; 125]));
    (x478 <- (x477 <- (x454 <- (make_get_property_data_inquiry true 19088743 70459921 [82; 101; 115; 111; 117; 114; 99; 101; 76; 105; 115; 116] 17 10) ;; ci_view true x454) ;; number_of_chunks x477) ;; Ok (Z.eqb 1 x478));
    (x480 <- (x479 <- (x454 <- (make_get_property_data_inquiry true 19088743 70459921 [82; 101; 115; 111; 117; 114; 99; 101; 76; 105; 115; 116] 17 10) ;; ci_view true x454) ;; number_of_this_chunk x479) ;; Ok (Z.eqb 1 x480));
    (x482 <- (x481 <- (make_get_property_data_inquiry true 18044279 16962 [80; 114; 111; 103; 114; 97; 109; 76; 105; 115; 116] 0 127) ;; Ok (dsize x481)) ;; Ok (Z.eqb 47 x482));
    (x483 <- (make_get_property_data_inquiry true 18044279 16962 [80; 114; 111; 103; 114; 97; 109; 76; 105; 115; 116] 0 127) ;; get_property_data_validate x483);
    (x485 <- (x484 <- (make_get_property_data_inquiry true 18044279 16962 [80; 114; 111; 103; 114; 97; 109; 76; 105; 115; 116] 0 127) ;; as_view true get_property_data_validate x484) ;; Ok (opt_some x485));
    (x488 <- (x487 <- (x486 <- (make_get_property_data_inquiry true 18044279 16962 [80; 114; 111; 103; 114; 97; 109; 76; 105; 115; 116] 0 127) ;; ci_view true x486) ;; view_device_id x487) ;; Ok (Z.eqb 127 x488));
    (x490 <- (x489 <- (x486 <- (make_get_property_data_inquiry true 18044279 16962 [80; 114; 111; 103; 114; 97; 109; 76; 105; 115; 116] 0 127) ;; ci_view true x486) ;; view_type x489) ;; Ok (Z.eqb 32269 x490));
    (x492 <- (x491 <- (x486 <- (make_get_property_data_inquiry true 18044279 16962 [80; 114; 111; 103; 114; 97; 109; 76; 105; 115; 116] 0 127) ;; ci_view true x486) ;; view_subtype x491) ;; Ok (Z.eqb 52 x492));
    (x494 <- (x493 <- (x486 <- (make_get_property_data_inquiry true 18044279 16962 [80; 114; 111; 103; 114; 97; 109; 76; 105; 115; 116] 0 127) ;; ci_view true x486) ;; message_version x493) ;; Ok (Z.eqb 2 x494));
    (x496 <- (x495 <- (x486 <- (make_get_property_data_inquiry true 18044279 16962 [80; 114; 111; 103; 114; 97; 109; 76; 105; 115; 116] 0 127) ;; ci_view true x486) ;; source_muid x495) ;; Ok (Z.eqb 18044279 x496));
    (x498 <- (x497 <- (x486 <- (make_get_property_data_inquiry true 18044279 16962 [80; 114; 111; 103; 114; 97; 109; 76; 105; 115; 116] 0 127) ;; ci_view true x486) ;; destination_muid x497) ;; Ok (Z.eqb 16962 x498));
    (x500 <- (x499 <- (x486 <- (make_get_property_data_inquiry true 18044279 16962 [80; 114; 111; 103; 114; 97; 109; 76; 105; 115; 116] 0 127) ;; ci_view true x486) ;; request_id x499) ;; Ok (Z.eqb 0 x500));
    (x502 <- (x501 <- (x486 <- (make_get_property_data_inquiry true 18044279 16962 [80; 114; 111; 103; 114; 97; 109; 76; 105; 115; 116] 0 127) ;; ci_view true x486) ;; header_size x501) ;; Ok (Z.eqb 26 x502));
    (x507 <- (x506 <- (x486 <- (make_get_property_data_inquiry true 18044279 16962 [80; 114; 111; 103; 114; 97; 109; 76; 105; 115; 116] 0 127) ;; ci_view true x486) ;; header_size x506) ;; x508 <- (x505 <- (x486 <- (make_get_property_data_inquiry true 18044279 16962 [80; 114; 111; 103; 114; 97; 109; 76; 105; 115; 116] 0 127) ;; ci_view true x486) ;; header_data x505) ;; Ok (prefix_eqb x507 x508 [123; 34; 114; 101; 115; 111; 117; 114; 99; 101; 34; 58; 34; 80; 114; 111; 103; 114; 97; 109; 76; 105; 115; 116; 34; 125]));
    (x510 <- (x509 <- (x486 <- (make_get_property_data_inquiry true 18044279 16962 [80; 114; 111; 103; 114; 97; 109; 76; 105; 115; 116] 0 127) ;; ci_view true x486) ;; number_of_chunks x509) ;; Ok (Z.eqb 1 x510));
    (x512 <- (x511 <- (x486 <- (make_get_property_data_inquiry true 18044279 16962 [80; 114; 111; 103; 114; 97; 109; 76; 105; 115; 116] 0 127) ;; ci_view true x486) ;; number_of_this_chunk x511) ;; Ok (Z.eqb 1 x512))].
Proof. vm_compute. repeat constructor. Qed.

(* line 796 *)
Example test_get_property_data_reply : all_true [
    (get_property_data_validate (mkSx 0x7E0000 [10; 13; 53; 5; 120; 86; 52; 18; 119; 85; 51; 17; 121; 8; 0; 1; 2; 3; 4; 5; 6; 7; 8; 1; 0; 1; 0; 10; 0; 16; 32; 48; 64; 80; 96; 112; 128; 31; 46]));
    (x513 <- (as_view true get_property_data_validate (mkSx 0x7E0000 [10; 13; 53; 5; 120; 86; 52; 18; 119; 85; 51; 17; 121; 8; 0; 1; 2; 3; 4; 5; 6; 7; 8; 1; 0; 1; 0; 10; 0; 16; 32; 48; 64; 80; 96; 112; 128; 31; 46])) ;; Ok (opt_some x513));
    (x515 <- (x514 <- (ci_view true (mkSx 0x7E0000 [10; 13; 53; 5; 120; 86; 52; 18; 119; 85; 51; 17; 121; 8; 0; 1; 2; 3; 4; 5; 6; 7; 8; 1; 0; 1; 0; 10; 0; 16; 32; 48; 64; 80; 96; 112; 128; 31; 46])) ;; view_device_id x514) ;; Ok (Z.eqb 10 x515));
    (x517 <- (x516 <- (ci_view true (mkSx 0x7E0000 [10; 13; 53; 5; 120; 86; 52; 18; 119; 85; 51; 17; 121; 8; 0; 1; 2; 3; 4; 5; 6; 7; 8; 1; 0; 1; 0; 10; 0; 16; 32; 48; 64; 80; 96; 112; 128; 31; 46])) ;; view_type x516) ;; Ok (Z.eqb 32269 x517));
    (x519 <- (x518 <- (ci_view true (mkSx 0x7E0000 [10; 13; 53; 5; 120; 86; 52; 18; 119; 85; 51; 17; 121; 8; 0; 1; 2; 3; 4; 5; 6; 7; 8; 1; 0; 1; 0; 10; 0; 16; 32; 48; 64; 80; 96; 112; 128; 31; 46])) ;; view_subtype x518) ;; Ok (Z.eqb 53 x519));
    (x521 <- (x520 <- (ci_view true (mkSx 0x7E0000 [10; 13; 53; 5; 120; 86; 52; 18; 119; 85; 51; 17; 121; 8; 0; 1; 2; 3; 4; 5; 6; 7; 8; 1; 0; 1; 0; 10; 0; 16; 32; 48; 64; 80; 96; 112; 128; 31; 46])) ;; message_version x520) ;; Ok (Z.eqb 5 x521));
    (x523 <- (x522 <- (ci_view true (mkSx 0x7E0000 [10; 13; 53; 5; 120; 86; 52; 18; 119; 85; 51; 17; 121; 8; 0; 1; 2; 3; 4; 5; 6; 7; 8; 1; 0; 1; 0; 10; 0; 16; 32; 48; 64; 80; 96; 112; 128; 31; 46])) ;; source_muid x522) ;; Ok (Z.eqb 38611832 x523));
    (x525 <- (x524 <- (ci_view true (mkSx 0x7E0000 [10; 13; 53; 5; 120; 86; 52; 18; 119; 85; 51; 17; 121; 8; 0; 1; 2; 3; 4; 5; 6; 7; 8; 1; 0; 1; 0; 10; 0; 16; 32; 48; 64; 80; 96; 112; 128; 31; 46])) ;; destination_muid x524) ;; Ok (Z.eqb 36498167 x525));
    (x527 <- (x526 <- (ci_view true (mkSx 0x7E0000 [10; 13; 53; 5; 120; 86; 52; 18; 119; 85; 51; 17; 121; 8; 0; 1; 2; 3; 4; 5; 6; 7; 8; 1; 0; 1; 0; 10; 0; 16; 32; 48; 64; 80; 96; 112; 128; 31; 46])) ;; request_id x526) ;; Ok (Z.eqb 121 x527));
    (x529 <- (x528 <- (ci_view true (mkSx 0x7E0000 [10; 13; 53; 5; 120; 86; 52; 18; 119; 85; 51; 17; 121; 8; 0; 1; 2; 3; 4; 5; 6; 7; 8; 1; 0; 1; 0; 10; 0; 16; 32; 48; 64; 80; 96; 112; 128; 31; 46])) ;; header_size x528) ;; Ok (Z.eqb 8 x529));
    (x533 <- (x532 <- (ci_view true (mkSx 0x7E0000 [10; 13; 53; 5; 120; 86; 52; 18; 119; 85; 51; 17; 121; 8; 0; 1; 2; 3; 4; 5; 6; 7; 8; 1; 0; 1; 0; 10; 0; 16; 32; 48; 64; 80; 96; 112; 128; 31; 46])) ;; header_size x532) ;; x534 <- (x531 <- (ci_view true (mkSx 0x7E0000 [10; 13; 53; 5; 120; 86; 52; 18; 119; 85; 51; 17; 121; 8; 0; 1; 2; 3; 4; 5; 6; 7; 8; 1; 0; 1; 0; 10; 0; 16; 32; 48; 64; 80; 96; 112; 128; 31; 46])) ;; header_data x531) ;; Ok (prefix_eqb x533 x534 (skipz 15 (sx_data (mkSx 0x7E0000 [10; 13; 53; 5; 120; 86; 52; 18; 119; 85; 51; 17; 121; 8; 0; 1; 2; 3; 4; 5; 6; 7; 8; 1; 0; 1; 0; 10; 0; 16; 32; 48; 64; 80; 96; 112; 128; 31; 46])))));
    (x536 <- (x535 <- (ci_view true (mkSx 0x7E0000 [10; 13; 53; 5; 120; 86; 52; 18; 119; 85; 51; 17; 121; 8; 0; 1; 2; 3; 4; 5; 6; 7; 8; 1; 0; 1; 0; 10; 0; 16; 32; 48; 64; 80; 96; 112; 128; 31; 46])) ;; number_of_chunks x535) ;; Ok (Z.eqb 1 x536));
    (x538 <- (x537 <- (ci_view true (mkSx 0x7E0000 [10; 13; 53; 5; 120; 86; 52; 18; 119; 85; 51; 17; 121; 8; 0; 1; 2; 3; 4; 5; 6; 7; 8; 1; 0; 1; 0; 10; 0; 16; 32; 48; 64; 80; 96; 112; 128; 31; 46])) ;; number_of_this_chunk x537) ;; Ok (Z.eqb 1 x538));
    (x540 <- (x539 <- (ci_view true (mkSx 0x7E0000 [10; 13; 53; 5; 120; 86; 52; 18; 119; 85; 51; 17; 121; 8; 0; 1; 2; 3; 4; 5; 6; 7; 8; 1; 0; 1; 0; 10; 0; 16; 32; 48; 64; 80; 96; 112; 128; 31; 46])) ;; chunk_size x539) ;; Ok (Z.eqb 10 x540));
    (x544 <- (x543 <- (ci_view true (mkSx 0x7E0000 [10; 13; 53; 5; 120; 86; 52; 18; 119; 85; 51; 17; 121; 8; 0; 1; 2; 3; 4; 5; 6; 7; 8; 1; 0; 1; 0; 10; 0; 16; 32; 48; 64; 80; 96; 112; 128; 31; 46])) ;; chunk_size x543) ;; x545 <- (x542 <- (ci_view true (mkSx 0x7E0000 [10; 13; 53; 5; 120; 86; 52; 18; 119; 85; 51; 17; 121; 8; 0; 1; 2; 3; 4; 5; 6; 7; 8; 1; 0; 1; 0; 10; 0; 16; 32; 48; 64; 80; 96; 112; 128; 31; 46])) ;; chunk_data x542) ;; Ok (prefix_eqb x544 x545 (skipz 29 (sx_data (mkSx 0x7E0000 [10; 13; 53; 5; 120; 86; 52; 18; 119; 85; 51; 17; 121; 8; 0; 1; 2; 3; 4; 5; 6; 7; 8; 1; 0; 1; 0; 10; 0; 16; 32; 48; 64; 80; 96; 112; 128; 31; 46])))));
    (get_property_data_validate (mkSx 0x7E0000 [10; 13; 53; 5; 120; 86; 52; 18; 119; 85; 51; 17; 121; 8; 0; 1; 2; 3; 4; 5; 6; 7; 8; 1; 0; 1; 0; 10; 0; 16; 32; 48; 64; 80; 96; 112; 128; 31; 46; 17]));
    (x546 <- (as_view true get_property_data_validate (mkSx 0x7E0000 [10; 13; 53; 5; 120; 86; 52; 18; 119; 85; 51; 17; 121; 8; 0; 1; 2; 3; 4; 5; 6; 7; 8; 1; 0; 1; 0; 10; 0; 16; 32; 48; 64; 80; 96; 112; 128; 31; 46; 17])) ;; Ok (opt_some x546));
    (b_ <- (get_property_data_validate (mkSx 0x7E0000 [10; 13; 54; 0; 120; 86; 52; 18; 119; 85; 51; 17; 121; 8; 0; 1; 2; 3; 4; 5; 6; 7; 8; 1; 0; 1; 0; 0; 0])) ;; Ok (negb b_));
    (b_ <- (x547 <- (as_view true get_property_data_validate (mkSx 0x7E0000 [10; 13; 54; 0; 120; 86; 52; 18; 119; 85; 51; 17; 121; 8; 0; 1; 2; 3; 4; 5; 6; 7; 8; 1; 0; 1; 0; 0; 0])) ;; Ok (opt_some x547)) ;; Ok (negb b_));
    (x549 <- (x548 <- (make_get_property_data_reply_status true 19088743 19088744 200 1 1 (Some [1; 2; 3; 4; 5; 6; 7; 8]) 12 10) ;; Ok (dsize x548)) ;; Ok (Z.eqb 43 x549));
    (x550 <- (make_get_property_data_reply_status true 19088743 19088744 200 1 1 (Some [1; 2; 3; 4; 5; 6; 7; 8]) 12 10) ;; get_property_data_validate x550);
    (x552 <- (x551 <- (make_get_property_data_reply_status true 19088743 19088744 200 1 1 (Some [1; 2; 3; 4; 5; 6; 7; 8]) 12 10) ;; as_view true get_property_data_validate x551) ;; Ok (opt_some x552));
    (x555 <- (x554 <- (x553 <- (make_get_property_data_reply_status true 19088743 19088744 200 1 1 (Some [1; 2; 3; 4; 5; 6; 7; 8]) 12 10) ;; ci_view true x553) ;; view_device_id x554) ;; Ok (Z.eqb 10 x555));
    (x557 <- (x556 <- (x553 <- (make_get_property_data_reply_status true 19088743 19088744 200 1 1 (Some [1; 2; 3; 4; 5; 6; 7; 8]) 12 10) ;; ci_view true x553) ;; view_type x556) ;; Ok (Z.eqb 32269 x557));
    (x559 <- (x558 <- (x553 <- (make_get_property_data_reply_status true 19088743 19088744 200 1 1 (Some [1; 2; 3; 4; 5; 6; 7; 8]) 12 10) ;; ci_view true x553) ;; view_subtype x558) ;; Ok (Z.eqb 53 x559));
    (x561 <- (x560 <- (x553 <- (make_get_property_data_reply_status true 19088743 19088744 200 1 1 (Some [1; 2; 3; 4; 5; 6; 7; 8]) 12 10) ;; ci_view true x553) ;; message_version x560) ;; Ok (Z.eqb 2 x561));
    (x563 <- (x562 <- (x553 <- (make_get_property_data_reply_status true 19088743 19088744 200 1 1 (Some [1; 2; 3; 4; 5; 6; 7; 8]) 12 10) ;; ci_view true x553) ;; source_muid x562) ;; Ok (Z.eqb 19088743 x563));
    (x565 <- (x564 <- (x553 <- (make_get_property_data_reply_status true 19088743 19088744 200 1 1 (Some [1; 2; 3; 4; 5; 6; 7; 8]) 12 10) ;; ci_view true x553) ;; destination_muid x564) ;; Ok (Z.eqb 19088744 x565));
    (x567 <- (x566 <- (x553 <- (make_get_property_data_reply_status true 19088743 19088744 200 1 1 (Some [1; 2; 3; 4; 5; 6; 7; 8]) 12 10) ;; ci_view true x553) ;; request_id x566) ;; Ok (Z.eqb 12 x567));
    (x569 <- (x568 <- (x553 <- (make_get_property_data_reply_status true 19088743 19088744 200 1 1 (Some [1; 2; 3; 4; 5; 6; 7; 8]) 12 10) ;; ci_view true x553) ;; header_size x568) ;; Ok (Z.eqb 14 x569));
    (x573 <- (x572 <- (x553 <- (make_get_property_data_reply_status true 19088743 19088744 200 1 1 (Some [1; 2; 3; 4; 5; 6; 7; 8]) 12 10) ;; ci_view true x553) ;; header_size x572) ;; x574 <- (x571 <- (x553 <- (make_get_property_data_reply_status true 19088743 19088744 200 1 1 (Some [1; 2; 3; 4; 5; 6; 7; 8]) 12 10) ;; ci_view true x553) ;; header_data x571) ;; Ok (prefix_eqb x573 x574 [123; 34; 115; 116; 97; 116; 117; 115; 34; 58; 50; 48; 48; 125]));
    (x576 <- (x575 <- (x553 <- (make_get_property_data_reply_status true 19088743 19088744 200 1 1 (Some [1; 2; 3; 4; 5; 6; 7; 8]) 12 10) ;; ci_view true x553) ;; number_of_chunks x575) ;; Ok (Z.eqb 1 x576));
    (x578 <- (x577 <- (x553 <- (make_get_property_data_reply_status true 19088743 19088744 200 1 1 (Some [1; 2; 3; 4; 5; 6; 7; 8]) 12 10) ;; ci_view true x553) ;; number_of_this_chunk x577) ;; Ok (Z.eqb 1 x578));
    (x580 <- (x579 <- (x553 <- (make_get_property_data_reply_status true 19088743 19088744 200 1 1 (Some [1; 2; 3; 4; 5; 6; 7; 8]) 12 10) ;; ci_view true x553) ;; chunk_size x579) ;; Ok (Z.eqb 8 x580));
    (x584 <- (x583 <- (x553 <- (make_get_property_data_reply_status true 19088743 19088744 200 1 1 (Some [1; 2; 3; 4; 5; 6; 7; 8]) 12 10) ;; ci_view true x553) ;; chunk_size x583) ;; x585 <- (x582 <- (x553 <- (make_get_property_data_reply_status true 19088743 19088744 200 1 1 (Some [1; 2; 3; 4; 5; 6; 7; 8]) 12 10) ;; ci_view true x553) ;; chunk_data x582) ;; Ok (prefix_eqb x584 x585 [1; 2; 3; 4; 5; 6; 7; 8]));
    (x587 <- (x586 <- (make_get_property_data_reply true 18036087 268086192 None 0 128 (Some [1; 2; 3; 4; 5; 6; 7; 8; 0; 16; 32; 48; 64; 80; 96; 112; 119; 85; 51; 17; 25]) 0 127) ;; Ok (dsize x586)) ;; Ok (Z.eqb 42 x587));
    (x588 <- (make_get_property_data_reply true 18036087 268086192 None 0 128 (Some [1; 2; 3; 4; 5; 6; 7; 8; 0; 16; 32; 48; 64; 80; 96; 112; 119; 85; 51; 17; 25]) 0 127) ;; get_property_data_validate x588);
    (x590 <- (x589 <- (make_get_property_data_reply true 18036087 268086192 None 0 128 (Some [1; 2; 3; 4; 5; 6; 7; 8; 0; 16; 32; 48; 64; 80; 96; 112; 119; 85; 51; 17; 25]) 0 127) ;; as_view true get_property_data_validate x589) ;; Ok (opt_some x590));
    (x593 <- (x592 <- (x591 <- (make_get_property_data_reply true 18036087 268086192 None 0 128 (Some [1; 2; 3; 4; 5; 6; 7; 8; 0; 16; 32; 48; 64; 80; 96; 112; 119; 85; 51; 17; 25]) 0 127) ;; ci_view true x591) ;; view_device_id x592) ;; Ok (Z.eqb 127 x593));
    (x595 <- (x594 <- (x591 <- (make_get_property_data_reply true 18036087 268086192 None 0 128 (Some [1; 2; 3; 4; 5; 6; 7; 8; 0; 16; 32; 48; 64; 80; 96; 112; 119; 85; 51; 17; 25]) 0 127) ;; ci_view true x591) ;; view_type x594) ;; Ok (Z.eqb 32269 x595));
    (x597 <- (x596 <- (x591 <- (make_get_property_data_reply true 18036087 268086192 None 0 128 (Some [1; 2; 3; 4; 5; 6; 7; 8; 0; 16; 32; 48; 64; 80; 96; 112; 119; 85; 51; 17; 25]) 0 127) ;; ci_view true x591) ;; view_subtype x596) ;; Ok (Z.eqb 53 x597));
    (x599 <- (x598 <- (x591 <- (make_get_property_data_reply true 18036087 268086192 None 0 128 (Some [1; 2; 3; 4; 5; 6; 7; 8; 0; 16; 32; 48; 64; 80; 96; 112; 119; 85; 51; 17; 25]) 0 127) ;; ci_view true x591) ;; message_version x598) ;; Ok (Z.eqb 2 x599));
    (x601 <- (x600 <- (x591 <- (make_get_property_data_reply true 18036087 268086192 None 0 128 (Some [1; 2; 3; 4; 5; 6; 7; 8; 0; 16; 32; 48; 64; 80; 96; 112; 119; 85; 51; 17; 25]) 0 127) ;; ci_view true x591) ;; source_muid x600) ;; Ok (Z.eqb 18036087 x601));
    (x603 <- (x602 <- (x591 <- (make_get_property_data_reply true 18036087 268086192 None 0 128 (Some [1; 2; 3; 4; 5; 6; 7; 8; 0; 16; 32; 48; 64; 80; 96; 112; 119; 85; 51; 17; 25]) 0 127) ;; ci_view true x591) ;; destination_muid x602) ;; Ok (Z.eqb 268086192 x603));
    (x605 <- (x604 <- (x591 <- (make_get_property_data_reply true 18036087 268086192 None 0 128 (Some [1; 2; 3; 4; 5; 6; 7; 8; 0; 16; 32; 48; 64; 80; 96; 112; 119; 85; 51; 17; 25]) 0 127) ;; ci_view true x591) ;; request_id x604) ;; Ok (Z.eqb 0 x605));
    (x607 <- (x606 <- (x591 <- (make_get_property_data_reply true 18036087 268086192 None 0 128 (Some [1; 2; 3; 4; 5; 6; 7; 8; 0; 16; 32; 48; 64; 80; 96; 112; 119; 85; 51; 17; 25]) 0 127) ;; ci_view true x591) ;; header_size x606) ;; Ok (Z.eqb 0 x607));
    (x610 <- (x609 <- (x591 <- (make_get_property_data_reply true 18036087 268086192 None 0 128 (Some [1; 2; 3; 4; 5; 6; 7; 8; 0; 16; 32; 48; 64; 80; 96; 112; 119; 85; 51; 17; 25]) 0 127) ;; ci_view true x591) ;; number_of_chunks x609) ;; Ok (Z.eqb 0 x610));
    (x612 <- (x611 <- (x591 <- (make_get_property_data_reply true 18036087 268086192 None 0 128 (Some [1; 2; 3; 4; 5; 6; 7; 8; 0; 16; 32; 48; 64; 80; 96; 112; 119; 85; 51; 17; 25]) 0 127) ;; ci_view true x591) ;; number_of_this_chunk x611) ;; Ok (Z.eqb 128 x612));
    (x614 <- (x613 <- (x591 <- (make_get_property_data_reply true 18036087 268086192 None 0 128 (Some [1; 2; 3; 4; 5; 6; 7; 8; 0; 16; 32; 48; 64; 80; 96; 112; 119; 85; 51; 17; 25]) 0 127) ;; ci_view true x591) ;; chunk_size x613) ;; Ok (Z.eqb 21 x614));
    (x618 <- (x617 <- (x591 <- (make_get_property_data_reply true 18036087 268086192 None 0 128 (Some [1; 2; 3; 4; 5; 6; 7; 8; 0; 16; 32; 48; 64; 80; 96; 112; 119; 85; 51; 17; 25]) 0 127) ;; ci_view true x591) ;; chunk_size x617) ;; x619 <- (x616 <- (x591 <- (make_get_property_data_reply true 18036087 268086192 None 0 128 (Some [1; 2; 3; 4; 5; 6; 7; 8; 0; 16; 32; 48; 64; 80; 96; 112; 119; 85; 51; 17; 25]) 0 127) ;; ci_view true x591) ;; chunk_data x616) ;; Ok (prefix_eqb x618 x619 [1; 2; 3; 4; 5; 6; 7; 8; 0; 16; 32; 48; 64; 80; 96; 112; 119; 85; 51; 17; 25]));
    (x621 <- (x620 <- (make_get_property_data_reply_status true 18036055 7 404 0 0 None 0 127) ;; Ok (dsize x620)) ;; Ok (Z.eqb 35 x621));
    (x622 <- (make_get_property_data_reply_status true 18036055 7 404 0 0 None 0 127) ;; get_property_data_validate x622);
    (x624 <- (x623 <- (make_get_property_data_reply_status true 18036055 7 404 0 0 None 0 127) ;; as_view true get_property_data_validate x623) ;; Ok (opt_some x624));
    (x627 <- (x626 <- (x625 <- (make_get_property_data_reply_status true 18036055 7 404 0 0 None 0 127) ;; ci_view true x625) ;; view_device_id x626) ;; Ok (Z.eqb 127 x627));
    (x629 <- (x628 <- (x625 <- (make_get_property_data_reply_status true 18036055 7 404 0 0 None 0 127) ;; ci_view true x625) ;; view_type x628) ;; Ok (Z.eqb 32269 x629));
    (x631 <- (x630 <- (x625 <- (make_get_property_data_reply_status true 18036055 7 404 0 0 None 0 127) ;; ci_view true x625) ;; view_subtype x630) ;; Ok (Z.eqb 53 x631));
    (x633 <- (x632 <- (x625 <- (make_get_property_data_reply_status true 18036055 7 404 0 0 None 0 127) ;; ci_view true x625) ;; message_version x632) ;; Ok (Z.eqb 2 x633));
    (x635 <- (x634 <- (x625 <- (make_get_property_data_reply_status true 18036055 7 404 0 0 None 0 127) ;; ci_view true x625) ;; source_muid x634) ;; Ok (Z.eqb 18036055 x635));
    (x637 <- (x636 <- (x625 <- (make_get_property_data_reply_status true 18036055 7 404 0 0 None 0 127) ;; ci_view true x625) ;; destination_muid x636) ;; Ok (Z.eqb 7 x637));
    (x639 <- (x638 <- (x625 <- (make_get_property_data_reply_status true 18036055 7 404 0 0 None 0 127) ;; ci_view true x625) ;; request_id x638) ;; Ok (Z.eqb 0 x639));
    (x641 <- (x640 <- (x625 <- (make_get_property_data_reply_status true 18036055 7 404 0 0 None 0 127) ;; ci_view true x625) ;; header_size x640) ;; Ok (Z.eqb 14 x641));
    (x645 <- (x644 <- (x625 <- (make_get_property_data_reply_status true 18036055 7 404 0 0 None 0 127) ;; ci_view true x625) ;; header_size x644) ;; x646 <- (x643 <- (x625 <- (make_get_property_data_reply_status true 18036055 7 404 0 0 None 0 127) ;; ci_view true x625) ;; header_data x643) ;; Ok (prefix_eqb x645 x646 [123; 34; 115; 116; 97; 116; 117; 115; 34; 58; 52; 48; 52; 125]));
    (x648 <- (x647 <- (x625 <- (make_get_property_data_reply_status true 18036055 7 404 0 0 None 0 127) ;; ci_view true x625) ;; number_of_chunks x647) ;; Ok (Z.eqb 0 x648));
    (x650 <- (x649 <- (x625 <- (make_get_property_data_reply_status true 18036055 7 404 0 0 None 0 127) ;; ci_view true x625) ;; number_of_this_chunk x649) ;; Ok (Z.eqb 0 x650));
    (x652 <- (x651 <- (x625 <- (make_get_property_data_reply_status true 18036055 7 404 0 0 None 0 127) ;; ci_view true x625) ;; chunk_size x651) ;; Ok (Z.eqb 0 x652));
    (x657 <- (x656 <- (x655 <- (x654 <- (make_rjson_int_options [115; 116; 97; 116; 117; 115] 200 [([116; 111; 116; 97; 108; 67; 111; 117; 110; 116], [49; 49])]) ;; Ok (Some x654)) ;; make_get_property_data_reply true 18036055 7 x655 0 0 None 0 127) ;; Ok (dsize x656)) ;; Ok (Z.eqb 51 x657));
    (x658 <- (x655 <- (x654 <- (make_rjson_int_options [115; 116; 97; 116; 117; 115] 200 [([116; 111; 116; 97; 108; 67; 111; 117; 110; 116], [49; 49])]) ;; Ok (Some x654)) ;; make_get_property_data_reply true 18036055 7 x655 0 0 None 0 127) ;; get_property_data_validate x658);
    (x660 <- (x659 <- (x655 <- (x654 <- (make_rjson_int_options [115; 116; 97; 116; 117; 115] 200 [([116; 111; 116; 97; 108; 67; 111; 117; 110; 116], [49; 49])]) ;; Ok (Some x654)) ;; make_get_property_data_reply true 18036055 7 x655 0 0 None 0 127) ;; as_view true get_property_data_validate x659) ;; Ok (opt_some x660));
    (x663 <- (x662 <- (x661 <- (x655 <- (x654 <- (make_rjson_int_options [115; 116; 97; 116; 117; 115] 200 [([116; 111; 116; 97; 108; 67; 111; 117; 110; 116], [49; 49])]) ;; Ok (Some x654)) ;; make_get_property_data_reply true 18036055 7 x655 0 0 None 0 127) ;; ci_view true x661) ;; view_device_id x662) ;; Ok (Z.eqb 127 x663));
    (x665 <- (x664 <- (x661 <- (x655 <- (x654 <- (make_rjson_int_options [115; 116; 97; 116; 117; 115] 200 [([116; 111; 116; 97; 108; 67; 111; 117; 110; 116], [49; 49])]) ;; Ok (Some x654)) ;; make_get_property_data_reply true 18036055 7 x655 0 0 None 0 127) ;; ci_view true x661) ;; view_type x664) ;; Ok (Z.eqb 32269 x665));
    (x667 <- (x666 <- (x661 <- (x655 <- (x654 <- (make_rjson_int_options [115; 116; 97; 116; 117; 115] 200 [([116; 111; 116; 97; 108; 67; 111; 117; 110; 116], [49; 49])]) ;; Ok (Some x654)) ;; make_get_property_data_reply true 18036055 7 x655 0 0 None 0 127) ;; ci_view true x661) ;; view_subtype x666) ;; Ok (Z.eqb 53 x667));
    (x669 <- (x668 <- (x661 <- (x655 <- (x654 <- (make_rjson_int_options [115; 116; 97; 116; 117; 115] 200 [([116; 111; 116; 97; 108; 67; 111; 117; 110; 116], [49; 49])]) ;; Ok (Some x654)) ;; make_get_property_data_reply true 18036055 7 x655 0 0 None 0 127) ;; ci_view true x661) ;; message_version x668) ;; Ok (Z.eqb 2 x669));
    (x671 <- (x670 <- (x661 <- (x655 <- (x654 <- (make_rjson_int_options [115; 116; 97; 116; 117; 115] 200 [([116; 111; 116; 97; 108; 67; 111; 117; 110; 116], [49; 49])]) ;; Ok (Some x654)) ;; make_get_property_data_reply true 18036055 7 x655 0 0 None 0 127) ;; ci_view true x661) ;; source_muid x670) ;; Ok (Z.eqb 18036055 x671));
    (x673 <- (x672 <- (x661 <- (x655 <- (x654 <- (make_rjson_int_options [115; 116; 97; 116; 117; 115] 200 [([116; 111; 116; 97; 108; 67; 111; 117; 110; 116], [49; 49])]) ;; Ok (Some x654)) ;; make_get_property_data_reply true 18036055 7 x655 0 0 None 0 127) ;; ci_view true x661) ;; destination_muid x672) ;; Ok (Z.eqb 7 x673));
    (x675 <- (x674 <- (x661 <- (x655 <- (x654 <- (make_rjson_int_options [115; 116; 97; 116; 117; 115] 200 [([116; 111; 116; 97; 108; 67; 111; 117; 110; 116], [49; 49])]) ;; Ok (Some x654)) ;; make_get_property_data_reply true 18036055 7 x655 0 0 None 0 127) ;; ci_view true x661) ;; request_id x674) ;; Ok (Z.eqb 0 x675));
    (x677 <- (x676 <- (x661 <- (x655 <- (x654 <- (make_rjson_int_options [115; 116; 97; 116; 117; 115] 200 [([116; 111; 116; 97; 108; 67; 111; 117; 110; 116], [49; 49])]) ;; Ok (Some x654)) ;; make_get_property_data_reply true 18036055 7 x655 0 0 None 0 127) ;; ci_view true x661) ;; header_size x676) ;; Ok (Z.eqb 30 x677));
    (x681 <- (x680 <- (x661 <- (x655 <- (x654 <- (make_rjson_int_options [115; 116; 97; 116; 117; 115] 200 [([116; 111; 116; 97; 108; 67; 111; 117; 110; 116], [49; 49])]) ;; Ok (Some x654)) ;; make_get_property_data_reply true 18036055 7 x655 0 0 None 0 127) ;; ci_view true x661) ;; header_size x680) ;; x682 <- (x679 <- (x661 <- (x655 <- (x654 <- (make_rjson_int_options [115; 116; 97; 116; 117; 115] 200 [([116; 111; 116; 97; 108; 67; 111; 117; 110; 116], [49; 49])]) ;; Ok (Some x654)) ;; make_get_property_data_reply true 18036055 7 x655 0 0 None 0 127) ;; ci_view true x661) ;; header_data x679) ;; Ok (prefix_eqb x681 x682 [123; 34; 115; 116; 97; 116; 117; 115; 34; 58; 50; 48; 48; 44; 34; 116; 111; 116; 97; 108; 67; 111; 117; 110; 116; 34; 58; 49; 49; 125]));
    (x684 <- (x683 <- (x661 <- (x655 <- (x654 <- (make_rjson_int_options [115; 116; 97; 116; 117; 115] 200 [([116; 111; 116; 97; 108; 67; 111; 117; 110; 116], [49; 49])]) ;; Ok (Some x654)) ;; make_get_property_data_reply true 18036055 7 x655 0 0 None 0 127) ;; ci_view true x661) ;; number_of_chunks x683) ;; Ok (Z.eqb 0 x684));
    (x686 <- (x685 <- (x661 <- (x655 <- (x654 <- (make_rjson_int_options [115; 116; 97; 116; 117; 115] 200 [([116; 111; 116; 97; 108; 67; 111; 117; 110; 116], [49; 49])]) ;; Ok (Some x654)) ;; make_get_property_data_reply true 18036055 7 x655 0 0 None 0 127) ;; ci_view true x661) ;; number_of_this_chunk x685) ;; Ok (Z.eqb 0 x686));
    (x688 <- (x687 <- (x661 <- (x655 <- (x654 <- (make_rjson_int_options [115; 116; 97; 116; 117; 115] 200 [([116; 111; 116; 97; 108; 67; 111; 117; 110; 116], [49; 49])]) ;; Ok (Some x654)) ;; make_get_property_data_reply true 18036055 7 x655 0 0 None 0 127) ;; ci_view true x661) ;; chunk_size x687) ;; Ok (Z.eqb 0 x688))].
Proof. vm_compute. repeat constructor. Qed.

(* line 1030 *)
Example test_set_property_data_inquiry : all_true [
    (set_property_data_validate (mkSx 0x7E0000 [10; 13; 54; 5; 120; 86; 52; 18; 119; 85; 51; 17; 127; 8; 0; 1; 2; 3; 4; 5; 6; 7; 8; 1; 0; 1; 0; 0; 0]));
    (x690 <- (as_view true set_property_data_validate (mkSx 0x7E0000 [10; 13; 54; 5; 120; 86; 52; 18; 119; 85; 51; 17; 127; 8; 0; 1; 2; 3; 4; 5; 6; 7; 8; 1; 0; 1; 0; 0; 0])) ;; Ok (opt_some x690));
    (x692 <- (x691 <- (ci_view true (mkSx 0x7E0000 [10; 13; 54; 5; 120; 86; 52; 18; 119; 85; 51; 17; 127; 8; 0; 1; 2; 3; 4; 5; 6; 7; 8; 1; 0; 1; 0; 0; 0])) ;; view_device_id x691) ;; Ok (Z.eqb 10 x692));
    (x694 <- (x693 <- (ci_view true (mkSx 0x7E0000 [10; 13; 54; 5; 120; 86; 52; 18; 119; 85; 51; 17; 127; 8; 0; 1; 2; 3; 4; 5; 6; 7; 8; 1; 0; 1; 0; 0; 0])) ;; view_type x693) ;; Ok (Z.eqb 32269 x694));
    (x696 <- (x695 <- (ci_view true (mkSx 0x7E0000 [10; 13; 54; 5; 120; 86; 52; 18; 119; 85; 51; 17; 127; 8; 0; 1; 2; 3; 4; 5; 6; 7; 8; 1; 0; 1; 0; 0; 0])) ;; view_subtype x695) ;; Ok (Z.eqb 54 x696));
    (x698 <- (x697 <- (ci_view true (mkSx 0x7E0000 [10; 13; 54; 5; 120; 86; 52; 18; 119; 85; 51; 17; 127; 8; 0; 1; 2; 3; 4; 5; 6; 7; 8; 1; 0; 1; 0; 0; 0])) ;; message_version x697) ;; Ok (Z.eqb 5 x698));
    (x700 <- (x699 <- (ci_view true (mkSx 0x7E0000 [10; 13; 54; 5; 120; 86; 52; 18; 119; 85; 51; 17; 127; 8; 0; 1; 2; 3; 4; 5; 6; 7; 8; 1; 0; 1; 0; 0; 0])) ;; source_muid x699) ;; Ok (Z.eqb 38611832 x700));
    (x702 <- (x701 <- (ci_view true (mkSx 0x7E0000 [10; 13; 54; 5; 120; 86; 52; 18; 119; 85; 51; 17; 127; 8; 0; 1; 2; 3; 4; 5; 6; 7; 8; 1; 0; 1; 0; 0; 0])) ;; destination_muid x701) ;; Ok (Z.eqb 36498167 x702));
    (x704 <- (x703 <- (ci_view true (mkSx 0x7E0000 [10; 13; 54; 5; 120; 86; 52; 18; 119; 85; 51; 17; 127; 8; 0; 1; 2; 3; 4; 5; 6; 7; 8; 1; 0; 1; 0; 0; 0])) ;; request_id x703) ;; Ok (Z.eqb 127 x704));
    (x706 <- (x705 <- (ci_view true (mkSx 0x7E0000 [10; 13; 54; 5; 120; 86; 52; 18; 119; 85; 51; 17; 127; 8; 0; 1; 2; 3; 4; 5; 6; 7; 8; 1; 0; 1; 0; 0; 0])) ;; header_size x705) ;; Ok (Z.eqb 8 x706));
    (x710 <- (x709 <- (ci_view true (mkSx 0x7E0000 [10; 13; 54; 5; 120; 86; 52; 18; 119; 85; 51; 17; 127; 8; 0; 1; 2; 3; 4; 5; 6; 7; 8; 1; 0; 1; 0; 0; 0])) ;; header_size x709) ;; x711 <- (x708 <- (ci_view true (mkSx 0x7E0000 [10; 13; 54; 5; 120; 86; 52; 18; 119; 85; 51; 17; 127; 8; 0; 1; 2; 3; 4; 5; 6; 7; 8; 1; 0; 1; 0; 0; 0])) ;; header_data x708) ;; Ok (prefix_eqb x710 x711 (skipz 15 (sx_data (mkSx 0x7E0000 [10; 13; 54; 5; 120; 86; 52; 18; 119; 85; 51; 17; 127; 8; 0; 1; 2; 3; 4; 5; 6; 7; 8; 1; 0; 1; 0; 0; 0])))));
    (x713 <- (x712 <- (ci_view true (mkSx 0x7E0000 [10; 13; 54; 5; 120; 86; 52; 18; 119; 85; 51; 17; 127; 8; 0; 1; 2; 3; 4; 5; 6; 7; 8; 1; 0; 1; 0; 0; 0])) ;; number_of_chunks x712) ;; Ok (Z.eqb 1 x713));
    (x715 <- (x714 <- (ci_view true (mkSx 0x7E0000 [10; 13; 54; 5; 120; 86; 52; 18; 119; 85; 51; 17; 127; 8; 0; 1; 2; 3; 4; 5; 6; 7; 8; 1; 0; 1; 0; 0; 0])) ;; number_of_this_chunk x714) ;; Ok (Z.eqb 1 x715));
    (x717 <- (x716 <- (ci_view true (mkSx 0x7E0000 [10; 13; 54; 5; 120; 86; 52; 18; 119; 85; 51; 17; 127; 8; 0; 1; 2; 3; 4; 5; 6; 7; 8; 1; 0; 1; 0; 0; 0])) ;; chunk_size x716) ;; Ok (Z.eqb 0 x717));
    (set_property_data_validate (mkSx 0x7E0000 [10; 13; 54; 5; 120; 86; 52; 18; 119; 85; 51; 17; 127; 8; 0; 1; 2; 3; 4; 5; 6; 7; 8; 1; 0; 1; 0; 0; 0; 1; 2; 3; 4; 5; 6; 7; 8]));
    (x719 <- (as_view true set_property_data_validate (mkSx 0x7E0000 [10; 13; 54; 5; 120; 86; 52; 18; 119; 85; 51; 17; 127; 8; 0; 1; 2; 3; 4; 5; 6; 7; 8; 1; 0; 1; 0; 0; 0; 1; 2; 3; 4; 5; 6; 7; 8])) ;; Ok (opt_some x719));
    (b_ <- (set_property_data_validate (mkSx 0x7E0000 [10; 13; 53; 0; 120; 86; 52; 18; 119; 85; 51; 17; 127; 8; 0; 1; 2; 3; 4; 5; 6; 7; 8; 1; 0; 1; 0; 1; 0; 1; 0; 0; 0])) ;; Ok (negb b_));
    (b_ <- (x720 <- (as_view true set_property_data_validate (mkSx 0x7E0000 [10; 13; 53; 0; 120; 86; 52; 18; 119; 85; 51; 17; 127; 8; 0; 1; 2; 3; 4; 5; 6; 7; 8; 1; 0; 1; 0; 1; 0; 1; 0; 0; 0])) ;; Ok (opt_some x720)) ;; Ok (negb b_));
    (x722 <- (x721 <- (make_set_property_data_inquiry true 19088743 178956970 [114; 97; 119; 68; 97; 116; 97] 1 1 (Some [1; 2; 3; 4; 5; 6; 7; 8]) 9 10) ;; Ok (dsize x721)) ;; Ok (Z.eqb 51 x722));
    (x723 <- (make_set_property_data_inquiry true 19088743 178956970 [114; 97; 119; 68; 97; 116; 97] 1 1 (Some [1; 2; 3; 4; 5; 6; 7; 8]) 9 10) ;; set_property_data_validate x723);
    (x725 <- (x724 <- (make_set_property_data_inquiry true 19088743 178956970 [114; 97; 119; 68; 97; 116; 97] 1 1 (Some [1; 2; 3; 4; 5; 6; 7; 8]) 9 10) ;; as_view true set_property_data_validate x724) ;; Ok (opt_some x725));
    (x728 <- (x727 <- (x726 <- (make_set_property_data_inquiry true 19088743 178956970 [114; 97; 119; 68; 97; 116; 97] 1 1 (Some [1; 2; 3; 4; 5; 6; 7; 8]) 9 10) ;; ci_view true x726) ;; view_device_id x727) ;; Ok (Z.eqb 10 x728));
    (x730 <- (x729 <- (x726 <- (make_set_property_data_inquiry true 19088743 178956970 [114; 97; 119; 68; 97; 116; 97] 1 1 (Some [1; 2; 3; 4; 5; 6; 7; 8]) 9 10) ;; ci_view true x726) ;; view_type x729) ;; Ok (Z.eqb 32269 x730));
    (x732 <- (x731 <- (x726 <- (make_set_property_data_inquiry true 19088743 178956970 [114; 97; 119; 68; 97; 116; 97] 1 1 (Some [1; 2; 3; 4; 5; 6; 7; 8]) 9 10) ;; ci_view true x726) ;; view_subtype x731) ;; Ok (Z.eqb 54 x732));
    (x734 <- (x733 <- (x726 <- (make_set_property_data_inquiry true 19088743 178956970 [114; 97; 119; 68; 97; 116; 97] 1 1 (Some [1; 2; 3; 4; 5; 6; 7; 8]) 9 10) ;; ci_view true x726) ;; message_version x733) ;; Ok (Z.eqb 2 x734));
    (x736 <- (x735 <- (x726 <- (make_set_property_data_inquiry true 19088743 178956970 [114; 97; 119; 68; 97; 116; 97] 1 1 (Some [1; 2; 3; 4; 5; 6; 7; 8]) 9 10) ;; ci_view true x726) ;; source_muid x735) ;; Ok (Z.eqb 19088743 x736));
    (x738 <- (x737 <- (x726 <- (make_set_property_data_inquiry true 19088743 178956970 [114; 97; 119; 68; 97; 116; 97] 1 1 (Some [1; 2; 3; 4; 5; 6; 7; 8]) 9 10) ;; ci_view true x726) ;; destination_muid x737) ;; Ok (Z.eqb 178956970 x738));
    (x740 <- (x739 <- (x726 <- (make_set_property_data_inquiry true 19088743 178956970 [114; 97; 119; 68; 97; 116; 97] 1 1 (Some [1; 2; 3; 4; 5; 6; 7; 8]) 9 10) ;; ci_view true x726) ;; request_id x739) ;; Ok (Z.eqb 9 x740));
    (x742 <- (x741 <- (x726 <- (make_set_property_data_inquiry true 19088743 178956970 [114; 97; 119; 68; 97; 116; 97] 1 1 (Some [1; 2; 3; 4; 5; 6; 7; 8]) 9 10) ;; ci_view true x726) ;; header_size x741) ;; Ok (Z.eqb 22 x742));
    (x746 <- (x745 <- (x726 <- (make_set_property_data_inquiry true 19088743 178956970 [114; 97; 119; 68; 97; 116; 97] 1 1 (Some [1; 2; 3; 4; 5; 6; 7; 8]) 9 10) ;; ci_view true x726) ;; header_size x745) ;; x747 <- (x744 <- (x726 <- (make_set_property_data_inquiry true 19088743 178956970 [114; 97; 119; 68; 97; 116; 97] 1 1 (Some [1; 2; 3; 4; 5; 6; 7; 8]) 9 10) ;; ci_view true x726) ;; header_data x744) ;; Ok (prefix_eqb x746 x747 [123; 34; 114; 101; 115; 111; 117; 114; 99; 101; 34; 58; 34; 114; 97; 119; 68; 97; 116; 97; 34; 125]));
    (x749 <- (x748 <- (x726 <- (make_set_property_data_inquiry true 19088743 178956970 [114; 97; 119; 68; 97; 116; 97] 1 1 (Some [1; 2; 3; 4; 5; 6; 7; 8]) 9 10) ;; ci_view true x726) ;; number_of_chunks x748) ;; Ok (Z.eqb 1 x749));
    (x751 <- (x750 <- (x726 <- (make_set_property_data_inquiry true 19088743 178956970 [114; 97; 119; 68; 97; 116; 97] 1 1 (Some [1; 2; 3; 4; 5; 6; 7; 8]) 9 10) ;; ci_view true x726) ;; number_of_this_chunk x750) ;; Ok (Z.eqb 1 x751));
    (x753 <- (x752 <- (x726 <- (make_set_property_data_inquiry true 19088743 178956970 [114; 97; 119; 68; 97; 116; 97] 1 1 (Some [1; 2; 3; 4; 5; 6; 7; 8]) 9 10) ;; ci_view true x726) ;; chunk_size x752) ;; Ok (Z.eqb 8 x753));
    (x757 <- (x756 <- (x726 <- (make_set_property_data_inquiry true 19088743 178956970 [114; 97; 119; 68; 97; 116; 97] 1 1 (Some [1; 2; 3; 4; 5; 6; 7; 8]) 9 10) ;; ci_view true x726) ;; chunk_size x756) ;; x758 <- (x755 <- (x726 <- (make_set_property_data_inquiry true 19088743 178956970 [114; 97; 119; 68; 97; 116; 97] 1 1 (Some [1; 2; 3; 4; 5; 6; 7; 8]) 9 10) ;; ci_view true x726) ;; chunk_data x755) ;; Ok (prefix_eqb x757 x758 [1; 2; 3; 4; 5; 6; 7; 8]));
    (x760 <- (x759 <- (make_set_property_data_inquiry_body true 18044279 157762387 256 128 (Some [1; 2; 3; 4; 5; 6; 7; 8; 0; 16; 32; 48; 64; 80; 96; 112; 119; 85; 51; 17; 25]) 0 127) ;; Ok (dsize x759)) ;; Ok (Z.eqb 42 x760));
    (x761 <- (make_set_property_data_inquiry_body true 18044279 157762387 256 128 (Some [1; 2; 3; 4; 5; 6; 7; 8; 0; 16; 32; 48; 64; 80; 96; 112; 119; 85; 51; 17; 25]) 0 127) ;; set_property_data_validate x761);
    (x763 <- (x762 <- (make_set_property_data_inquiry_body true 18044279 157762387 256 128 (Some [1; 2; 3; 4; 5; 6; 7; 8; 0; 16; 32; 48; 64; 80; 96; 112; 119; 85; 51; 17; 25]) 0 127) ;; as_view true set_property_data_validate x762) ;; Ok (opt_some x763));
    (x766 <- (x765 <- (x764 <- (make_set_property_data_inquiry_body true 18044279 157762387 256 128 (Some [1; 2; 3; 4; 5; 6; 7; 8; 0; 16; 32; 48; 64; 80; 96; 112; 119; 85; 51; 17; 25]) 0 127) ;; ci_view true x764) ;; view_device_id x765) ;; Ok (Z.eqb 127 x766));
    (x768 <- (x767 <- (x764 <- (make_set_property_data_inquiry_body true 18044279 157762387 256 128 (Some [1; 2; 3; 4; 5; 6; 7; 8; 0; 16; 32; 48; 64; 80; 96; 112; 119; 85; 51; 17; 25]) 0 127) ;; ci_view true x764) ;; view_type x767) ;; Ok (Z.eqb 32269 x768));
    (x770 <- (x769 <- (x764 <- (make_set_property_data_inquiry_body true 18044279 157762387 256 128 (Some [1; 2; 3; 4; 5; 6; 7; 8; 0; 16; 32; 48; 64; 80; 96; 112; 119; 85; 51; 17; 25]) 0 127) ;; ci_view true x764) ;; view_subtype x769) ;; Ok (Z.eqb 54 x770));
    (x772 <- (x771 <- (x764 <- (make_set_property_data_inquiry_body true 18044279 157762387 256 128 (Some [1; 2; 3; 4; 5; 6; 7; 8; 0; 16; 32; 48; 64; 80; 96; 112; 119; 85; 51; 17; 25]) 0 127) ;; ci_view true x764) ;; message_version x771) ;; Ok (Z.eqb 2 x772));
    (x774 <- (x773 <- (x764 <- (make_set_property_data_inquiry_body true 18044279 157762387 256 128 (Some [1; 2; 3; 4; 5; 6; 7; 8; 0; 16; 32; 48; 64; 80; 96; 112; 119; 85; 51; 17; 25]) 0 127) ;; ci_view true x764) ;; source_muid x773) ;; Ok (Z.eqb 18044279 x774));
    (x776 <- (x775 <- (x764 <- (make_set_property_data_inquiry_body true 18044279 157762387 256 128 (Some [1; 2; 3; 4; 5; 6; 7; 8; 0; 16; 32; 48; 64; 80; 96; 112; 119; 85; 51; 17; 25]) 0 127) ;; ci_view true x764) ;; destination_muid x775) ;; Ok (Z.eqb 157762387 x776));
    (x778 <- (x777 <- (x764 <- (make_set_property_data_inquiry_body true 18044279 157762387 256 128 (Some [1; 2; 3; 4; 5; 6; 7; 8; 0; 16; 32; 48; 64; 80; 96; 112; 119; 85; 51; 17; 25]) 0 127) ;; ci_view true x764) ;; request_id x777) ;; Ok (Z.eqb 0 x778));
    (x780 <- (x779 <- (x764 <- (make_set_property_data_inquiry_body true 18044279 157762387 256 128 (Some [1; 2; 3; 4; 5; 6; 7; 8; 0; 16; 32; 48; 64; 80; 96; 112; 119; 85; 51; 17; 25]) 0 127) ;; ci_view true x764) ;; header_size x779) ;; Ok (Z.eqb 0 x780));
    (x783 <- (x782 <- (x764 <- (make_set_property_data_inquiry_body true 18044279 157762387 256 128 (Some [1; 2; 3; 4; 5; 6; 7; 8; 0; 16; 32; 48; 64; 80; 96; 112; 119; 85; 51; 17; 25]) 0 127) ;; ci_view true x764) ;; number_of_chunks x782) ;; Ok (Z.eqb 256 x783));
    (x785 <- (x784 <- (x764 <- (make_set_property_data_inquiry_body true 18044279 157762387 256 128 (Some [1; 2; 3; 4; 5; 6; 7; 8; 0; 16; 32; 48; 64; 80; 96; 112; 119; 85; 51; 17; 25]) 0 127) ;; ci_view true x764) ;; number_of_this_chunk x784) ;; Ok (Z.eqb 128 x785));
    (x787 <- (x786 <- (x764 <- (make_set_property_data_inquiry_body true 18044279 157762387 256 128 (Some [1; 2; 3; 4; 5; 6; 7; 8; 0; 16; 32; 48; 64; 80; 96; 112; 119; 85; 51; 17; 25]) 0 127) ;; ci_view true x764) ;; chunk_size x786) ;; Ok (Z.eqb 21 x787));
    (x791 <- (x790 <- (x764 <- (make_set_property_data_inquiry_body true 18044279 157762387 256 128 (Some [1; 2; 3; 4; 5; 6; 7; 8; 0; 16; 32; 48; 64; 80; 96; 112; 119; 85; 51; 17; 25]) 0 127) ;; ci_view true x764) ;; chunk_size x790) ;; x792 <- (x789 <- (x764 <- (make_set_property_data_inquiry_body true 18044279 157762387 256 128 (Some [1; 2; 3; 4; 5; 6; 7; 8; 0; 16; 32; 48; 64; 80; 96; 112; 119; 85; 51; 17; 25]) 0 127) ;; ci_view true x764) ;; chunk_data x789) ;; Ok (prefix_eqb x791 x792 [1; 2; 3; 4; 5; 6; 7; 8; 0; 16; 32; 48; 64; 80; 96; 112; 119; 85; 51; 17; 25]));
    (x794 <- (x793 <- (make_set_property_data_inquiry_body true 18036087 122189379 0 0 None 0 127) ;; Ok (dsize x793)) ;; Ok (Z.eqb 21 x794));
    (x795 <- (make_set_property_data_inquiry_body true 18036087 122189379 0 0 None 0 127) ;; set_property_data_validate x795);
    (x797 <- (x796 <- (make_set_property_data_inquiry_body true 18036087 122189379 0 0 None 0 127) ;; as_view true set_property_data_validate x796) ;; Ok (opt_some x797));
    (x800 <- (x799 <- (x798 <- (make_set_property_data_inquiry_body true 18036087 122189379 0 0 None 0 127) ;; ci_view true x798) ;; view_device_id x799) ;; Ok (Z.eqb 127 x800));
    (x802 <- (x801 <- (x798 <- (make_set_property_data_inquiry_body true 18036087 122189379 0 0 None 0 127) ;; ci_view true x798) ;; view_type x801) ;; Ok (Z.eqb 32269 x802));
    (x804 <- (x803 <- (x798 <- (make_set_property_data_inquiry_body true 18036087 122189379 0 0 None 0 127) ;; ci_view true x798) ;; view_subtype x803) ;; Ok (Z.eqb 54 x804));
    (x806 <- (x805 <- (x798 <- (make_set_property_data_inquiry_body true 18036087 122189379 0 0 None 0 127) ;; ci_view true x798) ;; message_version x805) ;; Ok (Z.eqb 2 x806));
    (x808 <- (x807 <- (x798 <- (make_set_property_data_inquiry_body true 18036087 122189379 0 0 None 0 127) ;; ci_view true x798) ;; source_muid x807) ;; Ok (Z.eqb 18036087 x808));
    (x810 <- (x809 <- (x798 <- (make_set_property_data_inquiry_body true 18036087 122189379 0 0 None 0 127) ;; ci_view true x798) ;; destination_muid x809) ;; Ok (Z.eqb 122189379 x810));
    (x812 <- (x811 <- (x798 <- (make_set_property_data_inquiry_body true 18036087 122189379 0 0 None 0 127) ;; ci_view true x798) ;; request_id x811) ;; Ok (Z.eqb 0 x812));
    (x814 <- (x813 <- (x798 <- (make_set_property_data_inquiry_body true 18036087 122189379 0 0 None 0 127) ;; ci_view true x798) ;; header_size x813) ;; Ok (Z.eqb 0 x814));
    (x817 <- (x816 <- (x798 <- (make_set_property_data_inquiry_body true 18036087 122189379 0 0 None 0 127) ;; ci_view true x798) ;; number_of_chunks x816) ;; Ok (Z.eqb 0 x817));
    (x819 <- (x818 <- (x798 <- (make_set_property_data_inquiry_body true 18036087 122189379 0 0 None 0 127) ;; ci_view true x798) ;; number_of_this_chunk x818) ;; Ok (Z.eqb 0 x819));
    (x821 <- (x820 <- (x798 <- (make_set_property_data_inquiry_body true 18036087 122189379 0 0 None 0 127) ;; ci_view true x798) ;; chunk_size x820) ;; Ok (Z.eqb 0 x821))].
Proof. vm_compute. repeat constructor. Qed.

(* line 1208 *)
Example test_set_property_data_reply : all_true [
    (is_capability_inquiry_message (mkSx 0x7E0000 [10; 13; 55; 5; 120; 86; 52; 18; 119; 85; 51; 17; 5; 8; 0; 1; 2; 3; 4; 5; 6; 7; 8; 1; 0; 1; 0; 0; 0]));
    (set_property_data_validate (mkSx 0x7E0000 [10; 13; 55; 5; 120; 86; 52; 18; 119; 85; 51; 17; 5; 8; 0; 1; 2; 3; 4; 5; 6; 7; 8; 1; 0; 1; 0; 0; 0]));
    (x823 <- (as_view true set_property_data_validate (mkSx 0x7E0000 [10; 13; 55; 5; 120; 86; 52; 18; 119; 85; 51; 17; 5; 8; 0; 1; 2; 3; 4; 5; 6; 7; 8; 1; 0; 1; 0; 0; 0])) ;; Ok (opt_some x823));
    (x825 <- (x824 <- (ci_view true (mkSx 0x7E0000 [10; 13; 55; 5; 120; 86; 52; 18; 119; 85; 51; 17; 5; 8; 0; 1; 2; 3; 4; 5; 6; 7; 8; 1; 0; 1; 0; 0; 0])) ;; view_device_id x824) ;; Ok (Z.eqb 10 x825));
    (x827 <- (x826 <- (ci_view true (mkSx 0x7E0000 [10; 13; 55; 5; 120; 86; 52; 18; 119; 85; 51; 17; 5; 8; 0; 1; 2; 3; 4; 5; 6; 7; 8; 1; 0; 1; 0; 0; 0])) ;; view_type x826) ;; Ok (Z.eqb 32269 x827));
    (x829 <- (x828 <- (ci_view true (mkSx 0x7E0000 [10; 13; 55; 5; 120; 86; 52; 18; 119; 85; 51; 17; 5; 8; 0; 1; 2; 3; 4; 5; 6; 7; 8; 1; 0; 1; 0; 0; 0])) ;; view_subtype x828) ;; Ok (Z.eqb 55 x829));
    (x831 <- (x830 <- (ci_view true (mkSx 0x7E0000 [10; 13; 55; 5; 120; 86; 52; 18; 119; 85; 51; 17; 5; 8; 0; 1; 2; 3; 4; 5; 6; 7; 8; 1; 0; 1; 0; 0; 0])) ;; message_version x830) ;; Ok (Z.eqb 5 x831));
    (x833 <- (x832 <- (ci_view true (mkSx 0x7E0000 [10; 13; 55; 5; 120; 86; 52; 18; 119; 85; 51; 17; 5; 8; 0; 1; 2; 3; 4; 5; 6; 7; 8; 1; 0; 1; 0; 0; 0])) ;; source_muid x832) ;; Ok (Z.eqb 38611832 x833));
    (x835 <- (x834 <- (ci_view true (mkSx 0x7E0000 [10; 13; 55; 5; 120; 86; 52; 18; 119; 85; 51; 17; 5; 8; 0; 1; 2; 3; 4; 5; 6; 7; 8; 1; 0; 1; 0; 0; 0])) ;; destination_muid x834) ;; Ok (Z.eqb 36498167 x835));
    (x837 <- (x836 <- (ci_view true (mkSx 0x7E0000 [10; 13; 55; 5; 120; 86; 52; 18; 119; 85; 51; 17; 5; 8; 0; 1; 2; 3; 4; 5; 6; 7; 8; 1; 0; 1; 0; 0; 0])) ;; request_id x836) ;; Ok (Z.eqb 5 x837));
    (x839 <- (x838 <- (ci_view true (mkSx 0x7E0000 [10; 13; 55; 5; 120; 86; 52; 18; 119; 85; 51; 17; 5; 8; 0; 1; 2; 3; 4; 5; 6; 7; 8; 1; 0; 1; 0; 0; 0])) ;; header_size x838) ;; Ok (Z.eqb 8 x839));
    (x843 <- (x842 <- (ci_view true (mkSx 0x7E0000 [10; 13; 55; 5; 120; 86; 52; 18; 119; 85; 51; 17; 5; 8; 0; 1; 2; 3; 4; 5; 6; 7; 8; 1; 0; 1; 0; 0; 0])) ;; header_size x842) ;; x844 <- (x841 <- (ci_view true (mkSx 0x7E0000 [10; 13; 55; 5; 120; 86; 52; 18; 119; 85; 51; 17; 5; 8; 0; 1; 2; 3; 4; 5; 6; 7; 8; 1; 0; 1; 0; 0; 0])) ;; header_data x841) ;; Ok (prefix_eqb x843 x844 (skipz 15 (sx_data (mkSx 0x7E0000 [10; 13; 55; 5; 120; 86; 52; 18; 119; 85; 51; 17; 5; 8; 0; 1; 2; 3; 4; 5; 6; 7; 8; 1; 0; 1; 0; 0; 0])))));
    (x846 <- (x845 <- (ci_view true (mkSx 0x7E0000 [10; 13; 55; 5; 120; 86; 52; 18; 119; 85; 51; 17; 5; 8; 0; 1; 2; 3; 4; 5; 6; 7; 8; 1; 0; 1; 0; 0; 0])) ;; number_of_chunks x845) ;; Ok (Z.eqb 1 x846));
    (x848 <- (x847 <- (ci_view true (mkSx 0x7E0000 [10; 13; 55; 5; 120; 86; 52; 18; 119; 85; 51; 17; 5; 8; 0; 1; 2; 3; 4; 5; 6; 7; 8; 1; 0; 1; 0; 0; 0])) ;; number_of_this_chunk x847) ;; Ok (Z.eqb 1 x848));
    (x850 <- (x849 <- (ci_view true (mkSx 0x7E0000 [10; 13; 55; 5; 120; 86; 52; 18; 119; 85; 51; 17; 5; 8; 0; 1; 2; 3; 4; 5; 6; 7; 8; 1; 0; 1; 0; 0; 0])) ;; chunk_size x849) ;; Ok (Z.eqb 0 x850));
    (set_property_data_validate (mkSx 0x7E0000 [10; 13; 55; 5; 120; 86; 52; 18; 119; 85; 51; 17; 5; 8; 0; 1; 2; 3; 4; 5; 6; 7; 8; 1; 0; 1; 0; 0; 0; 119; 102]));
    (x852 <- (as_view true set_property_data_validate (mkSx 0x7E0000 [10; 13; 55; 5; 120; 86; 52; 18; 119; 85; 51; 17; 5; 8; 0; 1; 2; 3; 4; 5; 6; 7; 8; 1; 0; 1; 0; 0; 0; 119; 102])) ;; Ok (opt_some x852));
    (b_ <- (set_property_data_validate (mkSx 0x7E0000 [10; 13; 63; 0; 120; 86; 52; 18; 119; 85; 51; 17; 5; 8; 0; 1; 2; 3; 4; 5; 6; 7; 8; 1; 0; 1; 0; 0; 0])) ;; Ok (negb b_));
    (b_ <- (x853 <- (as_view true set_property_data_validate (mkSx 0x7E0000 [10; 13; 63; 0; 120; 86; 52; 18; 119; 85; 51; 17; 5; 8; 0; 1; 2; 3; 4; 5; 6; 7; 8; 1; 0; 1; 0; 0; 0])) ;; Ok (opt_some x853)) ;; Ok (negb b_));
    (x855 <- (x854 <- (make_set_property_data_reply true 19088743 53757270 200 5 10) ;; Ok (dsize x854)) ;; Ok (Z.eqb 35 x855));
    (x856 <- (make_set_property_data_reply true 19088743 53757270 200 5 10) ;; set_property_data_validate x856);
    (x858 <- (x857 <- (make_set_property_data_reply true 19088743 53757270 200 5 10) ;; as_view true set_property_data_validate x857) ;; Ok (opt_some x858));
    (x861 <- (x860 <- (x859 <- (make_set_property_data_reply true 19088743 53757270 200 5 10) ;; ci_view true x859) ;; view_device_id x860) ;; Ok (Z.eqb 10 x861));
    (x863 <- (x862 <- (x859 <- (make_set_property_data_reply true 19088743 53757270 200 5 10) ;; ci_view true x859) ;; view_type x862) ;; Ok (Z.eqb 32269 x863));
    (x865 <- (x864 <- (x859 <- (make_set_property_data_reply true 19088743 53757270 200 5 10) ;; ci_view true x859) ;; view_subtype x864) ;; Ok (Z.eqb 55 x865));
    (x867 <- (x866 <- (x859 <- (make_set_property_data_reply true 19088743 53757270 200 5 10) ;; ci_view true x859) ;; message_version x866) ;; Ok (Z.eqb 2 x867));
    (x869 <- (x868 <- (x859 <- (make_set_property_data_reply true 19088743 53757270 200 5 10) ;; ci_view true x859) ;; source_muid x868) ;; Ok (Z.eqb 19088743 x869));
    (x871 <- (x870 <- (x859 <- (make_set_property_data_reply true 19088743 53757270 200 5 10) ;; ci_view true x859) ;; destination_muid x870) ;; Ok (Z.eqb 53757270 x871));
    (x873 <- (x872 <- (x859 <- (make_set_property_data_reply true 19088743 53757270 200 5 10) ;; ci_view true x859) ;; request_id x872) ;; Ok (Z.eqb 5 x873));
    (x875 <- (x874 <- (x859 <- (make_set_property_data_reply true 19088743 53757270 200 5 10) ;; ci_view true x859) ;; header_size x874) ;; Ok (Z.eqb 14 x875));
    (x879 <- (x878 <- (x859 <- (make_set_property_data_reply true 19088743 53757270 200 5 10) ;; ci_view true x859) ;; header_size x878) ;; x880 <- (x877 <- (x859 <- (make_set_property_data_reply true 19088743 53757270 200 5 10) ;; ci_view true x859) ;; header_data x877) ;; Ok (prefix_eqb x879 x880 [123; 34; 115; 116; 97; 116; 117; 115; 34; 58; 50; 48; 48; 125]));
    (x882 <- (x881 <- (x859 <- (make_set_property_data_reply true 19088743 53757270 200 5 10) ;; ci_view true x859) ;; number_of_chunks x881) ;; Ok (Z.eqb 1 x882));
    (x884 <- (x883 <- (x859 <- (make_set_property_data_reply true 19088743 53757270 200 5 10) ;; ci_view true x859) ;; number_of_this_chunk x883) ;; Ok (Z.eqb 1 x884));
    (x886 <- (x885 <- (x859 <- (make_set_property_data_reply true 19088743 53757270 200 5 10) ;; ci_view true x859) ;; chunk_size x885) ;; Ok (Z.eqb 0 x886));
    (x889 <- (x888 <- (make_set_property_data_reply_message true 18044279 35931752 404 [73; 110; 118; 97; 108; 105; 100; 32; 82; 101; 113; 117; 101; 115; 116; 46] 0 127) ;; Ok (dsize x888)) ;; Ok (Z.eqb 64 x889));
    (x890 <- (make_set_property_data_reply_message true 18044279 35931752 404 [73; 110; 118; 97; 108; 105; 100; 32; 82; 101; 113; 117; 101; 115; 116; 46] 0 127) ;; set_property_data_validate x890);
    (x892 <- (x891 <- (make_set_property_data_reply_message true 18044279 35931752 404 [73; 110; 118; 97; 108; 105; 100; 32; 82; 101; 113; 117; 101; 115; 116; 46] 0 127) ;; as_view true set_property_data_validate x891) ;; Ok (opt_some x892));
    (x895 <- (x894 <- (x893 <- (make_set_property_data_reply_message true 18044279 35931752 404 [73; 110; 118; 97; 108; 105; 100; 32; 82; 101; 113; 117; 101; 115; 116; 46] 0 127) ;; ci_view true x893) ;; view_device_id x894) ;; Ok (Z.eqb 127 x895));
    (x897 <- (x896 <- (x893 <- (make_set_property_data_reply_message true 18044279 35931752 404 [73; 110; 118; 97; 108; 105; 100; 32; 82; 101; 113; 117; 101; 115; 116; 46] 0 127) ;; ci_view true x893) ;; view_type x896) ;; Ok (Z.eqb 32269 x897));
    (x899 <- (x898 <- (x893 <- (make_set_property_data_reply_message true 18044279 35931752 404 [73; 110; 118; 97; 108; 105; 100; 32; 82; 101; 113; 117; 101; 115; 116; 46] 0 127) ;; ci_view true x893) ;; view_subtype x898) ;; Ok (Z.eqb 55 x899));
    (x901 <- (x900 <- (x893 <- (make_set_property_data_reply_message true 18044279 35931752 404 [73; 110; 118; 97; 108; 105; 100; 32; 82; 101; 113; 117; 101; 115; 116; 46] 0 127) ;; ci_view true x893) ;; message_version x900) ;; Ok (Z.eqb 2 x901));
    (x903 <- (x902 <- (x893 <- (make_set_property_data_reply_message true 18044279 35931752 404 [73; 110; 118; 97; 108; 105; 100; 32; 82; 101; 113; 117; 101; 115; 116; 46] 0 127) ;; ci_view true x893) ;; source_muid x902) ;; Ok (Z.eqb 18044279 x903));
    (x905 <- (x904 <- (x893 <- (make_set_property_data_reply_message true 18044279 35931752 404 [73; 110; 118; 97; 108; 105; 100; 32; 82; 101; 113; 117; 101; 115; 116; 46] 0 127) ;; ci_view true x893) ;; destination_muid x904) ;; Ok (Z.eqb 35931752 x905));
    (x907 <- (x906 <- (x893 <- (make_set_property_data_reply_message true 18044279 35931752 404 [73; 110; 118; 97; 108; 105; 100; 32; 82; 101; 113; 117; 101; 115; 116; 46] 0 127) ;; ci_view true x893) ;; request_id x906) ;; Ok (Z.eqb 0 x907));
    (x909 <- (x908 <- (x893 <- (make_set_property_data_reply_message true 18044279 35931752 404 [73; 110; 118; 97; 108; 105; 100; 32; 82; 101; 113; 117; 101; 115; 116; 46] 0 127) ;; ci_view true x893) ;; header_size x908) ;; Ok (Z.eqb 43 x909));
    (x913 <- (x912 <- (x893 <- (make_set_property_data_reply_message true 18044279 35931752 404 [73; 110; 118; 97; 108; 105; 100; 32; 82; 101; 113; 117; 101; 115; 116; 46] 0 127) ;; ci_view true x893) ;; header_size x912) ;; x914 <- (x911 <- (x893 <- (make_set_property_data_reply_message true 18044279 35931752 404 [73; 110; 118; 97; 108; 105; 100; 32; 82; 101; 113; 117; 101; 115; 116; 46] 0 127) ;; ci_view true x893) ;; header_data x911) ;; Ok (prefix_eqb x913 x914 [123; 34; 115; 116; 97; 116; 117; 115; 34; 58; 52; 48; 52; 44; 34; 109; 101; 115; 115; 97; 103; 101; 34; 58; 34; 73; 110; 118; 97; 108; 105; 100; 32; 82; 101; 113; 117; 101; 115; 116; 46; 34; 125]));
    (x916 <- (x915 <- (x893 <- (make_set_property_data_reply_message true 18044279 35931752 404 [73; 110; 118; 97; 108; 105; 100; 32; 82; 101; 113; 117; 101; 115; 116; 46] 0 127) ;; ci_view true x893) ;; number_of_chunks x915) ;; Ok (Z.eqb 1 x916));
    (x918 <- (x917 <- (x893 <- (make_set_property_data_reply_message true 18044279 35931752 404 [73; 110; 118; 97; 108; 105; 100; 32; 82; 101; 113; 117; 101; 115; 116; 46] 0 127) ;; ci_view true x893) ;; number_of_this_chunk x917) ;; Ok (Z.eqb 1 x918));
    (x920 <- (x919 <- (x893 <- (make_set_property_data_reply_message true 18044279 35931752 404 [73; 110; 118; 97; 108; 105; 100; 32; 82; 101; 113; 117; 101; 115; 116; 46] 0 127) ;; ci_view true x893) ;; chunk_size x919) ;; Ok (Z.eqb 0 x920))].
Proof. vm_compute. repeat constructor. Qed.

(* line 1345 *)
Example test_subscription : all_true [
    (subscription_validate (mkSx 0x7E0000 [4; 13; 56; 5; 120; 86; 52; 18; 119; 85; 51; 17; 20; 8; 0; 1; 2; 3; 4; 5; 6; 7; 8; 0; 0; 0; 0; 0; 0]));
    (x922 <- (as_view true subscription_validate (mkSx 0x7E0000 [4; 13; 56; 5; 120; 86; 52; 18; 119; 85; 51; 17; 20; 8; 0; 1; 2; 3; 4; 5; 6; 7; 8; 0; 0; 0; 0; 0; 0])) ;; Ok (opt_some x922));
    (x924 <- (x923 <- (ci_view true (mkSx 0x7E0000 [4; 13; 56; 5; 120; 86; 52; 18; 119; 85; 51; 17; 20; 8; 0; 1; 2; 3; 4; 5; 6; 7; 8; 0; 0; 0; 0; 0; 0])) ;; view_device_id x923) ;; Ok (Z.eqb 4 x924));
    (x926 <- (x925 <- (ci_view true (mkSx 0x7E0000 [4; 13; 56; 5; 120; 86; 52; 18; 119; 85; 51; 17; 20; 8; 0; 1; 2; 3; 4; 5; 6; 7; 8; 0; 0; 0; 0; 0; 0])) ;; view_type x925) ;; Ok (Z.eqb 32269 x926));
    (x928 <- (x927 <- (ci_view true (mkSx 0x7E0000 [4; 13; 56; 5; 120; 86; 52; 18; 119; 85; 51; 17; 20; 8; 0; 1; 2; 3; 4; 5; 6; 7; 8; 0; 0; 0; 0; 0; 0])) ;; view_subtype x927) ;; Ok (Z.eqb 56 x928));
    (x930 <- (x929 <- (ci_view true (mkSx 0x7E0000 [4; 13; 56; 5; 120; 86; 52; 18; 119; 85; 51; 17; 20; 8; 0; 1; 2; 3; 4; 5; 6; 7; 8; 0; 0; 0; 0; 0; 0])) ;; message_version x929) ;; Ok (Z.eqb 5 x930));
    (x932 <- (x931 <- (ci_view true (mkSx 0x7E0000 [4; 13; 56; 5; 120; 86; 52; 18; 119; 85; 51; 17; 20; 8; 0; 1; 2; 3; 4; 5; 6; 7; 8; 0; 0; 0; 0; 0; 0])) ;; source_muid x931) ;; Ok (Z.eqb 38611832 x932));
    (x934 <- (x933 <- (ci_view true (mkSx 0x7E0000 [4; 13; 56; 5; 120; 86; 52; 18; 119; 85; 51; 17; 20; 8; 0; 1; 2; 3; 4; 5; 6; 7; 8; 0; 0; 0; 0; 0; 0])) ;; destination_muid x933) ;; Ok (Z.eqb 36498167 x934));
    (x936 <- (x935 <- (ci_view true (mkSx 0x7E0000 [4; 13; 56; 5; 120; 86; 52; 18; 119; 85; 51; 17; 20; 8; 0; 1; 2; 3; 4; 5; 6; 7; 8; 0; 0; 0; 0; 0; 0])) ;; request_id x935) ;; Ok (Z.eqb 20 x936));
    (x938 <- (x937 <- (ci_view true (mkSx 0x7E0000 [4; 13; 56; 5; 120; 86; 52; 18; 119; 85; 51; 17; 20; 8; 0; 1; 2; 3; 4; 5; 6; 7; 8; 0; 0; 0; 0; 0; 0])) ;; header_size x937) ;; Ok (Z.eqb 8 x938));
    (x942 <- (x941 <- (ci_view true (mkSx 0x7E0000 [4; 13; 56; 5; 120; 86; 52; 18; 119; 85; 51; 17; 20; 8; 0; 1; 2; 3; 4; 5; 6; 7; 8; 0; 0; 0; 0; 0; 0])) ;; header_size x941) ;; x943 <- (x940 <- (ci_view true (mkSx 0x7E0000 [4; 13; 56; 5; 120; 86; 52; 18; 119; 85; 51; 17; 20; 8; 0; 1; 2; 3; 4; 5; 6; 7; 8; 0; 0; 0; 0; 0; 0])) ;; header_data x940) ;; Ok (prefix_eqb x942 x943 (skipz 15 (sx_data (mkSx 0x7E0000 [4; 13; 56; 5; 120; 86; 52; 18; 119; 85; 51; 17; 20; 8; 0; 1; 2; 3; 4; 5; 6; 7; 8; 0; 0; 0; 0; 0; 0])))));
    (x945 <- (x944 <- (ci_view true (mkSx 0x7E0000 [4; 13; 56; 5; 120; 86; 52; 18; 119; 85; 51; 17; 20; 8; 0; 1; 2; 3; 4; 5; 6; 7; 8; 0; 0; 0; 0; 0; 0])) ;; number_of_chunks x944) ;; Ok (Z.eqb 0 x945));
    (x947 <- (x946 <- (ci_view true (mkSx 0x7E0000 [4; 13; 56; 5; 120; 86; 52; 18; 119; 85; 51; 17; 20; 8; 0; 1; 2; 3; 4; 5; 6; 7; 8; 0; 0; 0; 0; 0; 0])) ;; number_of_this_chunk x946) ;; Ok (Z.eqb 0 x947));
    (subscription_validate (mkSx 0x7E0000 [4; 13; 56; 5; 120; 86; 52; 18; 119; 85; 51; 17; 20; 8; 0; 1; 2; 3; 4; 5; 6; 7; 8; 0; 0; 0; 0; 0; 0; 0]));
    (x948 <- (as_view true subscription_validate (mkSx 0x7E0000 [4; 13; 56; 5; 120; 86; 52; 18; 119; 85; 51; 17; 20; 8; 0; 1; 2; 3; 4; 5; 6; 7; 8; 0; 0; 0; 0; 0; 0; 0])) ;; Ok (opt_some x948));
    (b_ <- (subscription_validate (mkSx 0x7E0000 [10; 13; 57; 0; 120; 86; 52; 18; 119; 85; 51; 17; 3; 0; 8; 0; 1; 2; 3; 4; 5; 6; 7; 8; 1; 0; 1; 0; 0; 0])) ;; Ok (negb b_));
    (b_ <- (x949 <- (as_view true subscription_validate (mkSx 0x7E0000 [10; 13; 57; 0; 120; 86; 52; 18; 119; 85; 51; 17; 3; 0; 8; 0; 1; 2; 3; 4; 5; 6; 7; 8; 1; 0; 1; 0; 0; 0])) ;; Ok (opt_some x949)) ;; Ok (negb b_));
    (x951 <- (x950 <- (make_subscription_inquiry true 19088743 70459921 [67; 104; 97; 110; 110; 101; 108; 76; 105; 115; 116] [115; 116; 97; 114; 116] [97; 97; 98; 98; 99; 99; 51; 52] 17 10) ;; Ok (dsize x950)) ;; Ok (Z.eqb 90 x951));
    (x952 <- (make_subscription_inquiry true 19088743 70459921 [67; 104; 97; 110; 110; 101; 108; 76; 105; 115; 116] [115; 116; 97; 114; 116] [97; 97; 98; 98; 99; 99; 51; 52] 17 10) ;; subscription_validate x952);
    (x954 <- (x953 <- (make_subscription_inquiry true 19088743 70459921 [67; 104; 97; 110; 110; 101; 108; 76; 105; 115; 116] [115; 116; 97; 114; 116] [97; 97; 98; 98; 99; 99; 51; 52] 17 10) ;; as_view true subscription_validate x953) ;; Ok (opt_some x954));
    (x957 <- (x956 <- (x955 <- (make_subscription_inquiry true 19088743 70459921 [67; 104; 97; 110; 110; 101; 108; 76; 105; 115; 116] [115; 116; 97; 114; 116] [97; 97; 98; 98; 99; 99; 51; 52] 17 10) ;; ci_view true x955) ;; view_device_id x956) ;; Ok (Z.eqb 10 x957));
    (x959 <- (x958 <- (x955 <- (make_subscription_inquiry true 19088743 70459921 [67; 104; 97; 110; 110; 101; 108; 76; 105; 115; 116] [115; 116; 97; 114; 116] [97; 97; 98; 98; 99; 99; 51; 52] 17 10) ;; ci_view true x955) ;; view_type x958) ;; Ok (Z.eqb 32269 x959));
    (x961 <- (x960 <- (x955 <- (make_subscription_inquiry true 19088743 70459921 [67; 104; 97; 110; 110; 101; 108; 76; 105; 115; 116] [115; 116; 97; 114; 116] [97; 97; 98; 98; 99; 99; 51; 52] 17 10) ;; ci_view true x955) ;; view_subtype x960) ;; Ok (Z.eqb 56 x961));
    (x963 <- (x962 <- (x955 <- (make_subscription_inquiry true 19088743 70459921 [67; 104; 97; 110; 110; 101; 108; 76; 105; 115; 116] [115; 116; 97; 114; 116] [97; 97; 98; 98; 99; 99; 51; 52] 17 10) ;; ci_view true x955) ;; message_version x962) ;; Ok (Z.eqb 2 x963));
    (x965 <- (x964 <- (x955 <- (make_subscription_inquiry true 19088743 70459921 [67; 104; 97; 110; 110; 101; 108; 76; 105; 115; 116] [115; 116; 97; 114; 116] [97; 97; 98; 98; 99; 99; 51; 52] 17 10) ;; ci_view true x955) ;; source_muid x964) ;; Ok (Z.eqb 19088743 x965));
    (x967 <- (x966 <- (x955 <- (make_subscription_inquiry true 19088743 70459921 [67; 104; 97; 110; 110; 101; 108; 76; 105; 115; 116] [115; 116; 97; 114; 116] [97; 97; 98; 98; 99; 99; 51; 52] 17 10) ;; ci_view true x955) ;; destination_muid x966) ;; Ok (Z.eqb 70459921 x967));
    (x969 <- (x968 <- (x955 <- (make_subscription_inquiry true 19088743 70459921 [67; 104; 97; 110; 110; 101; 108; 76; 105; 115; 116] [115; 116; 97; 114; 116] [97; 97; 98; 98; 99; 99; 51; 52] 17 10) ;; ci_view true x955) ;; request_id x968) ;; Ok (Z.eqb 17 x969));
    (x971 <- (x970 <- (x955 <- (make_subscription_inquiry true 19088743 70459921 [67; 104; 97; 110; 110; 101; 108; 76; 105; 115; 116] [115; 116; 97; 114; 116] [97; 97; 98; 98; 99; 99; 51; 52] 17 10) ;; ci_view true x955) ;; header_size x970) ;; Ok (Z.eqb 69 x971));
    (x976 <- (x975 <- (x955 <- (make_subscription_inquiry true 19088743 70459921 [67; 104; 97; 110; 110; 101; 108; 76; 105; 115; 116] [115; 116; 97; 114; 116] [97; 97; 98; 98; 99; 99; 51; 52] 17 10) ;; ci_view true x955) ;; header_size x975) ;; x977 <- (x974 <- (x955 <- (make_subscription_inquiry true 19088743 70459921 [67; 104; 97; 110; 110; 101; 108; 76; 105; 115; 116] [115; 116; 97; 114; 116] [97; 97; 98; 98; 99; 99; 51; 52] 17 10) ;; ci_view true x955) ;; header_data x974) ;; Ok (prefix_eqb x976 x977 [123; 34; 114; 101; 115; 111; 117; 114; 99; 101; 34; 58; 34; 67; 104; 97; 110; 110; 101; 108; 76; 105; 115; 116; 34; 44; 34; 99; 111; 109; 109; 97; 110; 100; 34; 58; 34; 115; 116; 97; 114; 116; 34; 44; 34; 115; 117; 98; 115; 99; 114; 105; 98; 101; 73; 100; 34; 58; 34; 97; 97; 98; 98; 99; 99; 51; 52; 34; 125]));
    (x979 <- (x978 <- (x955 <- (make_subscription_inquiry true 19088743 70459921 [67; 104; 97; 110; 110; 101; 108; 76; 105; 115; 116] [115; 116; 97; 114; 116] [97; 97; 98; 98; 99; 99; 51; 52] 17 10) ;; ci_view true x955) ;; number_of_chunks x978) ;; Ok (Z.eqb 0 x979));
    (x981 <- (x980 <- (x955 <- (make_subscription_inquiry true 19088743 70459921 [67; 104; 97; 110; 110; 101; 108; 76; 105; 115; 116] [115; 116; 97; 114; 116] [97; 97; 98; 98; 99; 99; 51; 52] 17 10) ;; ci_view true x955) ;; number_of_this_chunk x980) ;; Ok (Z.eqb 0 x981));
    (x983 <- (x982 <- (make_subscription_inquiry_chunk true 18044279 16962 [80; 114; 111; 103; 114; 97; 109; 76; 105; 115; 116] [102; 117; 108; 108] [57; 56; 55; 120; 120] 5 1 (Some [116; 104; 105; 115; 32; 105; 115; 32; 110; 111; 116; 32; 118; 97; 108; 105; 100; 32; 74; 83; 79; 78; 32; 100; 97; 116; 97]) 0 127) ;; Ok (dsize x982)) ;; Ok (Z.eqb 113 x983));
    (x984 <- (make_subscription_inquiry_chunk true 18044279 16962 [80; 114; 111; 103; 114; 97; 109; 76; 105; 115; 116] [102; 117; 108; 108] [57; 56; 55; 120; 120] 5 1 (Some [116; 104; 105; 115; 32; 105; 115; 32; 110; 111; 116; 32; 118; 97; 108; 105; 100; 32; 74; 83; 79; 78; 32; 100; 97; 116; 97]) 0 127) ;; subscription_validate x984);
    (x986 <- (x985 <- (make_subscription_inquiry_chunk true 18044279 16962 [80; 114; 111; 103; 114; 97; 109; 76; 105; 115; 116] [102; 117; 108; 108] [57; 56; 55; 120; 120] 5 1 (Some [116; 104; 105; 115; 32; 105; 115; 32; 110; 111; 116; 32; 118; 97; 108; 105; 100; 32; 74; 83; 79; 78; 32; 100; 97; 116; 97]) 0 127) ;; as_view true subscription_validate x985) ;; Ok (opt_some x986));
    (x989 <- (x988 <- (x987 <- (make_subscription_inquiry_chunk true 18044279 16962 [80; 114; 111; 103; 114; 97; 109; 76; 105; 115; 116] [102; 117; 108; 108] [57; 56; 55; 120; 120] 5 1 (Some [116; 104; 105; 115; 32; 105; 115; 32; 110; 111; 116; 32; 118; 97; 108; 105; 100; 32; 74; 83; 79; 78; 32; 100; 97; 116; 97]) 0 127) ;; ci_view true x987) ;; view_device_id x988) ;; Ok (Z.eqb 127 x989));
    (x991 <- (x990 <- (x987 <- (make_subscription_inquiry_chunk true 18044279 16962 [80; 114; 111; 103; 114; 97; 109; 76; 105; 115; 116] [102; 117; 108; 108] [57; 56; 55; 120; 120] 5 1 (Some [116; 104; 105; 115; 32; 105; 115; 32; 110; 111; 116; 32; 118; 97; 108; 105; 100; 32; 74; 83; 79; 78; 32; 100; 97; 116; 97]) 0 127) ;; ci_view true x987) ;; view_type x990) ;; Ok (Z.eqb 32269 x991));
    (x993 <- (x992 <- (x987 <- (make_subscription_inquiry_chunk true 18044279 16962 [80; 114; 111; 103; 114; 97; 109; 76; 105; 115; 116] [102; 117; 108; 108] [57; 56; 55; 120; 120] 5 1 (Some [116; 104; 105; 115; 32; 105; 115; 32; 110; 111; 116; 32; 118; 97; 108; 105; 100; 32; 74; 83; 79; 78; 32; 100; 97; 116; 97]) 0 127) ;; ci_view true x987) ;; view_subtype x992) ;; Ok (Z.eqb 56 x993));
    (x995 <- (x994 <- (x987 <- (make_subscription_inquiry_chunk true 18044279 16962 [80; 114; 111; 103; 114; 97; 109; 76; 105; 115; 116] [102; 117; 108; 108] [57; 56; 55; 120; 120] 5 1 (Some [116; 104; 105; 115; 32; 105; 115; 32; 110; 111; 116; 32; 118; 97; 108; 105; 100; 32; 74; 83; 79; 78; 32; 100; 97; 116; 97]) 0 127) ;; ci_view true x987) ;; message_version x994) ;; Ok (Z.eqb 2 x995));
    (x997 <- (x996 <- (x987 <- (make_subscription_inquiry_chunk true 18044279 16962 [80; 114; 111; 103; 114; 97; 109; 76; 105; 115; 116] [102; 117; 108; 108] [57; 56; 55; 120; 120] 5 1 (Some [116; 104; 105; 115; 32; 105; 115; 32; 110; 111; 116; 32; 118; 97; 108; 105; 100; 32; 74; 83; 79; 78; 32; 100; 97; 116; 97]) 0 127) ;; ci_view true x987) ;; source_muid x996) ;; Ok (Z.eqb 18044279 x997));
    (x999 <- (x998 <- (x987 <- (make_subscription_inquiry_chunk true 18044279 16962 [80; 114; 111; 103; 114; 97; 109; 76; 105; 115; 116] [102; 117; 108; 108] [57; 56; 55; 120; 120] 5 1 (Some [116; 104; 105; 115; 32; 105; 115; 32; 110; 111; 116; 32; 118; 97; 108; 105; 100; 32; 74; 83; 79; 78; 32; 100; 97; 116; 97]) 0 127) ;; ci_view true x987) ;; destination_muid x998) ;; Ok (Z.eqb 16962 x999));
    (x1001 <- (x1000 <- (x987 <- (make_subscription_inquiry_chunk true 18044279 16962 [80; 114; 111; 103; 114; 97; 109; 76; 105; 115; 116] [102; 117; 108; 108] [57; 56; 55; 120; 120] 5 1 (Some [116; 104; 105; 115; 32; 105; 115; 32; 110; 111; 116; 32; 118; 97; 108; 105; 100; 32; 74; 83; 79; 78; 32; 100; 97; 116; 97]) 0 127) ;; ci_view true x987) ;; request_id x1000) ;; Ok (Z.eqb 0 x1001));
    (x1003 <- (x1002 <- (x987 <- (make_subscription_inquiry_chunk true 18044279 16962 [80; 114; 111; 103; 114; 97; 109; 76; 105; 115; 116] [102; 117; 108; 108] [57; 56; 55; 120; 120] 5 1 (Some [116; 104; 105; 115; 32; 105; 115; 32; 110; 111; 116; 32; 118; 97; 108; 105; 100; 32; 74; 83; 79; 78; 32; 100; 97; 116; 97]) 0 127) ;; ci_view true x987) ;; header_size x1002) ;; Ok (Z.eqb 65 x1003));
    (x1008 <- (x1007 <- (x987 <- (make_subscription_inquiry_chunk true 18044279 16962 [80; 114; 111; 103; 114; 97; 109; 76; 105; 115; 116] [102; 117; 108; 108] [57; 56; 55; 120; 120] 5 1 (Some [116; 104; 105; 115; 32; 105; 115; 32; 110; 111; 116; 32; 118; 97; 108; 105; 100; 32; 74; 83; 79; 78; 32; 100; 97; 116; 97]) 0 127) ;; ci_view true x987) ;; header_size x1007) ;; x1009 <- (x1006 <- (x987 <- (make_subscription_inquiry_chunk true 18044279 16962 [80; 114; 111; 103; 114; 97; 109; 76; 105; 115; 116] [102; 117; 108; 108] [57; 56; 55; 120; 120] 5 1 (Some [116; 104; 105; 115; 32; 105; 115; 32; 110; 111; 116; 32; 118; 97; 108; 105; 100; 32; 74; 83; 79; 78; 32; 100; 97; 116; 97]) 0 127) ;; ci_view true x987) ;; header_data x1006) ;; Ok (prefix_eqb x1008 x1009 [123; 34; 114; 101; 115; 111; 117; 114; 99; 101; 34; 58; 34; 80; 114; 111; 103; 114; 97; 109; 76; 105; 115; 116; 34; 44; 34; 99; 111; 109; 109; 97; 110; 100; 34; 58; 34; 102; 117; 108; 108; 34; 44; 34; 115; 117; 98; 115; 99; 114; 105; 98; 101; 73; 100; 34; 58; 34; 57; 56; 55; 120; 120; 34; 125]));
    (x1011 <- (x1010 <- (x987 <- (make_subscription_inquiry_chunk true 18044279 16962 [80; 114; 111; 103; 114; 97; 109; 76; 105; 115; 116] [102; 117; 108; 108] [57; 56; 55; 120; 120] 5 1 (Some [116; 104; 105; 115; 32; 105; 115; 32; 110; 111; 116; 32; 118; 97; 108; 105; 100; 32; 74; 83; 79; 78; 32; 100; 97; 116; 97]) 0 127) ;; ci_view true x987) ;; number_of_chunks x1010) ;; Ok (Z.eqb 5 x1011));
    (x1013 <- (x1012 <- (x987 <- (make_subscription_inquiry_chunk true 18044279 16962 [80; 114; 111; 103; 114; 97; 109; 76; 105; 115; 116] [102; 117; 108; 108] [57; 56; 55; 120; 120] 5 1 (Some [116; 104; 105; 115; 32; 105; 115; 32; 110; 111; 116; 32; 118; 97; 108; 105; 100; 32; 74; 83; 79; 78; 32; 100; 97; 116; 97]) 0 127) ;; ci_view true x987) ;; number_of_this_chunk x1012) ;; Ok (Z.eqb 1 x1013))].
Proof. vm_compute. repeat constructor. Qed.

(* line 1487 *)
Example test_subscription_reply : all_true [
    (subscription_validate (mkSx 0x7E0000 [10; 13; 57; 5; 120; 86; 52; 18; 119; 85; 51; 17; 121; 8; 0; 1; 2; 3; 4; 5; 6; 7; 8; 1; 0; 1; 0; 0; 0]));
    (x1014 <- (as_view true subscription_validate (mkSx 0x7E0000 [10; 13; 57; 5; 120; 86; 52; 18; 119; 85; 51; 17; 121; 8; 0; 1; 2; 3; 4; 5; 6; 7; 8; 1; 0; 1; 0; 0; 0])) ;; Ok (opt_some x1014));
    (x1016 <- (x1015 <- (ci_view true (mkSx 0x7E0000 [10; 13; 57; 5; 120; 86; 52; 18; 119; 85; 51; 17; 121; 8; 0; 1; 2; 3; 4; 5; 6; 7; 8; 1; 0; 1; 0; 0; 0])) ;; view_device_id x1015) ;; Ok (Z.eqb 10 x1016));
    (x1018 <- (x1017 <- (ci_view true (mkSx 0x7E0000 [10; 13; 57; 5; 120; 86; 52; 18; 119; 85; 51; 17; 121; 8; 0; 1; 2; 3; 4; 5; 6; 7; 8; 1; 0; 1; 0; 0; 0])) ;; view_type x1017) ;; Ok (Z.eqb 32269 x1018));
    (x1020 <- (x1019 <- (ci_view true (mkSx 0x7E0000 [10; 13; 57; 5; 120; 86; 52; 18; 119; 85; 51; 17; 121; 8; 0; 1; 2; 3; 4; 5; 6; 7; 8; 1; 0; 1; 0; 0; 0])) ;; view_subtype x1019) ;; Ok (Z.eqb 57 x1020));
    (x1022 <- (x1021 <- (ci_view true (mkSx 0x7E0000 [10; 13; 57; 5; 120; 86; 52; 18; 119; 85; 51; 17; 121; 8; 0; 1; 2; 3; 4; 5; 6; 7; 8; 1; 0; 1; 0; 0; 0])) ;; message_version x1021) ;; Ok (Z.eqb 5 x1022));
    (x1024 <- (x1023 <- (ci_view true (mkSx 0x7E0000 [10; 13; 57; 5; 120; 86; 52; 18; 119; 85; 51; 17; 121; 8; 0; 1; 2; 3; 4; 5; 6; 7; 8; 1; 0; 1; 0; 0; 0])) ;; source_muid x1023) ;; Ok (Z.eqb 38611832 x1024));
    (x1026 <- (x1025 <- (ci_view true (mkSx 0x7E0000 [10; 13; 57; 5; 120; 86; 52; 18; 119; 85; 51; 17; 121; 8; 0; 1; 2; 3; 4; 5; 6; 7; 8; 1; 0; 1; 0; 0; 0])) ;; destination_muid x1025) ;; Ok (Z.eqb 36498167 x1026));
    (x1028 <- (x1027 <- (ci_view true (mkSx 0x7E0000 [10; 13; 57; 5; 120; 86; 52; 18; 119; 85; 51; 17; 121; 8; 0; 1; 2; 3; 4; 5; 6; 7; 8; 1; 0; 1; 0; 0; 0])) ;; request_id x1027) ;; Ok (Z.eqb 121 x1028));
    (x1030 <- (x1029 <- (ci_view true (mkSx 0x7E0000 [10; 13; 57; 5; 120; 86; 52; 18; 119; 85; 51; 17; 121; 8; 0; 1; 2; 3; 4; 5; 6; 7; 8; 1; 0; 1; 0; 0; 0])) ;; header_size x1029) ;; Ok (Z.eqb 8 x1030));
    (x1034 <- (x1033 <- (ci_view true (mkSx 0x7E0000 [10; 13; 57; 5; 120; 86; 52; 18; 119; 85; 51; 17; 121; 8; 0; 1; 2; 3; 4; 5; 6; 7; 8; 1; 0; 1; 0; 0; 0])) ;; header_size x1033) ;; x1035 <- (x1032 <- (ci_view true (mkSx 0x7E0000 [10; 13; 57; 5; 120; 86; 52; 18; 119; 85; 51; 17; 121; 8; 0; 1; 2; 3; 4; 5; 6; 7; 8; 1; 0; 1; 0; 0; 0])) ;; header_data x1032) ;; Ok (prefix_eqb x1034 x1035 (skipz 15 (sx_data (mkSx 0x7E0000 [10; 13; 57; 5; 120; 86; 52; 18; 119; 85; 51; 17; 121; 8; 0; 1; 2; 3; 4; 5; 6; 7; 8; 1; 0; 1; 0; 0; 0])))));
    (x1037 <- (x1036 <- (ci_view true (mkSx 0x7E0000 [10; 13; 57; 5; 120; 86; 52; 18; 119; 85; 51; 17; 121; 8; 0; 1; 2; 3; 4; 5; 6; 7; 8; 1; 0; 1; 0; 0; 0])) ;; number_of_chunks x1036) ;; Ok (Z.eqb 1 x1037));
    (x1039 <- (x1038 <- (ci_view true (mkSx 0x7E0000 [10; 13; 57; 5; 120; 86; 52; 18; 119; 85; 51; 17; 121; 8; 0; 1; 2; 3; 4; 5; 6; 7; 8; 1; 0; 1; 0; 0; 0])) ;; number_of_this_chunk x1038) ;; Ok (Z.eqb 1 x1039));
    (x1041 <- (x1040 <- (ci_view true (mkSx 0x7E0000 [10; 13; 57; 5; 120; 86; 52; 18; 119; 85; 51; 17; 121; 8; 0; 1; 2; 3; 4; 5; 6; 7; 8; 1; 0; 1; 0; 0; 0])) ;; chunk_size x1040) ;; Ok (Z.eqb 0 x1041));
    (subscription_validate (mkSx 0x7E0000 [10; 13; 57; 5; 120; 86; 52; 18; 119; 85; 51; 17; 121; 8; 0; 1; 2; 3; 4; 5; 6; 7; 8; 1; 0; 1; 0; 0; 0; 1; 2; 3; 4; 5; 6; 7; 8]));
    (x1042 <- (as_view true subscription_validate (mkSx 0x7E0000 [10; 13; 57; 5; 120; 86; 52; 18; 119; 85; 51; 17; 121; 8; 0; 1; 2; 3; 4; 5; 6; 7; 8; 1; 0; 1; 0; 0; 0; 1; 2; 3; 4; 5; 6; 7; 8])) ;; Ok (opt_some x1042));
    (b_ <- (subscription_validate (mkSx 0x7E0000 [5; 13; 54; 0; 120; 86; 52; 18; 119; 85; 51; 17; 121; 8; 0; 1; 2; 3; 4; 5; 6; 7; 8; 1; 0; 1; 0; 0; 0])) ;; Ok (negb b_));
    (b_ <- (x1043 <- (as_view true subscription_validate (mkSx 0x7E0000 [5; 13; 54; 0; 120; 86; 52; 18; 119; 85; 51; 17; 121; 8; 0; 1; 2; 3; 4; 5; 6; 7; 8; 1; 0; 1; 0; 0; 0])) ;; Ok (opt_some x1043)) ;; Ok (negb b_));
    (x1045 <- (x1044 <- (make_subscription_reply true 19088743 19088744 200 12 7) ;; Ok (dsize x1044)) ;; Ok (Z.eqb 35 x1045));
    (x1046 <- (make_subscription_reply true 19088743 19088744 200 12 7) ;; subscription_validate x1046);
    (x1048 <- (x1047 <- (make_subscription_reply true 19088743 19088744 200 12 7) ;; as_view true subscription_validate x1047) ;; Ok (opt_some x1048));
    (x1051 <- (x1050 <- (x1049 <- (make_subscription_reply true 19088743 19088744 200 12 7) ;; ci_view true x1049) ;; view_device_id x1050) ;; Ok (Z.eqb 7 x1051));
    (x1053 <- (x1052 <- (x1049 <- (make_subscription_reply true 19088743 19088744 200 12 7) ;; ci_view true x1049) ;; view_type x1052) ;; Ok (Z.eqb 32269 x1053));
    (x1055 <- (x1054 <- (x1049 <- (make_subscription_reply true 19088743 19088744 200 12 7) ;; ci_view true x1049) ;; view_subtype x1054) ;; Ok (Z.eqb 57 x1055));
    (x1057 <- (x1056 <- (x1049 <- (make_subscription_reply true 19088743 19088744 200 12 7) ;; ci_view true x1049) ;; message_version x1056) ;; Ok (Z.eqb 2 x1057));
    (x1059 <- (x1058 <- (x1049 <- (make_subscription_reply true 19088743 19088744 200 12 7) ;; ci_view true x1049) ;; source_muid x1058) ;; Ok (Z.eqb 19088743 x1059));
    (x1061 <- (x1060 <- (x1049 <- (make_subscription_reply true 19088743 19088744 200 12 7) ;; ci_view true x1049) ;; destination_muid x1060) ;; Ok (Z.eqb 19088744 x1061));
    (x1063 <- (x1062 <- (x1049 <- (make_subscription_reply true 19088743 19088744 200 12 7) ;; ci_view true x1049) ;; request_id x1062) ;; Ok (Z.eqb 12 x1063));
    (x1065 <- (x1064 <- (x1049 <- (make_subscription_reply true 19088743 19088744 200 12 7) ;; ci_view true x1049) ;; header_size x1064) ;; Ok (Z.eqb 14 x1065));
    (x1069 <- (x1068 <- (x1049 <- (make_subscription_reply true 19088743 19088744 200 12 7) ;; ci_view true x1049) ;; header_size x1068) ;; x1070 <- (x1067 <- (x1049 <- (make_subscription_reply true 19088743 19088744 200 12 7) ;; ci_view true x1049) ;; header_data x1067) ;; Ok (prefix_eqb x1069 x1070 [123; 34; 115; 116; 97; 116; 117; 115; 34; 58; 50; 48; 48; 125]));
    (x1072 <- (x1071 <- (x1049 <- (make_subscription_reply true 19088743 19088744 200 12 7) ;; ci_view true x1049) ;; number_of_chunks x1071) ;; Ok (Z.eqb 1 x1072));
    (x1074 <- (x1073 <- (x1049 <- (make_subscription_reply true 19088743 19088744 200 12 7) ;; ci_view true x1049) ;; number_of_this_chunk x1073) ;; Ok (Z.eqb 1 x1074));
    (x1076 <- (x1075 <- (x1049 <- (make_subscription_reply true 19088743 19088744 200 12 7) ;; ci_view true x1049) ;; chunk_size x1075) ;; Ok (Z.eqb 0 x1076));
    (x1078 <- (x1077 <- (make_subscription_reply true 18036055 7 404 0 127) ;; Ok (dsize x1077)) ;; Ok (Z.eqb 35 x1078));
    (x1079 <- (make_subscription_reply true 18036055 7 404 0 127) ;; subscription_validate x1079);
    (x1081 <- (x1080 <- (make_subscription_reply true 18036055 7 404 0 127) ;; as_view true subscription_validate x1080) ;; Ok (opt_some x1081));
    (x1084 <- (x1083 <- (x1082 <- (make_subscription_reply true 18036055 7 404 0 127) ;; ci_view true x1082) ;; view_device_id x1083) ;; Ok (Z.eqb 127 x1084));
    (x1086 <- (x1085 <- (x1082 <- (make_subscription_reply true 18036055 7 404 0 127) ;; ci_view true x1082) ;; view_type x1085) ;; Ok (Z.eqb 32269 x1086));
    (x1088 <- (x1087 <- (x1082 <- (make_subscription_reply true 18036055 7 404 0 127) ;; ci_view true x1082) ;; view_subtype x1087) ;; Ok (Z.eqb 57 x1088));
    (x1090 <- (x1089 <- (x1082 <- (make_subscription_reply true 18036055 7 404 0 127) ;; ci_view true x1082) ;; message_version x1089) ;; Ok (Z.eqb 2 x1090));
    (x1092 <- (x1091 <- (x1082 <- (make_subscription_reply true 18036055 7 404 0 127) ;; ci_view true x1082) ;; source_muid x1091) ;; Ok (Z.eqb 18036055 x1092));
    (x1094 <- (x1093 <- (x1082 <- (make_subscription_reply true 18036055 7 404 0 127) ;; ci_view true x1082) ;; destination_muid x1093) ;; Ok (Z.eqb 7 x1094));
    (x1096 <- (x1095 <- (x1082 <- (make_subscription_reply true 18036055 7 404 0 127) ;; ci_view true x1082) ;; request_id x1095) ;; Ok (Z.eqb 0 x1096));
    (x1098 <- (x1097 <- (x1082 <- (make_subscription_reply true 18036055 7 404 0 127) ;; ci_view true x1082) ;; header_size x1097) ;; Ok (Z.eqb 14 x1098));
    (x1102 <- (x1101 <- (x1082 <- (make_subscription_reply true 18036055 7 404 0 127) ;; ci_view true x1082) ;; header_size x1101) ;; x1103 <- (x1100 <- (x1082 <- (make_subscription_reply true 18036055 7 404 0 127) ;; ci_view true x1082) ;; header_data x1100) ;; Ok (prefix_eqb x1102 x1103 [123; 34; 115; 116; 97; 116; 117; 115; 34; 58; 52; 48; 52; 125]));
    (x1105 <- (x1104 <- (x1082 <- (make_subscription_reply true 18036055 7 404 0 127) ;; ci_view true x1082) ;; number_of_chunks x1104) ;; Ok (Z.eqb 1 x1105));
    (x1107 <- (x1106 <- (x1082 <- (make_subscription_reply true 18036055 7 404 0 127) ;; ci_view true x1082) ;; number_of_this_chunk x1106) ;; Ok (Z.eqb 1 x1107));
    (x1109 <- (x1108 <- (x1082 <- (make_subscription_reply true 18036055 7 404 0 127) ;; ci_view true x1082) ;; chunk_size x1108) ;; Ok (Z.eqb 0 x1109))].
Proof. vm_compute. repeat constructor. Qed.

(* line 1620 *)
Example test_notify : all_true [
    (notify_validate (mkSx 0x7E0000 [10; 13; 63; 5; 120; 86; 52; 18; 119; 85; 51; 17; 121; 8; 0; 1; 2; 3; 4; 5; 6; 7; 8; 1; 0; 1; 0; 0; 0]));
    (x1111 <- (as_view true notify_validate (mkSx 0x7E0000 [10; 13; 63; 5; 120; 86; 52; 18; 119; 85; 51; 17; 121; 8; 0; 1; 2; 3; 4; 5; 6; 7; 8; 1; 0; 1; 0; 0; 0])) ;; Ok (opt_some x1111));
    (x1113 <- (x1112 <- (ci_view true (mkSx 0x7E0000 [10; 13; 63; 5; 120; 86; 52; 18; 119; 85; 51; 17; 121; 8; 0; 1; 2; 3; 4; 5; 6; 7; 8; 1; 0; 1; 0; 0; 0])) ;; view_device_id x1112) ;; Ok (Z.eqb 10 x1113));
    (x1115 <- (x1114 <- (ci_view true (mkSx 0x7E0000 [10; 13; 63; 5; 120; 86; 52; 18; 119; 85; 51; 17; 121; 8; 0; 1; 2; 3; 4; 5; 6; 7; 8; 1; 0; 1; 0; 0; 0])) ;; view_type x1114) ;; Ok (Z.eqb 32269 x1115));
    (x1117 <- (x1116 <- (ci_view true (mkSx 0x7E0000 [10; 13; 63; 5; 120; 86; 52; 18; 119; 85; 51; 17; 121; 8; 0; 1; 2; 3; 4; 5; 6; 7; 8; 1; 0; 1; 0; 0; 0])) ;; view_subtype x1116) ;; Ok (Z.eqb 63 x1117));
    (x1119 <- (x1118 <- (ci_view true (mkSx 0x7E0000 [10; 13; 63; 5; 120; 86; 52; 18; 119; 85; 51; 17; 121; 8; 0; 1; 2; 3; 4; 5; 6; 7; 8; 1; 0; 1; 0; 0; 0])) ;; message_version x1118) ;; Ok (Z.eqb 5 x1119));
    (x1121 <- (x1120 <- (ci_view true (mkSx 0x7E0000 [10; 13; 63; 5; 120; 86; 52; 18; 119; 85; 51; 17; 121; 8; 0; 1; 2; 3; 4; 5; 6; 7; 8; 1; 0; 1; 0; 0; 0])) ;; source_muid x1120) ;; Ok (Z.eqb 38611832 x1121));
    (x1123 <- (x1122 <- (ci_view true (mkSx 0x7E0000 [10; 13; 63; 5; 120; 86; 52; 18; 119; 85; 51; 17; 121; 8; 0; 1; 2; 3; 4; 5; 6; 7; 8; 1; 0; 1; 0; 0; 0])) ;; destination_muid x1122) ;; Ok (Z.eqb 36498167 x1123));
    (x1125 <- (x1124 <- (ci_view true (mkSx 0x7E0000 [10; 13; 63; 5; 120; 86; 52; 18; 119; 85; 51; 17; 121; 8; 0; 1; 2; 3; 4; 5; 6; 7; 8; 1; 0; 1; 0; 0; 0])) ;; request_id x1124) ;; Ok (Z.eqb 121 x1125));
    (x1127 <- (x1126 <- (ci_view true (mkSx 0x7E0000 [10; 13; 63; 5; 120; 86; 52; 18; 119; 85; 51; 17; 121; 8; 0; 1; 2; 3; 4; 5; 6; 7; 8; 1; 0; 1; 0; 0; 0])) ;; header_size x1126) ;; Ok (Z.eqb 8 x1127));
    (x1131 <- (x1130 <- (ci_view true (mkSx 0x7E0000 [10; 13; 63; 5; 120; 86; 52; 18; 119; 85; 51; 17; 121; 8; 0; 1; 2; 3; 4; 5; 6; 7; 8; 1; 0; 1; 0; 0; 0])) ;; header_size x1130) ;; x1132 <- (x1129 <- (ci_view true (mkSx 0x7E0000 [10; 13; 63; 5; 120; 86; 52; 18; 119; 85; 51; 17; 121; 8; 0; 1; 2; 3; 4; 5; 6; 7; 8; 1; 0; 1; 0; 0; 0])) ;; header_data x1129) ;; Ok (prefix_eqb x1131 x1132 (skipz 15 (sx_data (mkSx 0x7E0000 [10; 13; 63; 5; 120; 86; 52; 18; 119; 85; 51; 17; 121; 8; 0; 1; 2; 3; 4; 5; 6; 7; 8; 1; 0; 1; 0; 0; 0])))));
    (x1134 <- (x1133 <- (ci_view true (mkSx 0x7E0000 [10; 13; 63; 5; 120; 86; 52; 18; 119; 85; 51; 17; 121; 8; 0; 1; 2; 3; 4; 5; 6; 7; 8; 1; 0; 1; 0; 0; 0])) ;; number_of_chunks x1133) ;; Ok (Z.eqb 1 x1134));
    (x1136 <- (x1135 <- (ci_view true (mkSx 0x7E0000 [10; 13; 63; 5; 120; 86; 52; 18; 119; 85; 51; 17; 121; 8; 0; 1; 2; 3; 4; 5; 6; 7; 8; 1; 0; 1; 0; 0; 0])) ;; number_of_this_chunk x1135) ;; Ok (Z.eqb 1 x1136));
    (x1138 <- (x1137 <- (ci_view true (mkSx 0x7E0000 [10; 13; 63; 5; 120; 86; 52; 18; 119; 85; 51; 17; 121; 8; 0; 1; 2; 3; 4; 5; 6; 7; 8; 1; 0; 1; 0; 0; 0])) ;; chunk_size x1137) ;; Ok (Z.eqb 0 x1138));
    (notify_validate (mkSx 0x7E0000 [10; 13; 63; 5; 120; 86; 52; 18; 119; 85; 51; 17; 121; 8; 0; 1; 2; 3; 4; 5; 6; 7; 8; 1; 0; 1; 0; 0; 0; 122; 107]));
    (x1139 <- (as_view true notify_validate (mkSx 0x7E0000 [10; 13; 63; 5; 120; 86; 52; 18; 119; 85; 51; 17; 121; 8; 0; 1; 2; 3; 4; 5; 6; 7; 8; 1; 0; 1; 0; 0; 0; 122; 107])) ;; Ok (opt_some x1139));
    (b_ <- (notify_validate (mkSx 0x7E0000 [5; 13; 54; 0; 120; 86; 52; 18; 119; 85; 51; 17; 121; 8; 0; 1; 2; 3; 4; 5; 6; 7; 8; 1; 0; 1; 0; 0; 0])) ;; Ok (negb b_));
    (b_ <- (x1140 <- (as_view true notify_validate (mkSx 0x7E0000 [5; 13; 54; 0; 120; 86; 52; 18; 119; 85; 51; 17; 121; 8; 0; 1; 2; 3; 4; 5; 6; 7; 8; 1; 0; 1; 0; 0; 0])) ;; Ok (opt_some x1140)) ;; Ok (negb b_));
    (x1142 <- (x1141 <- (make_notify_message true 19088743 19088744 100 12 7) ;; Ok (dsize x1141)) ;; Ok (Z.eqb 35 x1142));
    (x1143 <- (make_notify_message true 19088743 19088744 100 12 7) ;; notify_validate x1143);
    (x1145 <- (x1144 <- (make_notify_message true 19088743 19088744 100 12 7) ;; as_view true notify_validate x1144) ;; Ok (opt_some x1145));
    (x1148 <- (x1147 <- (x1146 <- (make_notify_message true 19088743 19088744 100 12 7) ;; ci_view true x1146) ;; view_device_id x1147) ;; Ok (Z.eqb 7 x1148));
    (x1150 <- (x1149 <- (x1146 <- (make_notify_message true 19088743 19088744 100 12 7) ;; ci_view true x1146) ;; view_type x1149) ;; Ok (Z.eqb 32269 x1150));
    (x1152 <- (x1151 <- (x1146 <- (make_notify_message true 19088743 19088744 100 12 7) ;; ci_view true x1146) ;; view_subtype x1151) ;; Ok (Z.eqb 63 x1152));
    (x1154 <- (x1153 <- (x1146 <- (make_notify_message true 19088743 19088744 100 12 7) ;; ci_view true x1146) ;; message_version x1153) ;; Ok (Z.eqb 2 x1154));
    (x1156 <- (x1155 <- (x1146 <- (make_notify_message true 19088743 19088744 100 12 7) ;; ci_view true x1146) ;; source_muid x1155) ;; Ok (Z.eqb 19088743 x1156));
    (x1158 <- (x1157 <- (x1146 <- (make_notify_message true 19088743 19088744 100 12 7) ;; ci_view true x1146) ;; destination_muid x1157) ;; Ok (Z.eqb 19088744 x1158));
    (x1160 <- (x1159 <- (x1146 <- (make_notify_message true 19088743 19088744 100 12 7) ;; ci_view true x1146) ;; request_id x1159) ;; Ok (Z.eqb 12 x1160));
    (x1162 <- (x1161 <- (x1146 <- (make_notify_message true 19088743 19088744 100 12 7) ;; ci_view true x1146) ;; header_size x1161) ;; Ok (Z.eqb 14 x1162));
    (x1166 <- (x1165 <- (x1146 <- (make_notify_message true 19088743 19088744 100 12 7) ;; ci_view true x1146) ;; header_size x1165) ;; x1167 <- (x1164 <- (x1146 <- (make_notify_message true 19088743 19088744 100 12 7) ;; ci_view true x1146) ;; header_data x1164) ;; Ok (prefix_eqb x1166 x1167 [123; 34; 115; 116; 97; 116; 117; 115; 34; 58; 49; 48; 48; 125]));
    (x1169 <- (x1168 <- (x1146 <- (make_notify_message true 19088743 19088744 100 12 7) ;; ci_view true x1146) ;; number_of_chunks x1168) ;; Ok (Z.eqb 1 x1169));
    (x1171 <- (x1170 <- (x1146 <- (make_notify_message true 19088743 19088744 100 12 7) ;; ci_view true x1146) ;; number_of_this_chunk x1170) ;; Ok (Z.eqb 1 x1171));
    (x1173 <- (x1172 <- (x1146 <- (make_notify_message true 19088743 19088744 100 12 7) ;; ci_view true x1146) ;; chunk_size x1172) ;; Ok (Z.eqb 0 x1173));
    (x1175 <- (x1174 <- (make_notify_message true 18036055 7 408 0 127) ;; Ok (dsize x1174)) ;; Ok (Z.eqb 35 x1175));
    (x1176 <- (make_notify_message true 18036055 7 408 0 127) ;; notify_validate x1176);
    (x1178 <- (x1177 <- (make_notify_message true 18036055 7 408 0 127) ;; as_view true notify_validate x1177) ;; Ok (opt_some x1178));
    (x1181 <- (x1180 <- (x1179 <- (make_notify_message true 18036055 7 408 0 127) ;; ci_view true x1179) ;; view_device_id x1180) ;; Ok (Z.eqb 127 x1181));
    (x1183 <- (x1182 <- (x1179 <- (make_notify_message true 18036055 7 408 0 127) ;; ci_view true x1179) ;; view_type x1182) ;; Ok (Z.eqb 32269 x1183));
    (x1185 <- (x1184 <- (x1179 <- (make_notify_message true 18036055 7 408 0 127) ;; ci_view true x1179) ;; view_subtype x1184) ;; Ok (Z.eqb 63 x1185));
    (x1187 <- (x1186 <- (x1179 <- (make_notify_message true 18036055 7 408 0 127) ;; ci_view true x1179) ;; message_version x1186) ;; Ok (Z.eqb 2 x1187));
    (x1189 <- (x1188 <- (x1179 <- (make_notify_message true 18036055 7 408 0 127) ;; ci_view true x1179) ;; source_muid x1188) ;; Ok (Z.eqb 18036055 x1189));
    (x1191 <- (x1190 <- (x1179 <- (make_notify_message true 18036055 7 408 0 127) ;; ci_view true x1179) ;; destination_muid x1190) ;; Ok (Z.eqb 7 x1191));
    (x1193 <- (x1192 <- (x1179 <- (make_notify_message true 18036055 7 408 0 127) ;; ci_view true x1179) ;; request_id x1192) ;; Ok (Z.eqb 0 x1193));
    (x1195 <- (x1194 <- (x1179 <- (make_notify_message true 18036055 7 408 0 127) ;; ci_view true x1179) ;; header_size x1194) ;; Ok (Z.eqb 14 x1195));
    (x1199 <- (x1198 <- (x1179 <- (make_notify_message true 18036055 7 408 0 127) ;; ci_view true x1179) ;; header_size x1198) ;; x1200 <- (x1197 <- (x1179 <- (make_notify_message true 18036055 7 408 0 127) ;; ci_view true x1179) ;; header_data x1197) ;; Ok (prefix_eqb x1199 x1200 [123; 34; 115; 116; 97; 116; 117; 115; 34; 58; 52; 48; 56; 125]));
    (x1202 <- (x1201 <- (x1179 <- (make_notify_message true 18036055 7 408 0 127) ;; ci_view true x1179) ;; number_of_chunks x1201) ;; Ok (Z.eqb 1 x1202));
    (x1204 <- (x1203 <- (x1179 <- (make_notify_message true 18036055 7 408 0 127) ;; ci_view true x1179) ;; number_of_this_chunk x1203) ;; Ok (Z.eqb 1 x1204));
    (x1206 <- (x1205 <- (x1179 <- (make_notify_message true 18036055 7 408 0 127) ;; ci_view true x1179) ;; chunk_size x1205) ;; Ok (Z.eqb 0 x1206))].
Proof. vm_compute. repeat constructor. Qed.

