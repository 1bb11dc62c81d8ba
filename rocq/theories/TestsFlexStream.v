(* The unit tests of tests/flex_data_message_tests.cpp, tests/stream_message_tests.cpp, run on the model with assertions.
   These are checks of the model against the results its authors expect of the code, not proofs. *)
From Coq Require Import ZArith List Bool.
From Verif Require Import Base Bits Packet Messages Sysex Types Floats TestsTypes ChannelVoice Utility Flex Endpoint DataPackets TestsBase TestsPacketBase.
Import ListNotations.
Local Open Scope Z_scope.
Local Open Scope res_scope.

(* ==== tests/flex_data_message_tests.cpp ==== *)


(* line 34 *)
Example test_constructors : all_true [
    (Ok (Z.eqb 13 (type (flex_data_message0 0))));
    (Ok (Z.eqb 0 (group (flex_data_message0 0))));
    (Ok (Z.eqb 0 (flex_format (flex_data_message0 0))));
    (Ok (Z.eqb 0 (flex_address (flex_data_message0 0))));
    (Ok (Z.eqb 0 (flex_channel (flex_data_message0 0))));
    (Ok (Z.eqb 0 (flex_status_bank (flex_data_message0 0))));
    (Ok (Z.eqb 0 (flex_status (flex_data_message0 0))));
    (x1 <- (word (flex_data_message0 0) 1%nat) ;; Ok (Z.eqb 0 x1));
    (x2 <- (word (flex_data_message0 0) 2%nat) ;; Ok (Z.eqb 0 x2));
    (x3 <- (word (flex_data_message0 0) 3%nat) ;; Ok (Z.eqb 0 x3));
    (Ok (Z.eqb 13 (type (flex_data_message0 4))));
    (Ok (Z.eqb 4 (group (flex_data_message0 4))));
    (Ok (Z.eqb 0 (flex_format (flex_data_message0 4))));
    (Ok (Z.eqb 0 (flex_address (flex_data_message0 4))));
    (Ok (Z.eqb 0 (flex_channel (flex_data_message0 4))));
    (Ok (Z.eqb 0 (flex_status_bank (flex_data_message0 4))));
    (Ok (Z.eqb 0 (flex_status (flex_data_message0 4))));
    (x4 <- (word (flex_data_message0 4) 1%nat) ;; Ok (Z.eqb 0 x4));
    (x5 <- (word (flex_data_message0 4) 2%nat) ;; Ok (Z.eqb 0 x5));
    (x6 <- (word (flex_data_message0 4) 3%nat) ;; Ok (Z.eqb 0 x6));
    (x8 <- (x7 <- (flex_data_message true 9 2 0 10 2 6 305419896 2596069104 2844222787) ;; Ok (type x7)) ;; Ok (Z.eqb 13 x8));
    (x10 <- (x9 <- (flex_data_message true 9 2 0 10 2 6 305419896 2596069104 2844222787) ;; Ok (group x9)) ;; Ok (Z.eqb 9 x10));
    (x12 <- (x11 <- (flex_data_message true 9 2 0 10 2 6 305419896 2596069104 2844222787) ;; Ok (flex_format x11)) ;; Ok (Z.eqb 2 x12));
    (x14 <- (x13 <- (flex_data_message true 9 2 0 10 2 6 305419896 2596069104 2844222787) ;; Ok (flex_address x13)) ;; Ok (Z.eqb 0 x14));
    (x16 <- (x15 <- (flex_data_message true 9 2 0 10 2 6 305419896 2596069104 2844222787) ;; Ok (flex_channel x15)) ;; Ok (Z.eqb 10 x16));
    (x18 <- (x17 <- (flex_data_message true 9 2 0 10 2 6 305419896 2596069104 2844222787) ;; Ok (flex_status_bank x17)) ;; Ok (Z.eqb 2 x18));
    (x20 <- (x19 <- (flex_data_message true 9 2 0 10 2 6 305419896 2596069104 2844222787) ;; Ok (flex_status x19)) ;; Ok (Z.eqb 6 x20));
    (x22 <- (x21 <- (flex_data_message true 9 2 0 10 2 6 305419896 2596069104 2844222787) ;; word x21 1%nat) ;; Ok (Z.eqb 305419896 x22));
    (x24 <- (x23 <- (flex_data_message true 9 2 0 10 2 6 305419896 2596069104 2844222787) ;; word x23 2%nat) ;; Ok (Z.eqb 2596069104 x24));
    (x26 <- (x25 <- (flex_data_message true 9 2 0 10 2 6 305419896 2596069104 2844222787) ;; word x25 3%nat) ;; Ok (Z.eqb 2844222787 x26));
    (x28 <- (x27 <- (flex_data_message true 15 3 1 0 9 8 7 6 5) ;; Ok (type x27)) ;; Ok (Z.eqb 13 x28));
    (x30 <- (x29 <- (flex_data_message true 15 3 1 0 9 8 7 6 5) ;; Ok (group x29)) ;; Ok (Z.eqb 15 x30));
    (x32 <- (x31 <- (flex_data_message true 15 3 1 0 9 8 7 6 5) ;; Ok (flex_format x31)) ;; Ok (Z.eqb 3 x32));
    (x34 <- (x33 <- (flex_data_message true 15 3 1 0 9 8 7 6 5) ;; Ok (flex_address x33)) ;; Ok (Z.eqb 1 x34));
    (x36 <- (x35 <- (flex_data_message true 15 3 1 0 9 8 7 6 5) ;; Ok (flex_channel x35)) ;; Ok (Z.eqb 0 x36));
    (x38 <- (x37 <- (flex_data_message true 15 3 1 0 9 8 7 6 5) ;; Ok (flex_status_bank x37)) ;; Ok (Z.eqb 9 x38));
    (x40 <- (x39 <- (flex_data_message true 15 3 1 0 9 8 7 6 5) ;; Ok (flex_status x39)) ;; Ok (Z.eqb 8 x40));
    (x42 <- (x41 <- (flex_data_message true 15 3 1 0 9 8 7 6 5) ;; word x41 1%nat) ;; Ok (Z.eqb 7 x42));
    (x44 <- (x43 <- (flex_data_message true 15 3 1 0 9 8 7 6 5) ;; word x43 2%nat) ;; Ok (Z.eqb 6 x44));
    (x46 <- (x45 <- (flex_data_message true 15 3 1 0 9 8 7 6 5) ;; word x45 3%nat) ;; Ok (Z.eqb 5 x46))].
Proof. vm_compute. repeat constructor. Qed.

(* line 103 *)
Example test_is_flex_data_message : all_true [
    (Ok (is_flex_data_message (mkP 3506503680 1 2 3)));
    (Ok (is_flex_data_message (mkP 3742629888 4 5 6)));
    (Ok (is_flex_data_message (mkP 3542482944 7 8 9)));
    (Ok (is_flex_data_message (mkP 3548905472 10 11 12)));
    (b_ <- (Ok (is_flex_data_message (mkP 16777216 0 0 0))) ;; Ok (negb b_));
    (b_ <- (Ok (is_flex_data_message (mkP 422711808 0 0 0))) ;; Ok (negb b_));
    (b_ <- (Ok (is_flex_data_message (mkP 647054463 0 0 0))) ;; Ok (negb b_));
    (b_ <- (Ok (is_flex_data_message (mkP 1082675296 305397760 0 0))) ;; Ok (negb b_));
    (b_ <- (Ok (is_flex_data_message (mkP 1057816576 1 2 3))) ;; Ok (negb b_));
    (b_ <- (Ok (is_flex_data_message (mkP 1394999296 7 8 9))) ;; Ok (negb b_))].
Proof. vm_compute. repeat constructor. Qed.

(* line 122 *)
Example test_flex_data_message_view : all_true [
    (x49 <- (x48 <- (flex_data_message true 9 2 0 10 2 6 305419896 2596069104 2844222787) ;; as_flex_data_message_view true x48) ;; Ok (opt_some x49));
    (x51 <- (x50 <- (x47 <- (flex_data_message true 9 2 0 10 2 6 305419896 2596069104 2844222787) ;; flex_data_message_view true x47) ;; Ok (group x50)) ;; Ok (Z.eqb 9 x51));
    (x53 <- (x52 <- (x47 <- (flex_data_message true 9 2 0 10 2 6 305419896 2596069104 2844222787) ;; flex_data_message_view true x47) ;; Ok (flex_format x52)) ;; Ok (Z.eqb 2 x53));
    (x55 <- (x54 <- (x47 <- (flex_data_message true 9 2 0 10 2 6 305419896 2596069104 2844222787) ;; flex_data_message_view true x47) ;; Ok (flex_address x54)) ;; Ok (Z.eqb 0 x55));
    (x57 <- (x56 <- (x47 <- (flex_data_message true 9 2 0 10 2 6 305419896 2596069104 2844222787) ;; flex_data_message_view true x47) ;; Ok (flex_channel x56)) ;; Ok (Z.eqb 10 x57));
    (x59 <- (x58 <- (x47 <- (flex_data_message true 9 2 0 10 2 6 305419896 2596069104 2844222787) ;; flex_data_message_view true x47) ;; Ok (flex_status_bank x58)) ;; Ok (Z.eqb 2 x59));
    (x61 <- (x60 <- (x47 <- (flex_data_message true 9 2 0 10 2 6 305419896 2596069104 2844222787) ;; flex_data_message_view true x47) ;; Ok (flex_status x60)) ;; Ok (Z.eqb 6 x61));
    (x63 <- (x62 <- (x47 <- (flex_data_message true 9 2 0 10 2 6 305419896 2596069104 2844222787) ;; flex_data_message_view true x47) ;; Ok (flex_data1 x62)) ;; Ok (Z.eqb 305419896 x63));
    (x65 <- (x64 <- (x47 <- (flex_data_message true 9 2 0 10 2 6 305419896 2596069104 2844222787) ;; flex_data_message_view true x47) ;; Ok (flex_data2 x64)) ;; Ok (Z.eqb 2596069104 x65));
    (x67 <- (x66 <- (x47 <- (flex_data_message true 9 2 0 10 2 6 305419896 2596069104 2844222787) ;; flex_data_message_view true x47) ;; Ok (flex_data3 x66)) ;; Ok (Z.eqb 2844222787 x67));
    (x70 <- (x69 <- (flex_data_message true 4 3 1 0 2 3 10 11 12) ;; as_flex_data_message_view true x69) ;; Ok (opt_some x70));
    (x72 <- (x71 <- (x68 <- (flex_data_message true 4 3 1 0 2 3 10 11 12) ;; flex_data_message_view true x68) ;; Ok (flex_format x71)) ;; Ok (Z.eqb 3 x72));
    (x74 <- (x73 <- (x68 <- (flex_data_message true 4 3 1 0 2 3 10 11 12) ;; flex_data_message_view true x68) ;; Ok (flex_address x73)) ;; Ok (Z.eqb 1 x74));
    (x76 <- (x75 <- (x68 <- (flex_data_message true 4 3 1 0 2 3 10 11 12) ;; flex_data_message_view true x68) ;; Ok (flex_channel x75)) ;; Ok (Z.eqb 0 x76));
    (x78 <- (x77 <- (x68 <- (flex_data_message true 4 3 1 0 2 3 10 11 12) ;; flex_data_message_view true x68) ;; Ok (flex_status_bank x77)) ;; Ok (Z.eqb 2 x78));
    (x80 <- (x79 <- (x68 <- (flex_data_message true 4 3 1 0 2 3 10 11 12) ;; flex_data_message_view true x68) ;; Ok (flex_status x79)) ;; Ok (Z.eqb 3 x80));
    (x82 <- (x81 <- (x68 <- (flex_data_message true 4 3 1 0 2 3 10 11 12) ;; flex_data_message_view true x68) ;; Ok (flex_data1 x81)) ;; Ok (Z.eqb 10 x82));
    (x84 <- (x83 <- (x68 <- (flex_data_message true 4 3 1 0 2 3 10 11 12) ;; flex_data_message_view true x68) ;; Ok (flex_data2 x83)) ;; Ok (Z.eqb 11 x84));
    (x86 <- (x85 <- (x68 <- (flex_data_message true 4 3 1 0 2 3 10 11 12) ;; flex_data_message_view true x68) ;; Ok (flex_data3 x85)) ;; Ok (Z.eqb 12 x86));
    (x89 <- (x88 <- (flex_data_message true 1 2 0 4 5 6 7 8 9) ;; as_flex_data_message_view true x88) ;; Ok (opt_some x89));
    (x91 <- (x90 <- (x87 <- (flex_data_message true 1 2 0 4 5 6 7 8 9) ;; flex_data_message_view true x87) ;; Ok (flex_format x90)) ;; Ok (Z.eqb 2 x91));
    (x93 <- (x92 <- (x87 <- (flex_data_message true 1 2 0 4 5 6 7 8 9) ;; flex_data_message_view true x87) ;; Ok (flex_address x92)) ;; Ok (Z.eqb 0 x93));
    (x95 <- (x94 <- (x87 <- (flex_data_message true 1 2 0 4 5 6 7 8 9) ;; flex_data_message_view true x87) ;; Ok (flex_channel x94)) ;; Ok (Z.eqb 4 x95));
    (x97 <- (x96 <- (x87 <- (flex_data_message true 1 2 0 4 5 6 7 8 9) ;; flex_data_message_view true x87) ;; Ok (flex_status_bank x96)) ;; Ok (Z.eqb 5 x97));
    (x99 <- (x98 <- (x87 <- (flex_data_message true 1 2 0 4 5 6 7 8 9) ;; flex_data_message_view true x87) ;; Ok (flex_status x98)) ;; Ok (Z.eqb 6 x99));
    (x101 <- (x100 <- (x87 <- (flex_data_message true 1 2 0 4 5 6 7 8 9) ;; flex_data_message_view true x87) ;; Ok (flex_data1 x100)) ;; Ok (Z.eqb 7 x101));
    (x103 <- (x102 <- (x87 <- (flex_data_message true 1 2 0 4 5 6 7 8 9) ;; flex_data_message_view true x87) ;; Ok (flex_data2 x102)) ;; Ok (Z.eqb 8 x103));
    (x105 <- (x104 <- (x87 <- (flex_data_message true 1 2 0 4 5 6 7 8 9) ;; flex_data_message_view true x87) ;; Ok (flex_data3 x104)) ;; Ok (Z.eqb 9 x105));
    (x108 <- (x107 <- (flex_data_message true 1 0 0 12 1 7 1952805748 1952807028 0) ;; as_flex_data_message_view true x107) ;; Ok (opt_some x108));
    (x110 <- (x109 <- (x106 <- (flex_data_message true 1 0 0 12 1 7 1952805748 1952807028 0) ;; flex_data_message_view true x106) ;; Ok (flex_format x109)) ;; Ok (Z.eqb 0 x110));
    (x112 <- (x111 <- (x106 <- (flex_data_message true 1 0 0 12 1 7 1952805748 1952807028 0) ;; flex_data_message_view true x106) ;; Ok (flex_address x111)) ;; Ok (Z.eqb 0 x112));
    (x114 <- (x113 <- (x106 <- (flex_data_message true 1 0 0 12 1 7 1952805748 1952807028 0) ;; flex_data_message_view true x106) ;; Ok (flex_channel x113)) ;; Ok (Z.eqb 12 x114));
    (x116 <- (x115 <- (x106 <- (flex_data_message true 1 0 0 12 1 7 1952805748 1952807028 0) ;; flex_data_message_view true x106) ;; Ok (flex_status_bank x115)) ;; Ok (Z.eqb 1 x116));
    (x118 <- (x117 <- (x106 <- (flex_data_message true 1 0 0 12 1 7 1952805748 1952807028 0) ;; flex_data_message_view true x106) ;; Ok (flex_status x117)) ;; Ok (Z.eqb 7 x118));
    (x120 <- (x119 <- (x106 <- (flex_data_message true 1 0 0 12 1 7 1952805748 1952807028 0) ;; flex_data_message_view true x106) ;; Ok (flex_data1 x119)) ;; Ok (Z.eqb 1952805748 x120));
    (x122 <- (x121 <- (x106 <- (flex_data_message true 1 0 0 12 1 7 1952805748 1952807028 0) ;; flex_data_message_view true x106) ;; Ok (flex_data2 x121)) ;; Ok (Z.eqb 1952807028 x122));
    (x124 <- (x123 <- (x106 <- (flex_data_message true 1 0 0 12 1 7 1952805748 1952807028 0) ;; flex_data_message_view true x106) ;; Ok (flex_data3 x123)) ;; Ok (Z.eqb 0 x124));
    (x126 <- (x125 <- (x106 <- (flex_data_message true 1 0 0 12 1 7 1952805748 1952807028 0) ;; flex_data_message_view true x106) ;; flex_payload_as_string x125) ;; Ok (list_eqb x126 [116; 101; 115; 116; 116; 101; 120; 116]));
    (b_ <- (x127 <- (as_flex_data_message_view true (mkP 0 0 0 0)) ;; Ok (opt_some x127)) ;; Ok (negb b_))].
Proof. vm_compute. repeat constructor. Qed.

(* line 208 *)
Example test_make_flex_data_message : all_true [
    (x128 <- (make_flex_data_message true 4 3 0 6 2 3 10 11 12) ;; Ok (is_flex_data_message x128));
    (x130 <- (x129 <- (make_flex_data_message true 4 3 0 6 2 3 10 11 12) ;; Ok (group x129)) ;; Ok (Z.eqb 4 x130));
    (x132 <- (x131 <- (make_flex_data_message true 4 3 0 6 2 3 10 11 12) ;; Ok (flex_format x131)) ;; Ok (Z.eqb 3 x132));
    (x134 <- (x133 <- (make_flex_data_message true 4 3 0 6 2 3 10 11 12) ;; Ok (flex_address x133)) ;; Ok (Z.eqb 0 x134));
    (x136 <- (x135 <- (make_flex_data_message true 4 3 0 6 2 3 10 11 12) ;; Ok (flex_channel x135)) ;; Ok (Z.eqb 6 x136));
    (x138 <- (x137 <- (make_flex_data_message true 4 3 0 6 2 3 10 11 12) ;; Ok (flex_status_bank x137)) ;; Ok (Z.eqb 2 x138));
    (x140 <- (x139 <- (make_flex_data_message true 4 3 0 6 2 3 10 11 12) ;; Ok (flex_status x139)) ;; Ok (Z.eqb 3 x140));
    (x142 <- (x141 <- (make_flex_data_message true 4 3 0 6 2 3 10 11 12) ;; word x141 1%nat) ;; Ok (Z.eqb 10 x142));
    (x144 <- (x143 <- (make_flex_data_message true 4 3 0 6 2 3 10 11 12) ;; word x143 2%nat) ;; Ok (Z.eqb 11 x144));
    (x146 <- (x145 <- (make_flex_data_message true 4 3 0 6 2 3 10 11 12) ;; word x145 3%nat) ;; Ok (Z.eqb 12 x146));
    (x147 <- (make_flex_data_message true 1 1 0 4 5 6 7 8 9) ;; Ok (is_flex_data_message x147));
    (x149 <- (x148 <- (make_flex_data_message true 1 1 0 4 5 6 7 8 9) ;; Ok (group x148)) ;; Ok (Z.eqb 1 x149));
    (x151 <- (x150 <- (make_flex_data_message true 1 1 0 4 5 6 7 8 9) ;; Ok (flex_format x150)) ;; Ok (Z.eqb 1 x151));
    (x153 <- (x152 <- (make_flex_data_message true 1 1 0 4 5 6 7 8 9) ;; Ok (flex_address x152)) ;; Ok (Z.eqb 0 x153));
    (x155 <- (x154 <- (make_flex_data_message true 1 1 0 4 5 6 7 8 9) ;; Ok (flex_channel x154)) ;; Ok (Z.eqb 4 x155));
    (x157 <- (x156 <- (make_flex_data_message true 1 1 0 4 5 6 7 8 9) ;; Ok (flex_status_bank x156)) ;; Ok (Z.eqb 5 x157));
    (x159 <- (x158 <- (make_flex_data_message true 1 1 0 4 5 6 7 8 9) ;; Ok (flex_status x158)) ;; Ok (Z.eqb 6 x159));
    (x161 <- (x160 <- (make_flex_data_message true 1 1 0 4 5 6 7 8 9) ;; word x160 1%nat) ;; Ok (Z.eqb 7 x161));
    (x163 <- (x162 <- (make_flex_data_message true 1 1 0 4 5 6 7 8 9) ;; word x162 2%nat) ;; Ok (Z.eqb 8 x163));
    (x165 <- (x164 <- (make_flex_data_message true 1 1 0 4 5 6 7 8 9) ;; word x164 3%nat) ;; Ok (Z.eqb 9 x165))].
Proof. vm_compute. repeat constructor. Qed.

(* line 246 *)
Example test_make_flex_data_text_message : all_true [
    (x166 <- (make_flex_data_text_message true 1 0 0 12 1 7 [116; 101; 115; 116; 116; 101; 120; 116]) ;; Ok (is_flex_data_message x166));
    (x168 <- (x167 <- (make_flex_data_text_message true 1 0 0 12 1 7 [116; 101; 115; 116; 116; 101; 120; 116]) ;; Ok (group x167)) ;; Ok (Z.eqb 1 x168));
    (x170 <- (x169 <- (make_flex_data_text_message true 1 0 0 12 1 7 [116; 101; 115; 116; 116; 101; 120; 116]) ;; Ok (flex_format x169)) ;; Ok (Z.eqb 0 x170));
    (x172 <- (x171 <- (make_flex_data_text_message true 1 0 0 12 1 7 [116; 101; 115; 116; 116; 101; 120; 116]) ;; Ok (flex_address x171)) ;; Ok (Z.eqb 0 x172));
    (x174 <- (x173 <- (make_flex_data_text_message true 1 0 0 12 1 7 [116; 101; 115; 116; 116; 101; 120; 116]) ;; Ok (flex_channel x173)) ;; Ok (Z.eqb 12 x174));
    (x176 <- (x175 <- (make_flex_data_text_message true 1 0 0 12 1 7 [116; 101; 115; 116; 116; 101; 120; 116]) ;; Ok (flex_status_bank x175)) ;; Ok (Z.eqb 1 x176));
    (x178 <- (x177 <- (make_flex_data_text_message true 1 0 0 12 1 7 [116; 101; 115; 116; 116; 101; 120; 116]) ;; Ok (flex_status x177)) ;; Ok (Z.eqb 7 x178));
    (x180 <- (x179 <- (make_flex_data_text_message true 1 0 0 12 1 7 [116; 101; 115; 116; 116; 101; 120; 116]) ;; word x179 1%nat) ;; Ok (Z.eqb 1952805748 x180));
    (x182 <- (x181 <- (make_flex_data_text_message true 1 0 0 12 1 7 [116; 101; 115; 116; 116; 101; 120; 116]) ;; word x181 2%nat) ;; Ok (Z.eqb 1952807028 x182));
    (x184 <- (x183 <- (make_flex_data_text_message true 1 0 0 12 1 7 [116; 101; 115; 116; 116; 101; 120; 116]) ;; word x183 3%nat) ;; Ok (Z.eqb 0 x184));
    (x186 <- (x185 <- (make_flex_data_text_message true 1 0 0 12 1 7 [116; 101; 115; 116; 116; 101; 120; 116]) ;; flex_payload_as_string x185) ;; Ok (list_eqb x186 [116; 101; 115; 116; 116; 101; 120; 116]));
    (x187 <- (make_flex_data_text_message true 5 1 1 0 2 4 [84; 104; 105; 115; 32; 105; 115; 32; 97; 32; 109; 117]) ;; Ok (is_flex_data_message x187));
    (x189 <- (x188 <- (make_flex_data_text_message true 5 1 1 0 2 4 [84; 104; 105; 115; 32; 105; 115; 32; 97; 32; 109; 117]) ;; Ok (group x188)) ;; Ok (Z.eqb 5 x189));
    (x191 <- (x190 <- (make_flex_data_text_message true 5 1 1 0 2 4 [84; 104; 105; 115; 32; 105; 115; 32; 97; 32; 109; 117]) ;; Ok (flex_format x190)) ;; Ok (Z.eqb 1 x191));
    (x193 <- (x192 <- (make_flex_data_text_message true 5 1 1 0 2 4 [84; 104; 105; 115; 32; 105; 115; 32; 97; 32; 109; 117]) ;; Ok (flex_address x192)) ;; Ok (Z.eqb 1 x193));
    (x195 <- (x194 <- (make_flex_data_text_message true 5 1 1 0 2 4 [84; 104; 105; 115; 32; 105; 115; 32; 97; 32; 109; 117]) ;; Ok (flex_channel x194)) ;; Ok (Z.eqb 0 x195));
    (x197 <- (x196 <- (make_flex_data_text_message true 5 1 1 0 2 4 [84; 104; 105; 115; 32; 105; 115; 32; 97; 32; 109; 117]) ;; Ok (flex_status_bank x196)) ;; Ok (Z.eqb 2 x197));
    (x199 <- (x198 <- (make_flex_data_text_message true 5 1 1 0 2 4 [84; 104; 105; 115; 32; 105; 115; 32; 97; 32; 109; 117]) ;; Ok (flex_status x198)) ;; Ok (Z.eqb 4 x199));
    (x201 <- (x200 <- (make_flex_data_text_message true 5 1 1 0 2 4 [84; 104; 105; 115; 32; 105; 115; 32; 97; 32; 109; 117]) ;; word x200 1%nat) ;; Ok (Z.eqb 1416128883 x201));
    (x203 <- (x202 <- (make_flex_data_text_message true 5 1 1 0 2 4 [84; 104; 105; 115; 32; 105; 115; 32; 97; 32; 109; 117]) ;; word x202 2%nat) ;; Ok (Z.eqb 543781664 x203));
    (x205 <- (x204 <- (make_flex_data_text_message true 5 1 1 0 2 4 [84; 104; 105; 115; 32; 105; 115; 32; 97; 32; 109; 117]) ;; word x204 3%nat) ;; Ok (Z.eqb 1629515125 x205));
    (x207 <- (x206 <- (make_flex_data_text_message true 5 1 1 0 2 4 [84; 104; 105; 115; 32; 105; 115; 32; 97; 32; 109; 117]) ;; flex_payload_as_string x206) ;; Ok (list_eqb x207 [84; 104; 105; 115; 32; 105; 115; 32; 97; 32; 109; 117]));
    (x210 <- (make_flex_data_text_message true 5 2 1 0 2 4 [108; 116; 105; 45; 112; 97; 99; 107; 101; 116; 32; 99]) ;; Ok (is_flex_data_message x210));
    (x212 <- (x211 <- (make_flex_data_text_message true 5 2 1 0 2 4 [108; 116; 105; 45; 112; 97; 99; 107; 101; 116; 32; 99]) ;; Ok (group x211)) ;; Ok (Z.eqb 5 x212));
    (x214 <- (x213 <- (make_flex_data_text_message true 5 2 1 0 2 4 [108; 116; 105; 45; 112; 97; 99; 107; 101; 116; 32; 99]) ;; Ok (flex_format x213)) ;; Ok (Z.eqb 2 x214));
    (x216 <- (x215 <- (make_flex_data_text_message true 5 2 1 0 2 4 [108; 116; 105; 45; 112; 97; 99; 107; 101; 116; 32; 99]) ;; Ok (flex_address x215)) ;; Ok (Z.eqb 1 x216));
    (x218 <- (x217 <- (make_flex_data_text_message true 5 2 1 0 2 4 [108; 116; 105; 45; 112; 97; 99; 107; 101; 116; 32; 99]) ;; Ok (flex_channel x217)) ;; Ok (Z.eqb 0 x218));
    (x220 <- (x219 <- (make_flex_data_text_message true 5 2 1 0 2 4 [108; 116; 105; 45; 112; 97; 99; 107; 101; 116; 32; 99]) ;; Ok (flex_status_bank x219)) ;; Ok (Z.eqb 2 x220));
    (x222 <- (x221 <- (make_flex_data_text_message true 5 2 1 0 2 4 [108; 116; 105; 45; 112; 97; 99; 107; 101; 116; 32; 99]) ;; Ok (flex_status x221)) ;; Ok (Z.eqb 4 x222));
    (x224 <- (x223 <- (make_flex_data_text_message true 5 2 1 0 2 4 [108; 116; 105; 45; 112; 97; 99; 107; 101; 116; 32; 99]) ;; word x223 1%nat) ;; Ok (Z.eqb 1819568429 x224));
    (x226 <- (x225 <- (make_flex_data_text_message true 5 2 1 0 2 4 [108; 116; 105; 45; 112; 97; 99; 107; 101; 116; 32; 99]) ;; word x225 2%nat) ;; Ok (Z.eqb 1885430635 x226));
    (x228 <- (x227 <- (make_flex_data_text_message true 5 2 1 0 2 4 [108; 116; 105; 45; 112; 97; 99; 107; 101; 116; 32; 99]) ;; word x227 3%nat) ;; Ok (Z.eqb 1702109283 x228));
    (x230 <- (x229 <- (make_flex_data_text_message true 5 2 1 0 2 4 [108; 116; 105; 45; 112; 97; 99; 107; 101; 116; 32; 99]) ;; flex_payload_as_string x229) ;; Ok (list_eqb x230 [108; 116; 105; 45; 112; 97; 99; 107; 101; 116; 32; 99]));
    (x234 <- (make_flex_data_text_message true 5 2 1 0 2 4 [111; 112; 121; 114; 105; 103; 104; 116; 32; 110; 111; 116]) ;; Ok (is_flex_data_message x234));
    (x236 <- (x235 <- (make_flex_data_text_message true 5 2 1 0 2 4 [111; 112; 121; 114; 105; 103; 104; 116; 32; 110; 111; 116]) ;; Ok (group x235)) ;; Ok (Z.eqb 5 x236));
    (x238 <- (x237 <- (make_flex_data_text_message true 5 2 1 0 2 4 [111; 112; 121; 114; 105; 103; 104; 116; 32; 110; 111; 116]) ;; Ok (flex_format x237)) ;; Ok (Z.eqb 2 x238));
    (x240 <- (x239 <- (make_flex_data_text_message true 5 2 1 0 2 4 [111; 112; 121; 114; 105; 103; 104; 116; 32; 110; 111; 116]) ;; Ok (flex_address x239)) ;; Ok (Z.eqb 1 x240));
    (x242 <- (x241 <- (make_flex_data_text_message true 5 2 1 0 2 4 [111; 112; 121; 114; 105; 103; 104; 116; 32; 110; 111; 116]) ;; Ok (flex_channel x241)) ;; Ok (Z.eqb 0 x242));
    (x244 <- (x243 <- (make_flex_data_text_message true 5 2 1 0 2 4 [111; 112; 121; 114; 105; 103; 104; 116; 32; 110; 111; 116]) ;; Ok (flex_status_bank x243)) ;; Ok (Z.eqb 2 x244));
    (x246 <- (x245 <- (make_flex_data_text_message true 5 2 1 0 2 4 [111; 112; 121; 114; 105; 103; 104; 116; 32; 110; 111; 116]) ;; Ok (flex_status x245)) ;; Ok (Z.eqb 4 x246));
    (x248 <- (x247 <- (make_flex_data_text_message true 5 2 1 0 2 4 [111; 112; 121; 114; 105; 103; 104; 116; 32; 110; 111; 116]) ;; word x247 1%nat) ;; Ok (Z.eqb 1869642098 x248));
    (x250 <- (x249 <- (make_flex_data_text_message true 5 2 1 0 2 4 [111; 112; 121; 114; 105; 103; 104; 116; 32; 110; 111; 116]) ;; word x249 2%nat) ;; Ok (Z.eqb 1768384628 x250));
    (x252 <- (x251 <- (make_flex_data_text_message true 5 2 1 0 2 4 [111; 112; 121; 114; 105; 103; 104; 116; 32; 110; 111; 116]) ;; word x251 3%nat) ;; Ok (Z.eqb 544108404 x252));
    (x254 <- (x253 <- (make_flex_data_text_message true 5 2 1 0 2 4 [111; 112; 121; 114; 105; 103; 104; 116; 32; 110; 111; 116]) ;; flex_payload_as_string x253) ;; Ok (list_eqb x254 [111; 112; 121; 114; 105; 103; 104; 116; 32; 110; 111; 116]));
    (x258 <- (make_flex_data_text_message true 5 3 1 0 2 4 [105; 99; 101]) ;; Ok (is_flex_data_message x258));
    (x260 <- (x259 <- (make_flex_data_text_message true 5 3 1 0 2 4 [105; 99; 101]) ;; Ok (group x259)) ;; Ok (Z.eqb 5 x260));
    (x262 <- (x261 <- (make_flex_data_text_message true 5 3 1 0 2 4 [105; 99; 101]) ;; Ok (flex_format x261)) ;; Ok (Z.eqb 3 x262));
    (x264 <- (x263 <- (make_flex_data_text_message true 5 3 1 0 2 4 [105; 99; 101]) ;; Ok (flex_address x263)) ;; Ok (Z.eqb 1 x264));
    (x266 <- (x265 <- (make_flex_data_text_message true 5 3 1 0 2 4 [105; 99; 101]) ;; Ok (flex_channel x265)) ;; Ok (Z.eqb 0 x266));
    (x268 <- (x267 <- (make_flex_data_text_message true 5 3 1 0 2 4 [105; 99; 101]) ;; Ok (flex_status_bank x267)) ;; Ok (Z.eqb 2 x268));
    (x270 <- (x269 <- (make_flex_data_text_message true 5 3 1 0 2 4 [105; 99; 101]) ;; Ok (flex_status x269)) ;; Ok (Z.eqb 4 x270));
    (x272 <- (x271 <- (make_flex_data_text_message true 5 3 1 0 2 4 [105; 99; 101]) ;; word x271 1%nat) ;; Ok (Z.eqb 1768121600 x272));
    (x274 <- (x273 <- (make_flex_data_text_message true 5 3 1 0 2 4 [105; 99; 101]) ;; word x273 2%nat) ;; Ok (Z.eqb 0 x274));
    (x276 <- (x275 <- (make_flex_data_text_message true 5 3 1 0 2 4 [105; 99; 101]) ;; word x275 3%nat) ;; Ok (Z.eqb 0 x276));
    (x278 <- (x277 <- (make_flex_data_text_message true 5 3 1 0 2 4 [105; 99; 101]) ;; flex_payload_as_string x277) ;; Ok (list_eqb x278 [105; 99; 101]));
    (x282 <- (x280 <- (x256 <- (x232 <- (x209 <- (x208 <- (make_flex_data_text_message true 5 1 1 0 2 4 [84; 104; 105; 115; 32; 105; 115; 32; 97; 32; 109; 117]) ;; flex_payload_as_string x208) ;; Ok (@app Z [] x209)) ;; x233 <- (x231 <- (make_flex_data_text_message true 5 2 1 0 2 4 [108; 116; 105; 45; 112; 97; 99; 107; 101; 116; 32; 99]) ;; flex_payload_as_string x231) ;; Ok (@app Z x232 x233)) ;; x257 <- (x255 <- (make_flex_data_text_message true 5 2 1 0 2 4 [111; 112; 121; 114; 105; 103; 104; 116; 32; 110; 111; 116]) ;; flex_payload_as_string x255) ;; Ok (@app Z x256 x257)) ;; x281 <- (x279 <- (make_flex_data_text_message true 5 3 1 0 2 4 [105; 99; 101]) ;; flex_payload_as_string x279) ;; Ok (@app Z x280 x281)) ;; Ok (list_eqb x282 [84; 104; 105; 115; 32; 105; 115; 32; 97; 32; 109; 117; 108; 116; 105; 45; 112; 97; 99; 107; 101; 116; 32; 99; 111; 112; 121; 114; 105; 103; 104; 116; 32; 110; 111; 116; 105; 99; 101]))].
Proof. vm_compute. repeat constructor. Qed.

(* line 346 *)
Example test_make_set_tempo_message : all_true [
    (x283 <- (make_set_tempo_message true 13 305419896) ;; Ok (is_flex_data_message x283));
    (x285 <- (x284 <- (make_set_tempo_message true 13 305419896) ;; Ok (group x284)) ;; Ok (Z.eqb 13 x285));
    (x287 <- (x286 <- (make_set_tempo_message true 13 305419896) ;; Ok (flex_format x286)) ;; Ok (Z.eqb 0 x287));
    (x289 <- (x288 <- (make_set_tempo_message true 13 305419896) ;; Ok (flex_address x288)) ;; Ok (Z.eqb 1 x289));
    (x291 <- (x290 <- (make_set_tempo_message true 13 305419896) ;; Ok (flex_channel x290)) ;; Ok (Z.eqb 0 x291));
    (x293 <- (x292 <- (make_set_tempo_message true 13 305419896) ;; Ok (flex_status_bank x292)) ;; Ok (Z.eqb 0 x293));
    (x295 <- (x294 <- (make_set_tempo_message true 13 305419896) ;; Ok (flex_status x294)) ;; Ok (Z.eqb 0 x295));
    (x297 <- (x296 <- (make_set_tempo_message true 13 305419896) ;; word x296 1%nat) ;; Ok (Z.eqb 305419896 x297));
    (x299 <- (x298 <- (make_set_tempo_message true 13 305419896) ;; word x298 2%nat) ;; Ok (Z.eqb 0 x299));
    (x301 <- (x300 <- (make_set_tempo_message true 13 305419896) ;; word x300 3%nat) ;; Ok (Z.eqb 0 x301));
    (x302 <- (make_set_tempo_message true 2 50000000) ;; Ok (is_flex_data_message x302));
    (x304 <- (x303 <- (make_set_tempo_message true 2 50000000) ;; Ok (group x303)) ;; Ok (Z.eqb 2 x304));
    (x306 <- (x305 <- (make_set_tempo_message true 2 50000000) ;; Ok (flex_format x305)) ;; Ok (Z.eqb 0 x306));
    (x308 <- (x307 <- (make_set_tempo_message true 2 50000000) ;; Ok (flex_address x307)) ;; Ok (Z.eqb 1 x308));
    (x310 <- (x309 <- (make_set_tempo_message true 2 50000000) ;; Ok (flex_channel x309)) ;; Ok (Z.eqb 0 x310));
    (x312 <- (x311 <- (make_set_tempo_message true 2 50000000) ;; Ok (flex_status_bank x311)) ;; Ok (Z.eqb 0 x312));
    (x314 <- (x313 <- (make_set_tempo_message true 2 50000000) ;; Ok (flex_status x313)) ;; Ok (Z.eqb 0 x314));
    (x316 <- (x315 <- (make_set_tempo_message true 2 50000000) ;; word x315 1%nat) ;; Ok (Z.eqb 50000000 x316));
    (x318 <- (x317 <- (make_set_tempo_message true 2 50000000) ;; word x317 2%nat) ;; Ok (Z.eqb 0 x318));
    (x320 <- (x319 <- (make_set_tempo_message true 2 50000000) ;; word x319 3%nat) ;; Ok (Z.eqb 0 x320))].
Proof. vm_compute. repeat constructor. Qed.

(* line 383 *)
Example test_make_set_time_signature_message : all_true [
    (x321 <- (make_set_time_signature_message true 7 3 4 8) ;; Ok (is_flex_data_message x321));
    (x323 <- (x322 <- (make_set_time_signature_message true 7 3 4 8) ;; Ok (group x322)) ;; Ok (Z.eqb 7 x323));
    (x325 <- (x324 <- (make_set_time_signature_message true 7 3 4 8) ;; Ok (flex_format x324)) ;; Ok (Z.eqb 0 x325));
    (x327 <- (x326 <- (make_set_time_signature_message true 7 3 4 8) ;; Ok (flex_address x326)) ;; Ok (Z.eqb 1 x327));
    (x329 <- (x328 <- (make_set_time_signature_message true 7 3 4 8) ;; Ok (flex_channel x328)) ;; Ok (Z.eqb 0 x329));
    (x331 <- (x330 <- (make_set_time_signature_message true 7 3 4 8) ;; Ok (flex_status_bank x330)) ;; Ok (Z.eqb 0 x331));
    (x333 <- (x332 <- (make_set_time_signature_message true 7 3 4 8) ;; Ok (flex_status x332)) ;; Ok (Z.eqb 1 x333));
    (x335 <- (x334 <- (make_set_time_signature_message true 7 3 4 8) ;; word x334 1%nat) ;; Ok (Z.eqb 50595840 x335));
    (x337 <- (x336 <- (make_set_time_signature_message true 7 3 4 8) ;; word x336 2%nat) ;; Ok (Z.eqb 0 x337));
    (x339 <- (x338 <- (make_set_time_signature_message true 7 3 4 8) ;; word x338 3%nat) ;; Ok (Z.eqb 0 x339));
    (x340 <- (make_set_time_signature_message true 4 16 8 32) ;; Ok (is_flex_data_message x340));
    (x342 <- (x341 <- (make_set_time_signature_message true 4 16 8 32) ;; Ok (group x341)) ;; Ok (Z.eqb 4 x342));
    (x344 <- (x343 <- (make_set_time_signature_message true 4 16 8 32) ;; Ok (flex_format x343)) ;; Ok (Z.eqb 0 x344));
    (x346 <- (x345 <- (make_set_time_signature_message true 4 16 8 32) ;; Ok (flex_address x345)) ;; Ok (Z.eqb 1 x346));
    (x348 <- (x347 <- (make_set_time_signature_message true 4 16 8 32) ;; Ok (flex_channel x347)) ;; Ok (Z.eqb 0 x348));
    (x350 <- (x349 <- (make_set_time_signature_message true 4 16 8 32) ;; Ok (flex_status_bank x349)) ;; Ok (Z.eqb 0 x350));
    (x352 <- (x351 <- (make_set_time_signature_message true 4 16 8 32) ;; Ok (flex_status x351)) ;; Ok (Z.eqb 1 x352));
    (x354 <- (x353 <- (make_set_time_signature_message true 4 16 8 32) ;; word x353 1%nat) ;; Ok (Z.eqb 268967936 x354));
    (x356 <- (x355 <- (make_set_time_signature_message true 4 16 8 32) ;; word x355 2%nat) ;; Ok (Z.eqb 0 x356));
    (x358 <- (x357 <- (make_set_time_signature_message true 4 16 8 32) ;; word x357 3%nat) ;; Ok (Z.eqb 0 x358))].
Proof. vm_compute. repeat constructor. Qed.

(* line 420 *)
Example test_make_set_metronome_message : all_true [
    (x359 <- (make_set_metronome_message true 1 24 4 0 0 0 0) ;; Ok (is_flex_data_message x359));
    (x361 <- (x360 <- (make_set_metronome_message true 1 24 4 0 0 0 0) ;; Ok (group x360)) ;; Ok (Z.eqb 1 x361));
    (x363 <- (x362 <- (make_set_metronome_message true 1 24 4 0 0 0 0) ;; Ok (flex_format x362)) ;; Ok (Z.eqb 0 x363));
    (x365 <- (x364 <- (make_set_metronome_message true 1 24 4 0 0 0 0) ;; Ok (flex_address x364)) ;; Ok (Z.eqb 1 x365));
    (x367 <- (x366 <- (make_set_metronome_message true 1 24 4 0 0 0 0) ;; Ok (flex_channel x366)) ;; Ok (Z.eqb 0 x367));
    (x369 <- (x368 <- (make_set_metronome_message true 1 24 4 0 0 0 0) ;; Ok (flex_status_bank x368)) ;; Ok (Z.eqb 0 x369));
    (x371 <- (x370 <- (make_set_metronome_message true 1 24 4 0 0 0 0) ;; Ok (flex_status x370)) ;; Ok (Z.eqb 2 x371));
    (x373 <- (x372 <- (make_set_metronome_message true 1 24 4 0 0 0 0) ;; word x372 1%nat) ;; Ok (Z.eqb 402915328 x373));
    (x375 <- (x374 <- (make_set_metronome_message true 1 24 4 0 0 0 0) ;; word x374 2%nat) ;; Ok (Z.eqb 0 x375));
    (x377 <- (x376 <- (make_set_metronome_message true 1 24 4 0 0 0 0) ;; word x376 3%nat) ;; Ok (Z.eqb 0 x377));
    (x378 <- (make_set_metronome_message true 10 1 2 3 4 5 6) ;; Ok (is_flex_data_message x378));
    (x380 <- (x379 <- (make_set_metronome_message true 10 1 2 3 4 5 6) ;; Ok (group x379)) ;; Ok (Z.eqb 10 x380));
    (x382 <- (x381 <- (make_set_metronome_message true 10 1 2 3 4 5 6) ;; Ok (flex_format x381)) ;; Ok (Z.eqb 0 x382));
    (x384 <- (x383 <- (make_set_metronome_message true 10 1 2 3 4 5 6) ;; Ok (flex_address x383)) ;; Ok (Z.eqb 1 x384));
    (x386 <- (x385 <- (make_set_metronome_message true 10 1 2 3 4 5 6) ;; Ok (flex_channel x385)) ;; Ok (Z.eqb 0 x386));
    (x388 <- (x387 <- (make_set_metronome_message true 10 1 2 3 4 5 6) ;; Ok (flex_status_bank x387)) ;; Ok (Z.eqb 0 x388));
    (x390 <- (x389 <- (make_set_metronome_message true 10 1 2 3 4 5 6) ;; Ok (flex_status x389)) ;; Ok (Z.eqb 2 x390));
    (x392 <- (x391 <- (make_set_metronome_message true 10 1 2 3 4 5 6) ;; word x391 1%nat) ;; Ok (Z.eqb 16909060 x392));
    (x394 <- (x393 <- (make_set_metronome_message true 10 1 2 3 4 5 6) ;; word x393 2%nat) ;; Ok (Z.eqb 84279296 x394));
    (x396 <- (x395 <- (make_set_metronome_message true 10 1 2 3 4 5 6) ;; word x395 3%nat) ;; Ok (Z.eqb 0 x396))].
Proof. vm_compute. repeat constructor. Qed.

(* line 457 *)
Example test_make_set_key_signature_message : all_true [
    (x397 <- (make_set_key_signature_message true 5 0 5 (-5) 3) ;; Ok (is_flex_data_message x397));
    (x399 <- (x398 <- (make_set_key_signature_message true 5 0 5 (-5) 3) ;; Ok (group x398)) ;; Ok (Z.eqb 5 x399));
    (x401 <- (x400 <- (make_set_key_signature_message true 5 0 5 (-5) 3) ;; Ok (flex_format x400)) ;; Ok (Z.eqb 0 x401));
    (x403 <- (x402 <- (make_set_key_signature_message true 5 0 5 (-5) 3) ;; Ok (flex_address x402)) ;; Ok (Z.eqb 0 x403));
    (x405 <- (x404 <- (make_set_key_signature_message true 5 0 5 (-5) 3) ;; Ok (flex_channel x404)) ;; Ok (Z.eqb 5 x405));
    (x407 <- (x406 <- (make_set_key_signature_message true 5 0 5 (-5) 3) ;; Ok (flex_status_bank x406)) ;; Ok (Z.eqb 0 x407));
    (x409 <- (x408 <- (make_set_key_signature_message true 5 0 5 (-5) 3) ;; Ok (flex_status x408)) ;; Ok (Z.eqb 5 x409));
    (x411 <- (x410 <- (make_set_key_signature_message true 5 0 5 (-5) 3) ;; word x410 1%nat) ;; Ok (Z.eqb 3003121664 x411));
    (x413 <- (x412 <- (make_set_key_signature_message true 5 0 5 (-5) 3) ;; word x412 2%nat) ;; Ok (Z.eqb 0 x413));
    (x415 <- (x414 <- (make_set_key_signature_message true 5 0 5 (-5) 3) ;; word x414 3%nat) ;; Ok (Z.eqb 0 x415));
    (x416 <- (make_set_key_signature_message true 12 1 0 7 2) ;; Ok (is_flex_data_message x416));
    (x418 <- (x417 <- (make_set_key_signature_message true 12 1 0 7 2) ;; Ok (group x417)) ;; Ok (Z.eqb 12 x418));
    (x420 <- (x419 <- (make_set_key_signature_message true 12 1 0 7 2) ;; Ok (flex_format x419)) ;; Ok (Z.eqb 0 x420));
    (x422 <- (x421 <- (make_set_key_signature_message true 12 1 0 7 2) ;; Ok (flex_address x421)) ;; Ok (Z.eqb 1 x422));
    (x424 <- (x423 <- (make_set_key_signature_message true 12 1 0 7 2) ;; Ok (flex_channel x423)) ;; Ok (Z.eqb 0 x424));
    (x426 <- (x425 <- (make_set_key_signature_message true 12 1 0 7 2) ;; Ok (flex_status_bank x425)) ;; Ok (Z.eqb 0 x426));
    (x428 <- (x427 <- (make_set_key_signature_message true 12 1 0 7 2) ;; Ok (flex_status x427)) ;; Ok (Z.eqb 5 x428));
    (x430 <- (x429 <- (make_set_key_signature_message true 12 1 0 7 2) ;; word x429 1%nat) ;; Ok (Z.eqb 1912602624 x430));
    (x432 <- (x431 <- (make_set_key_signature_message true 12 1 0 7 2) ;; word x431 2%nat) ;; Ok (Z.eqb 0 x432));
    (x434 <- (x433 <- (make_set_key_signature_message true 12 1 0 7 2) ;; word x433 3%nat) ;; Ok (Z.eqb 0 x434))].
Proof. vm_compute. repeat constructor. Qed.

(* line 494 *)
Example test_make_set_chord_message : all_true [
    (x435 <- (make_set_chord_message true 6 0 12 305419896 2596069104 558065031) ;; Ok (is_flex_data_message x435));
    (x437 <- (x436 <- (make_set_chord_message true 6 0 12 305419896 2596069104 558065031) ;; Ok (group x436)) ;; Ok (Z.eqb 6 x437));
    (x439 <- (x438 <- (make_set_chord_message true 6 0 12 305419896 2596069104 558065031) ;; Ok (flex_format x438)) ;; Ok (Z.eqb 0 x439));
    (x441 <- (x440 <- (make_set_chord_message true 6 0 12 305419896 2596069104 558065031) ;; Ok (flex_address x440)) ;; Ok (Z.eqb 0 x441));
    (x443 <- (x442 <- (make_set_chord_message true 6 0 12 305419896 2596069104 558065031) ;; Ok (flex_channel x442)) ;; Ok (Z.eqb 12 x443));
    (x445 <- (x444 <- (make_set_chord_message true 6 0 12 305419896 2596069104 558065031) ;; Ok (flex_status_bank x444)) ;; Ok (Z.eqb 0 x445));
    (x447 <- (x446 <- (make_set_chord_message true 6 0 12 305419896 2596069104 558065031) ;; Ok (flex_status x446)) ;; Ok (Z.eqb 6 x447));
    (x449 <- (x448 <- (make_set_chord_message true 6 0 12 305419896 2596069104 558065031) ;; word x448 1%nat) ;; Ok (Z.eqb 305419896 x449));
    (x451 <- (x450 <- (make_set_chord_message true 6 0 12 305419896 2596069104 558065031) ;; word x450 2%nat) ;; Ok (Z.eqb 2596069104 x451));
    (x453 <- (x452 <- (make_set_chord_message true 6 0 12 305419896 2596069104 558065031) ;; word x452 3%nat) ;; Ok (Z.eqb 558065031 x453));
    (x454 <- (make_set_chord_message true 6 0 12 558065031 2596069104 305419896) ;; Ok (is_flex_data_message x454));
    (x456 <- (x455 <- (make_set_chord_message true 6 0 12 558065031 2596069104 305419896) ;; Ok (group x455)) ;; Ok (Z.eqb 6 x456));
    (x458 <- (x457 <- (make_set_chord_message true 6 0 12 558065031 2596069104 305419896) ;; Ok (flex_format x457)) ;; Ok (Z.eqb 0 x458));
    (x460 <- (x459 <- (make_set_chord_message true 6 0 12 558065031 2596069104 305419896) ;; Ok (flex_address x459)) ;; Ok (Z.eqb 0 x460));
    (x462 <- (x461 <- (make_set_chord_message true 6 0 12 558065031 2596069104 305419896) ;; Ok (flex_channel x461)) ;; Ok (Z.eqb 12 x462));
    (x464 <- (x463 <- (make_set_chord_message true 6 0 12 558065031 2596069104 305419896) ;; Ok (flex_status_bank x463)) ;; Ok (Z.eqb 0 x464));
    (x466 <- (x465 <- (make_set_chord_message true 6 0 12 558065031 2596069104 305419896) ;; Ok (flex_status x465)) ;; Ok (Z.eqb 6 x466));
    (x468 <- (x467 <- (make_set_chord_message true 6 0 12 558065031 2596069104 305419896) ;; word x467 1%nat) ;; Ok (Z.eqb 558065031 x468));
    (x470 <- (x469 <- (make_set_chord_message true 6 0 12 558065031 2596069104 305419896) ;; word x469 2%nat) ;; Ok (Z.eqb 2596069104 x470));
    (x472 <- (x471 <- (make_set_chord_message true 6 0 12 558065031 2596069104 305419896) ;; word x471 3%nat) ;; Ok (Z.eqb 305419896 x472))].
Proof. vm_compute. repeat constructor. Qed.

(* ==== tests/stream_message_tests.cpp ==== *)


(* line 37 *)
Example test_constructors_ : all_true [
    (Ok (is_stream_message stream_message0));
    (x473 <- (word stream_message0 0%nat) ;; Ok (Z.eqb 4026531840 x473));
    (x474 <- (word stream_message0 1%nat) ;; Ok (Z.eqb 0 x474));
    (x475 <- (word stream_message0 2%nat) ;; Ok (Z.eqb 0 x475));
    (x476 <- (word stream_message0 3%nat) ;; Ok (Z.eqb 0 x476));
    (x477 <- (n_ <- (Ok (psize stream_message0)) ;; Ok (Z.of_nat n_)) ;; Ok (Z.eqb 4 x477));
    (Ok (Z.eqb 15 (type stream_message0)));
    (Ok (Z.eqb 0 (stream_format stream_message0)));
    (Ok (Z.eqb 0 (status stream_message0)));
    (Ok (is_stream_message (stream_message 1 0)));
    (x478 <- (word (stream_message 1 0) 0%nat) ;; Ok (Z.eqb 4026597376 x478));
    (x479 <- (word (stream_message 1 0) 1%nat) ;; Ok (Z.eqb 0 x479));
    (x480 <- (word (stream_message 1 0) 2%nat) ;; Ok (Z.eqb 0 x480));
    (x481 <- (word (stream_message 1 0) 3%nat) ;; Ok (Z.eqb 0 x481));
    (x482 <- (n_ <- (Ok (psize (stream_message 1 0))) ;; Ok (Z.of_nat n_)) ;; Ok (Z.eqb 4 x482));
    (Ok (Z.eqb 15 (type (stream_message 1 0))));
    (Ok (Z.eqb 0 (stream_format (stream_message 1 0))));
    (Ok (Z.eqb 1 (status (stream_message 1 0))));
    (Ok (is_stream_message (stream_message 18 2)));
    (x483 <- (word (stream_message 18 2) 0%nat) ;; Ok (Z.eqb 4161929216 x483));
    (x484 <- (word (stream_message 18 2) 1%nat) ;; Ok (Z.eqb 0 x484));
    (x485 <- (word (stream_message 18 2) 2%nat) ;; Ok (Z.eqb 0 x485));
    (x486 <- (word (stream_message 18 2) 3%nat) ;; Ok (Z.eqb 0 x486));
    (x487 <- (n_ <- (Ok (psize (stream_message 18 2))) ;; Ok (Z.of_nat n_)) ;; Ok (Z.eqb 4 x487));
    (Ok (Z.eqb 15 (type (stream_message 18 2))));
    (Ok (Z.eqb 2 (stream_format (stream_message 18 2))));
    (Ok (Z.eqb 18 (status (stream_message 18 2))));
    (Ok (is_stream_message (stream_message 4 1)));
    (x488 <- (word (stream_message 4 1) 0%nat) ;; Ok (Z.eqb 4093902848 x488));
    (x489 <- (word (stream_message 4 1) 1%nat) ;; Ok (Z.eqb 0 x489));
    (x490 <- (word (stream_message 4 1) 2%nat) ;; Ok (Z.eqb 0 x490));
    (x491 <- (word (stream_message 4 1) 3%nat) ;; Ok (Z.eqb 0 x491));
    (x492 <- (n_ <- (Ok (psize (stream_message 4 1))) ;; Ok (Z.of_nat n_)) ;; Ok (Z.eqb 4 x492));
    (Ok (Z.eqb 15 (type (stream_message 4 1))));
    (Ok (Z.eqb 1 (stream_format (stream_message 4 1))));
    (Ok (Z.eqb 4 (status (stream_message 4 1))));
    (Ok (is_stream_message (stream_message 3 3)));
    (x493 <- (word (stream_message 3 3) 0%nat) ;; Ok (Z.eqb 4228055040 x493));
    (x494 <- (word (stream_message 3 3) 1%nat) ;; Ok (Z.eqb 0 x494));
    (x495 <- (word (stream_message 3 3) 2%nat) ;; Ok (Z.eqb 0 x495));
    (x496 <- (word (stream_message 3 3) 3%nat) ;; Ok (Z.eqb 0 x496));
    (x497 <- (n_ <- (Ok (psize (stream_message 3 3))) ;; Ok (Z.of_nat n_)) ;; Ok (Z.eqb 4 x497));
    (Ok (Z.eqb 15 (type (stream_message 3 3))));
    (Ok (Z.eqb 3 (stream_format (stream_message 3 3))));
    (Ok (Z.eqb 3 (status (stream_message 3 3))))].
Proof. vm_compute. repeat constructor. Qed.

(* line 124 *)
Example test_set_format : all_true [
    (Ok (is_stream_message (set_stream_format stream_message0 3)));
    (x498 <- (word (set_stream_format stream_message0 3) 0%nat) ;; Ok (Z.eqb 4227858432 x498));
    (x499 <- (word (set_stream_format stream_message0 3) 1%nat) ;; Ok (Z.eqb 0 x499));
    (x500 <- (word (set_stream_format stream_message0 3) 2%nat) ;; Ok (Z.eqb 0 x500));
    (x501 <- (word (set_stream_format stream_message0 3) 3%nat) ;; Ok (Z.eqb 0 x501));
    (x502 <- (n_ <- (Ok (psize (set_stream_format stream_message0 3))) ;; Ok (Z.of_nat n_)) ;; Ok (Z.eqb 4 x502));
    (Ok (Z.eqb 15 (type (set_stream_format stream_message0 3))));
    (Ok (Z.eqb 3 (stream_format (set_stream_format stream_message0 3))));
    (Ok (Z.eqb 0 (status (set_stream_format stream_message0 3))))].
Proof. vm_compute. repeat constructor. Qed.

(* line 148 *)
Example test_endpoint_discovery : all_true [
    (x503 <- (make_endpoint_discovery_message 31 1 1) ;; Ok (is_stream_message x503));
    (x505 <- (x504 <- (make_endpoint_discovery_message 31 1 1) ;; word x504 0%nat) ;; Ok (Z.eqb 4026532097 x505));
    (x507 <- (x506 <- (make_endpoint_discovery_message 31 1 1) ;; word x506 1%nat) ;; Ok (Z.eqb 31 x507));
    (x509 <- (x508 <- (make_endpoint_discovery_message 31 1 1) ;; word x508 2%nat) ;; Ok (Z.eqb 0 x509));
    (x511 <- (x510 <- (make_endpoint_discovery_message 31 1 1) ;; word x510 3%nat) ;; Ok (Z.eqb 0 x511));
    (x513 <- (n_ <- (x512 <- (make_endpoint_discovery_message 31 1 1) ;; Ok (psize x512)) ;; Ok (Z.of_nat n_)) ;; Ok (Z.eqb 4 x513));
    (x515 <- (x514 <- (make_endpoint_discovery_message 31 1 1) ;; Ok (type x514)) ;; Ok (Z.eqb 15 x515));
    (x517 <- (x516 <- (make_endpoint_discovery_message 31 1 1) ;; Ok (stream_format x516)) ;; Ok (Z.eqb 0 x517));
    (x519 <- (x518 <- (make_endpoint_discovery_message 31 1 1) ;; Ok (status x518)) ;; Ok (Z.eqb 0 x519));
    (x521 <- (x520 <- (make_endpoint_discovery_message 31 1 1) ;; as_endpoint_discovery_view true x520) ;; Ok (opt_some x521));
    (x524 <- (x523 <- (x522 <- (make_endpoint_discovery_message 31 1 1) ;; endpoint_discovery_view true x522) ;; Ok (discovery_ump_version_major x523)) ;; Ok (Z.eqb 1 x524));
    (x526 <- (x525 <- (x522 <- (make_endpoint_discovery_message 31 1 1) ;; endpoint_discovery_view true x522) ;; Ok (discovery_ump_version_minor x525)) ;; Ok (Z.eqb 1 x526));
    (x528 <- (x527 <- (x522 <- (make_endpoint_discovery_message 31 1 1) ;; endpoint_discovery_view true x522) ;; Ok (discovery_ump_version x527)) ;; Ok (Z.eqb 257 x528));
    (x530 <- (x529 <- (x522 <- (make_endpoint_discovery_message 31 1 1) ;; endpoint_discovery_view true x522) ;; Ok (discovery_filter x529)) ;; Ok (Z.eqb 31 x530));
    (x531 <- (make_endpoint_discovery_message 4 2 3) ;; Ok (is_stream_message x531));
    (x533 <- (x532 <- (make_endpoint_discovery_message 4 2 3) ;; word x532 0%nat) ;; Ok (Z.eqb 4026532355 x533));
    (x535 <- (x534 <- (make_endpoint_discovery_message 4 2 3) ;; word x534 1%nat) ;; Ok (Z.eqb 4 x535));
    (x537 <- (x536 <- (make_endpoint_discovery_message 4 2 3) ;; word x536 2%nat) ;; Ok (Z.eqb 0 x537));
    (x539 <- (x538 <- (make_endpoint_discovery_message 4 2 3) ;; word x538 3%nat) ;; Ok (Z.eqb 0 x539));
    (x541 <- (n_ <- (x540 <- (make_endpoint_discovery_message 4 2 3) ;; Ok (psize x540)) ;; Ok (Z.of_nat n_)) ;; Ok (Z.eqb 4 x541));
    (x543 <- (x542 <- (make_endpoint_discovery_message 4 2 3) ;; Ok (type x542)) ;; Ok (Z.eqb 15 x543));
    (x545 <- (x544 <- (make_endpoint_discovery_message 4 2 3) ;; Ok (stream_format x544)) ;; Ok (Z.eqb 0 x545));
    (x547 <- (x546 <- (make_endpoint_discovery_message 4 2 3) ;; Ok (status x546)) ;; Ok (Z.eqb 0 x547));
    (x549 <- (x548 <- (make_endpoint_discovery_message 4 2 3) ;; as_endpoint_discovery_view true x548) ;; Ok (opt_some x549));
    (x552 <- (x551 <- (x550 <- (make_endpoint_discovery_message 4 2 3) ;; endpoint_discovery_view true x550) ;; Ok (discovery_ump_version_major x551)) ;; Ok (Z.eqb 2 x552));
    (x554 <- (x553 <- (x550 <- (make_endpoint_discovery_message 4 2 3) ;; endpoint_discovery_view true x550) ;; Ok (discovery_ump_version_minor x553)) ;; Ok (Z.eqb 3 x554));
    (x556 <- (x555 <- (x550 <- (make_endpoint_discovery_message 4 2 3) ;; endpoint_discovery_view true x550) ;; Ok (discovery_ump_version x555)) ;; Ok (Z.eqb 515 x556));
    (x558 <- (x557 <- (x550 <- (make_endpoint_discovery_message 4 2 3) ;; endpoint_discovery_view true x550) ;; Ok (discovery_filter x557)) ;; Ok (Z.eqb 4 x558))].
Proof. vm_compute. repeat constructor. Qed.

(* line 203 *)
Example test_endpoint_discovery_view : all_true [
    (x559 <- (make_endpoint_discovery_message 4 2 3) ;; Ok (is_stream_message x559));
    (x561 <- (x560 <- (make_endpoint_discovery_message 4 2 3) ;; as_endpoint_discovery_view true x560) ;; Ok (opt_some x561));
    (x564 <- (x563 <- (x562 <- (make_endpoint_discovery_message 4 2 3) ;; endpoint_discovery_view true x562) ;; Ok (discovery_ump_version_major x563)) ;; Ok (Z.eqb 2 x564));
    (x566 <- (x565 <- (x562 <- (make_endpoint_discovery_message 4 2 3) ;; endpoint_discovery_view true x562) ;; Ok (discovery_ump_version_minor x565)) ;; Ok (Z.eqb 3 x566));
    (x568 <- (x567 <- (x562 <- (make_endpoint_discovery_message 4 2 3) ;; endpoint_discovery_view true x562) ;; Ok (discovery_ump_version x567)) ;; Ok (Z.eqb 515 x568));
    (x570 <- (x569 <- (x562 <- (make_endpoint_discovery_message 4 2 3) ;; endpoint_discovery_view true x562) ;; Ok (discovery_filter x569)) ;; Ok (Z.eqb 4 x570));
    (b_ <- (x571 <- (x562 <- (make_endpoint_discovery_message 4 2 3) ;; endpoint_discovery_view true x562) ;; Ok (requests_info x571)) ;; Ok (negb b_));
    (b_ <- (x572 <- (x562 <- (make_endpoint_discovery_message 4 2 3) ;; endpoint_discovery_view true x562) ;; Ok (requests_device_identity x572)) ;; Ok (negb b_));
    (x573 <- (x562 <- (make_endpoint_discovery_message 4 2 3) ;; endpoint_discovery_view true x562) ;; Ok (requests_name x573));
    (b_ <- (x574 <- (x562 <- (make_endpoint_discovery_message 4 2 3) ;; endpoint_discovery_view true x562) ;; Ok (requests_product_instance_id x574)) ;; Ok (negb b_));
    (b_ <- (x575 <- (x562 <- (make_endpoint_discovery_message 4 2 3) ;; endpoint_discovery_view true x562) ;; Ok (requests_stream_configuration x575)) ;; Ok (negb b_));
    (x576 <- (make_endpoint_discovery_message 6 1 1) ;; Ok (is_stream_message x576));
    (x578 <- (x577 <- (make_endpoint_discovery_message 6 1 1) ;; as_endpoint_discovery_view true x577) ;; Ok (opt_some x578));
    (x581 <- (x580 <- (x579 <- (make_endpoint_discovery_message 6 1 1) ;; endpoint_discovery_view true x579) ;; Ok (discovery_ump_version_major x580)) ;; Ok (Z.eqb 1 x581));
    (x583 <- (x582 <- (x579 <- (make_endpoint_discovery_message 6 1 1) ;; endpoint_discovery_view true x579) ;; Ok (discovery_ump_version_minor x582)) ;; Ok (Z.eqb 1 x583));
    (x585 <- (x584 <- (x579 <- (make_endpoint_discovery_message 6 1 1) ;; endpoint_discovery_view true x579) ;; Ok (discovery_ump_version x584)) ;; Ok (Z.eqb 257 x585));
    (x587 <- (x586 <- (x579 <- (make_endpoint_discovery_message 6 1 1) ;; endpoint_discovery_view true x579) ;; Ok (discovery_filter x586)) ;; Ok (Z.eqb 6 x587));
    (b_ <- (x588 <- (x579 <- (make_endpoint_discovery_message 6 1 1) ;; endpoint_discovery_view true x579) ;; Ok (requests_info x588)) ;; Ok (negb b_));
    (x589 <- (x579 <- (make_endpoint_discovery_message 6 1 1) ;; endpoint_discovery_view true x579) ;; Ok (requests_device_identity x589));
    (x590 <- (x579 <- (make_endpoint_discovery_message 6 1 1) ;; endpoint_discovery_view true x579) ;; Ok (requests_name x590));
    (b_ <- (x591 <- (x579 <- (make_endpoint_discovery_message 6 1 1) ;; endpoint_discovery_view true x579) ;; Ok (requests_product_instance_id x591)) ;; Ok (negb b_));
    (b_ <- (x592 <- (x579 <- (make_endpoint_discovery_message 6 1 1) ;; endpoint_discovery_view true x579) ;; Ok (requests_stream_configuration x592)) ;; Ok (negb b_));
    (x594 <- (x593 <- (make_endpoint_discovery_message 1 1 1) ;; endpoint_discovery_view true x593) ;; Ok (requests_info x594));
    (b_ <- (x595 <- (x593 <- (make_endpoint_discovery_message 1 1 1) ;; endpoint_discovery_view true x593) ;; Ok (requests_device_identity x595)) ;; Ok (negb b_));
    (b_ <- (x596 <- (x593 <- (make_endpoint_discovery_message 1 1 1) ;; endpoint_discovery_view true x593) ;; Ok (requests_name x596)) ;; Ok (negb b_));
    (b_ <- (x597 <- (x593 <- (make_endpoint_discovery_message 1 1 1) ;; endpoint_discovery_view true x593) ;; Ok (requests_product_instance_id x597)) ;; Ok (negb b_));
    (b_ <- (x598 <- (x593 <- (make_endpoint_discovery_message 1 1 1) ;; endpoint_discovery_view true x593) ;; Ok (requests_stream_configuration x598)) ;; Ok (negb b_));
    (b_ <- (x600 <- (x599 <- (make_endpoint_discovery_message 8 1 1) ;; endpoint_discovery_view true x599) ;; Ok (requests_info x600)) ;; Ok (negb b_));
    (b_ <- (x601 <- (x599 <- (make_endpoint_discovery_message 8 1 1) ;; endpoint_discovery_view true x599) ;; Ok (requests_device_identity x601)) ;; Ok (negb b_));
    (b_ <- (x602 <- (x599 <- (make_endpoint_discovery_message 8 1 1) ;; endpoint_discovery_view true x599) ;; Ok (requests_name x602)) ;; Ok (negb b_));
    (x603 <- (x599 <- (make_endpoint_discovery_message 8 1 1) ;; endpoint_discovery_view true x599) ;; Ok (requests_product_instance_id x603));
    (b_ <- (x604 <- (x599 <- (make_endpoint_discovery_message 8 1 1) ;; endpoint_discovery_view true x599) ;; Ok (requests_stream_configuration x604)) ;; Ok (negb b_));
    (b_ <- (x606 <- (x605 <- (make_endpoint_discovery_message 16 1 1) ;; endpoint_discovery_view true x605) ;; Ok (requests_info x606)) ;; Ok (negb b_));
    (b_ <- (x607 <- (x605 <- (make_endpoint_discovery_message 16 1 1) ;; endpoint_discovery_view true x605) ;; Ok (requests_device_identity x607)) ;; Ok (negb b_));
    (b_ <- (x608 <- (x605 <- (make_endpoint_discovery_message 16 1 1) ;; endpoint_discovery_view true x605) ;; Ok (requests_name x608)) ;; Ok (negb b_));
    (b_ <- (x609 <- (x605 <- (make_endpoint_discovery_message 16 1 1) ;; endpoint_discovery_view true x605) ;; Ok (requests_product_instance_id x609)) ;; Ok (negb b_));
    (x610 <- (x605 <- (make_endpoint_discovery_message 16 1 1) ;; endpoint_discovery_view true x605) ;; Ok (requests_stream_configuration x610));
    (b_ <- (x612 <- (x611 <- (make_endpoint_info_message 3 false 3 0 1 1) ;; as_endpoint_discovery_view true x611) ;; Ok (opt_some x612)) ;; Ok (negb b_))].
Proof. vm_compute. repeat constructor. Qed.

(* line 289 *)
Example test_endpoint_info : all_true [
    (x613 <- (make_endpoint_info_message 3 false 3 0 1 1) ;; Ok (is_stream_message x613));
    (x615 <- (x614 <- (make_endpoint_info_message 3 false 3 0 1 1) ;; word x614 0%nat) ;; Ok (Z.eqb 4026597633 x615));
    (x617 <- (x616 <- (make_endpoint_info_message 3 false 3 0 1 1) ;; word x616 1%nat) ;; Ok (Z.eqb 50332416 x617));
    (x619 <- (x618 <- (make_endpoint_info_message 3 false 3 0 1 1) ;; word x618 2%nat) ;; Ok (Z.eqb 0 x619));
    (x621 <- (x620 <- (make_endpoint_info_message 3 false 3 0 1 1) ;; word x620 3%nat) ;; Ok (Z.eqb 0 x621));
    (x623 <- (n_ <- (x622 <- (make_endpoint_info_message 3 false 3 0 1 1) ;; Ok (psize x622)) ;; Ok (Z.of_nat n_)) ;; Ok (Z.eqb 4 x623));
    (x625 <- (x624 <- (make_endpoint_info_message 3 false 3 0 1 1) ;; Ok (type x624)) ;; Ok (Z.eqb 15 x625));
    (x627 <- (x626 <- (make_endpoint_info_message 3 false 3 0 1 1) ;; Ok (stream_format x626)) ;; Ok (Z.eqb 0 x627));
    (x629 <- (x628 <- (make_endpoint_info_message 3 false 3 0 1 1) ;; Ok (status x628)) ;; Ok (Z.eqb 1 x629));
    (x631 <- (x630 <- (make_endpoint_info_message 3 false 3 0 1 1) ;; as_endpoint_info_view true x630) ;; Ok (opt_some x631));
    (x634 <- (x633 <- (x632 <- (make_endpoint_info_message 3 false 3 0 1 1) ;; endpoint_info_view true x632) ;; Ok (info_ump_version_major x633)) ;; Ok (Z.eqb 1 x634));
    (x636 <- (x635 <- (x632 <- (make_endpoint_info_message 3 false 3 0 1 1) ;; endpoint_info_view true x632) ;; Ok (info_ump_version_minor x635)) ;; Ok (Z.eqb 1 x636));
    (x638 <- (x637 <- (x632 <- (make_endpoint_info_message 3 false 3 0 1 1) ;; endpoint_info_view true x632) ;; Ok (info_ump_version x637)) ;; Ok (Z.eqb 257 x638));
    (x640 <- (x639 <- (x632 <- (make_endpoint_info_message 3 false 3 0 1 1) ;; endpoint_info_view true x632) ;; num_function_blocks x639) ;; Ok (Z.eqb 3 x640));
    (b_ <- (x641 <- (x632 <- (make_endpoint_info_message 3 false 3 0 1 1) ;; endpoint_info_view true x632) ;; static_function_blocks x641) ;; Ok (negb b_));
    (x643 <- (x642 <- (x632 <- (make_endpoint_info_message 3 false 3 0 1 1) ;; endpoint_info_view true x632) ;; info_protocols x642) ;; Ok (Z.eqb 3 x643));
    (x645 <- (x644 <- (x632 <- (make_endpoint_info_message 3 false 3 0 1 1) ;; endpoint_info_view true x632) ;; info_extensions x644) ;; Ok (Z.eqb 0 x645));
    (x646 <- (make_endpoint_info_message 1 true 1 2 2 3) ;; Ok (is_stream_message x646));
    (x648 <- (x647 <- (make_endpoint_info_message 1 true 1 2 2 3) ;; word x647 0%nat) ;; Ok (Z.eqb 4026597891 x648));
    (x650 <- (x649 <- (make_endpoint_info_message 1 true 1 2 2 3) ;; word x649 1%nat) ;; Ok (Z.eqb 2164261122 x650));
    (x652 <- (x651 <- (make_endpoint_info_message 1 true 1 2 2 3) ;; word x651 2%nat) ;; Ok (Z.eqb 0 x652));
    (x654 <- (x653 <- (make_endpoint_info_message 1 true 1 2 2 3) ;; word x653 3%nat) ;; Ok (Z.eqb 0 x654));
    (x656 <- (n_ <- (x655 <- (make_endpoint_info_message 1 true 1 2 2 3) ;; Ok (psize x655)) ;; Ok (Z.of_nat n_)) ;; Ok (Z.eqb 4 x656));
    (x658 <- (x657 <- (make_endpoint_info_message 1 true 1 2 2 3) ;; Ok (type x657)) ;; Ok (Z.eqb 15 x658));
    (x660 <- (x659 <- (make_endpoint_info_message 1 true 1 2 2 3) ;; Ok (stream_format x659)) ;; Ok (Z.eqb 0 x660));
    (x662 <- (x661 <- (make_endpoint_info_message 1 true 1 2 2 3) ;; Ok (status x661)) ;; Ok (Z.eqb 1 x662));
    (x664 <- (x663 <- (make_endpoint_info_message 1 true 1 2 2 3) ;; as_endpoint_info_view true x663) ;; Ok (opt_some x664));
    (x667 <- (x666 <- (x665 <- (make_endpoint_info_message 1 true 1 2 2 3) ;; endpoint_info_view true x665) ;; Ok (info_ump_version_major x666)) ;; Ok (Z.eqb 2 x667));
    (x669 <- (x668 <- (x665 <- (make_endpoint_info_message 1 true 1 2 2 3) ;; endpoint_info_view true x665) ;; Ok (info_ump_version_minor x668)) ;; Ok (Z.eqb 3 x669));
    (x671 <- (x670 <- (x665 <- (make_endpoint_info_message 1 true 1 2 2 3) ;; endpoint_info_view true x665) ;; Ok (info_ump_version x670)) ;; Ok (Z.eqb 515 x671));
    (x673 <- (x672 <- (x665 <- (make_endpoint_info_message 1 true 1 2 2 3) ;; endpoint_info_view true x665) ;; num_function_blocks x672) ;; Ok (Z.eqb 1 x673));
    (x674 <- (x665 <- (make_endpoint_info_message 1 true 1 2 2 3) ;; endpoint_info_view true x665) ;; static_function_blocks x674);
    (x676 <- (x675 <- (x665 <- (make_endpoint_info_message 1 true 1 2 2 3) ;; endpoint_info_view true x665) ;; info_protocols x675) ;; Ok (Z.eqb 1 x676));
    (x678 <- (x677 <- (x665 <- (make_endpoint_info_message 1 true 1 2 2 3) ;; endpoint_info_view true x665) ;; info_extensions x677) ;; Ok (Z.eqb 2 x678));
    (x679 <- (make_endpoint_info_message 0 false 2 1 1 1) ;; Ok (is_stream_message x679));
    (x681 <- (x680 <- (make_endpoint_info_message 0 false 2 1 1 1) ;; word x680 0%nat) ;; Ok (Z.eqb 4026597633 x681));
    (x683 <- (x682 <- (make_endpoint_info_message 0 false 2 1 1 1) ;; word x682 1%nat) ;; Ok (Z.eqb 513 x683));
    (x685 <- (x684 <- (make_endpoint_info_message 0 false 2 1 1 1) ;; word x684 2%nat) ;; Ok (Z.eqb 0 x685));
    (x687 <- (x686 <- (make_endpoint_info_message 0 false 2 1 1 1) ;; word x686 3%nat) ;; Ok (Z.eqb 0 x687));
    (x689 <- (n_ <- (x688 <- (make_endpoint_info_message 0 false 2 1 1 1) ;; Ok (psize x688)) ;; Ok (Z.of_nat n_)) ;; Ok (Z.eqb 4 x689));
    (x691 <- (x690 <- (make_endpoint_info_message 0 false 2 1 1 1) ;; Ok (type x690)) ;; Ok (Z.eqb 15 x691));
    (x693 <- (x692 <- (make_endpoint_info_message 0 false 2 1 1 1) ;; Ok (stream_format x692)) ;; Ok (Z.eqb 0 x693));
    (x695 <- (x694 <- (make_endpoint_info_message 0 false 2 1 1 1) ;; Ok (status x694)) ;; Ok (Z.eqb 1 x695));
    (x697 <- (x696 <- (make_endpoint_info_message 0 false 2 1 1 1) ;; as_endpoint_info_view true x696) ;; Ok (opt_some x697));
    (x700 <- (x699 <- (x698 <- (make_endpoint_info_message 0 false 2 1 1 1) ;; endpoint_info_view true x698) ;; Ok (info_ump_version_major x699)) ;; Ok (Z.eqb 1 x700));
    (x702 <- (x701 <- (x698 <- (make_endpoint_info_message 0 false 2 1 1 1) ;; endpoint_info_view true x698) ;; Ok (info_ump_version_minor x701)) ;; Ok (Z.eqb 1 x702));
    (x704 <- (x703 <- (x698 <- (make_endpoint_info_message 0 false 2 1 1 1) ;; endpoint_info_view true x698) ;; Ok (info_ump_version x703)) ;; Ok (Z.eqb 257 x704));
    (x706 <- (x705 <- (x698 <- (make_endpoint_info_message 0 false 2 1 1 1) ;; endpoint_info_view true x698) ;; num_function_blocks x705) ;; Ok (Z.eqb 0 x706));
    (b_ <- (x707 <- (x698 <- (make_endpoint_info_message 0 false 2 1 1 1) ;; endpoint_info_view true x698) ;; static_function_blocks x707) ;; Ok (negb b_));
    (x709 <- (x708 <- (x698 <- (make_endpoint_info_message 0 false 2 1 1 1) ;; endpoint_info_view true x698) ;; info_protocols x708) ;; Ok (Z.eqb 2 x709));
    (x711 <- (x710 <- (x698 <- (make_endpoint_info_message 0 false 2 1 1 1) ;; endpoint_info_view true x698) ;; info_extensions x710) ;; Ok (Z.eqb 1 x711))].
Proof. vm_compute. repeat constructor. Qed.

(* line 377 *)
Example test_endpoint_info_view : all_true [
    (x712 <- (make_endpoint_info_message 0 false 2 1 1 1) ;; Ok (is_stream_message x712));
    (x714 <- (x713 <- (make_endpoint_info_message 0 false 2 1 1 1) ;; as_endpoint_info_view true x713) ;; Ok (opt_some x714));
    (x717 <- (x716 <- (x715 <- (make_endpoint_info_message 0 false 2 1 1 1) ;; endpoint_info_view true x715) ;; Ok (info_ump_version_major x716)) ;; Ok (Z.eqb 1 x717));
    (x719 <- (x718 <- (x715 <- (make_endpoint_info_message 0 false 2 1 1 1) ;; endpoint_info_view true x715) ;; Ok (info_ump_version_minor x718)) ;; Ok (Z.eqb 1 x719));
    (x721 <- (x720 <- (x715 <- (make_endpoint_info_message 0 false 2 1 1 1) ;; endpoint_info_view true x715) ;; Ok (info_ump_version x720)) ;; Ok (Z.eqb 257 x721));
    (x723 <- (x722 <- (x715 <- (make_endpoint_info_message 0 false 2 1 1 1) ;; endpoint_info_view true x715) ;; num_function_blocks x722) ;; Ok (Z.eqb 0 x723));
    (b_ <- (x724 <- (x715 <- (make_endpoint_info_message 0 false 2 1 1 1) ;; endpoint_info_view true x715) ;; static_function_blocks x724) ;; Ok (negb b_));
    (x726 <- (x725 <- (x715 <- (make_endpoint_info_message 0 false 2 1 1 1) ;; endpoint_info_view true x715) ;; info_protocols x725) ;; Ok (Z.eqb 2 x726));
    (x728 <- (x727 <- (x715 <- (make_endpoint_info_message 0 false 2 1 1 1) ;; endpoint_info_view true x715) ;; info_extensions x727) ;; Ok (Z.eqb 1 x728));
    (x729 <- (make_endpoint_info_message 4 true 3 3 1 2) ;; Ok (is_stream_message x729));
    (x731 <- (x730 <- (make_endpoint_info_message 4 true 3 3 1 2) ;; as_endpoint_info_view true x730) ;; Ok (opt_some x731));
    (x734 <- (x733 <- (x732 <- (make_endpoint_info_message 4 true 3 3 1 2) ;; endpoint_info_view true x732) ;; Ok (info_ump_version_major x733)) ;; Ok (Z.eqb 1 x734));
    (x736 <- (x735 <- (x732 <- (make_endpoint_info_message 4 true 3 3 1 2) ;; endpoint_info_view true x732) ;; Ok (info_ump_version_minor x735)) ;; Ok (Z.eqb 2 x736));
    (x738 <- (x737 <- (x732 <- (make_endpoint_info_message 4 true 3 3 1 2) ;; endpoint_info_view true x732) ;; Ok (info_ump_version x737)) ;; Ok (Z.eqb 258 x738));
    (x740 <- (x739 <- (x732 <- (make_endpoint_info_message 4 true 3 3 1 2) ;; endpoint_info_view true x732) ;; num_function_blocks x739) ;; Ok (Z.eqb 4 x740));
    (x741 <- (x732 <- (make_endpoint_info_message 4 true 3 3 1 2) ;; endpoint_info_view true x732) ;; static_function_blocks x741);
    (x743 <- (x742 <- (x732 <- (make_endpoint_info_message 4 true 3 3 1 2) ;; endpoint_info_view true x732) ;; info_protocols x742) ;; Ok (Z.eqb 3 x743));
    (x745 <- (x744 <- (x732 <- (make_endpoint_info_message 4 true 3 3 1 2) ;; endpoint_info_view true x732) ;; info_extensions x744) ;; Ok (Z.eqb 3 x745));
    (b_ <- (x747 <- (x746 <- (make_endpoint_discovery_message 3 1 1) ;; as_endpoint_info_view true x746) ;; Ok (opt_some x747)) ;; Ok (negb b_))].
Proof. vm_compute. repeat constructor. Qed.

(* line 422 *)
Example test_device_identity : all_true [
    (Ok (is_stream_message (make_device_identity_message (mkDevId 8457 5936 49 65541))));
    (x748 <- (word (make_device_identity_message (mkDevId 8457 5936 49 65541)) 0%nat) ;; Ok (Z.eqb 4026662912 x748));
    (x749 <- (word (make_device_identity_message (mkDevId 8457 5936 49 65541)) 1%nat) ;; Ok (Z.eqb 8457 x749));
    (x750 <- (word (make_device_identity_message (mkDevId 8457 5936 49 65541)) 2%nat) ;; Ok (Z.eqb 808333568 x750));
    (x751 <- (word (make_device_identity_message (mkDevId 8457 5936 49 65541)) 3%nat) ;; Ok (Z.eqb 83887104 x751));
    (x752 <- (n_ <- (Ok (psize (make_device_identity_message (mkDevId 8457 5936 49 65541)))) ;; Ok (Z.of_nat n_)) ;; Ok (Z.eqb 4 x752));
    (Ok (Z.eqb 15 (type (make_device_identity_message (mkDevId 8457 5936 49 65541)))));
    (Ok (Z.eqb 0 (stream_format (make_device_identity_message (mkDevId 8457 5936 49 65541)))));
    (Ok (Z.eqb 2 (status (make_device_identity_message (mkDevId 8457 5936 49 65541)))));
    (x753 <- (as_device_identity_view true (make_device_identity_message (mkDevId 8457 5936 49 65541))) ;; Ok (opt_some x753));
    (x756 <- (x755 <- (x754 <- (device_identity_view true (make_device_identity_message (mkDevId 8457 5936 49 65541))) ;; Ok (stream_identity x754)) ;; Ok (di_manufacturer x755)) ;; Ok (Z.eqb (di_manufacturer (mkDevId 8457 5936 49 65541)) x756));
    (x758 <- (x757 <- (x754 <- (device_identity_view true (make_device_identity_message (mkDevId 8457 5936 49 65541))) ;; Ok (stream_identity x754)) ;; Ok (di_family x757)) ;; Ok (Z.eqb (di_family (mkDevId 8457 5936 49 65541)) x758));
    (x760 <- (x759 <- (x754 <- (device_identity_view true (make_device_identity_message (mkDevId 8457 5936 49 65541))) ;; Ok (stream_identity x754)) ;; Ok (di_model x759)) ;; Ok (Z.eqb (di_model (mkDevId 8457 5936 49 65541)) x760));
    (x762 <- (x761 <- (x754 <- (device_identity_view true (make_device_identity_message (mkDevId 8457 5936 49 65541))) ;; Ok (stream_identity x754)) ;; Ok (di_revision x761)) ;; Ok (Z.eqb (di_revision (mkDevId 8457 5936 49 65541)) x762));
    (Ok (is_stream_message (make_device_identity_message (mkDevId 458752 9265 10017 79837782))));
    (x763 <- (word (make_device_identity_message (mkDevId 458752 9265 10017 79837782)) 0%nat) ;; Ok (Z.eqb 4026662912 x763));
    (x764 <- (word (make_device_identity_message (mkDevId 458752 9265 10017 79837782)) 1%nat) ;; Ok (Z.eqb 458752 x764));
    (x765 <- (word (make_device_identity_message (mkDevId 458752 9265 10017 79837782)) 2%nat) ;; Ok (Z.eqb 826810702 x765));
    (x766 <- (word (make_device_identity_message (mkDevId 458752 9265 10017 79837782)) 3%nat) ;; Ok (Z.eqb 1450444838 x766));
    (x767 <- (n_ <- (Ok (psize (make_device_identity_message (mkDevId 458752 9265 10017 79837782)))) ;; Ok (Z.of_nat n_)) ;; Ok (Z.eqb 4 x767));
    (Ok (Z.eqb 15 (type (make_device_identity_message (mkDevId 458752 9265 10017 79837782)))));
    (Ok (Z.eqb 0 (stream_format (make_device_identity_message (mkDevId 458752 9265 10017 79837782)))));
    (Ok (Z.eqb 2 (status (make_device_identity_message (mkDevId 458752 9265 10017 79837782)))));
    (x768 <- (as_device_identity_view true (make_device_identity_message (mkDevId 458752 9265 10017 79837782))) ;; Ok (opt_some x768));
    (x771 <- (x770 <- (x769 <- (device_identity_view true (make_device_identity_message (mkDevId 458752 9265 10017 79837782))) ;; Ok (stream_identity x769)) ;; Ok (di_manufacturer x770)) ;; Ok (Z.eqb (di_manufacturer (mkDevId 458752 9265 10017 79837782)) x771));
    (x773 <- (x772 <- (x769 <- (device_identity_view true (make_device_identity_message (mkDevId 458752 9265 10017 79837782))) ;; Ok (stream_identity x769)) ;; Ok (di_family x772)) ;; Ok (Z.eqb (di_family (mkDevId 458752 9265 10017 79837782)) x773));
    (x775 <- (x774 <- (x769 <- (device_identity_view true (make_device_identity_message (mkDevId 458752 9265 10017 79837782))) ;; Ok (stream_identity x769)) ;; Ok (di_model x774)) ;; Ok (Z.eqb (di_model (mkDevId 458752 9265 10017 79837782)) x775));
    (x777 <- (x776 <- (x769 <- (device_identity_view true (make_device_identity_message (mkDevId 458752 9265 10017 79837782))) ;; Ok (stream_identity x769)) ;; Ok (di_revision x776)) ;; Ok (Z.eqb (di_revision (mkDevId 458752 9265 10017 79837782)) x777))].
Proof. vm_compute. repeat constructor. Qed.

(* line 481 *)
Example test_device_identity_view : all_true [
    (Ok (is_stream_message (make_device_identity_message (mkDevId 8457 5936 49 65541))));
    (x778 <- (as_device_identity_view true (make_device_identity_message (mkDevId 8457 5936 49 65541))) ;; Ok (opt_some x778));
    (x781 <- (x780 <- (x779 <- (device_identity_view true (make_device_identity_message (mkDevId 8457 5936 49 65541))) ;; Ok (stream_identity x779)) ;; Ok (di_manufacturer x780)) ;; Ok (Z.eqb (di_manufacturer (mkDevId 8457 5936 49 65541)) x781));
    (x783 <- (x782 <- (x779 <- (device_identity_view true (make_device_identity_message (mkDevId 8457 5936 49 65541))) ;; Ok (stream_identity x779)) ;; Ok (di_family x782)) ;; Ok (Z.eqb (di_family (mkDevId 8457 5936 49 65541)) x783));
    (x785 <- (x784 <- (x779 <- (device_identity_view true (make_device_identity_message (mkDevId 8457 5936 49 65541))) ;; Ok (stream_identity x779)) ;; Ok (di_model x784)) ;; Ok (Z.eqb (di_model (mkDevId 8457 5936 49 65541)) x785));
    (x787 <- (x786 <- (x779 <- (device_identity_view true (make_device_identity_message (mkDevId 8457 5936 49 65541))) ;; Ok (stream_identity x779)) ;; Ok (di_revision x786)) ;; Ok (Z.eqb (di_revision (mkDevId 8457 5936 49 65541)) x787));
    (b_ <- (x789 <- (x788 <- (make_endpoint_discovery_message 3 1 1) ;; as_device_identity_view true x788) ;; Ok (opt_some x789)) ;; Ok (negb b_))].
Proof. vm_compute. repeat constructor. Qed.

(* line 564 *)
Example test_endpoint_name : all_true [
    (x790 <- (make_endpoint_name_message true 0 [65; 32; 115; 104; 111; 114; 116; 32; 110; 97; 109; 101]) ;; Ok (is_stream_message x790));
    (x792 <- (x791 <- (make_endpoint_name_message true 0 [65; 32; 115; 104; 111; 114; 116; 32; 110; 97; 109; 101]) ;; word x791 0%nat) ;; Ok (Z.eqb 4026745120 x792));
    (x794 <- (x793 <- (make_endpoint_name_message true 0 [65; 32; 115; 104; 111; 114; 116; 32; 110; 97; 109; 101]) ;; word x793 1%nat) ;; Ok (Z.eqb 1936224114 x794));
    (x796 <- (x795 <- (make_endpoint_name_message true 0 [65; 32; 115; 104; 111; 114; 116; 32; 110; 97; 109; 101]) ;; word x795 2%nat) ;; Ok (Z.eqb 1948282465 x796));
    (x798 <- (x797 <- (make_endpoint_name_message true 0 [65; 32; 115; 104; 111; 114; 116; 32; 110; 97; 109; 101]) ;; word x797 3%nat) ;; Ok (Z.eqb 1835335680 x798));
    (x800 <- (n_ <- (x799 <- (make_endpoint_name_message true 0 [65; 32; 115; 104; 111; 114; 116; 32; 110; 97; 109; 101]) ;; Ok (psize x799)) ;; Ok (Z.of_nat n_)) ;; Ok (Z.eqb 4 x800));
    (x802 <- (x801 <- (make_endpoint_name_message true 0 [65; 32; 115; 104; 111; 114; 116; 32; 110; 97; 109; 101]) ;; Ok (type x801)) ;; Ok (Z.eqb 15 x802));
    (x804 <- (x803 <- (make_endpoint_name_message true 0 [65; 32; 115; 104; 111; 114; 116; 32; 110; 97; 109; 101]) ;; Ok (stream_format x803)) ;; Ok (Z.eqb 0 x804));
    (x806 <- (x805 <- (make_endpoint_name_message true 0 [65; 32; 115; 104; 111; 114; 116; 32; 110; 97; 109; 101]) ;; Ok (status x805)) ;; Ok (Z.eqb 3 x806));
    (x808 <- (x807 <- (make_endpoint_name_message true 0 [65; 32; 115; 104; 111; 114; 116; 32; 110; 97; 109; 101]) ;; as_endpoint_name_view true x807) ;; Ok (opt_some x808));
    (x811 <- (x810 <- (x809 <- (make_endpoint_name_message true 0 [65; 32; 115; 104; 111; 114; 116; 32; 110; 97; 109; 101]) ;; endpoint_name_view true x809) ;; Ok (endpoint_name_format x810)) ;; Ok (Z.eqb 0 x811));
    (x813 <- (x812 <- (x809 <- (make_endpoint_name_message true 0 [65; 32; 115; 104; 111; 114; 116; 32; 110; 97; 109; 101]) ;; endpoint_name_view true x809) ;; endpoint_name_payload x812) ;; Ok (list_eqb x813 [65; 32; 115; 104; 111; 114; 116; 32; 110; 97; 109; 101]));
    (x815 <- (x814 <- (make_endpoint_name_message true 1 [65; 32; 118; 101; 114; 121; 32; 108; 111; 110; 103; 32; 100; 101]) ;; word x814 0%nat) ;; Ok (Z.eqb 4093853984 x815));
    (x817 <- (x816 <- (make_endpoint_name_message true 1 [65; 32; 118; 101; 114; 121; 32; 108; 111; 110; 103; 32; 100; 101]) ;; word x816 1%nat) ;; Ok (Z.eqb 1986359929 x817));
    (x819 <- (x818 <- (make_endpoint_name_message true 1 [65; 32; 118; 101; 114; 121; 32; 108; 111; 110; 103; 32; 100; 101]) ;; word x818 2%nat) ;; Ok (Z.eqb 543977326 x819));
    (x821 <- (x820 <- (make_endpoint_name_message true 1 [65; 32; 118; 101; 114; 121; 32; 108; 111; 110; 103; 32; 100; 101]) ;; word x820 3%nat) ;; Ok (Z.eqb 1730176101 x821));
    (x823 <- (n_ <- (x822 <- (make_endpoint_name_message true 1 [65; 32; 118; 101; 114; 121; 32; 108; 111; 110; 103; 32; 100; 101]) ;; Ok (psize x822)) ;; Ok (Z.of_nat n_)) ;; Ok (Z.eqb 4 x823));
    (x825 <- (x824 <- (make_endpoint_name_message true 1 [65; 32; 118; 101; 114; 121; 32; 108; 111; 110; 103; 32; 100; 101]) ;; Ok (type x824)) ;; Ok (Z.eqb 15 x825));
    (x827 <- (x826 <- (make_endpoint_name_message true 1 [65; 32; 118; 101; 114; 121; 32; 108; 111; 110; 103; 32; 100; 101]) ;; Ok (stream_format x826)) ;; Ok (Z.eqb 1 x827));
    (x829 <- (x828 <- (make_endpoint_name_message true 1 [65; 32; 118; 101; 114; 121; 32; 108; 111; 110; 103; 32; 100; 101]) ;; Ok (status x828)) ;; Ok (Z.eqb 3 x829));
    (x831 <- (x830 <- (make_endpoint_name_message true 1 [65; 32; 118; 101; 114; 121; 32; 108; 111; 110; 103; 32; 100; 101]) ;; as_endpoint_name_view true x830) ;; Ok (opt_some x831));
    (x834 <- (x833 <- (x832 <- (make_endpoint_name_message true 1 [65; 32; 118; 101; 114; 121; 32; 108; 111; 110; 103; 32; 100; 101]) ;; endpoint_name_view true x832) ;; Ok (endpoint_name_format x833)) ;; Ok (Z.eqb 1 x834));
    (x836 <- (x835 <- (x832 <- (make_endpoint_name_message true 1 [65; 32; 118; 101; 114; 121; 32; 108; 111; 110; 103; 32; 100; 101]) ;; endpoint_name_view true x832) ;; endpoint_name_payload x835) ;; Ok (list_eqb x836 [65; 32; 118; 101; 114; 121; 32; 108; 111; 110; 103; 32; 100; 101]));
    (x837 <- (make_endpoint_name_message true 2 [118; 105; 99; 101; 32; 110; 97; 109; 101; 32; 105; 110; 32; 116]) ;; Ok (is_stream_message x837));
    (x839 <- (x838 <- (make_endpoint_name_message true 2 [118; 105; 99; 101; 32; 110; 97; 109; 101; 32; 105; 110; 32; 116]) ;; word x838 0%nat) ;; Ok (Z.eqb 4160976489 x839));
    (x841 <- (x840 <- (make_endpoint_name_message true 2 [118; 105; 99; 101; 32; 110; 97; 109; 101; 32; 105; 110; 32; 116]) ;; word x840 1%nat) ;; Ok (Z.eqb 1667571822 x841));
    (x843 <- (x842 <- (make_endpoint_name_message true 2 [118; 105; 99; 101; 32; 110; 97; 109; 101; 32; 105; 110; 32; 116]) ;; word x842 2%nat) ;; Ok (Z.eqb 1634559264 x843));
    (x845 <- (x844 <- (make_endpoint_name_message true 2 [118; 105; 99; 101; 32; 110; 97; 109; 101; 32; 105; 110; 32; 116]) ;; word x844 3%nat) ;; Ok (Z.eqb 1768824948 x845));
    (x847 <- (n_ <- (x846 <- (make_endpoint_name_message true 2 [118; 105; 99; 101; 32; 110; 97; 109; 101; 32; 105; 110; 32; 116]) ;; Ok (psize x846)) ;; Ok (Z.of_nat n_)) ;; Ok (Z.eqb 4 x847));
    (x849 <- (x848 <- (make_endpoint_name_message true 2 [118; 105; 99; 101; 32; 110; 97; 109; 101; 32; 105; 110; 32; 116]) ;; Ok (type x848)) ;; Ok (Z.eqb 15 x849));
    (x851 <- (x850 <- (make_endpoint_name_message true 2 [118; 105; 99; 101; 32; 110; 97; 109; 101; 32; 105; 110; 32; 116]) ;; Ok (stream_format x850)) ;; Ok (Z.eqb 2 x851));
    (x853 <- (x852 <- (make_endpoint_name_message true 2 [118; 105; 99; 101; 32; 110; 97; 109; 101; 32; 105; 110; 32; 116]) ;; Ok (status x852)) ;; Ok (Z.eqb 3 x853));
    (x855 <- (x854 <- (make_endpoint_name_message true 2 [118; 105; 99; 101; 32; 110; 97; 109; 101; 32; 105; 110; 32; 116]) ;; as_endpoint_name_view true x854) ;; Ok (opt_some x855));
    (x858 <- (x857 <- (x856 <- (make_endpoint_name_message true 2 [118; 105; 99; 101; 32; 110; 97; 109; 101; 32; 105; 110; 32; 116]) ;; endpoint_name_view true x856) ;; Ok (endpoint_name_format x857)) ;; Ok (Z.eqb 2 x858));
    (x860 <- (x859 <- (x856 <- (make_endpoint_name_message true 2 [118; 105; 99; 101; 32; 110; 97; 109; 101; 32; 105; 110; 32; 116]) ;; endpoint_name_view true x856) ;; endpoint_name_payload x859) ;; Ok (list_eqb x860 [118; 105; 99; 101; 32; 110; 97; 109; 101; 32; 105; 110; 32; 116]));
    (x861 <- (make_endpoint_name_message true 3 [104; 114; 101; 101; 32; 112; 97; 99; 107; 101; 116; 115]) ;; Ok (is_stream_message x861));
    (x863 <- (x862 <- (make_endpoint_name_message true 3 [104; 114; 101; 101; 32; 112; 97; 99; 107; 101; 116; 115]) ;; word x862 0%nat) ;; Ok (Z.eqb 4228081778 x863));
    (x865 <- (x864 <- (make_endpoint_name_message true 3 [104; 114; 101; 101; 32; 112; 97; 99; 107; 101; 116; 115]) ;; word x864 1%nat) ;; Ok (Z.eqb 1701126256 x865));
    (x867 <- (x866 <- (make_endpoint_name_message true 3 [104; 114; 101; 101; 32; 112; 97; 99; 107; 101; 116; 115]) ;; word x866 2%nat) ;; Ok (Z.eqb 1633905509 x867));
    (x869 <- (x868 <- (make_endpoint_name_message true 3 [104; 114; 101; 101; 32; 112; 97; 99; 107; 101; 116; 115]) ;; word x868 3%nat) ;; Ok (Z.eqb 1953693696 x869));
    (x871 <- (n_ <- (x870 <- (make_endpoint_name_message true 3 [104; 114; 101; 101; 32; 112; 97; 99; 107; 101; 116; 115]) ;; Ok (psize x870)) ;; Ok (Z.of_nat n_)) ;; Ok (Z.eqb 4 x871));
    (x873 <- (x872 <- (make_endpoint_name_message true 3 [104; 114; 101; 101; 32; 112; 97; 99; 107; 101; 116; 115]) ;; Ok (type x872)) ;; Ok (Z.eqb 15 x873));
    (x875 <- (x874 <- (make_endpoint_name_message true 3 [104; 114; 101; 101; 32; 112; 97; 99; 107; 101; 116; 115]) ;; Ok (stream_format x874)) ;; Ok (Z.eqb 3 x875));
    (x877 <- (x876 <- (make_endpoint_name_message true 3 [104; 114; 101; 101; 32; 112; 97; 99; 107; 101; 116; 115]) ;; Ok (status x876)) ;; Ok (Z.eqb 3 x877));
    (x879 <- (x878 <- (make_endpoint_name_message true 3 [104; 114; 101; 101; 32; 112; 97; 99; 107; 101; 116; 115]) ;; as_endpoint_name_view true x878) ;; Ok (opt_some x879));
    (x882 <- (x881 <- (x880 <- (make_endpoint_name_message true 3 [104; 114; 101; 101; 32; 112; 97; 99; 107; 101; 116; 115]) ;; endpoint_name_view true x880) ;; Ok (endpoint_name_format x881)) ;; Ok (Z.eqb 3 x882));
    (x884 <- (x883 <- (x880 <- (make_endpoint_name_message true 3 [104; 114; 101; 101; 32; 112; 97; 99; 107; 101; 116; 115]) ;; endpoint_name_view true x880) ;; endpoint_name_payload x883) ;; Ok (list_eqb x884 [104; 114; 101; 101; 32; 112; 97; 99; 107; 101; 116; 115]))].
Proof. vm_compute. repeat constructor. Qed.

(* line 659 *)
Example test_endpoint_name_view : all_true [
    (x885 <- (make_endpoint_name_message true 2 [118; 105; 99; 101; 32; 110; 97; 109; 101; 32; 105; 110; 32; 116]) ;; Ok (is_stream_message x885));
    (x887 <- (x886 <- (make_endpoint_name_message true 2 [118; 105; 99; 101; 32; 110; 97; 109; 101; 32; 105; 110; 32; 116]) ;; as_endpoint_name_view true x886) ;; Ok (opt_some x887));
    (x890 <- (x889 <- (x888 <- (make_endpoint_name_message true 2 [118; 105; 99; 101; 32; 110; 97; 109; 101; 32; 105; 110; 32; 116]) ;; endpoint_name_view true x888) ;; Ok (endpoint_name_format x889)) ;; Ok (Z.eqb 2 x890));
    (x892 <- (x891 <- (x888 <- (make_endpoint_name_message true 2 [118; 105; 99; 101; 32; 110; 97; 109; 101; 32; 105; 110; 32; 116]) ;; endpoint_name_view true x888) ;; endpoint_name_payload x891) ;; Ok (list_eqb x892 [118; 105; 99; 101; 32; 110; 97; 109; 101; 32; 105; 110; 32; 116]));
    (x893 <- (make_endpoint_name_message true 0 [65; 32; 78; 97; 109; 101]) ;; Ok (is_stream_message x893));
    (x895 <- (x894 <- (make_endpoint_name_message true 0 [65; 32; 78; 97; 109; 101]) ;; as_endpoint_name_view true x894) ;; Ok (opt_some x895));
    (x898 <- (x897 <- (make_endpoint_name_message true 0 [65; 32; 78; 97; 109; 101]) ;; Ok (stream_format x897)) ;; Ok (Z.eqb 0 x898));
    (x900 <- (x899 <- (x896 <- (make_endpoint_name_message true 0 [65; 32; 78; 97; 109; 101]) ;; endpoint_name_view true x896) ;; endpoint_name_payload x899) ;; Ok (list_eqb x900 [65; 32; 78; 97; 109; 101]));
    (b_ <- (x902 <- (x901 <- (make_endpoint_info_message 4 true 3 3 1 2) ;; as_endpoint_name_view true x901) ;; Ok (opt_some x902)) ;; Ok (negb b_))].
Proof. vm_compute. repeat constructor. Qed.

(* line 723 *)
Example test_product_instance_id : all_true [
    (x903 <- (make_product_instance_id_message true 0 [49; 52; 65; 68; 52; 67; 53; 72; 69; 53; 69; 65; 57; 70]) ;; Ok (is_stream_message x903));
    (x905 <- (x904 <- (make_product_instance_id_message true 0 [49; 52; 65; 68; 52; 67; 53; 72; 69; 53; 69; 65; 57; 70]) ;; word x904 0%nat) ;; Ok (Z.eqb 4026806580 x905));
    (x907 <- (x906 <- (make_product_instance_id_message true 0 [49; 52; 65; 68; 52; 67; 53; 72; 69; 53; 69; 65; 57; 70]) ;; word x906 1%nat) ;; Ok (Z.eqb 1094988867 x907));
    (x909 <- (x908 <- (make_product_instance_id_message true 0 [49; 52; 65; 68; 52; 67; 53; 72; 69; 53; 69; 65; 57; 70]) ;; word x908 2%nat) ;; Ok (Z.eqb 893928757 x909));
    (x911 <- (x910 <- (make_product_instance_id_message true 0 [49; 52; 65; 68; 52; 67; 53; 72; 69; 53; 69; 65; 57; 70]) ;; word x910 3%nat) ;; Ok (Z.eqb 1161902406 x911));
    (x913 <- (n_ <- (x912 <- (make_product_instance_id_message true 0 [49; 52; 65; 68; 52; 67; 53; 72; 69; 53; 69; 65; 57; 70]) ;; Ok (psize x912)) ;; Ok (Z.of_nat n_)) ;; Ok (Z.eqb 4 x913));
    (x915 <- (x914 <- (make_product_instance_id_message true 0 [49; 52; 65; 68; 52; 67; 53; 72; 69; 53; 69; 65; 57; 70]) ;; Ok (type x914)) ;; Ok (Z.eqb 15 x915));
    (x917 <- (x916 <- (make_product_instance_id_message true 0 [49; 52; 65; 68; 52; 67; 53; 72; 69; 53; 69; 65; 57; 70]) ;; Ok (stream_format x916)) ;; Ok (Z.eqb 0 x917));
    (x919 <- (x918 <- (make_product_instance_id_message true 0 [49; 52; 65; 68; 52; 67; 53; 72; 69; 53; 69; 65; 57; 70]) ;; Ok (status x918)) ;; Ok (Z.eqb 4 x919));
    (x921 <- (x920 <- (make_product_instance_id_message true 0 [49; 52; 65; 68; 52; 67; 53; 72; 69; 53; 69; 65; 57; 70]) ;; as_product_instance_id_view true x920) ;; Ok (opt_some x921));
    (x924 <- (x923 <- (x922 <- (make_product_instance_id_message true 0 [49; 52; 65; 68; 52; 67; 53; 72; 69; 53; 69; 65; 57; 70]) ;; product_instance_id_view true x922) ;; Ok (product_instance_id_format x923)) ;; Ok (Z.eqb 0 x924));
    (x926 <- (x925 <- (x922 <- (make_product_instance_id_message true 0 [49; 52; 65; 68; 52; 67; 53; 72; 69; 53; 69; 65; 57; 70]) ;; product_instance_id_view true x922) ;; product_instance_id_payload x925) ;; Ok (list_eqb x926 [49; 52; 65; 68; 52; 67; 53; 72; 69; 53; 69; 65; 57; 70]));
    (x927 <- (make_product_instance_id_message true 0 [49; 52; 65; 68; 52; 67; 53; 72; 69; 53; 69; 65; 57; 70]) ;; Ok (is_stream_message x927));
    (x929 <- (x928 <- (make_product_instance_id_message true 0 [49; 52; 65; 68; 52; 67; 53; 72; 69; 53; 69; 65; 57; 70]) ;; word x928 0%nat) ;; Ok (Z.eqb 4026806580 x929));
    (x931 <- (x930 <- (make_product_instance_id_message true 0 [49; 52; 65; 68; 52; 67; 53; 72; 69; 53; 69; 65; 57; 70]) ;; word x930 1%nat) ;; Ok (Z.eqb 1094988867 x931));
    (x933 <- (x932 <- (make_product_instance_id_message true 0 [49; 52; 65; 68; 52; 67; 53; 72; 69; 53; 69; 65; 57; 70]) ;; word x932 2%nat) ;; Ok (Z.eqb 893928757 x933));
    (x935 <- (x934 <- (make_product_instance_id_message true 0 [49; 52; 65; 68; 52; 67; 53; 72; 69; 53; 69; 65; 57; 70]) ;; word x934 3%nat) ;; Ok (Z.eqb 1161902406 x935));
    (x937 <- (n_ <- (x936 <- (make_product_instance_id_message true 0 [49; 52; 65; 68; 52; 67; 53; 72; 69; 53; 69; 65; 57; 70]) ;; Ok (psize x936)) ;; Ok (Z.of_nat n_)) ;; Ok (Z.eqb 4 x937));
    (x939 <- (x938 <- (make_product_instance_id_message true 0 [49; 52; 65; 68; 52; 67; 53; 72; 69; 53; 69; 65; 57; 70]) ;; Ok (type x938)) ;; Ok (Z.eqb 15 x939));
    (x941 <- (x940 <- (make_product_instance_id_message true 0 [49; 52; 65; 68; 52; 67; 53; 72; 69; 53; 69; 65; 57; 70]) ;; Ok (stream_format x940)) ;; Ok (Z.eqb 0 x941));
    (x943 <- (x942 <- (make_product_instance_id_message true 0 [49; 52; 65; 68; 52; 67; 53; 72; 69; 53; 69; 65; 57; 70]) ;; Ok (status x942)) ;; Ok (Z.eqb 4 x943))].
Proof. vm_compute. repeat constructor. Qed.

(* line 768 *)
Example test_product_instance_id_view : all_true [
    (x944 <- (make_product_instance_id_message true 0 [49; 52; 65; 68; 52; 67; 53; 72; 69; 53; 69; 65; 57; 70]) ;; Ok (is_stream_message x944));
    (x946 <- (x945 <- (make_product_instance_id_message true 0 [49; 52; 65; 68; 52; 67; 53; 72; 69; 53; 69; 65; 57; 70]) ;; as_product_instance_id_view true x945) ;; Ok (opt_some x946));
    (x949 <- (x948 <- (x947 <- (make_product_instance_id_message true 0 [49; 52; 65; 68; 52; 67; 53; 72; 69; 53; 69; 65; 57; 70]) ;; product_instance_id_view true x947) ;; Ok (product_instance_id_format x948)) ;; Ok (Z.eqb 0 x949));
    (x951 <- (x950 <- (x947 <- (make_product_instance_id_message true 0 [49; 52; 65; 68; 52; 67; 53; 72; 69; 53; 69; 65; 57; 70]) ;; product_instance_id_view true x947) ;; product_instance_id_payload x950) ;; Ok (list_eqb x951 [49; 52; 65; 68; 52; 67; 53; 72; 69; 53; 69; 65; 57; 70]));
    (x952 <- (make_product_instance_id_message true 0 [65; 66; 67; 68; 69]) ;; Ok (is_stream_message x952));
    (x954 <- (x953 <- (make_product_instance_id_message true 0 [65; 66; 67; 68; 69]) ;; as_product_instance_id_view true x953) ;; Ok (opt_some x954));
    (x957 <- (x956 <- (x955 <- (make_product_instance_id_message true 0 [65; 66; 67; 68; 69]) ;; product_instance_id_view true x955) ;; Ok (product_instance_id_format x956)) ;; Ok (Z.eqb 0 x957));
    (x959 <- (x958 <- (x955 <- (make_product_instance_id_message true 0 [65; 66; 67; 68; 69]) ;; product_instance_id_view true x955) ;; product_instance_id_payload x958) ;; Ok (list_eqb x959 [65; 66; 67; 68; 69]));
    (b_ <- (x961 <- (x960 <- (make_endpoint_name_message true 2 [118; 105; 99; 101; 32; 110; 97; 109; 101; 32; 105; 110; 32; 116]) ;; as_product_instance_id_view true x960) ;; Ok (opt_some x961)) ;; Ok (negb b_))].
Proof. vm_compute. repeat constructor. Qed.

(* line 833 *)
Example test_stream_configuration_request : all_true [
    (x962 <- (make_stream_configuration_request true 2 0) ;; Ok (is_stream_message x962));
    (x964 <- (x963 <- (make_stream_configuration_request true 2 0) ;; word x963 0%nat) ;; Ok (Z.eqb 4026860032 x964));
    (x966 <- (x965 <- (make_stream_configuration_request true 2 0) ;; word x965 1%nat) ;; Ok (Z.eqb 0 x966));
    (x968 <- (x967 <- (make_stream_configuration_request true 2 0) ;; word x967 2%nat) ;; Ok (Z.eqb 0 x968));
    (x970 <- (x969 <- (make_stream_configuration_request true 2 0) ;; word x969 3%nat) ;; Ok (Z.eqb 0 x970));
    (x972 <- (n_ <- (x971 <- (make_stream_configuration_request true 2 0) ;; Ok (psize x971)) ;; Ok (Z.of_nat n_)) ;; Ok (Z.eqb 4 x972));
    (x974 <- (x973 <- (make_stream_configuration_request true 2 0) ;; Ok (type x973)) ;; Ok (Z.eqb 15 x974));
    (x976 <- (x975 <- (make_stream_configuration_request true 2 0) ;; Ok (status x975)) ;; Ok (Z.eqb 5 x976));
    (x978 <- (x977 <- (make_stream_configuration_request true 2 0) ;; as_stream_configuration_view true x977) ;; Ok (opt_some x978));
    (x981 <- (x980 <- (x979 <- (make_stream_configuration_request true 2 0) ;; stream_configuration_view true x979) ;; Ok (configuration_protocol x980)) ;; Ok (Z.eqb 2 x981));
    (x983 <- (x982 <- (x979 <- (make_stream_configuration_request true 2 0) ;; stream_configuration_view true x979) ;; Ok (configuration_extensions x982)) ;; Ok (Z.eqb 0 x983));
    (x984 <- (make_stream_configuration_request true 1 2) ;; Ok (is_stream_message x984));
    (x986 <- (x985 <- (make_stream_configuration_request true 1 2) ;; word x985 0%nat) ;; Ok (Z.eqb 4026859778 x986));
    (x988 <- (x987 <- (make_stream_configuration_request true 1 2) ;; word x987 1%nat) ;; Ok (Z.eqb 0 x988));
    (x990 <- (x989 <- (make_stream_configuration_request true 1 2) ;; word x989 2%nat) ;; Ok (Z.eqb 0 x990));
    (x992 <- (x991 <- (make_stream_configuration_request true 1 2) ;; word x991 3%nat) ;; Ok (Z.eqb 0 x992));
    (x994 <- (n_ <- (x993 <- (make_stream_configuration_request true 1 2) ;; Ok (psize x993)) ;; Ok (Z.of_nat n_)) ;; Ok (Z.eqb 4 x994));
    (x996 <- (x995 <- (make_stream_configuration_request true 1 2) ;; Ok (type x995)) ;; Ok (Z.eqb 15 x996));
    (x998 <- (x997 <- (make_stream_configuration_request true 1 2) ;; Ok (status x997)) ;; Ok (Z.eqb 5 x998));
    (x1000 <- (x999 <- (make_stream_configuration_request true 1 2) ;; as_stream_configuration_view true x999) ;; Ok (opt_some x1000));
    (x1003 <- (x1002 <- (x1001 <- (make_stream_configuration_request true 1 2) ;; stream_configuration_view true x1001) ;; Ok (configuration_protocol x1002)) ;; Ok (Z.eqb 1 x1003));
    (x1005 <- (x1004 <- (x1001 <- (make_stream_configuration_request true 1 2) ;; stream_configuration_view true x1001) ;; Ok (configuration_extensions x1004)) ;; Ok (Z.eqb 2 x1005));
    (x1006 <- (make_stream_configuration_request true 2 3) ;; Ok (is_stream_message x1006));
    (x1008 <- (x1007 <- (make_stream_configuration_request true 2 3) ;; word x1007 0%nat) ;; Ok (Z.eqb 4026860035 x1008));
    (x1010 <- (x1009 <- (make_stream_configuration_request true 2 3) ;; word x1009 1%nat) ;; Ok (Z.eqb 0 x1010));
    (x1012 <- (x1011 <- (make_stream_configuration_request true 2 3) ;; word x1011 2%nat) ;; Ok (Z.eqb 0 x1012));
    (x1014 <- (x1013 <- (make_stream_configuration_request true 2 3) ;; word x1013 3%nat) ;; Ok (Z.eqb 0 x1014));
    (x1016 <- (n_ <- (x1015 <- (make_stream_configuration_request true 2 3) ;; Ok (psize x1015)) ;; Ok (Z.of_nat n_)) ;; Ok (Z.eqb 4 x1016));
    (x1018 <- (x1017 <- (make_stream_configuration_request true 2 3) ;; Ok (type x1017)) ;; Ok (Z.eqb 15 x1018));
    (x1020 <- (x1019 <- (make_stream_configuration_request true 2 3) ;; Ok (status x1019)) ;; Ok (Z.eqb 5 x1020));
    (x1022 <- (x1021 <- (make_stream_configuration_request true 2 3) ;; as_stream_configuration_view true x1021) ;; Ok (opt_some x1022));
    (x1025 <- (x1024 <- (x1023 <- (make_stream_configuration_request true 2 3) ;; stream_configuration_view true x1023) ;; Ok (configuration_protocol x1024)) ;; Ok (Z.eqb 2 x1025));
    (x1027 <- (x1026 <- (x1023 <- (make_stream_configuration_request true 2 3) ;; stream_configuration_view true x1023) ;; Ok (configuration_extensions x1026)) ;; Ok (Z.eqb 3 x1027));
    (b_ <- (x1029 <- (x1028 <- (make_endpoint_name_message true 2 [118; 105; 99; 101; 32; 110; 97; 109; 101; 32; 105; 110; 32; 116]) ;; as_endpoint_info_view true x1028) ;; Ok (opt_some x1029)) ;; Ok (negb b_))].
Proof. vm_compute. repeat constructor. Qed.

(* line 909 *)
Example test_stream_configuration_request_view : all_true [
    (x1030 <- (make_stream_configuration_request true 1 2) ;; Ok (is_stream_message x1030));
    (x1032 <- (x1031 <- (make_stream_configuration_request true 1 2) ;; as_stream_configuration_view true x1031) ;; Ok (opt_some x1032));
    (x1035 <- (x1034 <- (x1033 <- (make_stream_configuration_request true 1 2) ;; stream_configuration_view true x1033) ;; Ok (configuration_protocol x1034)) ;; Ok (Z.eqb 1 x1035));
    (x1037 <- (x1036 <- (x1033 <- (make_stream_configuration_request true 1 2) ;; stream_configuration_view true x1033) ;; Ok (configuration_extensions x1036)) ;; Ok (Z.eqb 2 x1037));
    (x1038 <- (make_stream_configuration_request true 2 1) ;; Ok (is_stream_message x1038));
    (x1040 <- (x1039 <- (make_stream_configuration_request true 2 1) ;; as_stream_configuration_view true x1039) ;; Ok (opt_some x1040));
    (x1043 <- (x1042 <- (x1041 <- (make_stream_configuration_request true 2 1) ;; stream_configuration_view true x1041) ;; Ok (configuration_protocol x1042)) ;; Ok (Z.eqb 2 x1043));
    (x1045 <- (x1044 <- (x1041 <- (make_stream_configuration_request true 2 1) ;; stream_configuration_view true x1041) ;; Ok (configuration_extensions x1044)) ;; Ok (Z.eqb 1 x1045));
    (b_ <- (x1047 <- (x1046 <- (make_endpoint_name_message true 2 [118; 105; 99; 101; 32; 110; 97; 109; 101; 32; 105; 110; 32; 116]) ;; as_stream_configuration_view true x1046) ;; Ok (opt_some x1047)) ;; Ok (negb b_))].
Proof. vm_compute. repeat constructor. Qed.

(* line 946 *)
Example test_make_stream_configuration_notification : all_true [
    (x1048 <- (make_stream_configuration_notification true 1 0) ;; Ok (is_stream_message x1048));
    (x1050 <- (x1049 <- (make_stream_configuration_notification true 1 0) ;; word x1049 0%nat) ;; Ok (Z.eqb 4026925312 x1050));
    (x1052 <- (x1051 <- (make_stream_configuration_notification true 1 0) ;; word x1051 1%nat) ;; Ok (Z.eqb 0 x1052));
    (x1054 <- (x1053 <- (make_stream_configuration_notification true 1 0) ;; word x1053 2%nat) ;; Ok (Z.eqb 0 x1054));
    (x1056 <- (x1055 <- (make_stream_configuration_notification true 1 0) ;; word x1055 3%nat) ;; Ok (Z.eqb 0 x1056));
    (x1058 <- (n_ <- (x1057 <- (make_stream_configuration_notification true 1 0) ;; Ok (psize x1057)) ;; Ok (Z.of_nat n_)) ;; Ok (Z.eqb 4 x1058));
    (x1060 <- (x1059 <- (make_stream_configuration_notification true 1 0) ;; Ok (type x1059)) ;; Ok (Z.eqb 15 x1060));
    (x1062 <- (x1061 <- (make_stream_configuration_notification true 1 0) ;; Ok (status x1061)) ;; Ok (Z.eqb 6 x1062));
    (x1064 <- (x1063 <- (make_stream_configuration_notification true 1 0) ;; as_stream_configuration_view true x1063) ;; Ok (opt_some x1064));
    (x1067 <- (x1066 <- (x1065 <- (make_stream_configuration_notification true 1 0) ;; stream_configuration_view true x1065) ;; Ok (configuration_protocol x1066)) ;; Ok (Z.eqb 1 x1067));
    (x1069 <- (x1068 <- (x1065 <- (make_stream_configuration_notification true 1 0) ;; stream_configuration_view true x1065) ;; Ok (configuration_extensions x1068)) ;; Ok (Z.eqb 0 x1069));
    (x1070 <- (make_stream_configuration_notification true 2 1) ;; Ok (is_stream_message x1070));
    (x1072 <- (x1071 <- (make_stream_configuration_notification true 2 1) ;; word x1071 0%nat) ;; Ok (Z.eqb 4026925569 x1072));
    (x1074 <- (x1073 <- (make_stream_configuration_notification true 2 1) ;; word x1073 1%nat) ;; Ok (Z.eqb 0 x1074));
    (x1076 <- (x1075 <- (make_stream_configuration_notification true 2 1) ;; word x1075 2%nat) ;; Ok (Z.eqb 0 x1076));
    (x1078 <- (x1077 <- (make_stream_configuration_notification true 2 1) ;; word x1077 3%nat) ;; Ok (Z.eqb 0 x1078));
    (x1080 <- (n_ <- (x1079 <- (make_stream_configuration_notification true 2 1) ;; Ok (psize x1079)) ;; Ok (Z.of_nat n_)) ;; Ok (Z.eqb 4 x1080));
    (x1082 <- (x1081 <- (make_stream_configuration_notification true 2 1) ;; Ok (type x1081)) ;; Ok (Z.eqb 15 x1082));
    (x1084 <- (x1083 <- (make_stream_configuration_notification true 2 1) ;; Ok (status x1083)) ;; Ok (Z.eqb 6 x1084));
    (x1086 <- (x1085 <- (make_stream_configuration_notification true 2 1) ;; as_stream_configuration_view true x1085) ;; Ok (opt_some x1086));
    (x1089 <- (x1088 <- (x1087 <- (make_stream_configuration_notification true 2 1) ;; stream_configuration_view true x1087) ;; Ok (configuration_protocol x1088)) ;; Ok (Z.eqb 2 x1089));
    (x1091 <- (x1090 <- (x1087 <- (make_stream_configuration_notification true 2 1) ;; stream_configuration_view true x1087) ;; Ok (configuration_extensions x1090)) ;; Ok (Z.eqb 1 x1091))].
Proof. vm_compute. repeat constructor. Qed.

(* line 996 *)
Example test_make_stream_configuration_notification_view : all_true [
    (x1092 <- (make_stream_configuration_notification true 2 1) ;; Ok (is_stream_message x1092));
    (x1094 <- (x1093 <- (make_stream_configuration_notification true 2 1) ;; as_stream_configuration_view true x1093) ;; Ok (opt_some x1094));
    (x1097 <- (x1096 <- (x1095 <- (make_stream_configuration_notification true 2 1) ;; stream_configuration_view true x1095) ;; Ok (configuration_protocol x1096)) ;; Ok (Z.eqb 2 x1097));
    (x1099 <- (x1098 <- (x1095 <- (make_stream_configuration_notification true 2 1) ;; stream_configuration_view true x1095) ;; Ok (configuration_extensions x1098)) ;; Ok (Z.eqb 1 x1099));
    (x1100 <- (make_stream_configuration_notification true 1 0) ;; Ok (is_stream_message x1100));
    (x1102 <- (x1101 <- (make_stream_configuration_notification true 1 0) ;; as_stream_configuration_view true x1101) ;; Ok (opt_some x1102));
    (x1105 <- (x1104 <- (x1103 <- (make_stream_configuration_notification true 1 0) ;; stream_configuration_view true x1103) ;; Ok (configuration_protocol x1104)) ;; Ok (Z.eqb 1 x1105));
    (x1107 <- (x1106 <- (x1103 <- (make_stream_configuration_notification true 1 0) ;; stream_configuration_view true x1103) ;; Ok (configuration_extensions x1106)) ;; Ok (Z.eqb 0 x1107));
    (b_ <- (x1108 <- (as_stream_configuration_view true (mkP 1090519040 0 0 0)) ;; Ok (opt_some x1108)) ;; Ok (negb b_))].
Proof. vm_compute. repeat constructor. Qed.

(* line 1032 *)
Example test_function_block_discovery : all_true [
    (x1109 <- (make_function_block_discovery_message true 255 3) ;; Ok (is_stream_message x1109));
    (x1111 <- (x1110 <- (make_function_block_discovery_message true 255 3) ;; word x1110 0%nat) ;; Ok (Z.eqb 4027645699 x1111));
    (x1113 <- (x1112 <- (make_function_block_discovery_message true 255 3) ;; word x1112 1%nat) ;; Ok (Z.eqb 0 x1113));
    (x1115 <- (x1114 <- (make_function_block_discovery_message true 255 3) ;; word x1114 2%nat) ;; Ok (Z.eqb 0 x1115));
    (x1117 <- (x1116 <- (make_function_block_discovery_message true 255 3) ;; word x1116 3%nat) ;; Ok (Z.eqb 0 x1117));
    (x1119 <- (n_ <- (x1118 <- (make_function_block_discovery_message true 255 3) ;; Ok (psize x1118)) ;; Ok (Z.of_nat n_)) ;; Ok (Z.eqb 4 x1119));
    (x1121 <- (x1120 <- (make_function_block_discovery_message true 255 3) ;; Ok (type x1120)) ;; Ok (Z.eqb 15 x1121));
    (x1123 <- (x1122 <- (make_function_block_discovery_message true 255 3) ;; Ok (stream_format x1122)) ;; Ok (Z.eqb 0 x1123));
    (x1125 <- (x1124 <- (make_function_block_discovery_message true 255 3) ;; Ok (status x1124)) ;; Ok (Z.eqb 16 x1125));
    (x1127 <- (x1126 <- (make_function_block_discovery_message true 255 3) ;; as_function_block_discovery_view true x1126) ;; Ok (opt_some x1127));
    (x1130 <- (x1129 <- (x1128 <- (make_function_block_discovery_message true 255 3) ;; function_block_discovery_view true x1128) ;; Ok (fb_discovery_block x1129)) ;; Ok (Z.eqb 255 x1130));
    (x1132 <- (x1131 <- (x1128 <- (make_function_block_discovery_message true 255 3) ;; function_block_discovery_view true x1128) ;; Ok (fb_discovery_filter x1131)) ;; Ok (Z.eqb 3 x1132));
    (x1133 <- (make_function_block_discovery_message true 5 2) ;; Ok (is_stream_message x1133));
    (x1135 <- (x1134 <- (make_function_block_discovery_message true 5 2) ;; word x1134 0%nat) ;; Ok (Z.eqb 4027581698 x1135));
    (x1137 <- (x1136 <- (make_function_block_discovery_message true 5 2) ;; word x1136 1%nat) ;; Ok (Z.eqb 0 x1137));
    (x1139 <- (x1138 <- (make_function_block_discovery_message true 5 2) ;; word x1138 2%nat) ;; Ok (Z.eqb 0 x1139));
    (x1141 <- (x1140 <- (make_function_block_discovery_message true 5 2) ;; word x1140 3%nat) ;; Ok (Z.eqb 0 x1141));
    (x1143 <- (n_ <- (x1142 <- (make_function_block_discovery_message true 5 2) ;; Ok (psize x1142)) ;; Ok (Z.of_nat n_)) ;; Ok (Z.eqb 4 x1143));
    (x1145 <- (x1144 <- (make_function_block_discovery_message true 5 2) ;; Ok (type x1144)) ;; Ok (Z.eqb 15 x1145));
    (x1147 <- (x1146 <- (make_function_block_discovery_message true 5 2) ;; Ok (stream_format x1146)) ;; Ok (Z.eqb 0 x1147));
    (x1149 <- (x1148 <- (make_function_block_discovery_message true 5 2) ;; Ok (status x1148)) ;; Ok (Z.eqb 16 x1149));
    (x1151 <- (x1150 <- (make_function_block_discovery_message true 5 2) ;; as_function_block_discovery_view true x1150) ;; Ok (opt_some x1151));
    (x1154 <- (x1153 <- (x1152 <- (make_function_block_discovery_message true 5 2) ;; function_block_discovery_view true x1152) ;; Ok (fb_discovery_block x1153)) ;; Ok (Z.eqb 5 x1154));
    (x1156 <- (x1155 <- (x1152 <- (make_function_block_discovery_message true 5 2) ;; function_block_discovery_view true x1152) ;; Ok (fb_discovery_filter x1155)) ;; Ok (Z.eqb 2 x1156))].
Proof. vm_compute. repeat constructor. Qed.

(* line 1084 *)
Example test_function_block_discovery_view : all_true [
    (x1157 <- (make_function_block_discovery_message true 5 2) ;; Ok (is_stream_message x1157));
    (x1159 <- (x1158 <- (make_function_block_discovery_message true 5 2) ;; as_function_block_discovery_view true x1158) ;; Ok (opt_some x1159));
    (x1162 <- (x1161 <- (x1160 <- (make_function_block_discovery_message true 5 2) ;; function_block_discovery_view true x1160) ;; Ok (fb_discovery_block x1161)) ;; Ok (Z.eqb 5 x1162));
    (x1164 <- (x1163 <- (x1160 <- (make_function_block_discovery_message true 5 2) ;; function_block_discovery_view true x1160) ;; Ok (fb_discovery_filter x1163)) ;; Ok (Z.eqb 2 x1164));
    (b_ <- (x1165 <- (x1160 <- (make_function_block_discovery_message true 5 2) ;; function_block_discovery_view true x1160) ;; Ok (requests_function_block x1165 0)) ;; Ok (negb b_));
    (x1166 <- (x1160 <- (make_function_block_discovery_message true 5 2) ;; function_block_discovery_view true x1160) ;; Ok (requests_function_block x1166 5));
    (x1167 <- (x1160 <- (make_function_block_discovery_message true 5 2) ;; function_block_discovery_view true x1160) ;; Ok (fb_requests_name x1167));
    (b_ <- (x1168 <- (x1160 <- (make_function_block_discovery_message true 5 2) ;; function_block_discovery_view true x1160) ;; Ok (fb_requests_info x1168)) ;; Ok (negb b_));
    (x1169 <- (make_function_block_discovery_message true 14 1) ;; Ok (is_stream_message x1169));
    (x1171 <- (x1170 <- (make_function_block_discovery_message true 14 1) ;; as_function_block_discovery_view true x1170) ;; Ok (opt_some x1171));
    (x1174 <- (x1173 <- (x1172 <- (make_function_block_discovery_message true 14 1) ;; function_block_discovery_view true x1172) ;; Ok (fb_discovery_block x1173)) ;; Ok (Z.eqb 14 x1174));
    (x1176 <- (x1175 <- (x1172 <- (make_function_block_discovery_message true 14 1) ;; function_block_discovery_view true x1172) ;; Ok (fb_discovery_filter x1175)) ;; Ok (Z.eqb 1 x1176));
    (b_ <- (x1177 <- (x1172 <- (make_function_block_discovery_message true 14 1) ;; function_block_discovery_view true x1172) ;; Ok (requests_function_block x1177 0)) ;; Ok (negb b_));
    (b_ <- (x1178 <- (x1172 <- (make_function_block_discovery_message true 14 1) ;; function_block_discovery_view true x1172) ;; Ok (requests_function_block x1178 5)) ;; Ok (negb b_));
    (x1179 <- (x1172 <- (make_function_block_discovery_message true 14 1) ;; function_block_discovery_view true x1172) ;; Ok (requests_function_block x1179 14));
    (b_ <- (x1180 <- (x1172 <- (make_function_block_discovery_message true 14 1) ;; function_block_discovery_view true x1172) ;; Ok (fb_requests_name x1180)) ;; Ok (negb b_));
    (x1181 <- (x1172 <- (make_function_block_discovery_message true 14 1) ;; function_block_discovery_view true x1172) ;; Ok (fb_requests_info x1181));
    (x1182 <- (make_function_block_discovery_message true 255 3) ;; Ok (is_stream_message x1182));
    (x1184 <- (x1183 <- (make_function_block_discovery_message true 255 3) ;; word x1183 0%nat) ;; Ok (Z.eqb 4027645699 x1184));
    (x1186 <- (x1185 <- (make_function_block_discovery_message true 255 3) ;; word x1185 1%nat) ;; Ok (Z.eqb 0 x1186));
    (x1188 <- (x1187 <- (make_function_block_discovery_message true 255 3) ;; word x1187 2%nat) ;; Ok (Z.eqb 0 x1188));
    (x1190 <- (x1189 <- (make_function_block_discovery_message true 255 3) ;; word x1189 3%nat) ;; Ok (Z.eqb 0 x1190));
    (x1192 <- (n_ <- (x1191 <- (make_function_block_discovery_message true 255 3) ;; Ok (psize x1191)) ;; Ok (Z.of_nat n_)) ;; Ok (Z.eqb 4 x1192));
    (x1194 <- (x1193 <- (make_function_block_discovery_message true 255 3) ;; Ok (type x1193)) ;; Ok (Z.eqb 15 x1194));
    (x1196 <- (x1195 <- (make_function_block_discovery_message true 255 3) ;; Ok (stream_format x1195)) ;; Ok (Z.eqb 0 x1196));
    (x1198 <- (x1197 <- (make_function_block_discovery_message true 255 3) ;; Ok (status x1197)) ;; Ok (Z.eqb 16 x1198));
    (x1200 <- (x1199 <- (make_function_block_discovery_message true 255 3) ;; as_function_block_discovery_view true x1199) ;; Ok (opt_some x1200));
    (x1203 <- (x1202 <- (x1201 <- (make_function_block_discovery_message true 255 3) ;; function_block_discovery_view true x1201) ;; Ok (fb_discovery_block x1202)) ;; Ok (Z.eqb 255 x1203));
    (x1205 <- (x1204 <- (x1201 <- (make_function_block_discovery_message true 255 3) ;; function_block_discovery_view true x1201) ;; Ok (fb_discovery_filter x1204)) ;; Ok (Z.eqb 3 x1205));
    (over (zrange 32 0) (fun b1206 => [
      (x1207 <- (x1201 <- (make_function_block_discovery_message true 255 3) ;; function_block_discovery_view true x1201) ;; Ok (requests_function_block x1207 b1206))]));
    (x1208 <- (x1201 <- (make_function_block_discovery_message true 255 3) ;; function_block_discovery_view true x1201) ;; Ok (fb_requests_name x1208));
    (x1209 <- (x1201 <- (make_function_block_discovery_message true 255 3) ;; function_block_discovery_view true x1201) ;; Ok (fb_requests_info x1209));
    (b_ <- (x1211 <- (x1210 <- (make_stream_configuration_request true 2 0) ;; as_function_block_discovery_view true x1210) ;; Ok (opt_some x1211)) ;; Ok (negb b_))].
Proof. vm_compute. repeat constructor. Qed.

(* line 1162 *)
Example test_function_block_info : all_true [
    (x1212 <- (make_function_block_info_message true 1 3 4 5) ;; Ok (is_stream_message x1212));
    (x1214 <- (x1213 <- (make_function_block_info_message true 1 3 4 5) ;; word x1213 0%nat) ;; Ok (Z.eqb 4027679027 x1214));
    (x1216 <- (x1215 <- (make_function_block_info_message true 1 3 4 5) ;; word x1215 1%nat) ;; Ok (Z.eqb 67436544 x1216));
    (x1218 <- (x1217 <- (make_function_block_info_message true 1 3 4 5) ;; word x1217 2%nat) ;; Ok (Z.eqb 0 x1218));
    (x1220 <- (x1219 <- (make_function_block_info_message true 1 3 4 5) ;; word x1219 3%nat) ;; Ok (Z.eqb 0 x1220));
    (x1222 <- (n_ <- (x1221 <- (make_function_block_info_message true 1 3 4 5) ;; Ok (psize x1221)) ;; Ok (Z.of_nat n_)) ;; Ok (Z.eqb 4 x1222));
    (x1224 <- (x1223 <- (make_function_block_info_message true 1 3 4 5) ;; Ok (type x1223)) ;; Ok (Z.eqb 15 x1224));
    (x1226 <- (x1225 <- (make_function_block_info_message true 1 3 4 5) ;; Ok (stream_format x1225)) ;; Ok (Z.eqb 0 x1226));
    (x1228 <- (x1227 <- (make_function_block_info_message true 1 3 4 5) ;; Ok (status x1227)) ;; Ok (Z.eqb 17 x1228));
    (x1230 <- (x1229 <- (make_function_block_info_message true 1 3 4 5) ;; as_function_block_info_view true x1229) ;; Ok (opt_some x1230));
    (x1232 <- (x1231 <- (make_function_block_info_message true 1 3 4 5) ;; function_block_info_view true x1231) ;; Ok (fb_active x1232));
    (x1234 <- (x1233 <- (x1231 <- (make_function_block_info_message true 1 3 4 5) ;; function_block_info_view true x1231) ;; fb_block x1233) ;; Ok (Z.eqb 1 x1234));
    (x1236 <- (x1235 <- (x1231 <- (make_function_block_info_message true 1 3 4 5) ;; function_block_info_view true x1231) ;; Ok (fb_direction x1235)) ;; Ok (Z.eqb 3 x1236));
    (x1238 <- (x1237 <- (x1231 <- (make_function_block_info_message true 1 3 4 5) ;; function_block_info_view true x1231) ;; Ok (fb_midi1 x1237)) ;; Ok (Z.eqb 0 x1238));
    (x1240 <- (x1239 <- (x1231 <- (make_function_block_info_message true 1 3 4 5) ;; function_block_info_view true x1231) ;; Ok (fb_ui_hint x1239)) ;; Ok (Z.eqb 3 x1240));
    (x1242 <- (x1241 <- (x1231 <- (make_function_block_info_message true 1 3 4 5) ;; function_block_info_view true x1231) ;; fb_first_group x1241) ;; Ok (Z.eqb 4 x1242));
    (x1244 <- (x1243 <- (x1231 <- (make_function_block_info_message true 1 3 4 5) ;; function_block_info_view true x1231) ;; fb_num_groups x1243) ;; Ok (Z.eqb 5 x1244));
    (x1246 <- (x1245 <- (x1231 <- (make_function_block_info_message true 1 3 4 5) ;; function_block_info_view true x1231) ;; fb_ci_version x1245) ;; Ok (Z.eqb 0 x1246));
    (x1248 <- (x1247 <- (x1231 <- (make_function_block_info_message true 1 3 4 5) ;; function_block_info_view true x1231) ;; fb_max_sysex8 x1247) ;; Ok (Z.eqb 0 x1248));
    (x1249 <- (make_function_block_info_message true 8 1 6 4) ;; Ok (is_stream_message x1249));
    (x1251 <- (x1250 <- (make_function_block_info_message true 8 1 6 4) ;; word x1250 0%nat) ;; Ok (Z.eqb 4027680785 x1251));
    (x1253 <- (x1252 <- (make_function_block_info_message true 8 1 6 4) ;; word x1252 1%nat) ;; Ok (Z.eqb 100925440 x1253));
    (x1255 <- (x1254 <- (make_function_block_info_message true 8 1 6 4) ;; word x1254 2%nat) ;; Ok (Z.eqb 0 x1255));
    (x1257 <- (x1256 <- (make_function_block_info_message true 8 1 6 4) ;; word x1256 3%nat) ;; Ok (Z.eqb 0 x1257));
    (x1259 <- (n_ <- (x1258 <- (make_function_block_info_message true 8 1 6 4) ;; Ok (psize x1258)) ;; Ok (Z.of_nat n_)) ;; Ok (Z.eqb 4 x1259));
    (x1261 <- (x1260 <- (make_function_block_info_message true 8 1 6 4) ;; Ok (type x1260)) ;; Ok (Z.eqb 15 x1261));
    (x1263 <- (x1262 <- (make_function_block_info_message true 8 1 6 4) ;; Ok (stream_format x1262)) ;; Ok (Z.eqb 0 x1263));
    (x1265 <- (x1264 <- (make_function_block_info_message true 8 1 6 4) ;; Ok (status x1264)) ;; Ok (Z.eqb 17 x1265));
    (x1267 <- (x1266 <- (make_function_block_info_message true 8 1 6 4) ;; as_function_block_info_view true x1266) ;; Ok (opt_some x1267));
    (x1269 <- (x1268 <- (make_function_block_info_message true 8 1 6 4) ;; function_block_info_view true x1268) ;; Ok (fb_active x1269));
    (x1271 <- (x1270 <- (x1268 <- (make_function_block_info_message true 8 1 6 4) ;; function_block_info_view true x1268) ;; fb_block x1270) ;; Ok (Z.eqb 8 x1271));
    (x1273 <- (x1272 <- (x1268 <- (make_function_block_info_message true 8 1 6 4) ;; function_block_info_view true x1268) ;; Ok (fb_direction x1272)) ;; Ok (Z.eqb 1 x1273));
    (x1275 <- (x1274 <- (x1268 <- (make_function_block_info_message true 8 1 6 4) ;; function_block_info_view true x1268) ;; Ok (fb_midi1 x1274)) ;; Ok (Z.eqb 0 x1275));
    (x1277 <- (x1276 <- (x1268 <- (make_function_block_info_message true 8 1 6 4) ;; function_block_info_view true x1268) ;; Ok (fb_ui_hint x1276)) ;; Ok (Z.eqb 1 x1277));
    (x1279 <- (x1278 <- (x1268 <- (make_function_block_info_message true 8 1 6 4) ;; function_block_info_view true x1268) ;; fb_first_group x1278) ;; Ok (Z.eqb 6 x1279));
    (x1281 <- (x1280 <- (x1268 <- (make_function_block_info_message true 8 1 6 4) ;; function_block_info_view true x1268) ;; fb_num_groups x1280) ;; Ok (Z.eqb 4 x1281));
    (x1283 <- (x1282 <- (x1268 <- (make_function_block_info_message true 8 1 6 4) ;; function_block_info_view true x1268) ;; fb_ci_version x1282) ;; Ok (Z.eqb 0 x1283));
    (x1285 <- (x1284 <- (x1268 <- (make_function_block_info_message true 8 1 6 4) ;; function_block_info_view true x1268) ;; fb_max_sysex8 x1284) ;; Ok (Z.eqb 0 x1285));
    (x1286 <- (make_function_block_info_message_options true 4 (mkFbOptions true 1 2 1 2 4) 3 1) ;; Ok (is_stream_message x1286));
    (x1288 <- (x1287 <- (make_function_block_info_message_options true 4 (mkFbOptions true 1 2 1 2 4) 3 1) ;; word x1287 0%nat) ;; Ok (Z.eqb 4027679769 x1288));
    (x1290 <- (x1289 <- (make_function_block_info_message_options true 4 (mkFbOptions true 1 2 1 2 4) 3 1) ;; word x1289 1%nat) ;; Ok (Z.eqb 50397700 x1290));
    (x1292 <- (x1291 <- (make_function_block_info_message_options true 4 (mkFbOptions true 1 2 1 2 4) 3 1) ;; word x1291 2%nat) ;; Ok (Z.eqb 0 x1292));
    (x1294 <- (x1293 <- (make_function_block_info_message_options true 4 (mkFbOptions true 1 2 1 2 4) 3 1) ;; word x1293 3%nat) ;; Ok (Z.eqb 0 x1294));
    (x1296 <- (n_ <- (x1295 <- (make_function_block_info_message_options true 4 (mkFbOptions true 1 2 1 2 4) 3 1) ;; Ok (psize x1295)) ;; Ok (Z.of_nat n_)) ;; Ok (Z.eqb 4 x1296));
    (x1298 <- (x1297 <- (make_function_block_info_message_options true 4 (mkFbOptions true 1 2 1 2 4) 3 1) ;; Ok (type x1297)) ;; Ok (Z.eqb 15 x1298));
    (x1300 <- (x1299 <- (make_function_block_info_message_options true 4 (mkFbOptions true 1 2 1 2 4) 3 1) ;; Ok (stream_format x1299)) ;; Ok (Z.eqb 0 x1300));
    (x1302 <- (x1301 <- (make_function_block_info_message_options true 4 (mkFbOptions true 1 2 1 2 4) 3 1) ;; Ok (status x1301)) ;; Ok (Z.eqb 17 x1302));
    (x1304 <- (x1303 <- (make_function_block_info_message_options true 4 (mkFbOptions true 1 2 1 2 4) 3 1) ;; as_function_block_info_view true x1303) ;; Ok (opt_some x1304));
    (x1306 <- (x1305 <- (make_function_block_info_message_options true 4 (mkFbOptions true 1 2 1 2 4) 3 1) ;; function_block_info_view true x1305) ;; Ok (fb_active x1306));
    (x1308 <- (x1307 <- (x1305 <- (make_function_block_info_message_options true 4 (mkFbOptions true 1 2 1 2 4) 3 1) ;; function_block_info_view true x1305) ;; fb_block x1307) ;; Ok (Z.eqb 4 x1308));
    (x1310 <- (x1309 <- (x1305 <- (make_function_block_info_message_options true 4 (mkFbOptions true 1 2 1 2 4) 3 1) ;; function_block_info_view true x1305) ;; Ok (fb_direction x1309)) ;; Ok (Z.eqb 1 x1310));
    (x1312 <- (x1311 <- (x1305 <- (make_function_block_info_message_options true 4 (mkFbOptions true 1 2 1 2 4) 3 1) ;; function_block_info_view true x1305) ;; Ok (fb_midi1 x1311)) ;; Ok (Z.eqb 2 x1312));
    (x1314 <- (x1313 <- (x1305 <- (make_function_block_info_message_options true 4 (mkFbOptions true 1 2 1 2 4) 3 1) ;; function_block_info_view true x1305) ;; fb_first_group x1313) ;; Ok (Z.eqb 3 x1314));
    (x1316 <- (x1315 <- (x1305 <- (make_function_block_info_message_options true 4 (mkFbOptions true 1 2 1 2 4) 3 1) ;; function_block_info_view true x1305) ;; fb_num_groups x1315) ;; Ok (Z.eqb 1 x1316));
    (x1318 <- (x1317 <- (x1305 <- (make_function_block_info_message_options true 4 (mkFbOptions true 1 2 1 2 4) 3 1) ;; function_block_info_view true x1305) ;; fb_ci_version x1317) ;; Ok (Z.eqb 2 x1318));
    (x1320 <- (x1319 <- (x1305 <- (make_function_block_info_message_options true 4 (mkFbOptions true 1 2 1 2 4) 3 1) ;; function_block_info_view true x1305) ;; fb_max_sysex8 x1319) ;; Ok (Z.eqb 4 x1320));
    (x1321 <- (make_function_block_info_message_options true 7 (mkFbOptions false 2 1 0 1 2) 8 3) ;; Ok (is_stream_message x1321));
    (x1323 <- (x1322 <- (make_function_block_info_message_options true 7 (mkFbOptions false 2 1 0 1 2) 8 3) ;; word x1322 0%nat) ;; Ok (Z.eqb 4027647782 x1323));
    (x1325 <- (x1324 <- (make_function_block_info_message_options true 7 (mkFbOptions false 2 1 0 1 2) 8 3) ;; word x1324 1%nat) ;; Ok (Z.eqb 134414594 x1325));
    (x1327 <- (x1326 <- (make_function_block_info_message_options true 7 (mkFbOptions false 2 1 0 1 2) 8 3) ;; word x1326 2%nat) ;; Ok (Z.eqb 0 x1327));
    (x1329 <- (x1328 <- (make_function_block_info_message_options true 7 (mkFbOptions false 2 1 0 1 2) 8 3) ;; word x1328 3%nat) ;; Ok (Z.eqb 0 x1329));
    (x1331 <- (n_ <- (x1330 <- (make_function_block_info_message_options true 7 (mkFbOptions false 2 1 0 1 2) 8 3) ;; Ok (psize x1330)) ;; Ok (Z.of_nat n_)) ;; Ok (Z.eqb 4 x1331));
    (x1333 <- (x1332 <- (make_function_block_info_message_options true 7 (mkFbOptions false 2 1 0 1 2) 8 3) ;; Ok (type x1332)) ;; Ok (Z.eqb 15 x1333));
    (x1335 <- (x1334 <- (make_function_block_info_message_options true 7 (mkFbOptions false 2 1 0 1 2) 8 3) ;; Ok (stream_format x1334)) ;; Ok (Z.eqb 0 x1335));
    (x1337 <- (x1336 <- (make_function_block_info_message_options true 7 (mkFbOptions false 2 1 0 1 2) 8 3) ;; Ok (status x1336)) ;; Ok (Z.eqb 17 x1337));
    (x1339 <- (x1338 <- (make_function_block_info_message_options true 7 (mkFbOptions false 2 1 0 1 2) 8 3) ;; as_function_block_info_view true x1338) ;; Ok (opt_some x1339));
    (b_ <- (x1341 <- (x1340 <- (make_function_block_info_message_options true 7 (mkFbOptions false 2 1 0 1 2) 8 3) ;; function_block_info_view true x1340) ;; Ok (fb_active x1341)) ;; Ok (negb b_));
    (x1343 <- (x1342 <- (x1340 <- (make_function_block_info_message_options true 7 (mkFbOptions false 2 1 0 1 2) 8 3) ;; function_block_info_view true x1340) ;; fb_block x1342) ;; Ok (Z.eqb 7 x1343));
    (x1345 <- (x1344 <- (x1340 <- (make_function_block_info_message_options true 7 (mkFbOptions false 2 1 0 1 2) 8 3) ;; function_block_info_view true x1340) ;; Ok (fb_direction x1344)) ;; Ok (Z.eqb 2 x1345));
    (x1347 <- (x1346 <- (x1340 <- (make_function_block_info_message_options true 7 (mkFbOptions false 2 1 0 1 2) 8 3) ;; function_block_info_view true x1340) ;; Ok (fb_midi1 x1346)) ;; Ok (Z.eqb 1 x1347));
    (x1349 <- (x1348 <- (x1340 <- (make_function_block_info_message_options true 7 (mkFbOptions false 2 1 0 1 2) 8 3) ;; function_block_info_view true x1340) ;; fb_first_group x1348) ;; Ok (Z.eqb 8 x1349));
    (x1351 <- (x1350 <- (x1340 <- (make_function_block_info_message_options true 7 (mkFbOptions false 2 1 0 1 2) 8 3) ;; function_block_info_view true x1340) ;; fb_num_groups x1350) ;; Ok (Z.eqb 3 x1351));
    (x1353 <- (x1352 <- (x1340 <- (make_function_block_info_message_options true 7 (mkFbOptions false 2 1 0 1 2) 8 3) ;; function_block_info_view true x1340) ;; fb_ci_version x1352) ;; Ok (Z.eqb 1 x1353));
    (x1355 <- (x1354 <- (x1340 <- (make_function_block_info_message_options true 7 (mkFbOptions false 2 1 0 1 2) 8 3) ;; function_block_info_view true x1340) ;; fb_max_sysex8 x1354) ;; Ok (Z.eqb 2 x1355));
    (x1356 <- (make_function_block_info_message_options true 31 (mkFbOptions true 3 0 2 3 0) 14 2) ;; Ok (is_stream_message x1356));
    (x1358 <- (x1357 <- (make_function_block_info_message_options true 31 (mkFbOptions true 3 0 2 3 0) 14 2) ;; word x1357 0%nat) ;; Ok (Z.eqb 4027686691 x1358));
    (x1360 <- (x1359 <- (make_function_block_info_message_options true 31 (mkFbOptions true 3 0 2 3 0) 14 2) ;; word x1359 1%nat) ;; Ok (Z.eqb 235012864 x1360));
    (x1362 <- (x1361 <- (make_function_block_info_message_options true 31 (mkFbOptions true 3 0 2 3 0) 14 2) ;; word x1361 2%nat) ;; Ok (Z.eqb 0 x1362));
    (x1364 <- (x1363 <- (make_function_block_info_message_options true 31 (mkFbOptions true 3 0 2 3 0) 14 2) ;; word x1363 3%nat) ;; Ok (Z.eqb 0 x1364));
    (x1366 <- (n_ <- (x1365 <- (make_function_block_info_message_options true 31 (mkFbOptions true 3 0 2 3 0) 14 2) ;; Ok (psize x1365)) ;; Ok (Z.of_nat n_)) ;; Ok (Z.eqb 4 x1366));
    (x1368 <- (x1367 <- (make_function_block_info_message_options true 31 (mkFbOptions true 3 0 2 3 0) 14 2) ;; Ok (type x1367)) ;; Ok (Z.eqb 15 x1368));
    (x1370 <- (x1369 <- (make_function_block_info_message_options true 31 (mkFbOptions true 3 0 2 3 0) 14 2) ;; Ok (stream_format x1369)) ;; Ok (Z.eqb 0 x1370));
    (x1372 <- (x1371 <- (make_function_block_info_message_options true 31 (mkFbOptions true 3 0 2 3 0) 14 2) ;; Ok (status x1371)) ;; Ok (Z.eqb 17 x1372));
    (x1374 <- (x1373 <- (make_function_block_info_message_options true 31 (mkFbOptions true 3 0 2 3 0) 14 2) ;; as_function_block_info_view true x1373) ;; Ok (opt_some x1374));
    (x1376 <- (x1375 <- (make_function_block_info_message_options true 31 (mkFbOptions true 3 0 2 3 0) 14 2) ;; function_block_info_view true x1375) ;; Ok (fb_active x1376));
    (x1378 <- (x1377 <- (x1375 <- (make_function_block_info_message_options true 31 (mkFbOptions true 3 0 2 3 0) 14 2) ;; function_block_info_view true x1375) ;; fb_block x1377) ;; Ok (Z.eqb 31 x1378));
    (x1380 <- (x1379 <- (x1375 <- (make_function_block_info_message_options true 31 (mkFbOptions true 3 0 2 3 0) 14 2) ;; function_block_info_view true x1375) ;; Ok (fb_direction x1379)) ;; Ok (Z.eqb 3 x1380));
    (x1382 <- (x1381 <- (x1375 <- (make_function_block_info_message_options true 31 (mkFbOptions true 3 0 2 3 0) 14 2) ;; function_block_info_view true x1375) ;; Ok (fb_midi1 x1381)) ;; Ok (Z.eqb 0 x1382));
    (x1384 <- (x1383 <- (x1375 <- (make_function_block_info_message_options true 31 (mkFbOptions true 3 0 2 3 0) 14 2) ;; function_block_info_view true x1375) ;; fb_first_group x1383) ;; Ok (Z.eqb 14 x1384));
    (x1386 <- (x1385 <- (x1375 <- (make_function_block_info_message_options true 31 (mkFbOptions true 3 0 2 3 0) 14 2) ;; function_block_info_view true x1375) ;; fb_num_groups x1385) ;; Ok (Z.eqb 2 x1386));
    (x1388 <- (x1387 <- (x1375 <- (make_function_block_info_message_options true 31 (mkFbOptions true 3 0 2 3 0) 14 2) ;; function_block_info_view true x1375) ;; fb_ci_version x1387) ;; Ok (Z.eqb 3 x1388));
    (x1390 <- (x1389 <- (x1375 <- (make_function_block_info_message_options true 31 (mkFbOptions true 3 0 2 3 0) 14 2) ;; function_block_info_view true x1375) ;; fb_max_sysex8 x1389) ;; Ok (Z.eqb 0 x1390))].
Proof. vm_compute. repeat constructor. Qed.

(* line 1335 *)
Example test_function_block_info_view : all_true [
    (x1391 <- (make_function_block_info_message_options true 7 (mkFbOptions false 2 1 0 1 2) 8 3) ;; Ok (is_stream_message x1391));
    (x1393 <- (x1392 <- (make_function_block_info_message_options true 7 (mkFbOptions false 2 1 0 1 2) 8 3) ;; as_function_block_info_view true x1392) ;; Ok (opt_some x1393));
    (b_ <- (x1395 <- (x1394 <- (make_function_block_info_message_options true 7 (mkFbOptions false 2 1 0 1 2) 8 3) ;; function_block_info_view true x1394) ;; Ok (fb_active x1395)) ;; Ok (negb b_));
    (x1397 <- (x1396 <- (x1394 <- (make_function_block_info_message_options true 7 (mkFbOptions false 2 1 0 1 2) 8 3) ;; function_block_info_view true x1394) ;; fb_block x1396) ;; Ok (Z.eqb 7 x1397));
    (x1399 <- (x1398 <- (x1394 <- (make_function_block_info_message_options true 7 (mkFbOptions false 2 1 0 1 2) 8 3) ;; function_block_info_view true x1394) ;; Ok (fb_direction x1398)) ;; Ok (Z.eqb 2 x1399));
    (x1401 <- (x1400 <- (x1394 <- (make_function_block_info_message_options true 7 (mkFbOptions false 2 1 0 1 2) 8 3) ;; function_block_info_view true x1394) ;; Ok (fb_midi1 x1400)) ;; Ok (Z.eqb 1 x1401));
    (x1403 <- (x1402 <- (x1394 <- (make_function_block_info_message_options true 7 (mkFbOptions false 2 1 0 1 2) 8 3) ;; function_block_info_view true x1394) ;; fb_first_group x1402) ;; Ok (Z.eqb 8 x1403));
    (x1405 <- (x1404 <- (x1394 <- (make_function_block_info_message_options true 7 (mkFbOptions false 2 1 0 1 2) 8 3) ;; function_block_info_view true x1394) ;; fb_num_groups x1404) ;; Ok (Z.eqb 3 x1405));
    (x1407 <- (x1406 <- (x1394 <- (make_function_block_info_message_options true 7 (mkFbOptions false 2 1 0 1 2) 8 3) ;; function_block_info_view true x1394) ;; fb_ci_version x1406) ;; Ok (Z.eqb 1 x1407));
    (x1409 <- (x1408 <- (x1394 <- (make_function_block_info_message_options true 7 (mkFbOptions false 2 1 0 1 2) 8 3) ;; function_block_info_view true x1394) ;; fb_max_sysex8 x1408) ;; Ok (Z.eqb 2 x1409));
    (x1410 <- (make_function_block_info_message_options true 4 (mkFbOptions true 1 2 0 2 4) 14 2) ;; Ok (is_stream_message x1410));
    (x1412 <- (x1411 <- (make_function_block_info_message_options true 4 (mkFbOptions true 1 2 0 2 4) 14 2) ;; as_function_block_info_view true x1411) ;; Ok (opt_some x1412));
    (x1414 <- (x1413 <- (make_function_block_info_message_options true 4 (mkFbOptions true 1 2 0 2 4) 14 2) ;; function_block_info_view true x1413) ;; Ok (fb_active x1414));
    (x1416 <- (x1415 <- (x1413 <- (make_function_block_info_message_options true 4 (mkFbOptions true 1 2 0 2 4) 14 2) ;; function_block_info_view true x1413) ;; fb_block x1415) ;; Ok (Z.eqb 4 x1416));
    (x1418 <- (x1417 <- (x1413 <- (make_function_block_info_message_options true 4 (mkFbOptions true 1 2 0 2 4) 14 2) ;; function_block_info_view true x1413) ;; Ok (fb_direction x1417)) ;; Ok (Z.eqb 1 x1418));
    (x1420 <- (x1419 <- (x1413 <- (make_function_block_info_message_options true 4 (mkFbOptions true 1 2 0 2 4) 14 2) ;; function_block_info_view true x1413) ;; Ok (fb_midi1 x1419)) ;; Ok (Z.eqb 2 x1420));
    (x1422 <- (x1421 <- (x1413 <- (make_function_block_info_message_options true 4 (mkFbOptions true 1 2 0 2 4) 14 2) ;; function_block_info_view true x1413) ;; fb_first_group x1421) ;; Ok (Z.eqb 14 x1422));
    (x1424 <- (x1423 <- (x1413 <- (make_function_block_info_message_options true 4 (mkFbOptions true 1 2 0 2 4) 14 2) ;; function_block_info_view true x1413) ;; fb_num_groups x1423) ;; Ok (Z.eqb 2 x1424));
    (x1426 <- (x1425 <- (x1413 <- (make_function_block_info_message_options true 4 (mkFbOptions true 1 2 0 2 4) 14 2) ;; function_block_info_view true x1413) ;; fb_ci_version x1425) ;; Ok (Z.eqb 2 x1426));
    (x1428 <- (x1427 <- (x1413 <- (make_function_block_info_message_options true 4 (mkFbOptions true 1 2 0 2 4) 14 2) ;; function_block_info_view true x1413) ;; fb_max_sysex8 x1427) ;; Ok (Z.eqb 4 x1428));
    (b_ <- (x1430 <- (x1429 <- (make_stream_configuration_request true 2 0) ;; as_function_block_info_view true x1429) ;; Ok (opt_some x1430)) ;; Ok (negb b_))].
Proof. vm_compute. repeat constructor. Qed.

(* line 1398 *)
Example test_function_block_name : all_true [
    (x1431 <- (make_function_block_name_message true 0 5 [77; 97; 105; 110]) ;; Ok (is_stream_message x1431));
    (x1433 <- (x1432 <- (make_function_block_name_message true 0 5 [77; 97; 105; 110]) ;; word x1432 0%nat) ;; Ok (Z.eqb 4027712845 x1433));
    (x1435 <- (x1434 <- (make_function_block_name_message true 0 5 [77; 97; 105; 110]) ;; word x1434 1%nat) ;; Ok (Z.eqb 1634299392 x1435));
    (x1437 <- (x1436 <- (make_function_block_name_message true 0 5 [77; 97; 105; 110]) ;; word x1436 2%nat) ;; Ok (Z.eqb 0 x1437));
    (x1439 <- (x1438 <- (make_function_block_name_message true 0 5 [77; 97; 105; 110]) ;; word x1438 3%nat) ;; Ok (Z.eqb 0 x1439));
    (x1441 <- (n_ <- (x1440 <- (make_function_block_name_message true 0 5 [77; 97; 105; 110]) ;; Ok (psize x1440)) ;; Ok (Z.of_nat n_)) ;; Ok (Z.eqb 4 x1441));
    (x1443 <- (x1442 <- (make_function_block_name_message true 0 5 [77; 97; 105; 110]) ;; Ok (type x1442)) ;; Ok (Z.eqb 15 x1443));
    (x1445 <- (x1444 <- (make_function_block_name_message true 0 5 [77; 97; 105; 110]) ;; Ok (stream_format x1444)) ;; Ok (Z.eqb 0 x1445));
    (x1447 <- (x1446 <- (make_function_block_name_message true 0 5 [77; 97; 105; 110]) ;; Ok (status x1446)) ;; Ok (Z.eqb 18 x1447));
    (x1449 <- (x1448 <- (make_function_block_name_message true 0 5 [77; 97; 105; 110]) ;; as_function_block_name_view true x1448) ;; Ok (opt_some x1449));
    (x1452 <- (x1451 <- (x1450 <- (make_function_block_name_message true 0 5 [77; 97; 105; 110]) ;; function_block_name_view true x1450) ;; fb_name_payload x1451) ;; Ok (list_eqb x1452 [77; 97; 105; 110]));
    (x1453 <- (make_function_block_name_message true 1 10 [83; 116; 97; 114; 116; 32; 111; 102; 32; 78; 97; 109; 101]) ;; Ok (is_stream_message x1453));
    (x1455 <- (x1454 <- (make_function_block_name_message true 1 10 [83; 116; 97; 114; 116; 32; 111; 102; 32; 78; 97; 109; 101]) ;; word x1454 0%nat) ;; Ok (Z.eqb 4094822995 x1455));
    (x1457 <- (x1456 <- (make_function_block_name_message true 1 10 [83; 116; 97; 114; 116; 32; 111; 102; 32; 78; 97; 109; 101]) ;; word x1456 1%nat) ;; Ok (Z.eqb 1952543348 x1457));
    (x1459 <- (x1458 <- (make_function_block_name_message true 1 10 [83; 116; 97; 114; 116; 32; 111; 102; 32; 78; 97; 109; 101]) ;; word x1458 2%nat) ;; Ok (Z.eqb 544171552 x1459));
    (x1461 <- (x1460 <- (make_function_block_name_message true 1 10 [83; 116; 97; 114; 116; 32; 111; 102; 32; 78; 97; 109; 101]) ;; word x1460 3%nat) ;; Ok (Z.eqb 1315007845 x1461));
    (x1463 <- (n_ <- (x1462 <- (make_function_block_name_message true 1 10 [83; 116; 97; 114; 116; 32; 111; 102; 32; 78; 97; 109; 101]) ;; Ok (psize x1462)) ;; Ok (Z.of_nat n_)) ;; Ok (Z.eqb 4 x1463));
    (x1465 <- (x1464 <- (make_function_block_name_message true 1 10 [83; 116; 97; 114; 116; 32; 111; 102; 32; 78; 97; 109; 101]) ;; Ok (type x1464)) ;; Ok (Z.eqb 15 x1465));
    (x1467 <- (x1466 <- (make_function_block_name_message true 1 10 [83; 116; 97; 114; 116; 32; 111; 102; 32; 78; 97; 109; 101]) ;; Ok (stream_format x1466)) ;; Ok (Z.eqb 1 x1467));
    (x1469 <- (x1468 <- (make_function_block_name_message true 1 10 [83; 116; 97; 114; 116; 32; 111; 102; 32; 78; 97; 109; 101]) ;; Ok (status x1468)) ;; Ok (Z.eqb 18 x1469));
    (x1471 <- (x1470 <- (make_function_block_name_message true 1 10 [83; 116; 97; 114; 116; 32; 111; 102; 32; 78; 97; 109; 101]) ;; as_function_block_name_view true x1470) ;; Ok (opt_some x1471));
    (x1474 <- (x1473 <- (x1472 <- (make_function_block_name_message true 1 10 [83; 116; 97; 114; 116; 32; 111; 102; 32; 78; 97; 109; 101]) ;; function_block_name_view true x1472) ;; fb_name_payload x1473) ;; Ok (list_eqb x1474 [83; 116; 97; 114; 116; 32; 111; 102; 32; 78; 97; 109; 101]))].
Proof. vm_compute. repeat constructor. Qed.

(* line 1447 *)
Example test_function_block_name_view : all_true [
    (x1475 <- (make_function_block_name_message true 0 5 [77; 97; 105; 110]) ;; Ok (is_stream_message x1475));
    (x1477 <- (x1476 <- (make_function_block_name_message true 0 5 [77; 97; 105; 110]) ;; as_function_block_name_view true x1476) ;; Ok (opt_some x1477));
    (x1480 <- (x1479 <- (x1478 <- (make_function_block_name_message true 0 5 [77; 97; 105; 110]) ;; function_block_name_view true x1478) ;; Ok (fb_name_format x1479)) ;; Ok (Z.eqb 0 x1480));
    (x1482 <- (x1481 <- (x1478 <- (make_function_block_name_message true 0 5 [77; 97; 105; 110]) ;; function_block_name_view true x1478) ;; Ok (fb_name_block x1481)) ;; Ok (Z.eqb 5 x1482));
    (x1484 <- (x1483 <- (x1478 <- (make_function_block_name_message true 0 5 [77; 97; 105; 110]) ;; function_block_name_view true x1478) ;; fb_name_payload x1483) ;; Ok (list_eqb x1484 [77; 97; 105; 110]));
    (x1485 <- (make_function_block_name_message true 1 10 [83; 116; 97; 114; 116; 32; 111; 102; 32; 78; 97; 109; 101]) ;; Ok (is_stream_message x1485));
    (x1487 <- (x1486 <- (make_function_block_name_message true 1 10 [83; 116; 97; 114; 116; 32; 111; 102; 32; 78; 97; 109; 101]) ;; as_function_block_name_view true x1486) ;; Ok (opt_some x1487));
    (x1490 <- (x1489 <- (x1488 <- (make_function_block_name_message true 1 10 [83; 116; 97; 114; 116; 32; 111; 102; 32; 78; 97; 109; 101]) ;; function_block_name_view true x1488) ;; Ok (fb_name_format x1489)) ;; Ok (Z.eqb 1 x1490));
    (x1492 <- (x1491 <- (x1488 <- (make_function_block_name_message true 1 10 [83; 116; 97; 114; 116; 32; 111; 102; 32; 78; 97; 109; 101]) ;; function_block_name_view true x1488) ;; Ok (fb_name_block x1491)) ;; Ok (Z.eqb 10 x1492));
    (x1494 <- (x1493 <- (x1488 <- (make_function_block_name_message true 1 10 [83; 116; 97; 114; 116; 32; 111; 102; 32; 78; 97; 109; 101]) ;; function_block_name_view true x1488) ;; fb_name_payload x1493) ;; Ok (list_eqb x1494 [83; 116; 97; 114; 116; 32; 111; 102; 32; 78; 97; 109; 101]));
    (b_ <- (x1496 <- (x1495 <- (make_function_block_discovery_message true 14 4) ;; as_function_block_name_view true x1495) ;; Ok (opt_some x1496)) ;; Ok (negb b_))].
Proof. vm_compute. repeat constructor. Qed.
