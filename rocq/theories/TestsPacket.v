(* The unit tests of tests/universal_packet_tests.cpp, tests/data_message_tests.cpp, tests/extended_data_message_tests.cpp, tests/system_message_tests.cpp, tests/utility_message_tests.cpp, run on the model with assertions.
   These are checks of the model against the results its authors expect of the code, not proofs. *)
From Coq Require Import ZArith List Bool.
From Verif Require Import Base Bits Packet Messages Sysex Types Floats TestsTypes ChannelVoice Utility Flex Endpoint DataPackets TestsBase TestsPacketBase.
Import ListNotations.
Local Open Scope Z_scope.
Local Open Scope res_scope.

(* ==== tests/universal_packet_tests.cpp ==== *)


(* line 17 *)
Example test_constructors : all_true [
    (x1 <- (word (mkP 0 0 0 0) 0%nat) ;; Ok (Z.eqb 0 x1));
    (x2 <- (word (mkP 0 0 0 0) 1%nat) ;; Ok (Z.eqb 0 x2));
    (x3 <- (word (mkP 0 0 0 0) 2%nat) ;; Ok (Z.eqb 0 x3));
    (x4 <- (word (mkP 0 0 0 0) 3%nat) ;; Ok (Z.eqb 0 x4));
    (x5 <- (n_ <- (Ok (psize (mkP 0 0 0 0))) ;; Ok (Z.of_nat n_)) ;; Ok (Z.eqb 1 x5));
    (Ok (Z.eqb 0 (type (mkP 0 0 0 0))));
    (Ok (Z.eqb 0 (group (mkP 0 0 0 0))));
    (Ok (Z.eqb 0 (status (mkP 0 0 0 0))));
    (Ok (Z.eqb 0 (status (mkP 0 0 0 0))));
    (Ok (Z.eqb 0 (byte2 (mkP 0 0 0 0))));
    (Ok (Z.eqb 0 (byte3 (mkP 0 0 0 0))));
    (Ok (Z.eqb 0 (byte4 (mkP 0 0 0 0))));
    (x6 <- (word (mkP 305419896 0 0 0) 0%nat) ;; Ok (Z.eqb 305419896 x6));
    (x7 <- (word (mkP 305419896 0 0 0) 1%nat) ;; Ok (Z.eqb 0 x7));
    (x8 <- (word (mkP 305419896 0 0 0) 2%nat) ;; Ok (Z.eqb 0 x8));
    (x9 <- (word (mkP 305419896 0 0 0) 3%nat) ;; Ok (Z.eqb 0 x9));
    (x10 <- (word (mkP 1933467 0 0 0) 0%nat) ;; Ok (Z.eqb 1933467 x10));
    (x11 <- (word (mkP 1933467 0 0 0) 1%nat) ;; Ok (Z.eqb 0 x11));
    (x12 <- (word (mkP 1933467 0 0 0) 2%nat) ;; Ok (Z.eqb 0 x12));
    (x13 <- (word (mkP 1933467 0 0 0) 3%nat) ;; Ok (Z.eqb 0 x13));
    (x14 <- (word (mkP 553665895 341391530 0 0) 0%nat) ;; Ok (Z.eqb 553665895 x14));
    (x15 <- (word (mkP 553665895 341391530 0 0) 1%nat) ;; Ok (Z.eqb 341391530 x15));
    (x16 <- (word (mkP 553665895 341391530 0 0) 2%nat) ;; Ok (Z.eqb 0 x16));
    (x17 <- (word (mkP 553665895 341391530 0 0) 3%nat) ;; Ok (Z.eqb 0 x17));
    (x18 <- (word (mkP 3157600400 2636792924 77777 0) 0%nat) ;; Ok (Z.eqb 3157600400 x18));
    (x19 <- (word (mkP 3157600400 2636792924 77777 0) 1%nat) ;; Ok (Z.eqb 2636792924 x19));
    (x20 <- (word (mkP 3157600400 2636792924 77777 0) 2%nat) ;; Ok (Z.eqb 77777 x20));
    (x21 <- (word (mkP 3157600400 2636792924 77777 0) 3%nat) ;; Ok (Z.eqb 0 x21));
    (x22 <- (word (mkP 1420545519 305419896 2880289470 3452816845) 0%nat) ;; Ok (Z.eqb 1420545519 x22));
    (x23 <- (word (mkP 1420545519 305419896 2880289470 3452816845) 1%nat) ;; Ok (Z.eqb 305419896 x23));
    (x24 <- (word (mkP 1420545519 305419896 2880289470 3452816845) 2%nat) ;; Ok (Z.eqb 2880289470 x24));
    (x25 <- (word (mkP 1420545519 305419896 2880289470 3452816845) 3%nat) ;; Ok (Z.eqb 3452816845 x25))].
Proof. vm_compute. repeat constructor. Qed.

(* line 87 *)
Example test_equality : all_true [
    (packet_eq (mkP 0 0 0 0) (mkP 0 0 0 0));
    (b_ <- (packet_eq (mkP 0 0 0 0) (mkP 305419896 0 0 0)) ;; Ok (negb b_));
    (b_ <- (packet_eq (mkP 0 0 0 0) (mkP 1933467 0 0 0)) ;; Ok (negb b_));
    (b_ <- (packet_eq (mkP 0 0 0 0) (mkP 822101351 341391530 0 0)) ;; Ok (negb b_));
    (b_ <- (packet_eq (mkP 0 0 0 0) (mkP 305419896 0 0 0)) ;; Ok (negb b_));
    (b_ <- (packet_eq (mkP 305419896 0 0 0) (mkP 0 0 0 0)) ;; Ok (negb b_));
    (packet_eq (mkP 305419896 0 0 0) (mkP 305419896 0 0 0));
    (b_ <- (packet_eq (mkP 305419896 0 0 0) (mkP 1933467 0 0 0)) ;; Ok (negb b_));
    (b_ <- (packet_eq (mkP 305419896 0 0 0) (mkP 822101351 341391530 0 0)) ;; Ok (negb b_));
    (packet_eq (mkP 305419896 0 0 0) (mkP 305419896 0 0 0));
    (b_ <- (packet_eq (mkP 1933467 0 0 0) (mkP 0 0 0 0)) ;; Ok (negb b_));
    (b_ <- (packet_eq (mkP 1933467 0 0 0) (mkP 305419896 0 0 0)) ;; Ok (negb b_));
    (packet_eq (mkP 1933467 0 0 0) (mkP 1933467 0 0 0));
    (b_ <- (packet_eq (mkP 1933467 0 0 0) (mkP 822101351 341391530 0 0)) ;; Ok (negb b_));
    (b_ <- (packet_eq (mkP 1933467 0 0 0) (mkP 305419896 0 0 0)) ;; Ok (negb b_));
    (b_ <- (packet_eq (mkP 822101351 341391530 0 0) (mkP 0 0 0 0)) ;; Ok (negb b_));
    (b_ <- (packet_eq (mkP 822101351 341391530 0 0) (mkP 305419896 0 0 0)) ;; Ok (negb b_));
    (b_ <- (packet_eq (mkP 822101351 341391530 0 0) (mkP 1933467 0 0 0)) ;; Ok (negb b_));
    (packet_eq (mkP 822101351 341391530 0 0) (mkP 822101351 341391530 0 0));
    (b_ <- (packet_eq (mkP 822101351 341391530 0 0) (mkP 305419896 0 0 0)) ;; Ok (negb b_));
    (b_ <- (packet_eq (mkP 305419896 0 0 0) (mkP 0 0 0 0)) ;; Ok (negb b_));
    (packet_eq (mkP 305419896 0 0 0) (mkP 305419896 0 0 0));
    (b_ <- (packet_eq (mkP 305419896 0 0 0) (mkP 1933467 0 0 0)) ;; Ok (negb b_));
    (b_ <- (packet_eq (mkP 305419896 0 0 0) (mkP 822101351 341391530 0 0)) ;; Ok (negb b_));
    (packet_eq (mkP 305419896 0 0 0) (mkP 305419896 0 0 0));
    (packet_eq (mkP 305419896 1000 0 0) (mkP 305419896 1000 0 0));
    (packet_eq (mkP 305419896 1000 0 0) (mkP 305419896 1001 0 0));
    (b_ <- (packet_eq (mkP 305419896 1000 0 0) (mkP 305419895 1000 0 0)) ;; Ok (negb b_));
    (packet_eq (mkP 305419896 1001 0 0) (mkP 305419896 1000 0 0));
    (packet_eq (mkP 305419896 1001 0 0) (mkP 305419896 1001 0 0));
    (b_ <- (packet_eq (mkP 305419896 1001 0 0) (mkP 305419895 1000 0 0)) ;; Ok (negb b_));
    (b_ <- (packet_eq (mkP 305419895 1000 0 0) (mkP 305419896 1000 0 0)) ;; Ok (negb b_));
    (packet_eq (mkP 305419895 1000 0 0) (mkP 305419895 1000 0 0));
    (b_ <- (packet_eq (mkP 305419895 1000 0 0) (mkP 305419896 1001 0 0)) ;; Ok (negb b_));
    (packet_eq (mkP 822101351 341391530 2939 0) (mkP 822101351 341391530 2939 0));
    (packet_eq (mkP 822101351 341391530 2939 0) (mkP 822101351 341391530 55 0));
    (b_ <- (packet_eq (mkP 822101351 341391530 2939 0) (mkP 822101352 341391530 2939 0)) ;; Ok (negb b_));
    (b_ <- (packet_eq (mkP 822101351 341391530 2939 0) (mkP 822101351 1496885778 2939 0)) ;; Ok (negb b_));
    (packet_eq (mkP 822101351 341391530 55 0) (mkP 822101351 341391530 2939 0));
    (packet_eq (mkP 822101351 341391530 55 0) (mkP 822101351 341391530 55 0));
    (b_ <- (packet_eq (mkP 822101351 341391530 55 0) (mkP 822101352 341391530 2939 0)) ;; Ok (negb b_));
    (b_ <- (packet_eq (mkP 822101351 341391530 55 0) (mkP 822101351 1496885778 2939 0)) ;; Ok (negb b_));
    (b_ <- (packet_eq (mkP 822101352 341391530 2939 0) (mkP 822101351 341391530 2939 0)) ;; Ok (negb b_));
    (b_ <- (packet_eq (mkP 822101352 341391530 2939 0) (mkP 822101351 341391530 55 0)) ;; Ok (negb b_));
    (packet_eq (mkP 822101352 341391530 2939 0) (mkP 822101352 341391530 2939 0));
    (b_ <- (packet_eq (mkP 822101352 341391530 2939 0) (mkP 822101351 1496885778 2939 0)) ;; Ok (negb b_));
    (b_ <- (packet_eq (mkP 822101351 1496885778 2939 0) (mkP 822101351 341391530 2939 0)) ;; Ok (negb b_));
    (b_ <- (packet_eq (mkP 822101351 1496885778 2939 0) (mkP 822101351 341391530 55 0)) ;; Ok (negb b_));
    (b_ <- (packet_eq (mkP 822101351 1496885778 2939 0) (mkP 822101352 341391530 2939 0)) ;; Ok (negb b_));
    (packet_eq (mkP 822101351 1496885778 2939 0) (mkP 822101351 1496885778 2939 0));
    (packet_eq (mkP 3123992184 99 55 42) (mkP 3123992184 99 55 42));
    (packet_eq (mkP 3123992184 99 55 42) (mkP 3123992184 99 55 43));
    (b_ <- (packet_eq (mkP 3123992184 99 55 42) (mkP 3123992185 99 55 42)) ;; Ok (negb b_));
    (b_ <- (packet_eq (mkP 3123992184 99 55 42) (mkP 3123992184 98 55 42)) ;; Ok (negb b_));
    (b_ <- (packet_eq (mkP 3123992184 99 55 42) (mkP 3123992184 99 56 42)) ;; Ok (negb b_));
    (packet_eq (mkP 3123992184 99 55 43) (mkP 3123992184 99 55 42));
    (packet_eq (mkP 3123992184 99 55 43) (mkP 3123992184 99 55 43));
    (b_ <- (packet_eq (mkP 3123992184 99 55 43) (mkP 3123992185 99 55 42)) ;; Ok (negb b_));
    (b_ <- (packet_eq (mkP 3123992184 99 55 43) (mkP 3123992184 98 55 42)) ;; Ok (negb b_));
    (b_ <- (packet_eq (mkP 3123992184 99 55 43) (mkP 3123992184 99 56 42)) ;; Ok (negb b_));
    (b_ <- (packet_eq (mkP 3123992185 99 55 42) (mkP 3123992184 99 55 42)) ;; Ok (negb b_));
    (b_ <- (packet_eq (mkP 3123992185 99 55 42) (mkP 3123992184 99 55 43)) ;; Ok (negb b_));
    (packet_eq (mkP 3123992185 99 55 42) (mkP 3123992185 99 55 42));
    (b_ <- (packet_eq (mkP 3123992185 99 55 42) (mkP 3123992184 98 55 42)) ;; Ok (negb b_));
    (b_ <- (packet_eq (mkP 3123992185 99 55 42) (mkP 3123992184 99 56 42)) ;; Ok (negb b_));
    (b_ <- (packet_eq (mkP 3123992184 98 55 42) (mkP 3123992184 99 55 42)) ;; Ok (negb b_));
    (b_ <- (packet_eq (mkP 3123992184 98 55 42) (mkP 3123992184 99 55 43)) ;; Ok (negb b_));
    (b_ <- (packet_eq (mkP 3123992184 98 55 42) (mkP 3123992185 99 55 42)) ;; Ok (negb b_));
    (packet_eq (mkP 3123992184 98 55 42) (mkP 3123992184 98 55 42));
    (b_ <- (packet_eq (mkP 3123992184 98 55 42) (mkP 3123992184 99 56 42)) ;; Ok (negb b_));
    (b_ <- (packet_eq (mkP 3123992184 99 56 42) (mkP 3123992184 99 55 42)) ;; Ok (negb b_));
    (b_ <- (packet_eq (mkP 3123992184 99 56 42) (mkP 3123992184 99 55 43)) ;; Ok (negb b_));
    (b_ <- (packet_eq (mkP 3123992184 99 56 42) (mkP 3123992185 99 55 42)) ;; Ok (negb b_));
    (b_ <- (packet_eq (mkP 3123992184 99 56 42) (mkP 3123992184 98 55 42)) ;; Ok (negb b_));
    (packet_eq (mkP 3123992184 99 56 42) (mkP 3123992184 99 56 42))].
Proof. vm_compute. repeat constructor. Qed.

(* line 213 *)
Example test_type : all_true [
    (Ok (Z.eqb 0 (type (mkP 18813492 0 0 0))));
    (Ok (Z.eqb 1 (type (mkP 368124741 0 0 0))));
    (Ok (Z.eqb 2 (type (mkP 750749541 0 0 0))));
    (Ok (Z.eqb 3 (type (mkP 875659011 305419896 0 0))));
    (Ok (Z.eqb 4 (type (mkP 1100183432 2165391488 0 0))));
    (Ok (Z.eqb 5 (type (mkP 1502836616 286331153 572662306 572662306))));
    (x27 <- (x26 <- (set_type (mkP 18813492 0 0 0) 2) ;; Ok (type x26)) ;; Ok (Z.eqb 2 x27));
    (x29 <- (x28 <- (set_type (mkP 1502836616 286331153 572662306 572662306) 4) ;; Ok (type x28)) ;; Ok (Z.eqb 4 x29))].
Proof. vm_compute. repeat constructor. Qed.

(* line 244 *)
Example test_size : all_true [
    (x30 <- (n_ <- (Ok (psize (mkP 18813492 0 0 0))) ;; Ok (Z.of_nat n_)) ;; Ok (Z.eqb 1 x30));
    (x31 <- (n_ <- (Ok (psize (mkP 368124741 0 0 0))) ;; Ok (Z.of_nat n_)) ;; Ok (Z.eqb 1 x31));
    (x32 <- (n_ <- (Ok (psize (mkP 750749541 0 0 0))) ;; Ok (Z.of_nat n_)) ;; Ok (Z.eqb 1 x32));
    (x33 <- (n_ <- (Ok (psize (mkP 875659011 305419896 0 0))) ;; Ok (Z.of_nat n_)) ;; Ok (Z.eqb 2 x33));
    (x34 <- (n_ <- (Ok (psize (mkP 1100183432 2165391488 0 0))) ;; Ok (Z.of_nat n_)) ;; Ok (Z.eqb 2 x34));
    (x35 <- (n_ <- (Ok (psize (mkP 1502836616 286331153 572662306 572662306))) ;; Ok (Z.of_nat n_)) ;; Ok (Z.eqb 4 x35));
    (x36 <- (n_ <- (Ok (psize (mkP 1610612736 0 0 0))) ;; Ok (Z.of_nat n_)) ;; Ok (Z.eqb 1 x36));
    (x37 <- (n_ <- (Ok (psize (mkP 1879048192 0 0 0))) ;; Ok (Z.of_nat n_)) ;; Ok (Z.eqb 1 x37));
    (x38 <- (n_ <- (Ok (psize (mkP 2147483648 0 0 0))) ;; Ok (Z.of_nat n_)) ;; Ok (Z.eqb 2 x38));
    (x39 <- (n_ <- (Ok (psize (mkP 2415919104 0 0 0))) ;; Ok (Z.of_nat n_)) ;; Ok (Z.eqb 2 x39));
    (x40 <- (n_ <- (Ok (psize (mkP 2684354560 0 0 0))) ;; Ok (Z.of_nat n_)) ;; Ok (Z.eqb 2 x40));
    (x41 <- (n_ <- (Ok (psize (mkP 2952790016 0 0 0))) ;; Ok (Z.of_nat n_)) ;; Ok (Z.eqb 3 x41));
    (x42 <- (n_ <- (Ok (psize (mkP 3221225472 0 0 0))) ;; Ok (Z.of_nat n_)) ;; Ok (Z.eqb 3 x42));
    (x43 <- (n_ <- (Ok (psize (mkP 3489660928 0 0 0))) ;; Ok (Z.of_nat n_)) ;; Ok (Z.eqb 4 x43));
    (x44 <- (n_ <- (Ok (psize (mkP 3758096384 0 0 0))) ;; Ok (Z.of_nat n_)) ;; Ok (Z.eqb 4 x44));
    (x45 <- (n_ <- (Ok (psize (mkP 4026531840 0 0 0))) ;; Ok (Z.of_nat n_)) ;; Ok (Z.eqb 4 x45))].
Proof. vm_compute. repeat constructor. Qed.

(* line 271 *)
Example test_group : all_true [
    (Ok (Z.eqb 1 (group (mkP 18813492 0 0 0))));
    (Ok (Z.eqb 5 (group (mkP 368124741 0 0 0))));
    (Ok (Z.eqb 12 (group (mkP 750749541 0 0 0))));
    (Ok (Z.eqb 4 (group (mkP 875659011 305419896 0 0))));
    (Ok (Z.eqb 1 (group (mkP 1100183432 2165391488 0 0))));
    (Ok (Z.eqb 9 (group (mkP 1502836616 286331153 572662306 572662306))));
    (x47 <- (x46 <- (set_group (mkP 368124741 0 0 0) 4) ;; Ok (group x46)) ;; Ok (Z.eqb 4 x47));
    (x49 <- (x48 <- (set_group (mkP 875659011 305419896 0 0) 15) ;; Ok (group x48)) ;; Ok (Z.eqb 15 x49))].
Proof. vm_compute. repeat constructor. Qed.

(* line 302 *)
Example test_status : all_true [
    (Ok (Z.eqb 31 (status (mkP 18813492 0 0 0))));
    (Ok (Z.eqb 241 (status (mkP 368124741 0 0 0))));
    (Ok (Z.eqb 191 (status (mkP 750749541 0 0 0))));
    (Ok (Z.eqb 49 (status (mkP 875659011 305419896 0 0))));
    (Ok (Z.eqb 147 (status (mkP 1100183432 2165391488 0 0))));
    (Ok (Z.eqb 154 (status (mkP 1503295368 286331153 572662306 572662306))));
    (x51 <- (x50 <- (set_byte (mkP 750749541 0 0 0) 1%nat 171) ;; Ok (status x50)) ;; Ok (Z.eqb 171 x51));
    (x53 <- (x52 <- (set_byte (mkP 1100183432 2165391488 0 0) 1%nat 1) ;; Ok (status x52)) ;; Ok (Z.eqb 1 x53))].
Proof. vm_compute. repeat constructor. Qed.

(* line 333 *)
Example test_bytes : all_true [
    (x54 <- (get_byte (mkP 1503295368 1335206520 875659011 18813492) 0%nat) ;; Ok (Z.eqb 89 x54));
    (x55 <- (get_byte (mkP 1503295368 1335206520 875659011 18813492) 1%nat) ;; Ok (Z.eqb 154 x55));
    (Ok (Z.eqb 154 (byte2 (mkP 1503295368 1335206520 875659011 18813492))));
    (x56 <- (get_byte (mkP 1503295368 1335206520 875659011 18813492) 2%nat) ;; Ok (Z.eqb 119 x56));
    (Ok (Z.eqb 119 (byte3 (mkP 1503295368 1335206520 875659011 18813492))));
    (x57 <- (get_byte (mkP 1503295368 1335206520 875659011 18813492) 3%nat) ;; Ok (Z.eqb 136 x57));
    (Ok (Z.eqb 136 (byte4 (mkP 1503295368 1335206520 875659011 18813492))));
    (x58 <- (get_byte (mkP 1503295368 1335206520 875659011 18813492) 4%nat) ;; Ok (Z.eqb 79 x58));
    (x59 <- (get_byte (mkP 1503295368 1335206520 875659011 18813492) 5%nat) ;; Ok (Z.eqb 149 x59));
    (x60 <- (get_byte (mkP 1503295368 1335206520 875659011 18813492) 6%nat) ;; Ok (Z.eqb 162 x60));
    (x61 <- (get_byte (mkP 1503295368 1335206520 875659011 18813492) 7%nat) ;; Ok (Z.eqb 120 x61));
    (x62 <- (get_byte (mkP 1503295368 1335206520 875659011 18813492) 8%nat) ;; Ok (Z.eqb 52 x62));
    (x63 <- (get_byte (mkP 1503295368 1335206520 875659011 18813492) 9%nat) ;; Ok (Z.eqb 49 x63));
    (x64 <- (get_byte (mkP 1503295368 1335206520 875659011 18813492) 10%nat) ;; Ok (Z.eqb 127 x64));
    (x65 <- (get_byte (mkP 1503295368 1335206520 875659011 18813492) 11%nat) ;; Ok (Z.eqb 3 x65));
    (x66 <- (get_byte (mkP 1503295368 1335206520 875659011 18813492) 12%nat) ;; Ok (Z.eqb 1 x66));
    (x67 <- (get_byte (mkP 1503295368 1335206520 875659011 18813492) 13%nat) ;; Ok (Z.eqb 31 x67));
    (x68 <- (get_byte (mkP 1503295368 1335206520 875659011 18813492) 14%nat) ;; Ok (Z.eqb 18 x68));
    (x69 <- (get_byte (mkP 1503295368 1335206520 875659011 18813492) 15%nat) ;; Ok (Z.eqb 52 x69));
    (x72 <- (x71 <- (x70 <- (get_byte (mkP 1503295368 1335206520 875659011 18813492) 0%nat) ;; Ok (Z.land x70 127)) ;; Ok (u8 x71)) ;; x73 <- (get_byte_7bit (mkP 1503295368 1335206520 875659011 18813492) 0%nat) ;; Ok (Z.eqb x72 x73));
    (x75 <- (x74 <- (set_byte (mkP 1503295368 1335206520 875659011 18813492) 0%nat 1) ;; get_byte x74 0%nat) ;; Ok (Z.eqb 1 x75));
    (x78 <- (x77 <- (x76 <- (set_byte (mkP 1503295368 1335206520 875659011 18813492) 0%nat 1) ;; set_byte_7bit x76 0%nat 128) ;; get_byte x77 0%nat) ;; Ok (Z.eqb 0 x78));
    (x83 <- (x81 <- (x80 <- (x79 <- (x76 <- (set_byte (mkP 1503295368 1335206520 875659011 18813492) 0%nat 1) ;; set_byte_7bit x76 0%nat 128) ;; get_byte x79 1%nat) ;; Ok (Z.land x80 127)) ;; Ok (u8 x81)) ;; x84 <- (x82 <- (x76 <- (set_byte (mkP 1503295368 1335206520 875659011 18813492) 0%nat 1) ;; set_byte_7bit x76 0%nat 128) ;; get_byte_7bit x82 1%nat) ;; Ok (Z.eqb x83 x84));
    (x87 <- (x86 <- (x85 <- (x76 <- (set_byte (mkP 1503295368 1335206520 875659011 18813492) 0%nat 1) ;; set_byte_7bit x76 0%nat 128) ;; set_byte x85 1%nat 2) ;; get_byte x86 1%nat) ;; Ok (Z.eqb 2 x87));
    (x90 <- (x89 <- (x88 <- (x85 <- (x76 <- (set_byte (mkP 1503295368 1335206520 875659011 18813492) 0%nat 1) ;; set_byte_7bit x76 0%nat 128) ;; set_byte x85 1%nat 2) ;; set_byte_7bit x88 1%nat 129) ;; get_byte x89 1%nat) ;; Ok (Z.eqb 1 x90));
    (x95 <- (x93 <- (x92 <- (x91 <- (x88 <- (x85 <- (x76 <- (set_byte (mkP 1503295368 1335206520 875659011 18813492) 0%nat 1) ;; set_byte_7bit x76 0%nat 128) ;; set_byte x85 1%nat 2) ;; set_byte_7bit x88 1%nat 129) ;; get_byte x91 2%nat) ;; Ok (Z.land x92 127)) ;; Ok (u8 x93)) ;; x96 <- (x94 <- (x88 <- (x85 <- (x76 <- (set_byte (mkP 1503295368 1335206520 875659011 18813492) 0%nat 1) ;; set_byte_7bit x76 0%nat 128) ;; set_byte x85 1%nat 2) ;; set_byte_7bit x88 1%nat 129) ;; get_byte_7bit x94 2%nat) ;; Ok (Z.eqb x95 x96));
    (x99 <- (x98 <- (x97 <- (x88 <- (x85 <- (x76 <- (set_byte (mkP 1503295368 1335206520 875659011 18813492) 0%nat 1) ;; set_byte_7bit x76 0%nat 128) ;; set_byte x85 1%nat 2) ;; set_byte_7bit x88 1%nat 129) ;; set_byte x97 2%nat 3) ;; get_byte x98 2%nat) ;; Ok (Z.eqb 3 x99));
    (x102 <- (x101 <- (x100 <- (x97 <- (x88 <- (x85 <- (x76 <- (set_byte (mkP 1503295368 1335206520 875659011 18813492) 0%nat 1) ;; set_byte_7bit x76 0%nat 128) ;; set_byte x85 1%nat 2) ;; set_byte_7bit x88 1%nat 129) ;; set_byte x97 2%nat 3) ;; set_byte_7bit x100 2%nat 130) ;; get_byte x101 2%nat) ;; Ok (Z.eqb 2 x102));
    (x107 <- (x105 <- (x104 <- (x103 <- (x100 <- (x97 <- (x88 <- (x85 <- (x76 <- (set_byte (mkP 1503295368 1335206520 875659011 18813492) 0%nat 1) ;; set_byte_7bit x76 0%nat 128) ;; set_byte x85 1%nat 2) ;; set_byte_7bit x88 1%nat 129) ;; set_byte x97 2%nat 3) ;; set_byte_7bit x100 2%nat 130) ;; get_byte x103 3%nat) ;; Ok (Z.land x104 127)) ;; Ok (u8 x105)) ;; x108 <- (x106 <- (x100 <- (x97 <- (x88 <- (x85 <- (x76 <- (set_byte (mkP 1503295368 1335206520 875659011 18813492) 0%nat 1) ;; set_byte_7bit x76 0%nat 128) ;; set_byte x85 1%nat 2) ;; set_byte_7bit x88 1%nat 129) ;; set_byte x97 2%nat 3) ;; set_byte_7bit x100 2%nat 130) ;; get_byte_7bit x106 3%nat) ;; Ok (Z.eqb x107 x108));
    (x111 <- (x110 <- (x109 <- (x100 <- (x97 <- (x88 <- (x85 <- (x76 <- (set_byte (mkP 1503295368 1335206520 875659011 18813492) 0%nat 1) ;; set_byte_7bit x76 0%nat 128) ;; set_byte x85 1%nat 2) ;; set_byte_7bit x88 1%nat 129) ;; set_byte x97 2%nat 3) ;; set_byte_7bit x100 2%nat 130) ;; set_byte x109 3%nat 4) ;; get_byte x110 3%nat) ;; Ok (Z.eqb 4 x111));
    (x114 <- (x113 <- (x112 <- (x109 <- (x100 <- (x97 <- (x88 <- (x85 <- (x76 <- (set_byte (mkP 1503295368 1335206520 875659011 18813492) 0%nat 1) ;; set_byte_7bit x76 0%nat 128) ;; set_byte x85 1%nat 2) ;; set_byte_7bit x88 1%nat 129) ;; set_byte x97 2%nat 3) ;; set_byte_7bit x100 2%nat 130) ;; set_byte x109 3%nat 4) ;; set_byte_7bit x112 3%nat 131) ;; get_byte x113 3%nat) ;; Ok (Z.eqb 3 x114));
    (x119 <- (x117 <- (x116 <- (x115 <- (x112 <- (x109 <- (x100 <- (x97 <- (x88 <- (x85 <- (x76 <- (set_byte (mkP 1503295368 1335206520 875659011 18813492) 0%nat 1) ;; set_byte_7bit x76 0%nat 128) ;; set_byte x85 1%nat 2) ;; set_byte_7bit x88 1%nat 129) ;; set_byte x97 2%nat 3) ;; set_byte_7bit x100 2%nat 130) ;; set_byte x109 3%nat 4) ;; set_byte_7bit x112 3%nat 131) ;; get_byte x115 4%nat) ;; Ok (Z.land x116 127)) ;; Ok (u8 x117)) ;; x120 <- (x118 <- (x112 <- (x109 <- (x100 <- (x97 <- (x88 <- (x85 <- (x76 <- (set_byte (mkP 1503295368 1335206520 875659011 18813492) 0%nat 1) ;; set_byte_7bit x76 0%nat 128) ;; set_byte x85 1%nat 2) ;; set_byte_7bit x88 1%nat 129) ;; set_byte x97 2%nat 3) ;; set_byte_7bit x100 2%nat 130) ;; set_byte x109 3%nat 4) ;; set_byte_7bit x112 3%nat 131) ;; get_byte_7bit x118 4%nat) ;; Ok (Z.eqb x119 x120));
    (x123 <- (x122 <- (x121 <- (x112 <- (x109 <- (x100 <- (x97 <- (x88 <- (x85 <- (x76 <- (set_byte (mkP 1503295368 1335206520 875659011 18813492) 0%nat 1) ;; set_byte_7bit x76 0%nat 128) ;; set_byte x85 1%nat 2) ;; set_byte_7bit x88 1%nat 129) ;; set_byte x97 2%nat 3) ;; set_byte_7bit x100 2%nat 130) ;; set_byte x109 3%nat 4) ;; set_byte_7bit x112 3%nat 131) ;; set_byte x121 4%nat 5) ;; get_byte x122 4%nat) ;; Ok (Z.eqb 5 x123));
    (x126 <- (x125 <- (x124 <- (x121 <- (x112 <- (x109 <- (x100 <- (x97 <- (x88 <- (x85 <- (x76 <- (set_byte (mkP 1503295368 1335206520 875659011 18813492) 0%nat 1) ;; set_byte_7bit x76 0%nat 128) ;; set_byte x85 1%nat 2) ;; set_byte_7bit x88 1%nat 129) ;; set_byte x97 2%nat 3) ;; set_byte_7bit x100 2%nat 130) ;; set_byte x109 3%nat 4) ;; set_byte_7bit x112 3%nat 131) ;; set_byte x121 4%nat 5) ;; set_byte_7bit x124 4%nat 132) ;; get_byte x125 4%nat) ;; Ok (Z.eqb 4 x126));
    (x131 <- (x129 <- (x128 <- (x127 <- (x124 <- (x121 <- (x112 <- (x109 <- (x100 <- (x97 <- (x88 <- (x85 <- (x76 <- (set_byte (mkP 1503295368 1335206520 875659011 18813492) 0%nat 1) ;; set_byte_7bit x76 0%nat 128) ;; set_byte x85 1%nat 2) ;; set_byte_7bit x88 1%nat 129) ;; set_byte x97 2%nat 3) ;; set_byte_7bit x100 2%nat 130) ;; set_byte x109 3%nat 4) ;; set_byte_7bit x112 3%nat 131) ;; set_byte x121 4%nat 5) ;; set_byte_7bit x124 4%nat 132) ;; get_byte x127 5%nat) ;; Ok (Z.land x128 127)) ;; Ok (u8 x129)) ;; x132 <- (x130 <- (x124 <- (x121 <- (x112 <- (x109 <- (x100 <- (x97 <- (x88 <- (x85 <- (x76 <- (set_byte (mkP 1503295368 1335206520 875659011 18813492) 0%nat 1) ;; set_byte_7bit x76 0%nat 128) ;; set_byte x85 1%nat 2) ;; set_byte_7bit x88 1%nat 129) ;; set_byte x97 2%nat 3) ;; set_byte_7bit x100 2%nat 130) ;; set_byte x109 3%nat 4) ;; set_byte_7bit x112 3%nat 131) ;; set_byte x121 4%nat 5) ;; set_byte_7bit x124 4%nat 132) ;; get_byte_7bit x130 5%nat) ;; Ok (Z.eqb x131 x132));
    (x135 <- (x134 <- (x133 <- (x124 <- (x121 <- (x112 <- (x109 <- (x100 <- (x97 <- (x88 <- (x85 <- (x76 <- (set_byte (mkP 1503295368 1335206520 875659011 18813492) 0%nat 1) ;; set_byte_7bit x76 0%nat 128) ;; set_byte x85 1%nat 2) ;; set_byte_7bit x88 1%nat 129) ;; set_byte x97 2%nat 3) ;; set_byte_7bit x100 2%nat 130) ;; set_byte x109 3%nat 4) ;; set_byte_7bit x112 3%nat 131) ;; set_byte x121 4%nat 5) ;; set_byte_7bit x124 4%nat 132) ;; set_byte x133 5%nat 6) ;; get_byte x134 5%nat) ;; Ok (Z.eqb 6 x135));
    (x138 <- (x137 <- (x136 <- (x133 <- (x124 <- (x121 <- (x112 <- (x109 <- (x100 <- (x97 <- (x88 <- (x85 <- (x76 <- (set_byte (mkP 1503295368 1335206520 875659011 18813492) 0%nat 1) ;; set_byte_7bit x76 0%nat 128) ;; set_byte x85 1%nat 2) ;; set_byte_7bit x88 1%nat 129) ;; set_byte x97 2%nat 3) ;; set_byte_7bit x100 2%nat 130) ;; set_byte x109 3%nat 4) ;; set_byte_7bit x112 3%nat 131) ;; set_byte x121 4%nat 5) ;; set_byte_7bit x124 4%nat 132) ;; set_byte x133 5%nat 6) ;; set_byte_7bit x136 5%nat 133) ;; get_byte x137 5%nat) ;; Ok (Z.eqb 5 x138));
    (x143 <- (x141 <- (x140 <- (x139 <- (x136 <- (x133 <- (x124 <- (x121 <- (x112 <- (x109 <- (x100 <- (x97 <- (x88 <- (x85 <- (x76 <- (set_byte (mkP 1503295368 1335206520 875659011 18813492) 0%nat 1) ;; set_byte_7bit x76 0%nat 128) ;; set_byte x85 1%nat 2) ;; set_byte_7bit x88 1%nat 129) ;; set_byte x97 2%nat 3) ;; set_byte_7bit x100 2%nat 130) ;; set_byte x109 3%nat 4) ;; set_byte_7bit x112 3%nat 131) ;; set_byte x121 4%nat 5) ;; set_byte_7bit x124 4%nat 132) ;; set_byte x133 5%nat 6) ;; set_byte_7bit x136 5%nat 133) ;; get_byte x139 6%nat) ;; Ok (Z.land x140 127)) ;; Ok (u8 x141)) ;; x144 <- (x142 <- (x136 <- (x133 <- (x124 <- (x121 <- (x112 <- (x109 <- (x100 <- (x97 <- (x88 <- (x85 <- (x76 <- (set_byte (mkP 1503295368 1335206520 875659011 18813492) 0%nat 1) ;; set_byte_7bit x76 0%nat 128) ;; set_byte x85 1%nat 2) ;; set_byte_7bit x88 1%nat 129) ;; set_byte x97 2%nat 3) ;; set_byte_7bit x100 2%nat 130) ;; set_byte x109 3%nat 4) ;; set_byte_7bit x112 3%nat 131) ;; set_byte x121 4%nat 5) ;; set_byte_7bit x124 4%nat 132) ;; set_byte x133 5%nat 6) ;; set_byte_7bit x136 5%nat 133) ;; get_byte_7bit x142 6%nat) ;; Ok (Z.eqb x143 x144));
    (x147 <- (x146 <- (x145 <- (x136 <- (x133 <- (x124 <- (x121 <- (x112 <- (x109 <- (x100 <- (x97 <- (x88 <- (x85 <- (x76 <- (set_byte (mkP 1503295368 1335206520 875659011 18813492) 0%nat 1) ;; set_byte_7bit x76 0%nat 128) ;; set_byte x85 1%nat 2) ;; set_byte_7bit x88 1%nat 129) ;; set_byte x97 2%nat 3) ;; set_byte_7bit x100 2%nat 130) ;; set_byte x109 3%nat 4) ;; set_byte_7bit x112 3%nat 131) ;; set_byte x121 4%nat 5) ;; set_byte_7bit x124 4%nat 132) ;; set_byte x133 5%nat 6) ;; set_byte_7bit x136 5%nat 133) ;; set_byte x145 6%nat 7) ;; get_byte x146 6%nat) ;; Ok (Z.eqb 7 x147));
    (x150 <- (x149 <- (x148 <- (x145 <- (x136 <- (x133 <- (x124 <- (x121 <- (x112 <- (x109 <- (x100 <- (x97 <- (x88 <- (x85 <- (x76 <- (set_byte (mkP 1503295368 1335206520 875659011 18813492) 0%nat 1) ;; set_byte_7bit x76 0%nat 128) ;; set_byte x85 1%nat 2) ;; set_byte_7bit x88 1%nat 129) ;; set_byte x97 2%nat 3) ;; set_byte_7bit x100 2%nat 130) ;; set_byte x109 3%nat 4) ;; set_byte_7bit x112 3%nat 131) ;; set_byte x121 4%nat 5) ;; set_byte_7bit x124 4%nat 132) ;; set_byte x133 5%nat 6) ;; set_byte_7bit x136 5%nat 133) ;; set_byte x145 6%nat 7) ;; set_byte_7bit x148 6%nat 134) ;; get_byte x149 6%nat) ;; Ok (Z.eqb 6 x150));
    (x155 <- (x153 <- (x152 <- (x151 <- (x148 <- (x145 <- (x136 <- (x133 <- (x124 <- (x121 <- (x112 <- (x109 <- (x100 <- (x97 <- (x88 <- (x85 <- (x76 <- (set_byte (mkP 1503295368 1335206520 875659011 18813492) 0%nat 1) ;; set_byte_7bit x76 0%nat 128) ;; set_byte x85 1%nat 2) ;; set_byte_7bit x88 1%nat 129) ;; set_byte x97 2%nat 3) ;; set_byte_7bit x100 2%nat 130) ;; set_byte x109 3%nat 4) ;; set_byte_7bit x112 3%nat 131) ;; set_byte x121 4%nat 5) ;; set_byte_7bit x124 4%nat 132) ;; set_byte x133 5%nat 6) ;; set_byte_7bit x136 5%nat 133) ;; set_byte x145 6%nat 7) ;; set_byte_7bit x148 6%nat 134) ;; get_byte x151 7%nat) ;; Ok (Z.land x152 127)) ;; Ok (u8 x153)) ;; x156 <- (x154 <- (x148 <- (x145 <- (x136 <- (x133 <- (x124 <- (x121 <- (x112 <- (x109 <- (x100 <- (x97 <- (x88 <- (x85 <- (x76 <- (set_byte (mkP 1503295368 1335206520 875659011 18813492) 0%nat 1) ;; set_byte_7bit x76 0%nat 128) ;; set_byte x85 1%nat 2) ;; set_byte_7bit x88 1%nat 129) ;; set_byte x97 2%nat 3) ;; set_byte_7bit x100 2%nat 130) ;; set_byte x109 3%nat 4) ;; set_byte_7bit x112 3%nat 131) ;; set_byte x121 4%nat 5) ;; set_byte_7bit x124 4%nat 132) ;; set_byte x133 5%nat 6) ;; set_byte_7bit x136 5%nat 133) ;; set_byte x145 6%nat 7) ;; set_byte_7bit x148 6%nat 134) ;; get_byte_7bit x154 7%nat) ;; Ok (Z.eqb x155 x156));
    (x159 <- (x158 <- (x157 <- (x148 <- (x145 <- (x136 <- (x133 <- (x124 <- (x121 <- (x112 <- (x109 <- (x100 <- (x97 <- (x88 <- (x85 <- (x76 <- (set_byte (mkP 1503295368 1335206520 875659011 18813492) 0%nat 1) ;; set_byte_7bit x76 0%nat 128) ;; set_byte x85 1%nat 2) ;; set_byte_7bit x88 1%nat 129) ;; set_byte x97 2%nat 3) ;; set_byte_7bit x100 2%nat 130) ;; set_byte x109 3%nat 4) ;; set_byte_7bit x112 3%nat 131) ;; set_byte x121 4%nat 5) ;; set_byte_7bit x124 4%nat 132) ;; set_byte x133 5%nat 6) ;; set_byte_7bit x136 5%nat 133) ;; set_byte x145 6%nat 7) ;; set_byte_7bit x148 6%nat 134) ;; set_byte x157 7%nat 8) ;; get_byte x158 7%nat) ;; Ok (Z.eqb 8 x159));
    (x162 <- (x161 <- (x160 <- (x157 <- (x148 <- (x145 <- (x136 <- (x133 <- (x124 <- (x121 <- (x112 <- (x109 <- (x100 <- (x97 <- (x88 <- (x85 <- (x76 <- (set_byte (mkP 1503295368 1335206520 875659011 18813492) 0%nat 1) ;; set_byte_7bit x76 0%nat 128) ;; set_byte x85 1%nat 2) ;; set_byte_7bit x88 1%nat 129) ;; set_byte x97 2%nat 3) ;; set_byte_7bit x100 2%nat 130) ;; set_byte x109 3%nat 4) ;; set_byte_7bit x112 3%nat 131) ;; set_byte x121 4%nat 5) ;; set_byte_7bit x124 4%nat 132) ;; set_byte x133 5%nat 6) ;; set_byte_7bit x136 5%nat 133) ;; set_byte x145 6%nat 7) ;; set_byte_7bit x148 6%nat 134) ;; set_byte x157 7%nat 8) ;; set_byte_7bit x160 7%nat 135) ;; get_byte x161 7%nat) ;; Ok (Z.eqb 7 x162));
    (x167 <- (x165 <- (x164 <- (x163 <- (x160 <- (x157 <- (x148 <- (x145 <- (x136 <- (x133 <- (x124 <- (x121 <- (x112 <- (x109 <- (x100 <- (x97 <- (x88 <- (x85 <- (x76 <- (set_byte (mkP 1503295368 1335206520 875659011 18813492) 0%nat 1) ;; set_byte_7bit x76 0%nat 128) ;; set_byte x85 1%nat 2) ;; set_byte_7bit x88 1%nat 129) ;; set_byte x97 2%nat 3) ;; set_byte_7bit x100 2%nat 130) ;; set_byte x109 3%nat 4) ;; set_byte_7bit x112 3%nat 131) ;; set_byte x121 4%nat 5) ;; set_byte_7bit x124 4%nat 132) ;; set_byte x133 5%nat 6) ;; set_byte_7bit x136 5%nat 133) ;; set_byte x145 6%nat 7) ;; set_byte_7bit x148 6%nat 134) ;; set_byte x157 7%nat 8) ;; set_byte_7bit x160 7%nat 135) ;; get_byte x163 8%nat) ;; Ok (Z.land x164 127)) ;; Ok (u8 x165)) ;; x168 <- (x166 <- (x160 <- (x157 <- (x148 <- (x145 <- (x136 <- (x133 <- (x124 <- (x121 <- (x112 <- (x109 <- (x100 <- (x97 <- (x88 <- (x85 <- (x76 <- (set_byte (mkP 1503295368 1335206520 875659011 18813492) 0%nat 1) ;; set_byte_7bit x76 0%nat 128) ;; set_byte x85 1%nat 2) ;; set_byte_7bit x88 1%nat 129) ;; set_byte x97 2%nat 3) ;; set_byte_7bit x100 2%nat 130) ;; set_byte x109 3%nat 4) ;; set_byte_7bit x112 3%nat 131) ;; set_byte x121 4%nat 5) ;; set_byte_7bit x124 4%nat 132) ;; set_byte x133 5%nat 6) ;; set_byte_7bit x136 5%nat 133) ;; set_byte x145 6%nat 7) ;; set_byte_7bit x148 6%nat 134) ;; set_byte x157 7%nat 8) ;; set_byte_7bit x160 7%nat 135) ;; get_byte_7bit x166 8%nat) ;; Ok (Z.eqb x167 x168));
    (x171 <- (x170 <- (x169 <- (x160 <- (x157 <- (x148 <- (x145 <- (x136 <- (x133 <- (x124 <- (x121 <- (x112 <- (x109 <- (x100 <- (x97 <- (x88 <- (x85 <- (x76 <- (set_byte (mkP 1503295368 1335206520 875659011 18813492) 0%nat 1) ;; set_byte_7bit x76 0%nat 128) ;; set_byte x85 1%nat 2) ;; set_byte_7bit x88 1%nat 129) ;; set_byte x97 2%nat 3) ;; set_byte_7bit x100 2%nat 130) ;; set_byte x109 3%nat 4) ;; set_byte_7bit x112 3%nat 131) ;; set_byte x121 4%nat 5) ;; set_byte_7bit x124 4%nat 132) ;; set_byte x133 5%nat 6) ;; set_byte_7bit x136 5%nat 133) ;; set_byte x145 6%nat 7) ;; set_byte_7bit x148 6%nat 134) ;; set_byte x157 7%nat 8) ;; set_byte_7bit x160 7%nat 135) ;; set_byte x169 8%nat 9) ;; get_byte x170 8%nat) ;; Ok (Z.eqb 9 x171));
    (x174 <- (x173 <- (x172 <- (x169 <- (x160 <- (x157 <- (x148 <- (x145 <- (x136 <- (x133 <- (x124 <- (x121 <- (x112 <- (x109 <- (x100 <- (x97 <- (x88 <- (x85 <- (x76 <- (set_byte (mkP 1503295368 1335206520 875659011 18813492) 0%nat 1) ;; set_byte_7bit x76 0%nat 128) ;; set_byte x85 1%nat 2) ;; set_byte_7bit x88 1%nat 129) ;; set_byte x97 2%nat 3) ;; set_byte_7bit x100 2%nat 130) ;; set_byte x109 3%nat 4) ;; set_byte_7bit x112 3%nat 131) ;; set_byte x121 4%nat 5) ;; set_byte_7bit x124 4%nat 132) ;; set_byte x133 5%nat 6) ;; set_byte_7bit x136 5%nat 133) ;; set_byte x145 6%nat 7) ;; set_byte_7bit x148 6%nat 134) ;; set_byte x157 7%nat 8) ;; set_byte_7bit x160 7%nat 135) ;; set_byte x169 8%nat 9) ;; set_byte_7bit x172 8%nat 136) ;; get_byte x173 8%nat) ;; Ok (Z.eqb 8 x174));
    (x179 <- (x177 <- (x176 <- (x175 <- (x172 <- (x169 <- (x160 <- (x157 <- (x148 <- (x145 <- (x136 <- (x133 <- (x124 <- (x121 <- (x112 <- (x109 <- (x100 <- (x97 <- (x88 <- (x85 <- (x76 <- (set_byte (mkP 1503295368 1335206520 875659011 18813492) 0%nat 1) ;; set_byte_7bit x76 0%nat 128) ;; set_byte x85 1%nat 2) ;; set_byte_7bit x88 1%nat 129) ;; set_byte x97 2%nat 3) ;; set_byte_7bit x100 2%nat 130) ;; set_byte x109 3%nat 4) ;; set_byte_7bit x112 3%nat 131) ;; set_byte x121 4%nat 5) ;; set_byte_7bit x124 4%nat 132) ;; set_byte x133 5%nat 6) ;; set_byte_7bit x136 5%nat 133) ;; set_byte x145 6%nat 7) ;; set_byte_7bit x148 6%nat 134) ;; set_byte x157 7%nat 8) ;; set_byte_7bit x160 7%nat 135) ;; set_byte x169 8%nat 9) ;; set_byte_7bit x172 8%nat 136) ;; get_byte x175 9%nat) ;; Ok (Z.land x176 127)) ;; Ok (u8 x177)) ;; x180 <- (x178 <- (x172 <- (x169 <- (x160 <- (x157 <- (x148 <- (x145 <- (x136 <- (x133 <- (x124 <- (x121 <- (x112 <- (x109 <- (x100 <- (x97 <- (x88 <- (x85 <- (x76 <- (set_byte (mkP 1503295368 1335206520 875659011 18813492) 0%nat 1) ;; set_byte_7bit x76 0%nat 128) ;; set_byte x85 1%nat 2) ;; set_byte_7bit x88 1%nat 129) ;; set_byte x97 2%nat 3) ;; set_byte_7bit x100 2%nat 130) ;; set_byte x109 3%nat 4) ;; set_byte_7bit x112 3%nat 131) ;; set_byte x121 4%nat 5) ;; set_byte_7bit x124 4%nat 132) ;; set_byte x133 5%nat 6) ;; set_byte_7bit x136 5%nat 133) ;; set_byte x145 6%nat 7) ;; set_byte_7bit x148 6%nat 134) ;; set_byte x157 7%nat 8) ;; set_byte_7bit x160 7%nat 135) ;; set_byte x169 8%nat 9) ;; set_byte_7bit x172 8%nat 136) ;; get_byte_7bit x178 9%nat) ;; Ok (Z.eqb x179 x180));
    (x183 <- (x182 <- (x181 <- (x172 <- (x169 <- (x160 <- (x157 <- (x148 <- (x145 <- (x136 <- (x133 <- (x124 <- (x121 <- (x112 <- (x109 <- (x100 <- (x97 <- (x88 <- (x85 <- (x76 <- (set_byte (mkP 1503295368 1335206520 875659011 18813492) 0%nat 1) ;; set_byte_7bit x76 0%nat 128) ;; set_byte x85 1%nat 2) ;; set_byte_7bit x88 1%nat 129) ;; set_byte x97 2%nat 3) ;; set_byte_7bit x100 2%nat 130) ;; set_byte x109 3%nat 4) ;; set_byte_7bit x112 3%nat 131) ;; set_byte x121 4%nat 5) ;; set_byte_7bit x124 4%nat 132) ;; set_byte x133 5%nat 6) ;; set_byte_7bit x136 5%nat 133) ;; set_byte x145 6%nat 7) ;; set_byte_7bit x148 6%nat 134) ;; set_byte x157 7%nat 8) ;; set_byte_7bit x160 7%nat 135) ;; set_byte x169 8%nat 9) ;; set_byte_7bit x172 8%nat 136) ;; set_byte x181 9%nat 10) ;; get_byte x182 9%nat) ;; Ok (Z.eqb 10 x183));
    (x186 <- (x185 <- (x184 <- (x181 <- (x172 <- (x169 <- (x160 <- (x157 <- (x148 <- (x145 <- (x136 <- (x133 <- (x124 <- (x121 <- (x112 <- (x109 <- (x100 <- (x97 <- (x88 <- (x85 <- (x76 <- (set_byte (mkP 1503295368 1335206520 875659011 18813492) 0%nat 1) ;; set_byte_7bit x76 0%nat 128) ;; set_byte x85 1%nat 2) ;; set_byte_7bit x88 1%nat 129) ;; set_byte x97 2%nat 3) ;; set_byte_7bit x100 2%nat 130) ;; set_byte x109 3%nat 4) ;; set_byte_7bit x112 3%nat 131) ;; set_byte x121 4%nat 5) ;; set_byte_7bit x124 4%nat 132) ;; set_byte x133 5%nat 6) ;; set_byte_7bit x136 5%nat 133) ;; set_byte x145 6%nat 7) ;; set_byte_7bit x148 6%nat 134) ;; set_byte x157 7%nat 8) ;; set_byte_7bit x160 7%nat 135) ;; set_byte x169 8%nat 9) ;; set_byte_7bit x172 8%nat 136) ;; set_byte x181 9%nat 10) ;; set_byte_7bit x184 9%nat 137) ;; get_byte x185 9%nat) ;; Ok (Z.eqb 9 x186));
    (x191 <- (x189 <- (x188 <- (x187 <- (x184 <- (x181 <- (x172 <- (x169 <- (x160 <- (x157 <- (x148 <- (x145 <- (x136 <- (x133 <- (x124 <- (x121 <- (x112 <- (x109 <- (x100 <- (x97 <- (x88 <- (x85 <- (x76 <- (set_byte (mkP 1503295368 1335206520 875659011 18813492) 0%nat 1) ;; set_byte_7bit x76 0%nat 128) ;; set_byte x85 1%nat 2) ;; set_byte_7bit x88 1%nat 129) ;; set_byte x97 2%nat 3) ;; set_byte_7bit x100 2%nat 130) ;; set_byte x109 3%nat 4) ;; set_byte_7bit x112 3%nat 131) ;; set_byte x121 4%nat 5) ;; set_byte_7bit x124 4%nat 132) ;; set_byte x133 5%nat 6) ;; set_byte_7bit x136 5%nat 133) ;; set_byte x145 6%nat 7) ;; set_byte_7bit x148 6%nat 134) ;; set_byte x157 7%nat 8) ;; set_byte_7bit x160 7%nat 135) ;; set_byte x169 8%nat 9) ;; set_byte_7bit x172 8%nat 136) ;; set_byte x181 9%nat 10) ;; set_byte_7bit x184 9%nat 137) ;; get_byte x187 10%nat) ;; Ok (Z.land x188 127)) ;; Ok (u8 x189)) ;; x192 <- (x190 <- (x184 <- (x181 <- (x172 <- (x169 <- (x160 <- (x157 <- (x148 <- (x145 <- (x136 <- (x133 <- (x124 <- (x121 <- (x112 <- (x109 <- (x100 <- (x97 <- (x88 <- (x85 <- (x76 <- (set_byte (mkP 1503295368 1335206520 875659011 18813492) 0%nat 1) ;; set_byte_7bit x76 0%nat 128) ;; set_byte x85 1%nat 2) ;; set_byte_7bit x88 1%nat 129) ;; set_byte x97 2%nat 3) ;; set_byte_7bit x100 2%nat 130) ;; set_byte x109 3%nat 4) ;; set_byte_7bit x112 3%nat 131) ;; set_byte x121 4%nat 5) ;; set_byte_7bit x124 4%nat 132) ;; set_byte x133 5%nat 6) ;; set_byte_7bit x136 5%nat 133) ;; set_byte x145 6%nat 7) ;; set_byte_7bit x148 6%nat 134) ;; set_byte x157 7%nat 8) ;; set_byte_7bit x160 7%nat 135) ;; set_byte x169 8%nat 9) ;; set_byte_7bit x172 8%nat 136) ;; set_byte x181 9%nat 10) ;; set_byte_7bit x184 9%nat 137) ;; get_byte_7bit x190 10%nat) ;; Ok (Z.eqb x191 x192));
    (x195 <- (x194 <- (x193 <- (x184 <- (x181 <- (x172 <- (x169 <- (x160 <- (x157 <- (x148 <- (x145 <- (x136 <- (x133 <- (x124 <- (x121 <- (x112 <- (x109 <- (x100 <- (x97 <- (x88 <- (x85 <- (x76 <- (set_byte (mkP 1503295368 1335206520 875659011 18813492) 0%nat 1) ;; set_byte_7bit x76 0%nat 128) ;; set_byte x85 1%nat 2) ;; set_byte_7bit x88 1%nat 129) ;; set_byte x97 2%nat 3) ;; set_byte_7bit x100 2%nat 130) ;; set_byte x109 3%nat 4) ;; set_byte_7bit x112 3%nat 131) ;; set_byte x121 4%nat 5) ;; set_byte_7bit x124 4%nat 132) ;; set_byte x133 5%nat 6) ;; set_byte_7bit x136 5%nat 133) ;; set_byte x145 6%nat 7) ;; set_byte_7bit x148 6%nat 134) ;; set_byte x157 7%nat 8) ;; set_byte_7bit x160 7%nat 135) ;; set_byte x169 8%nat 9) ;; set_byte_7bit x172 8%nat 136) ;; set_byte x181 9%nat 10) ;; set_byte_7bit x184 9%nat 137) ;; set_byte x193 10%nat 11) ;; get_byte x194 10%nat) ;; Ok (Z.eqb 11 x195));
    (x198 <- (x197 <- (x196 <- (x193 <- (x184 <- (x181 <- (x172 <- (x169 <- (x160 <- (x157 <- (x148 <- (x145 <- (x136 <- (x133 <- (x124 <- (x121 <- (x112 <- (x109 <- (x100 <- (x97 <- (x88 <- (x85 <- (x76 <- (set_byte (mkP 1503295368 1335206520 875659011 18813492) 0%nat 1) ;; set_byte_7bit x76 0%nat 128) ;; set_byte x85 1%nat 2) ;; set_byte_7bit x88 1%nat 129) ;; set_byte x97 2%nat 3) ;; set_byte_7bit x100 2%nat 130) ;; set_byte x109 3%nat 4) ;; set_byte_7bit x112 3%nat 131) ;; set_byte x121 4%nat 5) ;; set_byte_7bit x124 4%nat 132) ;; set_byte x133 5%nat 6) ;; set_byte_7bit x136 5%nat 133) ;; set_byte x145 6%nat 7) ;; set_byte_7bit x148 6%nat 134) ;; set_byte x157 7%nat 8) ;; set_byte_7bit x160 7%nat 135) ;; set_byte x169 8%nat 9) ;; set_byte_7bit x172 8%nat 136) ;; set_byte x181 9%nat 10) ;; set_byte_7bit x184 9%nat 137) ;; set_byte x193 10%nat 11) ;; set_byte_7bit x196 10%nat 138) ;; get_byte x197 10%nat) ;; Ok (Z.eqb 10 x198));
    (x203 <- (x201 <- (x200 <- (x199 <- (x196 <- (x193 <- (x184 <- (x181 <- (x172 <- (x169 <- (x160 <- (x157 <- (x148 <- (x145 <- (x136 <- (x133 <- (x124 <- (x121 <- (x112 <- (x109 <- (x100 <- (x97 <- (x88 <- (x85 <- (x76 <- (set_byte (mkP 1503295368 1335206520 875659011 18813492) 0%nat 1) ;; set_byte_7bit x76 0%nat 128) ;; set_byte x85 1%nat 2) ;; set_byte_7bit x88 1%nat 129) ;; set_byte x97 2%nat 3) ;; set_byte_7bit x100 2%nat 130) ;; set_byte x109 3%nat 4) ;; set_byte_7bit x112 3%nat 131) ;; set_byte x121 4%nat 5) ;; set_byte_7bit x124 4%nat 132) ;; set_byte x133 5%nat 6) ;; set_byte_7bit x136 5%nat 133) ;; set_byte x145 6%nat 7) ;; set_byte_7bit x148 6%nat 134) ;; set_byte x157 7%nat 8) ;; set_byte_7bit x160 7%nat 135) ;; set_byte x169 8%nat 9) ;; set_byte_7bit x172 8%nat 136) ;; set_byte x181 9%nat 10) ;; set_byte_7bit x184 9%nat 137) ;; set_byte x193 10%nat 11) ;; set_byte_7bit x196 10%nat 138) ;; get_byte x199 11%nat) ;; Ok (Z.land x200 127)) ;; Ok (u8 x201)) ;; x204 <- (x202 <- (x196 <- (x193 <- (x184 <- (x181 <- (x172 <- (x169 <- (x160 <- (x157 <- (x148 <- (x145 <- (x136 <- (x133 <- (x124 <- (x121 <- (x112 <- (x109 <- (x100 <- (x97 <- (x88 <- (x85 <- (x76 <- (set_byte (mkP 1503295368 1335206520 875659011 18813492) 0%nat 1) ;; set_byte_7bit x76 0%nat 128) ;; set_byte x85 1%nat 2) ;; set_byte_7bit x88 1%nat 129) ;; set_byte x97 2%nat 3) ;; set_byte_7bit x100 2%nat 130) ;; set_byte x109 3%nat 4) ;; set_byte_7bit x112 3%nat 131) ;; set_byte x121 4%nat 5) ;; set_byte_7bit x124 4%nat 132) ;; set_byte x133 5%nat 6) ;; set_byte_7bit x136 5%nat 133) ;; set_byte x145 6%nat 7) ;; set_byte_7bit x148 6%nat 134) ;; set_byte x157 7%nat 8) ;; set_byte_7bit x160 7%nat 135) ;; set_byte x169 8%nat 9) ;; set_byte_7bit x172 8%nat 136) ;; set_byte x181 9%nat 10) ;; set_byte_7bit x184 9%nat 137) ;; set_byte x193 10%nat 11) ;; set_byte_7bit x196 10%nat 138) ;; get_byte_7bit x202 11%nat) ;; Ok (Z.eqb x203 x204));
    (x207 <- (x206 <- (x205 <- (x196 <- (x193 <- (x184 <- (x181 <- (x172 <- (x169 <- (x160 <- (x157 <- (x148 <- (x145 <- (x136 <- (x133 <- (x124 <- (x121 <- (x112 <- (x109 <- (x100 <- (x97 <- (x88 <- (x85 <- (x76 <- (set_byte (mkP 1503295368 1335206520 875659011 18813492) 0%nat 1) ;; set_byte_7bit x76 0%nat 128) ;; set_byte x85 1%nat 2) ;; set_byte_7bit x88 1%nat 129) ;; set_byte x97 2%nat 3) ;; set_byte_7bit x100 2%nat 130) ;; set_byte x109 3%nat 4) ;; set_byte_7bit x112 3%nat 131) ;; set_byte x121 4%nat 5) ;; set_byte_7bit x124 4%nat 132) ;; set_byte x133 5%nat 6) ;; set_byte_7bit x136 5%nat 133) ;; set_byte x145 6%nat 7) ;; set_byte_7bit x148 6%nat 134) ;; set_byte x157 7%nat 8) ;; set_byte_7bit x160 7%nat 135) ;; set_byte x169 8%nat 9) ;; set_byte_7bit x172 8%nat 136) ;; set_byte x181 9%nat 10) ;; set_byte_7bit x184 9%nat 137) ;; set_byte x193 10%nat 11) ;; set_byte_7bit x196 10%nat 138) ;; set_byte x205 11%nat 12) ;; get_byte x206 11%nat) ;; Ok (Z.eqb 12 x207));
    (x210 <- (x209 <- (x208 <- (x205 <- (x196 <- (x193 <- (x184 <- (x181 <- (x172 <- (x169 <- (x160 <- (x157 <- (x148 <- (x145 <- (x136 <- (x133 <- (x124 <- (x121 <- (x112 <- (x109 <- (x100 <- (x97 <- (x88 <- (x85 <- (x76 <- (set_byte (mkP 1503295368 1335206520 875659011 18813492) 0%nat 1) ;; set_byte_7bit x76 0%nat 128) ;; set_byte x85 1%nat 2) ;; set_byte_7bit x88 1%nat 129) ;; set_byte x97 2%nat 3) ;; set_byte_7bit x100 2%nat 130) ;; set_byte x109 3%nat 4) ;; set_byte_7bit x112 3%nat 131) ;; set_byte x121 4%nat 5) ;; set_byte_7bit x124 4%nat 132) ;; set_byte x133 5%nat 6) ;; set_byte_7bit x136 5%nat 133) ;; set_byte x145 6%nat 7) ;; set_byte_7bit x148 6%nat 134) ;; set_byte x157 7%nat 8) ;; set_byte_7bit x160 7%nat 135) ;; set_byte x169 8%nat 9) ;; set_byte_7bit x172 8%nat 136) ;; set_byte x181 9%nat 10) ;; set_byte_7bit x184 9%nat 137) ;; set_byte x193 10%nat 11) ;; set_byte_7bit x196 10%nat 138) ;; set_byte x205 11%nat 12) ;; set_byte_7bit x208 11%nat 139) ;; get_byte x209 11%nat) ;; Ok (Z.eqb 11 x210));
    (x215 <- (x213 <- (x212 <- (x211 <- (x208 <- (x205 <- (x196 <- (x193 <- (x184 <- (x181 <- (x172 <- (x169 <- (x160 <- (x157 <- (x148 <- (x145 <- (x136 <- (x133 <- (x124 <- (x121 <- (x112 <- (x109 <- (x100 <- (x97 <- (x88 <- (x85 <- (x76 <- (set_byte (mkP 1503295368 1335206520 875659011 18813492) 0%nat 1) ;; set_byte_7bit x76 0%nat 128) ;; set_byte x85 1%nat 2) ;; set_byte_7bit x88 1%nat 129) ;; set_byte x97 2%nat 3) ;; set_byte_7bit x100 2%nat 130) ;; set_byte x109 3%nat 4) ;; set_byte_7bit x112 3%nat 131) ;; set_byte x121 4%nat 5) ;; set_byte_7bit x124 4%nat 132) ;; set_byte x133 5%nat 6) ;; set_byte_7bit x136 5%nat 133) ;; set_byte x145 6%nat 7) ;; set_byte_7bit x148 6%nat 134) ;; set_byte x157 7%nat 8) ;; set_byte_7bit x160 7%nat 135) ;; set_byte x169 8%nat 9) ;; set_byte_7bit x172 8%nat 136) ;; set_byte x181 9%nat 10) ;; set_byte_7bit x184 9%nat 137) ;; set_byte x193 10%nat 11) ;; set_byte_7bit x196 10%nat 138) ;; set_byte x205 11%nat 12) ;; set_byte_7bit x208 11%nat 139) ;; get_byte x211 12%nat) ;; Ok (Z.land x212 127)) ;; Ok (u8 x213)) ;; x216 <- (x214 <- (x208 <- (x205 <- (x196 <- (x193 <- (x184 <- (x181 <- (x172 <- (x169 <- (x160 <- (x157 <- (x148 <- (x145 <- (x136 <- (x133 <- (x124 <- (x121 <- (x112 <- (x109 <- (x100 <- (x97 <- (x88 <- (x85 <- (x76 <- (set_byte (mkP 1503295368 1335206520 875659011 18813492) 0%nat 1) ;; set_byte_7bit x76 0%nat 128) ;; set_byte x85 1%nat 2) ;; set_byte_7bit x88 1%nat 129) ;; set_byte x97 2%nat 3) ;; set_byte_7bit x100 2%nat 130) ;; set_byte x109 3%nat 4) ;; set_byte_7bit x112 3%nat 131) ;; set_byte x121 4%nat 5) ;; set_byte_7bit x124 4%nat 132) ;; set_byte x133 5%nat 6) ;; set_byte_7bit x136 5%nat 133) ;; set_byte x145 6%nat 7) ;; set_byte_7bit x148 6%nat 134) ;; set_byte x157 7%nat 8) ;; set_byte_7bit x160 7%nat 135) ;; set_byte x169 8%nat 9) ;; set_byte_7bit x172 8%nat 136) ;; set_byte x181 9%nat 10) ;; set_byte_7bit x184 9%nat 137) ;; set_byte x193 10%nat 11) ;; set_byte_7bit x196 10%nat 138) ;; set_byte x205 11%nat 12) ;; set_byte_7bit x208 11%nat 139) ;; get_byte_7bit x214 12%nat) ;; Ok (Z.eqb x215 x216));
    (x219 <- (x218 <- (x217 <- (x208 <- (x205 <- (x196 <- (x193 <- (x184 <- (x181 <- (x172 <- (x169 <- (x160 <- (x157 <- (x148 <- (x145 <- (x136 <- (x133 <- (x124 <- (x121 <- (x112 <- (x109 <- (x100 <- (x97 <- (x88 <- (x85 <- (x76 <- (set_byte (mkP 1503295368 1335206520 875659011 18813492) 0%nat 1) ;; set_byte_7bit x76 0%nat 128) ;; set_byte x85 1%nat 2) ;; set_byte_7bit x88 1%nat 129) ;; set_byte x97 2%nat 3) ;; set_byte_7bit x100 2%nat 130) ;; set_byte x109 3%nat 4) ;; set_byte_7bit x112 3%nat 131) ;; set_byte x121 4%nat 5) ;; set_byte_7bit x124 4%nat 132) ;; set_byte x133 5%nat 6) ;; set_byte_7bit x136 5%nat 133) ;; set_byte x145 6%nat 7) ;; set_byte_7bit x148 6%nat 134) ;; set_byte x157 7%nat 8) ;; set_byte_7bit x160 7%nat 135) ;; set_byte x169 8%nat 9) ;; set_byte_7bit x172 8%nat 136) ;; set_byte x181 9%nat 10) ;; set_byte_7bit x184 9%nat 137) ;; set_byte x193 10%nat 11) ;; set_byte_7bit x196 10%nat 138) ;; set_byte x205 11%nat 12) ;; set_byte_7bit x208 11%nat 139) ;; set_byte x217 12%nat 13) ;; get_byte x218 12%nat) ;; Ok (Z.eqb 13 x219));
    (x222 <- (x221 <- (x220 <- (x217 <- (x208 <- (x205 <- (x196 <- (x193 <- (x184 <- (x181 <- (x172 <- (x169 <- (x160 <- (x157 <- (x148 <- (x145 <- (x136 <- (x133 <- (x124 <- (x121 <- (x112 <- (x109 <- (x100 <- (x97 <- (x88 <- (x85 <- (x76 <- (set_byte (mkP 1503295368 1335206520 875659011 18813492) 0%nat 1) ;; set_byte_7bit x76 0%nat 128) ;; set_byte x85 1%nat 2) ;; set_byte_7bit x88 1%nat 129) ;; set_byte x97 2%nat 3) ;; set_byte_7bit x100 2%nat 130) ;; set_byte x109 3%nat 4) ;; set_byte_7bit x112 3%nat 131) ;; set_byte x121 4%nat 5) ;; set_byte_7bit x124 4%nat 132) ;; set_byte x133 5%nat 6) ;; set_byte_7bit x136 5%nat 133) ;; set_byte x145 6%nat 7) ;; set_byte_7bit x148 6%nat 134) ;; set_byte x157 7%nat 8) ;; set_byte_7bit x160 7%nat 135) ;; set_byte x169 8%nat 9) ;; set_byte_7bit x172 8%nat 136) ;; set_byte x181 9%nat 10) ;; set_byte_7bit x184 9%nat 137) ;; set_byte x193 10%nat 11) ;; set_byte_7bit x196 10%nat 138) ;; set_byte x205 11%nat 12) ;; set_byte_7bit x208 11%nat 139) ;; set_byte x217 12%nat 13) ;; set_byte_7bit x220 12%nat 140) ;; get_byte x221 12%nat) ;; Ok (Z.eqb 12 x222));
    (x227 <- (x225 <- (x224 <- (x223 <- (x220 <- (x217 <- (x208 <- (x205 <- (x196 <- (x193 <- (x184 <- (x181 <- (x172 <- (x169 <- (x160 <- (x157 <- (x148 <- (x145 <- (x136 <- (x133 <- (x124 <- (x121 <- (x112 <- (x109 <- (x100 <- (x97 <- (x88 <- (x85 <- (x76 <- (set_byte (mkP 1503295368 1335206520 875659011 18813492) 0%nat 1) ;; set_byte_7bit x76 0%nat 128) ;; set_byte x85 1%nat 2) ;; set_byte_7bit x88 1%nat 129) ;; set_byte x97 2%nat 3) ;; set_byte_7bit x100 2%nat 130) ;; set_byte x109 3%nat 4) ;; set_byte_7bit x112 3%nat 131) ;; set_byte x121 4%nat 5) ;; set_byte_7bit x124 4%nat 132) ;; set_byte x133 5%nat 6) ;; set_byte_7bit x136 5%nat 133) ;; set_byte x145 6%nat 7) ;; set_byte_7bit x148 6%nat 134) ;; set_byte x157 7%nat 8) ;; set_byte_7bit x160 7%nat 135) ;; set_byte x169 8%nat 9) ;; set_byte_7bit x172 8%nat 136) ;; set_byte x181 9%nat 10) ;; set_byte_7bit x184 9%nat 137) ;; set_byte x193 10%nat 11) ;; set_byte_7bit x196 10%nat 138) ;; set_byte x205 11%nat 12) ;; set_byte_7bit x208 11%nat 139) ;; set_byte x217 12%nat 13) ;; set_byte_7bit x220 12%nat 140) ;; get_byte x223 13%nat) ;; Ok (Z.land x224 127)) ;; Ok (u8 x225)) ;; x228 <- (x226 <- (x220 <- (x217 <- (x208 <- (x205 <- (x196 <- (x193 <- (x184 <- (x181 <- (x172 <- (x169 <- (x160 <- (x157 <- (x148 <- (x145 <- (x136 <- (x133 <- (x124 <- (x121 <- (x112 <- (x109 <- (x100 <- (x97 <- (x88 <- (x85 <- (x76 <- (set_byte (mkP 1503295368 1335206520 875659011 18813492) 0%nat 1) ;; set_byte_7bit x76 0%nat 128) ;; set_byte x85 1%nat 2) ;; set_byte_7bit x88 1%nat 129) ;; set_byte x97 2%nat 3) ;; set_byte_7bit x100 2%nat 130) ;; set_byte x109 3%nat 4) ;; set_byte_7bit x112 3%nat 131) ;; set_byte x121 4%nat 5) ;; set_byte_7bit x124 4%nat 132) ;; set_byte x133 5%nat 6) ;; set_byte_7bit x136 5%nat 133) ;; set_byte x145 6%nat 7) ;; set_byte_7bit x148 6%nat 134) ;; set_byte x157 7%nat 8) ;; set_byte_7bit x160 7%nat 135) ;; set_byte x169 8%nat 9) ;; set_byte_7bit x172 8%nat 136) ;; set_byte x181 9%nat 10) ;; set_byte_7bit x184 9%nat 137) ;; set_byte x193 10%nat 11) ;; set_byte_7bit x196 10%nat 138) ;; set_byte x205 11%nat 12) ;; set_byte_7bit x208 11%nat 139) ;; set_byte x217 12%nat 13) ;; set_byte_7bit x220 12%nat 140) ;; get_byte_7bit x226 13%nat) ;; Ok (Z.eqb x227 x228));
    (x231 <- (x230 <- (x229 <- (x220 <- (x217 <- (x208 <- (x205 <- (x196 <- (x193 <- (x184 <- (x181 <- (x172 <- (x169 <- (x160 <- (x157 <- (x148 <- (x145 <- (x136 <- (x133 <- (x124 <- (x121 <- (x112 <- (x109 <- (x100 <- (x97 <- (x88 <- (x85 <- (x76 <- (set_byte (mkP 1503295368 1335206520 875659011 18813492) 0%nat 1) ;; set_byte_7bit x76 0%nat 128) ;; set_byte x85 1%nat 2) ;; set_byte_7bit x88 1%nat 129) ;; set_byte x97 2%nat 3) ;; set_byte_7bit x100 2%nat 130) ;; set_byte x109 3%nat 4) ;; set_byte_7bit x112 3%nat 131) ;; set_byte x121 4%nat 5) ;; set_byte_7bit x124 4%nat 132) ;; set_byte x133 5%nat 6) ;; set_byte_7bit x136 5%nat 133) ;; set_byte x145 6%nat 7) ;; set_byte_7bit x148 6%nat 134) ;; set_byte x157 7%nat 8) ;; set_byte_7bit x160 7%nat 135) ;; set_byte x169 8%nat 9) ;; set_byte_7bit x172 8%nat 136) ;; set_byte x181 9%nat 10) ;; set_byte_7bit x184 9%nat 137) ;; set_byte x193 10%nat 11) ;; set_byte_7bit x196 10%nat 138) ;; set_byte x205 11%nat 12) ;; set_byte_7bit x208 11%nat 139) ;; set_byte x217 12%nat 13) ;; set_byte_7bit x220 12%nat 140) ;; set_byte x229 13%nat 14) ;; get_byte x230 13%nat) ;; Ok (Z.eqb 14 x231));
    (x234 <- (x233 <- (x232 <- (x229 <- (x220 <- (x217 <- (x208 <- (x205 <- (x196 <- (x193 <- (x184 <- (x181 <- (x172 <- (x169 <- (x160 <- (x157 <- (x148 <- (x145 <- (x136 <- (x133 <- (x124 <- (x121 <- (x112 <- (x109 <- (x100 <- (x97 <- (x88 <- (x85 <- (x76 <- (set_byte (mkP 1503295368 1335206520 875659011 18813492) 0%nat 1) ;; set_byte_7bit x76 0%nat 128) ;; set_byte x85 1%nat 2) ;; set_byte_7bit x88 1%nat 129) ;; set_byte x97 2%nat 3) ;; set_byte_7bit x100 2%nat 130) ;; set_byte x109 3%nat 4) ;; set_byte_7bit x112 3%nat 131) ;; set_byte x121 4%nat 5) ;; set_byte_7bit x124 4%nat 132) ;; set_byte x133 5%nat 6) ;; set_byte_7bit x136 5%nat 133) ;; set_byte x145 6%nat 7) ;; set_byte_7bit x148 6%nat 134) ;; set_byte x157 7%nat 8) ;; set_byte_7bit x160 7%nat 135) ;; set_byte x169 8%nat 9) ;; set_byte_7bit x172 8%nat 136) ;; set_byte x181 9%nat 10) ;; set_byte_7bit x184 9%nat 137) ;; set_byte x193 10%nat 11) ;; set_byte_7bit x196 10%nat 138) ;; set_byte x205 11%nat 12) ;; set_byte_7bit x208 11%nat 139) ;; set_byte x217 12%nat 13) ;; set_byte_7bit x220 12%nat 140) ;; set_byte x229 13%nat 14) ;; set_byte_7bit x232 13%nat 141) ;; get_byte x233 13%nat) ;; Ok (Z.eqb 13 x234));
    (x239 <- (x237 <- (x236 <- (x235 <- (x232 <- (x229 <- (x220 <- (x217 <- (x208 <- (x205 <- (x196 <- (x193 <- (x184 <- (x181 <- (x172 <- (x169 <- (x160 <- (x157 <- (x148 <- (x145 <- (x136 <- (x133 <- (x124 <- (x121 <- (x112 <- (x109 <- (x100 <- (x97 <- (x88 <- (x85 <- (x76 <- (set_byte (mkP 1503295368 1335206520 875659011 18813492) 0%nat 1) ;; set_byte_7bit x76 0%nat 128) ;; set_byte x85 1%nat 2) ;; set_byte_7bit x88 1%nat 129) ;; set_byte x97 2%nat 3) ;; set_byte_7bit x100 2%nat 130) ;; set_byte x109 3%nat 4) ;; set_byte_7bit x112 3%nat 131) ;; set_byte x121 4%nat 5) ;; set_byte_7bit x124 4%nat 132) ;; set_byte x133 5%nat 6) ;; set_byte_7bit x136 5%nat 133) ;; set_byte x145 6%nat 7) ;; set_byte_7bit x148 6%nat 134) ;; set_byte x157 7%nat 8) ;; set_byte_7bit x160 7%nat 135) ;; set_byte x169 8%nat 9) ;; set_byte_7bit x172 8%nat 136) ;; set_byte x181 9%nat 10) ;; set_byte_7bit x184 9%nat 137) ;; set_byte x193 10%nat 11) ;; set_byte_7bit x196 10%nat 138) ;; set_byte x205 11%nat 12) ;; set_byte_7bit x208 11%nat 139) ;; set_byte x217 12%nat 13) ;; set_byte_7bit x220 12%nat 140) ;; set_byte x229 13%nat 14) ;; set_byte_7bit x232 13%nat 141) ;; get_byte x235 14%nat) ;; Ok (Z.land x236 127)) ;; Ok (u8 x237)) ;; x240 <- (x238 <- (x232 <- (x229 <- (x220 <- (x217 <- (x208 <- (x205 <- (x196 <- (x193 <- (x184 <- (x181 <- (x172 <- (x169 <- (x160 <- (x157 <- (x148 <- (x145 <- (x136 <- (x133 <- (x124 <- (x121 <- (x112 <- (x109 <- (x100 <- (x97 <- (x88 <- (x85 <- (x76 <- (set_byte (mkP 1503295368 1335206520 875659011 18813492) 0%nat 1) ;; set_byte_7bit x76 0%nat 128) ;; set_byte x85 1%nat 2) ;; set_byte_7bit x88 1%nat 129) ;; set_byte x97 2%nat 3) ;; set_byte_7bit x100 2%nat 130) ;; set_byte x109 3%nat 4) ;; set_byte_7bit x112 3%nat 131) ;; set_byte x121 4%nat 5) ;; set_byte_7bit x124 4%nat 132) ;; set_byte x133 5%nat 6) ;; set_byte_7bit x136 5%nat 133) ;; set_byte x145 6%nat 7) ;; set_byte_7bit x148 6%nat 134) ;; set_byte x157 7%nat 8) ;; set_byte_7bit x160 7%nat 135) ;; set_byte x169 8%nat 9) ;; set_byte_7bit x172 8%nat 136) ;; set_byte x181 9%nat 10) ;; set_byte_7bit x184 9%nat 137) ;; set_byte x193 10%nat 11) ;; set_byte_7bit x196 10%nat 138) ;; set_byte x205 11%nat 12) ;; set_byte_7bit x208 11%nat 139) ;; set_byte x217 12%nat 13) ;; set_byte_7bit x220 12%nat 140) ;; set_byte x229 13%nat 14) ;; set_byte_7bit x232 13%nat 141) ;; get_byte_7bit x238 14%nat) ;; Ok (Z.eqb x239 x240));
    (x243 <- (x242 <- (x241 <- (x232 <- (x229 <- (x220 <- (x217 <- (x208 <- (x205 <- (x196 <- (x193 <- (x184 <- (x181 <- (x172 <- (x169 <- (x160 <- (x157 <- (x148 <- (x145 <- (x136 <- (x133 <- (x124 <- (x121 <- (x112 <- (x109 <- (x100 <- (x97 <- (x88 <- (x85 <- (x76 <- (set_byte (mkP 1503295368 1335206520 875659011 18813492) 0%nat 1) ;; set_byte_7bit x76 0%nat 128) ;; set_byte x85 1%nat 2) ;; set_byte_7bit x88 1%nat 129) ;; set_byte x97 2%nat 3) ;; set_byte_7bit x100 2%nat 130) ;; set_byte x109 3%nat 4) ;; set_byte_7bit x112 3%nat 131) ;; set_byte x121 4%nat 5) ;; set_byte_7bit x124 4%nat 132) ;; set_byte x133 5%nat 6) ;; set_byte_7bit x136 5%nat 133) ;; set_byte x145 6%nat 7) ;; set_byte_7bit x148 6%nat 134) ;; set_byte x157 7%nat 8) ;; set_byte_7bit x160 7%nat 135) ;; set_byte x169 8%nat 9) ;; set_byte_7bit x172 8%nat 136) ;; set_byte x181 9%nat 10) ;; set_byte_7bit x184 9%nat 137) ;; set_byte x193 10%nat 11) ;; set_byte_7bit x196 10%nat 138) ;; set_byte x205 11%nat 12) ;; set_byte_7bit x208 11%nat 139) ;; set_byte x217 12%nat 13) ;; set_byte_7bit x220 12%nat 140) ;; set_byte x229 13%nat 14) ;; set_byte_7bit x232 13%nat 141) ;; set_byte x241 14%nat 15) ;; get_byte x242 14%nat) ;; Ok (Z.eqb 15 x243));
    (x246 <- (x245 <- (x244 <- (x241 <- (x232 <- (x229 <- (x220 <- (x217 <- (x208 <- (x205 <- (x196 <- (x193 <- (x184 <- (x181 <- (x172 <- (x169 <- (x160 <- (x157 <- (x148 <- (x145 <- (x136 <- (x133 <- (x124 <- (x121 <- (x112 <- (x109 <- (x100 <- (x97 <- (x88 <- (x85 <- (x76 <- (set_byte (mkP 1503295368 1335206520 875659011 18813492) 0%nat 1) ;; set_byte_7bit x76 0%nat 128) ;; set_byte x85 1%nat 2) ;; set_byte_7bit x88 1%nat 129) ;; set_byte x97 2%nat 3) ;; set_byte_7bit x100 2%nat 130) ;; set_byte x109 3%nat 4) ;; set_byte_7bit x112 3%nat 131) ;; set_byte x121 4%nat 5) ;; set_byte_7bit x124 4%nat 132) ;; set_byte x133 5%nat 6) ;; set_byte_7bit x136 5%nat 133) ;; set_byte x145 6%nat 7) ;; set_byte_7bit x148 6%nat 134) ;; set_byte x157 7%nat 8) ;; set_byte_7bit x160 7%nat 135) ;; set_byte x169 8%nat 9) ;; set_byte_7bit x172 8%nat 136) ;; set_byte x181 9%nat 10) ;; set_byte_7bit x184 9%nat 137) ;; set_byte x193 10%nat 11) ;; set_byte_7bit x196 10%nat 138) ;; set_byte x205 11%nat 12) ;; set_byte_7bit x208 11%nat 139) ;; set_byte x217 12%nat 13) ;; set_byte_7bit x220 12%nat 140) ;; set_byte x229 13%nat 14) ;; set_byte_7bit x232 13%nat 141) ;; set_byte x241 14%nat 15) ;; set_byte_7bit x244 14%nat 142) ;; get_byte x245 14%nat) ;; Ok (Z.eqb 14 x246));
    (x251 <- (x249 <- (x248 <- (x247 <- (x244 <- (x241 <- (x232 <- (x229 <- (x220 <- (x217 <- (x208 <- (x205 <- (x196 <- (x193 <- (x184 <- (x181 <- (x172 <- (x169 <- (x160 <- (x157 <- (x148 <- (x145 <- (x136 <- (x133 <- (x124 <- (x121 <- (x112 <- (x109 <- (x100 <- (x97 <- (x88 <- (x85 <- (x76 <- (set_byte (mkP 1503295368 1335206520 875659011 18813492) 0%nat 1) ;; set_byte_7bit x76 0%nat 128) ;; set_byte x85 1%nat 2) ;; set_byte_7bit x88 1%nat 129) ;; set_byte x97 2%nat 3) ;; set_byte_7bit x100 2%nat 130) ;; set_byte x109 3%nat 4) ;; set_byte_7bit x112 3%nat 131) ;; set_byte x121 4%nat 5) ;; set_byte_7bit x124 4%nat 132) ;; set_byte x133 5%nat 6) ;; set_byte_7bit x136 5%nat 133) ;; set_byte x145 6%nat 7) ;; set_byte_7bit x148 6%nat 134) ;; set_byte x157 7%nat 8) ;; set_byte_7bit x160 7%nat 135) ;; set_byte x169 8%nat 9) ;; set_byte_7bit x172 8%nat 136) ;; set_byte x181 9%nat 10) ;; set_byte_7bit x184 9%nat 137) ;; set_byte x193 10%nat 11) ;; set_byte_7bit x196 10%nat 138) ;; set_byte x205 11%nat 12) ;; set_byte_7bit x208 11%nat 139) ;; set_byte x217 12%nat 13) ;; set_byte_7bit x220 12%nat 140) ;; set_byte x229 13%nat 14) ;; set_byte_7bit x232 13%nat 141) ;; set_byte x241 14%nat 15) ;; set_byte_7bit x244 14%nat 142) ;; get_byte x247 15%nat) ;; Ok (Z.land x248 127)) ;; Ok (u8 x249)) ;; x252 <- (x250 <- (x244 <- (x241 <- (x232 <- (x229 <- (x220 <- (x217 <- (x208 <- (x205 <- (x196 <- (x193 <- (x184 <- (x181 <- (x172 <- (x169 <- (x160 <- (x157 <- (x148 <- (x145 <- (x136 <- (x133 <- (x124 <- (x121 <- (x112 <- (x109 <- (x100 <- (x97 <- (x88 <- (x85 <- (x76 <- (set_byte (mkP 1503295368 1335206520 875659011 18813492) 0%nat 1) ;; set_byte_7bit x76 0%nat 128) ;; set_byte x85 1%nat 2) ;; set_byte_7bit x88 1%nat 129) ;; set_byte x97 2%nat 3) ;; set_byte_7bit x100 2%nat 130) ;; set_byte x109 3%nat 4) ;; set_byte_7bit x112 3%nat 131) ;; set_byte x121 4%nat 5) ;; set_byte_7bit x124 4%nat 132) ;; set_byte x133 5%nat 6) ;; set_byte_7bit x136 5%nat 133) ;; set_byte x145 6%nat 7) ;; set_byte_7bit x148 6%nat 134) ;; set_byte x157 7%nat 8) ;; set_byte_7bit x160 7%nat 135) ;; set_byte x169 8%nat 9) ;; set_byte_7bit x172 8%nat 136) ;; set_byte x181 9%nat 10) ;; set_byte_7bit x184 9%nat 137) ;; set_byte x193 10%nat 11) ;; set_byte_7bit x196 10%nat 138) ;; set_byte x205 11%nat 12) ;; set_byte_7bit x208 11%nat 139) ;; set_byte x217 12%nat 13) ;; set_byte_7bit x220 12%nat 140) ;; set_byte x229 13%nat 14) ;; set_byte_7bit x232 13%nat 141) ;; set_byte x241 14%nat 15) ;; set_byte_7bit x244 14%nat 142) ;; get_byte_7bit x250 15%nat) ;; Ok (Z.eqb x251 x252));
    (x255 <- (x254 <- (x253 <- (x244 <- (x241 <- (x232 <- (x229 <- (x220 <- (x217 <- (x208 <- (x205 <- (x196 <- (x193 <- (x184 <- (x181 <- (x172 <- (x169 <- (x160 <- (x157 <- (x148 <- (x145 <- (x136 <- (x133 <- (x124 <- (x121 <- (x112 <- (x109 <- (x100 <- (x97 <- (x88 <- (x85 <- (x76 <- (set_byte (mkP 1503295368 1335206520 875659011 18813492) 0%nat 1) ;; set_byte_7bit x76 0%nat 128) ;; set_byte x85 1%nat 2) ;; set_byte_7bit x88 1%nat 129) ;; set_byte x97 2%nat 3) ;; set_byte_7bit x100 2%nat 130) ;; set_byte x109 3%nat 4) ;; set_byte_7bit x112 3%nat 131) ;; set_byte x121 4%nat 5) ;; set_byte_7bit x124 4%nat 132) ;; set_byte x133 5%nat 6) ;; set_byte_7bit x136 5%nat 133) ;; set_byte x145 6%nat 7) ;; set_byte_7bit x148 6%nat 134) ;; set_byte x157 7%nat 8) ;; set_byte_7bit x160 7%nat 135) ;; set_byte x169 8%nat 9) ;; set_byte_7bit x172 8%nat 136) ;; set_byte x181 9%nat 10) ;; set_byte_7bit x184 9%nat 137) ;; set_byte x193 10%nat 11) ;; set_byte_7bit x196 10%nat 138) ;; set_byte x205 11%nat 12) ;; set_byte_7bit x208 11%nat 139) ;; set_byte x217 12%nat 13) ;; set_byte_7bit x220 12%nat 140) ;; set_byte x229 13%nat 14) ;; set_byte_7bit x232 13%nat 141) ;; set_byte x241 14%nat 15) ;; set_byte_7bit x244 14%nat 142) ;; set_byte x253 15%nat 16) ;; get_byte x254 15%nat) ;; Ok (Z.eqb 16 x255));
    (x258 <- (x257 <- (x256 <- (x253 <- (x244 <- (x241 <- (x232 <- (x229 <- (x220 <- (x217 <- (x208 <- (x205 <- (x196 <- (x193 <- (x184 <- (x181 <- (x172 <- (x169 <- (x160 <- (x157 <- (x148 <- (x145 <- (x136 <- (x133 <- (x124 <- (x121 <- (x112 <- (x109 <- (x100 <- (x97 <- (x88 <- (x85 <- (x76 <- (set_byte (mkP 1503295368 1335206520 875659011 18813492) 0%nat 1) ;; set_byte_7bit x76 0%nat 128) ;; set_byte x85 1%nat 2) ;; set_byte_7bit x88 1%nat 129) ;; set_byte x97 2%nat 3) ;; set_byte_7bit x100 2%nat 130) ;; set_byte x109 3%nat 4) ;; set_byte_7bit x112 3%nat 131) ;; set_byte x121 4%nat 5) ;; set_byte_7bit x124 4%nat 132) ;; set_byte x133 5%nat 6) ;; set_byte_7bit x136 5%nat 133) ;; set_byte x145 6%nat 7) ;; set_byte_7bit x148 6%nat 134) ;; set_byte x157 7%nat 8) ;; set_byte_7bit x160 7%nat 135) ;; set_byte x169 8%nat 9) ;; set_byte_7bit x172 8%nat 136) ;; set_byte x181 9%nat 10) ;; set_byte_7bit x184 9%nat 137) ;; set_byte x193 10%nat 11) ;; set_byte_7bit x196 10%nat 138) ;; set_byte x205 11%nat 12) ;; set_byte_7bit x208 11%nat 139) ;; set_byte x217 12%nat 13) ;; set_byte_7bit x220 12%nat 140) ;; set_byte x229 13%nat 14) ;; set_byte_7bit x232 13%nat 141) ;; set_byte x241 14%nat 15) ;; set_byte_7bit x244 14%nat 142) ;; set_byte x253 15%nat 16) ;; set_byte_7bit x256 15%nat 143) ;; get_byte x257 15%nat) ;; Ok (Z.eqb 15 x258))].
Proof. vm_compute. repeat constructor. Qed.

(* line 377 *)
Example test_channel : all_true [
    (b_ <- (Ok (has_channel (mkP 18813492 0 0 0))) ;; Ok (negb b_));
    (b_ <- (Ok (has_channel (mkP 368124741 0 0 0))) ;; Ok (negb b_));
    (Ok (has_channel (mkP 750749541 0 0 0)));
    (x259 <- (channel (mkP 750749541 0 0 0)) ;; Ok (Z.eqb 15 x259));
    (b_ <- (Ok (has_channel (mkP 875659011 305419896 0 0))) ;; Ok (negb b_));
    (Ok (has_channel (mkP 1100183432 2165391488 0 0)));
    (x260 <- (channel (mkP 1100183432 2165391488 0 0)) ;; Ok (Z.eqb 3 x260));
    (b_ <- (Ok (has_channel (mkP 1503295368 286331153 572662306 572662306))) ;; Ok (negb b_));
    (x262 <- (x261 <- (set_byte (mkP 750749541 0 0 0) 1%nat 17) ;; channel x261) ;; Ok (Z.eqb 1 x262));
    (x264 <- (x263 <- (set_byte (mkP 1100183432 2165391488 0 0) 1%nat 222) ;; channel x263) ;; Ok (Z.eqb 14 x264));
    (b_ <- (Ok (has_channel (mkP 1610612736 0 0 0))) ;; Ok (negb b_));
    (b_ <- (Ok (has_channel (mkP 1879048192 0 0 0))) ;; Ok (negb b_));
    (b_ <- (Ok (has_channel (mkP 2147483648 0 0 0))) ;; Ok (negb b_));
    (b_ <- (Ok (has_channel (mkP 2415919104 0 0 0))) ;; Ok (negb b_));
    (b_ <- (Ok (has_channel (mkP 2684354560 0 0 0))) ;; Ok (negb b_));
    (b_ <- (Ok (has_channel (mkP 2952790016 0 0 0))) ;; Ok (negb b_));
    (b_ <- (Ok (has_channel (mkP 3221225472 0 0 0))) ;; Ok (negb b_));
    (Ok (has_channel (mkP 3489660928 0 0 0)));
    (b_ <- (Ok (has_channel (mkP 3758096384 0 0 0))) ;; Ok (negb b_));
    (b_ <- (Ok (has_channel (mkP 4026531840 0 0 0))) ;; Ok (negb b_))].
Proof. vm_compute. repeat constructor. Qed.

(* line 423 *)
Example test_reset : all_true [
    (x265 <- (word packet0 0%nat) ;; Ok (Z.eqb 0 x265));
    (x266 <- (word packet0 1%nat) ;; Ok (Z.eqb 0 x266));
    (x267 <- (word packet0 2%nat) ;; Ok (Z.eqb 0 x267));
    (x268 <- (word packet0 3%nat) ;; Ok (Z.eqb 0 x268))].
Proof. vm_compute. repeat constructor. Qed.

(* line 439 *)
Example test_is_utility_message : all_true [
    (Ok (is_utility_message (mkP 0 0 0 0)));
    (b_ <- (Ok (is_utility_message (mkP 268435456 0 0 0))) ;; Ok (negb b_));
    (b_ <- (Ok (is_utility_message (mkP 536870912 0 0 0))) ;; Ok (negb b_));
    (b_ <- (Ok (is_utility_message (mkP 805306368 0 0 0))) ;; Ok (negb b_));
    (b_ <- (Ok (is_utility_message (mkP 1073741824 0 0 0))) ;; Ok (negb b_));
    (b_ <- (Ok (is_utility_message (mkP 1342177280 0 0 0))) ;; Ok (negb b_));
    (b_ <- (Ok (is_utility_message (mkP 1610612736 0 0 0))) ;; Ok (negb b_));
    (b_ <- (Ok (is_utility_message (mkP 1879048192 0 0 0))) ;; Ok (negb b_));
    (b_ <- (Ok (is_utility_message (mkP 2147483648 0 0 0))) ;; Ok (negb b_));
    (b_ <- (Ok (is_utility_message (mkP 2415919104 0 0 0))) ;; Ok (negb b_));
    (b_ <- (Ok (is_utility_message (mkP 2684354560 0 0 0))) ;; Ok (negb b_));
    (b_ <- (Ok (is_utility_message (mkP 2952790016 0 0 0))) ;; Ok (negb b_));
    (b_ <- (Ok (is_utility_message (mkP 3221225472 0 0 0))) ;; Ok (negb b_));
    (b_ <- (Ok (is_utility_message (mkP 3489660928 0 0 0))) ;; Ok (negb b_));
    (b_ <- (Ok (is_utility_message (mkP 3758096384 0 0 0))) ;; Ok (negb b_));
    (b_ <- (Ok (is_utility_message (mkP 4026531840 0 0 0))) ;; Ok (negb b_))].
Proof. vm_compute. repeat constructor. Qed.

(* line 461 *)
Example test_is_system_message : all_true [
    (b_ <- (Ok (is_system_message (mkP 0 0 0 0))) ;; Ok (negb b_));
    (Ok (is_system_message (mkP 268435456 0 0 0)));
    (b_ <- (Ok (is_system_message (mkP 536870912 0 0 0))) ;; Ok (negb b_));
    (b_ <- (Ok (is_system_message (mkP 805306368 0 0 0))) ;; Ok (negb b_));
    (b_ <- (Ok (is_system_message (mkP 1073741824 0 0 0))) ;; Ok (negb b_));
    (b_ <- (Ok (is_system_message (mkP 1342177280 0 0 0))) ;; Ok (negb b_));
    (b_ <- (Ok (is_system_message (mkP 1610612736 0 0 0))) ;; Ok (negb b_));
    (b_ <- (Ok (is_system_message (mkP 1879048192 0 0 0))) ;; Ok (negb b_));
    (b_ <- (Ok (is_system_message (mkP 2147483648 0 0 0))) ;; Ok (negb b_));
    (b_ <- (Ok (is_system_message (mkP 2415919104 0 0 0))) ;; Ok (negb b_));
    (b_ <- (Ok (is_system_message (mkP 2684354560 0 0 0))) ;; Ok (negb b_));
    (b_ <- (Ok (is_system_message (mkP 2952790016 0 0 0))) ;; Ok (negb b_));
    (b_ <- (Ok (is_system_message (mkP 3221225472 0 0 0))) ;; Ok (negb b_));
    (b_ <- (Ok (is_system_message (mkP 3489660928 0 0 0))) ;; Ok (negb b_));
    (b_ <- (Ok (is_system_message (mkP 3758096384 0 0 0))) ;; Ok (negb b_));
    (b_ <- (Ok (is_system_message (mkP 4026531840 0 0 0))) ;; Ok (negb b_))].
Proof. vm_compute. repeat constructor. Qed.

(* line 483 *)
Example test_is_channel_voice_message : all_true [
    (b_ <- (Ok (is_channel_voice_message (mkP 0 0 0 0))) ;; Ok (negb b_));
    (b_ <- (Ok (is_channel_voice_message (mkP 268435456 0 0 0))) ;; Ok (negb b_));
    (Ok (is_channel_voice_message (mkP 536870912 0 0 0)));
    (b_ <- (Ok (is_channel_voice_message (mkP 805306368 0 0 0))) ;; Ok (negb b_));
    (Ok (is_channel_voice_message (mkP 1073741824 0 0 0)));
    (b_ <- (Ok (is_channel_voice_message (mkP 1342177280 0 0 0))) ;; Ok (negb b_));
    (b_ <- (Ok (is_channel_voice_message (mkP 1610612736 0 0 0))) ;; Ok (negb b_));
    (b_ <- (Ok (is_channel_voice_message (mkP 1879048192 0 0 0))) ;; Ok (negb b_));
    (b_ <- (Ok (is_channel_voice_message (mkP 2147483648 0 0 0))) ;; Ok (negb b_));
    (b_ <- (Ok (is_channel_voice_message (mkP 2415919104 0 0 0))) ;; Ok (negb b_));
    (b_ <- (Ok (is_channel_voice_message (mkP 2684354560 0 0 0))) ;; Ok (negb b_));
    (b_ <- (Ok (is_channel_voice_message (mkP 2952790016 0 0 0))) ;; Ok (negb b_));
    (b_ <- (Ok (is_channel_voice_message (mkP 3221225472 0 0 0))) ;; Ok (negb b_));
    (b_ <- (Ok (is_channel_voice_message (mkP 3489660928 0 0 0))) ;; Ok (negb b_));
    (b_ <- (Ok (is_channel_voice_message (mkP 3758096384 0 0 0))) ;; Ok (negb b_));
    (b_ <- (Ok (is_channel_voice_message (mkP 4026531840 0 0 0))) ;; Ok (negb b_))].
Proof. vm_compute. repeat constructor. Qed.

(* line 506 *)
Example test_is_data_message : all_true [
    (b_ <- (Ok (is_data_message (mkP 0 0 0 0))) ;; Ok (negb b_));
    (b_ <- (Ok (is_data_message (mkP 268435456 0 0 0))) ;; Ok (negb b_));
    (b_ <- (Ok (is_data_message (mkP 536870912 0 0 0))) ;; Ok (negb b_));
    (Ok (is_data_message (mkP 805306368 0 0 0)));
    (b_ <- (Ok (is_data_message (mkP 1073741824 0 0 0))) ;; Ok (negb b_));
    (Ok (is_data_message (mkP 1342177280 0 0 0)));
    (b_ <- (Ok (is_data_message (mkP 1610612736 0 0 0))) ;; Ok (negb b_));
    (b_ <- (Ok (is_data_message (mkP 1879048192 0 0 0))) ;; Ok (negb b_));
    (b_ <- (Ok (is_data_message (mkP 2147483648 0 0 0))) ;; Ok (negb b_));
    (b_ <- (Ok (is_data_message (mkP 2415919104 0 0 0))) ;; Ok (negb b_));
    (b_ <- (Ok (is_data_message (mkP 2684354560 0 0 0))) ;; Ok (negb b_));
    (b_ <- (Ok (is_data_message (mkP 2952790016 0 0 0))) ;; Ok (negb b_));
    (b_ <- (Ok (is_data_message (mkP 3221225472 0 0 0))) ;; Ok (negb b_));
    (b_ <- (Ok (is_data_message (mkP 3489660928 0 0 0))) ;; Ok (negb b_));
    (b_ <- (Ok (is_data_message (mkP 3758096384 0 0 0))) ;; Ok (negb b_));
    (b_ <- (Ok (is_data_message (mkP 4026531840 0 0 0))) ;; Ok (negb b_))].
Proof. vm_compute. repeat constructor. Qed.

(* ==== tests/data_message_tests.cpp ==== *)


(* line 29 *)
Example test_constructors_ : all_true [
    (Ok (Z.eqb 3 (type data_message0)));
    (Ok (Z.eqb 0 (group data_message0)));
    (Ok (Z.eqb 0 (status data_message0)));
    (Ok (Z.eqb 3 (type (data_message 48))));
    (Ok (Z.eqb 0 (group (data_message 48))));
    (Ok (Z.eqb 48 (status (data_message 48))))].
Proof. vm_compute. repeat constructor. Qed.

(* line 52 *)
Example test_sysex7_packet_constructors : all_true [
    (Ok (Z.eqb 3 (type sysex7_packet_default)));
    (Ok (Z.eqb 0 (group sysex7_packet_default)));
    (Ok (Z.eqb 0 (status sysex7_packet_default)));
    (Ok (Z.eqb 0 (sysex7_format sysex7_packet_default)));
    (x269 <- (n_ <- (Ok (sysex7_payload_size sysex7_packet_default)) ;; Ok (Z.of_nat n_)) ;; Ok (Z.eqb 0 x269));
    (x271 <- (x270 <- (sysex7_packet 48 9) ;; Ok (type x270)) ;; Ok (Z.eqb 3 x271));
    (x273 <- (x272 <- (sysex7_packet 48 9) ;; Ok (group x272)) ;; Ok (Z.eqb 9 x273));
    (x275 <- (x274 <- (sysex7_packet 48 9) ;; Ok (status x274)) ;; Ok (Z.eqb 48 x275));
    (x277 <- (x276 <- (sysex7_packet 48 9) ;; Ok (sysex7_format x276)) ;; Ok (Z.eqb 3 x277));
    (x279 <- (n_ <- (x278 <- (sysex7_packet 48 9) ;; Ok (sysex7_payload_size x278)) ;; Ok (Z.of_nat n_)) ;; Ok (Z.eqb 0 x279))].
Proof. vm_compute. repeat constructor. Qed.

(* line 79 *)
Example test_make_sysex7_complete_packet : all_true [
    (x281 <- (x280 <- (make_sysex7_complete_packet 0) ;; Ok (type x280)) ;; Ok (Z.eqb 3 x281));
    (x283 <- (x282 <- (make_sysex7_complete_packet 0) ;; Ok (group x282)) ;; Ok (Z.eqb 0 x283));
    (x285 <- (x284 <- (make_sysex7_complete_packet 0) ;; Ok (status x284)) ;; Ok (Z.eqb 0 x285));
    (x287 <- (x286 <- (make_sysex7_complete_packet 0) ;; Ok (sysex7_format x286)) ;; Ok (Z.eqb 0 x287));
    (x289 <- (n_ <- (x288 <- (make_sysex7_complete_packet 0) ;; Ok (sysex7_payload_size x288)) ;; Ok (Z.of_nat n_)) ;; Ok (Z.eqb 0 x289));
    (x291 <- (x290 <- (make_sysex7_complete_packet 5) ;; Ok (type x290)) ;; Ok (Z.eqb 3 x291));
    (x293 <- (x292 <- (make_sysex7_complete_packet 5) ;; Ok (group x292)) ;; Ok (Z.eqb 5 x293));
    (x295 <- (x294 <- (make_sysex7_complete_packet 5) ;; Ok (status x294)) ;; Ok (Z.eqb 0 x295));
    (x297 <- (x296 <- (make_sysex7_complete_packet 5) ;; Ok (sysex7_format x296)) ;; Ok (Z.eqb 0 x297));
    (x299 <- (n_ <- (x298 <- (make_sysex7_complete_packet 5) ;; Ok (sysex7_payload_size x298)) ;; Ok (Z.of_nat n_)) ;; Ok (Z.eqb 0 x299))].
Proof. vm_compute. repeat constructor. Qed.

(* line 106 *)
Example test_make_sysex7_start_packet : all_true [
    (x301 <- (x300 <- (make_sysex7_start_packet 0) ;; Ok (type x300)) ;; Ok (Z.eqb 3 x301));
    (x303 <- (x302 <- (make_sysex7_start_packet 0) ;; Ok (group x302)) ;; Ok (Z.eqb 0 x303));
    (x305 <- (x304 <- (make_sysex7_start_packet 0) ;; Ok (status x304)) ;; Ok (Z.eqb 16 x305));
    (x307 <- (x306 <- (make_sysex7_start_packet 0) ;; Ok (sysex7_format x306)) ;; Ok (Z.eqb 1 x307));
    (x309 <- (n_ <- (x308 <- (make_sysex7_start_packet 0) ;; Ok (sysex7_payload_size x308)) ;; Ok (Z.of_nat n_)) ;; Ok (Z.eqb 0 x309));
    (x311 <- (x310 <- (make_sysex7_start_packet 15) ;; Ok (type x310)) ;; Ok (Z.eqb 3 x311));
    (x313 <- (x312 <- (make_sysex7_start_packet 15) ;; Ok (group x312)) ;; Ok (Z.eqb 15 x313));
    (x315 <- (x314 <- (make_sysex7_start_packet 15) ;; Ok (status x314)) ;; Ok (Z.eqb 16 x315));
    (x317 <- (x316 <- (make_sysex7_start_packet 15) ;; Ok (sysex7_format x316)) ;; Ok (Z.eqb 1 x317));
    (x319 <- (n_ <- (x318 <- (make_sysex7_start_packet 15) ;; Ok (sysex7_payload_size x318)) ;; Ok (Z.of_nat n_)) ;; Ok (Z.eqb 0 x319))].
Proof. vm_compute. repeat constructor. Qed.

(* line 133 *)
Example test_make_sysex7_continue_packet : all_true [
    (x321 <- (x320 <- (make_sysex7_continue_packet 0) ;; Ok (type x320)) ;; Ok (Z.eqb 3 x321));
    (x323 <- (x322 <- (make_sysex7_continue_packet 0) ;; Ok (group x322)) ;; Ok (Z.eqb 0 x323));
    (x325 <- (x324 <- (make_sysex7_continue_packet 0) ;; Ok (status x324)) ;; Ok (Z.eqb 32 x325));
    (x327 <- (x326 <- (make_sysex7_continue_packet 0) ;; Ok (sysex7_format x326)) ;; Ok (Z.eqb 2 x327));
    (x329 <- (n_ <- (x328 <- (make_sysex7_continue_packet 0) ;; Ok (sysex7_payload_size x328)) ;; Ok (Z.of_nat n_)) ;; Ok (Z.eqb 0 x329));
    (x331 <- (x330 <- (make_sysex7_continue_packet 9) ;; Ok (type x330)) ;; Ok (Z.eqb 3 x331));
    (x333 <- (x332 <- (make_sysex7_continue_packet 9) ;; Ok (group x332)) ;; Ok (Z.eqb 9 x333));
    (x335 <- (x334 <- (make_sysex7_continue_packet 9) ;; Ok (status x334)) ;; Ok (Z.eqb 32 x335));
    (x337 <- (x336 <- (make_sysex7_continue_packet 9) ;; Ok (sysex7_format x336)) ;; Ok (Z.eqb 2 x337));
    (x339 <- (n_ <- (x338 <- (make_sysex7_continue_packet 9) ;; Ok (sysex7_payload_size x338)) ;; Ok (Z.of_nat n_)) ;; Ok (Z.eqb 0 x339))].
Proof. vm_compute. repeat constructor. Qed.

(* line 160 *)
Example test_make_sysex7_end_packet : all_true [
    (x341 <- (x340 <- (make_sysex7_end_packet 0) ;; Ok (type x340)) ;; Ok (Z.eqb 3 x341));
    (x343 <- (x342 <- (make_sysex7_end_packet 0) ;; Ok (group x342)) ;; Ok (Z.eqb 0 x343));
    (x345 <- (x344 <- (make_sysex7_end_packet 0) ;; Ok (status x344)) ;; Ok (Z.eqb 48 x345));
    (x347 <- (x346 <- (make_sysex7_end_packet 0) ;; Ok (sysex7_format x346)) ;; Ok (Z.eqb 3 x347));
    (x349 <- (n_ <- (x348 <- (make_sysex7_end_packet 0) ;; Ok (sysex7_payload_size x348)) ;; Ok (Z.of_nat n_)) ;; Ok (Z.eqb 0 x349));
    (x351 <- (x350 <- (make_sysex7_end_packet 1) ;; Ok (type x350)) ;; Ok (Z.eqb 3 x351));
    (x353 <- (x352 <- (make_sysex7_end_packet 1) ;; Ok (group x352)) ;; Ok (Z.eqb 1 x353));
    (x355 <- (x354 <- (make_sysex7_end_packet 1) ;; Ok (status x354)) ;; Ok (Z.eqb 48 x355));
    (x357 <- (x356 <- (make_sysex7_end_packet 1) ;; Ok (sysex7_format x356)) ;; Ok (Z.eqb 3 x357));
    (x359 <- (n_ <- (x358 <- (make_sysex7_end_packet 1) ;; Ok (sysex7_payload_size x358)) ;; Ok (Z.of_nat n_)) ;; Ok (Z.eqb 0 x359))].
Proof. vm_compute. repeat constructor. Qed.

(* line 187 *)
Example test_sysex7_packet_format : all_true [
    (x361 <- (x360 <- (make_sysex7_complete_packet 0) ;; Ok (sysex7_format x360)) ;; Ok (Z.eqb 0 x361));
    (x363 <- (x362 <- (make_sysex7_start_packet 0) ;; Ok (sysex7_format x362)) ;; Ok (Z.eqb 1 x363));
    (x365 <- (x364 <- (make_sysex7_continue_packet 0) ;; Ok (sysex7_format x364)) ;; Ok (Z.eqb 2 x365));
    (x367 <- (x366 <- (make_sysex7_end_packet 0) ;; Ok (sysex7_format x366)) ;; Ok (Z.eqb 3 x367))].
Proof. vm_compute. repeat constructor. Qed.

(* line 214 *)
Example test_sysex7_payload_size : all_true [
    (x369 <- (n_ <- (x368 <- (make_sysex7_complete_packet 0) ;; Ok (sysex7_payload_size x368)) ;; Ok (Z.of_nat n_)) ;; Ok (Z.eqb 0 x369));
    (x372 <- (n_ <- (x371 <- (x370 <- (make_sysex7_complete_packet 0) ;; set_byte x370 1%nat 3) ;; Ok (sysex7_payload_size x371)) ;; Ok (Z.of_nat n_)) ;; Ok (Z.eqb 3 x372));
    (x375 <- (n_ <- (x374 <- (x373 <- (x370 <- (make_sysex7_complete_packet 0) ;; set_byte x370 1%nat 3) ;; set_byte x373 1%nat 6) ;; Ok (sysex7_payload_size x374)) ;; Ok (Z.of_nat n_)) ;; Ok (Z.eqb 6 x375));
    (x378 <- (n_ <- (x377 <- (x376 <- (x373 <- (x370 <- (make_sysex7_complete_packet 0) ;; set_byte x370 1%nat 3) ;; set_byte x373 1%nat 6) ;; set_byte x376 1%nat 8) ;; Ok (sysex7_payload_size x377)) ;; Ok (Z.of_nat n_)) ;; Ok (Z.eqb 8 x378));
    (x381 <- (n_ <- (x380 <- (x379 <- (x376 <- (x373 <- (x370 <- (make_sysex7_complete_packet 0) ;; set_byte x370 1%nat 3) ;; set_byte x373 1%nat 6) ;; set_byte x376 1%nat 8) ;; set_byte x379 1%nat 0) ;; Ok (sysex7_payload_size x380)) ;; Ok (Z.of_nat n_)) ;; Ok (Z.eqb 0 x381))].
Proof. vm_compute. repeat constructor. Qed.

(* line 245 *)
Example test_sysex7_set_payload_size : all_true [
    (x383 <- (n_ <- (x382 <- (make_sysex7_complete_packet 0) ;; Ok (sysex7_payload_size x382)) ;; Ok (Z.of_nat n_)) ;; Ok (Z.eqb 0 x383));
    (x386 <- (x385 <- (x384 <- (make_sysex7_complete_packet 0) ;; sysex7_set_payload_size x384 6%nat) ;; Ok (status x385)) ;; Ok (Z.eqb 6 x386));
    (x388 <- (n_ <- (x387 <- (x384 <- (make_sysex7_complete_packet 0) ;; sysex7_set_payload_size x384 6%nat) ;; Ok (sysex7_payload_size x387)) ;; Ok (Z.of_nat n_)) ;; Ok (Z.eqb 6 x388));
    (x390 <- (n_ <- (x389 <- (make_sysex7_start_packet 0) ;; Ok (sysex7_payload_size x389)) ;; Ok (Z.of_nat n_)) ;; Ok (Z.eqb 0 x390));
    (x393 <- (x392 <- (x391 <- (make_sysex7_start_packet 0) ;; sysex7_set_payload_size x391 3%nat) ;; Ok (status x392)) ;; Ok (Z.eqb 19 x393));
    (x395 <- (n_ <- (x394 <- (x391 <- (make_sysex7_start_packet 0) ;; sysex7_set_payload_size x391 3%nat) ;; Ok (sysex7_payload_size x394)) ;; Ok (Z.of_nat n_)) ;; Ok (Z.eqb 3 x395));
    (x397 <- (n_ <- (x396 <- (make_sysex7_continue_packet 0) ;; Ok (sysex7_payload_size x396)) ;; Ok (Z.of_nat n_)) ;; Ok (Z.eqb 0 x397));
    (x400 <- (x399 <- (x398 <- (make_sysex7_continue_packet 0) ;; sysex7_set_payload_size x398 0%nat) ;; Ok (status x399)) ;; Ok (Z.eqb 32 x400));
    (x402 <- (n_ <- (x401 <- (x398 <- (make_sysex7_continue_packet 0) ;; sysex7_set_payload_size x398 0%nat) ;; Ok (sysex7_payload_size x401)) ;; Ok (Z.of_nat n_)) ;; Ok (Z.eqb 0 x402))].
Proof. vm_compute. repeat constructor. Qed.

(* line 279 *)
Example test_sysex7_payload_byte : all_true [
    (x411 <- (x410 <- (x409 <- (x408 <- (x407 <- (x406 <- (x405 <- (x404 <- (x403 <- (make_sysex7_complete_packet 0) ;; sysex7_set_payload_size x403 6%nat) ;; set_byte x404 2%nat 17) ;; set_byte x405 3%nat 34) ;; set_byte x406 4%nat 51) ;; set_byte x407 5%nat 68) ;; set_byte x408 6%nat 85) ;; set_byte x409 7%nat 102) ;; sysex7_payload_byte x410 0%nat) ;; Ok (Z.eqb 17 x411));
    (x413 <- (x412 <- (x409 <- (x408 <- (x407 <- (x406 <- (x405 <- (x404 <- (x403 <- (make_sysex7_complete_packet 0) ;; sysex7_set_payload_size x403 6%nat) ;; set_byte x404 2%nat 17) ;; set_byte x405 3%nat 34) ;; set_byte x406 4%nat 51) ;; set_byte x407 5%nat 68) ;; set_byte x408 6%nat 85) ;; set_byte x409 7%nat 102) ;; sysex7_payload_byte x412 1%nat) ;; Ok (Z.eqb 34 x413));
    (x415 <- (x414 <- (x409 <- (x408 <- (x407 <- (x406 <- (x405 <- (x404 <- (x403 <- (make_sysex7_complete_packet 0) ;; sysex7_set_payload_size x403 6%nat) ;; set_byte x404 2%nat 17) ;; set_byte x405 3%nat 34) ;; set_byte x406 4%nat 51) ;; set_byte x407 5%nat 68) ;; set_byte x408 6%nat 85) ;; set_byte x409 7%nat 102) ;; sysex7_payload_byte x414 2%nat) ;; Ok (Z.eqb 51 x415));
    (x417 <- (x416 <- (x409 <- (x408 <- (x407 <- (x406 <- (x405 <- (x404 <- (x403 <- (make_sysex7_complete_packet 0) ;; sysex7_set_payload_size x403 6%nat) ;; set_byte x404 2%nat 17) ;; set_byte x405 3%nat 34) ;; set_byte x406 4%nat 51) ;; set_byte x407 5%nat 68) ;; set_byte x408 6%nat 85) ;; set_byte x409 7%nat 102) ;; sysex7_payload_byte x416 3%nat) ;; Ok (Z.eqb 68 x417));
    (x419 <- (x418 <- (x409 <- (x408 <- (x407 <- (x406 <- (x405 <- (x404 <- (x403 <- (make_sysex7_complete_packet 0) ;; sysex7_set_payload_size x403 6%nat) ;; set_byte x404 2%nat 17) ;; set_byte x405 3%nat 34) ;; set_byte x406 4%nat 51) ;; set_byte x407 5%nat 68) ;; set_byte x408 6%nat 85) ;; set_byte x409 7%nat 102) ;; sysex7_payload_byte x418 4%nat) ;; Ok (Z.eqb 85 x419));
    (x421 <- (x420 <- (x409 <- (x408 <- (x407 <- (x406 <- (x405 <- (x404 <- (x403 <- (make_sysex7_complete_packet 0) ;; sysex7_set_payload_size x403 6%nat) ;; set_byte x404 2%nat 17) ;; set_byte x405 3%nat 34) ;; set_byte x406 4%nat 51) ;; set_byte x407 5%nat 68) ;; set_byte x408 6%nat 85) ;; set_byte x409 7%nat 102) ;; sysex7_payload_byte x420 5%nat) ;; Ok (Z.eqb 102 x421))].
Proof. vm_compute. repeat constructor. Qed.

(* line 303 *)
Example test_sysex7_add_payload_byte : all_true [
    (x423 <- (n_ <- (x422 <- (make_sysex7_continue_packet 0) ;; Ok (sysex7_payload_size x422)) ;; Ok (Z.of_nat n_)) ;; Ok (Z.eqb 0 x423));
    (x426 <- (x425 <- (x424 <- (make_sysex7_continue_packet 0) ;; sysex7_add_payload_byte x424 18) ;; get_byte x425 2%nat) ;; Ok (Z.eqb 18 x426));
    (x428 <- (x427 <- (x424 <- (make_sysex7_continue_packet 0) ;; sysex7_add_payload_byte x424 18) ;; sysex7_payload_byte x427 0%nat) ;; Ok (Z.eqb 18 x428));
    (x430 <- (n_ <- (x429 <- (x424 <- (make_sysex7_continue_packet 0) ;; sysex7_add_payload_byte x424 18) ;; Ok (sysex7_payload_size x429)) ;; Ok (Z.of_nat n_)) ;; Ok (Z.eqb 1 x430));
    (x432 <- (n_ <- (x431 <- (x424 <- (make_sysex7_continue_packet 0) ;; sysex7_add_payload_byte x424 18) ;; Ok (sysex7_payload_size x431)) ;; Ok (Z.of_nat n_)) ;; Ok (Z.eqb 1 x432));
    (x434 <- (x433 <- (x424 <- (make_sysex7_continue_packet 0) ;; sysex7_add_payload_byte x424 18) ;; Ok (status x433)) ;; Ok (Z.eqb 33 x434));
    (x437 <- (x436 <- (x435 <- (x424 <- (make_sysex7_continue_packet 0) ;; sysex7_add_payload_byte x424 18) ;; sysex7_add_payload_byte x435 122) ;; get_byte x436 3%nat) ;; Ok (Z.eqb 122 x437));
    (x439 <- (x438 <- (x435 <- (x424 <- (make_sysex7_continue_packet 0) ;; sysex7_add_payload_byte x424 18) ;; sysex7_add_payload_byte x435 122) ;; sysex7_payload_byte x438 1%nat) ;; Ok (Z.eqb 122 x439));
    (x441 <- (n_ <- (x440 <- (x435 <- (x424 <- (make_sysex7_continue_packet 0) ;; sysex7_add_payload_byte x424 18) ;; sysex7_add_payload_byte x435 122) ;; Ok (sysex7_payload_size x440)) ;; Ok (Z.of_nat n_)) ;; Ok (Z.eqb 2 x441));
    (x443 <- (x442 <- (x435 <- (x424 <- (make_sysex7_continue_packet 0) ;; sysex7_add_payload_byte x424 18) ;; sysex7_add_payload_byte x435 122) ;; Ok (status x442)) ;; Ok (Z.eqb 34 x443));
    (x446 <- (x445 <- (x444 <- (x435 <- (x424 <- (make_sysex7_continue_packet 0) ;; sysex7_add_payload_byte x424 18) ;; sysex7_add_payload_byte x435 122) ;; sysex7_add_payload_byte x444 91) ;; get_byte x445 4%nat) ;; Ok (Z.eqb 91 x446));
    (x448 <- (x447 <- (x444 <- (x435 <- (x424 <- (make_sysex7_continue_packet 0) ;; sysex7_add_payload_byte x424 18) ;; sysex7_add_payload_byte x435 122) ;; sysex7_add_payload_byte x444 91) ;; sysex7_payload_byte x447 2%nat) ;; Ok (Z.eqb 91 x448));
    (x450 <- (n_ <- (x449 <- (x444 <- (x435 <- (x424 <- (make_sysex7_continue_packet 0) ;; sysex7_add_payload_byte x424 18) ;; sysex7_add_payload_byte x435 122) ;; sysex7_add_payload_byte x444 91) ;; Ok (sysex7_payload_size x449)) ;; Ok (Z.of_nat n_)) ;; Ok (Z.eqb 3 x450));
    (x452 <- (x451 <- (x444 <- (x435 <- (x424 <- (make_sysex7_continue_packet 0) ;; sysex7_add_payload_byte x424 18) ;; sysex7_add_payload_byte x435 122) ;; sysex7_add_payload_byte x444 91) ;; Ok (status x451)) ;; Ok (Z.eqb 35 x452));
    (x455 <- (x454 <- (x453 <- (x444 <- (x435 <- (x424 <- (make_sysex7_continue_packet 0) ;; sysex7_add_payload_byte x424 18) ;; sysex7_add_payload_byte x435 122) ;; sysex7_add_payload_byte x444 91) ;; sysex7_add_payload_byte x453 42) ;; get_byte x454 5%nat) ;; Ok (Z.eqb 42 x455));
    (x457 <- (x456 <- (x453 <- (x444 <- (x435 <- (x424 <- (make_sysex7_continue_packet 0) ;; sysex7_add_payload_byte x424 18) ;; sysex7_add_payload_byte x435 122) ;; sysex7_add_payload_byte x444 91) ;; sysex7_add_payload_byte x453 42) ;; sysex7_payload_byte x456 3%nat) ;; Ok (Z.eqb 42 x457));
    (x459 <- (n_ <- (x458 <- (x453 <- (x444 <- (x435 <- (x424 <- (make_sysex7_continue_packet 0) ;; sysex7_add_payload_byte x424 18) ;; sysex7_add_payload_byte x435 122) ;; sysex7_add_payload_byte x444 91) ;; sysex7_add_payload_byte x453 42) ;; Ok (sysex7_payload_size x458)) ;; Ok (Z.of_nat n_)) ;; Ok (Z.eqb 4 x459));
    (x461 <- (x460 <- (x453 <- (x444 <- (x435 <- (x424 <- (make_sysex7_continue_packet 0) ;; sysex7_add_payload_byte x424 18) ;; sysex7_add_payload_byte x435 122) ;; sysex7_add_payload_byte x444 91) ;; sysex7_add_payload_byte x453 42) ;; Ok (status x460)) ;; Ok (Z.eqb 36 x461));
    (x464 <- (x463 <- (x462 <- (x453 <- (x444 <- (x435 <- (x424 <- (make_sysex7_continue_packet 0) ;; sysex7_add_payload_byte x424 18) ;; sysex7_add_payload_byte x435 122) ;; sysex7_add_payload_byte x444 91) ;; sysex7_add_payload_byte x453 42) ;; sysex7_add_payload_byte x462 99) ;; get_byte x463 6%nat) ;; Ok (Z.eqb 99 x464));
    (x466 <- (x465 <- (x462 <- (x453 <- (x444 <- (x435 <- (x424 <- (make_sysex7_continue_packet 0) ;; sysex7_add_payload_byte x424 18) ;; sysex7_add_payload_byte x435 122) ;; sysex7_add_payload_byte x444 91) ;; sysex7_add_payload_byte x453 42) ;; sysex7_add_payload_byte x462 99) ;; sysex7_payload_byte x465 4%nat) ;; Ok (Z.eqb 99 x466));
    (x468 <- (n_ <- (x467 <- (x462 <- (x453 <- (x444 <- (x435 <- (x424 <- (make_sysex7_continue_packet 0) ;; sysex7_add_payload_byte x424 18) ;; sysex7_add_payload_byte x435 122) ;; sysex7_add_payload_byte x444 91) ;; sysex7_add_payload_byte x453 42) ;; sysex7_add_payload_byte x462 99) ;; Ok (sysex7_payload_size x467)) ;; Ok (Z.of_nat n_)) ;; Ok (Z.eqb 5 x468));
    (x470 <- (x469 <- (x462 <- (x453 <- (x444 <- (x435 <- (x424 <- (make_sysex7_continue_packet 0) ;; sysex7_add_payload_byte x424 18) ;; sysex7_add_payload_byte x435 122) ;; sysex7_add_payload_byte x444 91) ;; sysex7_add_payload_byte x453 42) ;; sysex7_add_payload_byte x462 99) ;; Ok (status x469)) ;; Ok (Z.eqb 37 x470));
    (x473 <- (x472 <- (x471 <- (x462 <- (x453 <- (x444 <- (x435 <- (x424 <- (make_sysex7_continue_packet 0) ;; sysex7_add_payload_byte x424 18) ;; sysex7_add_payload_byte x435 122) ;; sysex7_add_payload_byte x444 91) ;; sysex7_add_payload_byte x453 42) ;; sysex7_add_payload_byte x462 99) ;; sysex7_add_payload_byte x471 246) ;; get_byte x472 7%nat) ;; Ok (Z.eqb 118 x473));
    (x475 <- (x474 <- (x471 <- (x462 <- (x453 <- (x444 <- (x435 <- (x424 <- (make_sysex7_continue_packet 0) ;; sysex7_add_payload_byte x424 18) ;; sysex7_add_payload_byte x435 122) ;; sysex7_add_payload_byte x444 91) ;; sysex7_add_payload_byte x453 42) ;; sysex7_add_payload_byte x462 99) ;; sysex7_add_payload_byte x471 246) ;; sysex7_payload_byte x474 5%nat) ;; Ok (Z.eqb 118 x475));
    (x477 <- (n_ <- (x476 <- (x471 <- (x462 <- (x453 <- (x444 <- (x435 <- (x424 <- (make_sysex7_continue_packet 0) ;; sysex7_add_payload_byte x424 18) ;; sysex7_add_payload_byte x435 122) ;; sysex7_add_payload_byte x444 91) ;; sysex7_add_payload_byte x453 42) ;; sysex7_add_payload_byte x462 99) ;; sysex7_add_payload_byte x471 246) ;; Ok (sysex7_payload_size x476)) ;; Ok (Z.of_nat n_)) ;; Ok (Z.eqb 6 x477));
    (x479 <- (x478 <- (x471 <- (x462 <- (x453 <- (x444 <- (x435 <- (x424 <- (make_sysex7_continue_packet 0) ;; sysex7_add_payload_byte x424 18) ;; sysex7_add_payload_byte x435 122) ;; sysex7_add_payload_byte x444 91) ;; sysex7_add_payload_byte x453 42) ;; sysex7_add_payload_byte x462 99) ;; sysex7_add_payload_byte x471 246) ;; Ok (status x478)) ;; Ok (Z.eqb 38 x479))].
Proof. vm_compute. repeat constructor. Qed.

(* line 364 *)
Example test_sysex7_set_payload_byte : all_true [
    (x482 <- (x481 <- (x480 <- (make_sysex7_complete_packet 0) ;; sysex7_set_payload_byte x480 0%nat 18) ;; get_byte x481 2%nat) ;; Ok (Z.eqb 18 x482));
    (x484 <- (x483 <- (x480 <- (make_sysex7_complete_packet 0) ;; sysex7_set_payload_byte x480 0%nat 18) ;; sysex7_payload_byte x483 0%nat) ;; Ok (Z.eqb 18 x484));
    (x487 <- (x486 <- (x485 <- (x480 <- (make_sysex7_complete_packet 0) ;; sysex7_set_payload_byte x480 0%nat 18) ;; sysex7_set_payload_byte x485 5%nat 122) ;; get_byte x486 7%nat) ;; Ok (Z.eqb 122 x487));
    (x489 <- (x488 <- (x485 <- (x480 <- (make_sysex7_complete_packet 0) ;; sysex7_set_payload_byte x480 0%nat 18) ;; sysex7_set_payload_byte x485 5%nat 122) ;; sysex7_payload_byte x488 5%nat) ;; Ok (Z.eqb 122 x489));
    (x492 <- (x491 <- (x490 <- (x485 <- (x480 <- (make_sysex7_complete_packet 0) ;; sysex7_set_payload_byte x480 0%nat 18) ;; sysex7_set_payload_byte x485 5%nat 122) ;; sysex7_set_payload_byte x490 4%nat 91) ;; get_byte x491 6%nat) ;; Ok (Z.eqb 91 x492));
    (x494 <- (x493 <- (x490 <- (x485 <- (x480 <- (make_sysex7_complete_packet 0) ;; sysex7_set_payload_byte x480 0%nat 18) ;; sysex7_set_payload_byte x485 5%nat 122) ;; sysex7_set_payload_byte x490 4%nat 91) ;; sysex7_payload_byte x493 4%nat) ;; Ok (Z.eqb 91 x494));
    (x497 <- (x496 <- (x495 <- (x490 <- (x485 <- (x480 <- (make_sysex7_complete_packet 0) ;; sysex7_set_payload_byte x480 0%nat 18) ;; sysex7_set_payload_byte x485 5%nat 122) ;; sysex7_set_payload_byte x490 4%nat 91) ;; sysex7_set_payload_byte x495 1%nat 42) ;; get_byte x496 3%nat) ;; Ok (Z.eqb 42 x497));
    (x499 <- (x498 <- (x495 <- (x490 <- (x485 <- (x480 <- (make_sysex7_complete_packet 0) ;; sysex7_set_payload_byte x480 0%nat 18) ;; sysex7_set_payload_byte x485 5%nat 122) ;; sysex7_set_payload_byte x490 4%nat 91) ;; sysex7_set_payload_byte x495 1%nat 42) ;; sysex7_payload_byte x498 1%nat) ;; Ok (Z.eqb 42 x499));
    (x502 <- (x501 <- (x500 <- (x495 <- (x490 <- (x485 <- (x480 <- (make_sysex7_complete_packet 0) ;; sysex7_set_payload_byte x480 0%nat 18) ;; sysex7_set_payload_byte x485 5%nat 122) ;; sysex7_set_payload_byte x490 4%nat 91) ;; sysex7_set_payload_byte x495 1%nat 42) ;; sysex7_set_payload_byte x500 3%nat 99) ;; get_byte x501 5%nat) ;; Ok (Z.eqb 99 x502));
    (x504 <- (x503 <- (x500 <- (x495 <- (x490 <- (x485 <- (x480 <- (make_sysex7_complete_packet 0) ;; sysex7_set_payload_byte x480 0%nat 18) ;; sysex7_set_payload_byte x485 5%nat 122) ;; sysex7_set_payload_byte x490 4%nat 91) ;; sysex7_set_payload_byte x495 1%nat 42) ;; sysex7_set_payload_byte x500 3%nat 99) ;; sysex7_payload_byte x503 3%nat) ;; Ok (Z.eqb 99 x504));
    (x507 <- (x506 <- (x505 <- (x500 <- (x495 <- (x490 <- (x485 <- (x480 <- (make_sysex7_complete_packet 0) ;; sysex7_set_payload_byte x480 0%nat 18) ;; sysex7_set_payload_byte x485 5%nat 122) ;; sysex7_set_payload_byte x490 4%nat 91) ;; sysex7_set_payload_byte x495 1%nat 42) ;; sysex7_set_payload_byte x500 3%nat 99) ;; sysex7_set_payload_byte x505 2%nat 246) ;; get_byte x506 4%nat) ;; Ok (Z.eqb 118 x507));
    (x509 <- (x508 <- (x505 <- (x500 <- (x495 <- (x490 <- (x485 <- (x480 <- (make_sysex7_complete_packet 0) ;; sysex7_set_payload_byte x480 0%nat 18) ;; sysex7_set_payload_byte x485 5%nat 122) ;; sysex7_set_payload_byte x490 4%nat 91) ;; sysex7_set_payload_byte x495 1%nat 42) ;; sysex7_set_payload_byte x500 3%nat 99) ;; sysex7_set_payload_byte x505 2%nat 246) ;; sysex7_payload_byte x508 2%nat) ;; Ok (Z.eqb 118 x509))].
Proof. vm_compute. repeat constructor. Qed.

(* line 410 *)
Example test_sysex7_packet_view : all_true [
    (Ok (is_sysex7_packet (mkP 923928069 67305985 0 0)));
    (Ok (opt_some (as_sysex7_packet_view (mkP 923928069 67305985 0 0))));
    (Ok (Z.eqb 7 (data_view_group (mkP 923928069 67305985 0 0))));
    (Ok (Z.eqb 16 (sysex7_view_status (mkP 923928069 67305985 0 0))));
    (Ok (Z.eqb 1 (sysex7_format (mkP 923928069 67305985 0 0))));
    (x510 <- (n_ <- (Ok (sysex7_payload_size (mkP 923928069 67305985 0 0))) ;; Ok (Z.of_nat n_)) ;; Ok (Z.eqb 2 x510));
    (x511 <- (sysex7_payload_byte (mkP 923928069 67305985 0 0) 0%nat) ;; Ok (Z.eqb 6 x511));
    (x512 <- (sysex7_payload_byte (mkP 923928069 67305985 0 0) 1%nat) ;; Ok (Z.eqb 5 x512));
    (x513 <- (sysex7_payload_byte (mkP 923928069 67305985 0 0) 2%nat) ;; Ok (Z.eqb 4 x513));
    (x514 <- (sysex7_payload_byte (mkP 923928069 67305985 0 0) 3%nat) ;; Ok (Z.eqb 3 x514));
    (x515 <- (sysex7_payload_byte (mkP 923928069 67305985 0 0) 4%nat) ;; Ok (Z.eqb 2 x515));
    (x516 <- (sysex7_payload_byte (mkP 923928069 67305985 0 0) 5%nat) ;; Ok (Z.eqb 1 x516));
    (Ok (is_sysex7_packet (mkP 1042682420 1450741931 0 0)));
    (Ok (opt_some (as_sysex7_packet_view (mkP 1042682420 1450741931 0 0))));
    (Ok (Z.eqb 14 (data_view_group (mkP 1042682420 1450741931 0 0))));
    (Ok (Z.eqb 32 (sysex7_view_status (mkP 1042682420 1450741931 0 0))));
    (Ok (Z.eqb 2 (sysex7_format (mkP 1042682420 1450741931 0 0))));
    (x517 <- (n_ <- (Ok (sysex7_payload_size (mkP 1042682420 1450741931 0 0))) ;; Ok (Z.of_nat n_)) ;; Ok (Z.eqb 6 x517));
    (x518 <- (sysex7_payload_byte (mkP 1042682420 1450741931 0 0) 0%nat) ;; Ok (Z.eqb 18 x518));
    (x519 <- (sysex7_payload_byte (mkP 1042682420 1450741931 0 0) 1%nat) ;; Ok (Z.eqb 52 x519));
    (x520 <- (sysex7_payload_byte (mkP 1042682420 1450741931 0 0) 2%nat) ;; Ok (Z.eqb 86 x520));
    (x521 <- (sysex7_payload_byte (mkP 1042682420 1450741931 0 0) 3%nat) ;; Ok (Z.eqb 120 x521));
    (x522 <- (sysex7_payload_byte (mkP 1042682420 1450741931 0 0) 4%nat) ;; Ok (Z.eqb 144 x522));
    (x523 <- (sysex7_payload_byte (mkP 1042682420 1450741931 0 0) 5%nat) ;; Ok (Z.eqb 171 x523));
    (Ok (Z.eqb 7 (data_view_group (mkP 923928069 67305985 0 0))));
    (Ok (Z.eqb 16 (sysex7_view_status (mkP 923928069 67305985 0 0))));
    (Ok (Z.eqb 1 (sysex7_format (mkP 923928069 67305985 0 0))));
    (x524 <- (n_ <- (Ok (sysex7_payload_size (mkP 923928069 67305985 0 0))) ;; Ok (Z.of_nat n_)) ;; Ok (Z.eqb 2 x524));
    (x525 <- (sysex7_payload_byte (mkP 923928069 67305985 0 0) 0%nat) ;; Ok (Z.eqb 6 x525));
    (x526 <- (sysex7_payload_byte (mkP 923928069 67305985 0 0) 1%nat) ;; Ok (Z.eqb 5 x526));
    (x527 <- (sysex7_payload_byte (mkP 923928069 67305985 0 0) 2%nat) ;; Ok (Z.eqb 4 x527));
    (x528 <- (sysex7_payload_byte (mkP 923928069 67305985 0 0) 3%nat) ;; Ok (Z.eqb 3 x528));
    (x529 <- (sysex7_payload_byte (mkP 923928069 67305985 0 0) 4%nat) ;; Ok (Z.eqb 2 x529));
    (x530 <- (sysex7_payload_byte (mkP 923928069 67305985 0 0) 5%nat) ;; Ok (Z.eqb 1 x530))].
Proof. vm_compute. repeat constructor. Qed.

(* line 469 *)
Example test_is_data_message_ : all_true [
    (Ok (is_data_packet (mkP 822149120 0 0 0)));
    (Ok (is_data_packet (mkP 1058275328 0 0 0)));
    (Ok (is_data_packet (mkP 858128384 0 0 0)));
    (Ok (is_data_packet (mkP 864550912 0 0 0)));
    (b_ <- (Ok (is_data_packet (mkP 16777216 0 0 0))) ;; Ok (negb b_));
    (b_ <- (Ok (is_data_packet (mkP 422711808 0 0 0))) ;; Ok (negb b_));
    (b_ <- (Ok (is_data_packet (mkP 647054463 0 0 0))) ;; Ok (negb b_));
    (b_ <- (Ok (is_data_packet (mkP 1082675296 305397760 0 0))) ;; Ok (negb b_));
    (b_ <- (Ok (is_data_packet (mkP 24333 1 2 3))) ;; Ok (negb b_))].
Proof. vm_compute. repeat constructor. Qed.

(* line 487 *)
Example test_is_sysex7_packet : all_true [
    (Ok (is_sysex7_packet (mkP 822149120 0 0 0)));
    (Ok (is_sysex7_packet (mkP 1058275328 0 0 0)));
    (Ok (is_sysex7_packet (mkP 858128384 0 0 0)));
    (Ok (is_sysex7_packet (mkP 859045888 0 0 0)));
    (b_ <- (Ok (is_sysex7_packet (mkP 822542336 0 0 0))) ;; Ok (negb b_));
    (b_ <- (Ok (is_sysex7_packet (mkP 1058996224 0 0 0))) ;; Ok (negb b_));
    (b_ <- (Ok (is_sysex7_packet (mkP 858324992 0 0 0))) ;; Ok (negb b_));
    (b_ <- (Ok (is_sysex7_packet (mkP 859570176 0 0 0))) ;; Ok (negb b_));
    (b_ <- (Ok (is_sysex7_packet (mkP 63275008 0 0 0))) ;; Ok (negb b_));
    (b_ <- (Ok (is_sysex7_packet (mkP 60784640 0 0 0))) ;; Ok (negb b_));
    (b_ <- (Ok (is_sysex7_packet (mkP 51773440 0 0 0))) ;; Ok (negb b_));
    (b_ <- (Ok (is_sysex7_packet (mkP 54984704 0 0 0))) ;; Ok (negb b_));
    (b_ <- (Ok (is_sysex7_packet (mkP 50855936 0 0 0))) ;; Ok (negb b_));
    (b_ <- (Ok (is_sysex7_packet (mkP 63504384 0 0 0))) ;; Ok (negb b_));
    (b_ <- (Ok (is_sysex7_packet (mkP 61472768 0 0 0))) ;; Ok (negb b_));
    (b_ <- (Ok (is_sysex7_packet (mkP 54198272 0 0 0))) ;; Ok (negb b_));
    (b_ <- (Ok (is_sysex7_packet (mkP 63766528 0 0 0))) ;; Ok (negb b_));
    (b_ <- (Ok (is_sysex7_packet (mkP 66977792 0 0 0))) ;; Ok (negb b_));
    (b_ <- (Ok (is_sysex7_packet (mkP 16777216 0 0 0))) ;; Ok (negb b_));
    (b_ <- (Ok (is_sysex7_packet (mkP 422711808 0 0 0))) ;; Ok (negb b_));
    (b_ <- (Ok (is_sysex7_packet (mkP 647054463 0 0 0))) ;; Ok (negb b_));
    (b_ <- (Ok (is_sysex7_packet (mkP 1082675296 305397760 0 0))) ;; Ok (negb b_));
    (b_ <- (Ok (is_sysex7_packet (mkP 24333 1 2 3))) ;; Ok (negb b_))].
Proof. vm_compute. repeat constructor. Qed.

(* ==== tests/extended_data_message_tests.cpp ==== *)


(* line 29 *)
Example test_constructors__ : all_true [
    (Ok (Z.eqb 5 (type extended_data_message0)));
    (Ok (Z.eqb 0 (group extended_data_message0)));
    (Ok (Z.eqb 0 (status extended_data_message0)));
    (Ok (Z.eqb 5 (type (extended_data_message 49))));
    (Ok (Z.eqb 0 (group (extended_data_message 49))));
    (Ok (Z.eqb 49 (status (extended_data_message 49))))].
Proof. vm_compute. repeat constructor. Qed.

(* line 52 *)
Example test_is_extended_data_message : all_true [
    (Ok (is_extended_data_packet (mkP 1359020032 1 2 3)));
    (Ok (is_extended_data_packet (mkP 1595146240 4 5 6)));
    (Ok (is_extended_data_packet (mkP 1394999296 7 8 9)));
    (Ok (is_extended_data_packet (mkP 1401421824 10 11 12)));
    (b_ <- (Ok (is_extended_data_packet (mkP 16777216 0 0 0))) ;; Ok (negb b_));
    (b_ <- (Ok (is_extended_data_packet (mkP 422711808 0 0 0))) ;; Ok (negb b_));
    (b_ <- (Ok (is_extended_data_packet (mkP 647054463 0 0 0))) ;; Ok (negb b_));
    (b_ <- (Ok (is_extended_data_packet (mkP 1082675296 305397760 0 0))) ;; Ok (negb b_));
    (b_ <- (Ok (is_extended_data_packet (mkP 16141 1 2 3))) ;; Ok (negb b_))].
Proof. vm_compute. repeat constructor. Qed.

(* line 70 *)
Example test_sysex8_packet_constructors : all_true [
    (Ok (Z.eqb 5 (type sysex8_packet_default)));
    (Ok (Z.eqb 0 (group sysex8_packet_default)));
    (Ok (Z.eqb 1 (status sysex8_packet_default)));
    (Ok (Z.eqb 0 (sysex8_format sysex8_packet_default)));
    (x531 <- (word sysex8_packet_default 0%nat) ;; Ok (Z.eqb 1342242816 x531));
    (x532 <- (word sysex8_packet_default 1%nat) ;; Ok (Z.eqb 0 x532));
    (x533 <- (word sysex8_packet_default 2%nat) ;; Ok (Z.eqb 0 x533));
    (x534 <- (word sysex8_packet_default 3%nat) ;; Ok (Z.eqb 0 x534));
    (Ok (is_extended_data_packet sysex8_packet_default));
    (Ok (Z.eqb 5 (type (sysex8_packet 48 172 12))));
    (Ok (Z.eqb 12 (group (sysex8_packet 48 172 12))));
    (Ok (Z.eqb 49 (status (sysex8_packet 48 172 12))));
    (Ok (Z.eqb 3 (sysex8_format (sysex8_packet 48 172 12))));
    (x535 <- (word (sysex8_packet 48 172 12) 0%nat) ;; Ok (Z.eqb 1546759168 x535));
    (x536 <- (word (sysex8_packet 48 172 12) 1%nat) ;; Ok (Z.eqb 0 x536));
    (x537 <- (word (sysex8_packet 48 172 12) 2%nat) ;; Ok (Z.eqb 0 x537));
    (x538 <- (word (sysex8_packet 48 172 12) 3%nat) ;; Ok (Z.eqb 0 x538));
    (Ok (is_extended_data_packet (sysex8_packet 48 172 12)))].
Proof. vm_compute. repeat constructor. Qed.

(* line 109 *)
Example test_is_sysex8_packet : all_true [
    (Ok (is_sysex8_packet (mkP 1359020032 0 1 2)));
    (Ok (is_sysex8_packet (mkP 1595146240 0 1 2)));
    (Ok (is_sysex8_packet (mkP 1394999296 0 1 2)));
    (Ok (is_sysex8_packet (mkP 1395916800 0 1 2)));
    (Ok (is_sysex8_packet (mkP 1359413248 0 1 2)));
    (Ok (is_sysex8_packet (mkP 1395195904 0 1 2)));
    (Ok (is_sysex8_packet (mkP 1396441088 0 1 2)));
    (Ok (is_sysex8_packet (mkP 1396572160 0 1 2)));
    (Ok (is_sysex8_packet sysex8_packet_default));
    (Ok (is_sysex8_packet (sysex8_packet 32 39 5)));
    (b_ <- (Ok (is_sysex8_packet (mkP 1595867136 0 1 2))) ;; Ok (negb b_));
    (b_ <- (Ok (is_sysex8_packet (mkP 96829440 0 1 2))) ;; Ok (negb b_));
    (b_ <- (Ok (is_sysex8_packet (mkP 94339072 0 1 2))) ;; Ok (negb b_));
    (b_ <- (Ok (is_sysex8_packet (mkP 85327872 0 1 2))) ;; Ok (negb b_));
    (b_ <- (Ok (is_sysex8_packet (mkP 88539136 0 1 2))) ;; Ok (negb b_));
    (b_ <- (Ok (is_sysex8_packet (mkP 84410368 0 1 2))) ;; Ok (negb b_));
    (b_ <- (Ok (is_sysex8_packet (mkP 97058816 0 1 2))) ;; Ok (negb b_));
    (b_ <- (Ok (is_sysex8_packet (mkP 95027200 0 1 2))) ;; Ok (negb b_));
    (b_ <- (Ok (is_sysex8_packet (mkP 87752704 0 1 2))) ;; Ok (negb b_));
    (b_ <- (Ok (is_sysex8_packet (mkP 97320960 0 1 2))) ;; Ok (negb b_));
    (b_ <- (Ok (is_sysex8_packet (mkP 100532224 0 1 2))) ;; Ok (negb b_));
    (b_ <- (Ok (is_sysex8_packet (mkP 16777216 0 0 0))) ;; Ok (negb b_));
    (b_ <- (Ok (is_sysex8_packet (mkP 422711808 0 0 0))) ;; Ok (negb b_));
    (b_ <- (Ok (is_sysex8_packet (mkP 647054463 0 0 0))) ;; Ok (negb b_));
    (b_ <- (Ok (is_sysex8_packet (mkP 1082675296 305397760 0 0))) ;; Ok (negb b_));
    (b_ <- (Ok (is_sysex8_packet (mkP 24333 1 2 3))) ;; Ok (negb b_))].
Proof. vm_compute. repeat constructor. Qed.

(* line 147 *)
Example test_sysex8_packet_format : all_true [
    (Ok (Z.eqb 0 (sysex8_format (make_sysex8_complete_packet 0 0))));
    (Ok (Z.eqb 1 (sysex8_format (make_sysex8_start_packet 0 0))));
    (Ok (Z.eqb 2 (sysex8_format (make_sysex8_continue_packet 0 0))));
    (Ok (Z.eqb 3 (sysex8_format (make_sysex8_end_packet 0 0))))].
Proof. vm_compute. repeat constructor. Qed.

(* line 174 *)
Example test_sysex8_packet_stream_id : all_true [
    (x539 <- (sysex8_stream_id (make_sysex8_complete_packet 0 0)) ;; Ok (Z.eqb 0 x539));
    (x541 <- (x540 <- (set_byte (make_sysex8_complete_packet 0 0) 2%nat 99) ;; word x540 0%nat) ;; Ok (Z.eqb 1342268160 x541));
    (x543 <- (x542 <- (set_byte (make_sysex8_complete_packet 0 0) 2%nat 99) ;; sysex8_stream_id x542) ;; Ok (Z.eqb 99 x543))].
Proof. vm_compute. repeat constructor. Qed.

(* line 191 *)
Example test_sysex8_packet_set_stream_id : all_true [
    (x544 <- (sysex8_stream_id (make_sysex8_continue_packet 44 0)) ;; Ok (Z.eqb 44 x544));
    (x546 <- (x545 <- (sysex8_set_stream_id (make_sysex8_continue_packet 44 0) 244) ;; word x545 0%nat) ;; Ok (Z.eqb 1344402432 x546));
    (x548 <- (x547 <- (sysex8_set_stream_id (make_sysex8_continue_packet 44 0) 244) ;; sysex8_stream_id x547) ;; Ok (Z.eqb 244 x548))].
Proof. vm_compute. repeat constructor. Qed.

(* line 208 *)
Example test_sysex8_packet_payload_size : all_true [
    (x549 <- (n_ <- (Ok (sysex8_payload_size (make_sysex8_complete_packet 0 0))) ;; Ok (Z.of_nat n_)) ;; Ok (Z.eqb 0 x549));
    (x551 <- (x550 <- (set_byte (make_sysex8_complete_packet 0 0) 1%nat 3) ;; word x550 0%nat) ;; Ok (Z.eqb 1342373888 x551));
    (x553 <- (n_ <- (x552 <- (set_byte (make_sysex8_complete_packet 0 0) 1%nat 3) ;; Ok (sysex8_payload_size x552)) ;; Ok (Z.of_nat n_)) ;; Ok (Z.eqb 2 x553));
    (x556 <- (x555 <- (x554 <- (set_byte (make_sysex8_complete_packet 0 0) 1%nat 3) ;; set_byte x554 1%nat 22) ;; word x555 0%nat) ;; Ok (Z.eqb 1343619072 x556));
    (x558 <- (n_ <- (x557 <- (x554 <- (set_byte (make_sysex8_complete_packet 0 0) 1%nat 3) ;; set_byte x554 1%nat 22) ;; Ok (sysex8_payload_size x557)) ;; Ok (Z.of_nat n_)) ;; Ok (Z.eqb 5 x558));
    (x561 <- (x560 <- (x559 <- (x554 <- (set_byte (make_sysex8_complete_packet 0 0) 1%nat 3) ;; set_byte x554 1%nat 22) ;; set_byte x559 1%nat 40) ;; word x560 0%nat) ;; Ok (Z.eqb 1344798720 x561));
    (x563 <- (n_ <- (x562 <- (x559 <- (x554 <- (set_byte (make_sysex8_complete_packet 0 0) 1%nat 3) ;; set_byte x554 1%nat 22) ;; set_byte x559 1%nat 40) ;; Ok (sysex8_payload_size x562)) ;; Ok (Z.of_nat n_)) ;; Ok (Z.eqb 7 x563));
    (x566 <- (x565 <- (x564 <- (x559 <- (x554 <- (set_byte (make_sysex8_complete_packet 0 0) 1%nat 3) ;; set_byte x554 1%nat 22) ;; set_byte x559 1%nat 40) ;; set_byte x564 1%nat 62) ;; word x565 0%nat) ;; Ok (Z.eqb 1346240512 x566));
    (x568 <- (n_ <- (x567 <- (x564 <- (x559 <- (x554 <- (set_byte (make_sysex8_complete_packet 0 0) 1%nat 3) ;; set_byte x554 1%nat 22) ;; set_byte x559 1%nat 40) ;; set_byte x564 1%nat 62) ;; Ok (sysex8_payload_size x567)) ;; Ok (Z.of_nat n_)) ;; Ok (Z.eqb 13 x568))].
Proof. vm_compute. repeat constructor. Qed.

(* line 243 *)
Example test_sysex8_packet_set_payload_size : all_true [
    (x569 <- (n_ <- (Ok (sysex8_payload_size (make_sysex8_complete_packet 0 0))) ;; Ok (Z.of_nat n_)) ;; Ok (Z.eqb 0 x569));
    (x571 <- (x570 <- (sysex8_set_payload_size (make_sysex8_complete_packet 0 0) 6%nat) ;; word x570 0%nat) ;; Ok (Z.eqb 1342636032 x571));
    (x573 <- (n_ <- (x572 <- (sysex8_set_payload_size (make_sysex8_complete_packet 0 0) 6%nat) ;; Ok (sysex8_payload_size x572)) ;; Ok (Z.of_nat n_)) ;; Ok (Z.eqb 6 x573));
    (x574 <- (n_ <- (Ok (sysex8_payload_size (make_sysex8_start_packet 1 0))) ;; Ok (Z.of_nat n_)) ;; Ok (Z.eqb 0 x574));
    (x576 <- (x575 <- (sysex8_set_payload_size (make_sysex8_start_packet 1 0) 3%nat) ;; word x575 0%nat) ;; Ok (Z.eqb 1343488256 x576));
    (x578 <- (n_ <- (x577 <- (sysex8_set_payload_size (make_sysex8_start_packet 1 0) 3%nat) ;; Ok (sysex8_payload_size x577)) ;; Ok (Z.of_nat n_)) ;; Ok (Z.eqb 3 x578));
    (x579 <- (n_ <- (Ok (sysex8_payload_size (make_sysex8_continue_packet 170 0))) ;; Ok (Z.of_nat n_)) ;; Ok (Z.eqb 0 x579));
    (x581 <- (x580 <- (sysex8_set_payload_size (make_sysex8_continue_packet 170 0) 12%nat) ;; word x580 0%nat) ;; Ok (Z.eqb 1345169920 x581));
    (x583 <- (n_ <- (x582 <- (sysex8_set_payload_size (make_sysex8_continue_packet 170 0) 12%nat) ;; Ok (sysex8_payload_size x582)) ;; Ok (Z.of_nat n_)) ;; Ok (Z.eqb 12 x583))].
Proof. vm_compute. repeat constructor. Qed.

(* line 277 *)
Example test_sysex8_packet_payload_byte : all_true [
    (x598 <- (x597 <- (x596 <- (x595 <- (x594 <- (x593 <- (x592 <- (x591 <- (x590 <- (x589 <- (x588 <- (x587 <- (x586 <- (x585 <- (x584 <- (sysex8_set_payload_size (make_sysex8_complete_packet 99 0) 13%nat) ;; set_byte x584 3%nat 17) ;; set_byte x585 4%nat 34) ;; set_byte x586 5%nat 51) ;; set_byte x587 6%nat 68) ;; set_byte x588 7%nat 85) ;; set_byte x589 8%nat 102) ;; set_byte x590 9%nat 119) ;; set_byte x591 10%nat 136) ;; set_byte x592 11%nat 153) ;; set_byte x593 12%nat 170) ;; set_byte x594 13%nat 187) ;; set_byte x595 14%nat 204) ;; set_byte x596 15%nat 221) ;; sysex8_payload_byte x597 0%nat) ;; Ok (Z.eqb 17 x598));
    (x600 <- (x599 <- (x596 <- (x595 <- (x594 <- (x593 <- (x592 <- (x591 <- (x590 <- (x589 <- (x588 <- (x587 <- (x586 <- (x585 <- (x584 <- (sysex8_set_payload_size (make_sysex8_complete_packet 99 0) 13%nat) ;; set_byte x584 3%nat 17) ;; set_byte x585 4%nat 34) ;; set_byte x586 5%nat 51) ;; set_byte x587 6%nat 68) ;; set_byte x588 7%nat 85) ;; set_byte x589 8%nat 102) ;; set_byte x590 9%nat 119) ;; set_byte x591 10%nat 136) ;; set_byte x592 11%nat 153) ;; set_byte x593 12%nat 170) ;; set_byte x594 13%nat 187) ;; set_byte x595 14%nat 204) ;; set_byte x596 15%nat 221) ;; sysex8_payload_byte x599 1%nat) ;; Ok (Z.eqb 34 x600));
    (x602 <- (x601 <- (x596 <- (x595 <- (x594 <- (x593 <- (x592 <- (x591 <- (x590 <- (x589 <- (x588 <- (x587 <- (x586 <- (x585 <- (x584 <- (sysex8_set_payload_size (make_sysex8_complete_packet 99 0) 13%nat) ;; set_byte x584 3%nat 17) ;; set_byte x585 4%nat 34) ;; set_byte x586 5%nat 51) ;; set_byte x587 6%nat 68) ;; set_byte x588 7%nat 85) ;; set_byte x589 8%nat 102) ;; set_byte x590 9%nat 119) ;; set_byte x591 10%nat 136) ;; set_byte x592 11%nat 153) ;; set_byte x593 12%nat 170) ;; set_byte x594 13%nat 187) ;; set_byte x595 14%nat 204) ;; set_byte x596 15%nat 221) ;; sysex8_payload_byte x601 2%nat) ;; Ok (Z.eqb 51 x602));
    (x604 <- (x603 <- (x596 <- (x595 <- (x594 <- (x593 <- (x592 <- (x591 <- (x590 <- (x589 <- (x588 <- (x587 <- (x586 <- (x585 <- (x584 <- (sysex8_set_payload_size (make_sysex8_complete_packet 99 0) 13%nat) ;; set_byte x584 3%nat 17) ;; set_byte x585 4%nat 34) ;; set_byte x586 5%nat 51) ;; set_byte x587 6%nat 68) ;; set_byte x588 7%nat 85) ;; set_byte x589 8%nat 102) ;; set_byte x590 9%nat 119) ;; set_byte x591 10%nat 136) ;; set_byte x592 11%nat 153) ;; set_byte x593 12%nat 170) ;; set_byte x594 13%nat 187) ;; set_byte x595 14%nat 204) ;; set_byte x596 15%nat 221) ;; sysex8_payload_byte x603 3%nat) ;; Ok (Z.eqb 68 x604));
    (x606 <- (x605 <- (x596 <- (x595 <- (x594 <- (x593 <- (x592 <- (x591 <- (x590 <- (x589 <- (x588 <- (x587 <- (x586 <- (x585 <- (x584 <- (sysex8_set_payload_size (make_sysex8_complete_packet 99 0) 13%nat) ;; set_byte x584 3%nat 17) ;; set_byte x585 4%nat 34) ;; set_byte x586 5%nat 51) ;; set_byte x587 6%nat 68) ;; set_byte x588 7%nat 85) ;; set_byte x589 8%nat 102) ;; set_byte x590 9%nat 119) ;; set_byte x591 10%nat 136) ;; set_byte x592 11%nat 153) ;; set_byte x593 12%nat 170) ;; set_byte x594 13%nat 187) ;; set_byte x595 14%nat 204) ;; set_byte x596 15%nat 221) ;; sysex8_payload_byte x605 4%nat) ;; Ok (Z.eqb 85 x606));
    (x608 <- (x607 <- (x596 <- (x595 <- (x594 <- (x593 <- (x592 <- (x591 <- (x590 <- (x589 <- (x588 <- (x587 <- (x586 <- (x585 <- (x584 <- (sysex8_set_payload_size (make_sysex8_complete_packet 99 0) 13%nat) ;; set_byte x584 3%nat 17) ;; set_byte x585 4%nat 34) ;; set_byte x586 5%nat 51) ;; set_byte x587 6%nat 68) ;; set_byte x588 7%nat 85) ;; set_byte x589 8%nat 102) ;; set_byte x590 9%nat 119) ;; set_byte x591 10%nat 136) ;; set_byte x592 11%nat 153) ;; set_byte x593 12%nat 170) ;; set_byte x594 13%nat 187) ;; set_byte x595 14%nat 204) ;; set_byte x596 15%nat 221) ;; sysex8_payload_byte x607 5%nat) ;; Ok (Z.eqb 102 x608));
    (x610 <- (x609 <- (x596 <- (x595 <- (x594 <- (x593 <- (x592 <- (x591 <- (x590 <- (x589 <- (x588 <- (x587 <- (x586 <- (x585 <- (x584 <- (sysex8_set_payload_size (make_sysex8_complete_packet 99 0) 13%nat) ;; set_byte x584 3%nat 17) ;; set_byte x585 4%nat 34) ;; set_byte x586 5%nat 51) ;; set_byte x587 6%nat 68) ;; set_byte x588 7%nat 85) ;; set_byte x589 8%nat 102) ;; set_byte x590 9%nat 119) ;; set_byte x591 10%nat 136) ;; set_byte x592 11%nat 153) ;; set_byte x593 12%nat 170) ;; set_byte x594 13%nat 187) ;; set_byte x595 14%nat 204) ;; set_byte x596 15%nat 221) ;; sysex8_payload_byte x609 6%nat) ;; Ok (Z.eqb 119 x610));
    (x612 <- (x611 <- (x596 <- (x595 <- (x594 <- (x593 <- (x592 <- (x591 <- (x590 <- (x589 <- (x588 <- (x587 <- (x586 <- (x585 <- (x584 <- (sysex8_set_payload_size (make_sysex8_complete_packet 99 0) 13%nat) ;; set_byte x584 3%nat 17) ;; set_byte x585 4%nat 34) ;; set_byte x586 5%nat 51) ;; set_byte x587 6%nat 68) ;; set_byte x588 7%nat 85) ;; set_byte x589 8%nat 102) ;; set_byte x590 9%nat 119) ;; set_byte x591 10%nat 136) ;; set_byte x592 11%nat 153) ;; set_byte x593 12%nat 170) ;; set_byte x594 13%nat 187) ;; set_byte x595 14%nat 204) ;; set_byte x596 15%nat 221) ;; sysex8_payload_byte x611 7%nat) ;; Ok (Z.eqb 136 x612));
    (x614 <- (x613 <- (x596 <- (x595 <- (x594 <- (x593 <- (x592 <- (x591 <- (x590 <- (x589 <- (x588 <- (x587 <- (x586 <- (x585 <- (x584 <- (sysex8_set_payload_size (make_sysex8_complete_packet 99 0) 13%nat) ;; set_byte x584 3%nat 17) ;; set_byte x585 4%nat 34) ;; set_byte x586 5%nat 51) ;; set_byte x587 6%nat 68) ;; set_byte x588 7%nat 85) ;; set_byte x589 8%nat 102) ;; set_byte x590 9%nat 119) ;; set_byte x591 10%nat 136) ;; set_byte x592 11%nat 153) ;; set_byte x593 12%nat 170) ;; set_byte x594 13%nat 187) ;; set_byte x595 14%nat 204) ;; set_byte x596 15%nat 221) ;; sysex8_payload_byte x613 8%nat) ;; Ok (Z.eqb 153 x614));
    (x616 <- (x615 <- (x596 <- (x595 <- (x594 <- (x593 <- (x592 <- (x591 <- (x590 <- (x589 <- (x588 <- (x587 <- (x586 <- (x585 <- (x584 <- (sysex8_set_payload_size (make_sysex8_complete_packet 99 0) 13%nat) ;; set_byte x584 3%nat 17) ;; set_byte x585 4%nat 34) ;; set_byte x586 5%nat 51) ;; set_byte x587 6%nat 68) ;; set_byte x588 7%nat 85) ;; set_byte x589 8%nat 102) ;; set_byte x590 9%nat 119) ;; set_byte x591 10%nat 136) ;; set_byte x592 11%nat 153) ;; set_byte x593 12%nat 170) ;; set_byte x594 13%nat 187) ;; set_byte x595 14%nat 204) ;; set_byte x596 15%nat 221) ;; sysex8_payload_byte x615 9%nat) ;; Ok (Z.eqb 170 x616));
    (x618 <- (x617 <- (x596 <- (x595 <- (x594 <- (x593 <- (x592 <- (x591 <- (x590 <- (x589 <- (x588 <- (x587 <- (x586 <- (x585 <- (x584 <- (sysex8_set_payload_size (make_sysex8_complete_packet 99 0) 13%nat) ;; set_byte x584 3%nat 17) ;; set_byte x585 4%nat 34) ;; set_byte x586 5%nat 51) ;; set_byte x587 6%nat 68) ;; set_byte x588 7%nat 85) ;; set_byte x589 8%nat 102) ;; set_byte x590 9%nat 119) ;; set_byte x591 10%nat 136) ;; set_byte x592 11%nat 153) ;; set_byte x593 12%nat 170) ;; set_byte x594 13%nat 187) ;; set_byte x595 14%nat 204) ;; set_byte x596 15%nat 221) ;; sysex8_payload_byte x617 10%nat) ;; Ok (Z.eqb 187 x618));
    (x620 <- (x619 <- (x596 <- (x595 <- (x594 <- (x593 <- (x592 <- (x591 <- (x590 <- (x589 <- (x588 <- (x587 <- (x586 <- (x585 <- (x584 <- (sysex8_set_payload_size (make_sysex8_complete_packet 99 0) 13%nat) ;; set_byte x584 3%nat 17) ;; set_byte x585 4%nat 34) ;; set_byte x586 5%nat 51) ;; set_byte x587 6%nat 68) ;; set_byte x588 7%nat 85) ;; set_byte x589 8%nat 102) ;; set_byte x590 9%nat 119) ;; set_byte x591 10%nat 136) ;; set_byte x592 11%nat 153) ;; set_byte x593 12%nat 170) ;; set_byte x594 13%nat 187) ;; set_byte x595 14%nat 204) ;; set_byte x596 15%nat 221) ;; sysex8_payload_byte x619 11%nat) ;; Ok (Z.eqb 204 x620));
    (x622 <- (x621 <- (x596 <- (x595 <- (x594 <- (x593 <- (x592 <- (x591 <- (x590 <- (x589 <- (x588 <- (x587 <- (x586 <- (x585 <- (x584 <- (sysex8_set_payload_size (make_sysex8_complete_packet 99 0) 13%nat) ;; set_byte x584 3%nat 17) ;; set_byte x585 4%nat 34) ;; set_byte x586 5%nat 51) ;; set_byte x587 6%nat 68) ;; set_byte x588 7%nat 85) ;; set_byte x589 8%nat 102) ;; set_byte x590 9%nat 119) ;; set_byte x591 10%nat 136) ;; set_byte x592 11%nat 153) ;; set_byte x593 12%nat 170) ;; set_byte x594 13%nat 187) ;; set_byte x595 14%nat 204) ;; set_byte x596 15%nat 221) ;; sysex8_payload_byte x621 12%nat) ;; Ok (Z.eqb 221 x622))].
Proof. vm_compute. repeat constructor. Qed.

(* line 315 *)
Example test_sysex8_packet_set_payload_byte : all_true [
    (x624 <- (x623 <- (sysex8_set_payload_byte (make_sysex8_complete_packet 0 0) 0%nat 18) ;; get_byte x623 3%nat) ;; Ok (Z.eqb 18 x624));
    (x626 <- (x625 <- (sysex8_set_payload_byte (make_sysex8_complete_packet 0 0) 0%nat 18) ;; sysex8_payload_byte x625 0%nat) ;; Ok (Z.eqb 18 x626));
    (x629 <- (x628 <- (x627 <- (sysex8_set_payload_byte (make_sysex8_complete_packet 0 0) 0%nat 18) ;; sysex8_set_payload_byte x627 5%nat 122) ;; get_byte x628 8%nat) ;; Ok (Z.eqb 122 x629));
    (x631 <- (x630 <- (x627 <- (sysex8_set_payload_byte (make_sysex8_complete_packet 0 0) 0%nat 18) ;; sysex8_set_payload_byte x627 5%nat 122) ;; sysex8_payload_byte x630 5%nat) ;; Ok (Z.eqb 122 x631));
    (x634 <- (x633 <- (x632 <- (x627 <- (sysex8_set_payload_byte (make_sysex8_complete_packet 0 0) 0%nat 18) ;; sysex8_set_payload_byte x627 5%nat 122) ;; sysex8_set_payload_byte x632 4%nat 91) ;; get_byte x633 7%nat) ;; Ok (Z.eqb 91 x634));
    (x636 <- (x635 <- (x632 <- (x627 <- (sysex8_set_payload_byte (make_sysex8_complete_packet 0 0) 0%nat 18) ;; sysex8_set_payload_byte x627 5%nat 122) ;; sysex8_set_payload_byte x632 4%nat 91) ;; sysex8_payload_byte x635 4%nat) ;; Ok (Z.eqb 91 x636));
    (x639 <- (x638 <- (x637 <- (x632 <- (x627 <- (sysex8_set_payload_byte (make_sysex8_complete_packet 0 0) 0%nat 18) ;; sysex8_set_payload_byte x627 5%nat 122) ;; sysex8_set_payload_byte x632 4%nat 91) ;; sysex8_set_payload_byte x637 1%nat 42) ;; get_byte x638 4%nat) ;; Ok (Z.eqb 42 x639));
    (x641 <- (x640 <- (x637 <- (x632 <- (x627 <- (sysex8_set_payload_byte (make_sysex8_complete_packet 0 0) 0%nat 18) ;; sysex8_set_payload_byte x627 5%nat 122) ;; sysex8_set_payload_byte x632 4%nat 91) ;; sysex8_set_payload_byte x637 1%nat 42) ;; sysex8_payload_byte x640 1%nat) ;; Ok (Z.eqb 42 x641));
    (x644 <- (x643 <- (x642 <- (x637 <- (x632 <- (x627 <- (sysex8_set_payload_byte (make_sysex8_complete_packet 0 0) 0%nat 18) ;; sysex8_set_payload_byte x627 5%nat 122) ;; sysex8_set_payload_byte x632 4%nat 91) ;; sysex8_set_payload_byte x637 1%nat 42) ;; sysex8_set_payload_byte x642 3%nat 99) ;; get_byte x643 6%nat) ;; Ok (Z.eqb 99 x644));
    (x646 <- (x645 <- (x642 <- (x637 <- (x632 <- (x627 <- (sysex8_set_payload_byte (make_sysex8_complete_packet 0 0) 0%nat 18) ;; sysex8_set_payload_byte x627 5%nat 122) ;; sysex8_set_payload_byte x632 4%nat 91) ;; sysex8_set_payload_byte x637 1%nat 42) ;; sysex8_set_payload_byte x642 3%nat 99) ;; sysex8_payload_byte x645 3%nat) ;; Ok (Z.eqb 99 x646));
    (x649 <- (x648 <- (x647 <- (x642 <- (x637 <- (x632 <- (x627 <- (sysex8_set_payload_byte (make_sysex8_complete_packet 0 0) 0%nat 18) ;; sysex8_set_payload_byte x627 5%nat 122) ;; sysex8_set_payload_byte x632 4%nat 91) ;; sysex8_set_payload_byte x637 1%nat 42) ;; sysex8_set_payload_byte x642 3%nat 99) ;; sysex8_set_payload_byte x647 2%nat 246) ;; get_byte x648 5%nat) ;; Ok (Z.eqb 246 x649));
    (x651 <- (x650 <- (x647 <- (x642 <- (x637 <- (x632 <- (x627 <- (sysex8_set_payload_byte (make_sysex8_complete_packet 0 0) 0%nat 18) ;; sysex8_set_payload_byte x627 5%nat 122) ;; sysex8_set_payload_byte x632 4%nat 91) ;; sysex8_set_payload_byte x637 1%nat 42) ;; sysex8_set_payload_byte x642 3%nat 99) ;; sysex8_set_payload_byte x647 2%nat 246) ;; sysex8_payload_byte x650 2%nat) ;; Ok (Z.eqb 246 x651))].
Proof. vm_compute. repeat constructor. Qed.

(* line 360 *)
Example test_sysex8_packet_add_payload_byte : all_true [
    (x652 <- (n_ <- (Ok (sysex8_payload_size (make_sysex8_continue_packet 62 0))) ;; Ok (Z.of_nat n_)) ;; Ok (Z.eqb 0 x652));
    (x654 <- (x653 <- (sysex8_add_payload_byte (make_sysex8_continue_packet 62 0) 18) ;; get_byte x653 3%nat) ;; Ok (Z.eqb 18 x654));
    (x656 <- (x655 <- (sysex8_add_payload_byte (make_sysex8_continue_packet 62 0) 18) ;; sysex8_payload_byte x655 0%nat) ;; Ok (Z.eqb 18 x656));
    (x658 <- (n_ <- (x657 <- (sysex8_add_payload_byte (make_sysex8_continue_packet 62 0) 18) ;; Ok (sysex8_payload_size x657)) ;; Ok (Z.of_nat n_)) ;; Ok (Z.eqb 1 x658));
    (x660 <- (x659 <- (sysex8_add_payload_byte (make_sysex8_continue_packet 62 0) 18) ;; word x659 0%nat) ;; Ok (Z.eqb 1344421394 x660));
    (x662 <- (x661 <- (sysex8_add_payload_byte (make_sysex8_continue_packet 62 0) 18) ;; word x661 1%nat) ;; Ok (Z.eqb 0 x662));
    (x664 <- (x663 <- (sysex8_add_payload_byte (make_sysex8_continue_packet 62 0) 18) ;; word x663 2%nat) ;; Ok (Z.eqb 0 x664));
    (x666 <- (x665 <- (sysex8_add_payload_byte (make_sysex8_continue_packet 62 0) 18) ;; word x665 3%nat) ;; Ok (Z.eqb 0 x666));
    (x669 <- (x668 <- (x667 <- (sysex8_add_payload_byte (make_sysex8_continue_packet 62 0) 18) ;; sysex8_add_payload_byte x667 122) ;; get_byte x668 4%nat) ;; Ok (Z.eqb 122 x669));
    (x671 <- (x670 <- (x667 <- (sysex8_add_payload_byte (make_sysex8_continue_packet 62 0) 18) ;; sysex8_add_payload_byte x667 122) ;; sysex8_payload_byte x670 1%nat) ;; Ok (Z.eqb 122 x671));
    (x673 <- (n_ <- (x672 <- (x667 <- (sysex8_add_payload_byte (make_sysex8_continue_packet 62 0) 18) ;; sysex8_add_payload_byte x667 122) ;; Ok (sysex8_payload_size x672)) ;; Ok (Z.of_nat n_)) ;; Ok (Z.eqb 2 x673));
    (x675 <- (x674 <- (x667 <- (sysex8_add_payload_byte (make_sysex8_continue_packet 62 0) 18) ;; sysex8_add_payload_byte x667 122) ;; word x674 0%nat) ;; Ok (Z.eqb 1344486930 x675));
    (x677 <- (x676 <- (x667 <- (sysex8_add_payload_byte (make_sysex8_continue_packet 62 0) 18) ;; sysex8_add_payload_byte x667 122) ;; word x676 1%nat) ;; Ok (Z.eqb 2046820352 x677));
    (x679 <- (x678 <- (x667 <- (sysex8_add_payload_byte (make_sysex8_continue_packet 62 0) 18) ;; sysex8_add_payload_byte x667 122) ;; word x678 2%nat) ;; Ok (Z.eqb 0 x679));
    (x681 <- (x680 <- (x667 <- (sysex8_add_payload_byte (make_sysex8_continue_packet 62 0) 18) ;; sysex8_add_payload_byte x667 122) ;; word x680 3%nat) ;; Ok (Z.eqb 0 x681));
    (x684 <- (x683 <- (x682 <- (x667 <- (sysex8_add_payload_byte (make_sysex8_continue_packet 62 0) 18) ;; sysex8_add_payload_byte x667 122) ;; sysex8_add_payload_byte x682 91) ;; get_byte x683 5%nat) ;; Ok (Z.eqb 91 x684));
    (x686 <- (x685 <- (x682 <- (x667 <- (sysex8_add_payload_byte (make_sysex8_continue_packet 62 0) 18) ;; sysex8_add_payload_byte x667 122) ;; sysex8_add_payload_byte x682 91) ;; sysex8_payload_byte x685 2%nat) ;; Ok (Z.eqb 91 x686));
    (x688 <- (n_ <- (x687 <- (x682 <- (x667 <- (sysex8_add_payload_byte (make_sysex8_continue_packet 62 0) 18) ;; sysex8_add_payload_byte x667 122) ;; sysex8_add_payload_byte x682 91) ;; Ok (sysex8_payload_size x687)) ;; Ok (Z.of_nat n_)) ;; Ok (Z.eqb 3 x688));
    (x690 <- (x689 <- (x682 <- (x667 <- (sysex8_add_payload_byte (make_sysex8_continue_packet 62 0) 18) ;; sysex8_add_payload_byte x667 122) ;; sysex8_add_payload_byte x682 91) ;; word x689 0%nat) ;; Ok (Z.eqb 1344552466 x690));
    (x692 <- (x691 <- (x682 <- (x667 <- (sysex8_add_payload_byte (make_sysex8_continue_packet 62 0) 18) ;; sysex8_add_payload_byte x667 122) ;; sysex8_add_payload_byte x682 91) ;; word x691 1%nat) ;; Ok (Z.eqb 2052784128 x692));
    (x694 <- (x693 <- (x682 <- (x667 <- (sysex8_add_payload_byte (make_sysex8_continue_packet 62 0) 18) ;; sysex8_add_payload_byte x667 122) ;; sysex8_add_payload_byte x682 91) ;; word x693 2%nat) ;; Ok (Z.eqb 0 x694));
    (x696 <- (x695 <- (x682 <- (x667 <- (sysex8_add_payload_byte (make_sysex8_continue_packet 62 0) 18) ;; sysex8_add_payload_byte x667 122) ;; sysex8_add_payload_byte x682 91) ;; word x695 3%nat) ;; Ok (Z.eqb 0 x696));
    (x699 <- (x698 <- (x697 <- (x682 <- (x667 <- (sysex8_add_payload_byte (make_sysex8_continue_packet 62 0) 18) ;; sysex8_add_payload_byte x667 122) ;; sysex8_add_payload_byte x682 91) ;; sysex8_add_payload_byte x697 42) ;; get_byte x698 6%nat) ;; Ok (Z.eqb 42 x699));
    (x701 <- (x700 <- (x697 <- (x682 <- (x667 <- (sysex8_add_payload_byte (make_sysex8_continue_packet 62 0) 18) ;; sysex8_add_payload_byte x667 122) ;; sysex8_add_payload_byte x682 91) ;; sysex8_add_payload_byte x697 42) ;; sysex8_payload_byte x700 3%nat) ;; Ok (Z.eqb 42 x701));
    (x703 <- (n_ <- (x702 <- (x697 <- (x682 <- (x667 <- (sysex8_add_payload_byte (make_sysex8_continue_packet 62 0) 18) ;; sysex8_add_payload_byte x667 122) ;; sysex8_add_payload_byte x682 91) ;; sysex8_add_payload_byte x697 42) ;; Ok (sysex8_payload_size x702)) ;; Ok (Z.of_nat n_)) ;; Ok (Z.eqb 4 x703));
    (x705 <- (x704 <- (x697 <- (x682 <- (x667 <- (sysex8_add_payload_byte (make_sysex8_continue_packet 62 0) 18) ;; sysex8_add_payload_byte x667 122) ;; sysex8_add_payload_byte x682 91) ;; sysex8_add_payload_byte x697 42) ;; word x704 0%nat) ;; Ok (Z.eqb 1344618002 x705));
    (x707 <- (x706 <- (x697 <- (x682 <- (x667 <- (sysex8_add_payload_byte (make_sysex8_continue_packet 62 0) 18) ;; sysex8_add_payload_byte x667 122) ;; sysex8_add_payload_byte x682 91) ;; sysex8_add_payload_byte x697 42) ;; word x706 1%nat) ;; Ok (Z.eqb 2052794880 x707));
    (x709 <- (x708 <- (x697 <- (x682 <- (x667 <- (sysex8_add_payload_byte (make_sysex8_continue_packet 62 0) 18) ;; sysex8_add_payload_byte x667 122) ;; sysex8_add_payload_byte x682 91) ;; sysex8_add_payload_byte x697 42) ;; word x708 2%nat) ;; Ok (Z.eqb 0 x709));
    (x711 <- (x710 <- (x697 <- (x682 <- (x667 <- (sysex8_add_payload_byte (make_sysex8_continue_packet 62 0) 18) ;; sysex8_add_payload_byte x667 122) ;; sysex8_add_payload_byte x682 91) ;; sysex8_add_payload_byte x697 42) ;; word x710 3%nat) ;; Ok (Z.eqb 0 x711));
    (x714 <- (x713 <- (x712 <- (x697 <- (x682 <- (x667 <- (sysex8_add_payload_byte (make_sysex8_continue_packet 62 0) 18) ;; sysex8_add_payload_byte x667 122) ;; sysex8_add_payload_byte x682 91) ;; sysex8_add_payload_byte x697 42) ;; sysex8_add_payload_byte x712 99) ;; get_byte x713 7%nat) ;; Ok (Z.eqb 99 x714));
    (x716 <- (x715 <- (x712 <- (x697 <- (x682 <- (x667 <- (sysex8_add_payload_byte (make_sysex8_continue_packet 62 0) 18) ;; sysex8_add_payload_byte x667 122) ;; sysex8_add_payload_byte x682 91) ;; sysex8_add_payload_byte x697 42) ;; sysex8_add_payload_byte x712 99) ;; sysex8_payload_byte x715 4%nat) ;; Ok (Z.eqb 99 x716));
    (x718 <- (n_ <- (x717 <- (x712 <- (x697 <- (x682 <- (x667 <- (sysex8_add_payload_byte (make_sysex8_continue_packet 62 0) 18) ;; sysex8_add_payload_byte x667 122) ;; sysex8_add_payload_byte x682 91) ;; sysex8_add_payload_byte x697 42) ;; sysex8_add_payload_byte x712 99) ;; Ok (sysex8_payload_size x717)) ;; Ok (Z.of_nat n_)) ;; Ok (Z.eqb 5 x718));
    (x720 <- (x719 <- (x712 <- (x697 <- (x682 <- (x667 <- (sysex8_add_payload_byte (make_sysex8_continue_packet 62 0) 18) ;; sysex8_add_payload_byte x667 122) ;; sysex8_add_payload_byte x682 91) ;; sysex8_add_payload_byte x697 42) ;; sysex8_add_payload_byte x712 99) ;; word x719 0%nat) ;; Ok (Z.eqb 1344683538 x720));
    (x722 <- (x721 <- (x712 <- (x697 <- (x682 <- (x667 <- (sysex8_add_payload_byte (make_sysex8_continue_packet 62 0) 18) ;; sysex8_add_payload_byte x667 122) ;; sysex8_add_payload_byte x682 91) ;; sysex8_add_payload_byte x697 42) ;; sysex8_add_payload_byte x712 99) ;; word x721 1%nat) ;; Ok (Z.eqb 2052794979 x722));
    (x724 <- (x723 <- (x712 <- (x697 <- (x682 <- (x667 <- (sysex8_add_payload_byte (make_sysex8_continue_packet 62 0) 18) ;; sysex8_add_payload_byte x667 122) ;; sysex8_add_payload_byte x682 91) ;; sysex8_add_payload_byte x697 42) ;; sysex8_add_payload_byte x712 99) ;; word x723 2%nat) ;; Ok (Z.eqb 0 x724));
    (x726 <- (x725 <- (x712 <- (x697 <- (x682 <- (x667 <- (sysex8_add_payload_byte (make_sysex8_continue_packet 62 0) 18) ;; sysex8_add_payload_byte x667 122) ;; sysex8_add_payload_byte x682 91) ;; sysex8_add_payload_byte x697 42) ;; sysex8_add_payload_byte x712 99) ;; word x725 3%nat) ;; Ok (Z.eqb 0 x726));
    (x729 <- (x728 <- (x727 <- (x712 <- (x697 <- (x682 <- (x667 <- (sysex8_add_payload_byte (make_sysex8_continue_packet 62 0) 18) ;; sysex8_add_payload_byte x667 122) ;; sysex8_add_payload_byte x682 91) ;; sysex8_add_payload_byte x697 42) ;; sysex8_add_payload_byte x712 99) ;; sysex8_add_payload_byte x727 246) ;; get_byte x728 8%nat) ;; Ok (Z.eqb 246 x729));
    (x731 <- (x730 <- (x727 <- (x712 <- (x697 <- (x682 <- (x667 <- (sysex8_add_payload_byte (make_sysex8_continue_packet 62 0) 18) ;; sysex8_add_payload_byte x667 122) ;; sysex8_add_payload_byte x682 91) ;; sysex8_add_payload_byte x697 42) ;; sysex8_add_payload_byte x712 99) ;; sysex8_add_payload_byte x727 246) ;; sysex8_payload_byte x730 5%nat) ;; Ok (Z.eqb 246 x731));
    (x733 <- (n_ <- (x732 <- (x727 <- (x712 <- (x697 <- (x682 <- (x667 <- (sysex8_add_payload_byte (make_sysex8_continue_packet 62 0) 18) ;; sysex8_add_payload_byte x667 122) ;; sysex8_add_payload_byte x682 91) ;; sysex8_add_payload_byte x697 42) ;; sysex8_add_payload_byte x712 99) ;; sysex8_add_payload_byte x727 246) ;; Ok (sysex8_payload_size x732)) ;; Ok (Z.of_nat n_)) ;; Ok (Z.eqb 6 x733));
    (x735 <- (x734 <- (x727 <- (x712 <- (x697 <- (x682 <- (x667 <- (sysex8_add_payload_byte (make_sysex8_continue_packet 62 0) 18) ;; sysex8_add_payload_byte x667 122) ;; sysex8_add_payload_byte x682 91) ;; sysex8_add_payload_byte x697 42) ;; sysex8_add_payload_byte x712 99) ;; sysex8_add_payload_byte x727 246) ;; word x734 0%nat) ;; Ok (Z.eqb 1344749074 x735));
    (x737 <- (x736 <- (x727 <- (x712 <- (x697 <- (x682 <- (x667 <- (sysex8_add_payload_byte (make_sysex8_continue_packet 62 0) 18) ;; sysex8_add_payload_byte x667 122) ;; sysex8_add_payload_byte x682 91) ;; sysex8_add_payload_byte x697 42) ;; sysex8_add_payload_byte x712 99) ;; sysex8_add_payload_byte x727 246) ;; word x736 1%nat) ;; Ok (Z.eqb 2052794979 x737));
    (x739 <- (x738 <- (x727 <- (x712 <- (x697 <- (x682 <- (x667 <- (sysex8_add_payload_byte (make_sysex8_continue_packet 62 0) 18) ;; sysex8_add_payload_byte x667 122) ;; sysex8_add_payload_byte x682 91) ;; sysex8_add_payload_byte x697 42) ;; sysex8_add_payload_byte x712 99) ;; sysex8_add_payload_byte x727 246) ;; word x738 2%nat) ;; Ok (Z.eqb 4127195136 x739));
    (x741 <- (x740 <- (x727 <- (x712 <- (x697 <- (x682 <- (x667 <- (sysex8_add_payload_byte (make_sysex8_continue_packet 62 0) 18) ;; sysex8_add_payload_byte x667 122) ;; sysex8_add_payload_byte x682 91) ;; sysex8_add_payload_byte x697 42) ;; sysex8_add_payload_byte x712 99) ;; sysex8_add_payload_byte x727 246) ;; word x740 3%nat) ;; Ok (Z.eqb 0 x741));
    (x744 <- (x743 <- (x742 <- (x727 <- (x712 <- (x697 <- (x682 <- (x667 <- (sysex8_add_payload_byte (make_sysex8_continue_packet 62 0) 18) ;; sysex8_add_payload_byte x667 122) ;; sysex8_add_payload_byte x682 91) ;; sysex8_add_payload_byte x697 42) ;; sysex8_add_payload_byte x712 99) ;; sysex8_add_payload_byte x727 246) ;; sysex8_add_payload_byte x742 175) ;; get_byte x743 9%nat) ;; Ok (Z.eqb 175 x744));
    (x746 <- (x745 <- (x742 <- (x727 <- (x712 <- (x697 <- (x682 <- (x667 <- (sysex8_add_payload_byte (make_sysex8_continue_packet 62 0) 18) ;; sysex8_add_payload_byte x667 122) ;; sysex8_add_payload_byte x682 91) ;; sysex8_add_payload_byte x697 42) ;; sysex8_add_payload_byte x712 99) ;; sysex8_add_payload_byte x727 246) ;; sysex8_add_payload_byte x742 175) ;; sysex8_payload_byte x745 6%nat) ;; Ok (Z.eqb 175 x746));
    (x748 <- (n_ <- (x747 <- (x742 <- (x727 <- (x712 <- (x697 <- (x682 <- (x667 <- (sysex8_add_payload_byte (make_sysex8_continue_packet 62 0) 18) ;; sysex8_add_payload_byte x667 122) ;; sysex8_add_payload_byte x682 91) ;; sysex8_add_payload_byte x697 42) ;; sysex8_add_payload_byte x712 99) ;; sysex8_add_payload_byte x727 246) ;; sysex8_add_payload_byte x742 175) ;; Ok (sysex8_payload_size x747)) ;; Ok (Z.of_nat n_)) ;; Ok (Z.eqb 7 x748));
    (x750 <- (x749 <- (x742 <- (x727 <- (x712 <- (x697 <- (x682 <- (x667 <- (sysex8_add_payload_byte (make_sysex8_continue_packet 62 0) 18) ;; sysex8_add_payload_byte x667 122) ;; sysex8_add_payload_byte x682 91) ;; sysex8_add_payload_byte x697 42) ;; sysex8_add_payload_byte x712 99) ;; sysex8_add_payload_byte x727 246) ;; sysex8_add_payload_byte x742 175) ;; word x749 0%nat) ;; Ok (Z.eqb 1344814610 x750));
    (x752 <- (x751 <- (x742 <- (x727 <- (x712 <- (x697 <- (x682 <- (x667 <- (sysex8_add_payload_byte (make_sysex8_continue_packet 62 0) 18) ;; sysex8_add_payload_byte x667 122) ;; sysex8_add_payload_byte x682 91) ;; sysex8_add_payload_byte x697 42) ;; sysex8_add_payload_byte x712 99) ;; sysex8_add_payload_byte x727 246) ;; sysex8_add_payload_byte x742 175) ;; word x751 1%nat) ;; Ok (Z.eqb 2052794979 x752));
    (x754 <- (x753 <- (x742 <- (x727 <- (x712 <- (x697 <- (x682 <- (x667 <- (sysex8_add_payload_byte (make_sysex8_continue_packet 62 0) 18) ;; sysex8_add_payload_byte x667 122) ;; sysex8_add_payload_byte x682 91) ;; sysex8_add_payload_byte x697 42) ;; sysex8_add_payload_byte x712 99) ;; sysex8_add_payload_byte x727 246) ;; sysex8_add_payload_byte x742 175) ;; word x753 2%nat) ;; Ok (Z.eqb 4138663936 x754));
    (x756 <- (x755 <- (x742 <- (x727 <- (x712 <- (x697 <- (x682 <- (x667 <- (sysex8_add_payload_byte (make_sysex8_continue_packet 62 0) 18) ;; sysex8_add_payload_byte x667 122) ;; sysex8_add_payload_byte x682 91) ;; sysex8_add_payload_byte x697 42) ;; sysex8_add_payload_byte x712 99) ;; sysex8_add_payload_byte x727 246) ;; sysex8_add_payload_byte x742 175) ;; word x755 3%nat) ;; Ok (Z.eqb 0 x756));
    (x759 <- (x758 <- (x757 <- (x742 <- (x727 <- (x712 <- (x697 <- (x682 <- (x667 <- (sysex8_add_payload_byte (make_sysex8_continue_packet 62 0) 18) ;; sysex8_add_payload_byte x667 122) ;; sysex8_add_payload_byte x682 91) ;; sysex8_add_payload_byte x697 42) ;; sysex8_add_payload_byte x712 99) ;; sysex8_add_payload_byte x727 246) ;; sysex8_add_payload_byte x742 175) ;; sysex8_add_payload_byte x757 52) ;; get_byte x758 10%nat) ;; Ok (Z.eqb 52 x759));
    (x761 <- (x760 <- (x757 <- (x742 <- (x727 <- (x712 <- (x697 <- (x682 <- (x667 <- (sysex8_add_payload_byte (make_sysex8_continue_packet 62 0) 18) ;; sysex8_add_payload_byte x667 122) ;; sysex8_add_payload_byte x682 91) ;; sysex8_add_payload_byte x697 42) ;; sysex8_add_payload_byte x712 99) ;; sysex8_add_payload_byte x727 246) ;; sysex8_add_payload_byte x742 175) ;; sysex8_add_payload_byte x757 52) ;; sysex8_payload_byte x760 7%nat) ;; Ok (Z.eqb 52 x761));
    (x763 <- (n_ <- (x762 <- (x757 <- (x742 <- (x727 <- (x712 <- (x697 <- (x682 <- (x667 <- (sysex8_add_payload_byte (make_sysex8_continue_packet 62 0) 18) ;; sysex8_add_payload_byte x667 122) ;; sysex8_add_payload_byte x682 91) ;; sysex8_add_payload_byte x697 42) ;; sysex8_add_payload_byte x712 99) ;; sysex8_add_payload_byte x727 246) ;; sysex8_add_payload_byte x742 175) ;; sysex8_add_payload_byte x757 52) ;; Ok (sysex8_payload_size x762)) ;; Ok (Z.of_nat n_)) ;; Ok (Z.eqb 8 x763));
    (x765 <- (x764 <- (x757 <- (x742 <- (x727 <- (x712 <- (x697 <- (x682 <- (x667 <- (sysex8_add_payload_byte (make_sysex8_continue_packet 62 0) 18) ;; sysex8_add_payload_byte x667 122) ;; sysex8_add_payload_byte x682 91) ;; sysex8_add_payload_byte x697 42) ;; sysex8_add_payload_byte x712 99) ;; sysex8_add_payload_byte x727 246) ;; sysex8_add_payload_byte x742 175) ;; sysex8_add_payload_byte x757 52) ;; word x764 0%nat) ;; Ok (Z.eqb 1344880146 x765));
    (x767 <- (x766 <- (x757 <- (x742 <- (x727 <- (x712 <- (x697 <- (x682 <- (x667 <- (sysex8_add_payload_byte (make_sysex8_continue_packet 62 0) 18) ;; sysex8_add_payload_byte x667 122) ;; sysex8_add_payload_byte x682 91) ;; sysex8_add_payload_byte x697 42) ;; sysex8_add_payload_byte x712 99) ;; sysex8_add_payload_byte x727 246) ;; sysex8_add_payload_byte x742 175) ;; sysex8_add_payload_byte x757 52) ;; word x766 1%nat) ;; Ok (Z.eqb 2052794979 x767));
    (x769 <- (x768 <- (x757 <- (x742 <- (x727 <- (x712 <- (x697 <- (x682 <- (x667 <- (sysex8_add_payload_byte (make_sysex8_continue_packet 62 0) 18) ;; sysex8_add_payload_byte x667 122) ;; sysex8_add_payload_byte x682 91) ;; sysex8_add_payload_byte x697 42) ;; sysex8_add_payload_byte x712 99) ;; sysex8_add_payload_byte x727 246) ;; sysex8_add_payload_byte x742 175) ;; sysex8_add_payload_byte x757 52) ;; word x768 2%nat) ;; Ok (Z.eqb 4138677248 x769));
    (x771 <- (x770 <- (x757 <- (x742 <- (x727 <- (x712 <- (x697 <- (x682 <- (x667 <- (sysex8_add_payload_byte (make_sysex8_continue_packet 62 0) 18) ;; sysex8_add_payload_byte x667 122) ;; sysex8_add_payload_byte x682 91) ;; sysex8_add_payload_byte x697 42) ;; sysex8_add_payload_byte x712 99) ;; sysex8_add_payload_byte x727 246) ;; sysex8_add_payload_byte x742 175) ;; sysex8_add_payload_byte x757 52) ;; word x770 3%nat) ;; Ok (Z.eqb 0 x771));
    (x774 <- (x773 <- (x772 <- (x757 <- (x742 <- (x727 <- (x712 <- (x697 <- (x682 <- (x667 <- (sysex8_add_payload_byte (make_sysex8_continue_packet 62 0) 18) ;; sysex8_add_payload_byte x667 122) ;; sysex8_add_payload_byte x682 91) ;; sysex8_add_payload_byte x697 42) ;; sysex8_add_payload_byte x712 99) ;; sysex8_add_payload_byte x727 246) ;; sysex8_add_payload_byte x742 175) ;; sysex8_add_payload_byte x757 52) ;; sysex8_add_payload_byte x772 78) ;; get_byte x773 11%nat) ;; Ok (Z.eqb 78 x774));
    (x776 <- (x775 <- (x772 <- (x757 <- (x742 <- (x727 <- (x712 <- (x697 <- (x682 <- (x667 <- (sysex8_add_payload_byte (make_sysex8_continue_packet 62 0) 18) ;; sysex8_add_payload_byte x667 122) ;; sysex8_add_payload_byte x682 91) ;; sysex8_add_payload_byte x697 42) ;; sysex8_add_payload_byte x712 99) ;; sysex8_add_payload_byte x727 246) ;; sysex8_add_payload_byte x742 175) ;; sysex8_add_payload_byte x757 52) ;; sysex8_add_payload_byte x772 78) ;; sysex8_payload_byte x775 8%nat) ;; Ok (Z.eqb 78 x776));
    (x778 <- (n_ <- (x777 <- (x772 <- (x757 <- (x742 <- (x727 <- (x712 <- (x697 <- (x682 <- (x667 <- (sysex8_add_payload_byte (make_sysex8_continue_packet 62 0) 18) ;; sysex8_add_payload_byte x667 122) ;; sysex8_add_payload_byte x682 91) ;; sysex8_add_payload_byte x697 42) ;; sysex8_add_payload_byte x712 99) ;; sysex8_add_payload_byte x727 246) ;; sysex8_add_payload_byte x742 175) ;; sysex8_add_payload_byte x757 52) ;; sysex8_add_payload_byte x772 78) ;; Ok (sysex8_payload_size x777)) ;; Ok (Z.of_nat n_)) ;; Ok (Z.eqb 9 x778));
    (x780 <- (x779 <- (x772 <- (x757 <- (x742 <- (x727 <- (x712 <- (x697 <- (x682 <- (x667 <- (sysex8_add_payload_byte (make_sysex8_continue_packet 62 0) 18) ;; sysex8_add_payload_byte x667 122) ;; sysex8_add_payload_byte x682 91) ;; sysex8_add_payload_byte x697 42) ;; sysex8_add_payload_byte x712 99) ;; sysex8_add_payload_byte x727 246) ;; sysex8_add_payload_byte x742 175) ;; sysex8_add_payload_byte x757 52) ;; sysex8_add_payload_byte x772 78) ;; word x779 0%nat) ;; Ok (Z.eqb 1344945682 x780));
    (x782 <- (x781 <- (x772 <- (x757 <- (x742 <- (x727 <- (x712 <- (x697 <- (x682 <- (x667 <- (sysex8_add_payload_byte (make_sysex8_continue_packet 62 0) 18) ;; sysex8_add_payload_byte x667 122) ;; sysex8_add_payload_byte x682 91) ;; sysex8_add_payload_byte x697 42) ;; sysex8_add_payload_byte x712 99) ;; sysex8_add_payload_byte x727 246) ;; sysex8_add_payload_byte x742 175) ;; sysex8_add_payload_byte x757 52) ;; sysex8_add_payload_byte x772 78) ;; word x781 1%nat) ;; Ok (Z.eqb 2052794979 x782));
    (x784 <- (x783 <- (x772 <- (x757 <- (x742 <- (x727 <- (x712 <- (x697 <- (x682 <- (x667 <- (sysex8_add_payload_byte (make_sysex8_continue_packet 62 0) 18) ;; sysex8_add_payload_byte x667 122) ;; sysex8_add_payload_byte x682 91) ;; sysex8_add_payload_byte x697 42) ;; sysex8_add_payload_byte x712 99) ;; sysex8_add_payload_byte x727 246) ;; sysex8_add_payload_byte x742 175) ;; sysex8_add_payload_byte x757 52) ;; sysex8_add_payload_byte x772 78) ;; word x783 2%nat) ;; Ok (Z.eqb 4138677326 x784));
    (x786 <- (x785 <- (x772 <- (x757 <- (x742 <- (x727 <- (x712 <- (x697 <- (x682 <- (x667 <- (sysex8_add_payload_byte (make_sysex8_continue_packet 62 0) 18) ;; sysex8_add_payload_byte x667 122) ;; sysex8_add_payload_byte x682 91) ;; sysex8_add_payload_byte x697 42) ;; sysex8_add_payload_byte x712 99) ;; sysex8_add_payload_byte x727 246) ;; sysex8_add_payload_byte x742 175) ;; sysex8_add_payload_byte x757 52) ;; sysex8_add_payload_byte x772 78) ;; word x785 3%nat) ;; Ok (Z.eqb 0 x786));
    (x789 <- (x788 <- (x787 <- (x772 <- (x757 <- (x742 <- (x727 <- (x712 <- (x697 <- (x682 <- (x667 <- (sysex8_add_payload_byte (make_sysex8_continue_packet 62 0) 18) ;; sysex8_add_payload_byte x667 122) ;; sysex8_add_payload_byte x682 91) ;; sysex8_add_payload_byte x697 42) ;; sysex8_add_payload_byte x712 99) ;; sysex8_add_payload_byte x727 246) ;; sysex8_add_payload_byte x742 175) ;; sysex8_add_payload_byte x757 52) ;; sysex8_add_payload_byte x772 78) ;; sysex8_add_payload_byte x787 60) ;; get_byte x788 12%nat) ;; Ok (Z.eqb 60 x789));
    (x791 <- (x790 <- (x787 <- (x772 <- (x757 <- (x742 <- (x727 <- (x712 <- (x697 <- (x682 <- (x667 <- (sysex8_add_payload_byte (make_sysex8_continue_packet 62 0) 18) ;; sysex8_add_payload_byte x667 122) ;; sysex8_add_payload_byte x682 91) ;; sysex8_add_payload_byte x697 42) ;; sysex8_add_payload_byte x712 99) ;; sysex8_add_payload_byte x727 246) ;; sysex8_add_payload_byte x742 175) ;; sysex8_add_payload_byte x757 52) ;; sysex8_add_payload_byte x772 78) ;; sysex8_add_payload_byte x787 60) ;; sysex8_payload_byte x790 9%nat) ;; Ok (Z.eqb 60 x791));
    (x793 <- (n_ <- (x792 <- (x787 <- (x772 <- (x757 <- (x742 <- (x727 <- (x712 <- (x697 <- (x682 <- (x667 <- (sysex8_add_payload_byte (make_sysex8_continue_packet 62 0) 18) ;; sysex8_add_payload_byte x667 122) ;; sysex8_add_payload_byte x682 91) ;; sysex8_add_payload_byte x697 42) ;; sysex8_add_payload_byte x712 99) ;; sysex8_add_payload_byte x727 246) ;; sysex8_add_payload_byte x742 175) ;; sysex8_add_payload_byte x757 52) ;; sysex8_add_payload_byte x772 78) ;; sysex8_add_payload_byte x787 60) ;; Ok (sysex8_payload_size x792)) ;; Ok (Z.of_nat n_)) ;; Ok (Z.eqb 10 x793));
    (x795 <- (x794 <- (x787 <- (x772 <- (x757 <- (x742 <- (x727 <- (x712 <- (x697 <- (x682 <- (x667 <- (sysex8_add_payload_byte (make_sysex8_continue_packet 62 0) 18) ;; sysex8_add_payload_byte x667 122) ;; sysex8_add_payload_byte x682 91) ;; sysex8_add_payload_byte x697 42) ;; sysex8_add_payload_byte x712 99) ;; sysex8_add_payload_byte x727 246) ;; sysex8_add_payload_byte x742 175) ;; sysex8_add_payload_byte x757 52) ;; sysex8_add_payload_byte x772 78) ;; sysex8_add_payload_byte x787 60) ;; word x794 0%nat) ;; Ok (Z.eqb 1345011218 x795));
    (x797 <- (x796 <- (x787 <- (x772 <- (x757 <- (x742 <- (x727 <- (x712 <- (x697 <- (x682 <- (x667 <- (sysex8_add_payload_byte (make_sysex8_continue_packet 62 0) 18) ;; sysex8_add_payload_byte x667 122) ;; sysex8_add_payload_byte x682 91) ;; sysex8_add_payload_byte x697 42) ;; sysex8_add_payload_byte x712 99) ;; sysex8_add_payload_byte x727 246) ;; sysex8_add_payload_byte x742 175) ;; sysex8_add_payload_byte x757 52) ;; sysex8_add_payload_byte x772 78) ;; sysex8_add_payload_byte x787 60) ;; word x796 1%nat) ;; Ok (Z.eqb 2052794979 x797));
    (x799 <- (x798 <- (x787 <- (x772 <- (x757 <- (x742 <- (x727 <- (x712 <- (x697 <- (x682 <- (x667 <- (sysex8_add_payload_byte (make_sysex8_continue_packet 62 0) 18) ;; sysex8_add_payload_byte x667 122) ;; sysex8_add_payload_byte x682 91) ;; sysex8_add_payload_byte x697 42) ;; sysex8_add_payload_byte x712 99) ;; sysex8_add_payload_byte x727 246) ;; sysex8_add_payload_byte x742 175) ;; sysex8_add_payload_byte x757 52) ;; sysex8_add_payload_byte x772 78) ;; sysex8_add_payload_byte x787 60) ;; word x798 2%nat) ;; Ok (Z.eqb 4138677326 x799));
    (x801 <- (x800 <- (x787 <- (x772 <- (x757 <- (x742 <- (x727 <- (x712 <- (x697 <- (x682 <- (x667 <- (sysex8_add_payload_byte (make_sysex8_continue_packet 62 0) 18) ;; sysex8_add_payload_byte x667 122) ;; sysex8_add_payload_byte x682 91) ;; sysex8_add_payload_byte x697 42) ;; sysex8_add_payload_byte x712 99) ;; sysex8_add_payload_byte x727 246) ;; sysex8_add_payload_byte x742 175) ;; sysex8_add_payload_byte x757 52) ;; sysex8_add_payload_byte x772 78) ;; sysex8_add_payload_byte x787 60) ;; word x800 3%nat) ;; Ok (Z.eqb 1006632960 x801))].
Proof. vm_compute. repeat constructor. Qed.

(* line 491 *)
Example test_sysex8_packet_view : all_true [
    (Ok (is_sysex8_packet (mkP 1460881677 472595017 1483175557 2493756097)));
    (Ok (opt_some (as_sysex8_packet_view (mkP 1460881677 472595017 1483175557 2493756097))));
    (Ok (Z.eqb 7 (data_view_group (mkP 1460881677 472595017 1483175557 2493756097))));
    (Ok (Z.eqb 1 (sysex8_format (mkP 1460881677 472595017 1483175557 2493756097))));
    (x802 <- (sysex8_stream_id (mkP 1460881677 472595017 1483175557 2493756097)) ;; Ok (Z.eqb 73 x802));
    (x803 <- (n_ <- (Ok (sysex8_payload_size (mkP 1460881677 472595017 1483175557 2493756097))) ;; Ok (Z.of_nat n_)) ;; Ok (Z.eqb 2 x803));
    (x804 <- (sysex8_payload_byte (mkP 1460881677 472595017 1483175557 2493756097) 0%nat) ;; Ok (Z.eqb 13 x804));
    (x805 <- (sysex8_payload_byte (mkP 1460881677 472595017 1483175557 2493756097) 1%nat) ;; Ok (Z.eqb 28 x805));
    (x806 <- (sysex8_payload_byte (mkP 1460881677 472595017 1483175557 2493756097) 2%nat) ;; Ok (Z.eqb 43 x806));
    (x807 <- (sysex8_payload_byte (mkP 1460881677 472595017 1483175557 2493756097) 3%nat) ;; Ok (Z.eqb 58 x807));
    (x808 <- (sysex8_payload_byte (mkP 1460881677 472595017 1483175557 2493756097) 4%nat) ;; Ok (Z.eqb 73 x808));
    (x809 <- (sysex8_payload_byte (mkP 1460881677 472595017 1483175557 2493756097) 5%nat) ;; Ok (Z.eqb 88 x809));
    (x810 <- (sysex8_payload_byte (mkP 1460881677 472595017 1483175557 2493756097) 6%nat) ;; Ok (Z.eqb 103 x810));
    (x811 <- (sysex8_payload_byte (mkP 1460881677 472595017 1483175557 2493756097) 7%nat) ;; Ok (Z.eqb 118 x811));
    (x812 <- (sysex8_payload_byte (mkP 1460881677 472595017 1483175557 2493756097) 8%nat) ;; Ok (Z.eqb 133 x812));
    (x813 <- (sysex8_payload_byte (mkP 1460881677 472595017 1483175557 2493756097) 9%nat) ;; Ok (Z.eqb 148 x813));
    (x814 <- (sysex8_payload_byte (mkP 1460881677 472595017 1483175557 2493756097) 10%nat) ;; Ok (Z.eqb 163 x814));
    (x815 <- (sysex8_payload_byte (mkP 1460881677 472595017 1483175557 2493756097) 11%nat) ;; Ok (Z.eqb 178 x815));
    (x816 <- (sysex8_payload_byte (mkP 1460881677 472595017 1483175557 2493756097) 12%nat) ;; Ok (Z.eqb 193 x816));
    (Ok (is_sysex8_packet (mkP 1579664402 878082192 2868903936 0)));
    (Ok (opt_some (as_sysex8_packet_view (mkP 1579664402 878082192 2868903936 0))));
    (Ok (Z.eqb 14 (data_view_group (mkP 1579664402 878082192 2868903936 0))));
    (Ok (Z.eqb 2 (sysex8_format (mkP 1579664402 878082192 2868903936 0))));
    (x817 <- (sysex8_stream_id (mkP 1579664402 878082192 2868903936 0)) ;; Ok (Z.eqb 196 x817));
    (x818 <- (n_ <- (Ok (sysex8_payload_size (mkP 1579664402 878082192 2868903936 0))) ;; Ok (Z.of_nat n_)) ;; Ok (Z.eqb 6 x818));
    (x819 <- (sysex8_payload_byte (mkP 1579664402 878082192 2868903936 0) 0%nat) ;; Ok (Z.eqb 18 x819));
    (x820 <- (sysex8_payload_byte (mkP 1579664402 878082192 2868903936 0) 1%nat) ;; Ok (Z.eqb 52 x820));
    (x821 <- (sysex8_payload_byte (mkP 1579664402 878082192 2868903936 0) 2%nat) ;; Ok (Z.eqb 86 x821));
    (x822 <- (sysex8_payload_byte (mkP 1579664402 878082192 2868903936 0) 3%nat) ;; Ok (Z.eqb 120 x822));
    (x823 <- (sysex8_payload_byte (mkP 1579664402 878082192 2868903936 0) 4%nat) ;; Ok (Z.eqb 144 x823));
    (x824 <- (sysex8_payload_byte (mkP 1579664402 878082192 2868903936 0) 5%nat) ;; Ok (Z.eqb 171 x824));
    (Ok (Z.eqb 7 (data_view_group (mkP 1460798981 67305985 0 0))));
    (Ok (Z.eqb 1 (sysex8_format (mkP 1460798981 67305985 0 0))));
    (x825 <- (sysex8_stream_id (mkP 1460798981 67305985 0 0)) ;; Ok (Z.eqb 6 x825));
    (x826 <- (n_ <- (Ok (sysex8_payload_size (mkP 1460798981 67305985 0 0))) ;; Ok (Z.of_nat n_)) ;; Ok (Z.eqb 1 x826));
    (x827 <- (sysex8_payload_byte (mkP 1460798981 67305985 0 0) 0%nat) ;; Ok (Z.eqb 5 x827));
    (x828 <- (sysex8_payload_byte (mkP 1460798981 67305985 0 0) 1%nat) ;; Ok (Z.eqb 4 x828));
    (x829 <- (sysex8_payload_byte (mkP 1460798981 67305985 0 0) 2%nat) ;; Ok (Z.eqb 3 x829));
    (x830 <- (sysex8_payload_byte (mkP 1460798981 67305985 0 0) 3%nat) ;; Ok (Z.eqb 2 x830));
    (x831 <- (sysex8_payload_byte (mkP 1460798981 67305985 0 0) 4%nat) ;; Ok (Z.eqb 1 x831));
    (b_ <- (Ok (opt_some (as_sysex8_packet_view (mkP 0 0 0 0)))) ;; Ok (negb b_));
    (b_ <- (Ok (opt_some (as_sysex8_packet_view (mkP 305419896 0 0 0)))) ;; Ok (negb b_));
    (b_ <- (Ok (opt_some (as_sysex8_packet_view (mkP 591751049 0 0 0)))) ;; Ok (negb b_));
    (b_ <- (Ok (opt_some (as_sysex8_packet_view (mkP 878082202 0 0 0)))) ;; Ok (negb b_));
    (b_ <- (Ok (opt_some (as_sysex8_packet_view (mkP 1164413355 0 0 0)))) ;; Ok (negb b_));
    (b_ <- (Ok (opt_some (as_sysex8_packet_view (mkP 1737075661 0 0 0)))) ;; Ok (negb b_));
    (b_ <- (Ok (opt_some (as_sysex8_packet_view (mkP 2023406814 0 0 0)))) ;; Ok (negb b_));
    (b_ <- (Ok (opt_some (as_sysex8_packet_view (mkP 2309737967 0 0 0)))) ;; Ok (negb b_));
    (b_ <- (Ok (opt_some (as_sysex8_packet_view (mkP 2596069104 0 0 0)))) ;; Ok (negb b_));
    (b_ <- (Ok (opt_some (as_sysex8_packet_view (mkP 2882400001 0 0 0)))) ;; Ok (negb b_));
    (b_ <- (Ok (opt_some (as_sysex8_packet_view (mkP 3168727058 0 0 0)))) ;; Ok (negb b_));
    (b_ <- (Ok (opt_some (as_sysex8_packet_view (mkP 3454992675 0 0 0)))) ;; Ok (negb b_));
    (b_ <- (Ok (opt_some (as_sysex8_packet_view (mkP 3740275252 0 0 0)))) ;; Ok (negb b_));
    (b_ <- (Ok (opt_some (as_sysex8_packet_view (mkP 4009829189 0 0 0)))) ;; Ok (negb b_));
    (b_ <- (Ok (opt_some (as_sysex8_packet_view (mkP 4027724886 0 0 0)))) ;; Ok (negb b_))].
Proof. vm_compute. repeat constructor. Qed.

(* line 574 *)
Example test_make_sysex8_complete_packet : all_true [
    (Ok (Z.eqb 5 (type (make_sysex8_complete_packet 99 0))));
    (Ok (Z.eqb 0 (group (make_sysex8_complete_packet 99 0))));
    (Ok (Z.eqb 1 (status (make_sysex8_complete_packet 99 0))));
    (x832 <- (sysex8_stream_id (make_sysex8_complete_packet 99 0)) ;; Ok (Z.eqb 99 x832));
    (x833 <- (n_ <- (Ok (sysex8_payload_size (make_sysex8_complete_packet 99 0))) ;; Ok (Z.of_nat n_)) ;; Ok (Z.eqb 0 x833));
    (Ok (is_extended_data_packet (make_sysex8_complete_packet 99 0)));
    (Ok (is_sysex8_packet (make_sysex8_complete_packet 99 0)));
    (Ok (Z.eqb 5 (type (make_sysex8_complete_packet 7 5))));
    (Ok (Z.eqb 5 (group (make_sysex8_complete_packet 7 5))));
    (Ok (Z.eqb 1 (status (make_sysex8_complete_packet 7 5))));
    (x834 <- (sysex8_stream_id (make_sysex8_complete_packet 7 5)) ;; Ok (Z.eqb 7 x834));
    (x835 <- (n_ <- (Ok (sysex8_payload_size (make_sysex8_complete_packet 7 5))) ;; Ok (Z.of_nat n_)) ;; Ok (Z.eqb 0 x835));
    (Ok (is_extended_data_packet (make_sysex8_complete_packet 7 5)));
    (Ok (is_sysex8_packet (make_sysex8_complete_packet 7 5)))].
Proof. vm_compute. repeat constructor. Qed.

(* line 607 *)
Example test_make_sysex8_start_packet : all_true [
    (Ok (Z.eqb 5 (type (make_sysex8_start_packet 32 0))));
    (Ok (Z.eqb 0 (group (make_sysex8_start_packet 32 0))));
    (Ok (Z.eqb 17 (status (make_sysex8_start_packet 32 0))));
    (x836 <- (sysex8_stream_id (make_sysex8_start_packet 32 0)) ;; Ok (Z.eqb 32 x836));
    (x837 <- (n_ <- (Ok (sysex8_payload_size (make_sysex8_start_packet 32 0))) ;; Ok (Z.of_nat n_)) ;; Ok (Z.eqb 0 x837));
    (Ok (is_extended_data_packet (make_sysex8_start_packet 32 0)));
    (Ok (is_sysex8_packet (make_sysex8_start_packet 32 0)));
    (Ok (Z.eqb 5 (type (make_sysex8_start_packet 240 15))));
    (Ok (Z.eqb 15 (group (make_sysex8_start_packet 240 15))));
    (Ok (Z.eqb 17 (status (make_sysex8_start_packet 240 15))));
    (x838 <- (sysex8_stream_id (make_sysex8_start_packet 240 15)) ;; Ok (Z.eqb 240 x838));
    (x839 <- (n_ <- (Ok (sysex8_payload_size (make_sysex8_start_packet 240 15))) ;; Ok (Z.of_nat n_)) ;; Ok (Z.eqb 0 x839));
    (Ok (is_extended_data_packet (make_sysex8_start_packet 240 15)));
    (Ok (is_sysex8_packet (make_sysex8_start_packet 240 15)))].
Proof. vm_compute. repeat constructor. Qed.

(* line 640 *)
Example test_make_sysex8_continue_packet : all_true [
    (Ok (Z.eqb 5 (type (make_sysex8_continue_packet 77 0))));
    (Ok (Z.eqb 0 (group (make_sysex8_continue_packet 77 0))));
    (Ok (Z.eqb 33 (status (make_sysex8_continue_packet 77 0))));
    (x840 <- (sysex8_stream_id (make_sysex8_continue_packet 77 0)) ;; Ok (Z.eqb 77 x840));
    (x841 <- (n_ <- (Ok (sysex8_payload_size (make_sysex8_continue_packet 77 0))) ;; Ok (Z.of_nat n_)) ;; Ok (Z.eqb 0 x841));
    (Ok (is_extended_data_packet (make_sysex8_continue_packet 77 0)));
    (Ok (is_sysex8_packet (make_sysex8_continue_packet 77 0)));
    (Ok (Z.eqb 5 (type (make_sysex8_continue_packet 0 9))));
    (Ok (Z.eqb 9 (group (make_sysex8_continue_packet 0 9))));
    (Ok (Z.eqb 33 (status (make_sysex8_continue_packet 0 9))));
    (x842 <- (sysex8_stream_id (make_sysex8_continue_packet 0 9)) ;; Ok (Z.eqb 0 x842));
    (x843 <- (n_ <- (Ok (sysex8_payload_size (make_sysex8_continue_packet 0 9))) ;; Ok (Z.of_nat n_)) ;; Ok (Z.eqb 0 x843));
    (Ok (is_extended_data_packet (make_sysex8_continue_packet 0 9)));
    (Ok (is_sysex8_packet (make_sysex8_continue_packet 0 9)))].
Proof. vm_compute. repeat constructor. Qed.

(* line 673 *)
Example test_make_sysex8_end_packet : all_true [
    (Ok (Z.eqb 5 (type (make_sysex8_end_packet 255 0))));
    (Ok (Z.eqb 0 (group (make_sysex8_end_packet 255 0))));
    (Ok (Z.eqb 49 (status (make_sysex8_end_packet 255 0))));
    (x844 <- (sysex8_stream_id (make_sysex8_end_packet 255 0)) ;; Ok (Z.eqb 255 x844));
    (x845 <- (n_ <- (Ok (sysex8_payload_size (make_sysex8_end_packet 255 0))) ;; Ok (Z.of_nat n_)) ;; Ok (Z.eqb 0 x845));
    (Ok (is_extended_data_packet (make_sysex8_end_packet 255 0)));
    (Ok (is_sysex8_packet (make_sysex8_end_packet 255 0)));
    (Ok (Z.eqb 5 (type (make_sysex8_end_packet 24 1))));
    (Ok (Z.eqb 1 (group (make_sysex8_end_packet 24 1))));
    (Ok (Z.eqb 49 (status (make_sysex8_end_packet 24 1))));
    (x846 <- (sysex8_stream_id (make_sysex8_end_packet 24 1)) ;; Ok (Z.eqb 24 x846));
    (x847 <- (n_ <- (Ok (sysex8_payload_size (make_sysex8_end_packet 24 1))) ;; Ok (Z.of_nat n_)) ;; Ok (Z.eqb 0 x847));
    (Ok (is_extended_data_packet (make_sysex8_end_packet 24 1)));
    (Ok (is_sysex8_packet (make_sysex8_end_packet 24 1)))].
Proof. vm_compute. repeat constructor. Qed.

(* ==== tests/system_message_tests.cpp ==== *)


(* line 36 *)
Example test_constructors___ : all_true [
    (Ok (is_system_message (mkP 0x10000000 0 0 0)));
    (x848 <- (word (mkP 0x10000000 0 0 0) 0%nat) ;; Ok (Z.eqb 268435456 x848));
    (x849 <- (word (mkP 0x10000000 0 0 0) 1%nat) ;; Ok (Z.eqb 0 x849));
    (x850 <- (word (mkP 0x10000000 0 0 0) 2%nat) ;; Ok (Z.eqb 0 x850));
    (x851 <- (word (mkP 0x10000000 0 0 0) 3%nat) ;; Ok (Z.eqb 0 x851));
    (x852 <- (n_ <- (Ok (psize (mkP 0x10000000 0 0 0))) ;; Ok (Z.of_nat n_)) ;; Ok (Z.eqb 1 x852));
    (Ok (Z.eqb 1 (type (mkP 0x10000000 0 0 0))));
    (Ok (Z.eqb 0 (status (mkP 0x10000000 0 0 0))));
    (Ok (Z.eqb 0 (group (mkP 0x10000000 0 0 0))));
    (Ok (is_system_message (make_system_message 4 248 0 0)));
    (x853 <- (word (make_system_message 4 248 0 0) 0%nat) ;; Ok (Z.eqb 351797248 x853));
    (x854 <- (word (make_system_message 4 248 0 0) 1%nat) ;; Ok (Z.eqb 0 x854));
    (x855 <- (word (make_system_message 4 248 0 0) 2%nat) ;; Ok (Z.eqb 0 x855));
    (x856 <- (word (make_system_message 4 248 0 0) 3%nat) ;; Ok (Z.eqb 0 x856));
    (x857 <- (n_ <- (Ok (psize (make_system_message 4 248 0 0))) ;; Ok (Z.of_nat n_)) ;; Ok (Z.eqb 1 x857));
    (Ok (Z.eqb 1 (type (make_system_message 4 248 0 0))));
    (Ok (Z.eqb 248 (status (make_system_message 4 248 0 0))));
    (Ok (Z.eqb 4 (group (make_system_message 4 248 0 0))));
    (Ok (is_system_message (make_system_message 9 241 70 0)));
    (x858 <- (word (make_system_message 9 241 70 0) 0%nat) ;; Ok (Z.eqb 435242496 x858));
    (x859 <- (word (make_system_message 9 241 70 0) 1%nat) ;; Ok (Z.eqb 0 x859));
    (x860 <- (word (make_system_message 9 241 70 0) 2%nat) ;; Ok (Z.eqb 0 x860));
    (x861 <- (word (make_system_message 9 241 70 0) 3%nat) ;; Ok (Z.eqb 0 x861));
    (x862 <- (n_ <- (Ok (psize (make_system_message 9 241 70 0))) ;; Ok (Z.of_nat n_)) ;; Ok (Z.eqb 1 x862));
    (Ok (Z.eqb 1 (type (make_system_message 9 241 70 0))));
    (Ok (Z.eqb 241 (status (make_system_message 9 241 70 0))));
    (Ok (Z.eqb 9 (group (make_system_message 9 241 70 0))));
    (Ok (is_system_message (make_system_message 12 243 66 0)));
    (x863 <- (word (make_system_message 12 243 66 0) 0%nat) ;; Ok (Z.eqb 485704192 x863));
    (x864 <- (word (make_system_message 12 243 66 0) 1%nat) ;; Ok (Z.eqb 0 x864));
    (x865 <- (word (make_system_message 12 243 66 0) 2%nat) ;; Ok (Z.eqb 0 x865));
    (x866 <- (word (make_system_message 12 243 66 0) 3%nat) ;; Ok (Z.eqb 0 x866));
    (x867 <- (n_ <- (Ok (psize (make_system_message 12 243 66 0))) ;; Ok (Z.of_nat n_)) ;; Ok (Z.eqb 1 x867));
    (Ok (Z.eqb 1 (type (make_system_message 12 243 66 0))));
    (Ok (Z.eqb 243 (status (make_system_message 12 243 66 0))));
    (Ok (Z.eqb 12 (group (make_system_message 12 243 66 0))))].
Proof. vm_compute. repeat constructor. Qed.

(* line 107 *)
Example test_system_message_view : all_true [
    (Ok (is_system_message (mkP 0x10000000 0 0 0)));
    (Ok (opt_some (as_system_message_view (mkP 0x10000000 0 0 0))));
    (Ok (Z.eqb 0 (group (mkP 0x10000000 0 0 0))));
    (Ok (Z.eqb 0 (status (mkP 0x10000000 0 0 0))));
    (Ok (Z.eqb 0 (system_data_byte_1 (mkP 0x10000000 0 0 0))));
    (Ok (Z.eqb 0 (system_data_byte_2 (mkP 0x10000000 0 0 0))));
    (Ok (Z.eqb 0 (get_song_position (mkP 0x10000000 0 0 0))));
    (Ok (is_system_message (make_system_message 5 248 0 0)));
    (Ok (opt_some (as_system_message_view (make_system_message 5 248 0 0))));
    (Ok (Z.eqb 5 (group (make_system_message 5 248 0 0))));
    (Ok (Z.eqb 248 (status (make_system_message 5 248 0 0))));
    (Ok (Z.eqb 0 (system_data_byte_1 (make_system_message 5 248 0 0))));
    (Ok (Z.eqb 0 (system_data_byte_2 (make_system_message 5 248 0 0))));
    (Ok (Z.eqb 0 (get_song_position (make_system_message 5 248 0 0))));
    (Ok (is_system_message (make_system_message 11 241 70 0)));
    (Ok (opt_some (as_system_message_view (make_system_message 11 241 70 0))));
    (Ok (Z.eqb 11 (group (make_system_message 11 241 70 0))));
    (Ok (Z.eqb 241 (status (make_system_message 11 241 70 0))));
    (Ok (Z.eqb 70 (system_data_byte_1 (make_system_message 11 241 70 0))));
    (Ok (Z.eqb 0 (system_data_byte_2 (make_system_message 11 241 70 0))));
    (Ok (Z.eqb 0 (get_song_position (make_system_message 11 241 70 0))));
    (Ok (is_system_message (make_system_message 12 243 66 0)));
    (Ok (opt_some (as_system_message_view (make_system_message 12 243 66 0))));
    (Ok (Z.eqb 12 (group (make_system_message 12 243 66 0))));
    (Ok (Z.eqb 243 (status (make_system_message 12 243 66 0))));
    (Ok (Z.eqb 66 (system_data_byte_1 (make_system_message 12 243 66 0))));
    (Ok (Z.eqb 0 (system_data_byte_2 (make_system_message 12 243 66 0))));
    (Ok (Z.eqb 0 (get_song_position (make_system_message 12 243 66 0))));
    (Ok (is_system_message (make_system_message 3 242 52 36)));
    (Ok (opt_some (as_system_message_view (make_system_message 3 242 52 36))));
    (Ok (Z.eqb 3 (group (make_system_message 3 242 52 36))));
    (Ok (Z.eqb 242 (status (make_system_message 3 242 52 36))));
    (Ok (Z.eqb 52 (system_data_byte_1 (make_system_message 3 242 52 36))));
    (Ok (Z.eqb 36 (system_data_byte_2 (make_system_message 3 242 52 36))));
    (Ok (Z.eqb 4660 (get_song_position (make_system_message 3 242 52 36))));
    (b_ <- (Ok (opt_some (as_system_message_view (mkP 554770995 0 0 0)))) ;; Ok (negb b_))].
Proof. vm_compute. repeat constructor. Qed.

(* line 193 *)
Example test_make_system_message : all_true [
    (packet_eq (mkP 435319913 0 0 0) (make_system_message 9 242 116 105));
    (Ok (is_system_message (make_system_message 9 242 116 105)));
    (Ok (opt_some (as_system_message_view (make_system_message 9 242 116 105))));
    (Ok (Z.eqb 9 (group (make_system_message 9 242 116 105))));
    (Ok (Z.eqb 242 (status (make_system_message 9 242 116 105))));
    (Ok (Z.eqb 116 (system_data_byte_1 (make_system_message 9 242 116 105))));
    (Ok (Z.eqb 105 (system_data_byte_2 (make_system_message 9 242 116 105))));
    (Ok (Z.eqb 13556 (get_song_position (make_system_message 9 242 116 105))));
    (packet_eq (mkP 351355648 0 0 0) (make_system_message 4 241 67 0));
    (Ok (is_system_message (make_system_message 4 241 67 0)));
    (Ok (opt_some (as_system_message_view (make_system_message 4 241 67 0))));
    (Ok (Z.eqb 4 (group (make_system_message 4 241 67 0))));
    (Ok (Z.eqb 241 (status (make_system_message 4 241 67 0))));
    (Ok (Z.eqb 67 (system_data_byte_1 (make_system_message 4 241 67 0))));
    (Ok (Z.eqb 0 (system_data_byte_2 (make_system_message 4 241 67 0))));
    (Ok (Z.eqb 0 (get_song_position (make_system_message 4 241 67 0))));
    (packet_eq (mkP 486014976 0 0 0) (make_system_message 12 248 0 0));
    (Ok (is_system_message (make_system_message 12 248 0 0)));
    (Ok (opt_some (as_system_message_view (make_system_message 12 248 0 0))));
    (Ok (Z.eqb 12 (group (make_system_message 12 248 0 0))));
    (Ok (Z.eqb 248 (status (make_system_message 12 248 0 0))));
    (Ok (Z.eqb 0 (system_data_byte_1 (make_system_message 12 248 0 0))));
    (Ok (Z.eqb 0 (system_data_byte_2 (make_system_message 12 248 0 0))));
    (Ok (Z.eqb 0 (get_song_position (make_system_message 12 248 0 0))))].
Proof. vm_compute. repeat constructor. Qed.

(* line 248 *)
Example test_make_song_position_message : all_true [
    (packet_eq (mkP 334640164 0 0 0) (make_song_position_message 3 4660));
    (Ok (is_system_message (make_song_position_message 3 4660)));
    (Ok (opt_some (as_system_message_view (make_song_position_message 3 4660))));
    (Ok (Z.eqb 3 (group (make_song_position_message 3 4660))));
    (Ok (Z.eqb 242 (status (make_song_position_message 3 4660))));
    (Ok (Z.eqb 52 (system_data_byte_1 (make_song_position_message 3 4660))));
    (Ok (Z.eqb 36 (system_data_byte_2 (make_song_position_message 3 4660))));
    (Ok (Z.eqb 4660 (get_song_position (make_song_position_message 3 4660))));
    (packet_eq (mkP 502430325 0 0 0) (make_song_position_message 13 64250));
    (Ok (is_system_message (make_song_position_message 13 64250)));
    (Ok (opt_some (as_system_message_view (make_song_position_message 13 64250))));
    (Ok (Z.eqb 13 (group (make_song_position_message 13 64250))));
    (Ok (Z.eqb 242 (status (make_song_position_message 13 64250))));
    (Ok (Z.eqb 122 (system_data_byte_1 (make_song_position_message 13 64250))));
    (Ok (Z.eqb 117 (system_data_byte_2 (make_song_position_message 13 64250))));
    (Ok (Z.eqb 15098 (get_song_position (make_song_position_message 13 64250))))].
Proof. vm_compute. repeat constructor. Qed.

(* ==== tests/utility_message_tests.cpp ==== *)


(* line 14 *)
Example test_constructors____ : all_true [
    (x868 <- (word packet0 0%nat) ;; Ok (Z.eqb 0 x868));
    (x869 <- (word packet0 1%nat) ;; Ok (Z.eqb 0 x869));
    (x870 <- (word packet0 2%nat) ;; Ok (Z.eqb 0 x870));
    (x871 <- (word packet0 3%nat) ;; Ok (Z.eqb 0 x871));
    (x872 <- (n_ <- (Ok (psize packet0)) ;; Ok (Z.of_nat n_)) ;; Ok (Z.eqb 1 x872));
    (Ok (Z.eqb 0 (type packet0)));
    (Ok (Z.eqb 0 (status packet0)));
    (x873 <- (word (make_utility_message 16 0) 0%nat) ;; Ok (Z.eqb 1048576 x873));
    (x874 <- (word (make_utility_message 16 0) 1%nat) ;; Ok (Z.eqb 0 x874));
    (x875 <- (word (make_utility_message 16 0) 2%nat) ;; Ok (Z.eqb 0 x875));
    (x876 <- (word (make_utility_message 16 0) 3%nat) ;; Ok (Z.eqb 0 x876));
    (x877 <- (n_ <- (Ok (psize (make_utility_message 16 0))) ;; Ok (Z.of_nat n_)) ;; Ok (Z.eqb 1 x877));
    (Ok (Z.eqb 0 (type (make_utility_message 16 0))));
    (Ok (Z.eqb 16 (status (make_utility_message 16 0))));
    (x878 <- (word (make_utility_message 32 43981) 0%nat) ;; Ok (Z.eqb 2141133 x878));
    (x879 <- (word (make_utility_message 32 43981) 1%nat) ;; Ok (Z.eqb 0 x879));
    (x880 <- (word (make_utility_message 32 43981) 2%nat) ;; Ok (Z.eqb 0 x880));
    (x881 <- (word (make_utility_message 32 43981) 3%nat) ;; Ok (Z.eqb 0 x881));
    (x882 <- (n_ <- (Ok (psize (make_utility_message 32 43981))) ;; Ok (Z.of_nat n_)) ;; Ok (Z.eqb 1 x882));
    (Ok (Z.eqb 0 (type (make_utility_message 32 43981))));
    (Ok (Z.eqb 32 (status (make_utility_message 32 43981))))].
Proof. vm_compute. repeat constructor. Qed.

(* line 60 *)
Example test_view : all_true [
    (x884 <- (x883 <- (utility_view packet0) ;; Ok (status x883)) ;; Ok (Z.eqb 0 x884));
    (x886 <- (x885 <- (utility_view packet0) ;; Ok (utility_payload x885)) ;; Ok (Z.eqb 0 x886));
    (x888 <- (x887 <- (utility_view (make_utility_message 16 0)) ;; Ok (status x887)) ;; Ok (Z.eqb 16 x888));
    (x890 <- (x889 <- (utility_view (make_utility_message 16 0)) ;; Ok (utility_payload x889)) ;; Ok (Z.eqb 0 x890));
    (x892 <- (x891 <- (utility_view (make_utility_message 32 43981)) ;; Ok (status x891)) ;; Ok (Z.eqb 32 x892));
    (x894 <- (x893 <- (utility_view (make_utility_message 32 43981)) ;; Ok (utility_payload x893)) ;; Ok (Z.eqb 43981 x894))].
Proof. vm_compute. repeat constructor. Qed.

(* line 91 *)
Example test_make_utility_message : all_true [
    (packet_eq (mkP 1111193 0 0 0) (make_utility_message 16 62617));
    (x896 <- (x895 <- (utility_view (make_utility_message 16 62617)) ;; Ok (status x895)) ;; Ok (Z.eqb 16 x896));
    (x898 <- (x897 <- (utility_view (make_utility_message 16 62617)) ;; Ok (utility_payload x897)) ;; Ok (Z.eqb 62617 x898));
    (packet_eq (mkP 2103244 0 0 0) (make_utility_message 32 6092));
    (x900 <- (x899 <- (utility_view (make_utility_message 32 6092)) ;; Ok (status x899)) ;; Ok (Z.eqb 32 x900));
    (x902 <- (x901 <- (utility_view (make_utility_message 32 6092)) ;; Ok (utility_payload x901)) ;; Ok (Z.eqb 6092 x902))].
Proof. vm_compute. repeat constructor. Qed.

(* line 118 *)
Example test_utility_message_view : all_true [
    (packet_eq (mkP 1111193 0 0 0) (make_utility_message 16 62617));
    (x904 <- (x903 <- (utility_view (make_utility_message 16 62617)) ;; Ok (status x903)) ;; Ok (Z.eqb 16 x904));
    (x906 <- (x905 <- (utility_view (make_utility_message 16 62617)) ;; Ok (utility_payload x905)) ;; Ok (Z.eqb 62617 x906))].
Proof. vm_compute. repeat constructor. Qed.
