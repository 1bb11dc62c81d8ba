(* C66: SysEx data packets are built byte by byte and read back. *)
From Coq Require Import ZArith List Bool Lia ZifyBool.
From Verif Require Import Base Bits Packet PacketSpec PacketProofs Messages DataPackets DataSpec DataProofs.
Import ListNotations.
Local Open Scope Z_scope.

Ltac wfd := repeat split; unfold is_u32, is_u8; cbn; lia.

(* which packets are SysEx packets, and which have a view *)
Theorem C66_recognised p : wf_packet p ->
  (is_sysex7_packet p = true <-> sysex7_like p) /\ (is_sysex8_packet p = true <-> sysex8_like p) /\
  (as_sysex7_packet_view p = Some p <-> sysex7_like p) /\ (as_sysex7_packet_view p = None <-> ~ sysex7_like p) /\
  (as_sysex8_packet_view p = Some p <-> sysex8_like p) /\ (as_sysex8_packet_view p = None <-> ~ sysex8_like p).
Proof.
  intros W. pose proof (is7 p W) as A. pose proof (is8 p W) as B. unfold as_sysex7_packet_view, as_sysex8_packet_view.
  destruct (is_sysex7_packet p), (is_sysex8_packet p); intuition discriminate.
Qed.
Print Assumptions C66_recognised.
Example C66_recognised_example : let p := mkP 0x34130102 0x03000000 0 0 in wf_packet p /\ sysex7_like p /\ ~ sysex8_like p.
Proof. cbv zeta. split; [wfd|]. unfold sysex7_like, sysex8_like, at_. cbn [nth bytes word_bytes app w0 w1 w2 w3 map]. vm_compute. intuition discriminate. Qed.

(* the plain data message classes: type 3 or 5 with the given status, no group and no payload; by the type they are
   recognised *)
Theorem C66_plain_messages st : is_u8 st ->
  bytes (data_message st) = [0x30; st] ++ repeat 0 14 /\ bytes data_message0 = 0x30 :: repeat 0 15 /\
  bytes (extended_data_message st) = [0x50; st] ++ repeat 0 14 /\ bytes extended_data_message0 = 0x50 :: repeat 0 15.
Proof. exact (plain_messages st). Qed.
Print Assumptions C66_plain_messages.
Theorem C66_plain_recognised p : wf_packet p ->
  (is_data_packet p = true <-> at_ p 0 / 16 = 3) /\ (is_extended_data_packet p = true <-> at_ p 0 / 16 = 5).
Proof. exact (plain_recognised p). Qed.
Print Assumptions C66_plain_recognised.
Example C66_plain_example : is_u8 0x95 /\ wf_packet (mkP 0x5F950000 0 0 0) /\
  is_extended_data_packet (mkP 0x5F950000 0 0 0) = true /\ is_data_packet (mkP 0x5F950000 0 0 0) = false.
Proof. split; [unfold is_u8; lia|]. split; [wfd|]. split; reflexivity. Qed.

(* reading: every accessor gives the field of the packet it is named after *)
Theorem C66_read_sysex7 p : sysex7_like p ->
  data_view_group p = at_ p 0 mod 16 /\ sysex7_format p = at_ p 1 / 16 /\ sysex7_view_status p = 16 * (at_ p 1 / 16) /\
  sysex7_payload_size p = length (payload7 p) /\ (length (payload7 p) <= 6)%nat /\
  forall i, (i < length (payload7 p))%nat -> sysex7_payload_byte p i = Ok (nth i (payload7 p) 0).
Proof. exact (read7 p). Qed.
Print Assumptions C66_read_sysex7.
Example C66_read_sysex7_example : let p := mkP 0x34130102 0x03000000 0 0 in sysex7_like p /\ payload7 p = [1; 2; 3].
Proof. cbv zeta. unfold sysex7_like. vm_compute. intuition discriminate. Qed.

Theorem C66_read_sysex8 p : sysex8_like p ->
  data_view_group p = at_ p 0 mod 16 /\ sysex8_format p = at_ p 1 / 16 /\ sysex8_stream_id p = Ok (at_ p 2) /\
  sysex8_payload_size p = length (payload8 p) /\ (length (payload8 p) <= 13)%nat /\
  forall i, (i < length (payload8 p))%nat -> sysex8_payload_byte p i = Ok (nth i (payload8 p) 0).
Proof. exact (read8 p). Qed.
Print Assumptions C66_read_sysex8.
Example C66_read_sysex8_example : let p := mkP 0x543409F1 0xF2F30000 0 0 in sysex8_like p /\ payload8 p = [0xF1; 0xF2; 0xF3].
Proof. cbv zeta. unfold sysex8_like. vm_compute. intuition discriminate. Qed.

(* adding a byte appends it to the payload (SysEx 7: its low seven bits) and changes nothing else *)
Theorem C66_add_sysex7 p b : wf_packet p -> sysex7_like p -> is_u8 b -> (length (payload7 p) < 6)%nat ->
  exists q, sysex7_add_payload_byte p b = Ok q /\ wf_packet q /\ sysex7_like q /\
    payload7 q = payload7 p ++ [b mod 128] /\ at_ q 1 / 16 = at_ p 1 / 16 /\ same_but [1; 2 + length (payload7 p)]%nat p q.
Proof. exact (add7 p b). Qed.
Print Assumptions C66_add_sysex7.
Example C66_add_sysex7_example : let p := mkP 0x34130102 0x03000000 0 0 in wf_packet p /\ sysex7_like p /\ length (payload7 p) = 3%nat.
Proof. cbv zeta. split; [wfd|]. unfold sysex7_like. vm_compute. intuition discriminate. Qed.

Theorem C66_add_sysex8 p b : wf_packet p -> sysex8_like p -> is_u8 b -> (length (payload8 p) < 13)%nat ->
  exists q, sysex8_add_payload_byte p b = Ok q /\ wf_packet q /\ sysex8_like q /\
    payload8 q = payload8 p ++ [b] /\ at_ q 1 / 16 = at_ p 1 / 16 /\ same_but [1; 3 + length (payload8 p)]%nat p q.
Proof. exact (add8 p b). Qed.
Print Assumptions C66_add_sysex8.
Example C66_add_sysex8_example : let p := mkP 0x543409F1 0xF2F30000 0 0 in wf_packet p /\ sysex8_like p /\ length (payload8 p) = 3%nat.
Proof. cbv zeta. split; [wfd|]. unfold sysex8_like. vm_compute. intuition discriminate. Qed.

(* a full packet takes no more bytes: the assertion fails *)
Theorem C66_full p b :
  (sysex7_like p -> length (payload7 p) = 6%nat -> sysex7_add_payload_byte p b = Fault AssertFail) /\
  (sysex8_like p -> length (payload8 p) = 13%nat -> sysex8_add_payload_byte p b = Fault AssertFail).
Proof. exact (conj (full7 p b) (full8 p b)). Qed.
Print Assumptions C66_full.
Example C66_full_example :
  (sysex7_like (mkP 0x30060102 0x03040506 0 0) /\ length (payload7 (mkP 0x30060102 0x03040506 0 0)) = 6%nat) /\
  sysex8_like (mkP 0x500E0001 2 3 4) /\ length (payload8 (mkP 0x500E0001 2 3 4)) = 13%nat.
Proof. unfold sysex7_like, sysex8_like. vm_compute. intuition discriminate. Qed.

(* building: an empty packet of any kind, then byte after byte, gives exactly these bytes *)
Theorem C66_build_sysex7 k make g l : In (k, make) sysex7_makers -> 0 <= g < 16 -> Forall is_u8 l -> (length l <= 6)%nat ->
  exists p q, make g = Ok p /\ add_all sysex7_add_payload_byte p l = Ok q /\ wf_packet q /\ sysex7_like q /\
    bytes q = [0x30 + g; 16 * k + Z.of_nat (length l)] ++ map (fun b => b mod 128) l ++ repeat 0 (14 - length l).
Proof. exact (build7 k make g l). Qed.
Print Assumptions C66_build_sysex7.
Example C66_build_sysex7_example : In (1, make_sysex7_start_packet) sysex7_makers /\ Forall is_u8 [0x7E; 0xFF; 6].
Proof. split; [right; left; reflexivity|]. repeat (apply Forall_cons; [unfold is_u8; lia|]). constructor. Qed.

Theorem C66_build_sysex8 k make s g l : In (k, make) sysex8_makers -> is_u8 s -> 0 <= g < 16 -> Forall is_u8 l -> (length l <= 13)%nat ->
  exists q, add_all sysex8_add_payload_byte (make s g) l = Ok q /\ wf_packet q /\ sysex8_like q /\
    bytes q = [0x50 + g; 16 * k + 1 + Z.of_nat (length l); s] ++ l ++ repeat 0 (13 - length l).
Proof. exact (build8 k make s g l). Qed.
Print Assumptions C66_build_sysex8.
Example C66_build_sysex8_example : In (3, make_sysex8_end_packet) sysex8_makers /\ Forall is_u8 [0x7E; 0xFF; 6].
Proof. split; [do 3 right; left; reflexivity|]. repeat (apply Forall_cons; [unfold is_u8; lia|]). constructor. Qed.

(* packets made without arguments are empty complete packets of group 0 (and stream 0) *)
Theorem C66_default : bytes sysex7_packet_default = 0x30 :: repeat 0 15 /\ sysex7_like sysex7_packet_default /\
  bytes sysex8_packet_default = [0x50; 1] ++ repeat 0 14 /\ sysex8_like sysex8_packet_default.
Proof. unfold sysex7_like, sysex8_like. vm_compute. intuition discriminate. Qed.
Print Assumptions C66_default.

(* the other setters change their field only *)
Theorem C66_set_payload_size p n : wf_packet p ->
  ((n <= 6)%nat -> exists q, sysex7_set_payload_size p n = Ok q /\ wf_packet q /\
     at_ q 1 = 16 * (at_ p 1 / 16) + Z.of_nat n /\ same_but [1%nat] p q) /\
  ((6 < n)%nat -> sysex7_set_payload_size p n = Fault AssertFail) /\
  ((n <= 13)%nat -> exists q, sysex8_set_payload_size p n = Ok q /\ wf_packet q /\
     at_ q 1 = 16 * (at_ p 1 / 16) + Z.of_nat n + 1 /\ same_but [1%nat] p q) /\
  ((13 < n)%nat -> sysex8_set_payload_size p n = Fault AssertFail).
Proof. exact (set_sizes p n). Qed.
Print Assumptions C66_set_payload_size.

Theorem C66_set_payload_byte p i d : wf_packet p -> is_u8 d ->
  ((i < 14)%nat -> exists q, sysex7_set_payload_byte p i d = Ok q /\ wf_packet q /\
     sysex7_payload_byte q i = Ok (d mod 128) /\ same_but [(2 + i)%nat] p q) /\
  ((i < 13)%nat -> exists q, sysex8_set_payload_byte p i d = Ok q /\ wf_packet q /\
     sysex8_payload_byte q i = Ok d /\ same_but [(3 + i)%nat] p q).
Proof. exact (set_payload_bytes p i d). Qed.
Print Assumptions C66_set_payload_byte.

(* positions outside of the packet are rejected, for reading and writing (positions are not wrapped
   at 2^64 in the model) *)
Theorem C66_outside p i d :
  ((14 <= i)%nat -> sysex7_set_payload_byte p i d = Fault AssertFail /\ sysex7_payload_byte p i = Fault AssertFail) /\
  ((13 <= i)%nat -> sysex8_set_payload_byte p i d = Fault AssertFail /\ sysex8_payload_byte p i = Fault AssertFail).
Proof. exact (payload_outside p i d). Qed.
Print Assumptions C66_outside.

Theorem C66_set_stream_id p s : wf_packet p -> is_u8 s ->
  exists q, sysex8_set_stream_id p s = Ok q /\ wf_packet q /\ sysex8_stream_id q = Ok s /\ same_but [2%nat] p q.
Proof. exact (set_stream p s). Qed.
Print Assumptions C66_set_stream_id.
Example C66_setters_example : wf_packet (mkP 0x500E0001 2 3 4) /\ is_u8 200.
Proof. wfd. Qed.

(* groups above 15 are not rejected for SysEx 8, but make a packet of another type *)
Theorem C66_group_checked_refuted : exists g s, is_u8 g /\ is_u8 s /\
  is_sysex8_packet (make_sysex8_complete_packet s g) = false.
Proof. exists 32, 1. vm_compute. intuition discriminate. Qed.
Print Assumptions C66_group_checked_refuted.
(* while SysEx 7 packets assert them *)
Theorem C66_group_asserted k make g : In (k, make) sysex7_makers -> 16 <= g -> make g = Fault AssertFail.
Proof. exact (group_asserted k make g). Qed.
Print Assumptions C66_group_asserted.
Example C66_group_asserted_example : In (2, make_sysex7_continue_packet) sysex7_makers /\ make_sysex7_continue_packet 16 = Fault AssertFail.
Proof. split; [do 2 right; left; reflexivity|reflexivity]. Qed.
