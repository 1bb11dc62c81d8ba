(* Properties C01, C02, C03 *)
From Coq Require Import ZArith List Bool Lia.
From Verif Require Import Base Packet PacketSpec PacketProofs.
Import ListNotations.
Local Open Scope Z_scope.

Definition sample_packet : packet := mkP 0x40903C11 0xC104FFEE 0xDEADBEEF 0x01020304.
Example sample_packet_wf : wf_packet sample_packet.
Proof. unfold wf_packet, is_u32; cbn; lia. Qed.

(* ---- C01 -------------------------------------------------------------------- *)

(* Reading a byte is reading the big-endian byte sequence of the four words. *)
Theorem C01_get_byte_reads_the_byte_sequence : forall p b, (b < 16)%nat ->
  get_byte p b = Ok (nth b (bytes p) 0).
Proof. exact get_byte_spec. Qed.
Print Assumptions C01_get_byte_reads_the_byte_sequence.
Example C01_get_byte_ex : (5 < 16)%nat /\ get_byte sample_packet 5 = Ok 0x04.
Proof. split; [lia|reflexivity]. Qed.

(* The named accessors read the second, third and fourth byte of that sequence. *)
Theorem C01_named_byte_accessors : forall p,
  byte2 p = nth 1 (bytes p) 0 /\ byte3 p = nth 2 (bytes p) 0 /\ byte4 p = nth 3 (bytes p) 0 /\
  status p = nth 1 (bytes p) 0.
Proof. exact named_bytes. Qed.
Print Assumptions C01_named_byte_accessors.
Example C01_named_byte_ex :
  (byte2 sample_packet, byte3 sample_packet, byte4 sample_packet) = (0x90, 0x3C, 0x11).
Proof. reflexivity. Qed.

(* Writing changes exactly that position of the byte sequence. *)
Theorem C01_set_byte_updates_the_byte_sequence : forall p b v,
  wf_packet p -> is_u8 v -> (b < 16)%nat ->
  bytes (set_byte_nd p b v) = upd (bytes p) b v /\ wf_packet (set_byte_nd p b v).
Proof. exact set_byte_nd_spec. Qed.
Print Assumptions C01_set_byte_updates_the_byte_sequence.
Example C01_set_byte_ex :
  wf_packet sample_packet /\ is_u8 0xAB /\ set_byte_nd sample_packet 6 0xAB =
  mkP 0x40903C11 0xC104ABEE 0xDEADBEEF 0x01020304.
Proof. split; [exact sample_packet_wf|split; [unfold is_u8; lia|reflexivity]]. Qed.

Theorem C01_reset : forall p, bytes (reset p) = repeat 0 16 /\ packet_eq (reset p) packet0 = Ok true.
Proof. intros p. split; reflexivity. Qed.
Print Assumptions C01_reset.
Example C01_reset_ex : bytes sample_packet <> repeat 0 16.
Proof. discriminate. Qed.

Theorem C01_set_then_get : forall p b c v,
  wf_packet p -> is_u8 v -> (b < 16)%nat -> (c < 16)%nat ->
  get_byte (set_byte_nd p b v) c = if (c =? b)%nat then Ok v else get_byte p c.
Proof. exact set_get. Qed.
Print Assumptions C01_set_then_get.

Theorem C01_last_write_wins : forall p b u v, wf_packet p -> is_u8 u -> is_u8 v ->
  set_byte_nd (set_byte_nd p b u) b v = set_byte_nd p b v.
Proof. exact set_byte_last. Qed.
Print Assumptions C01_last_write_wins.

Theorem C01_writes_commute : forall p b c u v,
  wf_packet p -> is_u8 u -> is_u8 v -> b <> c ->
  set_byte_nd (set_byte_nd p b u) c v = set_byte_nd (set_byte_nd p c v) b u.
Proof. exact set_byte_commute. Qed.
Print Assumptions C01_writes_commute.

(* release build: out of range writes are ignored *)
Theorem C01_out_of_range_write_ignored : forall p b v, (16 <= b)%nat -> set_byte_nd p b v = p.
Proof. exact set_byte_nd_oob. Qed.
Print Assumptions C01_out_of_range_write_ignored.
Example C01_oob_ex : set_byte_nd sample_packet 16 0xFF = sample_packet.
Proof. reflexivity. Qed.

(* debug build: same result, out of range indices hit the assertion *)
Theorem C01_debug_build_agrees : forall p b v,
  set_byte p b v = if (b <? 16)%nat then Ok (set_byte_nd p b v) else Fault AssertFail.
Proof. exact set_byte_cases. Qed.
Print Assumptions C01_debug_build_agrees.

Theorem C01_7bit_accessors : forall p b v, wf_packet p -> is_u8 v -> (b < 16)%nat ->
  exists q, set_byte_7bit p b v = Ok q /\ get_byte q b = Ok (v mod 128) /\
            get_byte_7bit q b = Ok (v mod 128).
Proof. exact set_7bit_get. Qed.
Print Assumptions C01_7bit_accessors.

(* the byte sequence determines the packet *)
Theorem C01_bytes_determine_packet : forall p q,
  wf_packet p -> wf_packet q -> bytes p = bytes q -> p = q.
Proof. exact bytes_inj. Qed.
Print Assumptions C01_bytes_determine_packet.

(* ---- C02 -------------------------------------------------------------------- *)

Theorem C02_equality_is_wire_equality : forall p q, wf_packet p -> wf_packet q ->
  exists b, packet_eq p q = Ok b /\ (b = true <-> wire p = wire q).
Proof. exact packet_eq_wire. Qed.
Print Assumptions C02_equality_is_wire_equality.

Theorem C02_inequality_is_wire_inequality : forall p q, wf_packet p -> wf_packet q ->
  exists b, packet_neq p q = Ok b /\ (b = true <-> wire p <> wire q).
Proof. exact packet_neq_negb. Qed.
Print Assumptions C02_inequality_is_wire_inequality.

Theorem C02_equality_is_an_equivalence :
  (forall p, wf_packet p -> packet_eq p p = Ok true) /\
  (forall p q, wf_packet p -> wf_packet q -> packet_eq p q = packet_eq q p) /\
  (forall p q r, wf_packet p -> wf_packet q -> wf_packet r ->
     packet_eq p q = Ok true -> packet_eq q r = Ok true -> packet_eq p r = Ok true).
Proof. exact packet_eq_equiv. Qed.
Print Assumptions C02_equality_is_an_equivalence.
(* different packets, equal on the wire: 2 word type, last words differ *)
Example C02_ex : packet_eq sample_packet (mkP 0x40903C11 0xC104FFEE 1 2) = Ok true /\
                 packet_eq sample_packet (mkP 0x40903C11 0xC104FFEF 0xDEADBEEF 0x01020304) = Ok false.
Proof. split; reflexivity. Qed.

(* ---- C03 -------------------------------------------------------------------- *)

Theorem C03_header_fields : forall p, wf_packet p ->
  w0 p = type p * 268435456 + group p * 16777216 + byte2 p * 65536 + byte3 p * 256 + byte4 p
  /\ 0 <= type p < 16 /\ 0 <= group p < 16 /\ is_u8 (byte2 p) /\ is_u8 (byte3 p) /\ is_u8 (byte4 p)
  /\ status p = byte2 p /\ psize p = ump_words (type p).
Proof. exact header_fields. Qed.
Print Assumptions C03_header_fields.
Example C03_ex : type sample_packet = 4 /\ group sample_packet = 0 /\ status sample_packet = 0x90 /\
                 psize sample_packet = 2%nat.
Proof. repeat split. Qed.

Theorem C03_set_type_only_changes_type : forall p t, wf_packet p -> 0 <= t < 16 ->
  exists q, set_type p t = Ok q /\ wf_packet q /\ type q = t /\ group q = group p /\
    byte2 q = byte2 p /\ byte3 q = byte3 p /\ byte4 q = byte4 p /\
    w1 q = w1 p /\ w2 q = w2 p /\ w3 q = w3 p.
Proof. exact set_type_fields. Qed.
Print Assumptions C03_set_type_only_changes_type.

Theorem C03_set_group_only_changes_group : forall p g, wf_packet p -> 0 <= g < 16 ->
  exists q, set_group p g = Ok q /\ wf_packet q /\ group q = g /\ type q = type p /\
    byte2 q = byte2 p /\ byte3 q = byte3 p /\ byte4 q = byte4 p /\
    w1 q = w1 p /\ w2 q = w2 p /\ w3 q = w3 p.
Proof. exact set_group_fields. Qed.
Print Assumptions C03_set_group_only_changes_group.
Example C03_set_group_ex : set_group sample_packet 9 = Ok (mkP 0x49903C11 0xC104FFEE 0xDEADBEEF 0x01020304).
Proof. reflexivity. Qed.

(* Finding: in a release build a group outside 0..15 overwrites the message type. *)
Theorem C03_release_set_group_out_of_range_refuted :
  exists p g, wf_packet p /\ is_u8 g /\ type (set_group_nd p g) <> type p.
Proof. exists sample_packet, 0x20. split; [exact sample_packet_wf|]. split; [unfold is_u8; lia|]. vm_compute. discriminate. Qed.
Print Assumptions C03_release_set_group_out_of_range_refuted.

Theorem C03_midi1_protocol_messages : forall p, wf_packet p ->
  (is_midi1_protocol_message p = true <->
   type p = 1 /\ defined_system_status (status p) \/ type p = 2 /\ 0x80 <= status p < 0xF0).
Proof. exact midi1_protocol_spec. Qed.
Print Assumptions C03_midi1_protocol_messages.
Example C03_midi1_ex : is_midi1_protocol_message (mkP 0x10F80000 0 0 0) = true /\
                       is_midi1_protocol_message sample_packet = false.
Proof. split; reflexivity. Qed.

(* The predicates of the kinds depend on the message type alone and exclude each other. *)
Theorem C03_kinds : forall p,
  is_utility_message p = (type p =? 0) /\ is_system_message p = (type p =? 1) /\
  (is_channel_voice_message p = true <-> type p = 2 \/ type p = 4) /\ (is_data_message p = true <-> type p = 3 \/ type p = 5) /\
  (length (filter (fun b : bool => b) [is_utility_message p; is_system_message p; is_channel_voice_message p; is_data_message p]) <= 1)%nat.
Proof.
  intros p. unfold is_utility_message, is_system_message, is_channel_voice_message, is_data_message.
  change pt_utility with 0. change pt_system with 1. change pt_midi1_channel_voice with 2. change pt_midi2_channel_voice with 4.
  change pt_data with 3. change pt_extended_data with 5.
  split; [reflexivity|]. split; [reflexivity|]. rewrite !orb_true_iff, !Z.eqb_eq. split; [tauto|]. split; [tauto|].
  destruct (Z.eqb_spec (type p) 0), (Z.eqb_spec (type p) 1), (Z.eqb_spec (type p) 2), (Z.eqb_spec (type p) 4), (Z.eqb_spec (type p) 3),
    (Z.eqb_spec (type p) 5); try congruence; cbn; lia.
Qed.
Print Assumptions C03_kinds.
Example C03_kinds_ex : is_data_message (mkP 0x30160102 0x03040506 0 0) = true /\ is_data_message (mkP 0x50010203 0 0 0) = true /\
  is_data_message sample_packet = false /\ is_channel_voice_message sample_packet = true.
Proof. repeat split; reflexivity. Qed.
