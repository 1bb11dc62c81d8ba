(* Properties C39 and C57 *)
From Coq Require Import ZArith List Bool.
From Verif Require Import Base Packet PacketSpec Messages Utility SystemProofs.
Import ListNotations.
Local Open Scope Z_scope.

(* ---- C39 -------------------------------------------------------------------- *)

Theorem C39_layout : forall g st d1 d2, is_u8 g -> is_u8 st -> is_u8 d1 -> is_u8 d2 ->
  make_system_message g st d1 d2 = mkP (be32 (16 + g mod 16) st d1 d2) 0 0 0.
Proof. exact system_layout. Qed.
Print Assumptions C39_layout.

Theorem C39_view : forall g st d1 d2, is_u8 g -> is_u8 st -> is_u7 d1 -> is_u7 d2 ->
  let p := make_system_message g st d1 d2 in
  as_system_message_view p = Some p /\ group p = g mod 16 /\ status p = st /\
  system_data_byte_1 p = d1 /\ system_data_byte_2 p = d2.
Proof. exact system_view_ok. Qed.
Print Assumptions C39_view.

Theorem C39_song_position : forall g pos, is_u8 g -> is_u14 pos ->
  let p := make_song_position_message g pos in
  as_system_message_view p = Some p /\ group p = g mod 16 /\ status p = 0xF2 /\
  byte3 p = pos mod 128 /\ byte4 p = pos / 128 /\ get_song_position p = pos.
Proof. exact song_position_ok. Qed.
Print Assumptions C39_song_position.

Theorem C39_no_song_position : forall p, status p <> 0xF2 -> get_song_position p = 0.
Proof. exact song_position_other. Qed.
Print Assumptions C39_no_song_position.

Example C39_ex :
  make_song_position_message 9 0x1234 = mkP 0x19F23424 0 0 0 /\
  get_song_position (mkP 0x19F23424 0 0 0) = 0x1234 /\
  get_song_position (mkP 0x19F33424 0 0 0) = 0 /\
  as_system_message_view (mkP 0x29F23424 0 0 0) = None /\
  make_system_message 2 0xF3 0x45 0 = mkP 0x12F34500 0 0 0.
Proof. repeat split. Qed.

(* ---- C57 -------------------------------------------------------------------- *)

Theorem C57_utility_messages : forall st v, is_u8 st -> is_u16 v ->
  let p := make_utility_message st v in
  utility_view p = Ok p /\ type p = 0 /\ group p = 0 /\ status p = st /\ utility_payload p = v.
Proof. exact utility_ok. Qed.
Print Assumptions C57_utility_messages.

Theorem C57_utility_layout : forall st v, is_u8 st -> is_u16 v ->
  make_utility_message st v = mkP (be32 0 st (v / 256) (v mod 256)) 0 0 0.
Proof. exact utility_layout. Qed.
Print Assumptions C57_utility_layout.

(* jitter reduction messages are utility messages that carry the whole timestamp *)
Theorem C57_jitter_reduction_messages : forall ts, is_u16 ts ->
  jr_clock_message ts = Ok (make_utility_message 0x10 ts) /\
  jr_timestamp_message ts = Ok (make_utility_message 0x20 ts) /\
  jr_get_timestamp (make_utility_message 0x10 ts) = Ok ts /\
  jr_get_timestamp (make_utility_message 0x20 ts) = Ok ts.
Proof. exact jr_messages_ok. Qed.
Print Assumptions C57_jitter_reduction_messages.

Example C57_ex :
  jr_clock_message 0xABCD = Ok (mkP 0x0010ABCD 0 0 0) /\
  utility_payload (mkP 0x0010ABCD 0 0 0) = 0xABCD /\
  utility_view (mkP 0x1010ABCD 0 0 0) = Fault AssertFail.
Proof. repeat split. Qed.
