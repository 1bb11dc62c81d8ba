(* C83: a bridge between two MIDI 1 connections *)
From Coq Require Import ZArith List Bool.
From Verif Require Import Base Packet ByteStream StreamSpec ChannelVoice BridgeSpec BridgeProofs PropsStream.
Import ListNotations.
Local Open Scope Z_scope.

(* bytes - packets - bytes: a parser in any state that gets the bytes from the bridge
   reports what a new parser reports that gets the original bytes *)
Theorem C83_unnoticed : forall cb g g' st bs, 0 <= g < 16 -> reached g' cb st -> Forall is_u8 bs ->
  exists ps bs' out st1 st2 st3,
    feed_all (new_parser g false true) bs = Ok (st1, map EPacket ps) /\
    stream_of_packets ps = Ok bs' /\ Forall is_u8 bs' /\
    feed_all (new_parser g' cb true) bs = Ok (st2, out) /\
    feed_all st bs' = Ok (st3, out).
Proof. exact bridge_plain. Qed.
Print Assumptions C83_unnoticed.

(* a second bridge sends the same packets and therefore the same bytes *)
Theorem C83_again : forall g bs ps bs' st1, 0 <= g < 16 -> Forall is_u8 bs ->
  feed_all (new_parser g false true) bs = Ok (st1, map EPacket ps) -> stream_of_packets ps = Ok bs' ->
  exists st2, feed_all (new_parser g false true) bs' = Ok (st2, map EPacket ps).
Proof. exact bridge_again. Qed.
Print Assumptions C83_again.

(* bytes - packets - MIDI 2 - MIDI 1 - bytes: only notes on with velocity 0 change *)
Theorem C83_through_midi2 : forall cb g g' st bs, 0 <= g < 16 -> reached g' cb st -> Forall is_u8 bs ->
  exists ps bs' out st1 st2 st3,
    feed_all (new_parser g false true) bs = Ok (st1, map EPacket ps) /\
    stream_of_packets (map towards_midi1 (map towards_midi2 ps)) = Ok bs' /\
    feed_all (new_parser g' cb true) bs = Ok (st2, out) /\
    feed_all st bs' = Ok (st3, map (packet_map off_for_zero) out).
Proof. exact bridge_midi2. Qed.
Print Assumptions C83_through_midi2.

(* running status, a real-time byte within a message, stray data, an interrupted SysEx *)
Definition C83_stream : list Z :=
  [1; 0x90; 60; 100; 62; 0xF8; 0; 0xF0; 0x7D; 1; 2; 3; 4; 5; 6; 0xC3; 5; 0xF7; 0xF0; 0x7D; 1; 2; 3; 4; 5; 6; 0xF7; 0xB0; 99; 1].

Example C83_ex :
  reached 5 true (sample_state true) /\
  match feed_all (new_parser 3 false true) C83_stream with
  | Ok (_, out) =>
      out = map EPacket
        [mkP 0x23903C64 0 0 0; mkP 0x13F80000 0 0 0; mkP 0x23903E00 0 0 0; mkP 0x33167D01 0x02030405 0 0;
         mkP 0x23C30500 0 0 0; mkP 0x33167D01 0x02030405 0 0; mkP 0x33310600 0 0 0; mkP 0x23B06301 0 0 0]
  | Fault _ => False
  end /\
  stream_of_packets
    [mkP 0x23903C64 0 0 0; mkP 0x13F80000 0 0 0; mkP 0x23903E00 0 0 0; mkP 0x33167D01 0x02030405 0 0;
     mkP 0x23C30500 0 0 0; mkP 0x33167D01 0x02030405 0 0; mkP 0x33310600 0 0 0; mkP 0x23B06301 0 0 0]
  = Ok [0x90; 60; 100; 0xF8; 0x90; 62; 0; 0xF0; 0x7D; 1; 2; 3; 4; 5; 0xC3; 5; 0xF0; 0x7D; 1; 2; 3; 4; 5; 6; 0xF7; 0xB0; 99; 1] /\
  towards_midi1 (towards_midi2 (mkP 0x23903E00 0 0 0)) = mkP 0x23803E40 0 0 0 /\
  towards_midi2 (mkP 0x23903C64 0 0 0) = mkP 0x43903C00 0xC9240000 0 0 /\
  towards_midi2 (mkP 0x23B06301 0 0 0) = mkP 0x23B06301 0 0 0.
Proof. split; [apply sample_reached|]. do 4 (split; [vm_compute; reflexivity|]). vm_compute; reflexivity. Qed.
