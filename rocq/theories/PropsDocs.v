(* C77 *)
From Coq Require Import ZArith List Bool Lia.
From Verif Require Import Base Packet PacketSpec Messages Sysex ByteStream Collector Types ChannelVoice VoiceSpec StreamSpec
  Docs DocsSpec DocsProofs.
Import ListNotations.
Local Open Scope Z_scope.

(* A MIDI 1 message calls the one handler meant for it, with its contents at full resolution. *)
Theorem C77_midi1 : forall g ch m, address g ch -> m1_ok m -> processor (layout1 g ch m) = Ok (handled1 m).
Proof. exact processor_midi1. Qed.
Print Assumptions C77_midi1.

(* So does a MIDI 2 message. *)
Theorem C77_midi2 : forall g ch m, address g ch -> m2_ok m -> processor (layout2 g ch m) = Ok (handled2 m).
Proof. exact processor_midi2. Qed.
Print Assumptions C77_midi2.

(* It does not matter of which type a message is. *)
Theorem C77_protocols : forall g ch m q, address g ch -> m1_ok m -> to_midi2 (layout1 g ch m) = Ok (Some q) ->
  processor q = processor (layout1 g ch m).
Proof. exact processor_translated. Qed.
Print Assumptions C77_protocols.

Example C77_ex : address 3 5 /\ m1_ok (NoteOn1 60 100) /\ m2_ok (NoteOn2 60 0x1234 3 0x7855) /\
  to_midi2 (layout1 3 5 (NoteOn1 60 100)) = Ok (Some (mkP 0x43953C00 0xC9240000 0 0)) /\
  processor (mkP 0x23953C64 0 0 0) = Ok [AllocateVoice 60 0xC924 0x7800] /\
  processor (mkP 0x43953C03 0x12347855 0 0) = Ok [AllocateVoice 60 0x1234 0x7855] /\
  processor (mkP 0x23C53C00 0 0 0) = Ok [].
Proof. repeat split; vm_compute; congruence. Qed.

(* Whatever packet is given, at most one handler is called, with arguments in range; only a MIDI 1 pitch
   bend whose second data byte has eight bits is undefined. *)
Theorem C77_any_packet : forall p, wf_packet p ->
  (exists l, processor p = Ok l /\ (length l <= 1)%nat /\ Forall call_ok l) \/
  (w0 p / 268435456 = 2 /\ w0 p / 1048576 mod 16 = 14 /\ 128 <= w0 p mod 256).
Proof. exact processor_any. Qed.
Print Assumptions C77_any_packet.
Theorem C77_any_packet_refuted : exists p, wf_packet p /\ processor p = Fault ShiftOverflow.
Proof. exists (mkP 0x20E00080 0 0 0). split; [repeat split; vm_compute; congruence|reflexivity]. Qed.
Print Assumptions C77_any_packet_refuted.

(* packets of other types call none *)
Theorem C77_other_packets : forall p, type p <> 2 -> type p <> 4 -> processor p = Ok [].
Proof. exact processor_other. Qed.
Print Assumptions C77_other_packets.

(* MIDI 1 bytes by way of the parser: every message of a legal stream, with or without running status and
   with real-time bytes anywhere, calls its handler once and in order. *)
Theorem C77_bytes : forall g cb st ms a b, reached g cb st -> renders g None ms a -> with_realtime g a b ->
  exists st', process_bytes st (map fst b) = Ok (st', concat (map handled ms)).
Proof. exact process_legal. Qed.
Print Assumptions C77_bytes.

(* the bytes of docs/midi1_byte_stream.examples.cpp *)
Example C77_bytes_ex :
  let ms := [mkMsg 0x90 [0x12; 0x34]; mkMsg 0xB0 [0x44; 0x75]; mkMsg 0xE0 [0x33; 0x44]; mkMsg 0xA0 [0x12; 0x60]; mkMsg 0x80 [0x12; 0x40]] in
  map fst (concat (map (render_full 0) ms)) = [0x90; 0x12; 0x34; 0xB0; 0x44; 0x75; 0xE0; 0x33; 0x44; 0xA0; 0x12; 0x60; 0x80; 0x12; 0x40] /\
  renders 0 None ms (concat (map (render_full 0) ms)) /\ reached 0 true (new_parser 0 true true) /\
  concat (map handled ms) = [AllocateVoice 0x12 0x6800 0x2400; ChannelController 0x44 0xEBAEBAEB; ChannelPitchBend 0x88CC4662;
    VoicePressure 0x12 0xC1041041; ReleaseVoice 0x12 0x8000].
Proof.
  split; [reflexivity|]. split; [|split; [|reflexivity]].
  - cbn [map concat]. repeat (apply renders_full; [split; [left; split; [cbn; lia|reflexivity]|repeat constructor; cbn; lia]|]).
    apply renders_nil.
  - exists 0, true, [], []. repeat split; try lia. constructor.
Qed.

(* Whatever bytes are fed, in whatever calls, nothing the parser posts is undefined for the handler, which
   handles each packet in turn. *)
Theorem C77_any_bytes : forall g cb on cs, 0 <= g < 16 -> Forall valid_call cs ->
  exists st out ls, parser_calls (new_parser g cb on) cs = Ok (st, out) /\
    Forall2 (fun p l => processor p = Ok l) (posted out) ls /\ process_events out = Ok (concat ls).
Proof. exact process_any. Qed.
Print Assumptions C77_any_bytes.
Example C77_any_bytes_ex : Forall valid_call [CFeed [0x12; 0xE0; 0xFF; 0x7F; 0x80; 0xF0]; CSetGroup 3; CReset].
Proof. repeat constructor; cbn; lia. Qed.

(* A note-on made for MIDI 1 calls the handler of a note-on exactly if its velocity is at least 512. *)
Theorem C77_note_on_constructors : forall g ch n v, address g ch -> is_u7 n -> is_u16 v ->
  processor (make_midi1_note_on g ch n v) = Ok (handled1 (NoteOn1 n (v / 512))) /\
  processor (make_midi2_note_on g ch n v) = Ok [AllocateVoice n v (512 * n)].
Proof. intros g ch n v A N V. split; [now apply processor_note_on1|now apply processor_note_on2]. Qed.
Print Assumptions C77_note_on_constructors.

(* a quiet one is a note-off, although the velocity is not 0 *)
Theorem C77_quiet_note_on_refuted : exists v, is_u16 v /\ 0 < v /\
  processor (make_midi1_note_on 0 0 60 v) = Ok [ReleaseVoice 60 0x8000].
Proof. exists 511. repeat split; vm_compute; congruence. Qed.
Print Assumptions C77_quiet_note_on_refuted.

(* Filtering packets before they are fed to a collector, as the documentation recommends, changes nothing. *)
Theorem C77_filters : (forall a c p, filtered7 a c p = c7_feed a c p) /\ (forall a c p, filtered8 a c p = c8_feed a c p).
Proof. exact (conj filter7 filter8). Qed.
Print Assumptions C77_filters.
