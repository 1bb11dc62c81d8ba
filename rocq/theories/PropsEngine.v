(* C96: the pitch of sounding notes. *)
From Coq Require Import ZArith List Bool Lia.
From Verif Require Import Base Packet PacketSpec Types ByteStream StreamSpec StreamCalls ChannelVoice VoiceSpec ReceiverSpec
  Engine EngineSpec EngineProofs EngineBytesSpec EngineBytesProofs.
Import ListNotations.
Local Open Scope Z_scope.

(* After any messages, of either protocol and mixed, every note of every channel sounds at the pitch its messages ask for,
   or not at all. *)
Theorem C96_pitch : forall ms, Forall message_ok ms ->
  exists e, play (map message_packet ms) = Ok e /\ forall g ch n, heard e g ch n = Ok (sounds g ch n (history ms)).
Proof. exact played. Qed.
Print Assumptions C96_pitch.

(* Translating any of the MIDI 1 messages to MIDI 2 is not heard. *)
Theorem C96_protocols : forall ms ps, Forall message_ok ms ->
  Forall2 (fun m q => q = message_packet m \/ to_midi2 (message_packet m) = Ok (Some q)) ms ps ->
  play ps = play (map message_packet ms).
Proof. intros ms ps F R. exact (upgraded ps ms silent F R). Qed.
Print Assumptions C96_protocols.

(* A MIDI 2 performance without means of expression that MIDI 1 lacks, translated to MIDI 1, sounds within 2^-12 of a
   semitone (0.025 cent), with the same notes sounding at any time. *)
Theorem C96_through_midi1 : forall ms qs, Forall message_ok ms -> Forall passes ms ->
  Forall2 (fun m q => to_midi1 (message_packet m) = Some q) ms qs ->
  exists e e', play (map message_packet ms) = Ok e /\ play qs = Ok e' /\
    forall g ch n, (heard e g ch n = Ok None /\ heard e' g ch n = Ok None) \/
      exists p p', heard e g ch n = Ok (Some p) /\ heard e' g ch n = Ok (Some p') /\ Z.abs (p' - p) <= 8192.
Proof. exact through_midi1. Qed.
Print Assumptions C96_through_midi1.

(* Whatever packets arrive, all pitches are defined and in range; undefined is a MIDI 1 pitch bend with an eight-bit data
   byte only. *)
Theorem C96_any_packets : forall ps, Forall wf_packet ps ->
  (Forall (fun p => ~ bad_packet p) ps ->
    exists e, play ps = Ok e /\ forall g ch n, exists o, heard e g ch n = Ok o /\ forall p, o = Some p -> is_u32 p) /\
  (Exists bad_packet ps -> exists f, play ps = Fault f).
Proof. exact any_packets. Qed.
Print Assumptions C96_any_packets.

(* The same of MIDI 1 bytes that a parser converts: whatever a parser received before, channel messages with and without
   running status, between system messages and with real-time bytes anywhere, sound as their messages ask for. *)
Theorem C96_from_bytes : forall g cb st ms a b performance, reached g cb st -> renders g None ms a -> with_realtime g a b ->
  filter is_cv ms = map wire_message performance -> Forall (fun x => 0 <= fst x < 16 /\ m1_ok (snd x)) performance ->
  exists st' out e, feed_all st (map fst b) = Ok (st', out) /\ play (packets_out out) = Ok e /\
  forall g' ch n, heard e g' ch n = Ok (sounds g' ch n (history (map (fun x => Midi1 g (fst x) (snd x)) performance))).
Proof. exact from_bytes. Qed.
Print Assumptions C96_from_bytes.

(* Whatever bytes a parser gets and however it is called, the engine behind it always has defined pitches in range. *)
Theorem C96_any_bytes : forall g cb on cs, 0 <= g < 16 -> Forall valid_call cs ->
  exists st out e, parser_calls (new_parser g cb on) cs = Ok (st, out) /\ play (packets_out out) = Ok e /\
  forall g' ch n, exists o, heard e g' ch n = Ok o /\ forall p, o = Some p -> is_u32 p.
Proof. exact any_bytes. Qed.
Print Assumptions C96_any_bytes.

(* two notes with running status, a clock byte within the second, and a bend *)
Definition played_bytes : list Z := [0x93; 60; 100; 64; 0xF8; 90; 0xF6; 0xE3; 0; 32].
Example C96_ex_bytes : exists a b, renders 5 None
    [wire_message (3, NoteOn1 60 100); wire_message (3, NoteOn1 64 90); mkMsg 0xF6 []; wire_message (3, PitchBend1 4096)] a /\
  with_realtime 5 a b /\ map fst b = played_bytes /\
  sounds 5 3 64 (history [Midi1 5 3 (NoteOn1 60 100); Midi1 5 3 (NoteOn1 64 90); Midi1 5 3 (PitchBend1 4096)]) = Some (63 * 33554432).
Proof.
  eexists _, _. split; [|split; [|split]].
  - apply renders_full; [|apply (renders_running 5 (wire_message (3, NoteOn1 64 90))); [|reflexivity|apply renders_full; [|apply renders_full; [|apply renders_nil]]]];
      (split; cbn; [first [left; split; [lia|reflexivity]|right; reflexivity]|repeat constructor; unfold is_u7; lia]).
  - cbn. do 4 apply wr_keep. apply (wr_insert 5 0xF8); [reflexivity|lia|]. do 5 apply wr_keep. apply wr_nil.
  - reflexivity.
  - vm_compute. reflexivity.
Qed.

(* two notes of one channel, one tuned by its attribute and bent alone, and a third on another channel *)
Definition melody : list heard_message :=
  [Midi2 0 3 (NoteOn2 60 40000 0 0); Midi1 0 4 (NoteOn1 60 100); Midi2 0 3 (NoteOn2 64 30000 3 32800);
   Midi2 0 3 (RegisteredCtrl 0 0 (12 * 33554432 + 5)); Midi1 0 3 (PitchBend1 12288); Midi2 0 3 (RegisteredCtrl 0 7 33554432);
   Midi2 0 3 (PerNotePitchBend 64 0); Midi1 0 4 (ControlChange1 6 1); Midi1 0 4 (NoteOn1 60 0)].
Example C96_ex : Forall message_ok melody /\
  sounds 0 3 60 (history melody) = Some (60 * 33554432 + 201351171) /\
  sounds 0 3 64 (history melody) = Some (32800 * 65536 + 201351171 - 33554432) /\
  sounds 0 4 60 (history melody) = None.
Proof.
  split; [|split; [|split]]; [|reflexivity|reflexivity|reflexivity].
  repeat constructor; cbn; unfold is_u7, is_u8, is_u14, is_u16, is_u32; lia.
Qed.
Example C96_ex_midi1 : exists qs, Forall2 (fun m q => to_midi1 (message_packet m) = Some q)
    [Midi2 1 2 (NoteOn2 127 5 0 0); Midi2 1 2 (PitchBend2 0x7FFFFFFF)] qs /\
  Forall passes [Midi2 1 2 (NoteOn2 127 5 0 0); Midi2 1 2 (PitchBend2 0x7FFFFFFF)].
Proof. eexists. split; [repeat constructor|repeat constructor; discriminate]. Qed.
