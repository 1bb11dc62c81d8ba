(* The client the documentation shows: a handler for channel voice messages, fed with packets, or
   with MIDI 1 bytes by way of the parser. *)
From Coq Require Import ZArith List Bool.
From Verif Require Import Base Packet Messages Sysex ByteStream Collector Types ChannelVoice.
Import ListNotations.
Local Open Scope Z_scope.
Local Open Scope res_scope.

(* calls of the handlers of docs/channel_voice_message.examples.cpp:153-159 *)
Inductive voice_call : Type :=
| AllocateVoice (note velocity pitch : Z)
| ReleaseVoice (note velocity : Z)
| VoicePressure (note value : Z)
| VoiceController (note index value : Z)
| VoicePitchBend (note value : Z)
| ChannelController (controller value : Z)
| ChannelPitchBend (value : Z).

(* docs/channel_voice_message.examples.cpp:149-189 channel_voice_message_processor *)
Definition processor (p : packet) : res (list voice_call) :=
  if is_note_on_message p then Ok [AllocateVoice (get_note_nr p) (get_note_velocity p) (get_note_pitch p)]
  else if is_note_off_message p then Ok [ReleaseVoice (get_note_nr p) (get_note_velocity p)]
  else if is_poly_pressure_message p then Ok [VoicePressure (get_note_nr p) (get_poly_pressure_value p)]
  else if is_registered_per_note_controller_message p then
    Ok [VoiceController (get_note_nr p) (get_per_note_controller_index p) (get_controller_value p)]
  else if is_per_note_pitch_bend_message p then Ok [VoicePitchBend (get_note_nr p) (get_per_note_pitch_bend_value p)]
  else if is_control_change_message p then Ok [ChannelController (get_controller_nr p) (get_controller_value p)]
  else if is_channel_pitch_bend_message p then v <- get_channel_pitch_bend_value p ;; Ok [ChannelPitchBend v]
  else Ok [].

(* docs/midi1_byte_stream.examples.cpp:10-11 process_packet, process_sysex7 *)
Fixpoint process_events (es : list event) : res (list voice_call) :=
  match es with
  | [] => Ok []
  | EPacket p :: es' => r <- processor p ;; r' <- process_events es' ;; Ok (r ++ r')
  | ESysex _ :: es' => process_events es'
  end.

(* docs/midi1_byte_stream.examples.cpp:3-18, any bytes instead of those; also returns the parser *)
Definition process_bytes (st : parser) (bs : list Z) : res (parser * list voice_call) :=
  r <- feed_all st bs ;; r' <- process_events (snd r) ;; Ok (fst r, r').

(* docs/sysex_collector.examples.cpp:9-17, 19-27 and README.md: packets are filtered before they are fed *)
Definition filtered7 (a : allocator) (c : collector7) (p : packet) : res (collector7 * list sysex) :=
  if is_sysex7_packet p then c7_feed a c p else Ok (c, []).
Definition filtered8 (a : allocator) (c : collector8) (p : packet) : res (collector8 * list (sysex * Z)) :=
  if is_sysex8_packet p then c8_feed a c p else Ok (c, []).
