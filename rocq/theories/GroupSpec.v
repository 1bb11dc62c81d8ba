(* What it means that the group of a packet influences nothing else. *)
From Coq Require Import ZArith List Bool.
From Verif Require Import Base Packet Messages Sysex DataPackets Utility ByteStream ChannelVoice Collector StreamSpec VoiceSpec.
Import ListNotations.
Local Open Scope Z_scope.

(* the packet with another group: bits 24 to 27 of the first word *)
Definition in_group (g : Z) (p : packet) : packet :=
  mkP (w0 p / 268435456 * 268435456 + g * 16777216 + w0 p mod 16777216) (w1 p) (w2 p) (w3 p).

(* groups renamed by f *)
Definition groups_to_groups (f : Z -> Z) : Prop := forall g, 0 <= g < 16 -> 0 <= f g < 16.
Definition regroup (f : Z -> Z) (p : packet) : packet := in_group (f (w0 p / 16777216 mod 16)) p.
Definition regroup_event (f : Z -> Z) (e : event) : event :=
  match e with EPacket p => EPacket (regroup f p) | ESysex s => ESysex s end.
Definition regroup_call (f : Z -> Z) (c : parser_call) : parser_call :=
  match c with CSetGroup g => CSetGroup (f g) | _ => c end.

(* the same calls of a collector, the packets with whatever group *)
Inductive same_call : collector_call -> collector_call -> Prop :=
| same_feed p g : wf_packet p -> 0 <= g < 16 -> same_call (KFeed p) (KFeed (in_group g p))
| same_other k : (forall p, k <> KFeed p) -> same_call k k.

(* what can be asked of a packet, other than its group *)
Definition yes_no_questions : list (packet -> bool) :=
  [is_utility_message; is_system_message; is_channel_voice_message; is_data_message; is_midi1_protocol_message;
   is_data_packet; is_extended_data_packet; is_sysex7_packet; is_sysex8_packet; has_channel;
   is_midi1_channel_voice_message; is_midi2_channel_voice_message;
   is_note_on_message; is_note_off_message; is_poly_pressure_message; is_control_change_message;
   is_program_change_message; is_channel_pressure_message; is_channel_pitch_bend_message;
   is_registered_controller_message; is_assignable_controller_message;
   is_registered_per_note_controller_message; is_registered_per_note_controller_pitch_message;
   is_assignable_per_note_controller_message; is_per_note_pitch_bend_message;
   is_note_on_with_pitch_7_9; is_pitch_bend_sensitivity_message; is_per_note_pitch_bend_sensitivity_message].
Definition number_questions : list (packet -> Z) :=
  [type; status; (fun p => Z.of_nat (psize p)); utility_payload; system_data_byte_1; system_data_byte_2; get_song_position;
   sysex7_format; sysex8_format; (fun p => Z.of_nat (sysex7_payload_size p)); (fun p => Z.of_nat (sysex8_payload_size p));
   m1_status; m1_channel; m1_data_byte_1; m1_data_byte_2; m1_get_14bit_value;
   m2_status; m2_channel; m2_byte3; m2_byte4; m2_data;
   get_per_note_controller_index; get_midi2_note_attribute; get_midi2_note_attribute_data;
   get_pitch_bend_sensitivity_value; get_per_note_pitch_bend_sensitivity_value; get_per_note_pitch_bend_value;
   get_note_nr; get_note_pitch; get_note_velocity; get_controller_value; get_poly_pressure_value; get_controller_nr;
   get_program_value; get_channel_pressure_value; (fun p => Z.of_nat (midi1_byte_stream_size p))].
Definition checked_questions : list (packet -> res Z) :=
  [channel; jr_get_timestamp; sysex8_stream_id; get_channel_pitch_bend_value].
