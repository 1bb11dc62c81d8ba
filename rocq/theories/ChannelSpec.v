(* What it means that the channel of a message influences nothing else. *)
From Coq Require Import ZArith List Bool.
From Verif Require Import Base Packet ByteStream ChannelVoice.
Import ListNotations.
Local Open Scope Z_scope.

(* the packet with another channel: bits 16 to 19 of the first word *)
Definition in_channel (c : Z) (p : packet) : packet :=
  mkP (w0 p / 1048576 * 1048576 + c * 65536 + w0 p mod 65536) (w1 p) (w2 p) (w3 p).

(* channel voice messages of either protocol, by their packet type *)
Definition voice_packet (p : packet) : Prop :=
  wf_packet p /\ (w0 p / 268435456 = 2 \/ w0 p / 268435456 = 4).

(* channels renamed by f *)
Definition channels_to_channels (f : Z -> Z) : Prop := forall c, 0 <= c < 16 -> 0 <= f c < 16.
Definition rechannel (f : Z -> Z) (p : packet) : packet :=
  if w0 p / 268435456 =? 2 then in_channel (f (w0 p / 65536 mod 16)) p else p.
Definition rechannel_event (f : Z -> Z) (e : event) : event :=
  match e with EPacket p => EPacket (rechannel f p) | ESysex s => ESysex s end.
Definition rechannel_byte (f : Z -> Z) (b : Z) : Z :=
  if (0x80 <=? b) && (b <? 0xF0) then b / 16 * 16 + f (b mod 16) else b.
Definition rechannel_call (f : Z -> Z) (c : parser_call) : parser_call :=
  match c with CFeed bs => CFeed (map (rechannel_byte f) bs) | _ => c end.

(* what can be asked of a channel voice message, other than its channel *)
Definition voice_yes_no : list (packet -> bool) :=
  [is_utility_message; is_system_message; is_channel_voice_message; is_data_message; is_midi1_protocol_message; has_channel;
   is_midi1_channel_voice_message; is_midi2_channel_voice_message;
   is_note_on_message; is_note_off_message; is_poly_pressure_message; is_control_change_message;
   is_program_change_message; is_channel_pressure_message; is_channel_pitch_bend_message;
   is_registered_controller_message; is_assignable_controller_message;
   is_registered_per_note_controller_message; is_registered_per_note_controller_pitch_message;
   is_assignable_per_note_controller_message; is_per_note_pitch_bend_message;
   is_note_on_with_pitch_7_9; is_pitch_bend_sensitivity_message; is_per_note_pitch_bend_sensitivity_message].
Definition voice_numbers : list (packet -> Z) :=
  [type; group; (fun p => Z.of_nat (psize p)); m1_status; m1_data_byte_1; m1_data_byte_2; m1_get_14bit_value;
   m2_status; m2_byte3; m2_byte4; m2_data;
   get_per_note_controller_index; get_midi2_note_attribute; get_midi2_note_attribute_data;
   get_pitch_bend_sensitivity_value; get_per_note_pitch_bend_sensitivity_value; get_per_note_pitch_bend_value;
   get_note_nr; get_note_pitch; get_note_velocity; get_controller_value; get_poly_pressure_value; get_controller_nr;
   get_program_value; get_channel_pressure_value; (fun p => Z.of_nat (midi1_byte_stream_size p))].

(* the first byte with another channel *)
Definition first_in_channel (c : Z) (bs : list Z) : list Z :=
  match bs with [] => [] | s :: ds => s / 16 * 16 + c :: ds end.
