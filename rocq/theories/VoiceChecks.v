(* What the classification predicates and getters have to return on each message. *)
From Coq Require Import ZArith List Bool.
From Verif Require Import Base Packet Types ChannelVoice VoiceSpec.
Import ListNotations.
Local Open Scope Z_scope.

(* every predicate that classifies channel voice messages by kind *)
Definition kind_predicates : list (packet -> bool) :=
  [is_note_on_message; is_note_off_message; is_poly_pressure_message; is_control_change_message;
   is_program_change_message; is_channel_pressure_message; is_channel_pitch_bend_message;
   is_registered_controller_message; is_assignable_controller_message;
   is_registered_per_note_controller_message; is_assignable_per_note_controller_message;
   is_per_note_pitch_bend_message].


(* those that apply to both protocols *)
Definition agnostic_predicates : list (packet -> bool) :=
  [is_note_on_message; is_note_off_message; is_poly_pressure_message; is_control_change_message;
   is_program_change_message; is_channel_pressure_message; is_channel_pitch_bend_message].


(* what the getters return on a MIDI 1 message *)
Definition getters1_ok (p : packet) (m : m1msg) : Prop :=
  match m with
  | NoteOff1 n v =>
      get_note_nr p = n /\ get_note_pitch p = 512 * n /\ get_note_velocity p = min_center_max 7 16 v
  | NoteOn1 n v =>
      get_note_nr p = n /\ get_note_pitch p = 512 * n /\
      get_note_velocity p = if v =? 0 then 0x8000 else min_center_max 7 16 v
  | PolyPressure1 n v => get_note_nr p = n /\ get_poly_pressure_value p = min_center_max 7 32 v
  | ControlChange1 c v => get_controller_nr p = c /\ get_controller_value p = min_center_max 7 32 v
  | ProgramChange1 n => get_program_value p = n
  | ChannelPressure1 v => get_channel_pressure_value p = min_center_max 7 32 v
  | PitchBend1 v => get_channel_pitch_bend_value p = Ok (min_center_max 14 32 v)
  end.


(* what predicates, accessors and getters return on a MIDI 2 message *)
Definition getters2_ok (p : packet) (m : m2msg) : Prop :=
  match m with
  | RegisteredPerNote n i v =>
      get_note_nr p = n /\ get_per_note_controller_index p = i /\ get_controller_value p = v /\
      is_registered_per_note_controller_message p = true /\
      is_registered_per_note_controller_pitch_message p = (i =? 3)
  | AssignablePerNote n i v =>
      get_note_nr p = n /\ get_per_note_controller_index p = i /\ get_controller_value p = v /\
      is_assignable_per_note_controller_message p = true
  | RegisteredCtrl b i v =>
      m2_byte3 p = b /\ m2_byte4 p = i /\ get_controller_value p = v /\
      is_registered_controller_message p = true /\
      is_pitch_bend_sensitivity_message p = (b =? 0) && (i =? 0) /\
      is_per_note_pitch_bend_sensitivity_message p = (b =? 0) && (i =? 7) /\
      get_pitch_bend_sensitivity_value p = v / 262144 * 262144 /\
      get_per_note_pitch_bend_sensitivity_value p = v
  | AssignableCtrl b i v =>
      m2_byte3 p = b /\ m2_byte4 p = i /\ get_controller_value p = v /\
      is_assignable_controller_message p = true
  | RelRegisteredCtrl b i inc | RelAssignableCtrl b i inc =>
      m2_byte3 p = b /\ m2_byte4 p = i /\ s32 (m2_data p) = inc
  | PerNotePitchBend n v =>
      get_note_nr p = n /\ get_per_note_pitch_bend_value p = v /\ is_per_note_pitch_bend_message p = true
  | NoteOff2 n v a d =>
      get_note_nr p = n /\ get_note_velocity p = v /\ get_midi2_note_attribute p = a /\
      get_midi2_note_attribute_data p = d /\ is_note_off_message p = true /\
      (forall x, is_note_off_with_attribute p x = true <-> x = a)
  | NoteOn2 n v a d =>
      get_note_nr p = n /\ get_note_velocity p = v /\ get_midi2_note_attribute p = a /\
      get_midi2_note_attribute_data p = d /\ is_note_on_message p = true /\
      (forall x, is_note_on_with_attribute p x = true <-> x = a) /\
      is_note_on_with_pitch_7_9 p = (a =? 3) /\
      get_note_pitch p = (if a =? 3 then d else 512 * n)
  | PolyPressure2 n v => get_note_nr p = n /\ get_poly_pressure_value p = v /\ is_poly_pressure_message p = true
  | ControlChange2 c v =>
      get_controller_nr p = c /\ get_controller_value p = v /\ is_control_change_message p = true
  | ProgramChange2 n b =>
      get_program_value p = n /\ is_program_change_message p = true /\
      Z.land (m2_byte4 p) 1 = (match b with Some _ => 1 | None => 0 end)
  | ChannelPressure2 v => get_channel_pressure_value p = v /\ is_channel_pressure_message p = true
  | PitchBend2 v => get_channel_pitch_bend_value p = Ok v /\ is_channel_pitch_bend_message p = true
  | PerNoteManagement n f => get_note_nr p = n /\ byte4 p = f
  end.


(* the getters that apply to a message return the same on both packets *)
Definition getters_agree (p q : packet) (m : m1msg) : Prop :=
  match m with
  | NoteOff1 _ _ | NoteOn1 _ _ =>
      get_note_nr p = get_note_nr q /\ get_note_pitch p = get_note_pitch q /\
      get_note_velocity p = get_note_velocity q
  | PolyPressure1 _ _ =>
      get_note_nr p = get_note_nr q /\ get_poly_pressure_value p = get_poly_pressure_value q
  | ControlChange1 _ _ =>
      get_controller_nr p = get_controller_nr q /\ get_controller_value p = get_controller_value q
  | ProgramChange1 _ => get_program_value p = get_program_value q
  | ChannelPressure1 _ => get_channel_pressure_value p = get_channel_pressure_value q
  | PitchBend1 _ => get_channel_pitch_bend_value p = get_channel_pitch_bend_value q
  end.

