(* Properties C33 to C38 *)
From Coq Require Import ZArith List Bool.
From Verif Require Import Base Packet PacketSpec Types ChannelVoice VoiceSpec VoiceChecks
  VoiceProofs VoiceTranslate VoiceGetters.
Import ListNotations.
Local Open Scope Z_scope.

(* ---- C33 -------------------------------------------------------------------- *)

(* the translation is exactly the specified one *)
Theorem C33_translation_to_midi2 : forall g ch m, address g ch -> m1_ok m ->
  to_midi2 (layout1 g ch m) = Ok (option_map (layout2 g ch) (translate_to_midi2 m)).
Proof. exact to_midi2_layout. Qed.
Print Assumptions C33_translation_to_midi2.

Theorem C33_round_trip : forall g ch m q, address g ch -> m1_ok m ->
  to_midi2 (layout1 g ch m) = Ok (Some q) -> to_midi1 q = Some (layout1 g ch (without_zero_velocity m)).
Proof. exact round_trip. Qed.
Print Assumptions C33_round_trip.

Theorem C33_only_reserved_controllers_do_not_translate : forall g ch m, address g ch -> m1_ok m ->
  (to_midi2 (layout1 g ch m) = Ok None <->
   exists c v, m = ControlChange1 c v /\ In c reserved_controllers).
Proof. exact untranslatable. Qed.
Print Assumptions C33_only_reserved_controllers_do_not_translate.

(* no packet makes the translation fail or overflow *)
Theorem C33_translation_is_total : forall p, exists o, to_midi2 p = Ok o.
Proof. exact to_midi2_total. Qed.
Print Assumptions C33_translation_is_total.

Example C33_ex :
  address 3 5 /\ m1_ok (NoteOn1 60 100) /\
  layout1 3 5 (NoteOn1 60 100) = mkP 0x23953C64 0 0 0 /\
  to_midi2 (layout1 3 5 (NoteOn1 60 100)) = Ok (Some (mkP 0x43953C00 0xC9240000 0 0)) /\
  to_midi1 (mkP 0x43953C00 0xC9240000 0 0) = Some (mkP 0x23953C64 0 0 0) /\
  to_midi2 (layout1 3 5 (NoteOn1 60 0)) = Ok (Some (mkP 0x43853C00 0x80000000 0 0)) /\
  to_midi1 (mkP 0x43853C00 0x80000000 0 0) = Some (mkP 0x23853C40 0 0 0) /\
  to_midi2 (layout1 3 5 (ControlChange1 99 1)) = Ok None.
Proof. repeat split; vm_compute; congruence. Qed.

(* ---- C34 -------------------------------------------------------------------- *)

(* any packet at all: only MIDI 2 channel voice packets translate, to a valid MIDI 1
   message of the same kind, group and channel; note-ons keep a velocity, and no controller with
   a special meaning in MIDI 1 comes out *)
Theorem C34_result_is_valid : forall p q, wf_packet p -> to_midi1 p = Some q ->
  w0 p / 268435456 = 4 /\
  exists m, m1_ok m /\ q = layout1 (w0 p / 16777216 mod 16) (w0 p / 65536 mod 16) m /\
    m1_kind m = 16 * (w0 p / 1048576 mod 16) /\
    (forall n v, m = NoteOn1 n v -> 1 <= v) /\
    (forall c v, m = ControlChange1 c v -> ~ In c reserved_controllers).
Proof. exact to_midi1_any. Qed.
Print Assumptions C34_result_is_valid.

(* on valid MIDI 2 messages the translation is exactly the specified one *)
Theorem C34_translation_to_midi1 : forall g ch m, address g ch -> m2_ok m -> attribute_7bit m ->
  to_midi1 (layout2 g ch m) = option_map (layout1 g ch) (translate_to_midi1 m).
Proof. exact to_midi1_layout. Qed.
Print Assumptions C34_translation_to_midi1.

(* the restriction is needed: attribute type 0x80 is taken for no attribute *)
Theorem C34_attribute_0x80_refuted : exists g ch m, address g ch /\ m2_ok m /\
  translate_to_midi1 m = None /\ to_midi1 (layout2 g ch m) <> None.
Proof.
  exists 0, 0, (NoteOn2 60 0x8000 0x80 0x1234).
  repeat split; vm_compute; congruence.
Qed.
Print Assumptions C34_attribute_0x80_refuted.

Example C34_ex :
  to_midi1 (mkP 0x4090FFFF 0 0 0) = None /\
  to_midi1 (mkP 0x4093FF00 0x00123456 0 0) = Some (mkP 0x20937F01 0 0 0) /\
  to_midi1 (mkP 0x4F27FFFF 5 6 7) = None /\
  to_midi1 (mkP 0x4FE7FFFF 0xFFFFFFFF 6 7) = Some (mkP 0x2FE77F7F 0 0 0) /\
  to_midi1 (mkP 0x20937F01 0 0 0) = None /\
  attribute_7bit (NoteOn2 60 1 3 9).
Proof. repeat split; vm_compute; congruence. Qed.

(* ---- C35 -------------------------------------------------------------------- *)

Theorem C35_predicates_agree : forall g ch m q, address g ch -> m1_ok m ->
  to_midi2 (layout1 g ch m) = Ok (Some q) ->
  forall f, In f agnostic_predicates -> f (layout1 g ch m) = f q.
Proof. exact predicates_agree. Qed.
Print Assumptions C35_predicates_agree.

Theorem C35_getters_agree : forall g ch m q, address g ch -> m1_ok m ->
  to_midi2 (layout1 g ch m) = Ok (Some q) -> getters_agree (layout1 g ch m) q m.
Proof. exact translation_agrees. Qed.
Print Assumptions C35_getters_agree.

(* and they agree on the expected values *)
Theorem C35_values : forall g ch m, address g ch -> m1_ok m -> getters1_ok (layout1 g ch m) m.
Proof. exact getters1. Qed.
Print Assumptions C35_values.

Example C35_ex :
  let p := layout1 0 2 (NoteOn1 64 0) in
  let q := mkP 0x40824000 0x80000000 0 0 in
  to_midi2 p = Ok (Some q) /\
  map (fun f => f p) agnostic_predicates = [false; true; false; false; false; false; false] /\
  map (fun f => f q) agnostic_predicates = [false; true; false; false; false; false; false] /\
  get_note_velocity p = 0x8000 /\ get_note_velocity q = 0x8000 /\
  get_channel_pitch_bend_value (layout1 0 2 (PitchBend1 10000)) = Ok 0x9C40E207.
Proof. repeat split; vm_compute; congruence. Qed.

(* ---- C36 -------------------------------------------------------------------- *)

Theorem C36_at_most_one_kind : forall p,
  (length (filter (fun f => f p) kind_predicates) <= 1)%nat.
Proof. exact at_most_one. Qed.
Print Assumptions C36_at_most_one_kind.

Theorem C36_midi1_has_a_kind : forall p, type p = 2 -> 0x80 <= status p < 0xF0 ->
  length (filter (fun f => f p) kind_predicates) = 1%nat.
Proof. exact exactly_one. Qed.
Print Assumptions C36_midi1_has_a_kind.

(* exactly which packets are note-ons and note-offs, by the bits of the first word *)
Theorem C36_note_on : forall p, wf_packet p ->
  (is_note_on_message p = true <->
   w0 p / 1048576 mod 16 = 9 /\
   ((w0 p / 268435456 = 2 /\ w0 p mod 256 <> 0) \/ w0 p / 268435456 = 4)).
Proof. exact note_on_spec. Qed.
Print Assumptions C36_note_on.

Theorem C36_note_off : forall p, wf_packet p ->
  (is_note_off_message p = true <->
   (w0 p / 1048576 mod 16 = 8 /\ (w0 p / 268435456 = 2 \/ w0 p / 268435456 = 4)) \/
   (w0 p / 1048576 mod 16 = 9 /\ w0 p / 268435456 = 2 /\ w0 p mod 256 = 0)).
Proof. exact note_off_spec. Qed.
Print Assumptions C36_note_off.

(* every other kind is decided by the message type and the status nibble *)
Theorem C36_other_kinds : forall p st, wf_packet p -> 0 <= st < 16 ->
  (is_channel_voice_message_with_status p (16 * st) = true <->
   (w0 p / 268435456 = 2 \/ w0 p / 268435456 = 4) /\ w0 p / 1048576 mod 16 = st).
Proof. exact cvs_spec. Qed.
Print Assumptions C36_other_kinds.

Example C36_ex :
  is_note_off_message (mkP 0x20903C00 0 0 0) = true /\ is_note_on_message (mkP 0x20903C00 0 0 0) = false /\
  is_note_on_message (mkP 0x40903C00 0 0 0) = true /\ is_note_off_message (mkP 0x40903C00 0 0 0) = false /\
  is_note_on_message (mkP 0x10903C00 0 0 0) = false /\
  length (filter (fun f => f (mkP 0x40203C00 0 0 0)) kind_predicates) = 1%nat /\
  length (filter (fun f => f (mkP 0x40703C00 0 0 0)) kind_predicates) = 0%nat.
Proof. repeat split; vm_compute; congruence. Qed.

(* ---- C37 -------------------------------------------------------------------- *)

(* constructors of MIDI 1 messages; high resolution values keep their top bits *)
Theorem C37_midi1_constructors : forall g ch, address g ch -> forall n v w,
  is_u7 n -> is_u16 v -> is_u32 w ->
  make_midi1_note_off g ch n v = layout1 g ch (NoteOff1 n (v / 512)) /\
  make_midi1_note_on g ch n v = layout1 g ch (NoteOn1 n (v / 512)) /\
  make_midi1_poly_pressure g ch n w = layout1 g ch (PolyPressure1 n (w / 33554432)) /\
  make_midi1_control_change g ch n w = layout1 g ch (ControlChange1 n (w / 33554432)) /\
  make_midi1_program_change g ch n = layout1 g ch (ProgramChange1 n) /\
  make_midi1_channel_pressure g ch w = layout1 g ch (ChannelPressure1 (w / 33554432)) /\
  make_midi1_pitch_bend g ch w = layout1 g ch (PitchBend1 (w / 262144)).
Proof.
  intros g ch HA n v w Hn Hv Hw.
  repeat split;
    [apply mk1_note_off|apply mk1_note_on|apply mk1_poly|apply mk1_cc|apply mk1_program
    |apply mk1_pressure|apply mk1_bend]; assumption.
Qed.
Print Assumptions C37_midi1_constructors.

Theorem C37_midi2_note_constructors : forall g ch, address g ch -> forall n v a d,
  is_u7 n -> is_u16 v -> is_u8 a -> is_u16 d ->
  make_midi2_note_off g ch n v a d = layout2 g ch (NoteOff2 n v a d) /\
  make_midi2_note_on g ch n v = layout2 g ch (NoteOn2 n v 0 0) /\
  make_midi2_note_on_attribute g ch n v a d = layout2 g ch (NoteOn2 n v a d) /\
  make_midi2_note_on_pitch g ch n v d = layout2 g ch (NoteOn2 n v 3 d).
Proof.
  intros g ch HA n v a d Hn Hv Ha Hd.
  repeat split; [apply mk2_note_off|apply mk2_note_on|apply mk2_note_on_attribute|apply mk2_note_on_pitch];
    assumption.
Qed.
Print Assumptions C37_midi2_note_constructors.

Theorem C37_midi2_controller_constructors : forall g ch, address g ch -> forall n b i k v s,
  is_u7 n -> is_u7 b -> is_u8 i -> is_u7 k ->
  make_registered_per_note_controller g ch n i v = layout2 g ch (RegisteredPerNote n i v) /\
  make_assignable_per_note_controller g ch n i v = layout2 g ch (AssignablePerNote n i v) /\
  make_registered_controller g ch b k v = layout2 g ch (RegisteredCtrl b k v) /\
  make_assignable_controller g ch b k v = layout2 g ch (AssignableCtrl b k v) /\
  make_relative_registered_controller g ch b k s = layout2 g ch (RelRegisteredCtrl b k s) /\
  make_relative_assignable_controller g ch b k s = layout2 g ch (RelAssignableCtrl b k s) /\
  make_midi2_control_change g ch k v = layout2 g ch (ControlChange2 k v).
Proof.
  intros g ch HA n b i k v s Hn Hb Hi Hk.
  repeat split; [apply mk2_rpn|apply mk2_apn|apply mk2_rc|apply mk2_ac|apply mk2_rrc|apply mk2_rac|apply mk2_cc];
    assumption.
Qed.
Print Assumptions C37_midi2_controller_constructors.

Theorem C37_midi2_other_constructors : forall g ch, address g ch -> forall n k v f,
  is_u7 n -> is_u14 k -> is_u8 f ->
  make_midi2_poly_pressure g ch n v = layout2 g ch (PolyPressure2 n v) /\
  make_midi2_program_change g ch n = layout2 g ch (ProgramChange2 n None) /\
  make_midi2_program_change_bank g ch n k = layout2 g ch (ProgramChange2 n (Some k)) /\
  make_midi2_channel_pressure g ch v = layout2 g ch (ChannelPressure2 v) /\
  make_midi2_pitch_bend g ch v = layout2 g ch (PitchBend2 v) /\
  make_per_note_pitch_bend g ch n v = layout2 g ch (PerNotePitchBend n v) /\
  make_per_note_management g ch n f = layout2 g ch (PerNoteManagement n f).
Proof.
  intros g ch HA n k v f Hn Hk Hf.
  repeat split; [apply mk2_poly|apply mk2_program|apply mk2_program_bank|apply mk2_pressure|apply mk2_bend
    |apply mk2_pnpb|apply mk2_pnm]; assumption.
Qed.
Print Assumptions C37_midi2_other_constructors.

(* the views accept the messages and return address, status and data bytes *)
(* the generic constructors make the same messages from kind and fields *)
Theorem C37_generic_constructors : forall g ch, address g ch ->
  (forall m, m1_ok m -> make_midi1_cv g (m1_kind m) ch (fst (m1_data m)) (snd (m1_data m)) = layout1 g ch m) /\
  (forall m, m2_ok m ->
     make_midi2_cv g (m2_kind m) ch (fst (fst (m2_fields m))) (snd (fst (m2_fields m))) (snd (m2_fields m)) = layout2 g ch m).
Proof. exact generic_constructors. Qed.
Print Assumptions C37_generic_constructors.
Example C37_generic_ex : make_midi2_cv 1 0x90 2 60 3 0x12347880 = layout2 1 2 (NoteOn2 60 0x1234 3 0x7880) /\
  make_midi1_cv 1 0xE0 2 0x10 0x4E = layout1 1 2 (PitchBend1 0x2710).
Proof. split; reflexivity. Qed.

Theorem C37_midi1_view : forall g ch m, address g ch -> m1_ok m ->
  let p := layout1 g ch m in
  as_midi1_view p = Some p /\ as_midi2_view p = None /\ group p = g /\ m1_channel p = ch /\
  m1_status p = m1_kind m /\ m1_data_byte_1 p = fst (m1_data m) /\ m1_data_byte_2 p = snd (m1_data m) /\
  (forall v, m = PitchBend1 v -> m1_get_14bit_value p = v).
Proof. exact midi1_view_ok. Qed.
Print Assumptions C37_midi1_view.

Theorem C37_midi2_view : forall g ch m, address g ch -> m2_ok m ->
  let p := layout2 g ch m in
  as_midi2_view p = Some p /\ as_midi1_view p = None /\ group p = g /\ m2_channel p = ch /\
  m2_status p = m2_kind m /\ m2_data p = snd (m2_fields m).
Proof. exact midi2_view_ok. Qed.
Print Assumptions C37_midi2_view.

(* all getters and predicates return the contents of the message *)
Theorem C37_midi2_getters : forall g ch m, address g ch -> m2_ok m -> getters2_ok (layout2 g ch m) m.
Proof. exact getters2. Qed.
Print Assumptions C37_midi2_getters.

Example C37_ex :
  m2_ok (NoteOn2 60 0x1234 3 0x7880) /\
  layout2 1 2 (NoteOn2 60 0x1234 3 0x7880) = mkP 0x41923C03 0x12347880 0 0 /\
  get_note_pitch (mkP 0x41923C03 0x12347880 0 0) = 0x7880 /\
  m2_ok (RelRegisteredCtrl 1 2 (-5)) /\
  make_relative_registered_controller 1 2 1 2 (-5) = mkP 0x41420102 0xFFFFFFFB 0 0 /\
  m2_ok (ProgramChange2 7 (Some 0x1234)) /\
  make_midi2_program_change_bank 1 2 7 0x1234 = mkP 0x41C20001 0x07002434 0 0 /\
  make_midi1_pitch_bend 1 2 0x9C40E207 = mkP 0x21E2104E 0 0 0.
Proof. repeat split; vm_compute; congruence. Qed.

(* ---- C38 -------------------------------------------------------------------- *)

(* exactly when reading a pitch bend is defined *)
Theorem C38_pitch_bend_defined : forall p, wf_packet p ->
  ((exists v, get_channel_pitch_bend_value p = Ok v) <->
   (w0 p / 268435456 <> 2 \/ w0 p mod 256 < 128)).
Proof. exact pitch_bend_defined. Qed.
Print Assumptions C38_pitch_bend_defined.

Theorem C38_getters_in_range : forall p, wf_packet p ->
  is_u7 (get_note_nr p) /\ is_u16 (get_note_pitch p) /\ is_u16 (get_note_velocity p) /\
  is_u7 (get_controller_nr p) /\ is_u32 (get_controller_value p) /\
  is_u32 (get_channel_pressure_value p) /\ is_u8 (get_program_value p).
Proof. exact getters_in_range. Qed.
Print Assumptions C38_getters_in_range.

(* the intended property is false: this packet is a pitch bend message *)
Theorem C38_pitch_bend_refuted : exists p, wf_packet p /\ is_channel_pitch_bend_message p = true /\
  get_channel_pitch_bend_value p = Fault ShiftOverflow.
Proof.
  exists (mkP 0x20E00080 0 0 0). repeat split; vm_compute; congruence.
Qed.
Print Assumptions C38_pitch_bend_refuted.

Example C38_ex :
  get_channel_pitch_bend_value (mkP 0x20E0FF7F 0 0 0) = Ok 0xFFFFFFFF /\
  get_channel_pitch_bend_value (mkP 0x20E00040 0 0 0) = Ok 0x80000000 /\
  get_program_value (mkP 0x10E00040 0 0 0) = 0xFF.
Proof. repeat split; vm_compute; congruence. Qed.

(* constructing a view of a packet of another protocol is refused by the assertion, asking for one yields none *)
Theorem C38_views : forall p,
  (if type p =? 2 then midi1_view p = Ok p /\ as_midi1_view p = Some p else midi1_view p = Fault AssertFail /\ as_midi1_view p = None) /\
  (if type p =? 4 then midi2_view p = Ok p /\ as_midi2_view p = Some p else midi2_view p = Fault AssertFail /\ as_midi2_view p = None).
Proof. exact voice_views. Qed.
Print Assumptions C38_views.
Example C38_views_ex : midi1_view (mkP 0x20903C40 0 0 0) = Ok (mkP 0x20903C40 0 0 0) /\ midi2_view (mkP 0x20903C40 0 0 0) = Fault AssertFail.
Proof. split; reflexivity. Qed.
