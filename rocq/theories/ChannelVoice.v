(* Model of inc/midi/midi1_channel_voice_message.h,
   inc/midi/midi2_channel_voice_message.h and inc/midi/channel_voice_message.h.

   Packets derived from universal_packet are plain packets.  A view is modelled by
   the packet it refers to; creating one runs its assertion.  The value classes
   velocity, controller_value, pitch_bend ... are their integer (Types.v).
   Deprecated aliases are omitted. *)
From Coq Require Import ZArith List Bool.
From Verif Require Import Base Packet Messages Types.
Import ListNotations.
Local Open Scope Z_scope.
Local Open Scope res_scope.

(* universal_packet.h:112-132 channel_voice_status *)
Definition st_registered_per_note_controller : Z := 0x00.
Definition st_assignable_per_note_controller : Z := 0x10.
Definition st_registered_controller : Z := 0x20.
Definition st_assignable_controller : Z := 0x30.
Definition st_relative_registered_controller : Z := 0x40.
Definition st_relative_assignable_controller : Z := 0x50.
Definition st_per_note_pitch_bend : Z := 0x60.
Definition st_note_off : Z := 0x80.
Definition st_note_on : Z := 0x90.
Definition st_poly_pressure : Z := 0xA0.
Definition st_control_change : Z := 0xB0.
Definition st_program_change : Z := 0xC0.
Definition st_channel_pressure : Z := 0xD0.
Definition st_pitch_bend : Z := 0xE0.
Definition st_per_note_management : Z := 0xF0.

(* ---- MIDI 1 ------------------------------------------------------------------ *)

(* midi1_channel_voice_message.h:112-115 *)
Definition is_midi1_channel_voice_message (p : packet) : bool := type p =? pt_midi1_channel_voice.
(* midi1_channel_voice_message.h:119-123; also :94-98 the converting constructor *)
Definition midi1_view (p : packet) : res packet :=
  assert_ (is_midi1_channel_voice_message p) ;;; Ok p.
(* midi1_channel_voice_message.h:155-161 *)
Definition as_midi1_view (p : packet) : option packet :=
  if is_midi1_channel_voice_message p then Some p else None.
(* midi1_channel_voice_message.h:57, 127-151 *)
Definition m1_status (p : packet) : Z := Z.land (status p) 0xF0.
Definition m1_channel (p : packet) : Z := Z.land (status p) 0x0F.
Definition m1_data_byte_1 (p : packet) : Z := Z.land (byte3 p) 0x7F.
Definition m1_data_byte_2 (p : packet) : Z := Z.land (byte4 p) 0x7F.
Definition m1_get_14bit_value (p : packet) : Z :=
  u16 (Z.lor (m1_data_byte_1 p) (Z.shiftl (m1_data_byte_2 p) 7)).

(* midi1_channel_voice_message.h:165-172 *)
Definition make_midi1_cv (group status channel data1 data2 : Z) : packet :=
  midi1_cv group (u8 (Z.lor status (Z.land channel 0x0F)))
           (u8 (Z.land data1 0x7F)) (u8 (Z.land data2 0x7F)).

(* midi1_channel_voice_message.h:176-183 *)
Definition make_midi1_note_off (g c n vel : Z) : packet :=
  make_midi1_cv g 0x80 c n (velocity_as_uint7 vel).
(* midi1_channel_voice_message.h:187-194 *)
Definition make_midi1_note_on (g c n vel : Z) : packet :=
  make_midi1_cv g 0x90 c n (velocity_as_uint7 vel).
(* midi1_channel_voice_message.h:198-205 *)
Definition make_midi1_poly_pressure (g c n pressure : Z) : packet :=
  make_midi1_cv g 0xA0 c n (controller_as_uint7 pressure).
(* midi1_channel_voice_message.h:209-216 *)
Definition make_midi1_control_change (g c controller v : Z) : packet :=
  make_midi1_cv g 0xB0 c controller (controller_as_uint7 v).
(* midi1_channel_voice_message.h:220-225 *)
Definition make_midi1_program_change (g c program : Z) : packet :=
  make_midi1_cv g 0xC0 c program 0.
(* midi1_channel_voice_message.h:229-235 *)
Definition make_midi1_channel_pressure (g c pressure : Z) : packet :=
  make_midi1_cv g 0xD0 c (controller_as_uint7 pressure) 0.
(* midi1_channel_voice_message.h:239-247 *)
Definition make_midi1_pitch_bend (g c pb : Z) : packet :=
  let pb14bit := pitch_bend_as_uint14 pb in
  make_midi1_cv g 0xE0 c (u8 (Z.land pb14bit 0x7F)) (u8 (Z.land (Z.shiftr pb14bit 7) 0x7F)).

(* ---- MIDI 2 ------------------------------------------------------------------ *)

(* midi2_channel_voice_message.h:172-177; the shifts are on int, all results fit
   into 31 bits *)
Definition midi2_cv (group status channel b3 b4 data : Z) : packet :=
  packet2 (Z.lor (Z.lor (Z.lor (Z.lor 0x40000000
      (Z.shiftl (Z.land group 0x0F) 24))
      (Z.shiftl (Z.lor (Z.land status 0xF0) (Z.land channel 0x0F)) 16))
      (Z.shiftl b3 8)) b4) data.

(* midi2_channel_voice_message.h:181-184 *)
Definition is_midi2_channel_voice_message (p : packet) : bool := type p =? pt_midi2_channel_voice.
(* midi2_channel_voice_message.h:85-89; also :43-47 the converting constructor *)
Definition midi2_view (p : packet) : res packet :=
  assert_ (is_midi2_channel_voice_message p) ;;; Ok p.
(* midi2_channel_voice_message.h:188-194 *)
Definition as_midi2_view (p : packet) : option packet :=
  if is_midi2_channel_voice_message p then Some p else None.
(* midi2_channel_voice_message.h:92-96 *)
Definition m2_status (p : packet) : Z := Z.land (status p) 0xF0.
Definition m2_channel (p : packet) : Z := Z.land (status p) 0x0F.
Definition m2_byte3 (p : packet) : Z := Z.land (byte3 p) 0x7F.
Definition m2_byte4 (p : packet) : Z := Z.land (byte4 p) 0x7F.
Definition m2_data (p : packet) : Z := w1 p.

(* midi2_channel_voice_message.h:198-202 *)
Definition make_midi2_cv (g st c i1 i2 data : Z) : packet := midi2_cv g st c i1 i2 data.

(* (vel.value << 16) | x on int, converted to uint32_t: fits 32 bits for a 16 bit value *)
Definition note_data (vel attribute_data : Z) : Z := u32 (Z.lor (Z.shiftl vel 16) attribute_data).

(* midi2_channel_voice_message.h:206-212 *)
Definition make_midi2_note_off (g c n vel attribute attribute_data : Z) : packet :=
  midi2_cv g st_note_off c (u8 (Z.land n 0x7F)) attribute (note_data vel attribute_data).
(* midi2_channel_voice_message.h:216-222; the note number is not masked *)
Definition make_midi2_note_on (g c n vel : Z) : packet :=
  midi2_cv g st_note_on c n 0 (u32 (Z.shiftl vel 16)).
(* midi2_channel_voice_message.h:226-231 *)
Definition make_midi2_note_on_pitch (g c n vel pitch : Z) : packet :=
  midi2_cv g st_note_on c n 3 (note_data vel pitch).
(* midi2_channel_voice_message.h:235-241 *)
Definition make_midi2_note_on_attribute (g c n vel attribute attribute_data : Z) : packet :=
  midi2_cv g st_note_on c n attribute (note_data vel attribute_data).
(* midi2_channel_voice_message.h:245-251 *)
Definition make_midi2_poly_pressure (g c n pressure : Z) : packet :=
  midi2_cv g st_poly_pressure c n 0 pressure.
(* midi2_channel_voice_message.h:255-259 *)
Definition make_registered_per_note_controller (g c n controller v : Z) : packet :=
  midi2_cv g st_registered_per_note_controller c n controller v.
(* midi2_channel_voice_message.h:263-267 *)
Definition make_assignable_per_note_controller (g c n controller v : Z) : packet :=
  midi2_cv g st_assignable_per_note_controller c n controller v.
(* midi2_channel_voice_message.h:271-277 *)
Definition make_per_note_management (g c n flags : Z) : packet :=
  midi2_cv g st_per_note_management c n flags 0.
(* midi2_channel_voice_message.h:281-289 *)
Definition make_midi2_control_change (g c controller v : Z) : packet :=
  midi2_cv g st_control_change c (u8 (Z.land controller 0x7F)) 0 v.
(* midi2_channel_voice_message.h:293-302 *)
Definition make_registered_controller (g c bank index v : Z) : packet :=
  midi2_cv g st_registered_controller c (u8 (Z.land bank 0x7F)) (u8 (Z.land index 0x7F)) v.
(* midi2_channel_voice_message.h:306-315 *)
Definition make_assignable_controller (g c bank index v : Z) : packet :=
  midi2_cv g st_assignable_controller c (u8 (Z.land bank 0x7F)) (u8 (Z.land index 0x7F)) v.
(* midi2_channel_voice_message.h:319-328; inc is a signed 32 bit value *)
Definition make_relative_registered_controller (g c bank index inc : Z) : packet :=
  midi2_cv g st_relative_registered_controller c (u8 (Z.land bank 0x7F)) (u8 (Z.land index 0x7F)) (u32 inc).
(* midi2_channel_voice_message.h:332-341 *)
Definition make_relative_assignable_controller (g c bank index inc : Z) : packet :=
  midi2_cv g st_relative_assignable_controller c (u8 (Z.land bank 0x7F)) (u8 (Z.land index 0x7F)) (u32 inc).
(* midi2_channel_voice_message.h:345-352 *)
Definition make_midi2_program_change (g c program : Z) : packet :=
  midi2_cv g st_program_change c 0 0 (u32 (Z.shiftl (Z.land program 0x7F) 24)).
(* midi2_channel_voice_message.h:356-364 *)
Definition make_midi2_program_change_bank (g c program bank : Z) : packet :=
  midi2_cv g st_program_change c 0 1
    (u32 (Z.lor (Z.lor (Z.shiftl (Z.land program 0x7F) 24) (Z.shiftl (Z.land bank 0x3F80) 1))
                (Z.land bank 0x7F))).
(* midi2_channel_voice_message.h:368-373 *)
Definition make_midi2_channel_pressure (g c pressure : Z) : packet :=
  midi2_cv g st_channel_pressure c 0 0 pressure.
(* midi2_channel_voice_message.h:377-380 *)
Definition make_midi2_pitch_bend (g c pb : Z) : packet := midi2_cv g st_pitch_bend c 0 0 pb.
(* midi2_channel_voice_message.h:384-390 *)
Definition make_per_note_pitch_bend (g c n pb : Z) : packet := midi2_cv g st_per_note_pitch_bend c n 0 pb.

(* midi2_channel_voice_message.h:392-418 *)
Definition has_m2_status (p : packet) (st : Z) : bool :=
  is_midi2_channel_voice_message p && (Z.land (status p) 0xF0 =? st).
Definition is_registered_controller_message (p : packet) : bool := has_m2_status p st_registered_controller.
Definition is_assignable_controller_message (p : packet) : bool := has_m2_status p st_assignable_controller.
Definition is_registered_per_note_controller_message (p : packet) : bool :=
  has_m2_status p st_registered_per_note_controller.
(* midi2_channel_voice_message.h:466-469 *)
Definition get_per_note_controller_index (p : packet) : Z := byte4 p.
(* midi2_channel_voice_message.h:405-409 *)
Definition is_registered_per_note_controller_pitch_message (p : packet) : bool :=
  is_registered_per_note_controller_message p && (get_per_note_controller_index p =? 3).
Definition is_assignable_per_note_controller_message (p : packet) : bool :=
  has_m2_status p st_assignable_per_note_controller.
Definition is_per_note_pitch_bend_message (p : packet) : bool := has_m2_status p st_per_note_pitch_bend.
(* midi2_channel_voice_message.h:419-428, 454-457 *)
Definition is_note_on_with_attribute (p : packet) (attribute : Z) : bool :=
  has_m2_status p st_note_on && (byte4 p =? attribute).
Definition is_note_off_with_attribute (p : packet) (attribute : Z) : bool :=
  has_m2_status p st_note_off && (byte4 p =? attribute).
Definition is_note_on_with_pitch_7_9 (p : packet) : bool := is_note_on_with_attribute p 3.
(* midi2_channel_voice_message.h:458-465 *)
Definition get_midi2_note_attribute (p : packet) : Z := byte4 p.
Definition get_midi2_note_attribute_data (p : packet) : Z := u16 (Z.land (w1 p) 0xFFFF).
(* midi2_channel_voice_message.h:476-497 *)
Definition is_pitch_bend_sensitivity_message (p : packet) : bool :=
  is_registered_controller_message p && (byte3 p =? 0) && (byte4 p =? 0).
Definition is_per_note_pitch_bend_sensitivity_message (p : packet) : bool :=
  is_registered_controller_message p && (byte3 p =? 0) && (byte4 p =? 7).
Definition get_pitch_bend_sensitivity_value (p : packet) : Z := Z.land (w1 p) 0xFFFC0000.
Definition get_per_note_pitch_bend_sensitivity_value (p : packet) : Z := w1 p.
Definition get_per_note_pitch_bend_value (p : packet) : Z := w1 p.

(* ---- protocol agnostic ------------------------------------------------------- *)

(* channel_voice_message.h:74-77 *)
Definition is_channel_voice_message_with_status (p : packet) (st : Z) : bool :=
  (Z.land (status p) 0xF0 =? st) && is_channel_voice_message p.

(* channel_voice_message.h:81-90 *)
Definition is_note_on_message (p : packet) : bool :=
  if is_channel_voice_message_with_status p 0x90
  then (type p =? pt_midi2_channel_voice) || negb (byte4 p =? 0)
  else false.

(* channel_voice_message.h:94-101 *)
Definition is_note_off_message (p : packet) : bool :=
  if is_channel_voice_message_with_status p 0x80 then true
  else (type p =? pt_midi1_channel_voice) && (Z.land (status p) 0xF0 =? 0x90) && (byte4 p =? 0).

(* channel_voice_message.h:105-111 *)
Definition get_note_nr (p : packet) : Z := u8 (Z.land (byte3 p) 0x7F).

(* channel_voice_message.h:115-125 *)
Definition get_note_pitch (p : packet) : Z :=
  if (type p =? pt_midi2_channel_voice) && (Z.land (status p) 0xF0 =? 0x90) && (byte4 p =? 3)
  then u16 (Z.land (w1 p) 0xFFFF)
  else pitch_7_9_of_note (get_note_nr p).

(* channel_voice_message.h:129-141 *)
Definition get_note_velocity (p : packet) : Z :=
  if type p =? pt_midi2_channel_voice then u16 (Z.shiftr (w1 p) 16)
  else if (type p =? pt_midi1_channel_voice) && (Z.land (status p) 0xF0 =? 0x90) && (byte4 p =? 0)
  then velocity_of_uint7 64
  else velocity_of_uint7 (u8 (Z.land (byte4 p) 0x7F)).

(* channel_voice_message.h:145-148 *)
Definition is_poly_pressure_message (p : packet) : bool := is_channel_voice_message_with_status p 0xA0.
(* channel_voice_message.h:174-184 *)
Definition get_controller_value (p : packet) : Z :=
  if type p =? pt_midi1_channel_voice then controller_of_uint7 (u8 (Z.land (byte4 p) 0x7F))
  else w1 p.
(* channel_voice_message.h:152-155 *)
Definition get_poly_pressure_value (p : packet) : Z := get_controller_value p.
(* channel_voice_message.h:159-162 *)
Definition is_control_change_message (p : packet) : bool := is_channel_voice_message_with_status p 0xB0.
(* channel_voice_message.h:166-170 *)
Definition get_controller_nr (p : packet) : Z := u8 (Z.land (byte3 p) 0x7F).
(* channel_voice_message.h:188-191 *)
Definition is_program_change_message (p : packet) : bool := is_channel_voice_message_with_status p 0xC0.
(* channel_voice_message.h:195-209 *)
Definition get_program_value (p : packet) : Z :=
  if type p =? pt_midi1_channel_voice then u8 (Z.land (byte3 p) 0x7F)
  else if type p =? pt_midi2_channel_voice then u8 (Z.land (Z.shiftr (w1 p) 24) 0x7F)
  else 0xFF.
(* channel_voice_message.h:213-216 *)
Definition is_channel_pressure_message (p : packet) : bool := is_channel_voice_message_with_status p 0xD0.
(* channel_voice_message.h:220-228 *)
Definition get_channel_pressure_value (p : packet) : Z :=
  if type p =? pt_midi1_channel_voice then controller_of_uint7 (u8 (Z.land (byte3 p) 0x7F))
  else w1 p.
(* channel_voice_message.h:232-235 *)
Definition is_channel_pitch_bend_message (p : packet) : bool := is_channel_voice_message_with_status p 0xE0.
(* channel_voice_message.h:239-247; the data bytes are not masked *)
Definition get_channel_pitch_bend_value (p : packet) : res Z :=
  if type p =? pt_midi1_channel_voice
  then pitch_bend_of_uint14 (u16 (Z.lor (byte3 p) (Z.shiftl (byte4 p) 7)))
  else Ok (w1 p).

(* channel_voice_message.h:274-287, 327-341 the reserved controllers *)
Definition is_reserved_controller (c : Z) : bool :=
  existsb (Z.eqb c) [0; 6; 32; 38; 88; 98; 99; 100; 101].

(* channel_voice_message.h:251-305.  [m] is the packet behind the view. *)
Definition as_midi1 (m : packet) : option packet :=
  let g := group m in
  let c := m2_channel m in
  let s := m2_status m in
  if s =? st_note_off then
    if m2_byte4 m =? 0
    then Some (make_midi1_note_off g c (m2_byte3 m) (u16 (Z.shiftr (m2_data m) 16)))
    else None
  else if s =? st_note_on then
    if m2_byte4 m =? 0 then
      let vel := u16 (Z.shiftr (m2_data m) 16) in
      let vel := if velocity_as_uint7 vel =? 0 then velocity_of_uint7 1 else vel in
      Some (make_midi1_note_on g c (m2_byte3 m) vel)
    else None
  else if s =? st_poly_pressure then
    Some (make_midi1_poly_pressure g c (m2_byte3 m) (m2_data m))
  else if s =? st_control_change then
    if is_reserved_controller (m2_byte3 m) then None
    else Some (make_midi1_control_change g c (m2_byte3 m) (m2_data m))
  else if s =? st_program_change then
    if Z.land (m2_byte4 m) 1 =? 0
    then Some (make_midi1_program_change g c (u8 (Z.shiftr (m2_data m) 24)))
    else None
  else if s =? st_channel_pressure then
    Some (make_midi1_channel_pressure g c (m2_data m))
  else if s =? st_pitch_bend then
    Some (make_midi1_pitch_bend g c (m2_data m))
  else None.

(* channel_voice_message.h:309-353; the pitch bend value is scaled with a shift that
   can overflow, hence [res] *)
Definition as_midi2 (m : packet) : res (option packet) :=
  let g := group m in
  let c := m1_channel m in
  let s := m1_status m in
  let d1 := m1_data_byte_1 m in
  let d2 := m1_data_byte_2 m in
  if s =? st_note_off then Ok (Some (make_midi2_note_off g c d1 (velocity_of_uint7 d2) 0 0))
  else if s =? st_note_on then
    if d2 =? 0 then Ok (Some (make_midi2_note_off g c d1 (velocity_of_uint7 64) 0 0))
    else Ok (Some (make_midi2_note_on g c d1 (velocity_of_uint7 d2)))
  else if s =? st_poly_pressure then
    Ok (Some (make_midi2_poly_pressure g c d1 (controller_of_uint7 d2)))
  else if s =? st_control_change then
    if is_reserved_controller d1 then Ok None
    else Ok (Some (make_midi2_control_change g c d1 (controller_of_uint7 d2)))
  else if s =? st_program_change then Ok (Some (make_midi2_program_change g c d1))
  else if s =? st_channel_pressure then
    Ok (Some (make_midi2_channel_pressure g c (controller_of_uint7 d1)))
  else if s =? st_pitch_bend then
    pb <- pitch_bend_of_uint14 (m1_get_14bit_value m) ;;
    Ok (Some (make_midi2_pitch_bend g c pb))
  else Ok None.

(* Translation of any packet through the views: as_midi..._view(p) and, if there is
   one, the translation. *)
Definition to_midi1 (p : packet) : option packet :=
  match as_midi2_view p with Some m => as_midi1 m | None => None end.
Definition to_midi2 (p : packet) : res (option packet) :=
  match as_midi1_view p with Some m => as_midi2 m | None => Ok None end.
