(* MIDI message reports (MIDI-CI process inquiry): a device that reports the state of its channels when asked, and an
   inquirer that records the report.  Both are users' programs composed of the modelled functions of /repo; they have no
   counterpart in /repo, where the constructors and views are inc/midi/capability_inquiry.h:2426-2531, the messages
   inc/midi/midi2_channel_voice_message.h:198-497 and the collector inc/midi/sysex_collector.h. *)
From Coq Require Import ZArith List Bool.
From Verif Require Import Base Packet Messages ChannelVoice Sysex UniversalSysex Collector CapInq Profiles.
Import ListNotations.
Local Open Scope Z_scope.
Local Open Scope res_scope.

(* what a MIDI 2 message can tell about a channel *)
Inductive setting : Set :=
| PitchBendIs (v : Z)
| ControllerIs (nr v : Z)
| RegisteredIs (bank index v : Z)
| AssignableIs (bank index v : Z)
| ProgramIs (program : Z)
| PressureIs (v : Z)
| NoteIs (note velocity : Z)
| NotePressureIs (note v : Z)
| NoteBendIs (note v : Z)
| NoteRegisteredIs (note index v : Z)
| NoteAssignableIs (note index v : Z).
Definition setting_packet (g : Z) (x : Z * setting) : packet :=
  let ch := fst x in
  match snd x with
  | PitchBendIs v => make_midi2_pitch_bend g ch v
  | ControllerIs n v => make_midi2_control_change g ch n v
  | RegisteredIs b i v => make_registered_controller g ch b i v
  | AssignableIs b i v => make_assignable_controller g ch b i v
  | ProgramIs n => make_midi2_program_change g ch n
  | PressureIs v => make_midi2_channel_pressure g ch v
  | NoteIs n v => make_midi2_note_on g ch n v
  | NotePressureIs n v => make_midi2_poly_pressure g ch n v
  | NoteBendIs n v => make_per_note_pitch_bend g ch n v
  | NoteRegisteredIs n i v => make_registered_per_note_controller g ch n i v
  | NoteAssignableIs n i v => make_assignable_per_note_controller g ch n i v
  end.
Definition read_setting (p : packet) : res (option (Z * setting)) :=
  match as_midi2_view p with
  | None => Ok None
  | Some v =>
      let is x := Ok (Some (m2_channel v, x)) in
      if is_channel_pitch_bend_message p then b <- get_channel_pitch_bend_value p ;; is (PitchBendIs b)
      else if is_control_change_message p then is (ControllerIs (get_controller_nr p) (get_controller_value p))
      else if is_registered_controller_message p then is (RegisteredIs (m2_byte3 v) (m2_byte4 v) (m2_data v))
      else if is_assignable_controller_message p then is (AssignableIs (m2_byte3 v) (m2_byte4 v) (m2_data v))
      else if is_program_change_message p then is (ProgramIs (get_program_value p))
      else if is_channel_pressure_message p then is (PressureIs (get_channel_pressure_value p))
      else if is_note_on_message p then is (NoteIs (get_note_nr p) (get_note_velocity p))
      else if is_poly_pressure_message p then is (NotePressureIs (get_note_nr p) (get_poly_pressure_value p))
      else if is_per_note_pitch_bend_message p then is (NoteBendIs (get_note_nr p) (get_per_note_pitch_bend_value p))
      else if is_registered_per_note_controller_message p
      then is (NoteRegisteredIs (get_note_nr p) (get_per_note_controller_index p) (get_controller_value p))
      else if is_assignable_per_note_controller_message p
      then is (NoteAssignableIs (get_note_nr p) (get_per_note_controller_index p) (get_controller_value p))
      else Ok None
  end.

(* ---- the device --------------------------------------------------------------------------------- *)

(* the bits of the message types, a matter of the MIDI-CI specification; the library passes the masks as numbers *)
Definition type_bit (c n : Z) (x : setting) : bool :=
  match x with
  | PitchBendIs _ => Z.testbit c 0
  | ControllerIs _ _ => Z.testbit c 1
  | RegisteredIs _ _ _ => Z.testbit c 2
  | AssignableIs _ _ _ => Z.testbit c 3
  | ProgramIs _ => Z.testbit c 4
  | PressureIs _ => Z.testbit c 5
  | NoteIs _ _ => Z.testbit n 0
  | NotePressureIs _ _ => Z.testbit n 1
  | NoteBendIs _ _ => Z.testbit n 2
  | NoteRegisteredIs _ _ _ => Z.testbit n 3
  | NoteAssignableIs _ _ _ => Z.testbit n 4
  end.
(* a device id below 16 is a channel, others (0x7E group, 0x7F function block) are all channels of the group *)
Definition in_scope (dev : Z) (x : Z * setting) : bool := (16 <=? dev) || (dev =? fst x).

(* the device [me] on group [g] answers: the packets of its messages one after the other.  It reports the message types
   in the masks [supported]; with data control 0 it sends no values. *)
Definition answer (dbg : bool) (me g : Z) (supported : Z * Z) (settings : list (Z * setting)) (s : sysex)
  : res (list (list packet)) :=
  f <- for_me me s ;;
  match f with
  | None => Ok []
  | Some _ =>
      i <- as_view dbg report_inquiry_validate s ;;
      match i with
      | None => Ok []
      | Some v =>
          dev <- view_device_id v ;;
          dc <- report_inquiry_data_control v ;;
          c <- report_inquiry_controller v ;;
          n <- report_inquiry_note v ;;
          let c := Z.land c (fst supported) in
          let n := Z.land n (snd supported) in
          r <- make_midi_message_report_reply dbg me 0 c n dev ;;
          e <- make_midi_message_report_end dbg me dev ;;
          rp <- send_sysex7 r g ;;
          ep <- send_sysex7 e g ;;
          let said := if dc =? 0 then [] else filter (fun x => in_scope dev x && type_bit c n (snd x)) settings in
          Ok (rp :: map (fun x => [setting_packet g x]) said ++ [ep])
      end
  end.

(* ---- the inquirer --------------------------------------------------------------------------------- *)

(* a report: device id, message types, what was said *)
Record report := mkRep { rp_dev : Z; rp_controller : Z; rp_note : Z; rp_said : list (Z * setting) }.
Record recorder := mkRecorder { re_collector : collector7; re_open : option report }.
Definition new_recorder : recorder := mkRecorder (new_collector7 true) None.

(* a message has been collected *)
Definition note_message (dbg : bool) (me device : Z) (o : option report) (s : sysex) : res (option report * list report) :=
  f <- for_me me s ;;
  match f with
  | None => Ok (o, [])
  | Some src =>
      if negb (src =? device) then Ok (o, [])
      else
        r <- as_view dbg report_reply_validate s ;;
        match r with
        | Some v =>
            dev <- view_device_id v ;; c <- report_reply_controller v ;; n <- report_reply_note v ;;
            Ok (Some (mkRep dev c n []), [])
        | None =>
            t <- view_subtype s ;;
            if t =? 0x44 then Ok (None, match o with Some x => [x] | None => [] end) else Ok (o, [])
        end
  end.
Fixpoint note_messages (dbg : bool) (me device : Z) (o : option report) (ss : list sysex) : res (option report * list report) :=
  match ss with
  | [] => Ok (o, [])
  | s :: t => a <- note_message dbg me device o s ;; b <- note_messages dbg me device (fst a) t ;; Ok (fst b, snd a ++ snd b)
  end.
(* a packet has arrived *)
Definition record_packet (a : allocator) (dbg : bool) (me device g : Z) (r : recorder) (p : packet) : res (recorder * list report) :=
  if negb (group p =? g) then Ok (r, [])
  else if type p =? pt_data then
    c <- c7_feed a (re_collector r) p ;;
    o <- note_messages dbg me device (re_open r) (snd c) ;;
    Ok (mkRecorder (fst c) (fst o), snd o)
  else
    match re_open r with
    | None => Ok (r, [])
    | Some x =>
        y <- read_setting p ;;
        Ok (match y with
            | Some y => mkRecorder (re_collector r) (Some (mkRep (rp_dev x) (rp_controller x) (rp_note x) (rp_said x ++ [y])))
            | None => r
            end, [])
    end.
Fixpoint record_packets (a : allocator) (dbg : bool) (me device g : Z) (r : recorder) (ps : list packet) : res (recorder * list report) :=
  match ps with
  | [] => Ok (r, [])
  | p :: t =>
      x <- record_packet a dbg me device g r p ;;
      y <- record_packets a dbg me device g (fst x) t ;;
      Ok (fst y, snd x ++ snd y)
  end.
