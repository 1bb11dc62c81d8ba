(* Channel voice messages as the UMP specification defines them: their contents,
   their layout in a packet, and what translating between protocols means. *)
From Coq Require Import ZArith List Bool.
From Verif Require Import Base Packet PacketSpec.
Import ListNotations.
Local Open Scope Z_scope.

(* ---- MIDI 1 ------------------------------------------------------------------ *)

Inductive m1msg : Set :=
| NoteOff1 (note vel : Z)
| NoteOn1 (note vel : Z)
| PolyPressure1 (note v : Z)
| ControlChange1 (controller v : Z)
| ProgramChange1 (program : Z)
| ChannelPressure1 (v : Z)
| PitchBend1 (v : Z).

Definition m1_ok (m : m1msg) : Prop :=
  match m with
  | NoteOff1 n v | NoteOn1 n v | PolyPressure1 n v | ControlChange1 n v => is_u7 n /\ is_u7 v
  | ProgramChange1 v | ChannelPressure1 v => is_u7 v
  | PitchBend1 v => is_u14 v
  end.

Definition m1_kind (m : m1msg) : Z :=
  match m with
  | NoteOff1 _ _ => 0x80 | NoteOn1 _ _ => 0x90 | PolyPressure1 _ _ => 0xA0
  | ControlChange1 _ _ => 0xB0 | ProgramChange1 _ => 0xC0 | ChannelPressure1 _ => 0xD0
  | PitchBend1 _ => 0xE0
  end.

(* the two data bytes; pitch bend least significant 7 bits first *)
Definition m1_data (m : m1msg) : Z * Z :=
  match m with
  | NoteOff1 n v | NoteOn1 n v | PolyPressure1 n v | ControlChange1 n v => (n, v)
  | ProgramChange1 v | ChannelPressure1 v => (v, 0)
  | PitchBend1 v => (v mod 128, v / 128)
  end.

(* message type 2, group, status, channel, data bytes *)
Definition layout1 (g ch : Z) (m : m1msg) : packet :=
  mkP (be32 (2 * 16 + g) (m1_kind m + ch) (fst (m1_data m)) (snd (m1_data m))) 0 0 0.

(* ---- MIDI 2 ------------------------------------------------------------------ *)

Inductive m2msg : Set :=
| RegisteredPerNote (note index v : Z)
| AssignablePerNote (note index v : Z)
| RegisteredCtrl (bank index v : Z)
| AssignableCtrl (bank index v : Z)
| RelRegisteredCtrl (bank index inc : Z)
| RelAssignableCtrl (bank index inc : Z)
| PerNotePitchBend (note v : Z)
| NoteOff2 (note vel attribute adata : Z)
| NoteOn2 (note vel attribute adata : Z)
| PolyPressure2 (note v : Z)
| ControlChange2 (controller v : Z)
| ProgramChange2 (program : Z) (bank : option Z)
| ChannelPressure2 (v : Z)
| PitchBend2 (v : Z)
| PerNoteManagement (note flags : Z).

Definition m2_ok (m : m2msg) : Prop :=
  match m with
  | RegisteredPerNote n i v | AssignablePerNote n i v => is_u7 n /\ is_u8 i /\ is_u32 v
  | RegisteredCtrl b i v | AssignableCtrl b i v => is_u7 b /\ is_u7 i /\ is_u32 v
  | RelRegisteredCtrl b i v | RelAssignableCtrl b i v => is_u7 b /\ is_u7 i /\ is_s32 v
  | PerNotePitchBend n v | PolyPressure2 n v | ControlChange2 n v => is_u7 n /\ is_u32 v
  | NoteOff2 n v a d | NoteOn2 n v a d => is_u7 n /\ is_u16 v /\ is_u8 a /\ is_u16 d
  | ProgramChange2 p b => is_u7 p /\ match b with Some b => is_u14 b | None => True end
  | ChannelPressure2 v | PitchBend2 v => is_u32 v
  | PerNoteManagement n f => is_u7 n /\ is_u8 f
  end.

Definition m2_kind (m : m2msg) : Z :=
  match m with
  | RegisteredPerNote _ _ _ => 0x00 | AssignablePerNote _ _ _ => 0x10
  | RegisteredCtrl _ _ _ => 0x20 | AssignableCtrl _ _ _ => 0x30
  | RelRegisteredCtrl _ _ _ => 0x40 | RelAssignableCtrl _ _ _ => 0x50
  | PerNotePitchBend _ _ => 0x60
  | NoteOff2 _ _ _ _ => 0x80 | NoteOn2 _ _ _ _ => 0x90
  | PolyPressure2 _ _ => 0xA0 | ControlChange2 _ _ => 0xB0
  | ProgramChange2 _ _ => 0xC0 | ChannelPressure2 _ => 0xD0
  | PitchBend2 _ => 0xE0 | PerNoteManagement _ _ => 0xF0
  end.

(* index bytes 3 and 4 and the data word *)
Definition m2_fields (m : m2msg) : Z * Z * Z :=
  match m with
  | RegisteredPerNote n i v | AssignablePerNote n i v => (n, i, v)
  | RegisteredCtrl b i v | AssignableCtrl b i v => (b, i, v)
  | RelRegisteredCtrl b i v | RelAssignableCtrl b i v => (b, i, v mod 4294967296)
  | PerNotePitchBend n v | PolyPressure2 n v | ControlChange2 n v => (n, 0, v)
  | NoteOff2 n v a d | NoteOn2 n v a d => (n, a, v * 65536 + d)
  | ProgramChange2 p None => (0, 0, p * 16777216)
  | ProgramChange2 p (Some b) => (0, 1, p * 16777216 + (b / 128) * 256 + b mod 128)
  | ChannelPressure2 v | PitchBend2 v => (0, 0, v)
  | PerNoteManagement n f => (n, f, 0)
  end.

(* message type 4, group, status, channel, two index bytes, data word *)
Definition layout2 (g ch : Z) (m : m2msg) : packet :=
  mkP (be32 (4 * 16 + g) (m2_kind m + ch) (fst (fst (m2_fields m))) (snd (fst (m2_fields m))))
      (snd (m2_fields m)) 0 0.

Definition address (g ch : Z) : Prop := 0 <= g < 16 /\ 0 <= ch < 16.

(* ---- translation -------------------------------------------------------------- *)

(* min-center-max scaling of an x bit value to y bits: up to the centre a plain
   shift, above the centre the x-1 low bits are repeated, that is, the new low bits
   are the binary expansion of low / (2^(x-1) - 1) *)
Definition min_center_max (x y v : Z) : Z :=
  let low := v mod 2 ^ (x - 1) in
  if v <=? 2 ^ (x - 1) then v * 2 ^ (y - x)
  else if low =? 2 ^ (x - 1) - 1 then (v + 1) * 2 ^ (y - x) - 1
  else v * 2 ^ (y - x) + low * 2 ^ (y - x) / (2 ^ (x - 1) - 1).

(* controllers with a special meaning in MIDI 1: bank select, data entry, high
   resolution velocity prefix, (N)RPN *)
Definition reserved_controllers : list Z := [0; 6; 32; 38; 88; 98; 99; 100; 101].

Definition translate_to_midi2 (m : m1msg) : option m2msg :=
  match m with
  | NoteOff1 n v => Some (NoteOff2 n (min_center_max 7 16 v) 0 0)
  | NoteOn1 n v =>
      if v =? 0 then Some (NoteOff2 n 0x8000 0 0)
      else Some (NoteOn2 n (min_center_max 7 16 v) 0 0)
  | PolyPressure1 n v => Some (PolyPressure2 n (min_center_max 7 32 v))
  | ControlChange1 c v =>
      if existsb (Z.eqb c) reserved_controllers then None
      else Some (ControlChange2 c (min_center_max 7 32 v))
  | ProgramChange1 p => Some (ProgramChange2 p None)
  | ChannelPressure1 v => Some (ChannelPressure2 (min_center_max 7 32 v))
  | PitchBend1 v => Some (PitchBend2 (min_center_max 14 32 v))
  end.

Definition translate_to_midi1 (m : m2msg) : option m1msg :=
  match m with
  | NoteOff2 n v 0 _ => Some (NoteOff1 n (v / 512))
  | NoteOn2 n v 0 _ => Some (NoteOn1 n (Z.max 1 (v / 512)))
  | PolyPressure2 n v => Some (PolyPressure1 n (v / 33554432))
  | ControlChange2 c v =>
      if existsb (Z.eqb c) reserved_controllers then None
      else Some (ControlChange1 c (v / 33554432))
  | ProgramChange2 p None => Some (ProgramChange1 p)
  | ChannelPressure2 v => Some (ChannelPressure1 (v / 33554432))
  | PitchBend2 v => Some (PitchBend1 (v / 262144))
  | _ => None
  end.

(* a MIDI 1 note-on with velocity 0 means note-off with the default velocity *)
Definition without_zero_velocity (m : m1msg) : m1msg :=
  match m with NoteOn1 n 0 => NoteOff1 n 64 | _ => m end.
