(* What the documented handler has to be called with. *)
From Coq Require Import ZArith List Bool.
From Verif Require Import Base Packet PacketSpec VoiceSpec ByteStream StreamSpec Docs.
Import ListNotations.
Local Open Scope Z_scope.

Definition handled1 (m : m1msg) : list voice_call :=
  match m with
  | NoteOff1 n v => [ReleaseVoice n (min_center_max 7 16 v)]
  | NoteOn1 n 0 => [ReleaseVoice n 0x8000]
  | NoteOn1 n v => [AllocateVoice n (min_center_max 7 16 v) (512 * n)]
  | PolyPressure1 n v => [VoicePressure n (min_center_max 7 32 v)]
  | ControlChange1 c v => [ChannelController c (min_center_max 7 32 v)]
  | PitchBend1 v => [ChannelPitchBend (min_center_max 14 32 v)]
  | ProgramChange1 _ | ChannelPressure1 _ => []
  end.

Definition handled2 (m : m2msg) : list voice_call :=
  match m with
  | NoteOff2 n v _ _ => [ReleaseVoice n v]
  | NoteOn2 n v a d => [AllocateVoice n v (if a =? 3 then d else 512 * n)]
  | PolyPressure2 n v => [VoicePressure n v]
  | RegisteredPerNote n i v => [VoiceController n i v]
  | PerNotePitchBend n v => [VoicePitchBend n v]
  | ControlChange2 c v => [ChannelController c v]
  | PitchBend2 v => [ChannelPitchBend v]
  | _ => []
  end.

(* the channel voice message in MIDI 1 bytes *)
Definition voice_of (m : message) : option m1msg :=
  let d0 := nth 0 (ms_data m) 0 in
  let d1 := nth 1 (ms_data m) 0 in
  match ms_status m / 16 with
  | 8 => Some (NoteOff1 d0 d1)
  | 9 => Some (NoteOn1 d0 d1)
  | 10 => Some (PolyPressure1 d0 d1)
  | 11 => Some (ControlChange1 d0 d1)
  | 12 => Some (ProgramChange1 d0)
  | 13 => Some (ChannelPressure1 d0)
  | 14 => Some (PitchBend1 (d0 + 128 * d1))
  | _ => None
  end.
Definition handled (m : message) : list voice_call := match voice_of m with Some v => handled1 v | None => [] end.

(* arguments within their types *)
Definition call_ok (c : voice_call) : Prop :=
  match c with
  | AllocateVoice n v p => is_u7 n /\ is_u16 v /\ is_u16 p
  | ReleaseVoice n v => is_u7 n /\ is_u16 v
  | VoicePressure n v | VoicePitchBend n v | ChannelController n v => is_u7 n /\ is_u32 v
  | VoiceController n i v => is_u7 n /\ is_u8 i /\ is_u32 v
  | ChannelPitchBend v => is_u32 v
  end.

(* the packets among what the parser posts *)
Definition posted (es : list event) : list packet := flat_map (fun e => match e with EPacket p => [p] | ESysex _ => [] end) es.
