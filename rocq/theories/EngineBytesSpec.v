(* A sound engine at the end of a MIDI 1 connection (C96). *)
From Coq Require Import ZArith List Bool.
From Verif Require Import Base Packet ByteStream StreamSpec VoiceSpec.
Import ListNotations.
Local Open Scope Z_scope.

(* the status and data bytes of a MIDI 1 message on a channel *)
Definition wire_message (x : Z * m1msg) : message :=
  mkMsg (m1_kind (snd x) + fst x)
    match snd x with
    | ProgramChange1 v | ChannelPressure1 v => [v]
    | NoteOff1 n v | NoteOn1 n v | PolyPressure1 n v | ControlChange1 n v => [n; v]
    | PitchBend1 v => [v mod 128; v / 128]
    end.

(* the packets among the events of a parser *)
Definition packets_out (out : list event) : list packet :=
  concat (map (fun e => match e with EPacket p => [p] | ESysex _ => [] end) out).
