(* What a MIDI 2 message may lose on its way through MIDI 1 (C67). *)
From Coq Require Import ZArith List Bool.
From Verif Require Import Base VoiceSpec.
Import ListNotations.
Local Open Scope Z_scope.

(* a value of [bits] bits that passed through one of [fewer] bits: less than one step of the coarser scale away, and the
   least, centre and greatest value unchanged *)
Definition rounded (fewer bits v v' : Z) : Prop :=
  Z.abs (v' - v) < 2 ^ (bits - fewer) /\
  (v = 0 \/ v = 2 ^ (bits - 1) \/ v = 2 ^ bits - 1 -> v' = v).

(* the message that comes back: the same but for the resolution of its value; attributes do not pass; the softest
   note-on velocities become the softest one of MIDI 1 *)
Definition comes_back (m m' : m2msg) : Prop :=
  match m with
  | NoteOff2 n v _ _ => exists v', m' = NoteOff2 n v' 0 0 /\ rounded 7 16 v v'
  | NoteOn2 n v _ _ =>
      exists v', m' = NoteOn2 n v' 0 0 /\ (512 <= v -> rounded 7 16 v v') /\ (v < 512 -> v' = 512)
  | PolyPressure2 n v => exists v', m' = PolyPressure2 n v' /\ rounded 7 32 v v'
  | ControlChange2 c v => exists v', m' = ControlChange2 c v' /\ rounded 7 32 v v'
  | ProgramChange2 p _ => m' = ProgramChange2 p None
  | ChannelPressure2 v => exists v', m' = ChannelPressure2 v' /\ rounded 7 32 v v'
  | PitchBend2 v => exists v', m' = PitchBend2 v' /\ rounded 14 32 v v'
  | _ => False
  end.

(* the same message but for its value, which is not greater *)
Definition not_above (a b : m2msg) : Prop :=
  match a, b with
  | NoteOff2 n v _ _, NoteOff2 n' v' _ _ | NoteOn2 n v _ _, NoteOn2 n' v' _ _
  | PolyPressure2 n v, PolyPressure2 n' v' | ControlChange2 n v, ControlChange2 n' v' => n = n' /\ v <= v'
  | ChannelPressure2 v, ChannelPressure2 v' | PitchBend2 v, PitchBend2 v' => v <= v'
  | _, _ => False
  end.
Definition not_above1 (a b : m1msg) : Prop :=
  match a, b with
  | NoteOff1 n v, NoteOff1 n' v' | NoteOn1 n v, NoteOn1 n' v'
  | PolyPressure1 n v, PolyPressure1 n' v' | ControlChange1 n v, ControlChange1 n' v' => n = n' /\ v <= v'
  | ChannelPressure1 v, ChannelPressure1 v' | PitchBend1 v, PitchBend1 v' => v <= v'
  | _, _ => False
  end.
