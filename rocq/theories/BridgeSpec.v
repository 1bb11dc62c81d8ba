(* A bridge: a device that receives MIDI 1 bytes, passes the packets on (possibly
   translated to MIDI 2 and back) and sends MIDI 1 bytes again. *)
From Coq Require Import ZArith List Bool.
From Verif Require Import Base Packet ByteStream ChannelVoice.
Import ListNotations.
Local Open Scope Z_scope.

(* what the bridge does with a packet, in the two directions: translate it, and pass
   on unchanged what has no translation *)
Definition towards_midi2 (p : packet) : packet :=
  match to_midi2 p with Ok (Some q) => q | _ => p end.
Definition towards_midi1 (p : packet) : packet :=
  match to_midi1 p with Some q => q | None => p end.

(* a MIDI 1 note on with velocity 0 replaced by a note off with velocity 64 *)
Definition off_for_zero (p : packet) : packet :=
  if (w0 p / 268435456 =? 2) && (w0 p / 1048576 mod 16 =? 9) && (w0 p mod 256 =? 0)
  then mkP (w0 p - 1048576 + 64) (w1 p) (w2 p) (w3 p) else p.

Definition packet_map (f : packet -> packet) (e : event) : event :=
  match e with EPacket p => EPacket (f p) | ESysex s => ESysex s end.
