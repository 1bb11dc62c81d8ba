(* What is claimed of MIDI message reports (C97) *)
From Coq Require Import ZArith List Bool.
From Verif Require Import Base Packet PacketSpec Sysex UniversalSysex SysexSpec CapInq CapSpec CapCalls CiNetSpec ProfilesSpec ManySpec Snapshot.
Import ListNotations.
Local Open Scope Z_scope.

Definition setting_ok (x : Z * setting) : Prop :=
  0 <= fst x < 16 /\
  match snd x with
  | PitchBendIs v | PressureIs v => is_u32 v
  | ControllerIs n v | NotePressureIs n v | NoteBendIs n v => is_u7 n /\ is_u32 v
  | RegisteredIs b i v | AssignableIs b i v => is_u7 b /\ is_u7 i /\ is_u32 v
  | ProgramIs n => is_u7 n
  | NoteIs n v => is_u7 n /\ is_u16 v
  | NoteRegisteredIs n i v | NoteAssignableIs n i v => is_u7 n /\ is_u8 i /\ is_u32 v
  end.

(* the type of a setting: a bit of the first mask (controllers) or of the second (notes) *)
Definition mask_of (x : setting) : Z * Z :=
  match x with
  | PitchBendIs _ => (1, 0) | ControllerIs _ _ => (2, 0) | RegisteredIs _ _ _ => (4, 0) | AssignableIs _ _ _ => (8, 0)
  | ProgramIs _ => (16, 0) | PressureIs _ => (32, 0)
  | NoteIs _ _ => (0, 1) | NotePressureIs _ _ => (0, 2) | NoteBendIs _ _ => (0, 4)
  | NoteRegisteredIs _ _ _ => (0, 8) | NoteAssignableIs _ _ _ => (0, 16)
  end.
Definition has_bit (mask bit : Z) : bool := (bit =? 0) || (mask / bit mod 2 =? 1).
Definition of_type (c n : Z) (x : setting) : bool := has_bit c (fst (mask_of x)) && has_bit n (snd (mask_of x)).
(* asked for with masks [c], [n] for [dev], and supported *)
Definition wanted (dev c n : Z) (supported : Z * Z) (x : Z * setting) : bool :=
  ((fst x =? dev) || (15 <? dev)) && of_type c n (snd x) && of_type (fst supported) (snd supported) (snd x).

(* the SysEx7 and MIDI 2 channel voice packets of group [g] *)
Definition counts (g : Z) (p : packet) : bool :=
  let b := nth 0 (bytes p) 0 in (b =? 3 * 16 + g) || (b =? 4 * 16 + g).

(* the packets of somebody else's whole message *)
Definition foreign (device g : Z) (qs : list packet) : Prop :=
  exists s, sendable7 s /\ from device s = false /\ send_sysex7 s g = Ok qs.

(* [us]: messages, those marked are [own], the others foreign *)
Definition mixed (device g : Z) (own : list (list packet)) (us : list (bool * list packet)) : Prop :=
  map snd (filter fst us) = own /\ Forall (fun u => fst u = true \/ foreign device g (snd u)) us.

(* a report inquiry of another device, to [me] or to everybody *)
Definition asks_report (me : Z) (s : sysex) : bool :=
  (sx_id s =? 0x7E0000) && (17 <=? size (sx_data s)) && (nth 1 (sx_data s) 0 =? 0x0D) && (nth 2 (sx_data s) 0 =? 0x42) &&
  negb (muid_at 4 s =? me) && ((muid_at 8 s =? me) || (muid_at 8 s =? 0x0FFFFFFF)).
