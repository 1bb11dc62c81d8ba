(* What a sound engine has to play (C96): the pitch of a note is a matter of the latest messages that concern it. *)
From Coq Require Import ZArith List Bool.
From Verif Require Import Base Packet VoiceSpec.
Import ListNotations.
Local Open Scope Z_scope.

(* a message of either protocol with its group and channel *)
Inductive heard_message : Type :=
| Midi1 (g ch : Z) (m : m1msg)
| Midi2 (g ch : Z) (m : m2msg).
Definition message_ok (m : heard_message) : Prop :=
  match m with
  | Midi1 g ch m => address g ch /\ m1_ok m
  | Midi2 g ch m => address g ch /\ m2_ok m
  end.
Definition message_packet (m : heard_message) : packet :=
  match m with Midi1 g ch m => layout1 g ch m | Midi2 g ch m => layout2 g ch m end.

(* a MIDI 1 message means what its translation means; those without are of no interest here *)
Definition meaning_of (m : heard_message) : list (Z * Z * m2msg) :=
  match m with
  | Midi1 g ch m => match translate_to_midi2 m with Some m' => [(g, ch, m')] | None => [] end
  | Midi2 g ch m => [(g, ch, m)]
  end.
(* the latest message first *)
Definition history (ms : list heard_message) : list (Z * Z * m2msg) := rev (concat (map meaning_of ms)).

Definition on_channel (g ch : Z) (h : list (Z * Z * m2msg)) : list m2msg :=
  map snd (filter (fun x => (fst (fst x) =? g) && (snd (fst x) =? ch)) h).

(* the latest value, of those messages that have one *)
Fixpoint latest (f : m2msg -> option Z) (default : Z) (h : list m2msg) : Z :=
  match h with
  | [] => default
  | m :: t => match f m with Some v => v | None => latest f default t end
  end.

Definition bend_in (m : m2msg) : option Z := match m with PitchBend2 v => Some v | _ => None end.
(* RPN 0/0; the MIDI 1 resolution of 14 bits *)
Definition range_in (m : m2msg) : option Z :=
  match m with RegisteredCtrl b i v => if (b =? 0) && (i =? 0) then Some (v / 262144 * 262144) else None | _ => None end.
(* RPN 0/7 *)
Definition note_range_in (m : m2msg) : option Z :=
  match m with RegisteredCtrl b i v => if (b =? 0) && (i =? 7) then Some v else None | _ => None end.
(* a note starts unbent *)
Definition note_bend_in (n : Z) (m : m2msg) : option Z :=
  match m with
  | NoteOn2 n' _ _ _ => if n' =? n then Some 0x80000000 else None
  | PerNotePitchBend n' v => if n' =? n then Some v else None
  | _ => None
  end.

(* the pitch without bends of a note that sounds: that of the attribute, of a later per-note controller 3, or of the
   note number; in units of 2^-25 semitones *)
Fixpoint unbent (n : Z) (h : list m2msg) : option Z :=
  match h with
  | [] => None
  | NoteOn2 n' _ a d :: t => if n' =? n then Some ((if a =? 3 then d else 512 * n) * 65536) else unbent n t
  | NoteOff2 n' _ _ _ :: t => if n' =? n then None else unbent n t
  | RegisteredPerNote n' i v :: t => if (n' =? n) && (i =? 3) then option_map (fun _ => v) (unbent n t) else unbent n t
  | _ :: t => unbent n t
  end.

Definition limited (lo hi x : Z) : Z := Z.max lo (Z.min hi x).
(* how far a bend moves a note: its part of the range, towards zero, within the 32 bits of an increment *)
Definition moved (bend range : Z) : Z :=
  limited (-2147483648) 2147483647 (Z.quot ((bend - 0x80000000) * range) 0x80000000).

(* two semitones *)
Definition usual_range : Z := 2 * 33554432.

Definition sounds (g ch n : Z) (h : list (Z * Z * m2msg)) : option Z :=
  let l := on_channel g ch h in
  option_map (fun base =>
    limited 0 4294967295
      (limited 0 4294967295 (base + moved (latest bend_in 0x80000000 l) (latest range_in usual_range l)) +
       moved (latest (note_bend_in n) 0x80000000 l) (latest note_range_in usual_range l))) (unbent n l).

(* what passes through MIDI 1 *)
Definition passes (m : heard_message) : Prop :=
  match m with Midi1 _ _ _ => False | Midi2 g ch m => translate_to_midi1 m <> None end.
