(* A MIDI 1 session: messages of any kind, carried by packets, with real-time messages
   anywhere between the packets.  The packet layouts are those of StreamSpec.v. *)
From Coq Require Import ZArith List Bool.
From Verif Require Import Base Packet ByteStream Sysex StreamSpec.
Import ListNotations.
Local Open Scope Z_scope.

(* a channel voice or system common message, or a SysEx with the bytes between F0 and F7 *)
Inductive midi_message : Type :=
| Short (m : message)
| SysExBytes (ds : list Z).

Definition valid_midi_message (m : midi_message) : Prop :=
  match m with
  | Short m => valid_message m
  | SysExBytes ds => ds <> [] /\ Forall is_u7 ds
  end.

(* The payload of a SysEx divided over packets: at most six bytes each; *)
Definition divided (chunks : list (list Z)) : Prop :=
  chunks <> [] /\ Forall (fun c => (length c <= 6)%nat) chunks.
(* filled up: every packet but the last carries six bytes and the last carries fewer. *)
Fixpoint filled (chunks : list (list Z)) : Prop :=
  match chunks with
  | [] => False
  | [c] => (length c < 6)%nat
  | c :: rest => length c = 6%nat /\ filled rest
  end.

(* The packets of a message on group [g], its SysEx payload divided as [D] allows. *)
Definition carried (D : list (list Z) -> Prop) (gm : Z * midi_message) (ps : list packet) : Prop :=
  0 <= fst gm < 16 /\ valid_midi_message (snd gm) /\
  match snd gm with
  | Short m => ps = [short_packet (fst gm) (ms_status m) (ms_data m)]
  | SysExBytes ds => exists chunks, D chunks /\ concat chunks = ds /\ ps = sx7_sequence (fst gm) chunks
  end.

(* messages one after the other, each with its group *)
Inductive session (D : list (list Z) -> Prop) : list (Z * midi_message) -> list packet -> Prop :=
| session_nil : session D [] []
| session_cons gm gms ps qs : carried D gm ps -> session D gms qs -> session D (gm :: gms) (ps ++ qs).

(* Real-time messages (group, status byte) inserted between any two packets, also between
   the packets of one SysEx. *)
Inductive realtime_between : list (Z * Z) -> list packet -> list packet -> Prop :=
| between_nil : realtime_between [] [] []
| between_keep rs p ps qs : realtime_between rs ps qs -> realtime_between rs (p :: ps) (p :: qs)
| between_insert g r rs ps qs : 0 <= g < 16 -> 0xF8 <= r < 256 -> rt_defined r = true ->
    realtime_between rs ps qs -> realtime_between ((g, r) :: rs) ps (short_packet g r [] :: qs).

Definition regroup {A} (g : Z) (l : list (Z * A)) : list (Z * A) := map (fun x => (g, snd x)) l.

(* what a parser with a SysEx callback delivers on group g *)
Definition delivered (g : Z) (gm : Z * midi_message) : list event :=
  match snd gm with
  | Short m => [EPacket (short_packet g (ms_status m) (ms_data m))]
  | SysExBytes ds => match sx_decode ds with Some s => [ESysex s] | None => [] end
  end.
