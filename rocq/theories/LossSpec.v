(* What is expected when a connection damages or loses traffic. *)
From Coq Require Import ZArith List Bool.
From Verif Require Import Base Packet Sysex ByteStream StreamSpec SessionSpec CollectSpec MergeSpec PortsSpec.
Import ListNotations.
Local Open Scope Z_scope.

(* the first list is the second one with elements left out *)
Inductive sublist {A} : list A -> list A -> Prop :=
| sub_nil : sublist [] []
| sub_keep x l m : sublist l m -> sublist (x :: l) (x :: m)
| sub_drop x l m : sublist l m -> sublist l (x :: m).

(* ---- MIDI 1 bytes --------------------------------------------------------------------------- *)

(* a stretch of a connection: messages with real-time bytes among them as they were sent, or
   anything else (bytes lost, changed or invented) *)
Inductive stretch : Type :=
| Intact (ms : list midi_message) (rts : list Z) (bs : list Z)
| Damaged (bs : list Z).
Definition stretch_bytes (s : stretch) : list Z := match s with Intact _ _ bs => bs | Damaged bs => bs end.
Definition stretch_ok (s : stretch) : Prop :=
  match s with Intact ms rts bs => on_cable ms rts bs | Damaged bs => Forall is_u8 bs end.
(* what is reported for an intact stretch: to a SysEx callback, or as packets *)
Definition stretch_heard (g : Z) (cb : bool) (s : stretch) (ev : list event) : Prop :=
  match s with
  | Damaged _ => True
  | Intact ms rts _ =>
      filter is_realtime_event ev = map (fun r => EPacket (short_packet g r [])) rts /\
      if cb then filter not_rt_event ev = concat (map (reported g) ms)
      else sent_as ms rts (packets_of ev)
  end.

(* ---- SysEx packets -------------------------------------------------------------------------- *)

(* a stretch of packets: one message as it was sent, packets of types other than [t] among
   its packets, or anything else *)
Definition packets_ok (t : Z) (send : sysex -> res (list packet)) (ok : sysex -> Prop) (s : option sysex * list packet) : Prop :=
  match fst s with
  | Some m => ok m /\ exists ps, send m = Ok ps /\ among [t] ps (snd s)
  | None => Forall wf_packet (snd s)
  end.
Definition packets_heard {A} (as_heard : sysex -> A) (s : option sysex * list packet) (out : list A) : Prop :=
  match fst s with Some m => out = [as_heard m] | None => True end.

(* a message of which some packets may have been lost *)
Definition lossy (send : sysex -> res (list packet)) (ok : sysex -> Prop) (s : sysex * list packet) : Prop :=
  ok (fst s) /\ exists ps, send (fst s) = Ok ps /\ sublist (snd s) ps.
(* nothing is delivered before its last packet, and only once *)
Definition lossy_heard (send : sysex -> res (list packet)) (s : sysex * list packet) (out : list sysex) : Prop :=
  (length out <= 1)%nat /\
  forall ps, send (fst s) = Ok ps ->
    (snd s = ps -> out = [fst s]) /\ (sublist (snd s) (removelast ps) -> out = []).

(* the bytes of a message, manufacturer id first *)
Definition bytes7 (m : sysex) : list Z := id_bytes (sx_id m) ++ sx_data m.
Definition bytes8 (m : sysex) : list Z := id_bytes8 (sx_id m) ++ sx_data m.
