(* Several senders on one connection: their packets are interleaved in any way, and the
   receiver keeps one collector per group (SysEx7) or per group and stream (SysEx8). *)
From Coq Require Import ZArith List Bool.
From Verif Require Import Base Packet PacketSpec Sysex StreamSpec CollectSpec.
Import ListNotations.
Local Open Scope Z_scope.

(* The traffic on the connection; every packet is labelled with its sender, [None] for
   traffic other than SysEx. *)
Definition traffic (K : Type) : Type := list (option K * packet).

Definition sent_by {K} (is_k : K -> bool) (t : traffic K) : list packet :=
  map snd (filter (fun x => match fst x with Some k => is_k k | None => false end) t).
Definition other_traffic {K} (t : traffic K) : list packet :=
  map snd (filter (fun x => match fst x with Some _ => false | None => true end) t).

(* [ps] are the packets of the messages [ms], one message after the other *)
Definition sent_messages (send : sysex -> res (list packet)) (ms : list sysex) (ps : list packet) : Prop :=
  exists pss, Forall2 (fun m qs => send m = Ok qs) ms pss /\ ps = concat pss.

Definition sendable7 (m : sysex) : Prop := valid_id (sx_id m) /\ sx_id m <> 0 /\ Forall is_u7 (sx_data m).
Definition sendable8 (m : sysex) : Prop :=
  valid_id (sx_id m) /\ Forall is_u8 (sx_data m) /\ ~ miscounted8 (sx_id m) (size (sx_data m)).

(* the packets the receiver passes on to a collector *)
Definition for_group (g : Z) (p : packet) : bool := nth 0 (bytes p) 0 mod 16 =? g.
Definition for_stream (g i : Z) (p : packet) : bool :=
  (nth 0 (bytes p) 0 =? 5 * 16 + g) && (nth 2 (bytes p) 0 =? i).

(* the sender on group [fst k] with stream [snd k] *)
Definition is_key (k x : Z * Z) : bool := (fst k =? fst x) && (snd k =? snd x).
