(* What makes looking at traffic undefined: two defects of the library, given by the bits that arrive. *)
From Coq Require Import ZArith List Bool.
From Verif Require Import Base Packet Messages Sysex ByteStream Collector Receiver.
Import ListNotations.
Local Open Scope Z_scope.

(* message type 2, status nibble E, second data byte above 127 *)
Definition bad_packet (p : packet) : Prop :=
  w0 p / 268435456 = 2 /\ w0 p / 1048576 mod 16 = 14 /\ 128 <= w0 p mod 256.

(* universal non-realtime SysEx with less than four data bytes *)
Definition bad_message (s : sysex) : Prop := sx_id s = 0x7E0000 /\ (length (sx_data s) < 4)%nat.

(* traffic: any 128 bit packets; any other calls of the collectors *)
Definition any_traffic (ks : list collector_call) : Prop :=
  Forall (fun k => match k with KFeed p => wf_packet p | _ => True end) ks.

(* such a packet arrives, or such a message is completed *)
Definition upset (ks : list collector_call) (o : list sight) : Prop :=
  (exists p, In (KFeed p) ks /\ bad_packet p) \/ (exists s l, In (Message7 s l) o /\ bad_message s).
