(* Property C100: sixteen MIDI 1 ports over one connection *)
From Coq Require Import ZArith List Bool Lia.
From Verif Require Import Base Packet PacketSpec Messages ByteStream ChannelVoice Utility StreamSpec BridgeSpec WireSpec.
From Verif Require Import Ports PortsSpec PortsProofs PropsStream.
Import ListNotations.
Local Open Scope Z_scope.

(* Any bytes arrive at the sixteen ports of one interface in any order; its packets, with packets of other types anywhere
   between them, are transmitted as words, which arrive in pieces of any size at a second interface.  A parser behind port k of
   the second, in any state, reports what a new parser with its configuration reports for the bytes of port k of the first. *)
Theorem C100_ports : forall gr cb Q sched,
  (forall k, 0 <= k < 16 -> reached (gr k) (cb k) (Q k)) ->
  Forall (fun x => 0 <= fst x < 16 /\ is_u8 (snd x)) sched ->
  exists P ps, ports_run new_ports sched = Ok (P, ps) /\
  forall qs pieces, among [1; 2; 3] ps qs -> concat pieces = transmission qs ->
  exists rs bytes, receive_pieces [] pieces = ([], rs) /\ ports_out rs = Ok bytes /\
    Forall (fun x => 0 <= fst x < 16) bytes /\
    forall k, 0 <= k < 16 -> exists st1 st2 out,
      feed_all (new_parser (gr k) (cb k) true) (of_port k sched) = Ok (st1, out) /\
      feed_all (Q k) (of_port k bytes) = Ok (st2, out).
Proof. exact ports. Qed.
Print Assumptions C100_ports.

(* A connection in the MIDI 2 protocol: only notes on with velocity 0 arrive as notes off. *)
Theorem C100_midi2_connection : forall gr cb Q sched,
  (forall k, 0 <= k < 16 -> reached (gr k) (cb k) (Q k)) ->
  Forall (fun x => 0 <= fst x < 16 /\ is_u8 (snd x)) sched ->
  exists P ps, ports_run new_ports sched = Ok (P, ps) /\
  forall qs pieces, among [1; 2; 3; 4] (map towards_midi2 ps) qs -> concat pieces = transmission qs ->
  exists rs bytes, receive_pieces [] pieces = ([], rs) /\ ports_out (map towards_midi1 rs) = Ok bytes /\
    Forall (fun x => 0 <= fst x < 16) bytes /\
    forall k, 0 <= k < 16 -> exists st1 st2 out,
      feed_all (new_parser (gr k) (cb k) true) (of_port k sched) = Ok (st1, out) /\
      feed_all (Q k) (of_port k bytes) = Ok (st2, map (packet_map off_for_zero) out).
Proof. exact ports_midi2. Qed.
Print Assumptions C100_midi2_connection.

(* A receiver that has no ports but works with packets gets on group k what a parser for group k makes of the bytes of port k. *)
Theorem C100_packets : forall sched, Forall (fun x => 0 <= fst x < 16 /\ is_u8 (snd x)) sched ->
  exists P ps, ports_run new_ports sched = Ok (P, ps) /\
  forall qs pieces, among [1; 2; 3] ps qs -> concat pieces = transmission qs ->
  exists rs, receive_pieces [] pieces = ([], rs) /\
    forall k, 0 <= k < 16 -> feed_all (new_parser k false true) (of_port k sched) = Ok (P k, map EPacket (filter (from_port k) rs)).
Proof. exact packets_of_port. Qed.
Print Assumptions C100_packets.

(* ---- a concrete case ---------------------------------------------------------------------------- *)

(* port 0 gets a SysEx with a clock within it, port 15 two notes with running status, interleaved *)
Definition c100_schedule : list (Z * Z) :=
  [(0, 0xF0); (15, 0x90); (0, 0x7E); (15, 0x3C); (0, 0xF8); (15, 0x40); (0, 1); (0, 2); (15, 0x3C); (0, 3); (0, 4); (0, 5); (15, 0); (0, 6); (0, 0xF7)].
Definition c100_packets : list packet :=
  [mkP 0x10F80000 0 0 0; mkP 0x2F903C40 0 0 0; mkP 0x30167E01 0x02030405 0 0; mkP 0x2F903C00 0 0 0; mkP 0x30310600 0 0 0].
(* a jitter reduction timestamp, and a SysEx8 packet whose payload is not read by anyone *)
Definition c100_sent : list packet :=
  [mkP 0x10F80000 0 0 0; mkP 0x00201234 0 0 0; mkP 0x2F903C40 0 0 0; mkP 0x30167E01 0x02030405 0 0;
   mkP 0x50020000 0xF0F0F0F0 1 2; mkP 0x2F903C00 0 0 0; mkP 0x30310600 0 0 0].
Definition c100_pieces : list (list Z) :=
  [[0x10F80000; 0x00201234; 0x2F903C40; 0x30167E01]; []; [0x02030405; 0x50020000; 0xF0F0F0F0]; [1; 2; 0x2F903C00; 0x30310600; 0]].

Example C100_ex : Forall (fun x => 0 <= fst x < 16 /\ is_u8 (snd x)) c100_schedule /\ reached 5 true (sample_state true) /\
  (exists P, ports_run new_ports c100_schedule = Ok (P, c100_packets)) /\
  among [1; 2; 3] c100_packets c100_sent /\ concat c100_pieces = transmission c100_sent /\
  (exists bytes, ports_out (snd (receive_pieces [] c100_pieces)) = Ok bytes /\
     of_port 0 bytes = [0xF8; 0xF0; 0x7E; 1; 2; 3; 4; 5; 6; 0xF7] /\ of_port 15 bytes = [0x90; 0x3C; 0x40; 0x90; 0x3C; 0]).
Proof.
  split; [unfold c100_schedule; repeat (constructor; [cbn; unfold is_u8; lia|]); constructor|].
  split; [apply sample_reached|]. split; [eexists; vm_compute; reflexivity|]. split; [|split; [reflexivity|]].
  - unfold c100_packets, c100_sent.
    assert (W : forall a b c d, is_u32 a -> is_u32 b -> is_u32 c -> is_u32 d -> wf_packet (mkP a b c d)) by (intros; repeat split; cbn; apply H || apply H0 || apply H1 || apply H2).
    repeat first [apply among_keep|apply among_nil|apply among_other; [apply W; unfold is_u32; lia|vm_compute; intros [|[|[|]]]; congruence|]].
  - eexists. split; [vm_compute; reflexivity|]. split; reflexivity.
Qed.

(* the same over a MIDI 2 connection: the second note on with velocity 0 becomes a note off *)
Example C100_ex_midi2 : exists qs, map towards_midi2 c100_packets = qs /\ among [1; 2; 3; 4] qs qs /\
  (exists bytes, ports_out (map towards_midi1 (snd (receive_pieces [] [transmission qs]))) = Ok bytes /\
     of_port 0 bytes = [0xF8; 0xF0; 0x7E; 1; 2; 3; 4; 5; 6; 0xF7] /\ of_port 15 bytes = [0x90; 0x3C; 0x40; 0x80; 0x3C; 0x40]).
Proof.
  eexists. split; [vm_compute; reflexivity|]. split; [repeat constructor|].
  eexists. split; [vm_compute; reflexivity|]. split; reflexivity.
Qed.

(* One parser for all ports does not do: it mixes their messages. *)
Theorem C100_one_parser_refuted : exists sched, Forall (fun x => 0 <= fst x < 16 /\ is_u8 (snd x)) sched /\
  exists st st' out out', feed_all (new_parser 0 false true) (map snd sched) = Ok (st, out) /\
    feed_all (new_parser 0 false true) (of_port 0 sched) = Ok (st', out') /\ out' <> [] /\ forall e, In e out' -> ~ In e out.
Proof.
  exists [(0, 0x90); (1, 0xF6); (0, 0x3C); (0, 0x40)].
  split; [repeat (constructor; [cbn; unfold is_u8; lia|]); constructor|].
  do 4 eexists. split; [vm_compute; reflexivity|]. split; [vm_compute; reflexivity|]. split; [discriminate|].
  intros e [<-|[]] [X|[]]; discriminate.
Qed.
Print Assumptions C100_one_parser_refuted.
