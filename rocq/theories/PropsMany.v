(* Property C69: the messages of several senders on one connection *)
From Coq Require Import ZArith List Bool Lia.
From Verif Require Import Base Packet PacketSpec Sysex Collector StreamSpec CollectSpec ManySpec ManyProofs PropsCollect.
Import ListNotations.
Local Open Scope Z_scope.
Local Open Scope res_scope.

(* [ms k] are the messages sent on group [k]; [t] is the interleaved traffic, together with
   any packets that are not of type data 64-bit.  A collector that is passed the packets of
   group [g] delivers the messages sent on that group and nothing else. *)
Theorem C69_group_delivered : forall a c g (ms : Z -> list sysex) (t : traffic Z),
  std_alloc a -> reached7 a 0 c -> c7_has_cb c = true -> 0 <= g < 16 ->
  (forall k p, In (Some k, p) t -> 0 <= k < 16) ->
  (forall k, 0 <= k < 16 -> Forall sendable7 (ms k) /\
     sent_messages (fun m => send_sysex7 m k) (ms k) (sent_by (Z.eqb k) t)) ->
  Forall (fun p => wf_packet p /\ type p <> 3) (other_traffic t) ->
  exists c', c7_calls a c (map KFeed (filter (for_group g) (map snd t))) = Ok (c', ms g).
Proof. exact each_group. Qed.
Print Assumptions C69_group_delivered.

Definition c69_m0 : sysex := mkSx 0x7D0000 [1; 2; 3; 4; 5; 6].
Definition c69_m1 : sysex := mkSx 0x430000 [9; 8; 7; 6; 5; 4].
Definition c69_traffic : traffic Z :=
  [(Some 0, mkP 0x30167D01 0x02030405 0 0); (None, mkP 0x20903C40 0 0 0); (Some 1, mkP 0x31164309 0x08070605 0 0);
   (Some 0, mkP 0x30310600 0 0 0); (Some 1, mkP 0x31310400 0 0 0)].
Definition c69_ms (k : Z) : list sysex := if k =? 0 then [c69_m0] else if k =? 1 then [c69_m1] else [].

Example C69_ex :
  (forall k p, In (Some k, p) c69_traffic -> 0 <= k < 16) /\
  (forall k, 0 <= k < 16 -> Forall sendable7 (c69_ms k) /\
     sent_messages (fun m => send_sysex7 m k) (c69_ms k) (sent_by (Z.eqb k) c69_traffic)) /\
  Forall (fun p => wf_packet p /\ type p <> 3) (other_traffic c69_traffic).
Proof.
  split; [|split].
  - intros k p H. repeat (destruct H as [H|H]; [first [discriminate|injection H as <- _; lia]|]). destruct H.
  - intros k K. unfold c69_ms. destruct (Z.eqb_spec k 0) as [->|N0]; [|destruct (Z.eqb_spec k 1) as [->|N1]].
    + split; [|exists [[mkP 0x30167D01 0x02030405 0 0; mkP 0x30310600 0 0 0]]; split; [repeat constructor|reflexivity]].
      constructor; [|constructor]. split; [left; exists 0x7D; cbn; lia|]. split; [discriminate|]. repeat constructor; unfold is_u7; lia.
    + split; [|exists [[mkP 0x31164309 0x08070605 0 0; mkP 0x31310400 0 0 0]]; split; [repeat constructor|reflexivity]].
      constructor; [|constructor]. split; [left; exists 0x43; cbn; lia|]. split; [discriminate|]. repeat constructor; unfold is_u7; lia.
    + split; [constructor|]. exists []. split; [constructor|]. unfold sent_by, c69_traffic. cbn [filter fst].
      destruct (Z.eqb_spec k 0); [lia|]. destruct (Z.eqb_spec k 1); [lia|]. reflexivity.
  - constructor; [|constructor]. split; [repeat split; cbn; lia|discriminate].
Qed.

(* The same for SysEx8 with one collector per group and stream id. *)
Theorem C69_stream_delivered : forall a c g i (ms : Z -> Z -> list sysex) (t : traffic (Z * Z)),
  std_alloc a -> reached8 a 0 c -> c8_has_cb c = true -> 0 <= g < 16 -> is_u8 i ->
  (forall k j p, In (Some (k, j), p) t -> 0 <= k < 16 /\ is_u8 j) ->
  (forall k j, 0 <= k < 16 -> is_u8 j -> Forall sendable8 (ms k j) /\
     sent_messages (fun m => send_sysex8 m j k) (ms k j) (sent_by (is_key (k, j)) t)) ->
  Forall (fun p => wf_packet p /\ type p <> 5) (other_traffic t) ->
  exists c', c8_calls a c (map KFeed (filter (for_stream g i) (map snd t))) = Ok (c', map (fun m => (m, i)) (ms g i)).
Proof. exact each_stream. Qed.
Print Assumptions C69_stream_delivered.

Example C69_stream_ex : sendable8 (mkSx 0x7D0000 [200; 7]) /\
  send_sysex8 (mkSx 0x7D0000 [200; 7]) 3 1 = Ok [mkP 0x51050300 0x7DC80700 0 0] /\
  for_stream 1 3 (mkP 0x51050300 0x7DC80700 0 0) = true /\ for_stream 1 4 (mkP 0x51050300 0x7DC80700 0 0) = false.
Proof.
  split; [|repeat split; reflexivity]. split; [left; exists 0x7D; cbn; lia|].
  split; [repeat constructor; unfold is_u8; lia|]. unfold miscounted8, size. cbn. lia.
Qed.

(* Finding: a collector does not look at the group.  One collector for the traffic of two
   groups delivers a message nobody sent. *)
Theorem C69_one_collector_refuted : exists c,
  c7_calls plain_alloc (new_collector7 true) (map KFeed (map snd c69_traffic)) = Ok (c, [mkSx 0x430000 [9; 8; 7; 6; 5; 6]]).
Proof. eexists. vm_compute. reflexivity. Qed.
Print Assumptions C69_one_collector_refuted.
