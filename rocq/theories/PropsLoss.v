(* C101: errors on a connection stay local *)
From Coq Require Import ZArith List Bool Lia.
From Verif Require Import Base Packet PacketSpec Sysex Collector ByteStream StreamSpec CollectSpec ManySpec SessionSpec MergeSpec
  PortsSpec LossSpec LossProofs PropsStream PropsCollect.
Import ListNotations.
Local Open Scope Z_scope.

(* Whatever happens to parts of a MIDI 1 stream, everything between them arrives as it was sent,
   whatever the parser was doing before. *)
Theorem C101_bytes : forall g cb st l, reached g cb st -> Forall stretch_ok l ->
  exists st' outs, feed_all st (concat (map stretch_bytes l)) = Ok (st', concat outs) /\ Forall2 (stretch_heard g cb) l outs.
Proof. intros g cb st l R F. exact (stretches g cb l st R F). Qed.
Print Assumptions C101_bytes.
(* a note on without its last byte, an intact SysEx and note with a clock, stray data, a note with running status *)
Definition damaged_stream : list stretch :=
  [Damaged [0x90; 0x3C]; Intact [SysExBytes [0x7E; 1; 2]; Short (mkMsg 0x90 [0x40; 0x41])] [0xF8] [0xF0; 0x7E; 1; 0xF8; 2; 0xF7; 0x90; 0x40; 0x41];
   Damaged [0x11; 0xF7; 0xF0; 0x01]; Intact [Short (mkMsg 0x80 [1; 2]); Short (mkMsg 0x80 [3; 4])] [] [0x80; 1; 2; 3; 4]].
Example C101_bytes_ex : Forall stretch_ok damaged_stream /\ reached 5 true (sample_state true).
Proof.
  assert (V : forall s a b, 0x80 <= s < 0xC0 -> is_u7 a -> is_u7 b -> valid_message (mkMsg s [a; b])).
  { intros s a b S A B. split; [left|cbn; constructor; [assumption|constructor; [assumption|constructor]]]. cbn [ms_status ms_data length]. split; [lia|].
    unfold cv_len. replace (0xC0 <=? s) with false by lia. reflexivity. }
  split; [|apply sample_reached]. unfold damaged_stream. constructor; [repeat constructor; unfold is_u8; lia|].
  constructor; [|constructor; [repeat constructor; unfold is_u8; lia|constructor; [|constructor]]].
  - split; [repeat constructor; unfold is_u8; lia|]. split; [|reflexivity]. cbn [filter Z.ltb Z.compare Pos.compare Pos.compare_cont].
    apply (cable_sysex None [0x7E; 1; 2] _ [0x90; 0x40; 0x41]); [discriminate|repeat constructor; unfold is_u7; lia|].
    apply (cable_full None (mkMsg 0x90 [0x40; 0x41]) [] []); [apply V; unfold is_u7; lia|constructor].
  - split; [repeat constructor; unfold is_u8; lia|]. split; [|reflexivity]. cbn [filter Z.ltb Z.compare Pos.compare Pos.compare_cont].
    apply (cable_full None (mkMsg 0x80 [1; 2]) _ [3; 4]); [apply V; unfold is_u7; lia|].
    apply (cable_running (mkMsg 0x80 [3; 4]) [] []); [apply V; unfold is_u7; lia|reflexivity|constructor].
Qed.

(* The same for SysEx packets. *)
Theorem C101_packets7 : forall a c g l, std_alloc a -> reached7 a 0 c -> c7_has_cb c = true -> 0 <= g < 16 ->
  Forall (packets_ok 3 (fun m => send_sysex7 m g) sendable7) l ->
  exists c' outs, c7_calls a c (map KFeed (concat (map snd l))) = Ok (c', concat outs) /\
    Forall2 (packets_heard (fun m => m)) l outs.
Proof. exact damaged7. Qed.
Print Assumptions C101_packets7.
Theorem C101_packets8 : forall a c g i l, std_alloc a -> reached8 a 0 c -> c8_has_cb c = true -> 0 <= g < 16 -> is_u8 i ->
  Forall (packets_ok 5 (fun m => send_sysex8 m i g) sendable8) l ->
  exists c' outs, c8_calls a c (map KFeed (concat (map snd l))) = Ok (c', concat outs) /\
    Forall2 (packets_heard (fun m => (m, i))) l outs.
Proof. exact damaged8. Qed.
Print Assumptions C101_packets8.

(* Messages of which any packets are lost: those of which none is lost are delivered, those whose
   last packet is lost are not, and nothing is invented, repeated or put in another order. *)
Theorem C101_lost7 : forall a g l, std_alloc a -> 0 <= g < 16 -> Forall (lossy (fun m => send_sysex7 m g) sendable7) l ->
  exists c' outs, c7_calls a (new_collector7 true) (map KFeed (concat (map snd l))) = Ok (c', concat outs) /\
    Forall2 (lossy_heard (fun m => send_sysex7 m g)) l outs /\
    sublist (concat (map bytes7 (concat outs))) (concat (map bytes7 (map fst l))) /\
    Forall (fun v => In (sx_id v) (map (fun s => sx_id (fst s)) l)) (concat outs).
Proof. exact lost7. Qed.
Print Assumptions C101_lost7.
Theorem C101_lost8 : forall a g i l, std_alloc a -> 0 <= g < 16 -> is_u8 i ->
  Forall (lossy (fun m => send_sysex8 m i g) sendable8) l ->
  exists c' outs, c8_calls a (new_collector8 true) (map KFeed (concat (map snd l))) = Ok (c', map (fun v => (v, i)) (concat outs)) /\
    Forall2 (lossy_heard (fun m => send_sysex8 m i g)) l outs /\
    sublist (concat (map bytes8 (concat outs))) (concat (map bytes8 (map fst l))) /\
    Forall (fun v => In (sx_id v) (map (fun s => sx_id (fst s)) l)) (concat outs).
Proof. exact lost8. Qed.
Print Assumptions C101_lost8.

(* two messages of three packets each *)
Definition first_sent : sysex := mkSx 0x7E0000 [1; 2; 3; 4; 5; 6; 7; 8; 9; 10; 11; 12; 13].
Definition second_sent : sysex := mkSx 0x2033 [21; 22; 23; 24; 25; 26; 27; 28; 29; 30; 31; 32; 33].
Definition first_packets : list packet :=
  [mkP 0x30167E01 0x02030405 0 0; mkP 0x30260607 0x08090A0B 0 0; mkP 0x30320C0D 0 0 0].
Definition second_packets : list packet :=
  [mkP 0x30160020 0x33151617 0 0; mkP 0x30261819 0x1A1B1C1D 0 0; mkP 0x30341E1F 0x20210000 0 0].
Lemma both_sent : send_sysex7 first_sent 0 = Ok first_packets /\ send_sysex7 second_sent 0 = Ok second_packets.
Proof. split; reflexivity. Qed.
Lemma both_sendable : sendable7 first_sent /\ sendable7 second_sent.
Proof.
  split; (split; [|split; [discriminate|cbn; repeat (constructor; [unfold is_u7; lia|]); constructor]]).
  - left. exists 0x7E. split; [lia|reflexivity].
  - right. exists 0x20, 0x33. unfold is_u7. repeat split; lia.
Qed.
Lemma lossy_sample m ps qs : sendable7 m -> send_sysex7 m 0 = Ok ps -> sublist qs ps ->
  lossy (fun m => send_sysex7 m 0) sendable7 (m, qs).
Proof. intros. split; [assumption|]. exists ps. auto. Qed.

(* noise, a message with a timing packet inside, a beginning without end, a message *)
Definition damaged_packets : list (option sysex * list packet) :=
  [(None, [mkP 0x30220102 0 0 0]);
   (Some first_sent, [mkP 0x30167E01 0x02030405 0 0; mkP 0x10F80000 0 0 0; mkP 0x30260607 0x08090A0B 0 0; mkP 0x30320C0D 0 0 0]);
   (None, [mkP 0x30147E01 0x02030000 0 0]); (Some second_sent, second_packets)].
Example C101_packets7_ex : Forall (packets_ok 3 (fun m => send_sysex7 m 0) sendable7) damaged_packets.
Proof.
  destruct both_sent as [S1 S2], both_sendable as [O1 O2]. unfold damaged_packets.
  assert (W : forall x y, is_u32 x -> is_u32 y -> wf_packet (mkP x y 0 0)) by (intros x y X Y; repeat split; try apply X; try apply Y; vm_compute; discriminate).
  constructor; [|constructor; [|constructor; [|constructor; [|constructor]]]]; unfold packets_ok; cbn [fst snd].
  - constructor; [apply W; unfold is_u32; lia|constructor].
  - split; [exact O1|]. exists first_packets. split; [exact S1|]. constructor. constructor; [apply W; unfold is_u32; lia| |repeat constructor].
    cbn. intros [X|[]]. discriminate.
  - constructor; [apply W; unfold is_u32; lia|constructor].
  - split; [exact O2|]. exists second_packets. split; [exact S2|]. repeat constructor.
Qed.

(* The whole of the second message is received; of the first the last packet was lost. *)
Example C101_lost7_ex : Forall (lossy (fun m => send_sysex7 m 0) sendable7)
    [(first_sent, firstn 2 first_packets); (second_sent, second_packets)] /\
  exists c, c7_calls plain_alloc (new_collector7 true) (map KFeed (firstn 2 first_packets ++ second_packets)) = Ok (c, [second_sent]).
Proof.
  destruct both_sent as [S1 S2], both_sendable as [O1 O2]. split; [|vm_compute; eauto].
  constructor; [|constructor; [|constructor]].
  - apply (lossy_sample _ first_packets); trivial. cbn. repeat constructor.
  - apply (lossy_sample _ second_packets); trivial. cbn. repeat constructor.
Qed.
Example C101_lost8_ex : sendable8 first_sent /\ exists p q, send_sysex8 first_sent 7 0 = Ok [p; q] /\ sublist [q] [p; q].
Proof.
  split.
  - split; [left; exists 0x7E; split; [lia|reflexivity]|]. split; [cbn; repeat (constructor; [unfold is_u8; lia|]); constructor|].
    unfold miscounted8. cbn. lia.
  - do 2 eexists. split; [vm_compute; reflexivity|]. repeat constructor.
Qed.

(* A lost packet within a message goes unnoticed: the message is delivered without its bytes; *)
Theorem C101_hole_refuted : exists qs v c, lossy (fun m => send_sysex7 m 0) sendable7 (first_sent, qs) /\
  c7_calls plain_alloc (new_collector7 true) (map KFeed qs) = Ok (c, [v]) /\ v <> first_sent.
Proof.
  exists [nth 0 first_packets (mkP 0 0 0 0); nth 2 first_packets (mkP 0 0 0 0)]. do 2 eexists. split.
  - apply (lossy_sample _ first_packets); [apply both_sendable|apply both_sent|]. cbn. repeat constructor.
  - split; [vm_compute; reflexivity|discriminate].
Qed.
Print Assumptions C101_hole_refuted.
(* and if the end of a message and the beginning of the next are lost, a mixture of both is delivered. *)
Theorem C101_mixture_refuted : exists qs1 qs2 c,
  Forall (lossy (fun m => send_sysex7 m 0) sendable7) [(first_sent, qs1); (second_sent, qs2)] /\
  c7_calls plain_alloc (new_collector7 true) (map KFeed (qs1 ++ qs2)) =
    Ok (c, [mkSx (sx_id first_sent) (firstn 11 (sx_data first_sent) ++ skipn 3 (sx_data second_sent))]).
Proof.
  exists (firstn 2 first_packets), (skipn 1 second_packets). eexists. split.
  - destruct both_sent as [S1 S2], both_sendable as [O1 O2]. constructor; [|constructor; [|constructor]].
    + apply (lossy_sample _ first_packets); trivial. cbn. repeat constructor.
    + apply (lossy_sample _ second_packets); trivial. cbn. repeat constructor.
  - vm_compute. reflexivity.
Qed.
Print Assumptions C101_mixture_refuted.
