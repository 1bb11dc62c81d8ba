(* C85: the group of a packet influences nothing but the group of what is made from it. *)
From Coq Require Import ZArith List Bool Lia.
From Verif Require Import Base Packet Messages Sysex DataPackets Utility ByteStream ChannelVoice Collector.
From Verif Require Import PacketSpec StreamSpec VoiceSpec CollectSpec GroupSpec GroupProofs PropsCollect.
Import ListNotations.
Local Open Scope Z_scope.

(* set_group makes the packet with the other group *)
Theorem C85_set_group p g : wf_packet p -> 0 <= g < 16 -> set_group p g = Ok (in_group g p).
Proof. exact (set_group_in p g). Qed.
Print Assumptions C85_set_group.
Example C85_set_group_ex : in_group 9 (mkP 0x4293_3C_05 1 2 3) = mkP 0x4993_3C_05 1 2 3.
Proof. reflexivity. Qed.

(* renaming the groups in the calls of a parser renames them in its output, and changes nothing else *)
Theorem C85_parser f g cb on cs : groups_to_groups f -> 0 <= g < 16 -> Forall valid_call cs -> exists st st' out,
  parser_calls (new_parser g cb on) cs = Ok (st, out) /\
  parser_calls (new_parser (f g) cb on) (map (regroup_call f) cs) = Ok (st', map (regroup_event f) out).
Proof. intros F. exact (parser_regroup f F g cb on cs). Qed.
Print Assumptions C85_parser.

(* groups exchanged in pairs; a parser whose group is changed within a message and within SysEx *)
Example C85_parser_ex :
  let f g := Z.lxor g 1 in
  let cs := [CFeed [0x92; 60]; CSetGroup 7; CFeed [100; 0xF0; 1; 2]; CSetGroup 4; CFeed [3; 4; 5; 6; 7; 0xF7]] in
  groups_to_groups f /\ Forall valid_call cs /\
  (exists st, parser_calls (new_parser 2 false true) cs =
     Ok (st, [EPacket (mkP 0x22923C64 0 0 0); EPacket (mkP 0x37160102 0x03040506 0 0); EPacket (mkP 0x34310700 0 0 0)])) /\
  (exists st, parser_calls (new_parser 3 false true) (map (regroup_call f) cs) =
     Ok (st, [EPacket (mkP 0x23923C64 0 0 0); EPacket (mkP 0x36160102 0x03040506 0 0); EPacket (mkP 0x35310700 0 0 0)])).
Proof.
  cbv zeta. split.
  { intros g G. assert (H : forallb (fun n => let x := Z.lxor (Z.of_nat n) 1 in (0 <=? x) && (x <? 16)) (seq 0 16) = true) by reflexivity.
    rewrite forallb_forall in H. specialize (H (Z.to_nat g)). cbv zeta in H. rewrite Z2Nat.id in H by lia.
    assert (I : In (Z.to_nat g) (seq 0 16)) by (apply in_seq; lia). apply H in I. apply andb_prop in I. lia. }
  split.
  { repeat (apply Forall_cons; [cbn; try lia; repeat (apply Forall_cons; [unfold is_u8; lia|]); apply Forall_nil|]). apply Forall_nil. }
  split; eexists; vm_compute; reflexivity.
Qed.

(* translation keeps the group and depends on it in no other way *)
Theorem C85_to_midi1 g p : wf_packet p -> 0 <= g < 16 -> to_midi1 (in_group g p) = option_map (in_group g) (to_midi1 p).
Proof. exact (to_midi1_blind g p). Qed.
Print Assumptions C85_to_midi1.

Theorem C85_to_midi2 g p : wf_packet p -> 0 <= g < 16 ->
  exists o, to_midi2 p = Ok o /\ to_midi2 (in_group g p) = Ok (option_map (in_group g) o).
Proof. exact (to_midi2_blind g p). Qed.
Print Assumptions C85_to_midi2.
Example C85_translation_ex :
  to_midi2 (mkP 0x21923C64 0 0 0) = Ok (Some (mkP 0x41923C00 0xC9240000 0 0)) /\
  to_midi2 (in_group 8 (mkP 0x21923C64 0 0 0)) = Ok (Some (mkP 0x48923C00 0xC9240000 0 0)) /\
  to_midi1 (in_group 8 (mkP 0x41923C00 0xC9240000 0 0)) = Some (mkP 0x28923C64 0 0 0).
Proof. vm_compute. intuition reflexivity. Qed.

(* the MIDI 1 bytes of a packet *)
Theorem C85_bytes g p : wf_packet p -> 0 <= g < 16 -> to_midi1_byte_stream (in_group g p) = to_midi1_byte_stream p.
Proof. intros W G. apply bytes_blind. now apply in_group_alike. Qed.
Print Assumptions C85_bytes.
Example C85_bytes_ex : to_midi1_byte_stream (in_group 8 (mkP 0x33320102 0 0 0)) = Ok [1; 2; 0xF7].
Proof. reflexivity. Qed.

(* collectors, after any history and among any other calls *)
Theorem C85_collector7 a ks ks' c : Forall2 same_call ks ks' -> c7_calls a c ks' = c7_calls a c ks.
Proof. intros S. now apply c7_calls_blind. Qed.
Print Assumptions C85_collector7.

Theorem C85_collector8 a ks ks' c : Forall2 same_call ks ks' -> c8_calls a c ks' = c8_calls a c ks.
Proof. intros S. now apply c8_calls_blind. Qed.
Print Assumptions C85_collector8.
(* the two packets of a message, each in another group *)
Example C85_collector_ex :
  Forall2 same_call [KFeed (mkP 0x30160701 0x02030405 0 0); KSetMax 100; KFeed (mkP 0x30310600 0 0 0)]
                    [KFeed (mkP 0x3B160701 0x02030405 0 0); KSetMax 100; KFeed (mkP 0x34310600 0 0 0)] /\
  (exists c, c7_calls plain_alloc (new_collector7 true) [KFeed (mkP 0x3B160701 0x02030405 0 0); KSetMax 100; KFeed (mkP 0x34310600 0 0 0)] =
    Ok (c, [mkSx 0x070000 [1; 2; 3; 4; 5; 6]])).
Proof.
  split; [|eexists; vm_compute; reflexivity].
  constructor; [apply (same_feed (mkP 0x30160701 0x02030405 0 0) 11); [vm_compute; intuition discriminate|lia]|].
  constructor; [apply same_other; discriminate|].
  constructor; [apply (same_feed (mkP 0x30310600 0 0 0) 4); [vm_compute; intuition discriminate|lia]|constructor].
Qed.

(* sending SysEx *)
Theorem C85_send7 s g g' : wf_sysex s -> 0 <= g < 16 -> 0 <= g' < 16 ->
  exists ps, send_sysex7 s g = Ok ps /\ send_sysex7 s g' = Ok (map (in_group g') ps).
Proof. exact (send7_blind s g g'). Qed.
Print Assumptions C85_send7.

Theorem C85_send8 id d i g g' : valid_id id -> Forall is_u8 d -> is_u8 i -> 0 <= g < 16 -> 0 <= g' < 16 ->
  exists ps, send_sysex8 (mkSx id d) i g = Ok ps /\ send_sysex8 (mkSx id d) i g' = Ok (map (in_group g') ps).
Proof. exact (send8_blind id d i g g'). Qed.
Print Assumptions C85_send8.
Example C85_send_ex :
  send_sysex7 (mkSx 0x070000 [1; 2; 3; 4; 5; 6]) 3 = Ok [mkP 0x33160701 0x02030405 0 0; mkP 0x33310600 0 0 0] /\
  send_sysex7 (mkSx 0x070000 [1; 2; 3; 4; 5; 6]) 12 = Ok [mkP 0x3C160701 0x02030405 0 0; mkP 0x3C310600 0 0 0].
Proof. split; reflexivity. Qed.

(* predicates and accessors other than the group *)
Theorem C85_yes_no q g p : In q yes_no_questions -> wf_packet p -> 0 <= g < 16 -> q (in_group g p) = q p.
Proof. intros I W G. apply yes_no; [now apply in_group_alike|exact I]. Qed.
Print Assumptions C85_yes_no.

Theorem C85_numbers q g p : In q number_questions -> wf_packet p -> 0 <= g < 16 -> q (in_group g p) = q p.
Proof. intros I W G. apply numbers; [now apply in_group_alike|exact I]. Qed.
Print Assumptions C85_numbers.

Theorem C85_checked q g p : In q checked_questions -> wf_packet p -> 0 <= g < 16 -> q (in_group g p) = q p.
Proof. intros I W G. apply checked; [now apply in_group_alike|exact I]. Qed.
Print Assumptions C85_checked.
Example C85_questions_ex :
  let p := mkP 0x4193_3C_05 0x12340000 0 0 in
  map (fun q => q p) checked_questions = [Ok 3; Ok 0x3C05; Ok 0x3C; Ok 0x12340000] /\
  is_note_on_message p = true /\ get_note_velocity p = 0x1234 /\ group p = 1 /\ group (in_group 5 p) = 5.
Proof. vm_compute. intuition reflexivity. Qed.
