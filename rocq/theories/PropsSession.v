(* Property C68: a session survives the way through a MIDI 1 byte stream *)
From Coq Require Import ZArith List Bool Lia.
From Verif Require Import Base Packet ByteStream Sysex StreamSpec SessionSpec SessionProofs PropsStream.
Import ListNotations.
Local Open Scope Z_scope.

Definition c68_messages : list midi_message :=
  [Short (mkMsg 0x93 [0x3C; 0x40]); SysExBytes [0x7E; 1; 2; 3; 4; 5; 6; 7]; Short (mkMsg 0xF6 [])].
Definition c68_packets : list packet :=
  [mkP 0x25933C40 0 0 0; mkP 0x35167E01 0x02030405 0 0; mkP 0x35320607 0 0 0; mkP 0x15F60000 0 0 0].

Lemma c68_valid : Forall valid_midi_message c68_messages.
Proof.
  constructor; [split; [left; cbn; lia|repeat constructor; unfold is_u7; lia]|].
  constructor; [split; [discriminate|repeat constructor; unfold is_u7; lia]|].
  constructor; [split; [right; reflexivity|constructor]|]. constructor.
Qed.

(* The packets of any messages on the parser's group, every SysEx in filled packets, with
   real-time messages between any of them: the parser emits exactly these packets in this
   order, whatever it was fed before. *)
Theorem C68_session_unchanged : forall g st ms ps rs qs, reached g false st ->
  session filled (map (fun m => (g, m)) ms) ps -> realtime_between (map (fun r => (g, r)) rs) ps qs ->
  exists bs st', stream_of_packets qs = Ok bs /\ feed_all st bs = Ok (st', map EPacket qs).
Proof. exact session_unchanged. Qed.
Print Assumptions C68_session_unchanged.

Example C68_ex : reached 5 false (sample_state false) /\
  session filled (map (fun m => (5, m)) c68_messages) c68_packets /\
  realtime_between (map (fun r => (5, r)) [0xF8])
    c68_packets [mkP 0x25933C40 0 0 0; mkP 0x35167E01 0x02030405 0 0; mkP 0x15F80000 0 0 0;
                 mkP 0x35320607 0 0 0; mkP 0x15F60000 0 0 0].
Proof.
  split; [apply sample_reached|]. assert (V := c68_valid). unfold c68_messages in V.
  inversion_clear V as [|? ? V1 V']. inversion_clear V' as [|? ? V2 V]. inversion_clear V as [|? ? V3 _].
  split.
  - refine (session_cons _ _ _ [_] _ _ (session_cons _ _ _ [_; _] _ _ (session_cons _ _ _ [_] [] _ (session_nil _)))).
    + split; [cbn; lia|]. split; [exact V1|]. reflexivity.
    + split; [cbn; lia|]. split; [exact V2|]. exists [[0x7E; 1; 2; 3; 4; 5]; [6; 7]]. cbn. repeat split; lia.
    + split; [cbn; lia|]. split; [exact V3|]. reflexivity.
  - unfold c68_packets. do 2 apply between_keep. cbn [map].
    refine (between_insert 5 0xF8 _ _ _ _ _ _ _); [lia|lia|reflexivity|]. do 2 apply between_keep. constructor.
Qed.

(* Messages on any groups, every SysEx divided in any way: the parser emits the packets of
   the same messages on its own group, every SysEx in filled packets, with the same
   real-time messages between them. *)
Theorem C68_session_refilled : forall g st gms ps rs qs, reached g false st ->
  session divided gms ps -> realtime_between rs ps qs ->
  exists bs st' ps' qs', stream_of_packets qs = Ok bs /\ feed_all st bs = Ok (st', map EPacket qs') /\
    session filled (regroup g gms) ps' /\ realtime_between (regroup g rs) ps' qs'.
Proof. exact session_refilled. Qed.
Print Assumptions C68_session_refilled.

Example C68_refilled_ex : session divided [(9, SysExBytes [1; 2; 3; 4])]
    [mkP 0x39120102 0 0 0; mkP 0x39210300 0 0 0; mkP 0x39310400 0 0 0] /\
  exists bs, stream_of_packets [mkP 0x39120102 0 0 0; mkP 0x39210300 0 0 0; mkP 0x39310400 0 0 0] = Ok bs /\
  exists st', feed_all (sample_state false) bs = Ok (st', [EPacket (mkP 0x35040102 0x03040000 0 0)]).
Proof.
  split.
  - refine (session_cons _ _ _ [_; _; _] [] _ (session_nil _)).
    split; [cbn; lia|]. split; [split; [discriminate|repeat constructor; unfold is_u7; lia]|].
    exists [[1; 2]; [3]; [4]]. split; [split; [discriminate|repeat constructor]|]. split; reflexivity.
  - exists [0xF0; 1; 2; 3; 4; 0xF7]. split; [reflexivity|]. eexists. vm_compute. reflexivity.
Qed.

(* The packets of a session are determined by its messages when they are filled. *)
Theorem C68_filled_is_unique : forall gms ps qs, session filled gms ps -> session filled gms qs -> ps = qs.
Proof. exact filled_unique. Qed.
Print Assumptions C68_filled_is_unique.

(* Finding: a SysEx of six bytes sent in one packet comes back in two. *)
Theorem C68_division_kept_refuted : exists p bs st', session divided [(0, SysExBytes [1; 2; 3; 4; 5; 6])] [p] /\
  stream_of_packets [p] = Ok bs /\
  feed_all (new_parser 0 false true) bs =
    Ok (st', [EPacket (mkP 0x30160102 0x03040506 0 0); EPacket (mkP 0x30300000 0 0 0)]).
Proof.
  exists (mkP 0x30060102 0x03040506 0 0), [0xF0; 1; 2; 3; 4; 5; 6; 0xF7]. eexists. split.
  - refine (session_cons _ _ _ [_] [] _ (session_nil _)).
    split; [cbn; lia|]. split; [split; [discriminate|repeat constructor; unfold is_u7; lia]|].
    exists [[1; 2; 3; 4; 5; 6]]. split; [split; [discriminate|repeat constructor]|]. split; reflexivity.
  - split; reflexivity.
Qed.
Print Assumptions C68_division_kept_refuted.

(* With a SysEx callback every SysEx with a complete manufacturer id is delivered whole, in
   its place among the other messages. *)
Theorem C68_session_delivered : forall g st gms ps rs qs, reached g true st ->
  session divided gms ps -> realtime_between rs ps qs ->
  exists bs st' out, stream_of_packets qs = Ok bs /\ feed_all st bs = Ok (st', out) /\
    filter not_rt_event out = concat (map (delivered g) gms) /\
    filter is_realtime_event out = map (fun gr => EPacket (short_packet (fst gr) (snd gr) [])) (regroup g rs).
Proof. exact session_delivered. Qed.
Print Assumptions C68_session_delivered.
Example C68_delivered_ex : concat (map (fun m => delivered 5 (2, m)) c68_messages) =
  [EPacket (mkP 0x25933C40 0 0 0); ESysex (mkSx 0x7E0000 [1; 2; 3; 4; 5; 6; 7]); EPacket (mkP 0x15F60000 0 0 0)].
Proof. reflexivity. Qed.
