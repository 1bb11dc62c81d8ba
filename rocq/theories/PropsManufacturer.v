(* C82: the listed manufacturer ids can be used everywhere *)
From Coq Require Import ZArith List Bool String Lia.
From Verif Require Import Base Packet PacketSpec Messages Sysex ByteStream Collector UniversalSysex Manufacturer
  StreamSpec CollectSpec SysexSpec ManufacturerProofs PropsCollect.
Import ListNotations.
Local Open Scope Z_scope.
Local Open Scope res_scope.
Local Open Scope string_scope.

(* SysEx messages of every listed manufacturer: valid, and delivered unchanged from packets *)
Theorem C82_sysex7 : forall a c id d g, listed id -> Forall is_u7 d -> 0 <= g < 16 ->
  std_alloc a -> reached7 a 0 c -> c7_has_cb c = true ->
  sysex7_is_valid (mkSx id d) = true /\
  exists ps c', send_sysex7 (mkSx id d) g = Ok ps /\ c7_calls a c (map KFeed ps) = Ok (c', [mkSx id d]).
Proof. exact use7. Qed.
Print Assumptions C82_sysex7.
Theorem C82_sysex8 : forall a c id d i g, listed id -> Forall is_u8 d -> is_u8 i -> 0 <= g < 16 ->
  std_alloc a -> reached8 a 0 c -> c8_has_cb c = true -> ~ miscounted8 id (size d) ->
  exists ps c', send_sysex8 (mkSx id d) i g = Ok ps /\ c8_calls a c (map KFeed ps) = Ok (c', [(mkSx id d, i)]).
Proof. exact use8. Qed.
Print Assumptions C82_sysex8.
(* and from MIDI 1 bytes *)
Theorem C82_midi1_bytes : forall id d g g' st, listed id -> Forall is_u7 d -> 0 <= g' < 16 -> reached g true st ->
  exists ps bs st', send_sysex7 (mkSx id d) g' = Ok ps /\ stream_of_packets ps = Ok bs /\
    feed_all st bs = Ok (st', [ESysex (mkSx id d)]).
Proof. exact use_bytes. Qed.
Print Assumptions C82_midi1_bytes.
(* devices of every listed manufacturer can identify themselves *)
Theorem C82_identity : forall dbg id f m r, listed id -> is_u14 f -> is_u14 m -> is_u28 r ->
  exists s, make_identity_reply dbg (mkDevId id f m r) = Ok s /\
    is_identity_reply s = Ok true /\ reply_identity s = Ok (mkDevId id f m r).
Proof. exact use_identity. Qed.
Print Assumptions C82_identity.

(* messages of no other listed manufacturer are taken for universal SysEx *)
Theorem C82_universal : forall name id d, In (name, id) manufacturers ->
  is_universal_sysex_message (mkSx id d) = true <->
  (name = "universal_non_realtime" \/ name = "universal_realtime") /\ (2 <= List.length d)%nat.
Proof. exact universal_listed. Qed.
Print Assumptions C82_universal.

(* no two names share an id, except the two owners of 00 20 29 *)
Theorem C82_distinct : forall n1 n2 id1 id2, In (n1, id1) manufacturers -> In (n2, id2) manufacturers -> n1 <> n2 ->
  id1 = id2 <-> (n1 = "focusrite" /\ n2 = "novation" \/ n1 = "novation" /\ n2 = "focusrite").
Proof. exact names_differ. Qed.
Print Assumptions C82_distinct.

Example C82_ex : listed 0x410000 /\ listed 0x2109 /\ In ("native_instruments", 0x2109) manufacturers /\
  In ("focusrite", 0x2029) manufacturers /\ In ("novation", 0x2029) manufacturers /\
  (exists c, reached7 plain_alloc 0 c /\ c7_has_cb c = true) /\ (exists c, reached8 plain_alloc 0 c /\ c8_has_cb c = true) /\
  send_sysex7 (mkSx 0x2109 [1]) 0 = Ok [mkP 0x30040021 0x09010000 0 0] /\ ~ miscounted8 0x2109 1.
Proof.
  do 5 (split; [unfold listed, manufacturers; cbn [map snd]; repeat (first [left; reflexivity|right])|]).
  split; [exists (new_collector7 true); split; [exists true, [], []; split; [constructor|reflexivity]|reflexivity]|].
  split; [exists (new_collector8 true); split; [exists true, [], []; split; [constructor|reflexivity]|reflexivity]|].
  split; [reflexivity|]. unfold miscounted8. lia.
Qed.
