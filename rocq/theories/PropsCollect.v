(* C22-C32: packetising and collecting SysEx messages *)
From Coq Require Import ZArith List Bool Lia.
From Verif Require Import Base Packet PacketSpec Messages Sysex Collector ByteStream StreamSpec CollectSpec.
From Verif Require Import CollectProofs CollectLemmas SendProofs CollectCalls.
Import ListNotations.
Local Open Scope Z_scope.
Local Open Scope res_scope.

(* an allocator as used in the examples *)
Definition plain_alloc : allocator := mkAlloc Z.max (fun _ => 0).
Example plain_alloc_exact : exact_alloc plain_alloc.
Proof. repeat split; cbn; intros; lia. Qed.

(* ---- C22 -------------------------------------------------------------------------------- *)

Theorem C22_send_sysex7 : forall id d g,
  valid_id id -> id <> 0 -> Forall is_u8 d -> 0 <= g < 16 ->
  exists chunks, full_chunks 6 chunks /\ concat chunks = id_bytes id ++ map (fun b => b mod 128) d /\
    send_sysex7 (mkSx id d) g = Ok (sx7_sequence g chunks) /\
    as_sysex7_packets (mkSx id d) g = Ok (sx7_sequence g chunks).
Proof.
  intros id d g V N D G. destruct (send7_valid id d g V N D G) as (ch & F & C & E). exists ch. auto.
Qed.
Print Assumptions C22_send_sysex7.
Example C22_ex : valid_id 0x7D0000 /\
  send_sysex7 (mkSx 0x7D0000 [1; 2; 3; 4; 5; 0x86]) 3 =
    Ok [mkP 0x33167D01 0x02030405 0 0; mkP 0x33310600 0 0 0] /\
  sx7_sequence 3 [[0x7D; 1; 2; 3; 4; 5]; [6]] = [mkP 0x33167D01 0x02030405 0 0; mkP 0x33310600 0 0 0].
Proof. split; [left; exists 0x7D; lia|]. split; reflexivity. Qed.

(* Without a manufacturer id, or with an id that has both a high and a low part although
   is_valid() accepts it, the result can be a complete packet followed by an end packet. *)
Theorem C22_other_ids_refuted : exists s s' ps ps',
  sx_id s = 0 /\ sysex7_is_valid s = true /\ send_sysex7 s 0 = Ok ps /\
  sysex7_is_valid s' = true /\ sx_id s' <> 0 /\ send_sysex7 s' 0 = Ok ps' /\
  (forall chunks, contents content7 ps <> message_of 0 chunks) /\
  (forall chunks, contents content7 ps' <> message_of 0 chunks).
Proof.
  exists (mkSx 0 [1; 2; 3; 4; 5; 6]), (mkSx 0x410001 [1; 2; 3; 4]),
    [mkP 0x30060001 0x02030405 0 0; mkP 0x30310600 0 0 0],
    [mkP 0x30064100 0x01010203 0 0; mkP 0x30310400 0 0 0].
  repeat split; try (intros [|x [|y [|z l]]]); discriminate.
Qed.
Print Assumptions C22_other_ids_refuted.

(* ---- C23 -------------------------------------------------------------------------------- *)

Theorem C23_sysex7_round_trip : forall a c id d g,
  std_alloc a -> reached7 a 0 c -> c7_has_cb c = true ->
  valid_id id -> id <> 0 -> Forall is_u7 d -> 0 <= g < 16 ->
  exists ps q c1 c2, send_sysex7 (mkSx id d) g = Ok (ps ++ [q]) /\
    c7_calls a c (map KFeed ps) = Ok (c1, []) /\ c7_feed a c1 q = Ok (c2, [mkSx id d]).
Proof. exact roundtrip7. Qed.
Print Assumptions C23_sysex7_round_trip.
(* a collector in the middle of another message *)
Example C23_ex : exists c, reached7 plain_alloc 0 c /\ c7_has_cb c = true /\ c7_sysex c = mkSx 0x7D0000 [1; 2; 3; 4; 5] /\
  c7_calls plain_alloc c (map KFeed [mkP 0x33167D06 0x07080900 0 0; mkP 0x33310A00 0 0 0]) =
    Ok (mkC7 sysex_empty_value 128 0 0x10 0 true, [mkSx 0x7D0000 [6; 7; 8; 9; 0; 10]]).
Proof.
  eexists. split; [exists true, [KFeed (mkP 0x30167D01 0x02030405 0 0)]; eexists; split; [|reflexivity]|].
  - repeat constructor; cbn; lia.
  - repeat split; reflexivity.
Qed.

(* id 0 is not transmitted: the first data bytes arrive as manufacturer id *)
Theorem C23_no_id_refuted : exists s ps c out,
  sysex7_is_valid s = true /\ send_sysex7 s 0 = Ok ps /\
  c7_calls plain_alloc (new_collector7 true) (map KFeed ps) = Ok (c, out) /\ out <> [s].
Proof.
  exists (mkSx 0 [5; 6; 7]), [mkP 0x30040005 0x06070000 0 0]. eexists _, [mkSx 0x0506 [7]].
  repeat split. discriminate.
Qed.
Print Assumptions C23_no_id_refuted.

(* ---- C24 -------------------------------------------------------------------------------- *)

(* Well-formed exactly when the length is not one of those miscounted *)
Theorem C24_send_sysex8 : forall id d i g,
  valid_id id -> Forall is_u8 d -> is_u8 i -> 0 <= g < 16 -> ~ miscounted8 id (size d) ->
  exists chunks, full_chunks 13 chunks /\ concat chunks = id_bytes8 id ++ d /\
    send_sysex8 (mkSx id d) i g = Ok (sx8_sequence g i chunks) /\
    as_sysex8_packets (mkSx id d) i g = Ok (sx8_sequence g i chunks).
Proof.
  intros id d i g V D I G M. destruct (send8_valid id d i g V D I G) as (c & rest & F & C & _ & E & _).
  exists (c :: rest). specialize (E M). auto.
Qed.
Print Assumptions C24_send_sysex8.
Example C24_ex : ~ miscounted8 0x002109 2 /\ send_sysex8 (mkSx 0x002109 [1; 0xFF]) 7 2 =
  Ok [mkP 0x520507A1 0x0901FF00 0 0] /\ id_bytes8 0x002109 = [0xA1; 9].
Proof. unfold miscounted8. repeat split; lia. Qed.

Theorem C24_miscounted_refuted : forall id d i g,
  valid_id id -> Forall is_u8 d -> is_u8 i -> 0 <= g < 16 -> miscounted8 id (size d) ->
  exists ps, send_sysex8 (mkSx id d) i g = Ok ps /\ forall j chunks, contents content8 ps <> message_of j chunks.
Proof.
  intros id d i g V D I G M.
  destruct (roundtrip8_miscounted plain_alloc (new_collector8 true) id d i g) as (ps & c & E & N & _); trivial.
  - apply plain_alloc_exact.
  - exists true, []. eexists. split; [constructor|reflexivity].
  - eauto.
Qed.
Print Assumptions C24_miscounted_refuted.
Example C24_miscounted_ex : miscounted8 0x7D0000 12 /\ miscounted8 0x002109 11 /\ miscounted8 0 13.
Proof. unfold miscounted8. lia. Qed.

(* ---- C25 -------------------------------------------------------------------------------- *)

Theorem C25_sysex8_round_trip : forall a c id d i g,
  std_alloc a -> reached8 a 0 c -> c8_has_cb c = true ->
  valid_id id -> Forall is_u8 d -> is_u8 i -> 0 <= g < 16 -> ~ miscounted8 id (size d) ->
  exists ps q c1 c2, send_sysex8 (mkSx id d) i g = Ok (ps ++ [q]) /\
    c8_calls a c (map KFeed ps) = Ok (c1, []) /\ c8_feed a c1 q = Ok (c2, [(mkSx id d, i)]).
Proof. exact roundtrip8. Qed.
Print Assumptions C25_sysex8_round_trip.
(* start packet of stream 9, id 7D, data byte 200 *)
Example C25_ex : exists c, reached8 plain_alloc 0 c /\ c8_has_cb c = true /\ c8_sysex c = mkSx 0x7D0000 [200] /\
  c8_stream c = 9 /\ ~ miscounted8 0x002109 13.
Proof.
  exists (mkC8 9 (mkSx 0x7D0000 [200]) 128 0 2 Done true). split; [|unfold miscounted8; repeat split; lia].
  exists true, [KFeed (mkP 0x50140900 0x7DC80000 0 0)], []. split; [|reflexivity].
  constructor; [|constructor]. repeat split; cbn; lia.
Qed.

(* In the miscounted cases the packets are not a message, and a collector delivers a
   truncated message, or nothing. *)
Theorem C25_miscounted_refuted : forall a c id d i g,
  std_alloc a -> reached8 a 0 c -> c8_has_cb c = true ->
  valid_id id -> Forall is_u8 d -> is_u8 i -> 0 <= g < 16 -> miscounted8 id (size d) ->
  exists ps c', send_sysex8 (mkSx id d) i g = Ok ps /\
    (forall j chunks, contents content8 ps <> message_of j chunks) /\
    c8_calls a c (map KFeed ps) = Ok (c', if (id =? 0) || (65536 <=? id) then [(mkSx id (firstn 11 d), i)] else []).
Proof. exact roundtrip8_miscounted. Qed.
Print Assumptions C25_miscounted_refuted.
Example C25_miscounted_ex : valid_id 0x7D0000 /\ miscounted8 0x7D0000 (size (repeat 1 12)).
Proof. split; [left; exists 0x7D; lia|]. unfold miscounted8, size. cbn. lia. Qed.

(* ---- C26 -------------------------------------------------------------------------------- *)

(* [delivered7], [delivered8]: the payload of this complete packet, or of the last start
   packet, all continue packets since (of its stream), and this end packet *)
Theorem C26_sysex7_delivered_exactly : forall a ps p,
  std_alloc a -> Forall wf_packet ps -> wf_packet p ->
  exists c o c' out, c7_calls a (new_collector7 true) (map KFeed ps) = Ok (c, o) /\ c7_feed a c p = Ok (c', out) /\
    (forall v, out = [v] <-> exists x, content7 p = Some x /\ delivered7 (contents content7 ps) x v) /\
    (out = [] \/ exists v, out = [v]).
Proof. exact exactly7. Qed.
Print Assumptions C26_sysex7_delivered_exactly.
Theorem C26_sysex8_delivered_exactly : forall a ps p,
  std_alloc a -> Forall wf_packet ps -> wf_packet p ->
  exists c o c' out, c8_calls a (new_collector8 true) (map KFeed ps) = Ok (c, o) /\ c8_feed a c p = Ok (c', out) /\
    (forall v i, out = [(v, i)] <-> exists x, content8 p = Some x /\ i = ct_stream x /\ delivered8 (contents content8 ps) x v) /\
    (out = [] \/ exists w, out = [w]).
Proof. exact exactly8. Qed.
Print Assumptions C26_sysex8_delivered_exactly.
Example C26_ex : delivered7 [mkCt 1 0 [9]; mkCt 1 0 [0x7D; 1]; mkCt 2 0 [2]] (mkCt 3 0 [3]) (mkSx 0x7D0000 [1; 2; 3]) /\
  delivered8 [mkCt 1 5 [0; 0x7D]; mkCt 3 6 [7]; mkCt 2 5 [2]] (mkCt 3 5 [3]) (mkSx 0x7D0000 [2; 3]).
Proof.
  split; right; (split; [reflexivity|]).
  - exists [mkCt 1 0 [9]], (mkCt 1 0 [0x7D; 1]), [mkCt 2 0 [2]]. repeat split. repeat constructor.
  - exists [], (mkCt 1 5 [0; 0x7D]), [mkCt 3 6 [7]; mkCt 2 5 [2]]. repeat split; repeat constructor; cbn; lia.
Qed.

(* ---- C27 -------------------------------------------------------------------------------- *)

Theorem C27_sysex7_limit : forall a L cb ks c o,
  exact_alloc a -> 0 < L -> Forall keeps_limit ks ->
  c7_calls a (c7_set_max a (new_collector7 cb) L) ks = Ok (c, o) ->
  Forall (fun s => size (sx_data s) <= L) o.
Proof. exact bounded7. Qed.
Print Assumptions C27_sysex7_limit.
Theorem C27_sysex8_limit : forall a L cb ks c o,
  exact_alloc a -> 0 < L -> Forall keeps_limit ks ->
  c8_calls a (c8_set_max a (new_collector8 cb) L) ks = Ok (c, o) ->
  Forall (fun s => size (sx_data (fst s)) <= L) o.
Proof. exact bounded8. Qed.
Print Assumptions C27_sysex8_limit.
Example C27_ex : exists c, c7_calls plain_alloc (c7_set_max plain_alloc (new_collector7 true) 4)
  [KFeed (mkP 0x30047D01 0x02030000 0 0); KFeed (mkP 0x30067D01 0x02030405 0 0)] = Ok (c, [mkSx 0x7D0000 [1; 2; 3]]).
Proof. eexists. reflexivity. Qed.

(* a limit set after use is not enforced while the memory already allocated suffices *)
Theorem C27_limit_after_use_refuted : exists ks L c o s,
  Forall (fun k => match k with KFeed p => wf_packet p | _ => True end) ks /\
  c7_calls plain_alloc (new_collector7 true) (ks ++ [KSetMax L]) = Ok (c, o) /\ 0 < L /\
  exists p c', wf_packet p /\ c7_feed plain_alloc c p = Ok (c', [s]) /\ L < size (sx_data s).
Proof.
  exists [KFeed (mkP 0x30027D01 0 0 0)], 2. eexists _, _, _. split; [repeat constructor; cbn; lia|].
  split; [reflexivity|]. split; [lia|]. exists (mkP 0x30067D01 0x02030405 0 0). eexists.
  split; [repeat split; cbn; lia|]. split; reflexivity.
Qed.
Print Assumptions C27_limit_after_use_refuted.

(* ---- C28 -------------------------------------------------------------------------------- *)

(* A collector with limit L, after calls [ks] that left no bytes of a refused message
   behind (a_clean); the next SysEx packets form one message, sent in [chunks].
   - If every chunk fits, the message is delivered.
   - Otherwise nothing is delivered.  If the overflow occurs before the last packet the
     collector is idle again; if it occurs at the last packet, the bytes of the other
     packets stay behind. *)
Theorem C28_sysex7_limited : forall a L cb ks c o ps chunks,
  exact_alloc a -> 0 < L -> Forall keeps_limit ks ->
  c7_calls a (c7_set_max a (new_collector7 cb) L) ks = Ok (c, o) -> c7_has_cb c = true ->
  a_clean (fst (a_calls content7 decode7 L cb a_idle ks)) ->
  Forall wf_packet ps -> contents content7 ps = message_of 0 chunks -> chunks <> [] ->
  exists c' out, c7_calls a c (map KFeed ps) = Ok (c', out) /\
    let after := fst (a_calls content7 decode7 L cb a_idle (ks ++ map KFeed ps)) in
    (fits decode7 L [] chunks -> out = [decode7 (concat chunks)] /\ after = a_idle) /\
    (~ fits decode7 L [] chunks -> out = [] /\
       (~ fits decode7 L [] (removelast chunks) -> after = a_idle) /\
       (fits decode7 L [] (removelast chunks) -> after = mkA (concat (removelast chunks)) false 0)).
Proof. exact limited7. Qed.
Print Assumptions C28_sysex7_limited.
Theorem C28_sysex8_limited : forall a L cb ks c o ps i chunks,
  exact_alloc a -> 0 < L -> Forall keeps_limit ks ->
  c8_calls a (c8_set_max a (new_collector8 cb) L) ks = Ok (c, o) -> c8_has_cb c = true ->
  a_clean (fst (a_calls content8 decode8 L cb a_idle ks)) ->
  Forall wf_packet ps -> contents content8 ps = message_of i chunks -> chunks <> [] ->
  exists c' out, c8_calls a c (map KFeed ps) = Ok (c', out) /\
    let after := fst (a_calls content8 decode8 L cb a_idle (ks ++ map KFeed ps)) in
    (fits decode8 L [] chunks -> out = [(decode8 (concat chunks), i)] /\ after = a_idle) /\
    (~ fits decode8 L [] chunks -> out = [] /\
       (~ fits decode8 L [] (removelast chunks) -> after = a_idle) /\
       (fits decode8 L [] (removelast chunks) -> after = mkA (concat (removelast chunks)) false i)).
Proof. exact limited8. Qed.
Print Assumptions C28_sysex8_limited.
(* a message fits if its bytes, including the manufacturer id, do not exceed the limit *)
Theorem C28_within_limit_fits : forall L chunks, size (concat chunks) <= L ->
  fits decode7 L [] chunks /\ fits decode8 L [] chunks.
Proof. intros L chunks H. split; apply fits_total; trivial; [apply size7_sub|apply size8_sub]. Qed.
Print Assumptions C28_within_limit_fits.
Example C28_ex : fits decode7 8 [] [[0x7D; 1; 2; 3; 4; 5]; [6; 7; 8]] /\
  ~ fits decode7 7 [] [[0x7D; 1; 2; 3; 4; 5]; [6; 7; 8]] /\ fits decode7 7 [] [[0x7D; 1; 2; 3; 4; 5]].
Proof. unfold fits, data_size, size; cbn. lia. Qed.

(* An oversized message refused at its end packet corrupts the next message. *)
Theorem C28_next_message_corrupted_refuted : exists L ps1 ps2 chunks1 chunks2 c1 c2 out,
  0 < L /\ contents content7 ps1 = message_of 0 chunks1 /\ ~ fits decode7 L [] chunks1 /\
  contents content7 ps2 = message_of 0 chunks2 /\ fits decode7 L [] chunks2 /\
  c7_calls plain_alloc (c7_set_max plain_alloc (new_collector7 true) L) (map KFeed ps1) = Ok (c1, []) /\
  c7_calls plain_alloc c1 (map KFeed ps2) = Ok (c2, out) /\ out <> [decode7 (concat chunks2)].
Proof.
  exists 6, [mkP 0x30167D01 0x02030405 0 0; mkP 0x30320607 0 0 0], [mkP 0x30017D00 0 0 0],
    [[0x7D; 1; 2; 3; 4; 5]; [6; 7]], [[0x7D]],
    (mkC7 (mkSx 0x7D0000 [1; 2; 3; 4; 5]) 6 6 0x10 3 true), (mkC7 sysex_empty_value 6 6 0x10 0 true),
    [mkSx 0x7D0000 [1; 2; 3; 4; 5; 0x7D]].
  split; [lia|]. split; [reflexivity|]. split; [unfold fits, data_size, size; cbn; lia|]. split; [reflexivity|].
  split; [unfold fits, data_size, size; cbn; lia|]. split; [reflexivity|]. split; [reflexivity|]. discriminate.
Qed.
Print Assumptions C28_next_message_corrupted_refuted.

(* ---- C29 -------------------------------------------------------------------------------- *)

Theorem C29_sysex7_feed_safe : forall a c p, exists c' out, c7_feed a c p = Ok (c', out) /\
  (forall s, s = c7_sysex c' \/ In s out ->
     (length (sx_data s) <= length (sx_data (c7_sysex c)) + sysex7_payload_size p)%nat).
Proof. exact feed7_any. Qed.
Print Assumptions C29_sysex7_feed_safe.
Theorem C29_sysex8_feed_safe : forall a c p, exists c' out, c8_feed a c p = Ok (c', out) /\
  (forall s, s = c8_sysex c' \/ In s (map fst out) ->
     (length (sx_data s) <= length (sx_data (c8_sysex c)) + sysex8_payload_size p)%nat).
Proof. exact feed8_any. Qed.
Print Assumptions C29_sysex8_feed_safe.
(* size fields beyond the packet *)
Example C29_ex : c7_feed plain_alloc (new_collector7 true) (mkP 0x300F7D01 0x02030405 0 0) = Ok (new_collector7 true, []) /\
  c8_feed plain_alloc (new_collector8 true) (mkP 0x500F7D01 0x02030405 0 0) = Ok (new_collector8 true, []).
Proof. split; reflexivity. Qed.

(* ---- C30 -------------------------------------------------------------------------------- *)

(* the packets [ps] may contain packets other than SysEx *)
Theorem C30_sysex7_next_message_delivered : forall a c ps chunks,
  std_alloc a -> reached7 a 0 c -> c7_has_cb c = true ->
  Forall wf_packet ps -> contents content7 ps = message_of 0 chunks -> chunks <> [] ->
  exists c', c7_calls a c (map KFeed ps) = Ok (c', [decode7 (concat chunks)]).
Proof. exact message_delivered7. Qed.
Print Assumptions C30_sysex7_next_message_delivered.
Theorem C30_sysex8_next_message_delivered : forall a c ps i chunks,
  std_alloc a -> reached8 a 0 c -> c8_has_cb c = true ->
  Forall wf_packet ps -> contents content8 ps = message_of i chunks -> chunks <> [] ->
  exists c', c8_calls a c (map KFeed ps) = Ok (c', [(decode8 (concat chunks), i)]).
Proof. exact message_delivered8. Qed.
Print Assumptions C30_sysex8_next_message_delivered.
Example C30_ex : contents content7 [mkP 0x30167D01 0x02030405 0 0; mkP 0x10F80000 0 0 0; mkP 0x3F310600 0 0 0] =
  message_of 0 [[0x7D; 1; 2; 3; 4; 5]; [6]].
Proof. reflexivity. Qed.

Theorem C30_other_packets_ignored : forall a c7 c8 p, wf_packet p ->
  (type p <> 3 -> c7_feed a c7 p = Ok (c7, [])) /\ (type p <> 5 -> c8_feed a c8 p = Ok (c8, [])).
Proof.
  intros a c7 c8 p W. unfold c7_feed, c8_feed, is_sysex7_packet, is_sysex8_packet, pt_data, pt_extended_data. split; intros T.
  - replace (type p =? 3) with false by (symmetry; now apply Z.eqb_neq). reflexivity.
  - replace (type p =? 5) with false by (symmetry; now apply Z.eqb_neq). reflexivity.
Qed.
Print Assumptions C30_other_packets_ignored.
Example C30_other_ex : type (mkP 0x20903C40 0 0 0) <> 3.
Proof. discriminate. Qed.

(* limit_alloc: any limit >= 0, exact allocation only if there is a limit *)
Theorem C30_sysex7_reset_like_new : forall a max c ks,
  limit_alloc a max -> reached7 a max c -> Forall keeps_limit ks ->
  exists c1 c2 o, c7_calls a (c7_reset a c) ks = Ok (c1, o) /\
    c7_calls a (c7_set_max a (new_collector7 (c7_has_cb c)) max) ks = Ok (c2, o).
Proof. exact reset_new7. Qed.
Print Assumptions C30_sysex7_reset_like_new.
Theorem C30_sysex8_reset_like_new : forall a max c ks,
  limit_alloc a max -> reached8 a max c -> Forall keeps_limit ks ->
  exists c1 c2 o, c8_calls a (c8_reset a c) ks = Ok (c1, o) /\
    c8_calls a (c8_set_max a (new_collector8 (c8_has_cb c)) max) ks = Ok (c2, o).
Proof. exact reset_new8. Qed.
Print Assumptions C30_sysex8_reset_like_new.
Example C30_reset_ex : limit_alloc plain_alloc 6 /\ exists c, reached7 plain_alloc 6 c /\ sx_data (c7_sysex c) <> [].
Proof.
  split; [apply limit_exact; [apply plain_alloc_exact|lia]|].
  eexists. split; [exists true, [KFeed (mkP 0x30167D01 0x02030405 0 0)]; eexists; split; [|reflexivity]|discriminate].
  repeat constructor; cbn; lia.
Qed.

(* ---- C31 -------------------------------------------------------------------------------- *)

Theorem C31_foreign_packets_have_no_effect : forall a c s x qs,
  std_alloc a -> reached8 a 0 c -> wf_packet s -> content8 s = Some x -> ct_format x = 1 ->
  Forall wf_packet qs -> Forall (fun y => ct_format y < 2 -> ct_stream y = ct_stream x) (contents content8 qs) ->
  exists c1 c2 o, c8_calls a c (map KFeed (s :: qs)) = Ok (c1, o) /\
    c8_calls a c (map KFeed (s :: filter (own_packet (ct_stream x)) qs)) = Ok (c2, o).
Proof. exact foreign_ignored. Qed.
Print Assumptions C31_foreign_packets_have_no_effect.
Theorem C31_other_start_abandons : forall a c s x q y rs,
  std_alloc a -> reached8 a 0 c ->
  wf_packet s -> content8 s = Some x -> ct_format x = 1 ->
  wf_packet q -> content8 q = Some y -> ct_format y < 2 -> ct_stream y <> ct_stream x ->
  Forall wf_packet rs -> Forall (fun z => 2 <= ct_format z /\ ct_stream z = ct_stream x) (contents content8 rs) ->
  exists c1 c2 o, c8_calls a c (map KFeed [s; q]) = Ok (c1, o) /\ c8_calls a c1 (map KFeed rs) = Ok (c2, []).
Proof. exact other_start_abandons. Qed.
Print Assumptions C31_other_start_abandons.
Example C31_ex :
  content8 (mkP 0x50140900 0x7DC80000 0 0) = Some (mkCt 1 9 [0; 0x7D; 200]) /\
  contents content8 [mkP 0x50330801 0x02000000 0 0; mkP 0x50330903 0x04000000 0 0] = [mkCt 3 8 [1; 2]; mkCt 3 9 [3; 4]] /\
  filter (own_packet 9) [mkP 0x50330801 0x02000000 0 0; mkP 0x50330903 0x04000000 0 0] = [mkP 0x50330903 0x04000000 0 0] /\
  content8 (mkP 0x50020700 0 0 0) = Some (mkCt 0 7 [0]).
Proof. repeat split; reflexivity. Qed.

(* ---- C32 -------------------------------------------------------------------------------- *)

Theorem C32_sysex7_through_midi1_bytes : forall g st id d,
  reached g true st -> valid_id id -> id <> 0 -> Forall is_u7 d -> forall g', 0 <= g' < 16 ->
  exists ps bs st', send_sysex7 (mkSx id d) g' = Ok ps /\ stream_of_packets ps = Ok bs /\
    feed_all st bs = Ok (st', [ESysex (mkSx id d)]).
Proof. exact roundtrip_bytes. Qed.
Print Assumptions C32_sysex7_through_midi1_bytes.
Example C32_ex : stream_of_packets [mkP 0x33167D01 0x02030405 0 0; mkP 0x33310600 0 0 0] =
  Ok [0xF0; 0x7D; 1; 2; 3; 4; 5; 6; 0xF7] /\ reached 0 true (new_parser 0 true true).
Proof.
  split; [reflexivity|]. exists 0, true, [], []. repeat split; try lia. constructor.
Qed.
