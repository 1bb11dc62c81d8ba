(* C72: callbacks that throw. *)
From Coq Require Import ZArith List Bool Lia.
From Verif Require Import Base Packet Messages Sysex ByteStream Collector CollectSpec CollectProofs PropsCollect PropsReentrant
  Throwing ThrowingSpec ThrowingProofs.
Import ListNotations.
Local Open Scope Z_scope.

(* Any calls of a parser, fed byte by byte, whose callbacks throw whenever they like except for
   packets of a SysEx: nothing faults, and the callbacks are invoked as if none had thrown. *)
Theorem C72_parser : forall g cb on ks, 0 <= g < 16 -> Forall careful ks ->
  observed (guarded_calls (new_parser g cb on) ks) = observed (parser_calls (new_parser g cb on) (map call_of ks)) /\
  exists out, observed (guarded_calls (new_parser g cb on) ks) = Ok out.
Proof. exact guarded_new. Qed.
Print Assumptions C72_parser.

(* throws for every complete SysEx and every message but SysEx packets *)
Definition c72_angry (e : event) : bool := match e with EPacket p => negb (type p =? 3) | ESysex _ => true end.
Lemma c72_angry_spares : spares_sysex c72_angry.
Proof. intros p T. cbn. now rewrite T. Qed.
Definition c72_ex : list guarded_call :=
  map (fun b => XFeed b c72_angry) [0x93; 1; 2; 3; 0xF8; 4; 0xF1; 5; 6; 0xF0; 1; 2; 0xF8; 3; 0xF7; 0xF6; 7] ++
  [XSetGroup 4; XFeed 0xC2 c72_angry; XFeed 9 c72_angry; XFeed 10 (fun _ => false)].
Example C72_parser_ex : Forall careful c72_ex /\
  observed (guarded_calls (new_parser 0 true true) c72_ex) = Ok
    [EPacket (mkP 0x20930102 0 0 0); EPacket (mkP 0x10F80000 0 0 0); EPacket (mkP 0x20930304 0 0 0); EPacket (mkP 0x10F10500 0 0 0);
     EPacket (mkP 0x10F80000 0 0 0); ESysex (mkSx 0x010000 [2; 3]); EPacket (mkP 0x10F60000 0 0 0);
     EPacket (mkP 0x24C20900 0 0 0); EPacket (mkP 0x24C20A00 0 0 0)].
Proof.
  split; [|vm_compute; reflexivity].
  repeat constructor; try (exact c72_angry_spares); unfold is_u8; lia.
Qed.

(* Buffers: feed(buffer) stops at the byte whose callback throws, and what the parser posts
   afterwards is what it posts when only the bytes up to there had been fed. *)
Theorem C72_buffer : forall g cb on before st o t bs later, 0 <= g < 16 -> Forall careful before -> Forall careful later ->
  Forall is_u8 bs -> spares_sysex t -> guarded_calls (new_parser g cb on) before = Ok (st, o) ->
  exists st1 out read unread st2 o2, feed_all_x t st bs = Ok (st1, out, unread) /\ bs = read ++ unread /\
    (unread <> [] -> existsb t out = true) /\ existsb t (removelast out) = false /\
    guarded_calls st1 later = Ok (st2, o2) /\
    observed (parser_calls (new_parser g cb on) (map call_of before ++ CFeed read :: map call_of later)) = Ok (o ++ out ++ o2).
Proof. exact buffer_new. Qed.
Print Assumptions C72_buffer.

Example C72_buffer_ex : exists st, feed_all_x c72_angry (new_parser 0 false true) [0xF0; 1; 2; 0xF7; 0x80; 3; 4; 5; 6] =
  Ok (st, [EPacket (mkP 0x30020102 0 0 0); EPacket (mkP 0x20800304 0 0 0)], [5; 6]).
Proof. eexists. vm_compute. reflexivity. Qed.

(* Any packets and resets of a collector with any size limit, whose callback throws whenever
   it likes: after an exception the client calls reset(), or feeds the beginning of a message
   if the message delivered had several packets.  The same messages are delivered as if
   nothing had been thrown. *)
Theorem C72_sysex7_collector : forall a max ks, limit_alloc a max -> recovers content7 decode7 max a_idle ks ->
  let c := c7_set_max a (new_collector7 true) max in
  observed (guarded7 a c ks) = observed (c7_calls a c (map collect_of ks)) /\ exists out, observed (guarded7 a c ks) = Ok out.
Proof. exact guarded7_like. Qed.
Print Assumptions C72_sysex7_collector.

Theorem C72_sysex8_collector : forall a max ks, limit_alloc a max -> recovers content8 decode8 max a_idle ks ->
  let c := c8_set_max a (new_collector8 true) max in
  observed (guarded8 a c ks) = observed (c8_calls a c (map collect_of ks)) /\ exists out, observed (guarded8 a c ks) = Ok out.
Proof. exact guarded8_like. Qed.
Print Assumptions C72_sysex8_collector.

(* a single packet message, reset() after a note on; a message of two packets, a note on, a
   message of a single packet *)
Definition c72_ex7 : list guarded_collect :=
  let t := fun _ : sysex => true in
  [XKFeed (mkP 0x30027D07 0 0 0) t; XKFeed (mkP 0x20903C40 0 0 0) t; XKReset;
   XKFeed (mkP 0x30167D01 0x02030405 0 0) t; XKFeed (mkP 0x30310600 0 0 0) t; XKFeed (mkP 0x20903C40 0 0 0) t;
   XKFeed (mkP 0x30027D08 0 0 0) t].
Definition c72_ex8 : list guarded_collect :=
  let t := fun _ : sysex => true in
  [XKFeed (mkP 0x5014027D 0x01020000 0 0) t; XKFeed (mkP 0x50320203 0 0 0) t; XKFeed (mkP 0x50040300 0x7D0A0000 0 0) t].
Ltac recovers_example :=
  cbv -[wf_packet Z.le Z.lt Z.eq not]; repeat match goal with
  | |- _ /\ _ => split
  | |- wf_packet _ => unfold wf_packet, is_u32; cbn; lia
  | |- false = true -> _ => discriminate
  | |- true = true -> _ => intros _
  end; trivial; try lia.
Example C72_sysex7_ex : limit_alloc plain_alloc 10 /\ recovers content7 decode7 10 a_idle c72_ex7 /\
  observed (guarded7 plain_alloc (c7_set_max plain_alloc (new_collector7 true) 10) c72_ex7) =
    Ok (map (mkSx 0x7D0000) [[7]; [1; 2; 3; 4; 5; 6]; [8]]).
Proof. split; [apply plain_limit; lia|]. split; [recovers_example|vm_compute; reflexivity]. Qed.
Example C72_sysex8_ex : limit_alloc plain_alloc 0 /\ recovers content8 decode8 0 a_idle c72_ex8 /\
  exists out, observed (guarded8 plain_alloc (c8_set_max plain_alloc (new_collector8 true) 0) c72_ex8) = Ok out /\
    map snd out = [2; 3].
Proof. split; [apply plain_limit; lia|]. split; [recovers_example|eexists; vm_compute; split; reflexivity]. Qed.

(* Not careful: after an exception from the callback for a packet of a SysEx the next bytes of
   the SysEx are written after the end of this packet, and the ninth outside of the buffer. *)
Theorem C72_sysex_packet_refuted : exists t before bs, Forall is_u7 bs /\
  guarded_calls (new_parser 0 false true) (map (fun b => XFeed b t) (before ++ bs)) = Fault AssertFail /\
  exists st out, feed_all (new_parser 0 false true) (before ++ bs) = Ok (st, out).
Proof.
  exists (fun _ => true), [0xF0; 1; 2; 3; 4; 5; 6], [7; 8; 9; 10; 11; 12; 13; 14; 15].
  split; [repeat constructor; unfold is_u7; lia|].
  split; [vm_compute; reflexivity|]. eexists _, _. vm_compute. reflexivity.
Qed.
Print Assumptions C72_sysex_packet_refuted.

(* Not careful: a SysEx goes on after its end if the callback for its last packet throws. *)
Theorem C72_sysex_end_refuted : exists t bs p q,
  observed (guarded_calls (new_parser 0 false true) (map (fun b => XFeed b t) bs)) = Ok [p; q] /\
  observed (parser_calls (new_parser 0 false true) (map (fun b => CFeed [b]) bs)) = Ok [p].
Proof.
  exists (fun _ => true), [0xF0; 1; 2; 0xF7; 5; 0xF7]. eexists _, _. split; vm_compute; reflexivity.
Qed.
Print Assumptions C72_sysex_end_refuted.

(* Without reset(), the data of a single packet message whose callback threw are delivered
   again in front of those of the next message. *)
Theorem C72_no_reset_refuted : exists p q v w out,
  observed (c7_calls plain_alloc (new_collector7 true) [KFeed p; KFeed q]) = Ok [v; w] /\
  observed (guarded7 plain_alloc (new_collector7 true) [XKFeed p (fun _ => true); XKFeed q (fun _ => true)]) = Ok [v; out] /\
  out <> w.
Proof.
  exists (mkP 0x30027D07 0 0 0), (mkP 0x30027D08 0 0 0). eexists _, _, _.
  split; [vm_compute; reflexivity|]. split; [vm_compute; reflexivity|]. discriminate.
Qed.
Print Assumptions C72_no_reset_refuted.

Theorem C72_no_reset8_refuted : exists p q v w out,
  observed (c8_calls plain_alloc (new_collector8 true) [KFeed p; KFeed q]) = Ok [v; w] /\
  observed (guarded8 plain_alloc (new_collector8 true) [XKFeed p (fun _ => true); XKFeed q (fun _ => true)]) = Ok [v; out] /\
  out <> w.
Proof.
  exists (mkP 0x50040200 0x7D070000 0 0), (mkP 0x50040200 0x7D080000 0 0). eexists _, _, _.
  split; [vm_compute; reflexivity|]. split; [vm_compute; reflexivity|]. discriminate.
Qed.
Print Assumptions C72_no_reset8_refuted.
