(* Properties C75 and C76: memory that is refused, and when memory is asked for *)
From Coq Require Import ZArith List Bool Lia.
From Verif Require Import Base Packet PacketSpec Sysex ByteStream StreamSpec Collector CollectSpec CollectProofs
  ThrowingSpec Memory MemorySpec MemoryProofs MemoryCount PropsCollect PropsReentrant.
Import ListNotations.
Local Open Scope Z_scope.

(* witnesses that are computed *)
Ltac left_by r := let x := eval vm_compute in r in match x with Ok (?s, _, _) => exists s end.
Ltac results_of r := let x := eval vm_compute in r in
  match x with Ok (?s, _, ?m) => exists s, m | Ok (?s, ?m) => exists s, m end.

(* ---- C75 -------------------------------------------------------------------------------- *)

(* A client of a parser repeats feed() as long as it ends with an exception of the allocator:
   what is posted is the same as if the allocator had never refused, whatever the allocator
   does and whichever calls are made. *)
Theorem C75_parser_retry : forall a g cb on ks,
  observed (mem_calls a (new_mparser g cb on) ks) = observed (parser_calls (new_parser g cb on) (map plain_call ks)).
Proof. exact mem_parser_new. Qed.
Print Assumptions C75_parser_retry.

(* F0 is refused twice, the first data byte is not *)
Example C75_parser_retry_ex :
  (exists s1 s2, feed_m plain_alloc false (new_mparser 2 true true) 0xF0 = Ok (s1, [], Refused) /\
    feed_m plain_alloc false s1 0xF0 = Ok (s2, [], Refused)) /\
  observed (mem_calls plain_alloc (new_mparser 2 true true)
    [MFeed 0xF0 [false; false]; MFeed 0x7D []; MFeed 5 [false]; MFeed 0xF8 []; MFeed 6 [true; false]; MFeed 0xF7 [false]]) =
  Ok [EPacket (mkP 0x12F80000 0 0 0); ESysex (mkSx 0x7D0000 [5; 6])].
Proof.
  split; [|vm_compute; reflexivity]. left_by (feed_m plain_alloc false (new_mparser 2 true true) 0xF0).
  match goal with |- exists s2, _ /\ feed_m _ _ ?s _ = _ => left_by (feed_m plain_alloc false s 0xF0) end.
  split; vm_compute; reflexivity.
Qed.

(* A client that does not repeat F0: the SysEx has begun nevertheless, if callbacks are
   enabled. *)
Theorem C75_parser_start : forall a ok st st' o ks, m_invoke_callbacks (mp_parser st) = true ->
  feed_m a ok st 0xF0 = Ok (st', o, Refused) ->
  o = [] /\ observed (mem_calls a st' ks) = observed (parser_calls (mp_parser st) (CFeed [0xF0] :: map plain_call ks)).
Proof. exact start_refused_calls. Qed.
Print Assumptions C75_parser_start.

Example C75_parser_start_ex : exists st',
  feed_m plain_alloc false (new_mparser 2 true true) 0xF0 = Ok (st', [], Refused) /\
  observed (mem_calls plain_alloc st' [MFeed 0x7D []; MFeed 5 [false; true]; MFeed 6 []; MFeed 0xF7 []]) =
  Ok [ESysex (mkSx 0x7D0000 [5; 6])].
Proof. left_by (feed_m plain_alloc false (new_mparser 2 true true) 0xF0). split; vm_compute; reflexivity. Qed.

(* With callbacks disabled it has begun as well, but otherwise than with memory: once callbacks
   are enabled the SysEx is delivered, which must not happen. *)
Theorem C75_disabled_start_refuted : exists st',
  feed_m plain_alloc false (new_mparser 0 true false) 0xF0 = Ok (st', [], Refused) /\
  observed (mem_calls plain_alloc st' [MFeed 0x7D []; MFeed 5 []; MEnable true; MFeed 0xF7 []]) =
    Ok [ESysex (mkSx 0x7D0000 [5])] /\
  observed (parser_calls (new_parser 0 true false) [CFeed [0xF0; 0x7D; 5]; CEnable true; CFeed [0xF7]]) = Ok [].
Proof. left_by (feed_m plain_alloc false (new_mparser 0 true false) 0xF0). repeat split; vm_compute; reflexivity. Qed.
Print Assumptions C75_disabled_start_refuted.

(* A client that gives a data byte up receives a message without it. *)
Theorem C75_parser_hole_refuted : exists s1 s2 s3,
  feed_m plain_alloc false (new_mparser 0 true true) 0xF0 = Ok (s1, [], Refused) /\
  feed_m plain_alloc true s1 0x7D = Ok (s2, [], Untouched) /\
  feed_m plain_alloc false s2 5 = Ok (s3, [], Refused) /\
  observed (mem_calls plain_alloc s3 [MFeed 6 []; MFeed 0xF7 []]) = Ok [ESysex (mkSx 0x7D0000 [6])].
Proof.
  left_by (feed_m plain_alloc false (new_mparser 0 true true) 0xF0).
  match goal with |- exists s2 s3, _ /\ feed_m _ _ ?s _ = _ /\ _ => left_by (feed_m plain_alloc true s 0x7D) end.
  match goal with |- exists s3, _ /\ _ /\ feed_m _ _ ?s _ = _ /\ _ => left_by (feed_m plain_alloc false s 5) end.
  split; [vm_compute; reflexivity|]. split; [vm_compute; reflexivity|]. split; vm_compute; reflexivity.
Qed.
Print Assumptions C75_parser_hole_refuted.

(* A client of a collector repeats feed() and set_max_sysex_data_size() likewise: what is
   delivered, and the collector itself, is the same as with memory. *)
Theorem C75_sysex7_retry : forall a cb ks, std_alloc a ->
  mem7_calls a (new_collector7 cb) ks = c7_calls a (new_collector7 cb) (map plain_collect ks).
Proof. intros a cb ks A. apply mem7_plain; [exact A|]. vm_compute; congruence. Qed.
Print Assumptions C75_sysex7_retry.

Theorem C75_sysex8_retry : forall a cb ks, std_alloc a ->
  mem8_calls a (new_collector8 cb) ks = c8_calls a (new_collector8 cb) (map plain_collect ks).
Proof. intros a cb ks A. apply mem8_plain; [exact A|]. vm_compute; congruence. Qed.
Print Assumptions C75_sysex8_retry.

Example C75_retry_ex : std_alloc plain_alloc /\
  (exists c, c7_feed_m plain_alloc false (new_collector7 true) (mkP 0x30137D01 0x02000000 0 0) = Ok (c, [], Refused)) /\
  observed (mem7_calls plain_alloc (new_collector7 true)
    [MKFeed (mkP 0x30137D01 0x02000000 0 0) [false; false; true]; MKFeed (mkP 0x30310300 0 0 0) []]) =
    Ok [mkSx 0x7D0000 [1; 2; 3]] /\
  (exists c, c8_feed_m plain_alloc false (new_collector8 true) (mkP 0x50140900 0x7D010000 0 0) = Ok (c, [], Refused)) /\
  observed (mem8_calls plain_alloc (new_collector8 true)
    [MKFeed (mkP 0x50140900 0x7D010000 0 0) [false]; MKFeed (mkP 0x50320902 0 0 0) []]) = Ok [(mkSx 0x7D0000 [1; 2], 9)].
Proof.
  split; [apply plain_alloc_exact|].
  split; [left_by (c7_feed_m plain_alloc false (new_collector7 true) (mkP 0x30137D01 0x02000000 0 0)); vm_compute; reflexivity|].
  split; [vm_compute; reflexivity|].
  split; [left_by (c8_feed_m plain_alloc false (new_collector8 true) (mkP 0x50140900 0x7D010000 0 0)); vm_compute; reflexivity|].
  vm_compute; reflexivity.
Qed.

(* A client that gives a packet up, and with it the rest of the message: the calls go on, and
   everything else is delivered as if the packets given up had never been fed. *)
Theorem C75_sysex7_given_up : forall a max ks, limit_alloc a max ->
  Forall (fun k => match k with TKFeed p _ => wf_packet p | TKReset => True end) ks ->
  exists c o ms, try_calls (c7_feed_m a) (c7_reset a) (c7_set_max a (new_collector7 true) max) ks = Ok (c, o, ms) /\
    (gives_up_messages content7 ks ms ->
     observed (c7_calls a (c7_set_max a (new_collector7 true) max) (without_refused ks ms)) = Ok o).
Proof.
  intros a max ks A W. destruct (try7_total a max ks A W) as (c & o & ms & E). exists c, o, ms.
  split; [exact E|]. exact (given_up7 a max ks c o ms A E).
Qed.
Print Assumptions C75_sysex7_given_up.

Theorem C75_sysex8_given_up : forall a max ks, limit_alloc a max ->
  Forall (fun k => match k with TKFeed p _ => wf_packet p | TKReset => True end) ks ->
  exists c o ms, try_calls (c8_feed_m a) (c8_reset a) (c8_set_max a (new_collector8 true) max) ks = Ok (c, o, ms) /\
    (gives_up_messages content8 ks ms ->
     observed (c8_calls a (c8_set_max a (new_collector8 true) max) (without_refused ks ms)) = Ok o).
Proof.
  intros a max ks A W. destruct (try8_total a max ks A W) as (c & o & ms & E). exists c, o, ms.
  split; [exact E|]. exact (given_up8 a max ks c o ms A E).
Qed.
Print Assumptions C75_sysex8_given_up.

(* a start packet, 21 packets that continue (so that the vector of 128 bytes is full), one that
   does not fit, and the next message *)
Definition c75_long (last : list try_collect) : list try_collect :=
  TKFeed (mkP 0x30167D01 0x02030405 0 0) true :: repeat (TKFeed (mkP 0x30260102 0x03040506 0 0) true) 20 ++
  TKFeed (mkP 0x30260708 0x090A0B0C 0 0) false :: last.
Definition c75_next : list try_collect := [TKFeed (mkP 0x30047D01 0x02030000 0 0) true].
Example C75_given_up_ex : limit_alloc plain_alloc 0 /\
  exists c ms, try_calls (c7_feed_m plain_alloc) (c7_reset plain_alloc) (c7_set_max plain_alloc (new_collector7 true) 0)
      (c75_long c75_next) = Ok (c, [mkSx 0x7D0000 [1; 2; 3]], ms) /\
    gives_up_messages content7 (c75_long c75_next) ms /\ In Refused ms.
Proof.
  split; [apply plain_limit; lia|].
  match goal with |- exists c ms, ?r = _ /\ _ => results_of r end.
  split; [vm_compute; reflexivity|]. split; [|cbn; tauto].
  unfold c75_long, c75_next. cbn [repeat app gives_up_messages].
  repeat match goal with |- _ /\ _ => split end; try (unfold wf_packet, is_u32; cbn; lia); try exact I; try discriminate.
Qed.

(* Otherwise the message is delivered without the packet. *)
Theorem C75_sysex7_hole_refuted : exists c ms,
  try_calls (c7_feed_m plain_alloc) (c7_reset plain_alloc) (new_collector7 true)
    (c75_long [TKFeed (mkP 0x30310F00 0 0 0) true]) =
  Ok (c, [mkSx 0x7D0000 ([1; 2; 3; 4; 5] ++ concat (repeat [1; 2; 3; 4; 5; 6] 20) ++ [0x0F])], ms) /\ In Refused ms.
Proof. match goal with |- exists c ms, ?r = _ /\ _ => results_of r end. split; [vm_compute; reflexivity|]. cbn. tauto. Qed.
Print Assumptions C75_sysex7_hole_refuted.

Theorem C75_sysex8_hole_refuted : exists c ms,
  try_calls (c8_feed_m plain_alloc) (c8_reset plain_alloc) (new_collector8 true)
    (TKFeed (mkP 0x501E0900 0x7D010203 0x04050607 0x08090A0B) true ::
     repeat (TKFeed (mkP 0x502E0901 0x02030405 0x06070809 0x0A0B0C0D) true) 9 ++
     [TKFeed (mkP 0x502E0911 0x12131415 0x16171819 0x1A1B1C1D) false; TKFeed (mkP 0x5032090F 0 0 0) true]) =
  Ok (c, [(mkSx 0x7D0000 ([1; 2; 3; 4; 5; 6; 7; 8; 9; 10; 11] ++
           concat (repeat [1; 2; 3; 4; 5; 6; 7; 8; 9; 10; 11; 12; 13] 9) ++ [0x0F]), 9)], ms) /\ In Refused ms.
Proof. match goal with |- exists c ms, ?r = _ /\ _ => results_of r end. split; [vm_compute; reflexivity|]. cbn. tauto. Qed.
Print Assumptions C75_sysex8_hole_refuted.

(* ---- C76 -------------------------------------------------------------------------------- *)

(* A parser without SysEx callback never asks for memory. *)
Theorem C76_parser_no_callback : forall a g on ks, 0 <= g < 16 -> Forall valid_call ks ->
  exists st ms, watch_calls a (new_mparser g false on) ks = Ok (st, ms) /\ requests ms = 0%nat.
Proof. exact parser_silent. Qed.
Print Assumptions C76_parser_no_callback.

Definition c76_ex : list parser_call :=
  [CFeed [0xF0; 0x7D; 1; 0xF8; 2; 0xF7; 0x93; 0x3C; 0x40]; CEnable false; CReset; CFeed [0xF0; 3]; CSetGroup 5; CFeed [4; 0xF7]].
Example C76_parser_no_callback_ex : Forall valid_call c76_ex.
Proof. unfold c76_ex. repeat constructor; unfold is_u8; cbn; lia. Qed.

(* With SysEx callback only F0 asks, or a data byte of a SysEx. *)
Theorem C76_parser_where : forall a g cb on ks ok b, 0 <= g < 16 -> Forall valid_call ks -> is_u8 b ->
  exists st ms st' o m, watch_calls a (new_mparser g cb on) ks = Ok (st, ms) /\ feed_m a ok st b = Ok (st', o, m) /\
    (m <> Untouched -> cb = true /\ (b = 0xF0 \/ (b < 0x80 /\ last_status None ks = Some 0xF0))).
Proof. exact parser_asks. Qed.
Print Assumptions C76_parser_where.

Example C76_parser_where_ex : exists st ms, watch_calls plain_alloc (new_mparser 0 true true) c76_ex = Ok (st, ms) /\
  last_status None c76_ex = Some 0xF7 /\ requests ms = 1%nat.
Proof. match goal with |- exists c ms, ?r = _ /\ _ => results_of r end. split; [vm_compute; reflexivity|]. split; reflexivity. Qed.

(* It asks once in its life, if no SysEx has more than 1025 bytes between F0 and F7. *)
Theorem C76_parser_once : forall a g on ks, exact_alloc a -> 0 <= g < 16 -> Forall valid_call ks -> short_runs 1025 (fed_bytes ks) ->
  exists st ms, watch_calls a (new_mparser g true on) ks = Ok (st, ms) /\ (requests ms <= 1)%nat.
Proof. exact parser_once. Qed.
Print Assumptions C76_parser_once.

Example C76_parser_once_ex : exact_alloc plain_alloc /\ short_runs 1025 (fed_bytes c76_ex).
Proof.
  split; [exact plain_alloc_exact|]. intros before run after E _.
  assert (L : (length (filter (fun b => (b <? 0x80)%Z) run) <= length run)%nat).
  { clear. induction run as [|b run IH]; cbn [filter length]; [lia|]. destruct (b <? 0x80); cbn [length]; lia. }
  apply (f_equal (@length Z)) in E. rewrite !app_length in E. cbn in E. unfold size. lia.
Qed.

(* 1025 is exact: a SysEx of 1026 bytes asks twice *)
Theorem C76_parser_longer_refuted : exists st ms,
  watch_calls plain_alloc (new_mparser 0 true true) [CFeed (0xF0 :: repeat 1 (Z.to_nat 1026))] = Ok (st, ms) /\ requests ms = 2%nat.
Proof. match goal with |- exists c ms, ?r = _ /\ _ => results_of r end. split; vm_compute; reflexivity. Qed.
Print Assumptions C76_parser_longer_refuted.

(* In general it asks once more each time the longest SysEx so far doubles, up to 16385 bytes. *)
Theorem C76_parser_doubles : forall a g on ks k, exact_alloc a -> 0 <= g < 16 -> Forall valid_call ks -> (k <= 4)%nat ->
  short_runs (1024 * 2 ^ Z.of_nat k + 1) (fed_bytes ks) ->
  exists st ms, watch_calls a (new_mparser g true on) ks = Ok (st, ms) /\ (requests ms <= S k)%nat.
Proof. exact parser_doubles. Qed.
Print Assumptions C76_parser_doubles.

Example C76_parser_doubles_ex : exists st ms,
  watch_calls plain_alloc (new_mparser 0 true true)
    [CFeed (0xF0 :: repeat 1 (Z.to_nat 2049)); CFeed (0xF0 :: repeat 2 (Z.to_nat 2049)); CReset; CFeed [0xF0; 0x7D; 0xF7]] = Ok (st, ms) /\
  requests ms = 2%nat.
Proof. match goal with |- exists c ms, ?r = _ /\ _ => results_of r end. split; vm_compute; reflexivity. Qed.

(* A collector whose limit is set to no more than 16384 asks then, and never again, unless the
   limit is raised or removed. *)
Theorem C76_sysex7_limited : forall a n cb ks, exact_alloc a -> 0 < n <= 16384 -> Forall (lowers_limit n) ks ->
  exists c ms, watch7_calls a (new_collector7 cb) (KSetMax n :: ks) = Ok (c, Obtained :: ms) /\ requests ms = 0%nat.
Proof. exact limited_silent7. Qed.
Print Assumptions C76_sysex7_limited.

Theorem C76_sysex8_limited : forall a n cb ks, exact_alloc a -> 0 < n <= 16384 -> Forall (lowers_limit n) ks ->
  exists c ms, watch8_calls a (new_collector8 cb) (KSetMax n :: ks) = Ok (c, Obtained :: ms) /\ requests ms = 0%nat.
Proof. exact limited_silent8. Qed.
Print Assumptions C76_sysex8_limited.

Example C76_limited_ex : Forall (lowers_limit 4)
    [KFeed (mkP 0x30137D01 0x02000000 0 0); KFeed (mkP 0x30260304 0x05060708 0 0); KSetMax 3; KReset; KFeed (mkP 0x30047D01 0x02030000 0 0)] /\
  exists c, c7_calls plain_alloc (new_collector7 true)
    (KSetMax 4 :: [KFeed (mkP 0x30137D01 0x02000000 0 0); KFeed (mkP 0x30260304 0x05060708 0 0); KSetMax 3; KReset; KFeed (mkP 0x30037D01 0x02000000 0 0)]) =
    Ok (c, [mkSx 0x7D0000 [1; 2]]).
Proof. split; [repeat constructor; cbn; lia|]. match goal with |- exists c, ?r = _ => let x := eval vm_compute in r in match x with Ok (?s, _) => exists s end end.
  vm_compute. reflexivity. Qed.

(* With a larger limit every message asks, since reset() releases the memory. *)
Theorem C76_large_limit_refuted : exists c7 c8,
  watch7_calls plain_alloc (new_collector7 true)
    [KSetMax 16385; KFeed (mkP 0x30027D01 0 0 0); KFeed (mkP 0x30027D01 0 0 0)] = Ok (c7, [Obtained; Untouched; Obtained]) /\
  watch8_calls plain_alloc (new_collector8 true)
    [KSetMax 16385; KFeed (mkP 0x50040900 0x7D010000 0 0); KFeed (mkP 0x50040900 0x7D010000 0 0)] = Ok (c8, [Obtained; Untouched; Obtained]).
Proof.
  match goal with |- exists c7 c8, ?r = _ /\ ?q = _ =>
    let x := eval vm_compute in r in match x with Ok (?s, _) => exists s end;
    let x := eval vm_compute in q in match x with Ok (?s, _) => exists s end end.
  split; vm_compute; reflexivity.
Qed.
Print Assumptions C76_large_limit_refuted.

(* A collector without limit asks no more than eight times in its life, if no message has more
   than 16384 bytes. *)
Theorem C76_sysex7_unlimited : forall a cb ks, exact_alloc a -> messages_within content7 16384 0 ks ->
  exists c ms, watch7_calls a (new_collector7 cb) ks = Ok (c, ms) /\ (requests ms <= 8)%nat.
Proof. exact lifetime7. Qed.
Print Assumptions C76_sysex7_unlimited.

Theorem C76_sysex8_unlimited : forall a cb ks, exact_alloc a -> messages_within content8 16384 0 ks ->
  exists c ms, watch8_calls a (new_collector8 cb) ks = Ok (c, ms) /\ (requests ms <= 8)%nat.
Proof. exact lifetime8. Qed.
Print Assumptions C76_sysex8_unlimited.

Example C76_unlimited_ex : messages_within content7 16384 0
    [KFeed (mkP 0x30167D01 0x02030405 0 0); KFeed (mkP 0x30260102 0x03040506 0 0); KSetCallback true; KFeed (mkP 0x10F80000 0 0 0);
     KFeed (mkP 0x30310100 0 0 0); KReset; KFeed (mkP 0x30047D01 0x02030000 0 0)] /\
  exists c ms, watch7_calls plain_alloc (new_collector7 true)
    (KFeed (mkP 0x30167D01 0x02030405 0 0) :: repeat (KFeed (mkP 0x30260102 0x03040506 0 0)) 25) = Ok (c, ms) /\ requests ms = 2%nat.
Proof.
  split.
  - repeat (cbn [messages_within]; match goal with
      | |- _ /\ _ => split
      | |- wf_packet _ => unfold wf_packet, is_u32; cbn; lia
      | |- True => exact I
      | |- context [match content7 ?p with _ => _ end] =>
          let r := eval vm_compute in (content7 p) in change (content7 p) with r; cbv iota beta zeta
      end); vm_compute; congruence.
  - match goal with |- exists c ms, ?r = _ /\ _ => results_of r end. split; vm_compute; reflexivity.
Qed.
