(* C81: two ways to receive SysEx from MIDI 1 bytes agree *)
From Coq Require Import ZArith List Bool Lia.
From Verif Require Import Base Packet PacketSpec Messages Sysex ByteStream Collector StreamSpec CollectSpec
  ReceiveSpec ReceiveProofs PropsCollect.
Import ListNotations.
Local Open Scope Z_scope.
Local Open Scope res_scope.

(* Any bytes and any calls that leave callbacks enabled: a parser with SysEx callback reports
   the same SysEx messages and the same other packets, in the same order, as a collector behind
   a parser without; only SysEx messages that end within the manufacturer id may be left out. *)
Theorem C81_both_ways_agree : forall a g cs, std_alloc a -> 0 <= g < 16 -> Forall valid_call cs -> Forall keeps_enabled cs ->
  exists st1 seen st2 packets c collected,
    parser_calls (new_parser g true true) cs = Ok (st1, seen) /\
    parser_calls (new_parser g false true) cs = Ok (st2, packets) /\
    collecting a (new_collector7 true) packets = Ok (c, collected) /\ pruned collected seen.
Proof. exact both_ways. Qed.
Print Assumptions C81_both_ways_agree.

(* nothing is left out if every manufacturer id is complete *)
Theorem C81_both_ways_equal : forall a g cs st1 seen st2 packets c collected, std_alloc a -> 0 <= g < 16 ->
  Forall valid_call cs -> Forall keeps_enabled cs ->
  parser_calls (new_parser g true true) cs = Ok (st1, seen) ->
  parser_calls (new_parser g false true) cs = Ok (st2, packets) ->
  collecting a (new_collector7 true) packets = Ok (c, collected) ->
  Forall whole_id collected -> seen = collected.
Proof.
  intros a g cs st1 seen st2 packets c collected A G V K E1 E2 E3 W.
  destruct (both_ways a g cs A G V K) as (? & ? & ? & ? & ? & ? & F1 & F2 & F3 & P).
  rewrite E1 in F1. rewrite E2 in F2. injection F1 as <- <-. injection F2 as <- <-.
  rewrite E3 in F3. injection F3 as <- <-. now apply pruned_whole.
Qed.
Print Assumptions C81_both_ways_equal.

(* a clock within a SysEx, a SysEx given up for a note, a change of group, a reset, and SysEx
   messages with complete and with incomplete id *)
Definition traffic : list parser_call :=
  [CFeed [0xF0; 0x7D; 1; 0xF8; 2; 3; 4; 5; 6; 7]; CSetGroup 3; CFeed [8; 0xF7; 0xF0; 0x41; 9; 0x90; 60; 100]; CReset;
   CFeed [0xF0; 0; 0x21; 9; 5; 0xF7; 0xF0; 0; 0x21; 0xF7]].
Example C81_ex : std_alloc plain_alloc /\ Forall valid_call traffic /\ Forall keeps_enabled traffic /\
  match parser_calls (new_parser 2 true true) traffic, parser_calls (new_parser 2 false true) traffic with
  | Ok (_, seen), Ok (_, packets) =>
      seen = [EPacket (mkP 0x12F80000 0 0 0); ESysex (mkSx 0x7D0000 [1; 2; 3; 4; 5; 6; 7; 8]);
              EPacket (mkP 0x23903C64 0 0 0); ESysex (mkSx 0x2109 [5])] /\
      match collecting plain_alloc (new_collector7 true) packets with
      | Ok (_, collected) => collected = seen ++ [ESysex (mkSx 0x2100 [])]
      | Fault _ => False
      end
  | _, _ => False
  end.
Proof.
  split; [apply plain_alloc_exact|]. split; [repeat (constructor; [cbn; repeat (constructor; [unfold is_u8; lia|]); try lia; constructor|]); constructor|].
  split; [repeat constructor|]. vm_compute. auto.
Qed.

(* The same behind a collector with a limit, if no SysEx is longer *)
Theorem C81_with_limit : forall a L g cs, exact_alloc a -> 0 < L -> 0 <= g < 16 -> Forall valid_call cs -> Forall keeps_enabled cs ->
  short_calls L None cs ->
  exists st1 seen st2 packets c collected,
    parser_calls (new_parser g true true) cs = Ok (st1, seen) /\
    parser_calls (new_parser g false true) cs = Ok (st2, packets) /\
    collecting a (c7_set_max a (new_collector7 true) L) packets = Ok (c, collected) /\ pruned collected seen.
Proof.
  intros a L g cs A H G V K S. apply both_ways_limit; trivial; [|now right].
  split; [lia|]. split; [apply A|trivial].
Qed.
Print Assumptions C81_with_limit.
(* the longest SysEx of the traffic has nine bytes; a limit below loses it *)
Example C81_with_limit_ex : exact_alloc plain_alloc /\ short_calls 9 None traffic /\ (short_calls 8 None traffic -> False) /\
  match parser_calls (new_parser 2 true true) traffic, parser_calls (new_parser 2 false true) traffic with
  | Ok (_, seen), Ok (_, packets) =>
      match collecting plain_alloc (c7_set_max plain_alloc (new_collector7 true) 9) packets,
            collecting plain_alloc (c7_set_max plain_alloc (new_collector7 true) 7) packets with
      | Ok (_, collected), Ok (_, fewer) => collected = seen ++ [ESysex (mkSx 0x2100 [])] /\ length fewer <> length collected
      | _, _ => False
      end
  | _, _ => False
  end.
Proof.
  split; [exact plain_alloc_exact|]. split; [cbn; repeat split; lia|]. split; [cbn; intuition lia|]. vm_compute. split; [reflexivity|discriminate].
Qed.

(* After any histories, from the first status byte on *)
Theorem C81_after_any_history : forall a g st1 st2 c bs, std_alloc a -> reached g true st1 -> reached g false st2 ->
  reached7 a 0 c -> c7_has_cb c = true -> Forall is_u8 bs -> starts_with_status bs ->
  exists st1' seen st2' packets c' collected,
    feed_all st1 bs = Ok (st1', seen) /\ feed_all st2 bs = Ok (st2', packets) /\
    collecting a c packets = Ok (c', collected) /\ pruned collected seen.
Proof. exact both_ways_any. Qed.
Print Assumptions C81_after_any_history.
Example C81_after_any_history_ex : starts_with_status [0xF8; 0xF0; 0x7D; 1; 0xF7] /\
  (exists st, reached 5 true st /\ m_packet_byte st = 3) /\ (exists st, reached 5 false st /\ m_packet_byte st = 4) /\
  exists c, reached7 plain_alloc 0 c /\ c7_has_cb c = true /\ c7_state c = 0x20.
Proof.
  split; [cbn; lia|]. split; [|split].
  - eexists. split; [exists 5, true, [CFeed [0xF0; 0x7D]]; eexists; split; [lia|]; split; [repeat constructor; unfold is_u8; lia|]; split; [reflexivity|now split]|reflexivity].
  - eexists. split; [exists 5, true, [CFeed [0xF0; 0x7D; 1]]; eexists; split; [lia|]; split; [repeat constructor; unfold is_u8; lia|]; split; [reflexivity|now split]|reflexivity].
  - eexists. split; [exists true, [KFeed (mkP 0x30167D01 0x02030405 0 0)]; eexists; split; [repeat constructor; cbn; lia|reflexivity]|now split].
Qed.

(* Finding: if callbacks are disabled for a while within a SysEx, the parser with SysEx callback
   delivers all of it, but the packets of the other parser lack a part, which a collector does
   not notice; so no statement like the above holds with enable_callbacks. *)
Theorem C81_disabled_within_sysex_refuted : exists cs, Forall valid_call cs /\
  match parser_calls (new_parser 0 true true) cs, parser_calls (new_parser 0 false true) cs with
  | Ok (_, seen), Ok (_, packets) =>
      seen = [ESysex (mkSx 0x7D0000 [1; 2; 3; 4; 5; 6; 7; 8; 9; 10; 11; 12])] /\
      match collecting plain_alloc (new_collector7 true) packets with
      | Ok (_, collected) => collected = [ESysex (mkSx 0x7D0000 [1; 2; 3; 4; 5; 12])]
      | Fault _ => False
      end
  | _, _ => False
  end.
Proof.
  exists [CFeed [0xF0; 0x7D; 1; 2; 3; 4; 5]; CEnable false; CFeed [6; 7; 8; 9; 10; 11]; CEnable true; CFeed [12; 0xF7]].
  split; [repeat (constructor; [cbn; repeat (constructor; [unfold is_u8; lia|]); try constructor; trivial|]); constructor|].
  vm_compute. auto.
Qed.
Print Assumptions C81_disabled_within_sysex_refuted.
