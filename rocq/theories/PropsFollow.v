(* Property C110: a sequencer follows another over a MIDI 1 connection *)
From Coq Require Import ZArith List Bool Lia.
From Verif Require Import Base Packet PacketSpec Messages ByteStream StreamSpec Merge MergeSpec Follow FollowSpec FollowProofs.
Import ListNotations.
Local Open Scope Z_scope.

(* The leader does any moves and sends anything else, also clocks between the packets of a SysEx: after the bytes of the
   packets have passed a parser the follower is where the leader is, and that is where its user put it. *)
Theorem C110_in_step : forall g g' cb ms qs, is_u8 g -> 0 <= g' < 16 -> Forall move_ok ms -> Forall sendable qs ->
  filter transport_packet qs = snd (lead_run g new_transport ms) ->
  exists bs st out, stream_of_packets qs = Ok bs /\ feed_all (new_parser g' cb true) bs = Ok (st, out) /\
    fst (lead_run g new_transport ms) = mkTransport (rolling (rev ms)) (clocks (rev ms)) /\
    follow_run g' new_transport (packets_of out) = mkTransport (rolling (rev ms)) (clocks (rev ms)).
Proof. exact in_step. Qed.
Print Assumptions C110_in_step.

(* Any bytes whatever: the follower is where the bytes say it is. *)
Theorem C110_any_bytes : forall g cb bs s, 0 <= g < 16 -> Forall is_u8 bs ->
  exists st out, feed_all (new_parser g cb true) bs = Ok (st, out) /\
    (tp_rolling (follow_run g s (packets_of out)), tp_clock (follow_run g s (packets_of out))) =
    fold_left told (heard None bs) (tp_rolling s, tp_clock s).
Proof. exact any_bytes_followed. Qed.
Print Assumptions C110_any_bytes.

(* After any bytes, as of a connection that was plugged in late or lost bytes: once the leader has stopped and sent its
   position the follower is in step again and stays so. *)
Theorem C110_joins_late : forall g g' cb before p ms qs s0, 0 <= g < 16 -> 0 <= g' < 16 -> Forall is_u8 before -> is_u14 p ->
  Forall move_ok ms -> Forall sendable qs ->
  filter transport_packet qs = snd (lead_run g (mkTransport false (6 * p)) ms) ->
  exists bs st out, stream_of_packets (snd (lead_run g s0 [Halt; Locate p]) ++ qs) = Ok bs /\
    feed_all (new_parser g' cb true) (before ++ bs) = Ok (st, out) /\
    follow_run g' new_transport (packets_of out) = mkTransport (rolling (rev ms ++ [Locate p])) (clocks (rev ms ++ [Locate p])).
Proof. exact joins_late. Qed.
Print Assumptions C110_joins_late.

(* Behind the merge box of C99, while one connection leads without song positions and the others send anything but
   transport messages. *)
Theorem C110_merged : forall g g' cb s ms l, is_u8 g -> 0 <= g' < 16 -> Forall no_locate ms -> Forall (fun x => sendable (snd x)) l ->
  filter (fun x => transport_packet (snd x)) l = map (pair s) (snd (lead_run g new_transport ms)) ->
  exists m out bs st ev, merge_run new_merger l = (m, out) /\ stream_of_packets (map snd out) = Ok bs /\
    feed_all (new_parser g' cb true) bs = Ok (st, ev) /\
    follow_run g' new_transport (packets_of ev) = mkTransport (rolling (rev ms)) (clocks (rev ms)).
Proof. exact merged_in_step. Qed.
Print Assumptions C110_merged.

(* Packets of other groups change nothing. *)
Theorem C110_own_group : forall g ps s, follow_run g s ps = follow_run g s (filter (fun p => w0 p / 16777216 mod 16 =? g) ps).
Proof. exact follow_own_group. Qed.
Print Assumptions C110_own_group.
Example C110_own_group_ex : follow_run 3 new_transport [mkP 0x13FA0000 0 0 0; mkP 0x14FC0000 0 0 0; mkP 0x13F80000 0 0 0] = mkTransport true 1.
Proof. reflexivity. Qed.

(* ---- concrete cases ---------------------------------------------------------------------------- *)

(* goes to sixteenth 300, plays two clocks, goes to sixteenth 20 while playing, and one more clock *)
Definition c110_moves : list move := [Locate 300; Resume; Tick; Tick; Locate 20; Tick].
(* sent with a note and within a SysEx of two packets *)
Definition c110_packets : list packet :=
  [mkP 0x13F22C02 0 0 0; mkP 0x13FB0000 0 0 0; mkP 0x23903C40 0 0 0; mkP 0x13F80000 0 0 0; mkP 0x33167E01 0x02030405 0 0; mkP 0x13F80000 0 0 0;
   mkP 0x33320607 0 0 0; mkP 0x13FC0000 0 0 0; mkP 0x13F21400 0 0 0; mkP 0x13FB0000 0 0 0; mkP 0x13F80000 0 0 0].

Lemma c110_sendable : Forall sendable c110_packets.
Proof.
  unfold c110_packets.
  assert (R : forall r, 0xF8 <= r < 256 -> rt_defined r = true -> sendable (mkP (0x13000000 + r * 65536) 0 0 0)).
  { intros r R D. replace (mkP (0x13000000 + r * 65536) 0 0 0) with (short_packet 3 r []); [now constructor; try lia|].
    unfold short_packet. replace (r <? 0xF0) with false by lia. f_equal. cbn [nth]. lia. }
  assert (S : forall s a b, (s = 0xF2 \/ s = 0x90) -> is_u7 a -> is_u7 b -> sendable (short_packet 3 s [a; b])).
  { intros s a b E A B. apply (sendable_short 3 (mkMsg s [a; b])); [lia|]. split; [|apply Forall_cons; [assumption|apply Forall_cons; [assumption|constructor]]]. cbn [ms_status ms_data].
    destruct E as [-> | ->]; [right; reflexivity|left; split; [lia|reflexivity]]. }
  assert (X : forall f ds, 0 <= f < 4 -> (length ds <= 6)%nat -> forallb (fun d => (0 <=? d) && (d <? 128)) ds = true -> sendable (sx7_packet 3 f ds)).
  { intros f ds F L D. constructor; trivial; [lia|]. apply Forall_forall. rewrite forallb_forall in D. intros d I. specialize (D d I). unfold is_u7. lia. }
  repeat (apply Forall_cons; [first
    [apply (R 0xFB); [lia|reflexivity] | apply (R 0xF8); [lia|reflexivity] | apply (R 0xFC); [lia|reflexivity]
    | apply (S 0xF2 0x2C 2); [auto|unfold is_u7; lia|unfold is_u7; lia] | apply (S 0xF2 0x14 0); [auto|unfold is_u7; lia|unfold is_u7; lia]
    | apply (S 0x90 0x3C 0x40); [auto|unfold is_u7; lia|unfold is_u7; lia]
    | apply (X 1 [0x7E; 1; 2; 3; 4; 5]); [lia|cbn; lia|reflexivity] | apply (X 3 [6; 7]); [lia|cbn; lia|reflexivity]]|]).
  constructor.
Qed.

Example C110_ex : Forall move_ok c110_moves /\ Forall sendable c110_packets /\
  filter transport_packet c110_packets = snd (lead_run 3 new_transport c110_moves) /\
  rolling (rev c110_moves) = true /\ clocks (rev c110_moves) = 121 /\ clocks (rev (firstn 4 c110_moves)) = 1802.
Proof.
  split; [|split; [exact c110_sendable|repeat split]].
  unfold c110_moves. repeat (apply Forall_cons; [cbn; unfold is_u14; lia || exact I|]). constructor.
Qed.

(* a leader that sends its position without stopping is not followed *)
Theorem C110_hasty_refuted : exists ms bs st out, Forall move_ok ms /\
  stream_of_packets (snd (hasty_lead_run 0 new_transport ms)) = Ok bs /\ feed_all (new_parser 0 false true) bs = Ok (st, out) /\
  follow_run 0 new_transport (packets_of out) <> mkTransport (rolling (rev ms)) (clocks (rev ms)).
Proof.
  exists [Play; Tick; Locate 100; Tick]. do 3 eexists. split; [|split; [reflexivity|split; [reflexivity|discriminate]]].
  repeat (apply Forall_cons; [cbn; unfold is_u14; lia || exact I|]). constructor.
Qed.
Print Assumptions C110_hasty_refuted.

(* Behind the merge box a song position waits for the end of another connection's SysEx while the messages that follow
   it, being real-time, do not: the follower starts somewhere else. *)
Theorem C110_merged_refuted : exists ms l m out bs st ev, Forall move_ok ms /\ Forall (fun x => sendable (snd x)) l /\
  filter (fun x => transport_packet (snd x)) l = map (pair 0%nat) (snd (lead_run 3 new_transport ms)) /\
  merge_run new_merger l = (m, out) /\ mg_waiting m = [] /\ stream_of_packets (map snd out) = Ok bs /\
  feed_all (new_parser 3 false true) bs = Ok (st, ev) /\
  follow_run 3 new_transport (packets_of ev) <> mkTransport (rolling (rev ms)) (clocks (rev ms)).
Proof.
  pose proof c110_sendable as F. rewrite Forall_forall in F.
  exists [Locate 300; Resume], [(1%nat, mkP 0x33167E01 0x02030405 0 0); (0%nat, mkP 0x13F22C02 0 0 0); (0%nat, mkP 0x13FB0000 0 0 0);
    (1%nat, mkP 0x33320607 0 0 0)].
  do 5 eexists. split; [|split; [|split; [vm_compute; reflexivity|split; [vm_compute; reflexivity|split; [reflexivity|split; [vm_compute; reflexivity|split; [vm_compute; reflexivity|vm_compute; discriminate]]]]]]].
  - repeat (apply Forall_cons; [cbn; unfold is_u14; lia || exact I|]). constructor.
  - repeat (apply Forall_cons; [apply F; unfold c110_packets; cbn; tauto|]). constructor.
Qed.
Print Assumptions C110_merged_refuted.
