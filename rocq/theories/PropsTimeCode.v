(* Property C113: MIDI time code over a MIDI 1 connection *)
From Coq Require Import ZArith List Bool Lia.
From Verif Require Import Base Packet PacketSpec Messages ByteStream StreamSpec SystemProofs Merge MergeSpec FollowSpec FollowProofs
  TimeCode TimeCodeSpec TimeCodeProofs.
Import ListNotations.
Local Open Scope Z_scope.

(* A time is sent as its eight quarter frames, here by the bits of the packets. *)
Theorem C113_sent : forall g t, 0 <= g < 16 -> time_ok t ->
  send_time g t = map (fun d => mkP (268435456 + g * 16777216 + 0xF1 * 65536 + d * 256) 0 0 0) (quarters_of t).
Proof.
  intros g t G T. rewrite sent by (trivial; unfold is_u8; lia). apply map_ext_in. intros d I.
  assert (D := quarters_of_u7 t T). rewrite Forall_forall in D. specialize (D d I).
  rewrite system_layout by (unfold is_u7, is_u8 in *; lia). rewrite Z.mod_small by lia. unfold be32. f_equal. lia.
Qed.
Print Assumptions C113_sent.

(* Any times, with anything else sent before, between and after their quarter frames: after the bytes of the packets have
   passed a parser the receiver has read exactly those times, in order. *)
Theorem C113_arrives : forall g g' cb ts qs, is_u8 g -> 0 <= g' < 16 -> Forall time_ok ts -> Forall sendable qs ->
  filter quarter_packet qs = flat_map (send_time g) ts ->
  exists bs st out, stream_of_packets qs = Ok bs /\ feed_all (new_parser g' cb true) bs = Ok (st, out) /\
    rx_times (rx_run g' new_rx (packets_of out)) = ts.
Proof. exact arrives. Qed.
Print Assumptions C113_arrives.

(* Any bytes whatever: a time is read wherever its eight pieces come in a row, and nowhere else. *)
Theorem C113_any_bytes : forall g cb bs, 0 <= g < 16 -> Forall is_u8 bs ->
  exists st out, feed_all (new_parser g cb true) bs = Ok (st, out) /\ rx_times (rx_run g new_rx (packets_of out)) = times_in (quarters false bs).
Proof. exact any_bytes_read. Qed.
Print Assumptions C113_any_bytes.

(* After any bytes: all times sent from then on are read, after those that the bytes before tell, of which the last piece may
   be completed by the data byte of a SysEx piece that follows (x). *)
Theorem C113_joins_late : forall g g' cb before ts qs, is_u8 g -> 0 <= g' < 16 -> Forall is_u8 before -> Forall time_ok ts -> Forall sendable qs ->
  filter quarter_packet qs = flat_map (send_time g) ts ->
  exists bs st out x, stream_of_packets qs = Ok bs /\ feed_all (new_parser g' cb true) (before ++ bs) = Ok (st, out) /\
    (length x <= 1)%nat /\ rx_times (rx_run g' new_rx (packets_of out)) = times_in (quarters false before ++ x) ++ ts.
Proof. exact TimeCodeProofs.joins_late. Qed.
Print Assumptions C113_joins_late.

(* One to seven successive quarter frames are lost, anywhere: at most two times are missed and no wrong one is read. *)
Theorem C113_lost : forall g g' cb ts a lost b qs, is_u8 g -> 0 <= g' < 16 -> Forall time_ok ts -> Forall sendable qs ->
  flat_map (send_time g) ts = a ++ lost ++ b -> (0 < length lost < 8)%nat -> filter quarter_packet qs = a ++ b ->
  exists bs st out k1 d k2, stream_of_packets qs = Ok bs /\ feed_all (new_parser g' cb true) bs = Ok (st, out) /\
    rx_times (rx_run g' new_rx (packets_of out)) = k1 ++ k2 /\ ts = k1 ++ d ++ k2 /\ (length d <= 2)%nat.
Proof. exact lost_some. Qed.
Print Assumptions C113_lost.

(* Behind the merge box of C99, while one connection sends times and the others anything but quarter frames: the first of
   the times are read, and all of them when no packet waits. *)
Theorem C113_merged : forall g g' cb s ts l, is_u8 g -> 0 <= g' < 16 -> Forall time_ok ts -> Forall (fun x => sendable (snd x)) l ->
  filter (fun x => quarter_packet (snd x)) l = map (pair s) (flat_map (send_time g) ts) ->
  exists m out bs st ev rest, merge_run new_merger l = (m, out) /\ stream_of_packets (map snd out) = Ok bs /\
    feed_all (new_parser g' cb true) bs = Ok (st, ev) /\
    ts = rx_times (rx_run g' new_rx (packets_of ev)) ++ rest /\ (mg_waiting m = [] -> rest = []).
Proof. exact merged. Qed.
Print Assumptions C113_merged.

(* Packets of other groups change nothing. *)
Theorem C113_own_group : forall g ps s, rx_run g s ps = rx_run g s (filter (fun p => w0 p / 16777216 mod 16 =? g) ps).
Proof. exact rx_own_group. Qed.
Print Assumptions C113_own_group.

(* ---- concrete cases ---------------------------------------------------------------------------- *)

(* 21:37:52:29 and 21:37:53:01, rate code 3 (30 frames a second) *)
Definition c113_times : list timecode := [mkTime 21 37 52 29 3; mkTime 21 37 53 1 3].
(* the quarter frames, by the bits *)
Definition c113_quarters : list packet :=
  map (fun d => mkP (0x14F10000 + d * 256) 0 0 0) [0x0D; 0x11; 0x24; 0x33; 0x45; 0x52; 0x65; 0x77; 0x01; 0x10; 0x25; 0x33; 0x45; 0x52; 0x65; 0x77].
(* sent with a clock and a note between *)
Definition c113_packets : list packet :=
  firstn 3 c113_quarters ++ mkP 0x14F80000 0 0 0 :: mkP 0x24903C40 0 0 0 :: skipn 3 c113_quarters.

Lemma c113_times_ok : Forall time_ok c113_times.
Proof. repeat (apply Forall_cons; [unfold time_ok; cbn; lia|]). constructor. Qed.
Lemma c113_quarter d : is_u7 d -> sendable (mkP (0x14F10000 + d * 256) 0 0 0).
Proof.
  intros D. replace (mkP (0x14F10000 + d * 256) 0 0 0) with (short_packet 4 0xF1 [d]) by (unfold short_packet; change (0xF1 <? 0xF0) with false; cbn [nth]; f_equal; lia).
  apply (sendable_short 4 (mkMsg 0xF1 [d])); [lia|]. split; [right; reflexivity|now apply Forall_cons].
Qed.
Lemma c113_sendable : Forall sendable c113_packets.
Proof.
  assert (Q : Forall sendable c113_quarters).
  { apply Forall_forall. intros p I. apply in_map_iff in I as (d & <- & I). apply c113_quarter. unfold is_u7. cbn [In] in I. lia. }
  assert (A := Q). rewrite <- (firstn_skipn 3 c113_quarters) in A. apply Forall_app in A as [A B].
  apply Forall_app. split; [exact A|]. apply Forall_cons; [|apply Forall_cons; [|exact B]].
  - now apply (sendable_realtime 4 0xF8).
  - apply (sendable_short 4 (mkMsg 0x90 [0x3C; 0x40])); [lia|]. split; [left; split; [cbn; lia|reflexivity]|].
    repeat (apply Forall_cons; [unfold is_u7; lia|]). constructor.
Qed.

Example C113_ex : Forall time_ok c113_times /\ Forall sendable c113_packets /\
  filter quarter_packet c113_packets = flat_map (send_time 4) c113_times /\ times_in (quarters false [0xF1; 0x0D; 0xF1; 0xF8; 0x11]) = [].
Proof. split; [exact c113_times_ok|]. split; [exact c113_sendable|]. split; vm_compute; reflexivity. Qed.

(* read while another group sends other times *)
Example C113_own_group_ex : rx_times (rx_run 4 new_rx (flat_map (fun p => [p; mkP 0x15F10300 0 0 0]) (firstn 8 c113_quarters))) = [mkTime 21 37 52 29 3].
Proof. vm_compute. reflexivity. Qed.

(* the last two quarter frames of the first time and the first of the second are lost *)
Example C113_lost_ex : exists lost, flat_map (send_time 4) c113_times = firstn 6 c113_quarters ++ lost ++ skipn 9 c113_quarters /\ length lost = 3%nat.
Proof. eexists (firstn 3 (skipn 6 c113_quarters)). split; vm_compute; reflexivity. Qed.

(* The packets are merged with a SysEx of another connection that ends among the quarter frames. *)
Example C113_merged_ex : exists m out, let l := (1%nat, mkP 0x34167E01 0x02030405 0 0) :: map (pair 0%nat) c113_packets ++ [(1%nat, mkP 0x34320607 0 0 0)] in
  filter (fun x => quarter_packet (snd x)) l = map (pair 0%nat) (flat_map (send_time 4) c113_times) /\
  merge_run new_merger l = (m, out) /\ mg_waiting m = [].
Proof. do 2 eexists. split; [vm_compute; reflexivity|]. split; [vm_compute; reflexivity|reflexivity]. Qed.

(* With eight quarter frames lost a time may be read that nobody sent. *)
Theorem C113_lost_refuted : exists ts a lost b bs st out t, Forall time_ok ts /\ Forall sendable (a ++ b) /\
  flat_map (send_time 4) ts = a ++ lost ++ b /\ length lost = 8%nat /\
  stream_of_packets (a ++ b) = Ok bs /\ feed_all (new_parser 4 false true) bs = Ok (st, out) /\
  In t (rx_times (rx_run 4 new_rx (packets_of out))) /\ ~ In t ts.
Proof.
  exists c113_times, (firstn 2 c113_quarters), (firstn 8 (skipn 2 c113_quarters)), (skipn 10 c113_quarters). do 3 eexists. exists (mkTime 21 37 53 29 3).
  split; [exact c113_times_ok|]. split.
  { pose proof c113_sendable as F. rewrite Forall_forall in F. apply Forall_forall. intros p I. apply F. unfold c113_packets.
    apply in_app_or in I. cbn in I. cbn. tauto. }
  split; [vm_compute; reflexivity|]. split; [reflexivity|]. split; [vm_compute; reflexivity|]. split; [vm_compute; reflexivity|].
  split; [vm_compute; now left|]. unfold c113_times. cbn [In]. intros [E|[E|[]]]; discriminate.
Qed.
Print Assumptions C113_lost_refuted.

(* A receiver that does not look at the order reads such a time when a single quarter frame is lost. *)
Theorem C113_careless_refuted : exists ts a lost b bs st out t, Forall time_ok ts /\
  flat_map (send_time 4) ts = a ++ lost ++ b /\ length lost = 1%nat /\
  stream_of_packets (a ++ b) = Ok bs /\ feed_all (new_parser 4 false true) bs = Ok (st, out) /\
  In t (rx_times (careless_run 4 (packets_of out))) /\ ~ In t ts.
Proof.
  exists c113_times, (firstn 8 c113_quarters), (firstn 1 (skipn 8 c113_quarters)), (skipn 9 c113_quarters). do 3 eexists. exists (mkTime 21 37 53 13 3).
  split; [exact c113_times_ok|]. split; [vm_compute; reflexivity|]. split; [reflexivity|]. split; [vm_compute; reflexivity|]. split; [vm_compute; reflexivity|].
  split; [vm_compute; right; now left|]. unfold c113_times. cbn [In]. intros [E|[E|[]]]; discriminate.
Qed.
Print Assumptions C113_careless_refuted.
