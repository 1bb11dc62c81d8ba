(* Property C99: several MIDI 1 connections merged into one *)
From Coq Require Import ZArith List Bool Lia.
From Verif Require Import Base Packet PacketSpec Messages ByteStream Sysex StreamSpec StreamLemmas SessionSpec Merge MergeSpec MergeProofs PropsStream.
Import ListNotations.
Local Open Scope Z_scope.

(* Every connection s sends any messages (ms s) and any real-time messages (rts s), the packets of all connections arrive
   in any order: all messages come out of the wire behind the merge box, whole, each connection's in their order, real-time
   messages in the order of arrival, and nothing else comes out. *)
Theorem C99_merged : forall g st ms rts l, reached g true st -> (forall s, sent_as (ms s) (rts s) (of_source s l)) ->
  exists m out order ros, merge_run new_merger l = (m, out) /\ mg_waiting m = [] /\
    (forall s, of_source s order = ms s) /\ (forall s, of_source s ros = rts s) /\
    filter (fun x => realtime_packet (snd x)) out = filter (fun x => realtime_packet (snd x)) l /\
    arrives g st (map snd order) (map snd ros) (map snd out).
Proof. exact merged. Qed.
Print Assumptions C99_merged.

(* The same from MIDI 1 bytes, arriving in any order, with running status and real-time bytes anywhere. *)
Theorem C99_bytes : forall g st gr P ms rts sched, reached g true st -> (forall s, reached (gr s) false (P s)) ->
  (forall s, on_cable (ms s) (rts s) (of_source s sched)) ->
  exists b out order ros, box_run (mkBox P new_merger) sched = Ok (b, out) /\ mg_waiting (bx_merger b) = [] /\
    (forall s, of_source s order = ms s) /\ (forall s, of_source s ros = rts s) /\
    arrives g st (map snd order) (map snd ros) (map snd out).
Proof. exact merged_bytes. Qed.
Print Assumptions C99_bytes.

(* Any packets whatever, also broken SysEx: nothing is lost or duplicated, each connection's packets keep their order, and
   packets wait only while a connection is within a SysEx, and only packets of others. *)
Theorem C99_any_packets : forall l, Forall (fun x => wf_packet (snd x)) l ->
  exists m out, merge_run new_merger l = (m, out) /\
    (forall s, filter (fun p => negb (realtime_packet p)) (of_source s out) ++ of_source s (mg_waiting m) =
       filter (fun p => negb (realtime_packet p)) (of_source s l)) /\
    filter (fun x => realtime_packet (snd x)) out = filter (fun x => realtime_packet (snd x)) l /\
    (mg_waiting m <> [] -> exists o a z, filter (fun p => negb (realtime_packet p)) (of_source o out) = a ++ [z] /\
       unfinished z /\ of_source o (mg_waiting m) = []).
Proof. exact any_packets. Qed.
Print Assumptions C99_any_packets.

(* A real-time packet is sent when it arrives. *)
Theorem C99_realtime_at_once : forall l s p, wf_packet p -> realtime_packet p = true ->
  merge_run new_merger (l ++ [(s, p)]) = (fst (merge_run new_merger l), snd (merge_run new_merger l) ++ [(s, p)]).
Proof. exact at_once. Qed.
Print Assumptions C99_realtime_at_once.

(* Any bytes whatever: the box sends what it would send for the packets its parsers make of them. *)
Theorem C99_any_bytes : forall gr cb P sched, (forall s, reached (gr s) (cb s) (P s)) -> Forall (fun x => is_u8 (snd x)) sched ->
  exists b out arr, box_run (mkBox P new_merger) sched = Ok (b, out) /\ merge_run new_merger arr = (bx_merger b, out) /\
    forall s, exists ev, feed_all (P s) (of_source s sched) = Ok (bx_parsers b s, ev) /\ of_source s arr = packets_of ev.
Proof. exact any_bytes. Qed.
Print Assumptions C99_any_bytes.

(* ---- concrete cases ---------------------------------------------------------------------------- *)

(* connection 0 sends a SysEx in two packets, connection 1 a note in between and a clock *)
Definition c99_arrivals : list (nat * packet) :=
  [(0%nat, mkP 0x30167E01 0x02030405 0 0); (1%nat, mkP 0x21903C40 0 0 0); (1%nat, mkP 0x11F80000 0 0 0); (0%nat, mkP 0x30320607 0 0 0)].
Definition c99_messages (s : nat) : list midi_message :=
  match s with 0%nat => [SysExBytes [0x7E; 1; 2; 3; 4; 5; 6; 7]] | 1%nat => [Short (mkMsg 0x90 [0x3C; 0x40])] | _ => [] end.
Definition c99_realtime (s : nat) : list Z := match s with 1%nat => [0xF8] | _ => [] end.

Lemma c99_sent s : sent_as (c99_messages s) (c99_realtime s) (of_source s c99_arrivals).
Proof.
  assert (V1 : valid_message (mkMsg 0x90 [0x3C; 0x40])) by (split; [left; split; [cbn; lia|reflexivity]|repeat constructor; unfold is_u7; lia]).
  assert (V0 : valid_midi_message (SysExBytes [0x7E; 1; 2; 3; 4; 5; 6; 7])) by (split; [discriminate|repeat constructor; unfold is_u7; lia]).
  destruct s as [|[|s]].
  - exists [(0, SysExBytes [0x7E; 1; 2; 3; 4; 5; 6; 7])], [], (of_source 0 c99_arrivals). split; [reflexivity|]. split; [reflexivity|]. split.
    + refine (session_cons _ _ _ [_; _] [] _ (session_nil _)). split; [cbn; lia|]. split; [exact V0|].
      exists [[0x7E; 1; 2; 3; 4; 5]; [6; 7]]. split; [|split; reflexivity]. split; [discriminate|]. repeat constructor; cbn; lia.
    + cbn. repeat constructor.
  - exists [(1, Short (mkMsg 0x90 [0x3C; 0x40]))], [(1, 0xF8)], [mkP 0x21903C40 0 0 0]. split; [reflexivity|]. split; [reflexivity|]. split.
    + refine (session_cons _ _ _ [_] [] _ (session_nil _)). split; [cbn; lia|]. split; [exact V1|reflexivity].
    + cbn. constructor. apply (between_insert 1 0xF8); [lia|lia|reflexivity|constructor].
  - exists [], [], []. repeat split; constructor.
Qed.

Example C99_ex : (forall s, sent_as (c99_messages s) (c99_realtime s) (of_source s c99_arrivals)) /\ reached 5 true (sample_state true) /\
  merge_run new_merger c99_arrivals = (mkMerger None [],
    [(0%nat, mkP 0x30167E01 0x02030405 0 0); (1%nat, mkP 0x11F80000 0 0 0); (0%nat, mkP 0x30320607 0 0 0); (1%nat, mkP 0x21903C40 0 0 0)]).
Proof. split; [exact c99_sent|]. split; [apply sample_reached|reflexivity]. Qed.

(* the same as bytes, with running status on connection 1 *)
Definition c99_schedule : list (nat * Z) :=
  map (pair 0%nat) [0xF0; 0x7E; 1; 2; 3; 4; 5] ++ map (pair 1%nat) [0x90; 0x3C; 0xF8; 0x40; 0x3C] ++ map (pair 0%nat) [6; 7; 0xF7] ++ [(1%nat, 0)].
Definition c99_cable_messages (s : nat) : list midi_message :=
  match s with
  | 0%nat => [SysExBytes [0x7E; 1; 2; 3; 4; 5; 6; 7]]
  | 1%nat => [Short (mkMsg 0x90 [0x3C; 0x40]); Short (mkMsg 0x90 [0x3C; 0])]
  | _ => []
  end.
Example C99_ex_bytes : (forall s, on_cable (c99_cable_messages s) (c99_realtime s) (of_source s c99_schedule)) /\
  reached 5 false (sample_state false) /\
  exists b, box_run (mkBox (fun _ => sample_state false) new_merger) c99_schedule = Ok (b,
    [(0%nat, mkP 0x35167E01 0x02030405 0 0); (1%nat, mkP 0x15F80000 0 0 0); (0%nat, mkP 0x35320607 0 0 0); (1%nat, mkP 0x25903C40 0 0 0);
     (1%nat, mkP 0x25903C00 0 0 0)]).
Proof.
  assert (V1 : valid_message (mkMsg 0x90 [0x3C; 0x40])) by (split; [left; split; [cbn; lia|reflexivity]|repeat constructor; unfold is_u7; lia]).
  assert (V2 : valid_message (mkMsg 0x90 [0x3C; 0])) by (split; [left; split; [cbn; lia|reflexivity]|repeat constructor; unfold is_u7; lia]).
  split; [|split; [apply sample_reached|eexists; vm_compute; reflexivity]].
  intros s. destruct s as [|[|s]].
  - split; [vm_compute; repeat constructor; discriminate|]. split; [|reflexivity].
    apply (cable_sysex None [0x7E; 1; 2; 3; 4; 5; 6; 7]); [discriminate|repeat constructor; unfold is_u7; lia|constructor].
  - split; [vm_compute; repeat constructor; discriminate|]. split; [|reflexivity].
    apply (cable_full None (mkMsg 0x90 [0x3C; 0x40])); [exact V1|].
    apply (cable_running (mkMsg 0x90 [0x3C; 0])); [exact V2|reflexivity|constructor].
  - split; [constructor|]. split; [constructor|reflexivity].
Qed.

(* something waits: an unfinished SysEx of connection 0 keeps the line *)
Example C99_ex_waiting : exists m, merge_run new_merger (firstn 3 c99_arrivals) = (m, [(0%nat, mkP 0x30167E01 0x02030405 0 0); (1%nat, mkP 0x11F80000 0 0 0)]) /\
  mg_waiting m = [(1%nat, mkP 0x21903C40 0 0 0)] /\ Forall (fun x => wf_packet (snd x)) c99_arrivals.
Proof. eexists. split; [reflexivity|]. split; [reflexivity|]. repeat constructor; unfold is_u32; cbn; lia. Qed.

(* Without the box it fails: sent as they arrive, the same packets make the receiver miss the SysEx. *)
Theorem C99_unmerged_refuted : exists l ms rts, (forall s, sent_as (ms s) (rts s) (of_source s l)) /\
  ~ exists order ros, (forall s, of_source s order = ms s) /\ (forall s, of_source s ros = rts s) /\
      arrives 0 (new_parser 0 true true) (map snd order) (map snd ros) (map snd l).
Proof.
  exists c99_arrivals, c99_messages, c99_realtime. split; [exact c99_sent|]. intros (order & ros & O & _ & bs & st' & ev & E1 & E2 & E3 & _).
  specialize (O 0%nat). assert (I : In (ESysex (mkSx 0x7E0000 [1; 2; 3; 4; 5; 6; 7])) (concat (map (reported 0) (map snd order)))).
  { apply in_concat. exists (reported 0 (SysExBytes [0x7E; 1; 2; 3; 4; 5; 6; 7])). split; [|left; reflexivity]. apply in_map.
    assert (X : In (SysExBytes [0x7E; 1; 2; 3; 4; 5; 6; 7]) (of_source 0 order)) by (rewrite O; left; reflexivity).
    unfold of_source in X. apply in_map_iff in X as (y & <- & Y). apply filter_In in Y as [Y _]. now apply in_map. }
  rewrite <- E3 in I. vm_compute in E1. injection E1 as <-. vm_compute in E2. injection E2 as _ <-. vm_compute in I. intuition discriminate.
Qed.
Print Assumptions C99_unmerged_refuted.
