(* C88: any traffic can be looked at in every way, except for two defects that are described exactly. *)
From Coq Require Import ZArith List Bool.
From Verif Require Import Base Packet Messages Sysex ByteStream Collector CapInq CapSpec StreamSpec Receiver ReceiverSpec ReceiverProofs.
Import ListNotations.
Local Open Scope Z_scope.

(* Whatever packets arrive and whatever the collectors are told, a careful receiver never meets undefined behaviour. *)
Theorem C88_careful : forall a dbg ks, any_traffic ks ->
  exists st o, station_run a true dbg new_station ks = Ok (st, o).
Proof. exact run_careful. Qed.
Print Assumptions C88_careful.

(* A receiver that is not careful meets it exactly when one of the two defects is hit ... *)
Theorem C88_faults_exactly : forall a dbg ks st o, any_traffic ks -> station_run a true dbg new_station ks = Ok (st, o) ->
  ((exists f, station_run a false dbg new_station ks = Fault f) <-> upset ks o).
Proof. intros a dbg ks st o T E. exact (proj1 (run_faults a dbg ks st o T E)). Qed.
Print Assumptions C88_faults_exactly.

(* ... and sees the same as the careful one otherwise. *)
Theorem C88_same : forall a dbg ks st o, any_traffic ks -> station_run a true dbg new_station ks = Ok (st, o) ->
  ~ upset ks o -> station_run a false dbg new_station ks = Ok (st, o).
Proof. intros a dbg ks st o T E. exact (proj2 (run_faults a dbg ks st o T E)). Qed.
Print Assumptions C88_same.

(* MIDI 1 bytes: the parser never posts a packet that is dangerous, it can report a message that is. *)
Theorem C88_bytes : forall g cb on cs dbg, 0 <= g < 16 -> Forall valid_call cs ->
  exists st es l, parser_calls (new_parser g cb on) cs = Ok (st, es) /\ listen true dbg es = Ok l /\
    ((exists f, listen false dbg es = Fault f) <-> exists s, In (ESysex s) es /\ bad_message s) /\
    ((forall s, In (ESysex s) es -> ~ bad_message s) -> listen false dbg es = Ok l).
Proof. exact listen_bytes. Qed.
Print Assumptions C88_bytes.

(* Without care a single packet is enough, also in a build without assertions: a pitch bend with eight-bit data, or
   the SysEx message 7E 7F 0D 70. *)
Theorem C88_refuted : forall a, exists p q, wf_packet p /\ wf_packet q /\
  station_run a false false new_station [KFeed p] = Fault ShiftOverflow /\
  station_run a false false new_station [KFeed q] = Fault OutOfBounds.
Proof.
  intros a. exists (mkP 0x20E00080 0 0 0), (mkP 0x30047E7F 0x0D700000 0 0).
  split; [repeat split; discriminate|]. split; [repeat split; discriminate|]. split; reflexivity.
Qed.
Print Assumptions C88_refuted.

(* traffic: a note, a SysEx7 with the reply to a MIDI-CI process inquiry in three packets, one SysEx8, a reset, garbage *)
Definition traffic : list collector_call :=
  [KFeed (mkP 0x20903C40 0 0 0); KFeed (mkP 0x30167E7F 0x0D410201 0 0); KFeed (mkP 0x30260203 0x04050607 0 0);
   KFeed (mkP 0x30327F0F 0 0 0); KSetMax 100; KFeed (mkP 0x50050900 0x7D010200 0 0); KReset;
   KFeed (mkP 0xFFFFFFFF 0xFFFFFFFF 0xFFFFFFFF 0xFFFFFFFF)].
Example C88_ex : any_traffic traffic /\
  exists st o, station_run (mkAlloc Z.max (fun _ => 0)) true true new_station traffic = Ok (st, o) /\
    length o = 21%nat /\ ~ upset traffic o.
Proof.
  split; [repeat constructor; discriminate|]. eexists _, _. split; [vm_compute; reflexivity|]. split; [reflexivity|].
  intros [(p & I & B1 & B2 & B3)|(s & l & I & B1 & B2)].
  - cbn [traffic In] in I. repeat destruct I as [I|I]; try discriminate I; try (injection I as <-); try destruct I;
      vm_compute in B1; try discriminate B1; vm_compute in B2; try discriminate B2.
  - cbn [In] in I. repeat destruct I as [I|I]; try discriminate I; [|destruct I].
    injection I as <- <-. cbn in B2. repeat apply le_S_n in B2. inversion B2.
Qed.
Example C88_bytes_ex : 0 <= 3 < 16 /\ Forall valid_call [CFeed [0xF0; 0x7E; 0x7F; 6; 0xF7]; CReset; CFeed [0x93; 60; 1]] /\
  exists st es, parser_calls (new_parser 3 true true) [CFeed [0xF0; 0x7E; 0x7F; 6; 0xF7]; CReset; CFeed [0x93; 60; 1]] = Ok (st, es) /\
    In (ESysex (mkSx 0x7E0000 [0x7F; 6])) es /\ bad_message (mkSx 0x7E0000 [0x7F; 6]).
Proof.
  split; [split; [discriminate|reflexivity]|]. split; [repeat constructor; discriminate|].
  eexists _, _. split; [vm_compute; reflexivity|]. split; [cbn; auto|]. split; [reflexivity|]. repeat constructor.
Qed.
