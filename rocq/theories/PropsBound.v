(* C74: output is bounded by input. *)
From Coq Require Import ZArith List Bool Lia.
From Verif Require Import Base Packet Sysex ByteStream Collector StreamSpec CollectSpec CollectProofs PropsCollect PropsReentrant
  BoundSpec BoundProofs.
Import ListNotations.
Local Open Scope Z_scope.

(* Every byte fed to a parser accounts for at most one callback and at most one byte in what
   is posted; a parser never stores more data bytes than it was fed. *)
Theorem C74_parser : forall g cb on cs, 0 <= g < 16 -> Forall valid_call cs ->
  exists st out, parser_calls (new_parser g cb on) cs = Ok (st, out) /\
    total (map carried out) <= bytes_fed cs /\ size out <= bytes_fed cs /\ size (sx_data (m_sysex st)) <= bytes_fed cs.
Proof. exact parser_bound. Qed.
Print Assumptions C74_parser.
Definition c74_calls : list parser_call := [CFeed [0xF0; 1; 2; 3; 4; 5; 6; 0xF7]; CReset; CFeed [0x90; 1; 2; 3; 4; 0xF8]].
Definition c74_out : list event :=
  map EPacket [mkP 0x30160102 0x03040506 0 0; mkP 0x30300000 0 0 0; mkP 0x20900102 0 0 0; mkP 0x20900304 0 0 0; mkP 0x10F80000 0 0 0].
Example C74_parser_ex : Forall valid_call c74_calls /\ bytes_fed c74_calls = 14 /\ map carried c74_out = [6; 0; 1; 1; 1] /\
  exists st, parser_calls (new_parser 0 false true) c74_calls = Ok (st, c74_out).
Proof.
  split; [repeat constructor; unfold is_u8; lia|]. split; [reflexivity|]. split; [vm_compute; reflexivity|].
  eexists. vm_compute. reflexivity.
Qed.

(* Every SysEx packet fed to a collector accounts for at most one message, and the data
   delivered and stored are bounded by the payload of the packets. *)
Theorem C74_sysex7_collector : forall a max cb ks, limit_alloc a max -> Forall keeps_limit ks ->
  exists c out, c7_calls a (c7_set_max a (new_collector7 cb) max) ks = Ok (c, out) /\
    total (map (fun s => size (sx_data s)) out) + size (sx_data (c7_sysex c)) <= payload_fed content7 ks /\
    size out <= size (packets_fed content7 ks).
Proof. exact collect7_bound. Qed.
Print Assumptions C74_sysex7_collector.

Theorem C74_sysex8_collector : forall a max cb ks, limit_alloc a max -> Forall keeps_limit ks ->
  exists c out, c8_calls a (c8_set_max a (new_collector8 cb) max) ks = Ok (c, out) /\
    total (map (fun s => size (sx_data (fst s))) out) + size (sx_data (c8_sysex c)) <= payload_fed content8 ks /\
    size out <= size (packets_fed content8 ks).
Proof. exact collect8_bound. Qed.
Print Assumptions C74_sysex8_collector.
Example C74_collector_ex : limit_alloc plain_alloc 0 /\
  Forall keeps_limit (map KFeed [mkP 0x30167D01 0x02030405 0 0; mkP 0x20903C40 0 0 0; mkP 0x30310600 0 0 0; mkP 0x30167D01 0x02030405 0 0]) /\
  payload_fed content7 (map KFeed [mkP 0x30167D01 0x02030405 0 0; mkP 0x20903C40 0 0 0; mkP 0x30310600 0 0 0; mkP 0x30167D01 0x02030405 0 0]) = 13.
Proof.
  split; [apply plain_limit; lia|]. split; [|vm_compute; reflexivity].
  repeat constructor; cbn; lia.
Qed.
