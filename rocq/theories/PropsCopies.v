(* C94: copied and moved collectors and parsers *)
From Coq Require Import ZArith List Bool Lia.
From Verif Require Import Base Packet PacketSpec Sysex Collector ByteStream StreamSpec CollectSpec CollectCalls ThrowingSpec Copies CopiesSpec
  CopiesProofs PropsCollect.
Import ListNotations.
Local Open Scope Z_scope.

(* ---- SysEx7 ----------------------------------------------------------------------------------- *)

(* With any number of collectors that are copied, assigned, moved and used in any order, each call
   delivers what it delivers on a new collector that received the calls its ancestors received. *)
Theorem C94_collectors7 : forall a max cb prog, std_alloc a -> (forall i, 0 <= max i) -> ((forall i, max i = 0) \/ exact_alloc a) ->
  proper revive_collector (limit_fits max) keeps_limit as_made prog ->
  exists s o, run7 a (made7 a max cb) prog = Ok (s, o) /\
    expected (c7_calls a) (made7 a max cb) revive_collector as_made prog = Ok o.
Proof. intros a max cb prog A M E. apply copies7. intros n. destruct E as [E|E]; [rewrite E; now apply limit_std|now apply limit_exact]. Qed.
Print Assumptions C94_collectors7.

(* a message in two packets, and another end for it *)
Definition first7 : packet := packet_of_bytes [0x30; 0x16; 0x7D; 1; 2; 3; 4; 5].
Definition rest7 : packet := packet_of_bytes [0x30; 0x34; 6; 7; 8; 9; 0; 0].
Definition other7 : packet := packet_of_bytes [0x30; 0x31; 99; 0; 0; 0; 0; 0].
(* copied and moved within a message; the collector moved from is used again; collector 2 had a smaller limit *)
Definition limits7 (i : nat) : Z := if Nat.eqb i 2 then 8 else 16.
Definition sample7 : list (object_op collector_call) :=
  [On 0%nat (KFeed first7); CopyTo 0 1; AssignTo 0 2; On 0%nat (KFeed rest7); MoveTo 1 3; On 3%nat (KFeed other7);
   On 2%nat (KFeed rest7); On 1%nat KReset; On 1%nat (KSetCallback true); On 1%nat (KFeed first7); On 1%nat (KFeed rest7)].
Example C94_sample7 : proper revive_collector (limit_fits limits7) keeps_limit as_made sample7 /\
  match run7 plain_alloc (made7 plain_alloc limits7 (fun _ => true)) sample7 with
  | Ok (_, o) => o = [(0%nat, mkSx 0x7D0000 [1; 2; 3; 4; 5; 6; 7; 8; 9]); (3%nat, mkSx 0x7D0000 [1; 2; 3; 4; 5; 99]);
                      (2%nat, mkSx 0x7D0000 [1; 2; 3; 4; 5; 6; 7; 8; 9]); (1%nat, mkSx 0x7D0000 [1; 2; 3; 4; 5; 6; 7; 8; 9])]
  | Fault _ => False
  end.
Proof.
  split; [|vm_compute; reflexivity].
  cbn. repeat (split; [first [discriminate|exact I|intros _; vm_compute; first [left; reflexivity|right; split; [reflexivity|discriminate]]|vm_compute; repeat split; discriminate]|]).
  eexists. split; [reflexivity|]. repeat (split; [first [exact I|vm_compute; repeat split; discriminate]|]). exact I.
Qed.

(* Assignment takes over the limit but keeps memory, so that more than the limit is accepted if the
   collector assigned to had a larger one. *)
Theorem C94_assigned_limit_refuted : exists c d v, 4 < size (sx_data v) /\
  c = c7_set_max plain_alloc (new_collector7 true) 4 /\ d = c7_set_max plain_alloc (new_collector7 true) 100 /\
  observed (c7_calls plain_alloc c [KFeed first7; KFeed rest7]) = Ok [] /\
  observed (c7_calls plain_alloc (c7_copy c) [KFeed first7; KFeed rest7]) = Ok [] /\
  observed (c7_calls plain_alloc (c7_assign c d) [KFeed first7; KFeed rest7]) = Ok [v].
Proof.
  eexists _, _, (mkSx 0x7D0000 [1; 2; 3; 4; 5; 6; 7; 8; 9]). split; [reflexivity|]. split; [reflexivity|]. split; [reflexivity|].
  split; [|split]; vm_compute; reflexivity.
Qed.
Print Assumptions C94_assigned_limit_refuted.

(* A collector that was moved from within a message and given a callback, but not reset, delivers the
   rest of the message as if it was all of it. *)
Theorem C94_without_reset_refuted : exists s,
  run7 plain_alloc (made7 plain_alloc (fun _ => 0) (fun _ => true))
    [On 0%nat (KFeed first7); MoveTo 0 1; On 0%nat (KSetCallback true); On 0%nat (KFeed rest7)]
  = Ok (s, [(0%nat, mkSx 0x7D0000 [6; 7; 8; 9])]).
Proof. eexists. vm_compute. reflexivity. Qed.
Print Assumptions C94_without_reset_refuted.

(* ---- SysEx8 ----------------------------------------------------------------------------------- *)

Theorem C94_collectors8 : forall a max cb prog, std_alloc a -> (forall i, 0 <= max i) -> ((forall i, max i = 0) \/ exact_alloc a) ->
  proper revive_collector (limit_fits max) keeps_limit as_made prog ->
  exists s o, run8 a (made8 a max cb) prog = Ok (s, o) /\
    expected (c8_calls a) (made8 a max cb) revive_collector as_made prog = Ok o.
Proof. intros a max cb prog A M E. apply copies8. intros n. destruct E as [E|E]; [rewrite E; now apply limit_std|now apply limit_exact]. Qed.
Print Assumptions C94_collectors8.

Definition first8 : packet := packet_of_bytes [0x50; 0x1E; 3; 0; 0x7D; 1; 2; 3; 4; 5; 6; 7; 8; 9; 10; 11].
Definition rest8 : packet := packet_of_bytes [0x50; 0x33; 3; 12; 13; 0; 0; 0; 0; 0; 0; 0; 0; 0; 0; 0].
Definition sample8 : list (object_op collector_call) :=
  [On 0%nat (KFeed first8); MoveTo 0 1; AssignTo 1 0; On 1%nat (KFeed rest8); On 0%nat KReset; On 0%nat (KFeed rest8)].
Example C94_sample8 : proper revive_collector (limit_fits (fun _ => 0)) keeps_limit as_made sample8 /\
  match run8 plain_alloc (made8 plain_alloc (fun _ => 0) (fun _ => true)) sample8 with
  | Ok (_, o) => o = [(1%nat, (mkSx 0x7D0000 [1; 2; 3; 4; 5; 6; 7; 8; 9; 10; 11; 12; 13], 3))]
  | Fault _ => False
  end.
Proof.
  split; [|vm_compute; reflexivity].
  cbn. repeat (split; [first [discriminate|exact I|intros _; vm_compute; first [left; reflexivity|right; split; [reflexivity|discriminate]]|vm_compute; repeat split; discriminate]|]). exact I.
Qed.

(* ---- the byte stream parser ----------------------------------------------------------------------- *)

Theorem C94_parsers : forall g cb on prog, (forall i, 0 <= g i < 16) -> proper revive_parser any_parser valid_call as_made prog ->
  exists s o, run_parsers (made_parser g cb on) prog = Ok (s, o) /\
    expected parser_calls (made_parser g cb on) revive_parser as_made prog = Ok o.
Proof. exact copies_parser. Qed.
Print Assumptions C94_parsers.

(* copied within running status, then moved within a SysEx *)
Definition sample_parsers : list (object_op parser_call) :=
  [On 0%nat (CFeed [0x90; 1]); CopyTo 0 1; On 0%nat (CFeed [2]); On 1%nat (CSetGroup 5); On 1%nat (CFeed [3; 0xF0; 0x7D; 9]);
   MoveTo 1 0; On 0%nat (CFeed [10; 0xF7])].
Example C94_sample_parsers : proper revive_parser any_parser valid_call as_made sample_parsers /\
  match run_parsers (made_parser (fun _ => 1) (fun _ => true) (fun _ => true)) sample_parsers with
  | Ok (_, o) => o = [(0%nat, EPacket (packet1 0x21900102)); (1%nat, EPacket (packet1 0x21900103)); (0%nat, ESysex (mkSx 0x7D0000 [9; 10]))]
  | Fault _ => False
  end.
Proof.
  split; [|vm_compute; reflexivity].
  cbn. repeat (split; [first [discriminate|congruence|lia|repeat constructor; unfold is_u8; lia]|]). exact I.
Qed.
