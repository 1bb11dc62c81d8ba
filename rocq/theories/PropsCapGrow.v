(* Property C114: MIDI-CI messages are made with a single request for memory *)
From Coq Require Import ZArith List Bool Lia.
From Verif Require Import Base Sysex UniversalSysex Collector Growing CapInq CapGrow CapGrowSpec CapGrowProofs.
Import ListNotations.
Local Open Scope Z_scope.

(* Every function that makes a message with a size given in advance, with any arguments for which it makes a message: memory is
   asked for exactly once.  If it is provided the message is the same as where memory is no concern, and its size was
   reserved (one byte more for discovery messages and report replies); if it is refused an exception is passed on. *)
Theorem C114_once : forall dbg a ok o s, std_alloc a -> order_ok o -> made dbg o = Ok s -> asked_once a ok (spare o) s (made_m dbg a ok o).
Proof. exact once. Qed.
Print Assumptions C114_once.

(* With any arguments, where there is memory: the outcome is the same, failed assertions and reads out of bounds included. *)
Theorem C114_faults : forall dbg a ok o, (forall i, ok i = true) ->
  match made dbg o with
  | Ok s => exists st, made_m dbg a ok o = Ok (st, true) /\ gr_sysex st = s
  | Fault f => made_m dbg a ok o = Fault f
  end.
Proof.
  intros dbg a ok o E. pose proof (enough dbg a ok E o) as H. unfold alike in H.
  destruct (made dbg o) as [s|f], (made_m dbg a ok o) as [[st [|]]|g]; try contradiction; [now exists st|now f_equal].
Qed.
Print Assumptions C114_faults.

(* So the capacity is known where reserve() is exact. *)
Theorem C114_capacity : forall dbg a ok o s, exact_alloc a -> order_ok o -> made dbg o = Ok s -> ok 0%nat = true ->
  exists st, made_m dbg a ok o = Ok (st, true) /\ gr_sysex st = s /\ gr_capacity st = size (sx_data s) + spare o.
Proof.
  intros dbg a ok o s [A X] V H O. destruct (once dbg a ok o s A V H) as (st & E & _ & F). rewrite O in E.
  destruct (F O) as (G & C). exists st. split; [exact E|]. split; [exact G|]. rewrite C.
  assert (P : 0 <= size (sx_data s) + spare o) by (unfold size; destruct o; cbn [spare]; lia).
  destruct (Z.eq_dec (size (sx_data s) + spare o) 0) as [N|N]; [|apply X; lia].
  destruct A as [A _]. rewrite N. apply A. lia.
Qed.
Print Assumptions C114_capacity.

(* A message that could not be made can be asked for again: it is made as soon as there is memory, one request for each attempt. *)
Theorem C114_again : forall dbg a ok o s, std_alloc a -> order_ok o -> made dbg o = Ok s -> forall j n k, (j < n)%nat ->
  (forall i, (i < j)%nat -> ok (k + i)%nat = false) -> ok (k + j)%nat = true -> try_again dbg a ok o n k = Some (s, (k + j + 1)%nat).
Proof. exact again. Qed.
Print Assumptions C114_again.

(* Without memory none is made. *)
Theorem C114_never : forall dbg a ok o s, std_alloc a -> order_ok o -> made dbg o = Ok s -> forall n k,
  (forall i, (i < n)%nat -> ok (k + i)%nat = false) -> try_again dbg a ok o n k = None.
Proof. exact never. Qed.
Print Assumptions C114_never.

(* ---- concrete cases ---------------------------------------------------------------------------- *)

Definition c114_alloc : allocator := mkAlloc Z.max (fun c => c).
Lemma c114_alloc_exact : exact_alloc c114_alloc.
Proof. repeat split; cbn; intros; lia. Qed.

(* property data in a debug build *)
Definition c114_data : order := OPropertyData 0x35 0x1234567 0x7654321 (Some [0x7B; 0x7D]) 2 1 (Some [1; 2; 3]) 5 0x7F.
(* profiles, two enabled and one disabled *)
Definition c114_profiles : order :=
  OProfiles 1 2 [mkProf 1 2 3 4 5; mkProf 0x7E 1 2 3 4] 2 [mkProf 9 8 7 6 5] 1 3.

Example C114_ex : order_ok c114_data /\ order_ok c114_profiles /\
  made true c114_data = Ok (mkSx universal_non_realtime
    [0x7F; 0x0D; 0x35; 2; 0x67; 0x0A; 0x0D; 0x09; 0x21; 0x06; 0x15; 0x3B; 5; 2; 0; 0x7B; 0x7D; 2; 0; 1; 0; 3; 0; 1; 2; 3]) /\
  (exists s, made true c114_profiles = Ok s /\ size (sx_data s) = 31).
Proof. split; [exact I|]. split; [cbn; lia|]. split; [reflexivity|]. eexists. split; reflexivity. Qed.

Example C114_again_ex : try_again true c114_alloc (fun i => Nat.eqb i 2) c114_data 5 0 =
  match made true c114_data with Ok s => Some (s, 3%nat) | Fault _ => None end.
Proof. reflexivity. Qed.

(* a chunk beyond the last one, in a debug build *)
Example C114_faults_ex : made_m true c114_alloc (fun _ => true) (OPropertyData 0x35 1 2 None 2 3 (Some [1]) 5 0x7F) = Fault AssertFail.
Proof. reflexivity. Qed.

(* One byte too many is reserved for a discovery message. *)
Theorem C114_exact_refuted : exists o s st, order_ok o /\ made true o = Ok s /\
  made_m true c114_alloc (fun _ => true) o = Ok (st, true) /\ gr_capacity st <> size (sx_data s).
Proof.
  exists (ODiscovery 0x70 1 broadcast_muid (mkDevId 0x210900 1 2 3) 0x0E 512 0). do 2 eexists. split; [exact I|].
  split; [reflexivity|]. split; [reflexivity|]. discriminate.
Qed.
Print Assumptions C114_exact_refuted.
