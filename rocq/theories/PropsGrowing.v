(* Property C112: a SysEx grows while memory may run out *)
From Coq Require Import ZArith List Bool Lia.
From Verif Require Import Base Sysex SysexSpec UniversalSysex StreamSpec Collector Growing GrowingSpec GrowingProofs.
Import ListNotations.
Local Open Scope Z_scope.

(* Any values are appended to any SysEx, the allocator answering in any way: either all requests were granted and the bytes of
   all values follow the data; or one was refused, an exception was passed on, and the data are followed by the bytes of the
   values before, and of the value concerned by whole portions, which for all but device identities means none. *)
Theorem C112_any_answers : forall dbg a ok ps, std_alloc a -> Forall valid_piece ps -> forall st, sound st ->
  exists st' fin, build dbg a ok st ps = Ok (st', fin) /\ sound st' /\ sx_id (gr_sysex st') = sx_id (gr_sysex st) /\
    (if fin then content st' = content st ++ all_bytes ps /\ (gr_asked st <= gr_asked st')%nat /\
       (forall i, (gr_asked st <= i < gr_asked st')%nat -> ok i = true)
     else exists before p after k n, ps = before ++ p :: after /\ (k < length (portions p))%nat /\
       content st' = content st ++ all_bytes before ++ concat (firstn k (portions p)) /\
       gr_asked st' = S n /\ (gr_asked st <= n)%nat /\ ok n = false /\ (forall i, (gr_asked st <= i < n)%nat -> ok i = true)).
Proof.
  intros dbg a ok ps A V st Sd. destruct (build_spec dbg a ok ps A V st Sd) as (st' & fin & E & S' & I & F & _). exists st', fin. auto.
Qed.
Print Assumptions C112_any_answers.

(* Values other than device identities can be tried again until there is memory: nothing is lost or doubled.  n attempts too
   many are enough if memory is refused no more after n requests. *)
Theorem C112_insist : forall dbg a ok, std_alloc a -> forall n ps, Forall valid_piece ps -> Forall single ps -> forall st, sound st ->
  exists st' fin, insist dbg a ok n st ps = Ok (st', fin) /\ sound st' /\ sx_id (gr_sysex st') = sx_id (gr_sysex st) /\
    (if fin then content st' = content st ++ all_bytes ps
     else exists before after, ps = before ++ after /\ after <> [] /\ content st' = content st ++ all_bytes before) /\
    ((forall i, (gr_asked st + n <= i)%nat -> ok i = true) -> fin = true).
Proof. exact insist_spec. Qed.
Print Assumptions C112_insist.

(* While there is room, no memory is asked for. *)
Theorem C112_room : forall dbg a ok st ps, std_alloc a -> Forall valid_piece ps -> sound st ->
  size (content st) + size (all_bytes ps) <= gr_capacity st ->
  exists st', build dbg a ok st ps = Ok (st', true) /\ gr_asked st' = gr_asked st /\ content st' = content st ++ all_bytes ps.
Proof. exact room_enough. Qed.
Print Assumptions C112_room.

(* A SysEx constructed with a capacity of up to 16384 bytes serves for any number of messages up to that size, with clear() before
   each: after the constructor no memory is asked for. *)
Theorem C112_reserved_once : forall dbg a ok id n l, exact_alloc a -> 0 <= n <= 16384 -> Forall (Forall valid_piece) l ->
  Forall (fun ps => size (all_bytes ps) <= n) l ->
  exists st fin, new_with_capacity a ok id n = Ok (st, fin) /\ (gr_asked st <= 1)%nat /\ (fin = false -> ok 0%nat = false) /\
    (fin = true -> exists st', reuse dbg a ok st l = Ok (st', true) /\ gr_asked st' = gr_asked st /\
       match rev l with [] => st' = st | ps :: _ => gr_sysex st' = mkSx 0 (all_bytes ps) end).
Proof. exact reserved_once. Qed.
Print Assumptions C112_reserved_once.

(* Any number of values are appended to a new SysEx: requests for memory get rare, there are at most 2 log2(n + 1) + 1 for n bytes. *)
Theorem C112_amortised : forall dbg a ok id ps st, std_alloc a -> build dbg a ok (new_growing id) ps = Ok (st, true) ->
  Z.of_nat (gr_asked st) <= 2 * Z.log2 (size (content st) + 1) + 1.
Proof.
  intros dbg a ok id ps st A H. pose proof (amortised dbg a ok id ps st A H) as B.
  assert (P : 0 < size (content st) + 1) by (unfold size; lia). apply Z.log2_le_pow2 in B; [|exact P].
  pose proof (Z.mul_succ_div_gt (Z.of_nat (gr_asked st)) 2 ltac:(lia)). lia.
Qed.
Print Assumptions C112_amortised.

(* An identity reply asks for memory exactly once. *)
Theorem C112_identity_reply : forall dbg a ok m f fm r dev, std_alloc a ->
  ((exists b, 1 <= b < 128 /\ m = b * 65536) \/ (exists b c, is_u7 b /\ is_u7 c /\ m = b * 256 + c)) ->
  is_u14 f -> is_u14 fm -> is_u28 r -> is_u8 dev ->
  exists st, identity_reply_m dbg a ok m f fm r dev = Ok (st, ok 0%nat) /\ gr_asked st = 1%nat /\
    (ok 0%nat = true -> identity_reply dbg m f fm r dev = Ok (gr_sysex st)).
Proof. exact reply_spec. Qed.
Print Assumptions C112_identity_reply.

(* as_sysex7_packets asks for memory exactly once. *)
Theorem C112_packets : forall a ok id d g, std_alloc a -> valid_id id -> Forall is_u8 d -> 0 <= g < 16 ->
  exists ps, send_sysex7 (mkSx id d) g = Ok ps /\
    as_sysex7_packets_m a ok (mkSx id d) g = Ok (if ok 0%nat then Some ps else None, 1%nat).
Proof. exact packets_once. Qed.
Print Assumptions C112_packets.

(* as_sysex8_packets returns all packets unless one of its requests is refused. *)
Theorem C112_packets8 : forall a ok id d i g ps, send_sysex8 (mkSx id d) i g = Ok ps -> exists m,
  (as_sysex8_packets_m a ok (mkSx id d) i g = Ok (Some ps, S m) /\ (forall i, (i <= m)%nat -> ok i = true)) \/
  (as_sysex8_packets_m a ok (mkSx id d) i g = Ok (None, S m) /\ ok m = false /\ (forall i, (i < m)%nat -> ok i = true)).
Proof. exact packets8_all_or_none. Qed.
Print Assumptions C112_packets8.

(* libstdc++ *)
Definition c112_alloc : allocator := mkAlloc (fun c n => Z.max c n) (fun _ => 0).
Lemma c112_exact : exact_alloc c112_alloc.
Proof. unfold exact_alloc, std_alloc, c112_alloc. cbn. repeat split; intros; lia. Qed.
Definition c112_identity : device_identity := mkDevId 0x002109 0x1234 0x0081 0x0ABCDEF.
Definition c112_pieces : list piece := [Uint7 5; Uint14 0x1234; Data [1; 2; 3]; Identity c112_identity; Uint32 0xFFFFFFFF].
Lemma c112_valid : Forall valid_piece c112_pieces.
Proof.
  unfold c112_pieces, c112_identity. apply Forall_cons; [cbn; unfold is_u7; lia|]. apply Forall_cons; [cbn; unfold is_u14; lia|].
  apply Forall_cons; [discriminate|]. apply Forall_cons; [|apply Forall_cons; [cbn; unfold is_u32; lia|constructor]].
  split; [exists 0, 0x21, 9; unfold is_u7; cbn; lia|]. cbn; unfold is_u14, is_u28; lia.
Qed.
(* memory is refused the fifth time: within the identity *)
Example C112_ex : exact_alloc c112_alloc /\ Forall valid_piece c112_pieces /\ sound (new_growing 0x410000) /\
  (exists st, build true c112_alloc (fun _ => true) (new_growing 0x410000) c112_pieces = Ok (st, true) /\ gr_asked st = 5%nat /\
    content st = [5; 0x34; 0x24; 1; 2; 3; 0; 0x21; 9; 0x34; 0x24; 1; 1; 0x6F; 0x1B; 0x2F; 5; 0x7F; 0x7F; 0x7F; 0x7F; 15]) /\
  (exists st, build true c112_alloc (fun n => negb (Nat.eqb n 4)) (new_growing 0x410000) c112_pieces = Ok (st, false) /\ gr_asked st = 5%nat /\
    content st = [5; 0x34; 0x24; 1; 2; 3; 0; 0x21; 9; 0x34; 0x24]).
Proof.
  split; [exact c112_exact|]. split; [exact c112_valid|]. split; [unfold sound; cbn; lia|].
  split; eexists; (split; [vm_compute; reflexivity|]); split; reflexivity.
Qed.
(* 60 bytes and the id in 11 packets *)
Example C112_ex_packets : valid_id 0x410000 /\ exists ps, as_sysex7_packets_m c112_alloc (fun n => Nat.eqb n 0) (mkSx 0x410000 (repeat 1 60)) 0 = Ok (Some ps, 1%nat) /\
  length ps = 11%nat.
Proof. split; [left; exists 0x41; lia|]. eexists. split; [vm_compute; reflexivity|reflexivity]. Qed.
(* a thousand bytes, one after the other *)
Example C112_ex_amortised : exists st, build true c112_alloc (fun _ => true) (new_growing 0x410000) (repeat (Uint7 5) 1000) = Ok (st, true) /\
  gr_asked st = 11%nat /\ size (content st) = 1000.
Proof. eexists. split; [vm_compute; reflexivity|]. split; vm_compute; reflexivity. Qed.
(* every other request is refused *)
Example C112_ex_insist : Forall single (firstn 3 c112_pieces) /\
  exists st, insist true c112_alloc Nat.odd 3 (new_growing 0x410000) (firstn 3 c112_pieces) = Ok (st, true) /\ gr_asked st = 6%nat /\
    content st = [5; 0x34; 0x24; 1; 2; 3].
Proof. split; [repeat constructor|]. eexists. split; [vm_compute; reflexivity|]. split; reflexivity. Qed.
(* two messages in one object *)
Example C112_ex_reuse : Forall (fun ps => size (all_bytes ps) <= 22) [c112_pieces; [Uint28 1000]] /\
  exists st st', new_with_capacity c112_alloc (fun n => Nat.eqb n 0) 0x410000 22 = Ok (st, true) /\
    reuse true c112_alloc (fun n => Nat.eqb n 0) st [c112_pieces; [Uint28 1000]] = Ok (st', true) /\ gr_sysex st' = mkSx 0 [0x68; 7; 0; 0].
Proof.
  split; [repeat (apply Forall_cons; [vm_compute; discriminate|]); constructor|].
  do 2 eexists. split; [vm_compute; reflexivity|]. split; [vm_compute; reflexivity|reflexivity].
Qed.

(* A device identity cannot be tried again: bytes of the first attempt remain. *)
Theorem C112_identity_refuted : exists ok n, (forall i, (n <= i)%nat -> ok i = true) /\ Forall valid_piece [Identity c112_identity] /\
  exists st, insist true c112_alloc ok n (new_growing 0x410000) [Identity c112_identity] = Ok (st, true) /\
    content st <> all_bytes [Identity c112_identity].
Proof.
  exists (fun i => negb (Nat.eqb i 1)), 2%nat. split; [intros [|[|i]] L; [lia|lia|reflexivity]|].
  split; [exact (Forall_cons _ (Forall_inv (Forall_inv_tail (Forall_inv_tail (Forall_inv_tail c112_valid)))) (Forall_nil _))|].
  eexists. split; [vm_compute; reflexivity|]. vm_compute. discriminate.
Qed.
Print Assumptions C112_identity_refuted.
(* and neither can a SysEx that was constructed with a larger capacity be reused without memory *)
Theorem C112_large_refuted : exists n ps, 16384 < n /\ Forall valid_piece ps /\ size (all_bytes ps) <= n /\
  exists ok st st', new_with_capacity c112_alloc ok 0x410000 n = Ok (st, true) /\ reuse true c112_alloc ok st [ps] = Ok (st', false).
Proof.
  exists 16385, [Uint7 5]. split; [lia|]. split; [apply Forall_cons; [cbn; unfold is_u7; lia|constructor]|]. split; [vm_compute; discriminate|].
  exists (fun n => Nat.eqb n 0). do 2 eexists. split; [vm_compute; reflexivity|]. vm_compute. reflexivity.
Qed.
Print Assumptions C112_large_refuted.

(* as_sysex8_packets may need more than it reserves: two requests for 25 bytes *)
Theorem C112_packets8_refuted : exists id d ps, valid_id id /\ Forall is_u8 d /\ send_sysex8 (mkSx id d) 1 0 = Ok ps /\
  as_sysex8_packets_m c112_alloc (fun _ => true) (mkSx id d) 1 0 = Ok (Some ps, 2%nat) /\
  as_sysex8_packets_m c112_alloc (fun n => Nat.eqb n 0) (mkSx id d) 1 0 = Ok (None, 2%nat).
Proof.
  exists 0x410000, (repeat 0xAA 25). eexists. split; [left; exists 0x41; lia|]. split; [apply Forall_forall; intros x I; apply repeat_spec in I; subst x; unfold is_u8; lia|].
  split; [vm_compute; reflexivity|]. split; vm_compute; reflexivity.
Qed.
Print Assumptions C112_packets8_refuted.
