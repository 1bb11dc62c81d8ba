(* Property C89: a property of any size exchanged in chunks *)
From Coq Require Import ZArith List Bool String Lia.
From Verif Require Import Base Packet PacketSpec Sysex SysexSpec ByteStream Collector StreamSpec SessionSpec CollectSpec ManySpec ManyProofs
  CapInq PropEx CapSpec JsonSpec Transfer TransferSpec TransferProofs PropsCap PropsMany.
Import ListNotations.
Local Open Scope Z_scope.
Local Open Scope res_scope.
Local Open Scope list_scope.

(* The constructors make the messages of a transfer, all 7-bit.  Whatever the receiver has received before and whatever
   else arrives between them, also chunks of other transfers and messages that are no property data: if the messages that
   belong to the transfer arrive in order, the receiver obtains the header and the body once, and nothing else under this
   key. *)
Theorem C89_received : forall dbg x, transfer_ok x ->
  exists h, header_is (first_call (tr_opening x) (mkChunk 1 1 None)) h /\
    (size (text_of h) < 16384 ->
     exists ms, transfer_messages dbg x = Ok ms /\
       Forall (fun m => sx_id m = 0x7E0000 /\ Forall is_u7 (sx_data m) /\
         belongs (pc_dst (tr_common x)) (transfer_key x) m = true) ms /\
       forall ps ss, Forall wf_sysex ss -> filter (belongs (pc_dst (tr_common x)) (transfer_key x)) ss = ms ->
       exists ps' out, receive_all dbg (pc_dst (tr_common x)) ps ss = Ok (ps', out) /\
         filter (about (transfer_key x)) out = [mkRecv (transfer_key x) (text_of h) (body_of x)]).
Proof. exact transfer_received. Qed.
Print Assumptions C89_received.

(* Transfers do not influence each other: what is received under a key depends on the messages of that key only, also for
   messages that the library has not made.  The receiver never meets undefined behaviour. *)
Theorem C89_apart : forall dbg me k ps ps' ss ss', Forall wf_sysex ss -> Forall wf_sysex ss' ->
  find (fun o => tkey_eqb k (pd_key o)) ps = find (fun o => tkey_eqb k (pd_key o)) ps' ->
  filter (belongs me k) ss = filter (belongs me k) ss' ->
  exists q o q' o', receive_all dbg me ps ss = Ok (q, o) /\ receive_all dbg me ps' ss' = Ok (q', o') /\
    filter (about k) o = filter (about k) o'.
Proof. exact apart. Qed.
Print Assumptions C89_apart.

(* ---- a concrete case: two simultaneous transfers of the same sender, foreign messages between them --------------- *)

Definition c89_x : transfer := mkTransfer (mkCommon 0x1111111 0x0222222 7 0x7F) (OReplyStatus 200) [1; 2; 3] [[]; [4; 5]].
Definition c89_y : transfer := mkTransfer (mkCommon 0x1111111 0x0222222 8 0x7F) (OSet [65; 66]) [9] [[10; 11]].
Definition c89_junk : list sysex := [mkSx 0x7E0000 [1; 0x0D]; mkSx 0x7E0000 [200; 0x0D; 0x35; 255; 255]; mkSx 0x410000 []].
Definition c89_run (dbg : bool) : res (list received) :=
  xs <- transfer_messages dbg c89_x ;; ys <- transfer_messages dbg c89_y ;;
  match xs, ys with
  | [x1; x2; x3], [y1; y2] =>
      r <- receive_all dbg 0x0222222 [] ([y1] ++ c89_junk ++ [x1; x2; y2; x3; y2]) ;; Ok (snd r)
  | _, _ => Fault AssertFail
  end.

Lemma c89_ok_x : transfer_ok c89_x.
Proof.
  unfold transfer_ok, is_u28, is_u7, piece_ok. cbn.
  repeat apply conj; try lia; repeat constructor; try (cbn; lia); try (unfold is_u7; lia); unfold is_s32; try lia.
Qed.
Lemma c89_ok_y : transfer_ok c89_y.
Proof.
  unfold transfer_ok, is_u28, is_u7, piece_ok. cbn.
  repeat apply conj; try lia; repeat constructor; try (cbn; lia); try (unfold is_u7; lia).
Qed.
Example C89_ex : transfer_ok c89_x /\ transfer_ok c89_y /\ Forall wf_sysex c89_junk /\
  c89_run true = Ok [mkRecv (transfer_key c89_y) (str "{""resource"":""AB""}") [9; 10; 11];
                     mkRecv (transfer_key c89_x) (str "{""status"":200}") [1; 2; 3; 4; 5]].
Proof.
  split; [apply c89_ok_x|]. split; [apply c89_ok_y|].
  split; [repeat constructor; unfold is_u32, is_u8; cbn; lia|]. vm_compute. reflexivity.
Qed.

(* ---- end to end ----------------------------------------------------------------------------------------------- *)

(* as SysEx7 packets, among the messages of sixteen groups and other packets in any interleaving *)
Theorem C89_over_packets : forall dbg x, transfer_ok x ->
  exists h, header_is (first_call (tr_opening x) (mkChunk 1 1 None)) h /\
    (size (text_of h) < 16384 ->
     exists xs, transfer_messages dbg x = Ok xs /\
       forall a c g (ms : Z -> list sysex) (t : traffic Z),
         std_alloc a -> reached7 a 0 c -> c7_has_cb c = true -> 0 <= g < 16 ->
         (forall k p, In (Some k, p) t -> 0 <= k < 16) ->
         (forall k, 0 <= k < 16 -> Forall sendable7 (ms k) /\
            sent_messages (fun m => send_sysex7 m k) (ms k) (sent_by (Z.eqb k) t)) ->
         Forall (fun p => wf_packet p /\ type p <> 3) (other_traffic t) ->
         filter (belongs (pc_dst (tr_common x)) (transfer_key x)) (ms g) = xs ->
         exists c' ss, c7_calls a c (map KFeed (filter (for_group g) (map snd t))) = Ok (c', ss) /\
           came_through dbg x (text_of h) ss).
Proof. exact packets_through. Qed.
Print Assumptions C89_over_packets.

(* as MIDI 1 bytes, among short messages and real-time messages *)
Theorem C89_over_bytes : forall dbg x, transfer_ok x ->
  exists h, header_is (first_call (tr_opening x) (mkChunk 1 1 None)) h /\
    (size (text_of h) < 16384 ->
     exists xs, transfer_messages dbg x = Ok xs /\
       forall g st gms ps rs qs, reached g true st -> session divided gms ps -> realtime_between rs ps qs ->
         filter (belongs (pc_dst (tr_common x)) (transfer_key x)) (sysexes_sent gms) = xs ->
         exists bs st' out, stream_of_packets qs = Ok bs /\ feed_all st bs = Ok (st', out) /\
           came_through dbg x (text_of h) (sysexes_of out)).
Proof. exact bytes_through. Qed.
Print Assumptions C89_over_bytes.

(* the messages of a transfer are such traffic: y sent on group 3 *)
Definition c89_sent : res (list sysex * list packet) :=
  ms <- transfer_messages true c89_y ;;
  match ms with
  | [m1; m2] => p1 <- send_sysex7 m1 3 ;; p2 <- send_sysex7 m2 3 ;; Ok (ms, p1 ++ p2)
  | _ => Fault AssertFail
  end.
Example C89_over_ex : exists m1 m2 ps, c89_sent = Ok ([m1; m2], ps) /\ List.length ps = 11%nat /\ size (sx_data m1) = 39 /\
  filter (belongs 0x0222222 (transfer_key c89_y)) [m1; mkSx 0x410000 [1]; m2] = [m1; m2].
Proof. eexists _, _, _. split; [vm_compute; reflexivity|]. vm_compute. auto. Qed.
