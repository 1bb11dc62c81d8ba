(* Property C102: a property is received whole or not at all *)
From Coq Require Import ZArith List Bool String Lia.
From Verif Require Import Base Packet PacketSpec Sysex SysexSpec ByteStream Collector StreamSpec SessionSpec CollectSpec ManySpec ManyProofs
  CapInq PropEx CapSpec JsonSpec Transfer TransferSpec TransferProofs ResendProofs LossSpec PropsCap PropsCollect PropsTransfer.
Import ListNotations.
Local Open Scope Z_scope.
Local Open Scope res_scope.
Local Open Scope list_scope.

(* The messages of a transfer may be sent any number of times, and any of them may get lost, arrive again or in another
   order, with anything else in between: the only requirement is that messages with this key are messages of this transfer.
   Whatever the receiver obtains under the key then is the complete property, with its header and its body as they were
   sent; it obtains it if the messages arrive once in sequence, also after failed attempts, and does not if one of them
   never arrives. *)
Theorem C102_whole_or_nothing : forall dbg x, transfer_ok x ->
  exists h, header_is (first_call (tr_opening x) (mkChunk 1 1 None)) h /\
    (size (text_of h) < 16384 ->
     exists ms, transfer_messages dbg x = Ok ms /\
       forall ps ss, Forall wf_sysex ss -> find (fun o => tkey_eqb (transfer_key x) (pd_key o)) ps = None ->
       Forall (fun s => In s ms) (filter (belongs (pc_dst (tr_common x)) (transfer_key x)) ss) ->
       exists ps' out, receive_all dbg (pc_dst (tr_common x)) ps ss = Ok (ps', out) /\
         Forall (fun r => r = mkRecv (transfer_key x) (text_of h) (body_of x)) (filter (about (transfer_key x)) out) /\
         (forall a b, filter (belongs (pc_dst (tr_common x)) (transfer_key x)) ss = a ++ ms ++ b -> filter (about (transfer_key x)) out <> []) /\
         (forall m, In m ms -> ~ In m ss -> filter (about (transfer_key x)) out = [])).
Proof. exact whole_or_nothing. Qed.
Print Assumptions C102_whole_or_nothing.

(* an attempt that loses its second message, one with the messages exchanged, one that succeeds, with others in between *)
Definition c102_run (dbg : bool) : res (list received) :=
  xs <- transfer_messages dbg c89_x ;; ys <- transfer_messages dbg c89_y ;;
  match xs, ys with
  | [x1; x2; x3], [y1; y2] =>
      r <- receive_all dbg 0x0222222 [] ([x1; y1; x3] ++ [x2; x1; x3] ++ c89_junk ++ [x1; x2; y2; x3; x3]) ;; Ok (snd r)
  | _, _ => Fault AssertFail
  end.
Example C102_ex : transfer_ok c89_x /\ Forall wf_sysex c89_junk /\
  filter (belongs 0x0222222 (transfer_key c89_x)) c89_junk = [] /\
  c102_run true = Ok [mkRecv (transfer_key c89_y) (str "{""resource"":""AB""}") [9; 10; 11];
                      mkRecv (transfer_key c89_x) (str "{""status"":200}") [1; 2; 3; 4; 5]].
Proof.
  split; [apply c89_ok_x|]. split; [apply C89_ex|]. split; vm_compute; reflexivity.
Qed.

(* If two properties are sent with the same request id, a loss may combine them: neither of both is received. *)
Definition c102_y : transfer := mkTransfer (mkCommon 0x1111111 0x0222222 7 0x7F) (OReplyStatus 404) [6; 7] [[8]; [9]].
Theorem C102_same_id_refuted : exists x y xs ys ss ps r, transfer_ok x /\ transfer_ok y /\ transfer_key x = transfer_key y /\
  transfer_messages true x = Ok xs /\ transfer_messages true y = Ok ys /\ sublist ss (xs ++ ys) /\
  receive_all true (pc_dst (tr_common x)) [] ss = Ok (ps, [r]) /\ rv_body r <> body_of x /\ rv_body r <> body_of y.
Proof.
  exists c89_x, c102_y.
  destruct (transfer_messages true c89_x) as [xs|] eqn:X; [|vm_compute in X; discriminate].
  destruct (transfer_messages true c102_y) as [ys|] eqn:Y; [|vm_compute in Y; discriminate].
  exists xs, ys, (firstn 2 xs ++ skipn 2 ys). do 2 eexists. split; [apply c89_ok_x|]. split.
  { unfold transfer_ok, is_u28, is_u7, piece_ok. cbn.
    repeat apply conj; try lia; repeat constructor; try (cbn; lia); try (unfold is_u7; lia); unfold is_s32; try lia. }
  split; [reflexivity|]. split; [reflexivity|]. split; [reflexivity|].
  vm_compute in X, Y. injection X as <-. injection Y as <-.
  split; [cbn; repeat constructor|]. split; [vm_compute; reflexivity|]. split; discriminate.
Qed.
Print Assumptions C102_same_id_refuted.

(* If the messages travel as SysEx7 packets and packets are lost, not messages, it may happen with different request ids
   as well (C101): the end of one message and the beginning of the next are lost, and what is left reads as one property. *)
Definition c102_a : transfer := mkTransfer (mkCommon 0x1111111 0x0222222 7 0x7F) (OReplyStatus 200)
  [1; 2; 3; 4; 5; 6; 7; 8; 9; 10; 11; 12] [].
Definition c102_b : transfer := mkTransfer (mkCommon 0x1111111 0x0222222 8 0x7F) (OReplyStatus 200)
  [21; 22; 23; 24; 25; 26; 27; 28; 29; 30; 31; 32] [].
Lemma c102_ok_a : transfer_ok c102_a.
Proof.
  unfold transfer_ok, is_u28, is_u7, piece_ok. cbn.
  repeat apply conj; try lia; repeat constructor; try (cbn; lia); try (unfold is_u7; lia); unfold is_s32; try lia.
Qed.
Lemma c102_ok_b : transfer_ok c102_b.
Proof.
  unfold transfer_ok, is_u28, is_u7, piece_ok. cbn.
  repeat apply conj; try lia; repeat constructor; try (cbn; lia); try (unfold is_u7; lia); unfold is_s32; try lia.
Qed.
Theorem C102_lost_packets_refuted : exists x y mx my px py qs c m ps r, transfer_ok x /\ transfer_ok y /\
  transfer_key x <> transfer_key y /\
  transfer_messages true x = Ok [mx] /\ transfer_messages true y = Ok [my] /\
  send_sysex7 mx 0 = Ok px /\ send_sysex7 my 0 = Ok py /\ sublist qs (px ++ py) /\
  c7_calls plain_alloc (new_collector7 true) (map KFeed qs) = Ok (c, [m]) /\
  receive_all true (pc_dst (tr_common x)) [] [m] = Ok (ps, [r]) /\ rv_key r = transfer_key x /\ rv_body r <> body_of x.
Proof.
  exists c102_a, c102_b.
  destruct (transfer_messages true c102_a) as [[|mx [|]]|] eqn:X; try (vm_compute in X; discriminate).
  destruct (transfer_messages true c102_b) as [[|my [|]]|] eqn:Y; try (vm_compute in Y; discriminate).
  destruct (send_sysex7 mx 0) as [px|] eqn:SX; [|vm_compute in X; injection X as <-; vm_compute in SX; discriminate].
  destruct (send_sysex7 my 0) as [py|] eqn:SY; [|vm_compute in Y; injection Y as <-; vm_compute in SY; discriminate].
  exists mx, my, px, py, (firstn 7 px ++ skipn 7 py). do 4 eexists. split; [apply c102_ok_a|]. split; [apply c102_ok_b|].
  split; [discriminate|]. split; [reflexivity|]. split; [reflexivity|]. split; [exact SX|]. split; [exact SY|].
  vm_compute in X, Y. injection X as <-. injection Y as <-. vm_compute in SX, SY. injection SX as <-. injection SY as <-.
  split; [cbn; repeat constructor|]. split; [vm_compute; reflexivity|]. split; [vm_compute; reflexivity|].
  split; [reflexivity|discriminate].
Qed.
Print Assumptions C102_lost_packets_refuted.
