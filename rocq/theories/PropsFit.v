(* Property C103: a property divided to fit is received by a device with limited memory *)
From Coq Require Import ZArith String List Bool Lia.
From Verif Require Import Base Packet PacketSpec Sysex SysexSpec Collector StreamSpec CollectSpec ManySpec
  CapInq PropEx CapSpec JsonSpec Transfer TransferSpec Fit FitSpec FitProofs PropsCollect.
Import ListNotations.
Local Open Scope Z_scope.
Local Open Scope res_scope.
Local Open Scope list_scope.

(* The sender divides whenever the property can be divided; then the pieces have the size that is left beside the header, no message is
   larger than the declared maximum, and whoever receives them in order among any other messages obtains the property. *)
Theorem C103_divided : forall dbg c o body, arguments_ok c o body ->
  exists h, header_is (first_call o (mkChunk 1 1 None)) h /\
    (size (text_of h) < 16384 -> forall max, let room := body_room max (size (text_of h)) in
     exists r, divide dbg max c o body = Ok r /\
     (r = None <-> room < 1 \/ 16383 * room < size body) /\
     forall xs, r = Some xs ->
       size xs = Z.max 1 ((size body + room - 1) / room) /\ Forall (respects max) xs /\
       exists x, tr_common x = c /\ tr_opening x = o /\ body_of x = body /\
         Forall (fun m => sx_id m = 0x7E0000 /\ Forall is_u7 (sx_data m) /\ belongs (pc_dst c) (transfer_key x) m = true) xs /\
         forall ss, Forall wf_sysex ss -> filter (belongs (pc_dst c) (transfer_key x)) ss = xs -> came_through dbg x (text_of h) ss).
Proof. exact divided. Qed.
Print Assumptions C103_divided.

(* A receiver that limits its collector to the size it has declared, or more, loses nothing of it: packets of sixteen groups
   and other packets in any interleaving, as long as the other messages of the group respect the limit too. *)
Theorem C103_received : forall dbg c o body, arguments_ok c o body ->
  exists h, header_is (first_call o (mkChunk 1 1 None)) h /\
    (size (text_of h) < 16384 -> forall max xs, divide dbg max c o body = Ok (Some xs) ->
     exists x, tr_common x = c /\ tr_opening x = o /\ body_of x = body /\
       forall a lim g (ms : Z -> list sysex) (t : traffic Z),
         exact_alloc a -> max <= lim -> 0 <= g < 16 ->
         (forall k p, In (Some k, p) t -> 0 <= k < 16) ->
         (forall k, 0 <= k < 16 -> Forall sendable7 (ms k) /\
            sent_messages (fun m => send_sysex7 m k) (ms k) (sent_by (Z.eqb k) t)) ->
         Forall (fun p => wf_packet p /\ type p <> 3) (other_traffic t) ->
         Forall (respects lim) (ms g) ->
         filter (belongs (pc_dst c) (transfer_key x)) (ms g) = xs ->
         exists c', c7_calls a (c7_set_max a (new_collector7 true) lim) (map KFeed (filter (for_group g) (map snd t))) = Ok (c', ms g) /\
           came_through dbg x (text_of h) (ms g)).
Proof. exact fit_packets. Qed.
Print Assumptions C103_received.

(* ---- a concrete case: 100 bytes to a receiver of 64 bytes ---------------------------------------------------- *)

Definition c103_common : pe_common := mkCommon 0x1111111 0x0222222 7 0x7F.
Definition c103_body : list Z := map Z.of_nat (seq 1 100).
Lemma c103_ok : arguments_ok c103_common (OReplyStatus 200) c103_body.
Proof.
  unfold arguments_ok, is_u28, is_u7, c103_common. cbn [pc_src pc_dst pc_request pc_device].
  refine (conj _ (conj _ (conj _ (conj _ (conj _ (conj _ _)))))); try lia.
  - cbn. unfold is_s32. lia.
  - constructor.
  - unfold c103_body, all7. apply Forall_forall. intros z I. apply in_map_iff in I as (n & <- & J). apply in_seq in J. unfold is_u7. lia.
Qed.
Definition c103_packets (ms : list sysex) : res (list packet) :=
  fold_right (fun m r => p <- send_sysex7 m 3 ;; q <- r ;; Ok (p ++ q)) (Ok []) ms.
Definition c103_run (before : list sysex) : res (list Z * list received) :=
  d <- divide true 64 c103_common (OReplyStatus 200) c103_body ;;
  match d with
  | None => Fault AssertFail
  | Some xs =>
      ps <- c103_packets (before ++ xs) ;;
      s <- c7_calls plain_alloc (c7_set_max plain_alloc (new_collector7 true) 64) (map KFeed ps) ;;
      r <- receive_all true 0x0222222 [] (snd s) ;;
      Ok (map whole_size xs, snd r)
  end.
Example C103_ex : arguments_ok c103_common (OReplyStatus 200) c103_body /\
  c103_run [mkSx 0x410000 [1; 2; 3]] = Ok ([64; 50; 50; 46], [mkRecv (0x35, 0x1111111, 7) (str "{""status"":200}") c103_body]).
Proof. split; [apply c103_ok|]. vm_compute. reflexivity. Qed.

(* If another sender exceeds the limit before, the property may be lost: the message is refused at its last packet, its rest
   stays in the collector and the first message of the transfer does not fit any more (C28). *)
Theorem C103_after_oversized_refuted : exists m, sendable7 m /\ ~ respects 64 m /\
  c103_run [m] = Ok ([64; 50; 50; 46], []).
Proof.
  exists (mkSx 0x7D0000 (repeat 1 65)). split; [|split; [|vm_compute; reflexivity]].
  - split; [left; exists 0x7D; split; [lia|reflexivity]|]. split; [discriminate|]. cbn [sx_data].
    apply Forall_forall. intros z I. apply repeat_spec in I. subst z. unfold is_u7. lia.
  - unfold respects. vm_compute. congruence.
Qed.
Print Assumptions C103_after_oversized_refuted.
