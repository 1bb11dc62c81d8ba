(* C84: packets survive a connection that carries 32 bit words. *)
From Coq Require Import ZArith List Bool Lia.
From Verif Require Import Base Packet Messages Sysex DataPackets DataSpec Utility ByteStream ChannelVoice Endpoint Flex.
From Verif Require Import PacketSpec VoiceSpec EndpointSpec FlexSpec StreamSpec WireSpec WireProofs.
Import ListNotations.
Local Open Scope Z_scope.

(* packets with any contents: the receiver gets an equal packet for each, and no word is left over *)
Theorem C84_received ps : Forall wf_packet ps ->
  exists qs, receive [] (transmission ps) = ([], qs) /\ Forall2 (fun p q => packet_eq p q = Ok true) ps qs.
Proof. exact (received ps). Qed.
Print Assumptions C84_received.

(* the words may arrive in pieces of any size *)
Theorem C84_pieces a pending b :
  receive pending (a ++ b) =
  (fst (receive (fst (receive pending a)) b), snd (receive pending a) ++ snd (receive (fst (receive pending a)) b)).
Proof. exact (receive_app a pending b). Qed.
Print Assumptions C84_pieces.

(* any words are the transmission of the packets received, followed by the words of a packet not yet complete *)
Theorem C84_any_words ws :
  let r := receive [] ws in
  ws = transmission (snd r) ++ fst r /\ incomplete (fst r) /\ receive [] (transmission (snd r)) = ([], snd r).
Proof.
  destruct (receive_any ws []) as (E & I & F); [now left|]. split; [exact E|]. split; [exact I|].
  rewrite receive_all. f_equal. clear - F. induction F as [|p l P F IH]; [reflexivity|]. cbn [map]. now rewrite P, IH.
Qed.
Print Assumptions C84_any_words.

(* the packets the library makes arrive unchanged, including the words that are not part of the message *)
Theorem C84_unchanged ps : Forall made ps -> receive [] (transmission ps) = ([], ps).
Proof. exact (made_unchanged ps). Qed.
Print Assumptions C84_unchanged.

(* a note on in MIDI 2, its translation to MIDI 1, a SysEx message in two packets and text in three,
   received in two pieces that divide a packet *)
Definition sample_note : packet := make_midi2_note_on 3 4 60 0x1234.
Definition sample_translated : packet := match to_midi1 sample_note with Some q => q | None => packet0 end.
Definition sample_sysex : list packet :=
  match send_sysex7 (mkSx 0x410000 [1; 2; 3; 4; 5; 6; 7]) 2 with Ok ps => ps | Fault _ => [] end.
Definition sample_text : list packet :=
  match send_text true TName (repeat 65 30) with Ok ps => ps | Fault _ => [] end.
Definition sample_packets : list packet := sample_note :: sample_translated :: sample_sysex ++ sample_text.

Lemma sample_made : Forall made sample_packets.
Proof.
  constructor.
  { apply (made_midi2_voice 3 4 60 0 0 0 0 0x1234 0 0); unfold address, is_u7, is_u14, is_u8, is_u16, is_u32, is_s32; try lia.
    right. left. reflexivity. }
  constructor.
  { apply (made_to_midi1 sample_note); [vm_compute; intuition discriminate|reflexivity]. }
  apply Forall_app. split.
  - apply Forall_forall. intros p. apply (made_send7 (mkSx 0x410000 [1; 2; 3; 4; 5; 6; 7]) 2).
    + unfold is_u32. cbn. lia.
    + cbn [sx_data]. repeat (apply Forall_cons; [unfold is_u8; lia|]). constructor.
    + lia.
    + reflexivity.
  - apply Forall_forall. intros p. apply (made_text true TName (repeat 65 30)).
    + apply Forall_forall. intros x X. apply repeat_spec in X. subst x. unfold is_u8. lia.
    + exact I.
    + discriminate.
    + reflexivity.
Qed.

Example C84_example :
  map psize sample_packets = [2; 1; 2; 2; 4; 4; 4]%nat /\ length (transmission sample_packets) = 19%nat /\
  length (snd (receive [] (firstn 4 (transmission sample_packets)))) = 2%nat /\
  length (fst (receive [] (firstn 4 (transmission sample_packets)))) = 1%nat /\
  receive [] (transmission sample_packets) = ([], sample_packets).
Proof.
  split; [reflexivity|]. split; [reflexivity|]. split; [reflexivity|]. split; [reflexivity|].
  exact (C84_unchanged _ sample_made).
Qed.

(* not so for SysEx 8 packets with a group above 15, which the constructor accepts: the packet is of
   another type, and the words with its data are not transmitted *)
Theorem C84_any_group_refuted : exists g s l q q', is_u8 g /\ is_u8 s /\ Forall is_u8 l /\
  add_all sysex8_add_payload_byte (make_sysex8_complete_packet s g) l = Ok q /\
  receive [] (transmission [q]) = ([], [q']) /\ q' <> q.
Proof.
  exists 32, 1, [1; 2; 3; 4; 5; 6; 7]. eexists _, _. split; [unfold is_u8; lia|]. split; [unfold is_u8; lia|].
  split; [repeat (apply Forall_cons; [unfold is_u8; lia|]); constructor|].
  split; [vm_compute; reflexivity|]. split; [vm_compute; reflexivity|]. discriminate.
Qed.
Print Assumptions C84_any_group_refuted.
