(* C46: flex data messages keep their fields. *)
From Coq Require Import ZArith List Bool Lia ZifyBool.
From Verif Require Import Base Packet PacketSpec Sysex Endpoint EndpointSpec Flex FlexSpec FlexProofs.
Import ListNotations.
Local Open Scope Z_scope.

Ltac ranges := cbn; unfold flex_typed, head_typed, head_in_range, flex_checked, is_u8, is_u32; cbn; repeat split;
  repeat constructor; unfold is_char8, is_u8; lia.

(* every constructor writes the specified sixteen bytes *)
Theorem C46_bytes dbg c : flex_typed c -> (dbg = true -> flex_checked c) -> flex_make dbg c = Ok (flex_wire c).
Proof. exact (flex_make_wire dbg c). Qed.
Print Assumptions C46_bytes.
Example C46_bytes_example :
  let c := FMetronome 9 24 4 0 0 2 0 in flex_typed c /\ flex_checked c /\
  bytes (flex_wire c) = [0xD9; 0x10; 0; 2; 24; 4; 0; 0; 2; 0; 0; 0; 0; 0; 0; 0].
Proof. split; [ranges|]. split; [ranges|]. reflexivity. Qed.

(* builds with assertions reject exactly the rest *)
Theorem C46_rejected c : flex_typed c -> ~ flex_checked c -> flex_make true c = Fault AssertFail.
Proof. exact (flex_make_unchecked c). Qed.
Print Assumptions C46_rejected.
Example C46_rejected_example :
  let c := FText (mkHead 0 1 0 3 1 0) [72; 105] in flex_typed c /\ ~ flex_checked c.
Proof. split; [ranges|]. cbn. unfold flex_checked, size. cbn. lia. Qed.

(* the view accepts exactly the packets of type flex data *)
Theorem C46_view_accepts dbg p : wf_packet p ->
  (nth 0 (bytes p) 0 / 16 = 13 -> flex_data_message_view dbg p = Ok p /\ as_flex_data_message_view dbg p = Ok (Some p)) /\
  (nth 0 (bytes p) 0 / 16 <> 13 ->
     flex_data_message_view dbg p = (if dbg then Fault AssertFail else Ok p) /\ as_flex_data_message_view dbg p = Ok None).
Proof. intros W. destruct (flex_view_iff dbg p W) as [H|H]; tauto. Qed.
Print Assumptions C46_view_accepts.
Example C46_view_accepts_example : let p := mkP 0xD0100000 1 2 3 in wf_packet p /\ nth 0 (bytes p) 0 / 16 = 13.
Proof. split; [unfold wf_packet, is_u32; cbn; lia|reflexivity]. Qed.

(* on every received packet the accessors return the fields of its bytes, without faults *)
Theorem C46_accessors p : wf_packet p -> flex_read p = Ok (flex_meaning (bytes p)).
Proof. exact (flex_read_meaning p). Qed.
Print Assumptions C46_accessors.
Example C46_accessors_example : let p := mkP 0xD36A0102 0x41420000 2 3 in
  wf_packet p /\ flex_meaning (bytes p) = mkFlexReport (mkHead 3 1 2 10 1 2) 0x41420000 2 3 [0x41; 0x42].
Proof. split; [unfold wf_packet, is_u32; cbn; lia|reflexivity]. Qed.

(* the accessors return the arguments: header, data words, and texts of up to twelve non-zero
   bytes (UTF-8 included) *)
Theorem C46_round_trip dbg c : flex_typed c -> head_in_range (flex_head_of c) -> (dbg = true -> flex_checked c) ->
  exists p, flex_make dbg c = Ok p /\ wf_packet p /\ as_flex_data_message_view dbg p = Ok (Some p) /\
  bytes p = (let l := head_bytes (flex_head_of c) ++ flex_data_of c in l ++ repeat 0 (16 - length l)) /\
  exists r, flex_read p = Ok r /\ fr_head r = flex_head_of c /\
   (forall d1 d2 d3, flex_words_of c = Some (d1, d2, d3) -> fr_data1 r = d1 /\ fr_data2 r = d2 /\ fr_data3 r = d3) /\
   (forall h t, c = FText h t -> (length t <= 12)%nat -> Forall is_char8 t -> fr_text r = t).
Proof. exact (flex_round_trip dbg c). Qed.
Print Assumptions C46_round_trip.
Example C46_round_trip_example :
  let c := FText (mkHead 5 3 0 15 1 2) [0xC3; 0x80; 0x42] in
  flex_typed c /\ head_in_range (flex_head_of c) /\ flex_checked c /\ Forall is_char8 [0xC3; 0x80; 0x42].
Proof. cbv zeta. refine (conj _ (conj _ (conj _ _))); ranges. Qed.

(* the constructor with only a group gives an empty message of that group *)
Theorem C46_default_message g : is_u8 g -> flex_data_message0 g = packet_of_bytes [0xD0 + g mod 16].
Proof. exact (flex_default g). Qed.
Print Assumptions C46_default_message.
Example C46_default_message_example : is_u8 0x3A /\ w0 (flex_data_message0 0x3A) = 0xDA000000.
Proof. split; [unfold is_u8; lia|reflexivity]. Qed.

(* builds without assertions let an address that is not a channel carry a channel *)
Theorem C46_channel_of_group_refuted : exists p,
  flex_make false (FChord 0 1 7 0 0 0) = Ok p /\ flex_address p = 1 /\ flex_channel p = 7.
Proof. eexists. split; [vm_compute; reflexivity|]. now vm_compute. Qed.
Print Assumptions C46_channel_of_group_refuted.
