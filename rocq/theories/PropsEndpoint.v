(* C44: stream messages keep their fields.  C45: names survive being split into packets. *)
From Coq Require Import ZArith List Bool Lia ZifyBool.
From Verif Require Import Base Packet PacketSpec Sysex SysexSpec Endpoint EndpointSpec EndpointProofs.
Import ListNotations.
Local Open Scope Z_scope.

Ltac ranges := cbn; unfold is_u7, is_u8, is_u14, is_u16, is_u28, is_u32, is_char7, visible, is_u8; cbn; repeat split;
  repeat constructor; unfold is_char7, is_u8; lia.

(* ---- C44 --------------------------------------------------------------------------------------- *)

(* every constructor writes the specified sixteen bytes, for all arguments its types admit (in
   builds with assertions: that satisfy the assertions) *)
Theorem C44_bytes dbg c : stream_typed c -> (dbg = true -> stream_checked c) -> stream_make dbg c = Ok (stream_wire c).
Proof. exact (make_wire dbg c). Qed.
Print Assumptions C44_bytes.
Example C44_bytes_example :
  let c := SBlockOptions 5 (mkFbOptions true 3 1 2 0x11 4) 2 3 in
  stream_typed c /\ stream_checked c /\
  bytes (stream_wire c) = [0xF0; 0x11; 0x85; 0x27; 2; 3; 0x11; 4; 0; 0; 0; 0; 0; 0; 0; 0].
Proof. split; [ranges|]. split; [cbn; lia|]. reflexivity. Qed.

(* builds with assertions reject exactly the rest *)
Theorem C44_rejected c : stream_typed c -> ~ stream_checked c -> stream_make true c = Fault AssertFail.
Proof. exact (make_unchecked c). Qed.
Print Assumptions C44_rejected.
Example C44_rejected_example :
  let c := SBlockOptions 5 (mkFbOptions true 1 0 2 0x11 4) 2 3 in stream_typed c /\ ~ stream_checked c.
Proof. split; [ranges|]. cbn. lia. Qed.

(* a view accepts a received packet exactly if it is a stream message whose second byte is the
   status of the view; constructing the view directly needs the same *)
Theorem C44_views_accept dbg k p : wf_packet p ->
  (of_kind k p -> stream_view dbg k p = Ok p /\ as_stream_view dbg k p = Ok (Some p)) /\
  (~ of_kind k p -> stream_view dbg k p = (if dbg then Fault AssertFail else Ok p) /\ as_stream_view dbg k p = Ok None).
Proof. intros W. destruct (view_iff dbg k p W) as [H|H]; tauto. Qed.
Print Assumptions C44_views_accept.
Example C44_views_accept_example :
  let p := mkP 0xF0110325 0 0 0 in wf_packet p /\ of_kind KBlockInfo p /\ ~ of_kind KInfo p.
Proof. cbn. unfold wf_packet, of_kind, is_u32. cbn. lia. Qed.

(* on every received packet the accessors return the fields of its bytes, without faults *)
Theorem C44_accessors k p : wf_packet p -> stream_read k p = Ok (stream_meaning k (bytes p)).
Proof. exact (read_meaning k p). Qed.
Print Assumptions C44_accessors.
Example C44_accessors_example :
  let p := mkP 0xF0110325 0x01020304 0 0 in
  wf_packet p /\ stream_meaning KBlockInfo (bytes p) = RBlockInfo false 3 1 1 2 1 2 3 4.
Proof. split; [unfold wf_packet, is_u32; cbn; lia|reflexivity]. Qed.

(* a discovery message asks about one block or about all *)
Theorem C44_requested_block p b : wf_packet p -> is_u8 b ->
  requests_function_block p b = true <-> (nth 2 (bytes p) 0 = b \/ nth 2 (bytes p) 0 = 255).
Proof.
  intros W B. pose proof (read_meaning KBlockDiscovery p W) as R. cbn [stream_read stream_meaning] in R.
  assert (E : fb_discovery_block p = nth 2 (bytes p) 0) by now injection R.
  unfold requests_function_block. rewrite E. lia.
Qed.
Print Assumptions C44_requested_block.
Example C44_requested_block_example :
  let p := mkP 0xF0100303 0 0 0 in wf_packet p /\ requests_function_block p 3 = true /\ requests_function_block p 4 = false.
Proof. split; [unfold wf_packet, is_u32; cbn; lia|now vm_compute]. Qed.

(* arguments in range come back: the message is accepted by the view of its kind only, and the
   accessors return the arguments *)
Theorem C44_round_trip dbg c : stream_in_range c ->
  exists p, stream_make dbg c = Ok p /\ wf_packet p /\
  as_stream_view dbg (call_kind c) p = Ok (Some p) /\
  (forall k, k <> call_kind c -> as_stream_view dbg k p = Ok None) /\
  stream_read (call_kind c) p = Ok (call_report c).
Proof. exact (stream_round_trip dbg c). Qed.
Print Assumptions C44_round_trip.
Example C44_round_trip_example :
  stream_in_range (SIdentity (mkDevId 0x002109 0x1234 0x2345 0x1234567)) /\
  stream_in_range (SBlockOptions 31 (mkFbOptions false 3 2 1 0x7F 255) 15 15) /\
  stream_in_range (SName 3 [72; 101; 108; 108; 111]).
Proof.
  split; [|split]; [|ranges|ranges]. cbn. split; [exists 0, 0x21, 9|]; unfold is_u7, is_u14, is_u28; lia.
Qed.

(* changing the format changes nothing else, and the plain constructor gives an empty message *)
Theorem C44_set_format p f : wf_packet p -> 0 <= f < 4 ->
  let q := set_stream_format p f in let b0 := nth 0 (bytes p) 0 in
  wf_packet q /\ bytes q = upd (bytes p) 0 (b0 - 4 * (b0 / 4 mod 4) + 4 * f) /\ stream_format q = f.
Proof. exact (set_format_spec p f). Qed.
Print Assumptions C44_set_format.
Example C44_set_format_example : let p := mkP 0xF9034142 0x43444546 0 0 in
  wf_packet p /\ set_stream_format p 1 = mkP 0xF5034142 0x43444546 0 0.
Proof. split; [unfold wf_packet, is_u32; cbn; lia|reflexivity]. Qed.
Theorem C44_default_message : bytes stream_message0 = 0xF0 :: repeat 0 15.
Proof. reflexivity. Qed.
Print Assumptions C44_default_message.

(* out of range arguments do not: a function block of all sixteen groups reads as one of none, *)
Theorem C44_sixteen_groups_refuted : exists p,
  stream_make true (SBlockInfo 0 3 0 16) = Ok p /\ fb_num_groups p = Ok 0.
Proof. eexists. split; [vm_compute; reflexivity|]. now vm_compute. Qed.
Print Assumptions C44_sixteen_groups_refuted.
(* an endpoint with 128 function blocks reads as one with none that are static, *)
Theorem C44_many_blocks_refuted : exists p,
  stream_make true (SInfo 128 false 3 0 1 1) = Ok p /\
  num_function_blocks p = Ok 0 /\ static_function_blocks p = Ok true.
Proof. eexists. split; [vm_compute; reflexivity|]. now vm_compute. Qed.
Print Assumptions C44_many_blocks_refuted.
(* and the manufacturer of a device identity is written without masking *)
Theorem C44_manufacturer_refuted : exists p,
  stream_make true (SIdentity (mkDevId 0x80000000 0 0 0)) = Ok p /\ nth 4 (bytes p) 0 = 0x80 /\
  stream_read KIdentity p = Ok (RIdentity (mkDevId 0 0 0 0)).
Proof. eexists. split; [vm_compute; reflexivity|]. now vm_compute. Qed.
Print Assumptions C44_manufacturer_refuted.
(* the views ignore the two high bits of the ten bit status: a message of another status is
   taken for an endpoint discovery *)
Theorem C44_status_bits_refuted : exists p, wf_packet p /\
  w0 p / 65536 mod 1024 = 0x100 /\ as_stream_view true KDiscovery p = Ok (Some p).
Proof. exists (mkP 0xF1000101 0 0 0). split; [unfold wf_packet, is_u32; cbn; lia|]. now vm_compute. Qed.
Print Assumptions C44_status_bits_refuted.

(* ---- C45 --------------------------------------------------------------------------------------- *)

(* the packets sent: one complete, or start, continue*, end; each holds the next piece of the
   text, all but the last as many characters as fit *)
Theorem C45_packets dbg s t : Forall is_u8 t -> sender_typed s -> (s = TProduct -> size t <= 16) ->
  exists fs cs, text_formats fs /\ pieces (room s) cs /\ concat cs = t /\ length fs = length cs /\
    send_text dbg s t = Ok (map (fun fc => stream_wire (text_call s (fst fc) (snd fc))) (combine fs cs)).
Proof. exact (send_packets dbg s t). Qed.
Print Assumptions C45_packets.
Example C45_packets_example :
  let t := repeat 65 30 in Forall is_u8 t /\ sender_typed (TBlock 3) /\
  option_map (fun ps => map (fun p => nth 0 (bytes p) 0) ps) (match send_text true (TBlock 3) t with Ok ps => Some ps | _ => None end)
    = Some [0xF4; 0xF8; 0xFC].
Proof. split; [ranges|]. split; [ranges|]. now vm_compute. Qed.

(* what the receiver reads: every packet is accepted by the view, the formats are in order, the
   function block is right, and the payloads put together are the text, less the high bits *)
Theorem C45_received dbg s t : Forall visible t -> sender_typed s -> (s = TProduct -> size t <= 16) ->
  exists ps, send_text dbg s t = Ok ps /\
  text_formats (map (text_format (text_kind s)) ps) /\
  Forall (fun p => as_stream_view dbg (text_kind s) p = Ok (Some p)) ps /\
  (forall b, s = TBlock b -> Forall (fun p => fb_name_block p = b mod 128) ps) /\
  exists ts, map (stream_text (text_kind s)) ps = map Ok ts /\ concat ts = map (fun c => c mod 128) t.
Proof. exact (send_reads dbg s t). Qed.
Print Assumptions C45_received.
Example C45_received_example : Forall visible [0xC3; 0xA9; 65] /\ sender_typed (TBlock 200).
Proof. split; ranges. Qed.

(* for 7-bit characters that is the text *)
Theorem C45_text_survives dbg s t : Forall is_char7 t -> sender_typed s -> (s = TProduct -> size t <= 16) ->
  exists ps ts, send_text dbg s t = Ok ps /\ text_formats (map (text_format (text_kind s)) ps) /\
  Forall (fun p => as_stream_view dbg (text_kind s) p = Ok (Some p)) ps /\
  map (stream_text (text_kind s)) ps = map Ok ts /\ concat ts = t.
Proof.
  intros C S P. destruct (send_reads dbg s t) as (ps & E & F & V & _ & ts & T & CC); trivial.
  - revert C. apply Forall_impl. unfold is_char7, visible, is_u8. intros. lia.
  - exists ps, ts. rewrite char7_mod in CC by assumption. auto.
Qed.
Print Assumptions C45_text_survives.
Example C45_text_survives_example : Forall is_char7 (repeat 97 100) /\ sender_typed TName /\ TName <> TProduct.
Proof. split; [ranges|]. split; [exact I|discriminate]. Qed.

(* product instance ids are limited to sixteen characters: longer ones are rejected by the
   assertion, and cut in builds without *)
Theorem C45_long_product_id t : 16 < size t ->
  send_product_instance_id true t = Fault AssertFail /\
  send_product_instance_id false t = send_product_instance_id false (firstn 16 t).
Proof. exact (send_long_product t). Qed.
Print Assumptions C45_long_product_id.
Example C45_long_product_id_example : 16 < size (repeat 65 17).
Proof. reflexivity. Qed.

(* UTF-8 text beyond ASCII does not survive: A with grave accent (C3 80) followed by B is read
   as the single character 43 *)
Theorem C45_utf8_refuted : exists ps,
  send_text true TName [0xC3; 0x80; 0x42] = Ok ps /\ map (stream_text KName) ps = [Ok [0x43]].
Proof. eexists. split; [vm_compute; reflexivity|]. now vm_compute. Qed.
Print Assumptions C45_utf8_refuted.
