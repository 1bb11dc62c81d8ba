(* Properties C12 - C21: the MIDI 1 byte stream parser *)
From Coq Require Import ZArith List Bool Lia.
From Verif Require Import Base Packet PacketSpec Messages Sysex ByteStream StreamSpec StreamLemmas
  StreamCalls StreamBytes.
Import ListNotations.
Local Open Scope Z_scope.

(* A non-trivial parser state: reached by changing the group in the middle of a SysEx
   after a note message and a stray data byte. *)
Definition sample_calls : list parser_call :=
  [CFeed [0x3C; 0x90; 0x3C; 0x40; 0xF0; 0x7E]; CEnable false; CFeed [0xF8; 0x01]; CSetGroup 5; CEnable true].
Lemma sample_valid : Forall valid_call sample_calls.
Proof. unfold sample_calls; repeat (constructor; [cbn; repeat constructor; unfold is_u8; lia|]); constructor. Qed.
Definition sample_state (cb : bool) : parser :=
  match parser_calls (new_parser 0 cb true) sample_calls with Ok (st, _) => st | Fault _ => new_parser 0 cb true end.
Lemma sample_reached cb : reached 5 cb (sample_state cb).
Proof.
  exists 0, true, sample_calls. unfold sample_state.
  destruct (parser_calls (new_parser 0 cb true) sample_calls) as [[st o]|f] eqn:E.
  - exists o. split; [lia|]. split; [exact sample_valid|]. split; [reflexivity|].
    destruct cb; vm_compute in E; injection E as <- _; split; reflexivity.
  - exfalso. destruct cb; vm_compute in E; discriminate.
Qed.

(* ---- C12 ---------------------------------------------------------------------------------- *)

(* In every reachable state, for every message sequence [ms], every permitted use of
   running status (rendering [a]) and every insertion of real-time bytes ([b]): after
   every number [n] of bytes exactly the messages completed so far have been emitted. *)
Theorem C12_legal_stream_decodes_to_its_messages : forall g cb st ms a b n,
  reached g cb st -> renders g None ms a -> with_realtime g a b ->
  exists st', feed_all st (map fst (firstn n b)) = Ok (st', concat (map snd (firstn n b))).
Proof. exact legal_stream_anywhere. Qed.
Print Assumptions C12_legal_stream_decodes_to_its_messages.

(* ... and the events of a rendering are the messages, in order, each once. *)
Theorem C12_rendering_is_the_message_sequence : forall g rs ms a, renders g rs ms a ->
  concat (map snd a) = map (fun m => EPacket (short_packet g (ms_status m) (ms_data m))) ms.
Proof. exact renders_events. Qed.
Print Assumptions C12_rendering_is_the_message_sequence.

Example C12_ex : renders 5 None [mkMsg 0x93 [0x3C; 0x40]; mkMsg 0x93 [0x3E; 0x00]; mkMsg 0xF1 [0x12]; mkMsg 0xC0 [7]]
    (render_full 5 (mkMsg 0x93 [0x3C; 0x40]) ++ render_running 5 (mkMsg 0x93 [0x3E; 0x00])
     ++ render_full 5 (mkMsg 0xF1 [0x12]) ++ render_full 5 (mkMsg 0xC0 [7]) ++ []) /\
  with_realtime 5 (render_full 5 (mkMsg 0xC0 [7]))
    [(0xC0, []); (0xF8, [EPacket (mkP 0x15F80000 0 0 0)]); (7, [EPacket (mkP 0x25C00700 0 0 0)])] /\
  reached 5 true (sample_state true).
Proof.
  split; [|split; [|apply sample_reached]].
  - assert (U : forall x, 0 <= x < 128 -> is_u7 x) by (unfold is_u7; auto).
    apply renders_full; [split; [left; cbn; lia|repeat constructor; apply U; lia]|].
    refine (renders_running 5 (mkMsg 0x93 [0x3E; 0x00]) _ _ _ _ _); [split; [left; cbn; lia|repeat constructor; apply U; lia]|reflexivity|].
    apply renders_full; [split; [right; reflexivity|repeat constructor; apply U; lia]|].
    apply renders_full; [split; [left; cbn; lia|repeat constructor; apply U; lia]|]. constructor.
  - cbn. apply wr_keep. refine (wr_insert 5 0xF8 _ _ _ _ _); [reflexivity|lia|]. apply wr_keep. constructor.
Qed.

(* Complete functional description for every sequence of calls of feed, enable_callbacks,
   set_group and reset; [calls_outputs] is a function of the bytes since the last status
   byte and of the configuration in force when they were fed. *)
Theorem C12_every_call_sequence : forall g cb on cs, 0 <= g < 16 -> Forall valid_call cs ->
  exists st, parser_calls (new_parser g cb on) cs = Ok (st, calls_outputs cb g on None cs).
Proof. exact calls_refine_new. Qed.
Print Assumptions C12_every_call_sequence.
Example C12_calls_ex : 0 <= 5 < 16 /\ Forall valid_call sample_calls /\
  calls_outputs false 5 true None sample_calls = [EPacket (mkP 0x25903C40 0 0 0)].
Proof. split; [lia|]. split; [exact sample_valid|reflexivity]. Qed.

(* ---- C13 ---------------------------------------------------------------------------------- *)

(* Inserting a real-time byte at any point adds its message at that point and changes
   neither the other events nor the final state. *)
Theorem C13_realtime_byte_is_transparent : forall st r pre post st1 o1 st2 o2, 0xF8 <= r < 256 ->
  0 <= m_group st1 < 16 ->
  feed_all st pre = Ok (st1, o1) -> feed_all st1 post = Ok (st2, o2) ->
  feed_all st (pre ++ r :: post) =
    Ok (st2, o1 ++ (if m_invoke_callbacks st1 then rt_events (m_group st1) r else []) ++ o2).
Proof. exact rt_insert. Qed.
Print Assumptions C13_realtime_byte_is_transparent.
Example C13_ex :
  exists st1 st2, feed_all (new_parser 5 false true) [0x90; 0x3C] = Ok (st1, []) /\
    feed_all st1 [0x40] = Ok (st2, [EPacket (mkP 0x25903C40 0 0 0)]) /\ m_group st1 = 5.
Proof. eexists; eexists. split; [reflexivity|split; reflexivity]. Qed.

(* In every reachable state: dropping all real-time bytes from a stream drops exactly the
   real-time messages from the output and leads to the same state. *)
Theorem C13_removing_realtime_bytes : forall g0 cb on0 cs st o bs, 0 <= g0 < 16 -> Forall valid_call cs ->
  parser_calls (new_parser g0 cb on0) cs = Ok (st, o) -> Forall is_u8 bs ->
  exists st' out, feed_all st bs = Ok (st', out) /\
    feed_all st (filter not_rt bs) = Ok (st', filter not_rt_event out).
Proof. exact rt_remove_calls. Qed.
Print Assumptions C13_removing_realtime_bytes.
Example C13_remove_ex : Forall is_u8 [0xFA; 0xF7; 0xF8] /\
  exists st', feed_all (sample_state false) [0xFA; 0xF7; 0xF8] = Ok (st',
    [EPacket (mkP 0x15FA0000 0 0 0); EPacket (mkP 0x30027E01 0 0 0); EPacket (mkP 0x15F80000 0 0 0)]).
Proof. split; [repeat constructor; unfold is_u8; lia|]. eexists. reflexivity. Qed.

(* ---- C14 ---------------------------------------------------------------------------------- *)

Theorem C14_chunking_does_not_matter : forall cs st, feed_chunks st cs = feed_all st (concat cs).
Proof. exact feed_chunks_concat. Qed.
Print Assumptions C14_chunking_does_not_matter.
Example C14_ex : concat [[0x90]; []; [0x3C; 0x40; 0x3C]; [0x00]] = concat [[0x90; 0x3C; 0x40; 0x3C; 0x00]].
Proof. reflexivity. Qed.

(* ---- C15 ---------------------------------------------------------------------------------- *)

(* Whatever calls were made before: a stream whose first byte (apart from real-time) is a
   status byte other than F7 is decoded as by a new parser. *)
Theorem C15_resynchronises_at_status_byte : forall g cb st bs,
  reached g cb st -> Forall is_u8 bs -> starts_with_status bs ->
  exists st1 st2 o, feed_all st bs = Ok (st1, o) /\ feed_all (new_parser g cb true) bs = Ok (st2, o).
Proof. exact resync_new. Qed.
Print Assumptions C15_resynchronises_at_status_byte.
Example C15_ex : reached 5 true (sample_state true) /\ starts_with_status [0xF8; 0x90; 0x3C; 0x40; 0xF7; 0x00].
Proof. split; [apply sample_reached|]. cbn. lia. Qed.

Theorem C15_data_without_status_is_ignored : forall g cb on bs, 0 <= g < 16 -> Forall is_u7 bs ->
  exists st', feed_all (new_parser g cb on) bs = Ok (st', []).
Proof. exact data_ignored_without_status. Qed.
Print Assumptions C15_data_without_status_is_ignored.

(* Data bytes after a complete system common message or after an undefined status byte. *)
Theorem C15_data_after_system_common_is_ignored : forall g cb st s ds extra,
  reached g cb st -> s <> 0xF7 -> complete_common s ds -> Forall is_u7 extra ->
  exists st1 st2 o, feed_all st (s :: ds) = Ok (st1, o) /\ feed_all st1 extra = Ok (st2, []).
Proof. exact common_extra_ignored. Qed.
Print Assumptions C15_data_after_system_common_is_ignored.
Example C15_common_ex : complete_common 0xF2 [1; 2] /\ complete_common 0xF4 [] /\ complete_common 0xF6 [].
Proof. unfold complete_common. cbn. repeat split; try lia; repeat constructor; unfold is_u7; lia. Qed.

(* Undefined status bytes emit nothing themselves and cancel running status. *)
Theorem C15_undefined_status : forall g cb st s bs, reached g cb st ->
  s = 0xF4 \/ s = 0xF5 -> Forall is_u7 bs ->
  exists st', feed_all st (s :: bs) = Ok (st', []).
Proof. exact undefined_anywhere. Qed.
Print Assumptions C15_undefined_status.
Example C15_undefined_ex : reached 5 false (sample_state false) /\ Forall is_u7 [0x3C; 0x40; 0x00].
Proof. split; [apply sample_reached|repeat constructor; unfold is_u7; lia]. Qed.

(* ---- C16 ---------------------------------------------------------------------------------- *)

(* For every sequence of calls every emitted packet is a valid system, channel voice or
   SysEx7 message with 7-bit data, at most 6 payload bytes and zero padding, on a group
   that was configured; every delivered SysEx has a valid id and 7-bit data. *)
Theorem C16_output_is_well_formed : forall g cb on cs, 0 <= g < 16 -> Forall valid_call cs ->
  exists st out, parser_calls (new_parser g cb on) cs = Ok (st, out) /\
    Forall (wf_output_some (configured g cs)) out.
Proof. exact calls_wf. Qed.
Print Assumptions C16_output_is_well_formed.
Example C16_ex : configured 0 sample_calls 5 /\ configured 0 sample_calls 0 /\ ~ configured 0 sample_calls 7.
Proof.
  unfold configured, sample_calls. cbn. repeat split.
  - tauto.
  - tauto.
  - intros [H|H]; [discriminate|]. repeat (destruct H as [H|H]; [discriminate|]). exact H.
Qed.

(* Finding: the group is fixed at the status byte.  With running status, messages fed
   after set_group(5) are still emitted on the previous group 0. *)
Theorem C16_current_group_refuted :
  exists st, parser_calls (new_parser 0 false true)
      [CFeed [0x90; 0x3C; 0x40]; CSetGroup 5; CFeed [0x3C; 0x00]]
    = Ok (st, [EPacket (mkP 0x20903C40 0 0 0); EPacket (mkP 0x20903C00 0 0 0)])
  /\ m_group st = 5.
Proof. exact group_change_example. Qed.
Print Assumptions C16_current_group_refuted.

(* ---- C17 ---------------------------------------------------------------------------------- *)

Theorem C17_disabled_is_silent : forall g cb before on later st o st' o', 0 <= g < 16 ->
  parser_calls (new_parser g cb on) before = Ok (st, o) -> Forall stays_off later ->
  parser_calls (enable_callbacks st false) later = Ok (st', o') -> o' = [].
Proof. exact silent_calls. Qed.
Print Assumptions C17_disabled_is_silent.
Example C17_silent_ex : Forall stays_off [CFeed [0xF0; 1; 2; 0xF7; 0xF8]; CReset; CSetGroup 3; CEnable false].
Proof. repeat constructor. Qed.

Theorem C17_reset_restores_initial_behaviour : forall g cb on before st o later,
  0 <= g < 16 -> Forall valid_call before -> Forall valid_call later ->
  parser_calls (new_parser g cb on) before = Ok (st, o) ->
  exists st1 st2 out,
    parser_calls (parser_reset st) later = Ok (st1, out) /\
    parser_calls (new_parser (m_group st) cb (m_invoke_callbacks st)) later = Ok (st2, out).
Proof. exact reset_like_new. Qed.
Print Assumptions C17_reset_restores_initial_behaviour.
Example C17_reset_ex : exists st1, parser_calls (parser_reset (sample_state true)) [CFeed [1; 0xF7; 0xF0; 0x7D; 2; 0xF7]]
  = Ok (st1, [ESysex (mkSx 0x7D0000 [2])]).
Proof. eexists. reflexivity. Qed.

(* ---- C18 ---------------------------------------------------------------------------------- *)

Theorem C18_sysex_bytes_to_packets : forall g st bs ds, reached g false st ->
  Forall is_u8 bs -> filter not_rt bs = 0xF0 :: ds ++ [0xF7] -> Forall is_u7 ds -> ds <> [] ->
  exists st' out chunks, feed_all st bs = Ok (st', out) /\
    chunked6 chunks /\ concat chunks = ds /\
    filter not_rt_event out = map EPacket (sx7_sequence g chunks) /\
    stream_of_packets (sx7_sequence g chunks) = Ok (0xF0 :: ds ++ [0xF7]).
Proof. exact sysex_to_packets_anywhere. Qed.
Print Assumptions C18_sysex_bytes_to_packets.
Example C18_ex :
  Forall is_u8 [0xF0; 0x7E; 1; 2; 0xF8; 3; 4; 5; 6; 0xF7] /\
  filter not_rt [0xF0; 0x7E; 1; 2; 0xF8; 3; 4; 5; 6; 0xF7] = 0xF0 :: [0x7E; 1; 2; 3; 4; 5; 6] ++ [0xF7] /\
  Forall is_u7 [0x7E; 1; 2; 3; 4; 5; 6] /\
  sx7_sequence 5 [[0x7E; 1; 2; 3; 4; 5]; [6]] = [mkP 0x35167E01 0x02030405 0 0; mkP 0x35310600 0 0 0].
Proof. repeat split; try (repeat constructor; unfold is_u7, is_u8; lia). Qed.

(* ---- C19 ---------------------------------------------------------------------------------- *)

Theorem C19_sysex_bytes_to_callback : forall g st bs id ds, reached g true st ->
  Forall is_u8 bs -> valid_id id -> Forall is_u7 ds ->
  filter not_rt bs = 0xF0 :: id_bytes id ++ ds ++ [0xF7] ->
  exists st' out, feed_all st bs = Ok (st', out) /\
    filter not_rt_event out = [ESysex (mkSx id ds)].
Proof. exact sysex_to_callback_anywhere. Qed.
Print Assumptions C19_sysex_bytes_to_callback.
Example C19_ex : valid_id 0x002109 /\ id_bytes 0x002109 = [0; 0x21; 0x09] /\ valid_id 0x7E0000 /\ id_bytes 0x7E0000 = [0x7E].
Proof.
  split; [right; exists 0x21, 9; unfold is_u7; lia|]. split; [reflexivity|].
  split; [left; exists 0x7E; lia|reflexivity].
Qed.

(* Conversely every delivered SysEx was received as F0, a complete manufacturer id,
   data and F7, not interrupted by another status byte. *)
Theorem C19_callback_only_for_received_sysex : forall g cb h st b st' out s,
  0 <= g < 16 -> Forall is_u8 h -> is_u8 b ->
  after g cb h st -> feed st b = Ok (st', out) -> In (ESysex s) out ->
  cb = true /\ b = 0xF7 /\ out = [ESysex s] /\
  exists h0 ds, filter not_rt h = h0 ++ 0xF0 :: id_bytes (sx_id s) ++ ds /\
    Forall is_u7 (id_bytes (sx_id s) ++ ds) /\ sx_data s = ds /\ valid_id (sx_id s).
Proof. exact sysex_event_source. Qed.
Print Assumptions C19_callback_only_for_received_sysex.
Example C19_source_ex : exists st st', after 5 true [0xF0; 0x7D; 2] st /\
  feed st 0xF7 = Ok (st', [ESysex (mkSx 0x7D0000 [2])]).
Proof. eexists; eexists. split; [eexists; reflexivity|reflexivity]. Qed.

(* ---- C20 ---------------------------------------------------------------------------------- *)

Theorem C20_at_most_8_bytes : forall p, wf_packet p ->
  exists bs, to_midi1_byte_stream p = Ok bs /\ (length bs <= 8)%nat /\ Forall is_u8 bs.
Proof. exact to_bytes_bound. Qed.
Print Assumptions C20_at_most_8_bytes.
Example C20_bound_ex : to_midi1_byte_stream (mkP 0x30060102 0x03040506 0xFFFFFFFF 0) =
  Ok [0xF0; 1; 2; 3; 4; 5; 6; 0xF7].
Proof. reflexivity. Qed.

(* System and channel voice packets: exactly midi1_byte_stream_size() bytes. *)
Theorem C20_system_and_channel_voice_bytes : forall p, wf_packet p -> type p = 1 \/ type p = 2 ->
  to_midi1_byte_stream p = Ok (firstn (midi1_length (type p) (status p)) (skipn 1 (bytes p))) /\
  midi1_byte_stream_size p = midi1_length (type p) (status p).
Proof. exact to_bytes_short. Qed.
Print Assumptions C20_system_and_channel_voice_bytes.
Example C20_short_ex : type (mkP 0x23D04055 0 0 0) = 2 /\ to_midi1_byte_stream (mkP 0x23D04055 0 0 0) = Ok [0xD0; 0x40].
Proof. split; reflexivity. Qed.

(* SysEx7 packets: payload between F0/F7; the size function counts only the payload. *)
Theorem C20_sysex7_bytes : forall p, wf_packet p -> type p = 3 ->
  let f := status p / 16 in let n := status p mod 16 in
  if (f <? 4) && (n <=? 6) then
    to_midi1_byte_stream p = Ok ((if (f =? 0) || (f =? 1) then [0xF0] else [])
        ++ firstn (Z.to_nat n) (skipn 2 (bytes p)) ++ (if (f =? 0) || (f =? 3) then [0xF7] else []))
    /\ midi1_byte_stream_size p = Z.to_nat n
  else to_midi1_byte_stream p = Ok [] /\ midi1_byte_stream_size p = 0%nat.
Proof. exact to_bytes_data. Qed.
Print Assumptions C20_sysex7_bytes.

(* Finding: for SysEx7 packets the announced size is smaller than the bytes written. *)
Theorem C20_size_announces_bytes_written_refuted : exists p bs, wf_packet p /\ type p = 3 /\
  to_midi1_byte_stream p = Ok bs /\ (midi1_byte_stream_size p < length bs)%nat.
Proof.
  exists (mkP 0x30060102 0x03040506 0 0), [0xF0; 1; 2; 3; 4; 5; 6; 0xF7].
  repeat split; cbn; lia.
Qed.
Print Assumptions C20_size_announces_bytes_written_refuted.

Theorem C20_other_types_write_nothing : forall p, type p <> 1 -> type p <> 2 -> type p <> 3 ->
  to_midi1_byte_stream p = Ok [] /\ midi1_byte_stream_size p = 0%nat.
Proof. exact to_bytes_other. Qed.
Print Assumptions C20_other_types_write_nothing.

(* Every packet of a MIDI 1 message survives serialising and parsing, in any parser state. *)
Theorem C20_parses_back : forall g cb st p, reached g cb st -> midi1_packet g p ->
  exists bs st', to_midi1_byte_stream p = Ok bs /\ length bs = midi1_byte_stream_size p /\
    feed_all st bs = Ok (st', [EPacket p]).
Proof. exact parse_back. Qed.
Print Assumptions C20_parses_back.
Example C20_parse_ex : midi1_packet 5 (mkP 0x25B34051 0 0 0) /\ midi1_packet 5 (mkP 0x15FE0000 0 0 0).
Proof.
  split.
  - left. exists (mkMsg 0xB3 [0x40; 0x51]). split; [|reflexivity].
    split; [left; cbn; lia|]. repeat constructor; unfold is_u7; lia.
  - right. exists 0xFE. repeat split; try lia.
Qed.

Theorem C20_from_bytes : forall s d1 d2, is_u8 s -> is_u7 d1 -> is_u7 d2 ->
  from_midi1_byte_stream s d1 d2 =
    if (s <? 0x80) || existsb (Z.eqb s) [0xF0; 0xF4; 0xF5; 0xF7; 0xF9; 0xFD] then packet0
    else short_packet 0 s [d1; d2].
Proof. exact from_bytes_spec. Qed.
Print Assumptions C20_from_bytes.

Theorem C20_from_then_to_bytes : forall s ds, valid_message (mkMsg s ds) ->
  to_midi1_byte_stream (from_midi1_byte_stream s (nth 0 ds 0) (nth 1 ds 0)) = Ok (s :: ds).
Proof. exact from_to_bytes. Qed.
Print Assumptions C20_from_then_to_bytes.

(* ---- C21 ---------------------------------------------------------------------------------- *)

Theorem C21_parser_never_faults : forall g cb on cs, 0 <= g < 16 -> Forall valid_call cs ->
  exists st out, parser_calls (new_parser g cb on) cs = Ok (st, out).
Proof. exact calls_safe_new. Qed.
Print Assumptions C21_parser_never_faults.
Example C21_ex : 0 <= 15 < 16 /\ Forall valid_call sample_calls.
Proof. split; [lia|exact sample_valid]. Qed.
