(* C87: the channel of a message influences nothing but the channel of what is made from it. *)
From Coq Require Import ZArith List Bool Lia.
From Verif Require Import Base Packet ByteStream ChannelVoice StreamSpec ChannelSpec ChannelProofs.
Import ListNotations.
Local Open Scope Z_scope.

(* renaming the channels in the bytes fed to a parser renames them in its output *)
Theorem C87_parser f g cb on cs : channels_to_channels f -> 0 <= g < 16 -> Forall valid_call cs -> exists st st' out,
  parser_calls (new_parser g cb on) cs = Ok (st, out) /\
  parser_calls (new_parser g cb on) (map (rechannel_call f) cs) = Ok (st', map (rechannel_event f) out).
Proof. intros F. exact (parser_rechannel f F g cb on cs). Qed.
Print Assumptions C87_parser.
(* channels 2 and 7 become 5; running status, SysEx cancelled by a channel message *)
Example C87_parser_ex :
  let f c := if (c =? 2) || (c =? 7) then 5 else c in
  let cs := [CFeed [0x92; 60; 100; 61; 0]; CSetGroup 7; CFeed [0xF0; 2; 0xC7; 9; 0xF2; 7; 7; 0xE3; 1; 2]] in
  channels_to_channels f /\ Forall valid_call cs /\
  (exists st, parser_calls (new_parser 2 false true) cs =
     Ok (st, [EPacket (mkP 0x22923C64 0 0 0); EPacket (mkP 0x22923D00 0 0 0); EPacket (mkP 0x27C70900 0 0 0);
              EPacket (mkP 0x17F20707 0 0 0); EPacket (mkP 0x27E30102 0 0 0)])) /\
  (exists st, parser_calls (new_parser 2 false true) (map (rechannel_call f) cs) =
     Ok (st, [EPacket (mkP 0x22953C64 0 0 0); EPacket (mkP 0x22953D00 0 0 0); EPacket (mkP 0x27C50900 0 0 0);
              EPacket (mkP 0x17F20707 0 0 0); EPacket (mkP 0x27E30102 0 0 0)])).
Proof.
  cbv zeta. split; [intros c C; destruct (_ || _); lia|]. split.
  { repeat (apply Forall_cons; [cbn; try lia; repeat (apply Forall_cons; [unfold is_u8; lia|]); apply Forall_nil|]). apply Forall_nil. }
  split; eexists; vm_compute; reflexivity.
Qed.

(* translation keeps the channel and depends on it in no other way *)
Theorem C87_to_midi1 c p : voice_packet p -> 0 <= c < 16 -> to_midi1 (in_channel c p) = option_map (in_channel c) (to_midi1 p).
Proof. exact (to_midi1_deaf c p). Qed.
Print Assumptions C87_to_midi1.

Theorem C87_to_midi2 c p : voice_packet p -> 0 <= c < 16 ->
  exists o, to_midi2 p = Ok o /\ to_midi2 (in_channel c p) = Ok (option_map (in_channel c) o).
Proof. exact (to_midi2_deaf c p). Qed.
Print Assumptions C87_to_midi2.
Example C87_translation_ex :
  voice_packet (mkP 0x21923C64 0 0 0) /\ voice_packet (mkP 0x41923C00 0xC9240000 0 0) /\
  to_midi2 (mkP 0x21923C64 0 0 0) = Ok (Some (mkP 0x41923C00 0xC9240000 0 0)) /\
  to_midi2 (in_channel 8 (mkP 0x21923C64 0 0 0)) = Ok (Some (mkP 0x41983C00 0xC9240000 0 0)) /\
  to_midi1 (in_channel 8 (mkP 0x41923C00 0xC9240000 0 0)) = Some (mkP 0x21983C64 0 0 0).
Proof.
  unfold voice_packet, wf_packet, is_u32. cbn [w0 w1 w2 w3].
  split; [split; [lia|now left]|]. split; [split; [lia|now right]|]. vm_compute. intuition reflexivity.
Qed.

(* the MIDI 1 bytes *)
Theorem C87_bytes c p : voice_packet p -> 0 <= c < 16 ->
  exists bs, to_midi1_byte_stream p = Ok bs /\ to_midi1_byte_stream (in_channel c p) = Ok (first_in_channel c bs).
Proof. exact (bytes_deaf c p). Qed.
Print Assumptions C87_bytes.
Example C87_bytes_ex : to_midi1_byte_stream (mkP 0x21923C64 0 0 0) = Ok [0x92; 0x3C; 0x64] /\
  to_midi1_byte_stream (in_channel 8 (mkP 0x21923C64 0 0 0)) = Ok [0x98; 0x3C; 0x64].
Proof. split; reflexivity. Qed.

(* predicates and accessors other than the channel *)
Theorem C87_yes_no q c p : In q voice_yes_no -> voice_packet p -> 0 <= c < 16 -> q (in_channel c p) = q p.
Proof. intros I V C. apply voice_yes_no_deaf; [now apply in_channel_kin|exact I]. Qed.
Print Assumptions C87_yes_no.

Theorem C87_numbers q c p : In q voice_numbers -> voice_packet p -> 0 <= c < 16 -> q (in_channel c p) = q p.
Proof. intros I V C. apply voice_numbers_deaf; [now apply in_channel_kin|exact I]. Qed.
Print Assumptions C87_numbers.

Theorem C87_pitch_bend c p : voice_packet p -> 0 <= c < 16 ->
  get_channel_pitch_bend_value (in_channel c p) = get_channel_pitch_bend_value p.
Proof. intros V C. apply bend_deaf. now apply in_channel_kin. Qed.
Print Assumptions C87_pitch_bend.

(* the channel itself *)
Theorem C87_channel c p : voice_packet p -> 0 <= c < 16 ->
  channel (in_channel c p) = Ok c /\ m1_channel (in_channel c p) = c /\ m2_channel (in_channel c p) = c /\
  wf_packet (in_channel c p).
Proof.
  intros V C. destruct (in_channel_kin p c V C) as (K & W & L). unfold channel, m1_channel, m2_channel, status, has_channel.
  rewrite (n_type _ _ K). change 0x0F with 15 in *. rewrite L.
  destruct (n_voice _ _ K) as [-> | ->]; repeat split; apply W.
Qed.
Print Assumptions C87_channel.
Example C87_questions_ex :
  let p := mkP 0x4193_3C_05 0x12340000 0 0 in
  voice_packet p /\ is_note_on_message (in_channel 14 p) = true /\ get_note_velocity (in_channel 14 p) = 0x1234 /\
  channel p = Ok 3 /\ channel (in_channel 14 p) = Ok 14 /\ group (in_channel 14 p) = 1.
Proof.
  cbv zeta. split; [unfold voice_packet, wf_packet, is_u32; cbn [w0 w1 w2 w3]; split; [lia|now right]|].
  vm_compute. intuition reflexivity.
Qed.
