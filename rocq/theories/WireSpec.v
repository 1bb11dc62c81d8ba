(* Packets on a connection that carries 32 bit words.  A client that transmits packets sends the
   first size() words of each; a client that receives collects words until it has as many as
   size() of the packet says. *)
From Coq Require Import ZArith List Bool.
From Verif Require Import Base Packet Messages Sysex DataPackets DataSpec Utility ByteStream ChannelVoice Endpoint Flex.
From Verif Require Import PacketSpec VoiceSpec EndpointSpec FlexSpec StreamSpec.
Import ListNotations.
Local Open Scope Z_scope.

Definition transmitted (p : packet) : list Z := firstn (psize p) (words p).
Definition transmission (ps : list packet) : list Z := concat (map transmitted ps).

(* missing words are zero, as in the constructors of universal_packet *)
Definition assembled (ws : list Z) : packet := mkP (nth 0 ws 0) (nth 1 ws 0) (nth 2 ws 0) (nth 3 ws 0).

(* the words of a packet not yet complete, and the packets received *)
Fixpoint receive (pending ws : list Z) : list Z * list packet :=
  match ws with
  | [] => (pending, [])
  | w :: rest =>
      let got := pending ++ [w] in
      if (length got =? psize (assembled got))%nat
      then let r := receive [] rest in (fst r, assembled got :: snd r)
      else receive got rest
  end.

(* a beginning of a packet that lacks words, or nothing *)
Definition incomplete (pending : list Z) : Prop := pending = [] \/ (length pending < psize (assembled pending))%nat.

(* The packets the library makes: by the constructors with arguments in range, by the translation
   of any packet, by the functions that divide SysEx and text, and by parsers of MIDI 1 bytes. *)
Definition midi1_voice_packets (g ch n v w : Z) : list packet :=
  [make_midi1_note_off g ch n v; make_midi1_note_on g ch n v; make_midi1_poly_pressure g ch n w;
   make_midi1_control_change g ch n w; make_midi1_program_change g ch n;
   make_midi1_channel_pressure g ch w; make_midi1_pitch_bend g ch w].
Definition midi2_voice_packets (g ch n b k i a v w s : Z) : list packet :=
  [make_midi2_note_off g ch n v i a; make_midi2_note_on g ch n v; make_midi2_note_on_attribute g ch n v i a;
   make_midi2_note_on_pitch g ch n v a;
   make_registered_per_note_controller g ch n i w; make_assignable_per_note_controller g ch n i w;
   make_registered_controller g ch b n w; make_assignable_controller g ch b n w;
   make_relative_registered_controller g ch b n s; make_relative_assignable_controller g ch b n s;
   make_midi2_control_change g ch n w; make_midi2_poly_pressure g ch n w;
   make_midi2_program_change g ch n; make_midi2_program_change_bank g ch n k;
   make_midi2_channel_pressure g ch w; make_midi2_pitch_bend g ch w;
   make_per_note_pitch_bend g ch n w; make_per_note_management g ch n i].

Inductive made : packet -> Prop :=
| made_utility st v : is_u8 st -> is_u16 v -> made (make_utility_message st v)
| made_jr_clock ts p : is_u16 ts -> jr_clock_message ts = Ok p -> made p
| made_jr_timestamp ts p : is_u16 ts -> jr_timestamp_message ts = Ok p -> made p
| made_system g st d1 d2 : is_u8 g -> is_u8 st -> is_u8 d1 -> is_u8 d2 -> made (make_system_message g st d1 d2)
| made_song_position g pos : is_u8 g -> is_u14 pos -> made (make_song_position_message g pos)
| made_midi1_voice g ch n v w p : address g ch -> is_u7 n -> is_u16 v -> is_u32 w ->
    In p (midi1_voice_packets g ch n v w) -> made p
| made_midi2_voice g ch n b k i a v w s p : address g ch -> is_u7 n -> is_u7 b -> is_u14 k -> is_u8 i ->
    is_u16 a -> is_u16 v -> is_u32 w -> is_s32 s ->
    In p (midi2_voice_packets g ch n b k i a v w s) -> made p
| made_to_midi1 q p : wf_packet q -> to_midi1 q = Some p -> made p
| made_to_midi2 q p : wf_packet q -> to_midi2 q = Ok (Some p) -> made p
| made_sysex7 k make g l p q : In (k, make) sysex7_makers -> 0 <= g < 16 -> Forall is_u8 l -> (length l <= 6)%nat ->
    make g = Ok p -> add_all sysex7_add_payload_byte p l = Ok q -> made q
| made_sysex8 k make s g l q : In (k, make) sysex8_makers -> is_u8 s -> 0 <= g < 16 -> Forall is_u8 l -> (length l <= 13)%nat ->
    add_all sysex8_add_payload_byte (make s g) l = Ok q -> made q
| made_send7 s g ps p : is_u32 (sx_id s) -> Forall is_u8 (sx_data s) -> 0 <= g < 16 ->
    send_sysex7 s g = Ok ps -> In p ps -> made p
| made_send8 id d i g ps p : valid_id id -> Forall is_u8 d -> is_u8 i -> 0 <= g < 16 ->
    send_sysex8 (mkSx id d) i g = Ok ps -> In p ps -> made p
| made_stream dbg c p : stream_typed c -> stream_make dbg c = Ok p -> made p
| made_text dbg s t ps p : Forall is_u8 t -> sender_typed s -> (s = TProduct -> size t <= 16) ->
    send_text dbg s t = Ok ps -> In p ps -> made p
| made_flex dbg c p : flex_typed c -> flex_make dbg c = Ok p -> made p
| made_bytes s d1 d2 : is_u8 s -> is_u8 d1 -> is_u8 d2 -> made (from_midi1_byte_stream s d1 d2)
| made_parser g cb on cs st out p : 0 <= g < 16 -> Forall valid_call cs ->
    parser_calls (new_parser g cb on) cs = Ok (st, out) -> In (EPacket p) out -> made p
| made_set_group p g q : made p -> 0 <= g < 16 -> set_group p g = Ok q -> made q.
