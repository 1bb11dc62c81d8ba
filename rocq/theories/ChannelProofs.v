(* Lemmas for C87. *)
From Coq Require Import ZArith List Bool Lia ZifyBool ZifyNat.
From Verif Require Import Base Bits Types Packet Messages Sysex DataPackets Utility ByteStream ChannelVoice.
From Verif Require Import PacketSpec StreamSpec VoiceSpec GroupSpec ChannelSpec.
From Verif Require Import PacketProofs PacketBytes VoiceProofs VoiceTranslate SystemProofs DataProofs StreamProofs StreamCalls GroupProofs.
Import ListNotations.
Local Open Scope Z_scope.
Local Open Scope res_scope.

Record kin (p q : packet) : Prop := {
  n_type : type p = type q; n_group : group p = group q; n_b2 : Z.land (byte2 p) 0xF0 = Z.land (byte2 q) 0xF0;
  n_b3 : byte3 p = byte3 q; n_b4 : byte4 p = byte4 q;
  n_w1 : w1 p = w1 q; n_w2 : w2 p = w2 q; n_w3 : w3 p = w3 q; n_voice : type q = 2 \/ type q = 4 }.

Lemma in_channel_kin p c : voice_packet p -> 0 <= c < 16 ->
  kin (in_channel c p) p /\ wf_packet (in_channel c p) /\ Z.land (byte2 (in_channel c p)) 0x0F = c.
Proof.
  intros (W & T) C.
  assert (W' : wf_packet (in_channel c p)).
  { destruct W as (A & B & D & E). unfold wf_packet, in_channel. cbn [w0 w1 w2 w3]. repeat split; try assumption; unfold is_u32 in *; cbn in *; dlia. }
  split; [|split; [exact W'|]].
  - pose proof W as (U & _). unfold is_u32 in U.
    constructor; rewrite ?land_240, ?type_spec, ?group_spec, ?byte2_spec, ?byte3_spec, ?byte4_spec by assumption;
      unfold in_channel; cbn [w0 w1 w2 w3]; try reflexivity; try dlia; exact T.
  - pose proof W as (U & _). unfold is_u32 in U. change 0x0F with 15. rewrite land_15, byte2_spec. unfold in_channel. cbn [w0]. dlia.
Qed.

Lemma kin_psize p q : kin p q -> psize p = psize q.
Proof. intros K. now rewrite !psize_spec, (n_type _ _ K). Qed.

Lemma kin_size p q : kin p q -> midi1_byte_stream_size p = midi1_byte_stream_size q.
Proof.
  intros K. unfold midi1_byte_stream_size, status. rewrite (n_type _ _ K), (n_b2 _ _ K).
  destruct (n_voice _ _ K) as [-> | ->]; reflexivity.
Qed.

Lemma kin_protocol p q : kin p q -> is_midi1_protocol_message p = is_midi1_protocol_message q.
Proof.
  intros K. unfold is_midi1_protocol_message, status. rewrite (n_type _ _ K).
  pose proof (n_b2 _ _ K) as B. rewrite !land_240 in B.
  assert (R : forall p, 0 <= byte2 p < 256) by (intros; unfold byte2; bitlia).
  pose proof (R p). pose proof (R q).
  destruct (n_voice _ _ K) as [-> | ->]; [|reflexivity]. cbn [Z.eqb pt_system pt_midi1_channel_voice Pos.eqb].
  replace (0x80 <=? byte2 p) with (0x80 <=? byte2 q) by dlia. f_equal. dlia.
Qed.

Create HintDb voice_unfold.
#[local] Hint Unfold is_utility_message is_system_message is_channel_voice_message is_data_message has_channel
   is_midi1_channel_voice_message is_midi2_channel_voice_message
   is_note_on_message is_note_off_message is_poly_pressure_message is_control_change_message
   is_program_change_message is_channel_pressure_message is_channel_pitch_bend_message
   is_registered_controller_message is_assignable_controller_message
   is_registered_per_note_controller_message is_registered_per_note_controller_pitch_message
   is_assignable_per_note_controller_message is_per_note_pitch_bend_message
   is_note_on_with_pitch_7_9 is_pitch_bend_sensitivity_message is_per_note_pitch_bend_sensitivity_message
   is_channel_voice_message_with_status is_note_on_with_attribute is_note_off_with_attribute has_m2_status
   status m1_status m1_data_byte_1 m1_data_byte_2 m1_get_14bit_value m2_status m2_byte3 m2_byte4 m2_data
   get_per_note_controller_index get_midi2_note_attribute get_midi2_note_attribute_data
   get_pitch_bend_sensitivity_value get_per_note_pitch_bend_sensitivity_value get_per_note_pitch_bend_value
   get_note_nr get_note_pitch get_note_velocity get_controller_value get_poly_pressure_value get_controller_nr
   get_program_value get_channel_pressure_value get_channel_pitch_bend_value : voice_unfold.

Ltac deaf K := repeat autounfold with voice_unfold;
  rewrite ?(n_type _ _ K), ?(n_group _ _ K), ?(n_b2 _ _ K), ?(n_b3 _ _ K), ?(n_b4 _ _ K), ?(n_w1 _ _ K), ?(n_w2 _ _ K), ?(n_w3 _ _ K),
    ?(kin_psize _ _ K), ?(kin_size _ _ K), ?(kin_protocol _ _ K);
  reflexivity.

Lemma voice_yes_no_deaf p q f : kin p q -> In f voice_yes_no -> f p = f q.
Proof. intros K I. unfold voice_yes_no in I. repeat (destruct I as [<-|I]; [deaf K|]). contradiction. Qed.

Lemma voice_numbers_deaf p q f : kin p q -> In f voice_numbers -> f p = f q.
Proof. intros K I. unfold voice_numbers in I. repeat (destruct I as [<-|I]; [cbv beta; deaf K|]). contradiction. Qed.

Lemma bend_deaf p q : kin p q -> get_channel_pitch_bend_value p = get_channel_pitch_bend_value q.
Proof. intros K. deaf K. Qed.

(* ---- MIDI 1 bytes ------------------------------------------------------------------------- *)

Lemma in_channel_be32 c c' h k d e x y z : 0 <= h -> is_u8 (k + c) -> (exists j, k = 16 * j /\ 0 <= j < 16) -> 0 <= c < 16 -> is_u8 d -> is_u8 e ->
  in_channel c' (mkP (be32 h (k + c) d e) x y z) = mkP (be32 h (k + c') d e) x y z.
Proof.
  intros H _ (j & -> & J) C D E. unfold in_channel, be32, is_u8 in *. cbn [w0 w1 w2 w3]. f_equal.
  set (r := d * 256 + e). assert (R : 0 <= r < 65536) by (unfold r; lia).
  replace (h * 16777216 + (16 * j + c) * 65536 + d * 256 + e) with ((h * 16 + j) * 1048576 + c * 65536 + r) by (unfold r; lia).
  replace (h * 16777216 + (16 * j + c') * 65536 + d * 256 + e) with ((h * 16 + j) * 1048576 + c' * 65536 + r) by (unfold r; lia).
  set (u := h * 16 + j). clearbody u r. dlia.
Qed.

Lemma get1 p : get_byte p 1 = Ok (byte2 p). Proof. reflexivity. Qed.
Lemma get2 p : get_byte p 2 = Ok (byte3 p). Proof. reflexivity. Qed.
Lemma get3 p : get_byte p 3 = Ok (byte4 p). Proof. reflexivity. Qed.

Lemma bytes_deaf c p : voice_packet p -> 0 <= c < 16 ->
  exists bs, to_midi1_byte_stream p = Ok bs /\ to_midi1_byte_stream (in_channel c p) = Ok (first_in_channel c bs).
Proof.
  intros V C. destruct (in_channel_kin p c V C) as (K & W & L).
  unfold to_midi1_byte_stream. rewrite (kin_size _ _ K), (n_type _ _ K).
  destruct (n_voice _ _ K) as [T|T]; rewrite T; cbn [Z.eqb pt_system pt_midi1_channel_voice pt_data Pos.eqb orb]; [|exists []; split; reflexivity].
  assert (S : exists k, midi1_byte_stream_size p = 0%nat \/ midi1_byte_stream_size p = S k /\ (k <= 2)%nat).
  { unfold midi1_byte_stream_size. rewrite T. cbn [Z.eqb pt_system pt_midi1_channel_voice Pos.eqb].
    destruct (existsb _ _); [exists 2%nat; right; split; [reflexivity|lia]|].
    destruct (_ || _); [exists 1%nat; right; split; [reflexivity|lia]|exists 0%nat; now left]. }
  destruct S as (k & [-> | (-> & S)]); [exists []; split; reflexivity|].
  assert (H : byte2 (in_channel c p) = byte2 p / 16 * 16 + c).
  { pose proof (n_b2 _ _ K) as B. rewrite !land_240 in B. change 0x0F with 15 in L. rewrite land_15 in L.
    assert (R : forall p, 0 <= byte2 p < 256) by (intros; unfold byte2; bitlia).
    pose proof (R p). pose proof (R (in_channel c p)). dlia. }
  assert (B3 : byte3 (in_channel c p) = byte3 p) by apply (n_b3 _ _ K).
  assert (B4 : byte4 (in_channel c p) = byte4 p) by apply (n_b4 _ _ K).
  do 3 (destruct k as [|k]; [eexists; split; [cbn [get_bytes]; rewrite ?get1, ?get2, ?get3; cbn [bind]; reflexivity|];
    cbn [get_bytes]; rewrite ?get1, ?get2, ?get3, H, ?B3, ?B4; reflexivity|]). lia.
Qed.

(* ---- translation --------------------------------------------------------------------------- *)

Lemma cv1_channel g st c c' d1 d2 : 0 <= g < 16 -> 0 <= c < 16 -> 0 <= c' < 16 -> (exists j, st = 16 * j /\ 0 <= j < 16) ->
  make_midi1_cv g st c' d1 d2 = in_channel c' (make_midi1_cv g st c d1 d2).
Proof.
  intros G C C' J. unfold make_midi1_cv. assert (U : forall x, is_u8 (u8 x)) by (intros; unfold is_u8, u8; apply Z.mod_pos_bound; lia).
  assert (E : forall c, 0 <= c < 16 -> u8 (Z.lor st (Z.land c 0x0F)) = st + c).
  { intros x X. destruct J as (j & -> & J). unfold u8. bitlia. }
  rewrite !E by assumption. destruct (nibbles st c J C) as (_ & _ & N). destruct (nibbles st c' J C') as (_ & _ & N').
  rewrite !midi1_cv_be32 by auto. now rewrite in_channel_be32 by (auto; lia).
Qed.

Lemma to_midi1_deaf c p : voice_packet p -> 0 <= c < 16 -> to_midi1 (in_channel c p) = option_map (in_channel c) (to_midi1 p).
Proof.
  intros V C'. destruct (in_channel_kin p c V C') as (K & W' & L).
  assert (R : 0 <= group p < 16) by (rewrite group_spec; apply Z.mod_pos_bound; lia).
  assert (C : 0 <= m2_channel p < 16) by (unfold m2_channel; rewrite land_15; apply Z.mod_pos_bound; lia).
  unfold to_midi1, as_midi2_view.
  replace (is_midi2_channel_voice_message (in_channel c p)) with (is_midi2_channel_voice_message p) by (symmetry; deaf K).
  destruct (is_midi2_channel_voice_message p); [|reflexivity]. unfold as_midi1. rewrite (n_group _ _ K).
  replace (m2_channel (in_channel c p)) with c by (symmetry; exact L).
  replace (m2_status (in_channel c p)) with (m2_status p) by (symmetry; deaf K).
  replace (m2_byte3 (in_channel c p)) with (m2_byte3 p) by (symmetry; deaf K).
  replace (m2_byte4 (in_channel c p)) with (m2_byte4 p) by (symmetry; deaf K).
  replace (m2_data (in_channel c p)) with (m2_data p) by (symmetry; deaf K).
  set (x := m2_channel p) in *. clearbody x. set (g := group p) in *. clearbody g.
  generalize (m2_status p) (m2_byte3 p) (m2_byte4 p) (m2_data p). intros s b3 b4 d. cbv zeta.
  assert (L' : forall st d1 d2, (exists j, st = 16 * j /\ 0 <= j < 16) ->
    Some (make_midi1_cv g st c d1 d2) = option_map (in_channel c) (Some (make_midi1_cv g st x d1 d2))).
  { intros. cbn [option_map]. f_equal. now apply cv1_channel. }
  destruct (s =? st_note_off); [destruct (b4 =? 0); [apply L'; exists 8; split; [reflexivity|lia]|reflexivity]|].
  destruct (s =? st_note_on); [destruct (b4 =? 0); [apply L'; exists 9; split; [reflexivity|lia]|reflexivity]|].
  destruct (s =? st_poly_pressure); [apply L'; exists 10; split; [reflexivity|lia]|].
  destruct (s =? st_control_change); [destruct (is_reserved_controller b3); [reflexivity|apply L'; exists 11; split; [reflexivity|lia]]|].
  destruct (s =? st_program_change); [destruct (Z.land b4 1 =? 0); [apply L'; exists 12; split; [reflexivity|lia]|reflexivity]|].
  destruct (s =? st_channel_pressure); [apply L'; exists 13; split; [reflexivity|lia]|].
  destruct (s =? st_pitch_bend); [apply L'; exists 14; split; [reflexivity|lia]|reflexivity].
Qed.

Lemma layout2_channel g ch ch' m : address g ch -> 0 <= ch' < 16 -> m2_ok m -> layout2 g ch' m = in_channel ch' (layout2 g ch m).
Proof.
  intros [G C] C' M. destruct (m2_fields_ok m M) as (D1 & D2 & D3).
  destruct (nibbles (m2_kind m) ch (m2_kind_mult m) C) as (_ & _ & N3).
  unfold layout2. rewrite in_channel_be32; auto; [lia|apply m2_kind_mult].
Qed.

Lemma to_midi2_deaf ch p : voice_packet p -> 0 <= ch < 16 ->
  exists o, to_midi2 p = Ok o /\ to_midi2 (in_channel ch p) = Ok (option_map (in_channel ch) o).
Proof.
  intros V Ch. destruct (in_channel_kin p ch V Ch) as (K & W' & L0).
  assert (R : 0 <= group p < 16) by (rewrite group_spec; apply Z.mod_pos_bound; lia).
  unfold to_midi2, as_midi1_view.
  replace (is_midi1_channel_voice_message (in_channel ch p)) with (is_midi1_channel_voice_message p) by (symmetry; deaf K).
  destruct (is_midi1_channel_voice_message p); [|exists None; split; reflexivity].
  assert (Rc : 0 <= m1_channel p < 16) by (unfold m1_channel; rewrite land_15; apply Z.mod_pos_bound; lia).
  assert (D1 : is_u7 (m1_data_byte_1 p)) by apply mod7.
  assert (D2 : is_u7 (m1_data_byte_2 p)) by apply mod7.
  pose proof (m14_range p) as D14.
  assert (Vl : forall x, is_u7 x -> is_u16 (velocity_of_uint7 x)).
  { intros x X. unfold velocity_of_uint7. rewrite mcm_7_16 by assumption. now apply mcm_7_16_range. }
  assert (C : forall x, is_u7 x -> is_u32 (controller_of_uint7 x)).
  { intros x X. unfold controller_of_uint7. rewrite mcm_7_32 by assumption. now apply mcm_7_32_range. }
  assert (C14 : is_u32 (min_center_max 14 32 (m1_get_14bit_value p))) by now apply mcm_14_32_range.
  unfold as_midi2, pitch_bend_of_uint14. rewrite (n_group _ _ K).
  replace (m1_channel (in_channel ch p)) with ch by (symmetry; exact L0).
  replace (m1_status (in_channel ch p)) with (m1_status p) by (symmetry; deaf K).
  replace (m1_data_byte_1 (in_channel ch p)) with (m1_data_byte_1 p) by (symmetry; deaf K).
  replace (m1_data_byte_2 (in_channel ch p)) with (m1_data_byte_2 p) by (symmetry; deaf K).
  replace (m1_get_14bit_value (in_channel ch p)) with (m1_get_14bit_value p) by (symmetry; deaf K).
  rewrite mcm_14_32 by assumption. cbn [bind].
  set (d1 := m1_data_byte_1 p) in *. set (d2 := m1_data_byte_2 p) in *. set (h := group p) in *. set (c := m1_channel p) in *.
  clearbody d1 d2 h c. assert (S64 : is_u7 64) by (unfold is_u7; lia).
  assert (Z0 : is_u8 0) by (unfold is_u8; lia). assert (Z00 : is_u16 0) by (unfold is_u16; lia).
  assert (A : address h c) by now split. assert (A' : address h ch) by now split.
  assert (L : forall m, m2_ok m -> layout2 h ch m = in_channel ch (layout2 h c m)) by (intros; now apply layout2_channel).
  destruct (_ =? st_note_off).
  { eexists. split; [reflexivity|]. cbn [option_map]. do 2 f_equal. rewrite !mk2_note_off by auto. apply L. cbn [m2_ok]. auto. }
  destruct (_ =? st_note_on).
  { destruct (d2 =? 0); (eexists; split; [reflexivity|]); cbn [option_map]; do 2 f_equal.
    - rewrite !mk2_note_off by auto. apply L. cbn [m2_ok]. auto.
    - rewrite !mk2_note_on by auto. apply L. cbn [m2_ok]. auto. }
  destruct (_ =? st_poly_pressure).
  { eexists. split; [reflexivity|]. cbn [option_map]. do 2 f_equal. rewrite !mk2_poly by auto. apply L. cbn [m2_ok]. auto. }
  destruct (_ =? st_control_change).
  { destruct (is_reserved_controller d1); [exists None; split; reflexivity|].
    eexists. split; [reflexivity|]. cbn [option_map]. do 2 f_equal. rewrite !mk2_cc by auto. apply L. cbn [m2_ok]. auto. }
  destruct (_ =? st_program_change).
  { eexists. split; [reflexivity|]. cbn [option_map]. do 2 f_equal. rewrite !mk2_program by auto. apply L. cbn [m2_ok]. auto. }
  destruct (_ =? st_channel_pressure).
  { eexists. split; [reflexivity|]. cbn [option_map]. do 2 f_equal. rewrite !mk2_pressure by auto. apply L. cbn [m2_ok]. auto. }
  destruct (_ =? st_pitch_bend); [|exists None; split; reflexivity].
  eexists. split; [reflexivity|]. cbn [option_map]. do 2 f_equal. rewrite !mk2_bend by auto. apply L. cbn [m2_ok]. auto.
Qed.

(* ---- the parser ------------------------------------------------------------------------------ *)

Section Parser.
  Variable f : Z -> Z.
  Hypothesis F : channels_to_channels f.
  Let rb := rechannel_byte f.

  Lemma rb_class b : is_u8 b -> is_u8 (rb b) /\ (0x80 <=? rb b) = (0x80 <=? b) /\ (rb b <? 0x80) = (b <? 0x80) /\
    (rb b <? 0xF0) = (b <? 0xF0) /\ is_rt (rb b) = is_rt b /\ cv_len (rb b) = cv_len b /\
    (b < 0x80 \/ 0xF0 <= b -> rb b = b) /\ (rb b =? 0xF0) = (b =? 0xF0) /\ (rb b =? 0xF6) = (b =? 0xF6) /\ (rb b =? 0xF7) = (b =? 0xF7).
  Proof.
    unfold is_u8, rb, rechannel_byte, is_rt, cv_len. intros B.
    destruct (Z.leb_spec 0x80 b), (Z.ltb_spec b 0xF0); cbn [andb].
    2-4: repeat split; auto; lia.
    pose proof (F (b mod 16) ltac:(apply Z.mod_pos_bound; lia)) as R. set (c := f (b mod 16)) in *. clearbody c.
    assert (J : 8 <= b / 16 < 15) by dlia. pose proof (Z.div_mod b 16 ltac:(lia)). pose proof (Z.mod_pos_bound b 16 ltac:(lia)).
    set (j := b / 16) in *. clearbody j. set (m := b mod 16) in *. clearbody m. subst b.
    repeat split; try lia.
    replace (0xC0 <=? j * 16 + c) with (0xC0 <=? 16 * j + m) by lia.
    replace (j * 16 + c <? 0xE0) with (16 * j + m <? 0xE0) by lia. reflexivity.
  Qed.

  Lemma sx7_rechannel g k ds : 0 <= g < 16 -> 0 <= k < 4 -> (length ds <= 6)%nat -> Forall is_u7 ds -> rechannel f (sx7_packet g k ds) = sx7_packet g k ds.
  Proof.
    intros G K L D.
    assert (X : forall k, is_u8 (nth k ds 0)).
    { intros i. destruct (Nat.lt_ge_cases i (length ds)) as [I|I].
      - rewrite Forall_forall in D. pose proof (D _ (nth_In ds 0 I)). unfold is_u7, is_u8 in *. lia.
      - rewrite nth_overflow by lia. unfold is_u8. lia. }
    pose proof (X 0%nat). pose proof (X 1%nat). unfold rechannel, sx7_packet. cbn [w0].
    replace (be32 _ _ (nth 0 ds 0) (nth 1 ds 0) / 268435456 =? 2) with false; [reflexivity|].
    unfold be32, is_u8 in *. set (n := Z.of_nat (length ds)). assert (0 <= n <= 6) by lia. clearbody n.
    set (a := nth 0 ds 0) in *. set (b := nth 1 ds 0) in *. clearbody a b. 
    assert (E : ((3 * 16 + g) * 16777216 + (k * 16 + n) * 65536 + a * 256 + b) / 268435456 = 3) by dlia. rewrite E. reflexivity.
  Qed.

  Lemma short_rechannel g s ds : 0 <= g < 16 -> is_u8 s -> 0x80 <= s -> Forall is_u7 ds ->
    rechannel f (short_packet g s ds) = short_packet g (rb s) ds.
  Proof.
    intros G S S8 D.
    assert (X : forall k, is_u8 (nth k ds 0)).
    { intros i. destruct (Nat.lt_ge_cases i (length ds)) as [I|I].
      - rewrite Forall_forall in D. pose proof (D _ (nth_In ds 0 I)). unfold is_u7, is_u8 in *. lia.
      - rewrite nth_overflow by lia. unfold is_u8. lia. }
    pose proof (X 0%nat) as X0. pose proof (X 1%nat) as X1. pose proof (rb_class s S) as (RU & _ & _ & R3 & _ & _ & R & _).
    unfold rechannel, short_packet. rewrite R3. cbn [w0].
    set (a := nth 0 ds 0) in *. set (b := nth 1 ds 0) in *. clearbody a b. unfold is_u8 in *.
    destruct (Z.ltb_spec s 0xF0).
    - assert (E : (2 * 268435456 + g * 16777216 + s * 65536 + a * 256 + b) / 268435456 = 2) by dlia. rewrite E.
      change (2 =? 2) with true. cbv iota. unfold in_channel. cbn [w0 w1 w2 w3]. f_equal.
      assert (E' : (2 * 268435456 + g * 16777216 + s * 65536 + a * 256 + b) / 65536 mod 16 = s mod 16).
      { set (r := a * 256 + b). assert (0 <= r < 65536) by (unfold r; lia).
        replace (2 * 268435456 + g * 16777216 + s * 65536 + a * 256 + b) with ((8192 + g * 256 + s) * 65536 + r) by (unfold r; lia).
        clearbody r. dlia. }
      rewrite E'. unfold rb, rechannel_byte. replace ((0x80 <=? s) && (s <? 0xF0)) with true by lia.
      set (c := f (s mod 16)). clearbody c.
      set (r := a * 256 + b). assert (0 <= r < 65536) by (unfold r; lia).
      pose proof (Z.div_mod s 16 ltac:(lia)). pose proof (Z.mod_pos_bound s 16 ltac:(lia)).
      set (j := s / 16) in *. set (m := s mod 16) in *.
      replace (2 * 268435456 + g * 16777216 + s * 65536 + a * 256 + b) with ((512 + g * 16 + j) * 1048576 + m * 65536 + r) by (unfold r; lia).
      replace (2 * 268435456 + g * 16777216 + (j * 16 + c) * 65536 + a * 256 + b) with ((512 + g * 16 + j) * 1048576 + c * 65536 + r) by (unfold r; lia).
      clearbody r j m. dlia.
    - assert (E : (1 * 268435456 + g * 16777216 + s * 65536 + a * 256 + b) / 268435456 = 1) by dlia. rewrite E.
      change (1 =? 2) with false. cbv iota. rewrite R by lia. reflexivity.
  Qed.

  Lemma on_data_rechannel cb g s ds : 0 <= g < 16 -> is_u8 s -> 0x80 <= s -> Forall is_u7 ds ->
    map (rechannel_event f) (on_data cb g s ds) = on_data cb g (rb s) ds.
  Proof.
    intros G S S8 D. pose proof (rb_class s S) as (_ & _ & _ & R3 & _ & RL & R & RF & _).
    unfold on_data. rewrite R3, RL, RF. destruct (Z.ltb_spec s 0xF0).
    { destruct (_ =? _)%nat; [|reflexivity]. cbn [map rechannel_event]. rewrite short_rechannel by (auto using lastn_u7). reflexivity. }
    destruct (s =? 0xF0).
    { destruct cb; [reflexivity|]. destruct (_ =? _)%nat; [|reflexivity]. cbn [map rechannel_event].
      rewrite sx7_rechannel; auto using lastn_u7, lastn_len. destruct (_ =? _)%nat; lia. }
    rewrite R by lia.
    destruct (sc_len s) as [n|]; [|reflexivity]. destruct (_ =? _)%nat; [|reflexivity]. cbn [map rechannel_event].
    rewrite short_rechannel by auto. now rewrite R by lia.
  Qed.

  Lemma on_end_rechannel cb g ds : 0 <= g < 16 -> Forall is_u7 ds ->
    map (rechannel_event f) (on_sysex_end cb g ds) = on_sysex_end cb g ds.
  Proof.
    intros G D. unfold on_sysex_end. destruct cb; [now destruct (sx_decode ds)|].
    destruct (_ =? 0)%nat; [reflexivity|]. destruct (Nat.ltb_spec (length ds) 6); cbn [map rechannel_event].
    - rewrite sx7_rechannel by (auto; lia). reflexivity.
    - rewrite sx7_rechannel; auto using lastn_u7; [lia|]. etransitivity; [apply lastn_len|].
      pose proof (Nat.mod_upper_bound (length ds) 6). lia.
  Qed.

  Definition chfed (x : fed) : fed := mkFed (rb (f_byte x)) (StreamSpec.f_group x) (f_on x).
  Definition chctx (c : calls_context) : calls_context :=
    match c with Some (x0, ds) => Some (chfed x0, ds) | None => None end.

  Lemma chfed_data x : is_u8 (f_byte x) -> f_byte x < 0x80 -> chfed x = x.
  Proof. intros B L. destruct x as [b g on]. cbn [f_byte] in *. unfold chfed. cbn [f_byte StreamSpec.f_group f_on]. f_equal. apply (rb_class b B). now left. Qed.

  Lemma chctx_step c x : is_u8 (f_byte x) -> chctx (calls_ctx_step c x) = calls_ctx_step (chctx c) (chfed x).
  Proof.
    intros B. pose proof (rb_class _ B) as (_ & R8 & _ & _ & RT & _).
    unfold calls_ctx_step. cbn [chfed f_byte]. rewrite RT, R8. clear RT R8. destruct (is_rt (f_byte x)); [reflexivity|].
    destruct (Z.leb_spec 0x80 (f_byte x)); [reflexivity|].
    destruct c as [[x0 ds]|]; [|reflexivity]. cbn [chctx]. fold (chfed x). now rewrite (chfed_data x).
  Qed.

  Lemma packet_group_chfed x0 ds : is_u8 (f_byte x0) -> packet_group (chfed x0) ds = packet_group x0 ds.
  Proof.
    intros B. pose proof (rb_class _ B) as (_ & _ & _ & _ & _ & _ & _ & RF & _).
    unfold packet_group. cbn [chfed f_byte]. rewrite RF. destruct (f_byte x0 =? 0xF0) eqn:E; [|reflexivity].
    replace (chfed x0) with x0; [reflexivity|]. destruct x0 as [b g on]. cbn [f_byte] in *.
    unfold chfed. cbn [f_byte StreamSpec.f_group f_on]. f_equal. symmetry. apply (rb_class b B). right. lia.
  Qed.

  Lemma emission_rechannel cb c x : is_u8 (f_byte x) -> range (StreamSpec.f_group x) -> cc_bytes_ok range c ->
    map (rechannel_event f) (calls_emission cb c x) = calls_emission cb (chctx c) (chfed x).
  Proof.
    intros B G C. pose proof (rb_class _ B) as (_ & _ & R8 & _ & RT & _ & RR & _ & R6 & R7).
    unfold calls_emission. cbn [chfed f_byte StreamSpec.f_group f_on]. rewrite RT, R8, R6, R7.
    destruct (negb (f_on x)); [reflexivity|].
    destruct (is_rt (f_byte x)) eqn:RTx.
    { unfold is_rt in RTx. rewrite RR by lia. destruct (rt_defined _); [|reflexivity]. cbn [map rechannel_event].
      rewrite short_rechannel by (auto; lia). now rewrite RR by lia. }
    destruct (Z.ltb_spec (f_byte x) 0x80).
    { destruct c as [[x0 ds]|]; [|reflexivity]. destruct C as (S & PG & D). cbn [chctx].
      assert (S8 : is_u8 (f_byte x0)) by (unfold is_u8; lia).
      rewrite packet_group_chfed by assumption. fold (chfed x). rewrite (chfed_data x) by assumption.
      cbn [chfed f_byte].
      apply on_data_rechannel; [now apply (packet_group_P range)|assumption|lia|].
      rewrite map_app. apply Forall_app; split; [eapply Forall_map_u7; eassumption|]. unfold is_u8 in B. apply Forall_cons; [unfold is_u7; lia|apply Forall_nil]. }
    destruct (Z.eqb_spec (f_byte x) 0xF6).
    { cbn [map rechannel_event]. rewrite short_rechannel by (auto; lia). reflexivity. }
    destruct (f_byte x =? 0xF7); [|reflexivity].
    destruct c as [[x0 ds]|]; [|reflexivity]. destruct C as (S & PG & D). cbn [chctx].
    assert (S8 : is_u8 (f_byte x0)) by (unfold is_u8; lia).
    rewrite packet_group_chfed by assumption. cbn [chfed f_byte f_on]. fold (chfed x0).
    replace (rb (f_byte x0) =? 0xF0) with (f_byte x0 =? 0xF0) by (symmetry; apply (rb_class _ S8)).
    destruct (_ && _); [|reflexivity].
    apply on_end_rechannel; [now apply (packet_group_P range)|]. eapply Forall_map_u7; eassumption.
  Qed.

  Lemma bytes_rechannel cb g on bs : Forall is_u8 bs -> range g -> forall c, cc_bytes_ok range c ->
    bytes_outputs cb g on (chctx c) (map rb bs) =
    (chctx (fst (bytes_outputs cb g on c bs)), map (rechannel_event f) (snd (bytes_outputs cb g on c bs))).
  Proof.
    intros U G. induction U as [|b bs B _ IH]; intros c C; [reflexivity|]. cbn [bytes_outputs fst snd map].
    change (mkFed (rb b) g on) with (chfed (mkFed b g on)). rewrite <- chctx_step by assumption.
    rewrite IH by now apply cc_bytes_step. cbn [fst snd]. rewrite map_app, emission_rechannel by auto. reflexivity.
  Qed.

  Lemma calls_rechannel cb cs : Forall valid_call cs -> forall g on c, range g -> cc_bytes_ok range c ->
    calls_outputs cb g on (chctx c) (map (rechannel_call f) cs) = map (rechannel_event f) (calls_outputs cb g on c cs).
  Proof.
    induction 1 as [|k cs K _ IH]; intros g on c G C; [reflexivity|].
    destruct k as [bs|on'|g'|]; cbn [map rechannel_call calls_outputs].
    - fold rb. rewrite bytes_rechannel by auto. cbn [fst snd]. rewrite map_app, IH; auto. now apply bytes_outputs_wf.
    - now apply IH.
    - now apply IH.
    - now apply (IH g on None).
  Qed.

  Lemma parser_rechannel g cb on cs : 0 <= g < 16 -> Forall valid_call cs -> exists st st' out,
    parser_calls (new_parser g cb on) cs = Ok (st, out) /\
    parser_calls (new_parser g cb on) (map (rechannel_call f) cs) = Ok (st', map (rechannel_event f) out).
  Proof.
    intros G V. destruct (calls_refine_new g cb on cs G V) as (st & E).
    destruct (calls_refine_new g cb on (map (rechannel_call f) cs)) as (st' & E'); [exact G| |].
    { apply Forall_map. eapply Forall_impl; [|exact V]. intros [bs| | |]; cbn; auto.
      intros B. apply Forall_map. eapply Forall_impl; [|exact B]. intros b Bb. apply (rb_class b Bb). }
    exists st, st', (calls_outputs cb g on None cs). split; [exact E|]. rewrite E'.
    now rewrite <- (calls_rechannel cb cs V g on None G I).
  Qed.
End Parser.
