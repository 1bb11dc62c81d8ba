(* Lemmas for C85. *)
From Coq Require Import ZArith List Bool Lia ZifyBool ZifyNat.
From Verif Require Import Base Bits Types Packet Messages Sysex DataPackets Utility ByteStream ChannelVoice Collector.
From Verif Require Import PacketSpec StreamSpec VoiceSpec CollectSpec GroupSpec.
From Verif Require Import PacketProofs PacketBytes VoiceProofs VoiceTranslate SystemProofs DataProofs SendProofs StreamProofs StreamCalls.
Import ListNotations.
Local Open Scope Z_scope.
Local Open Scope res_scope.

Lemma set_group_in p g : wf_packet p -> 0 <= g < 16 -> set_group p g = Ok (in_group g p).
Proof.
  intros W G. rewrite set_group_spec by assumption. unfold in_group. do 2 f_equal. dlia.
Qed.

Record alike (p q : packet) : Prop := {
  k_type : type p = type q; k_b2 : byte2 p = byte2 q; k_b3 : byte3 p = byte3 q; k_b4 : byte4 p = byte4 q;
  k_w1 : w1 p = w1 q; k_w2 : w2 p = w2 q; k_w3 : w3 p = w3 q }.

Lemma in_group_alike p g : wf_packet p -> 0 <= g < 16 -> alike (in_group g p) p /\ wf_packet (in_group g p) /\ group (in_group g p) = g.
Proof.
  intros W G. destruct (set_group_fields p g W G) as (q & E & W' & GG & T & B2 & B3 & B4 & E1 & E2 & E3).
  rewrite set_group_in in E by assumption. injection E as E. subst q. split; [now constructor|]. auto.
Qed.

Lemma alike_status p q : alike p q -> status p = status q.
Proof. intros K. unfold status. now rewrite (k_b2 _ _ K). Qed.

Lemma alike_psize p q : alike p q -> psize p = psize q.
Proof. intros K. now rewrite !psize_spec, (k_type _ _ K). Qed.

Lemma alike_get_byte p q b : alike p q -> (1 <= b)%nat -> get_byte p b = get_byte q b.
Proof.
  intros K B. destruct (Nat.lt_ge_cases b 16) as [L|L].
  2:{ unfold get_byte. now replace (b <? 16)%nat with false by lia. }
  pose proof (k_b2 _ _ K). pose proof (k_b3 _ _ K). pose proof (k_b4 _ _ K).
  pose proof (k_w1 _ _ K). pose proof (k_w2 _ _ K). pose proof (k_w3 _ _ K).
  do 16 (destruct b as [|b]; [try lia; unfold get_byte, byte2, byte3, byte4 in *; cbn -[Z.land Z.shiftr] in *; rewrite ?Z.shiftr_0_r; congruence|]).
  lia.
Qed.

Lemma alike_get_bytes p q n : alike p q -> forall b, (1 <= b)%nat -> get_bytes p b n = get_bytes q b n.
Proof.
  intros K. induction n as [|n IH]; intros b B; [reflexivity|]. cbn [get_bytes].
  rewrite (alike_get_byte p q b K B), IH by lia. reflexivity.
Qed.

Create HintDb packet_unfold.
#[local] Hint Unfold is_utility_message is_system_message is_channel_voice_message is_data_message is_midi1_protocol_message
   is_data_packet is_extended_data_packet is_sysex7_packet is_sysex8_packet has_channel
   is_midi1_channel_voice_message is_midi2_channel_voice_message
   is_note_on_message is_note_off_message is_poly_pressure_message is_control_change_message
   is_program_change_message is_channel_pressure_message is_channel_pitch_bend_message
   is_registered_controller_message is_assignable_controller_message
   is_registered_per_note_controller_message is_registered_per_note_controller_pitch_message
   is_assignable_per_note_controller_message is_per_note_pitch_bend_message
   is_note_on_with_pitch_7_9 is_pitch_bend_sensitivity_message is_per_note_pitch_bend_sensitivity_message
   is_channel_voice_message_with_status is_note_on_with_attribute is_note_off_with_attribute has_m2_status
   status utility_payload system_data_byte_1 system_data_byte_2 get_song_position
   sysex7_format sysex8_format sysex7_payload_size sysex8_payload_size
   m1_status m1_channel m1_data_byte_1 m1_data_byte_2 m1_get_14bit_value
   m2_status m2_channel m2_byte3 m2_byte4 m2_data
   get_per_note_controller_index get_midi2_note_attribute get_midi2_note_attribute_data
   get_pitch_bend_sensitivity_value get_per_note_pitch_bend_sensitivity_value get_per_note_pitch_bend_value
   get_note_nr get_note_pitch get_note_velocity get_controller_value get_poly_pressure_value get_controller_nr
   get_program_value get_channel_pressure_value midi1_byte_stream_size
   channel jr_get_timestamp sysex8_stream_id get_channel_pitch_bend_value : packet_unfold.

Ltac blind K := repeat autounfold with packet_unfold;
  rewrite ?(k_type _ _ K), ?(k_b2 _ _ K), ?(k_b3 _ _ K), ?(k_b4 _ _ K), ?(k_w1 _ _ K), ?(k_w2 _ _ K), ?(k_w3 _ _ K), ?(alike_psize _ _ K);
  reflexivity.

Lemma yes_no p q f : alike p q -> In f yes_no_questions -> f p = f q.
Proof.
  intros K I. unfold yes_no_questions in I.
  repeat (destruct I as [<-|I]; [blind K|]). contradiction.
Qed.

Lemma numbers p q f : alike p q -> In f number_questions -> f p = f q.
Proof.
  intros K I. unfold number_questions in I.
  repeat (destruct I as [<-|I]; [cbv beta; blind K|]). contradiction.
Qed.

Lemma checked p q f : alike p q -> In f checked_questions -> f p = f q.
Proof.
  intros K I. unfold checked_questions in I.
  pose proof (alike_get_byte p q 2 K ltac:(lia)) as G2. pose proof (alike_get_byte p q 3 K ltac:(lia)) as G3.
  repeat (destruct I as [<-|I]; [repeat autounfold with packet_unfold; rewrite ?G2, ?G3; blind K|]). contradiction.
Qed.

(* ---- translation and MIDI 1 bytes ---------------------------------------------------------- *)

Lemma bytes_blind p q : alike p q -> to_midi1_byte_stream p = to_midi1_byte_stream q.
Proof.
  intros K. unfold to_midi1_byte_stream.
  replace (midi1_byte_stream_size p) with (midi1_byte_stream_size q).
  2:{ pose proof (numbers p q (fun p => Z.of_nat (midi1_byte_stream_size p)) K). cbv beta in H.
      assert (X : Z.of_nat (midi1_byte_stream_size p) = Z.of_nat (midi1_byte_stream_size q)); [|lia].
      apply H. unfold number_questions. do 35 right. left. reflexivity. }
  rewrite (alike_get_bytes p q _ K 1), (alike_get_bytes p q _ K 2) by lia. blind K.
Qed.

Lemma in_group_be32 g g' t b c d x y z : 0 <= t -> 0 <= g < 16 -> is_u8 b -> is_u8 c -> is_u8 d ->
  in_group g' (mkP (be32 (t * 16 + g) b c d) x y z) = mkP (be32 (t * 16 + g') b c d) x y z.
Proof.
  intros T G B C D. unfold in_group, be32, is_u8 in *. cbn [w0 w1 w2 w3]. f_equal.
  set (r := b * 65536 + c * 256 + d). assert (R : 0 <= r < 16777216) by (unfold r; lia).
  replace ((t * 16 + g) * 16777216 + b * 65536 + c * 256 + d) with ((t * 16 + g) * 16777216 + r) by (unfold r; lia).
  replace ((t * 16 + g') * 16777216 + b * 65536 + c * 256 + d) with ((t * 16 + g') * 16777216 + r) by (unfold r; lia).
  clearbody r. dlia.
Qed.

Lemma group_be32 p g t b c d : 0 <= t -> 0 <= g < 16 -> is_u8 b -> is_u8 c -> is_u8 d ->
  w0 p = be32 (t * 16 + g) b c d -> w0 p / 16777216 mod 16 = g.
Proof.
  intros T G B C D ->. unfold be32, is_u8 in *.
  set (r := b * 65536 + c * 256 + d). assert (R : 0 <= r < 16777216) by (unfold r; lia).
  replace ((t * 16 + g) * 16777216 + b * 65536 + c * 256 + d) with ((t * 16 + g) * 16777216 + r) by (unfold r; lia).
  clearbody r. dlia.
Qed.

Lemma cv1_group g g' st ch d1 d2 : 0 <= g < 16 -> 0 <= g' < 16 ->
  make_midi1_cv g' st ch d1 d2 = in_group g' (make_midi1_cv g st ch d1 d2).
Proof.
  intros G G'. unfold make_midi1_cv. assert (U : forall x, is_u8 (u8 x)) by (intros; unfold is_u8, u8; apply Z.mod_pos_bound; lia).
  rewrite !midi1_cv_be32 by auto. now rewrite in_group_be32 by (auto; lia).
Qed.

Lemma to_midi1_blind g p : wf_packet p -> 0 <= g < 16 -> to_midi1 (in_group g p) = option_map (in_group g) (to_midi1 p).
Proof.
  intros W G. destruct (in_group_alike p g W G) as (K & W' & GG).
  assert (R : 0 <= group p < 16) by (rewrite group_spec; apply Z.mod_pos_bound; lia).
  unfold to_midi1, as_midi2_view.
  replace (is_midi2_channel_voice_message (in_group g p)) with (is_midi2_channel_voice_message p) by (symmetry; blind K).
  destruct (is_midi2_channel_voice_message p); [|reflexivity]. unfold as_midi1. rewrite GG.
  replace (m2_channel (in_group g p)) with (m2_channel p) by (symmetry; blind K).
  replace (m2_status (in_group g p)) with (m2_status p) by (symmetry; blind K).
  replace (m2_byte3 (in_group g p)) with (m2_byte3 p) by (symmetry; blind K).
  replace (m2_byte4 (in_group g p)) with (m2_byte4 p) by (symmetry; blind K).
  replace (m2_data (in_group g p)) with (m2_data p) by (symmetry; blind K).
  generalize (m2_status p) (m2_channel p) (m2_byte3 p) (m2_byte4 p) (m2_data p). intros s c b3 b4 d. cbv zeta.
  assert (L : forall st d1 d2, Some (make_midi1_cv g st c d1 d2) = option_map (in_group g) (Some (make_midi1_cv (group p) st c d1 d2))).
  { intros. cbn [option_map]. f_equal. now apply cv1_group. }
  destruct (s =? st_note_off); [destruct (b4 =? 0); [apply L|reflexivity]|].
  destruct (s =? st_note_on); [destruct (b4 =? 0); [apply L|reflexivity]|].
  destruct (s =? st_poly_pressure); [apply L|].
  destruct (s =? st_control_change); [destruct (is_reserved_controller b3); [reflexivity|apply L]|].
  destruct (s =? st_program_change); [destruct (Z.land b4 1 =? 0); [apply L|reflexivity]|].
  destruct (s =? st_channel_pressure); [apply L|].
  destruct (s =? st_pitch_bend); [apply L|reflexivity].
Qed.

Lemma layout2_group g g' ch m : address g ch -> 0 <= g' < 16 -> m2_ok m -> layout2 g' ch m = in_group g' (layout2 g ch m).
Proof.
  intros [G C] G' M. destruct (m2_fields_ok m M) as (D1 & D2 & D3).
  destruct (nibbles (m2_kind m) ch (m2_kind_mult m) C) as (_ & _ & N3).
  unfold layout2. now rewrite in_group_be32 by (assumption || lia).
Qed.

Lemma to_midi2_blind g p : wf_packet p -> 0 <= g < 16 ->
  exists o, to_midi2 p = Ok o /\ to_midi2 (in_group g p) = Ok (option_map (in_group g) o).
Proof.
  intros W G. destruct (in_group_alike p g W G) as (K & W' & GG).
  assert (R : 0 <= group p < 16) by (rewrite group_spec; apply Z.mod_pos_bound; lia).
  unfold to_midi2, as_midi1_view.
  replace (is_midi1_channel_voice_message (in_group g p)) with (is_midi1_channel_voice_message p) by (symmetry; blind K).
  destruct (is_midi1_channel_voice_message p); [|exists None; split; reflexivity].
  assert (Rc : 0 <= m1_channel p < 16) by (unfold m1_channel; rewrite land_15; apply Z.mod_pos_bound; lia).
  assert (D1 : is_u7 (m1_data_byte_1 p)) by apply mod7.
  assert (D2 : is_u7 (m1_data_byte_2 p)) by apply mod7.
  pose proof (m14_range p) as D14.
  assert (V : forall x, is_u7 x -> is_u16 (velocity_of_uint7 x)).
  { intros x X. unfold velocity_of_uint7. rewrite mcm_7_16 by assumption. now apply mcm_7_16_range. }
  assert (C : forall x, is_u7 x -> is_u32 (controller_of_uint7 x)).
  { intros x X. unfold controller_of_uint7. rewrite mcm_7_32 by assumption. now apply mcm_7_32_range. }
  assert (C14 : is_u32 (min_center_max 14 32 (m1_get_14bit_value p))) by now apply mcm_14_32_range.
  unfold as_midi2, pitch_bend_of_uint14. rewrite GG.
  replace (m1_channel (in_group g p)) with (m1_channel p) by (symmetry; blind K).
  replace (m1_status (in_group g p)) with (m1_status p) by (symmetry; blind K).
  replace (m1_data_byte_1 (in_group g p)) with (m1_data_byte_1 p) by (symmetry; blind K).
  replace (m1_data_byte_2 (in_group g p)) with (m1_data_byte_2 p) by (symmetry; blind K).
  replace (m1_get_14bit_value (in_group g p)) with (m1_get_14bit_value p) by (symmetry; blind K).
  rewrite mcm_14_32 by assumption. cbn [bind].
  set (d1 := m1_data_byte_1 p) in *. set (d2 := m1_data_byte_2 p) in *. set (h := group p) in *. set (c := m1_channel p) in *.
  clearbody d1 d2 h c. assert (S64 : is_u7 64) by (unfold is_u7; lia).
  assert (Z0 : is_u8 0) by (unfold is_u8; lia). assert (Z00 : is_u16 0) by (unfold is_u16; lia).
  assert (A : address h c) by now split. assert (A' : address g c) by now split.
  assert (L : forall m, m2_ok m -> layout2 g c m = in_group g (layout2 h c m)) by (intros; now apply layout2_group).
  destruct (_ =? st_note_off).
  { eexists. split; [reflexivity|]. cbn [option_map]. do 2 f_equal. rewrite !mk2_note_off by auto. apply L. cbn [m2_ok]. auto. }
  destruct (_ =? st_note_on).
  { destruct (d2 =? 0); (eexists; split; [reflexivity|]); cbn [option_map]; do 2 f_equal.
    - rewrite !mk2_note_off by auto. apply L. cbn [m2_ok]. auto.
    - rewrite !mk2_note_on by auto. apply L. cbn [m2_ok]. auto. }
  destruct (_ =? st_poly_pressure).
  { eexists. split; [reflexivity|]. cbn [option_map]. do 2 f_equal. rewrite !mk2_poly by auto. apply L. cbn [m2_ok]. auto. }
  destruct (_ =? st_control_change).
  { destruct (is_reserved_controller d1); [exists None; split; reflexivity|].
    eexists. split; [reflexivity|]. cbn [option_map]. do 2 f_equal. rewrite !mk2_cc by auto. apply L. cbn [m2_ok]. auto. }
  destruct (_ =? st_program_change).
  { eexists. split; [reflexivity|]. cbn [option_map]. do 2 f_equal. rewrite !mk2_program by auto. apply L. cbn [m2_ok]. auto. }
  destruct (_ =? st_channel_pressure).
  { eexists. split; [reflexivity|]. cbn [option_map]. do 2 f_equal. rewrite !mk2_pressure by auto. apply L. cbn [m2_ok]. auto. }
  destruct (_ =? st_pitch_bend); [|exists None; split; reflexivity].
  eexists. split; [reflexivity|]. cbn [option_map]. do 2 f_equal. rewrite !mk2_bend by auto. apply L. cbn [m2_ok]. auto.
Qed.

(* ---- the parser ------------------------------------------------------------------------------ *)

Section Parser.
  Variable f : Z -> Z.
  Hypothesis F : groups_to_groups f.

  Lemma short_regroup g s ds : 0 <= g < 16 -> is_u8 s -> Forall is_u7 ds -> regroup f (short_packet g s ds) = short_packet (f g) s ds.
  Proof.
    intros G S D. set (t := if s <? 0xF0 then 2 else 1).
    assert (T : 0 <= t) by (unfold t; destruct (_ <? _); lia).
    assert (X : forall k, is_u8 (nth k ds 0)).
    { intros k. destruct (Nat.lt_ge_cases k (length ds)) as [L|L].
      - rewrite Forall_forall in D. pose proof (D _ (nth_In ds 0 L)). unfold is_u7, is_u8 in *. lia.
      - rewrite nth_overflow by lia. unfold is_u8. lia. }
    assert (E : forall g, short_packet g s ds = mkP (be32 (t * 16 + g) s (nth 0 ds 0) (nth 1 ds 0)) 0 0 0).
    { intros. unfold short_packet, be32. fold t. f_equal. lia. }
    unfold regroup. rewrite (group_be32 _ g t s (nth 0 ds 0) (nth 1 ds 0)) by (auto; now rewrite E).
    rewrite !E. now rewrite in_group_be32 by auto.
  Qed.

  Lemma sx7_regroup g k ds : 0 <= g < 16 -> 0 <= k < 4 -> (length ds <= 6)%nat -> Forall is_u7 ds -> regroup f (sx7_packet g k ds) = sx7_packet (f g) k ds.
  Proof.
    intros G K L D.
    assert (X : forall k, is_u8 (nth k ds 0)).
    { intros i. destruct (Nat.lt_ge_cases i (length ds)) as [I|I].
      - rewrite Forall_forall in D. pose proof (D _ (nth_In ds 0 I)). unfold is_u7, is_u8 in *. lia.
      - rewrite nth_overflow by lia. unfold is_u8. lia. }
    assert (C : is_u8 (k * 16 + Z.of_nat (length ds))) by (unfold is_u8; lia).
    unfold regroup, sx7_packet. rewrite (group_be32 _ g 3 (k * 16 + Z.of_nat (length ds)) (nth 0 ds 0) (nth 1 ds 0)) by (auto; lia).
    now rewrite in_group_be32 by (auto; lia).
  Qed.

  Lemma lastn_u7 n ds : Forall is_u7 ds -> Forall is_u7 (lastn n ds).
  Proof. unfold lastn. intros D. rewrite <- (firstn_skipn (length ds - n) ds) in D. now apply Forall_app in D. Qed.
  Lemma lastn_len n (ds : list Z) : (length (lastn n ds) <= n)%nat.
  Proof. unfold lastn. rewrite skipn_length. lia. Qed.

  Lemma on_data_regroup cb g s ds : 0 <= g < 16 -> is_u8 s -> Forall is_u7 ds ->
    map (regroup_event f) (on_data cb g s ds) = on_data cb (f g) s ds.
  Proof.
    intros G S D. unfold on_data. destruct (s <? 0xF0).
    { destruct (_ =? _)%nat; [|reflexivity]. cbn [map regroup_event]. rewrite short_regroup by (auto using lastn_u7). reflexivity. }
    destruct (s =? 0xF0).
    { destruct cb; [reflexivity|]. destruct (_ =? _)%nat; [|reflexivity]. cbn [map regroup_event].
      rewrite sx7_regroup; auto using lastn_u7, lastn_len. destruct (_ =? _)%nat; lia. }
    destruct (sc_len s) as [n|]; [|reflexivity]. destruct (_ =? _)%nat; [|reflexivity]. cbn [map regroup_event].
    now rewrite short_regroup.
  Qed.

  Lemma on_end_regroup cb g ds : 0 <= g < 16 -> Forall is_u7 ds ->
    map (regroup_event f) (on_sysex_end cb g ds) = on_sysex_end cb (f g) ds.
  Proof.
    intros G D. unfold on_sysex_end. destruct cb; [now destruct (sx_decode ds)|].
    destruct (_ =? 0)%nat; [reflexivity|]. destruct (Nat.ltb_spec (length ds) 6); cbn [map regroup_event].
    - rewrite sx7_regroup by (auto; lia). reflexivity.
    - rewrite sx7_regroup; auto using lastn_u7; [lia|]. etransitivity; [apply lastn_len|].
      pose proof (Nat.mod_upper_bound (length ds) 6). lia.
  Qed.

  Definition refed (x : fed) : fed := mkFed (f_byte x) (f (StreamSpec.f_group x)) (f_on x).
  Definition rectx (c : calls_context) : calls_context :=
    match c with Some (x0, ds) => Some (refed x0, map refed ds) | None => None end.

  Lemma rectx_step c x : rectx (calls_ctx_step c x) = calls_ctx_step (rectx c) (refed x).
  Proof.
    unfold calls_ctx_step. cbn [refed f_byte]. destruct (is_rt _); [reflexivity|]. destruct (_ <=? _); [reflexivity|].
    destruct c as [[x0 ds]|]; [|reflexivity]. cbn [rectx]. now rewrite map_app.
  Qed.

  Lemma packet_group_refed x0 ds : packet_group (refed x0) (map refed ds) = f (packet_group x0 ds).
  Proof.
    unfold packet_group. cbn [refed f_byte]. destruct (_ =? _); [|reflexivity]. rewrite map_length.
    change (refed x0 :: map refed ds) with (map refed (x0 :: ds)). now rewrite map_nth.
  Qed.

  Lemma refed_bytes ds : map f_byte (map refed ds) = map f_byte ds.
  Proof. rewrite map_map. reflexivity. Qed.

  Definition range (g : Z) : Prop := 0 <= g < 16.

  Lemma emission_regroup cb c x : is_u8 (f_byte x) -> range (StreamSpec.f_group x) -> cc_bytes_ok range c ->
    map (regroup_event f) (calls_emission cb c x) = calls_emission cb (rectx c) (refed x).
  Proof.
    intros B G C. unfold calls_emission. cbn [refed f_byte StreamSpec.f_group f_on]. destruct (negb (f_on x)); [reflexivity|].
    destruct (is_rt (f_byte x)).
    { destruct (rt_defined _); [|reflexivity]. cbn [map regroup_event]. now rewrite short_regroup. }
    destruct (Z.ltb_spec (f_byte x) 0x80).
    { destruct c as [[x0 ds]|]; [|reflexivity]. destruct C as (S & PG & D). cbn [rectx].
      rewrite packet_group_refed. cbn [refed f_byte]. rewrite !map_app, refed_bytes. cbn [map f_byte]. 
      apply on_data_regroup; [now apply (packet_group_P range)|unfold is_u8; lia|].
      apply Forall_app; split; [eapply Forall_map_u7; eassumption|]. unfold is_u8 in B. apply Forall_cons; [unfold is_u7; cbn [refed f_byte]; lia|apply Forall_nil]. }
    destruct (f_byte x =? 0xF6).
    { cbn [map regroup_event]. now rewrite short_regroup. }
    destruct (f_byte x =? 0xF7); [|reflexivity].
    destruct c as [[x0 ds]|]; [|reflexivity]. destruct C as (S & PG & D). cbn [rectx]. cbn [refed f_byte f_on].
    destruct (_ && _); [|reflexivity]. fold (refed x0). rewrite packet_group_refed, refed_bytes.
    apply on_end_regroup; [now apply (packet_group_P range)|]. eapply Forall_map_u7; eassumption.
  Qed.

  Lemma bytes_regroup cb g on bs : Forall is_u8 bs -> range g -> forall c, cc_bytes_ok range c ->
    bytes_outputs cb (f g) on (rectx c) bs =
    (rectx (fst (bytes_outputs cb g on c bs)), map (regroup_event f) (snd (bytes_outputs cb g on c bs))).
  Proof.
    intros U G. induction U as [|b bs B _ IH]; intros c C; [reflexivity|]. cbn [bytes_outputs fst snd].
    change (mkFed b (f g) on) with (refed (mkFed b g on)). rewrite <- rectx_step.
    rewrite IH by now apply cc_bytes_step. cbn [fst snd]. rewrite map_app, emission_regroup by auto. reflexivity.
  Qed.

  Lemma calls_regroup cb cs : Forall valid_call cs -> forall g on c, range g -> cc_bytes_ok range c ->
    calls_outputs cb (f g) on (rectx c) (map (regroup_call f) cs) = map (regroup_event f) (calls_outputs cb g on c cs).
  Proof.
    induction 1 as [|k cs K _ IH]; intros g on c G C; [reflexivity|].
    destruct k as [bs|on'|g'|]; cbn [map regroup_call calls_outputs].
    - rewrite bytes_regroup by auto. cbn [fst snd]. rewrite map_app, IH; auto. now apply bytes_outputs_wf.
    - now apply IH.
    - now apply IH.
    - now apply (IH g on None).
  Qed.

  Lemma parser_regroup g cb on cs : 0 <= g < 16 -> Forall valid_call cs -> exists st st' out,
    parser_calls (new_parser g cb on) cs = Ok (st, out) /\
    parser_calls (new_parser (f g) cb on) (map (regroup_call f) cs) = Ok (st', map (regroup_event f) out).
  Proof.
    intros G V. destruct (calls_refine_new g cb on cs G V) as (st & E).
    destruct (calls_refine_new (f g) cb on (map (regroup_call f) cs)) as (st' & E').
    { now apply F. }
    { apply Forall_map. eapply Forall_impl; [|exact V]. intros [| | |]; cbn; auto. }
    exists st, st', (calls_outputs cb g on None cs). split; [exact E|]. rewrite E'.
    now rewrite <- (calls_regroup cb cs V g on None G I).
  Qed.
End Parser.

(* ---- system exclusive --------------------------------------------------------------------------- *)

Lemma c7_bytes_blind p q n : alike p q -> forall b s i, c7_bytes p b n s i = c7_bytes q b n s i.
Proof.
  intros K. induction n as [|n IH]; intros b s i; [reflexivity|]. cbn [c7_bytes]. unfold sysex7_payload_byte.
  rewrite (alike_get_byte p q) by (assumption || lia). destruct (get_byte q _); [|reflexivity]. cbn [bind].
  destruct (if i =? 0 then _ else _) as [s' i']. apply IH.
Qed.

Lemma c8_bytes_blind p q n : alike p q -> forall b s i, c8_bytes p b n s i = c8_bytes q b n s i.
Proof.
  intros K. induction n as [|n IH]; intros b s i; [reflexivity|]. cbn [c8_bytes]. unfold sysex8_payload_byte.
  rewrite (alike_get_byte p q) by (assumption || lia). destruct (get_byte q _); [|reflexivity]. cbn [bind].
  destruct (match i with Detect => _ | _ => _ end) as [s' i']. apply IH.
Qed.

Lemma c7_feed_blind a c p q : alike p q -> c7_feed a c p = c7_feed a c q.
Proof.
  intros K. unfold c7_feed.
  replace (is_sysex7_packet p) with (is_sysex7_packet q) by (symmetry; blind K). rewrite (alike_status p q K).
  replace (sysex7_payload_size p) with (sysex7_payload_size q) by (symmetry; blind K).
  destruct (negb (is_sysex7_packet q)); [reflexivity|]. cbv zeta. destruct (_ && _); [reflexivity|].
  destruct (make_room _ _ _ _ _) as [cap room]. destruct (negb room); [reflexivity|]. now rewrite (c7_bytes_blind p q).
Qed.

Lemma c8_feed_blind a c p q : alike p q -> c8_feed a c p = c8_feed a c q.
Proof.
  intros K. unfold c8_feed.
  replace (is_sysex8_packet p) with (is_sysex8_packet q) by (symmetry; blind K).
  replace (sysex8_format p) with (sysex8_format q) by (symmetry; blind K).
  replace (sysex8_payload_size p) with (sysex8_payload_size q) by (symmetry; blind K).
  unfold sysex8_stream_id. rewrite (alike_get_byte p q 2) by (assumption || lia).
  destruct (negb (is_sysex8_packet q)); [reflexivity|]. cbv zeta. destruct (get_byte q 2) as [sid|]; [|reflexivity]. cbn [bind].
  destruct (_ && _); [reflexivity|]. destruct (_ && _); [reflexivity|].
  destruct (make_room _ _ _ _ _) as [cap room]. destruct (negb room); [reflexivity|]. now rewrite (c8_bytes_blind p q).
Qed.

Lemma c7_calls_blind a ks ks' : Forall2 same_call ks ks' -> forall c, c7_calls a c ks' = c7_calls a c ks.
Proof.
  induction 1 as [|k k' ks ks' K _ IH]; intros c; [reflexivity|]. cbn [c7_calls].
  assert (E : c7_call a c k' = c7_call a c k).
  { destruct K as [p g W G|k N]; [|reflexivity]. cbn [c7_call]. apply c7_feed_blind. now apply in_group_alike. }
  rewrite E. destruct (c7_call a c k) as [[c' o]|]; [|reflexivity]. cbn [bind]. now rewrite IH.
Qed.

Lemma c8_calls_blind a ks ks' : Forall2 same_call ks ks' -> forall c, c8_calls a c ks' = c8_calls a c ks.
Proof.
  induction 1 as [|k k' ks ks' K _ IH]; intros c; [reflexivity|]. cbn [c8_calls].
  assert (E : c8_call a c k' = c8_call a c k).
  { destruct K as [p g W G|k N]; [|reflexivity]. cbn [c8_call]. apply c8_feed_blind. now apply in_group_alike. }
  rewrite E. destruct (c8_call a c k) as [[c' o]|]; [|reflexivity]. cbn [bind]. now rewrite IH.
Qed.

Lemma full_chunks_nonempty k c rest : (0 < k)%nat -> full_chunks k (c :: rest) -> (1 <= length c <= k)%nat.
Proof. intros K. destruct rest; cbn; lia. Qed.

Lemma app_same_length (x : list Z) : forall y a b, length x = length y -> x ++ a = y ++ b -> x = y /\ a = b.
Proof.
  induction x as [|u x IH]; intros [|v y] a b L E; try discriminate; [now split|].
  injection E as -> E. injection L as L. destruct (IH y a b L E) as [-> ->]. now split.
Qed.

Lemma full_chunks_unique k a : (0 < k)%nat -> forall b, full_chunks k a -> full_chunks k b -> concat a = concat b -> a = b.
Proof.
  intros K. induction a as [|x a IH]; intros [|y b] A B E; try contradiction.
  destruct a as [|x' a], b as [|y' b].
  - cbn in E. rewrite !app_nil_r in E. congruence.
  - cbn [full_chunks] in A, B. destruct B as [B B']. pose proof (full_chunks_nonempty k y' b K B').
    apply (f_equal (@length Z)) in E. cbn [concat] in E. rewrite !app_length in E. cbn [length] in E. lia.
  - cbn [full_chunks] in A, B. destruct A as [A A']. pose proof (full_chunks_nonempty k x' a K A').
    apply (f_equal (@length Z)) in E. cbn [concat] in E. rewrite !app_length in E. cbn [length] in E. lia.
  - destruct A as [A A'], B as [B B']. cbn [concat] in E.
    assert (X : x = y /\ concat (x' :: a) = concat (y' :: b)).
    { apply app_same_length; [congruence|exact E]. }
    destruct X as [-> X]. f_equal. now apply IH.
Qed.

Lemma sx7_in_group g g' k c : 0 <= g < 16 -> 0 <= k < 4 -> chunk_ok 6 c -> in_group g' (sx7_packet g k c) = sx7_packet g' k c.
Proof.
  intros G K [L U]. unfold sx7_packet.
  assert (X : forall k, is_u8 (nth k c 0)).
  { intros i. destruct (Nat.lt_ge_cases i (length c)) as [I|I].
    - rewrite Forall_forall in U. exact (U _ (nth_In c 0 I)).
    - rewrite nth_overflow by lia. unfold is_u8. lia. }
  assert (C : is_u8 (k * 16 + Z.of_nat (length c))) by (unfold is_u8; lia).
  now rewrite in_group_be32 by (auto; lia).
Qed.

Lemma sx8_in_group g g' k i c : 0 <= g < 16 -> 0 <= k < 4 -> is_u8 i -> chunk_ok 13 c -> in_group g' (sx8_packet g k i c) = sx8_packet g' k i c.
Proof.
  intros G K I [L U]. unfold sx8_packet, packet_of_bytes. cbn [nth].
  assert (X : is_u8 (nth 0 c 0)).
  { destruct c as [|x c]; cbn; [unfold is_u8; lia|]. now inversion U. }
  assert (C : is_u8 (k * 16 + Z.of_nat (length c) + 1)) by (unfold is_u8; lia).
  now rewrite in_group_be32 by (auto; lia).
Qed.

Lemma sx7_tail_in_group g g' rest : 0 <= g < 16 -> Forall (chunk_ok 6) rest -> map (in_group g') (sx7_tail g rest) = sx7_tail g' rest.
Proof.
  intros G R. induction R as [|c rest C R IH]; [reflexivity|]. cbn [sx7_tail].
  destruct rest; cbn [map]; rewrite sx7_in_group by (auto; lia); [reflexivity|]. now rewrite IH.
Qed.

Lemma sx8_tail_in_group g g' i rest : 0 <= g < 16 -> is_u8 i -> Forall (chunk_ok 13) rest -> map (in_group g') (sx8_tail g i rest) = sx8_tail g' i rest.
Proof.
  intros G I R. induction R as [|c rest C R IH]; [reflexivity|]. cbn [sx8_tail].
  destruct rest; cbn [map]; rewrite sx8_in_group by (auto; lia); [reflexivity|]. now rewrite IH.
Qed.

Lemma send7_blind s g g' : wf_sysex s -> 0 <= g < 16 -> 0 <= g' < 16 ->
  exists ps, send_sysex7 s g = Ok ps /\ send_sysex7 s g' = Ok (map (in_group g') ps).
Proof.
  intros W G G'. destruct (send7_spec s g W G) as (c & rest & F & C & E). destruct (send7_spec s g' W G') as (c' & rest' & F' & C' & E').
  assert (X : c' :: rest' = c :: rest) by (apply (full_chunks_unique 6); trivial; [lia|congruence]). injection X as -> ->.
  eexists. split; [exact E|]. rewrite E'. cbn [map]. destruct W as [W U].
  assert (K : Forall (chunk_ok 6) (c :: rest)).
  { apply full_chunks_ok; [lia|assumption|]. rewrite C. apply Forall_app. split.
    - unfold sent_id7. destruct (_ =? 0); repeat (apply Forall_cons; [unfold is_u8; dlia|]); constructor.
    - apply Forall_map, Forall_forall. unfold is_u8. intros. lia. }
  inversion K; subst. rewrite sx7_in_group, sx7_tail_in_group; trivial. destruct (_ <=? _); lia.
Qed.

Lemma send8_blind id d i g g' : valid_id id -> Forall is_u8 d -> is_u8 i -> 0 <= g < 16 -> 0 <= g' < 16 ->
  exists ps, send_sysex8 (mkSx id d) i g = Ok ps /\ send_sysex8 (mkSx id d) i g' = Ok (map (in_group g') ps).
Proof.
  intros V D I G G'. destruct (send8_spec id d i g V D I G) as (c & rest & F & C & E). destruct (send8_spec id d i g' V D I G') as (c' & rest' & F' & C' & E').
  assert (X : c' :: rest' = c :: rest) by (apply (full_chunks_unique 13); trivial; [lia|congruence]). injection X as -> ->.
  eexists. split; [exact E|]. rewrite E'. cbn [map].
  assert (K : Forall (chunk_ok 13) (c :: rest)).
  { apply full_chunks_ok; [lia|assumption|]. rewrite C. apply Forall_app. split; [now apply id_bytes8_u8|assumption]. }
  inversion K; subst. rewrite sx8_in_group, sx8_tail_in_group; trivial. destruct (_ <=? _); lia.
Qed.
