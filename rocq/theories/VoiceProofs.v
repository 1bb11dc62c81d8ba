(* Proofs about channel voice messages. *)
From Coq Require Import ZArith List Bool Lia.
From Verif Require Import Base Bits Packet PacketSpec PacketProofs Messages Types TypesSpec TypesProofs
  ChannelVoice VoiceSpec.
Import ListNotations.
Local Open Scope Z_scope.

(* ---- fields of a packet with a given first word -------------------------------- *)

Section Fields.
  Variables (p : packet) (a b c d : Z).
  Hypothesis E : w0 p = be32 a b c d.
  Hypotheses (Ha : is_u8 a) (Hb : is_u8 b) (Hc : is_u8 c) (Hd : is_u8 d).

  Lemma f_type : type p = a / 16.
  Proof. unfold type, is_u8, be32 in *. rewrite E. bitlia. Qed.
  Lemma f_group : group p = a mod 16.
  Proof. unfold group, is_u8, be32 in *. rewrite E. bitlia. Qed.
  Lemma f_status : status p = b.
  Proof. unfold status, byte2, is_u8, be32 in *. rewrite E. bitlia. Qed.
  Lemma f_byte3 : byte3 p = c.
  Proof. unfold byte3, is_u8, be32 in *. rewrite E. bitlia. Qed.
  Lemma f_byte4 : byte4 p = d.
  Proof. unfold byte4, is_u8, be32 in *. rewrite E. bitlia. Qed.
End Fields.

Lemma packet_fields p : wf_packet p ->
  w0 p = be32 (type p * 16 + group p) (status p) (byte3 p) (byte4 p) /\
  0 <= type p < 16 /\ 0 <= group p < 16 /\ is_u8 (status p) /\ is_u8 (byte3 p) /\ is_u8 (byte4 p).
Proof.
  intros H. rewrite (type_spec p H), group_spec, status_spec, byte3_spec, byte4_spec.
  destruct H as (H & _). unfold is_u32, is_u8, be32 in *. dlia.
Qed.

(* high and low nibble of a status byte *)
Lemma nibbles k ch : (exists j, k = 16 * j /\ 0 <= j < 16) -> 0 <= ch < 16 ->
  Z.land (k + ch) 240 = k /\ Z.land (k + ch) 15 = ch /\ is_u8 (k + ch).
Proof. intros (j & -> & Hj) H. unfold is_u8. split; [|split]; [bitlia|bitlia|lia]. Qed.

Lemma m1_kind_mult m : exists j, m1_kind m = 16 * j /\ 0 <= j < 16.
Proof.
  destruct m; cbn [m1_kind];
    [exists 8|exists 9|exists 10|exists 11|exists 12|exists 13|exists 14]; lia.
Qed.
Lemma m2_kind_mult m : exists j, m2_kind m = 16 * j /\ 0 <= j < 16.
Proof.
  destruct m; cbn [m2_kind]; [exists 0|exists 1|exists 2|exists 3|exists 4|exists 5|exists 6|exists 8
    |exists 9|exists 10|exists 11|exists 12|exists 13|exists 14|exists 15]; lia.
Qed.

Lemma m1_data_ok m : m1_ok m -> is_u7 (fst (m1_data m)) /\ is_u7 (snd (m1_data m)).
Proof. destruct m; cbn [m1_ok m1_data fst snd]; unfold is_u7, is_u14; intros; dlia. Qed.

Lemma m2_fields_ok m : m2_ok m -> is_u8 (fst (fst (m2_fields m))) /\
  is_u8 (snd (fst (m2_fields m))) /\ is_u32 (snd (m2_fields m)).
Proof.
  destruct m; cbn [m2_ok m2_fields fst snd]; try destruct bank as [b|]; cbn [fst snd];
    unfold is_u7, is_u8, is_u14, is_u16, is_u32, is_s32; intros; dlia.
Qed.

Lemma u7_u8 x : is_u7 x -> is_u8 x.
Proof. unfold is_u7, is_u8; lia. Qed.

Record view1 (p : packet) (g ch k d1 d2 : Z) : Prop := {
  v1_type : type p = 2; v1_group : group p = g; v1_status : status p = k + ch;
  v1_kind : Z.land (status p) 240 = k; v1_channel : Z.land (status p) 15 = ch;
  v1_byte3 : byte3 p = d1; v1_byte4 : byte4 p = d2 }.

Lemma layout1_view g ch m : address g ch -> m1_ok m ->
  view1 (layout1 g ch m) g ch (m1_kind m) (fst (m1_data m)) (snd (m1_data m)).
Proof.
  intros [Hg Hc] Hm. destruct (m1_data_ok m Hm) as [D1 D2].
  destruct (nibbles (m1_kind m) ch (m1_kind_mult m) Hc) as (N1 & N2 & N3).
  assert (E : w0 (layout1 g ch m) = be32 (2 * 16 + g) (m1_kind m + ch) (fst (m1_data m)) (snd (m1_data m)))
    by reflexivity.
  assert (A : is_u8 (2 * 16 + g)) by (unfold is_u8; lia).
  apply u7_u8 in D1. apply u7_u8 in D2.
  assert (S : status (layout1 g ch m) = m1_kind m + ch) by (rewrite (f_status _ _ _ _ _ E) by assumption; reflexivity).
  constructor.
  - rewrite (f_type _ _ _ _ _ E) by assumption. dlia.
  - rewrite (f_group _ _ _ _ _ E) by assumption. dlia.
  - exact S.
  - rewrite S. exact N1.
  - rewrite S. exact N2.
  - now rewrite (f_byte3 _ _ _ _ _ E) by assumption.
  - now rewrite (f_byte4 _ _ _ _ _ E) by assumption.
Qed.

Record view2 (p : packet) (g ch k b3 b4 data : Z) : Prop := {
  v2_type : type p = 4; v2_group : group p = g; v2_status : status p = k + ch;
  v2_kind : Z.land (status p) 240 = k; v2_channel : Z.land (status p) 15 = ch;
  v2_byte3 : byte3 p = b3; v2_byte4 : byte4 p = b4; v2_data : w1 p = data }.

Lemma layout2_view g ch m : address g ch -> m2_ok m ->
  view2 (layout2 g ch m) g ch (m2_kind m) (fst (fst (m2_fields m))) (snd (fst (m2_fields m)))
        (snd (m2_fields m)).
Proof.
  intros [Hg Hc] Hm. destruct (m2_fields_ok m Hm) as (D1 & D2 & D3).
  destruct (nibbles (m2_kind m) ch (m2_kind_mult m) Hc) as (N1 & N2 & N3).
  assert (E : w0 (layout2 g ch m) = be32 (4 * 16 + g) (m2_kind m + ch) (fst (fst (m2_fields m)))
     (snd (fst (m2_fields m)))) by reflexivity.
  assert (A : is_u8 (4 * 16 + g)) by (unfold is_u8; lia).
  assert (S : status (layout2 g ch m) = m2_kind m + ch) by (rewrite (f_status _ _ _ _ _ E) by assumption; reflexivity).
  constructor.
  - rewrite (f_type _ _ _ _ _ E) by assumption. dlia.
  - rewrite (f_group _ _ _ _ _ E) by assumption. dlia.
  - exact S.
  - rewrite S. exact N1.
  - rewrite S. exact N2.
  - now rewrite (f_byte3 _ _ _ _ _ E) by assumption.
  - now rewrite (f_byte4 _ _ _ _ _ E) by assumption.
  - reflexivity.
Qed.

Lemma layout2_wf g ch m : address g ch -> m2_ok m -> wf_packet (layout2 g ch m).
Proof.
  intros [Hg Hc] Hm. destruct (m2_fields_ok m Hm) as (D1 & D2 & D3).
  destruct (nibbles (m2_kind m) ch (m2_kind_mult m) Hc) as (_ & _ & N3).
  unfold wf_packet, layout2; cbn [w0 w1 w2 w3]. unfold is_u8, is_u32, be32 in *. lia.
Qed.

(* ---- constructors ---------------------------------------------------------------- *)

Lemma midi1_cv_be32 g s d1 d2 : 0 <= g < 16 -> is_u8 s -> is_u8 d1 -> is_u8 d2 ->
  midi1_cv g s d1 d2 = mkP (be32 (2 * 16 + g) s d1 d2) 0 0 0.
Proof.
  unfold is_u8. intros. unfold midi1_cv, packet1, be32. f_equal.
  bitnorm. rewrite (Z.mod_small g 16) by lia.
  bitlia.
Qed.

Lemma midi2_cv_be32 g st ch k b3 b4 data : 0 <= g < 16 -> 0 <= ch < 16 ->
  st = 16 * k -> 0 <= k < 16 -> is_u8 b3 -> is_u8 b4 ->
  midi2_cv g st ch b3 b4 data = mkP (be32 (4 * 16 + g) (st + ch) b3 b4) data 0 0.
Proof.
  unfold is_u8. intros Hg Hc -> Hk H3 H4. unfold midi2_cv, packet2, be32. f_equal.
  bitnorm. rewrite (Z.mod_small g 16), (Z.mod_small ch 16) by lia.
  bitlia.
Qed.

Lemma make_midi1_cv_layout g k ch d1 d2 : address g ch -> 8 <= k < 15 -> is_u7 d1 -> is_u7 d2 ->
  make_midi1_cv g (16 * k) ch d1 d2 = mkP (be32 (2 * 16 + g) (16 * k + ch) d1 d2) 0 0 0.
Proof.
  intros [Hg Hc] Hk H1 H2. unfold is_u7 in *. unfold make_midi1_cv.
  assert (E : u8 (Z.lor (16 * k) (Z.land ch 15)) = 16 * k + ch) by (unfold u8; bitlia).
  assert (E1 : u8 (Z.land d1 127) = d1) by (unfold u8; bitlia).
  assert (E2 : u8 (Z.land d2 127) = d2) by (unfold u8; bitlia).
  rewrite E, E1, E2. apply midi1_cv_be32; unfold is_u8; lia.
Qed.

Definition m1_make (g ch : Z) (m : m1msg) (p : packet) : Prop := p = layout1 g ch m.

Lemma vel7 v : is_u16 v -> velocity_as_uint7 v = v / 512 /\ is_u7 (v / 512).
Proof.
  unfold is_u16, is_u7, velocity_as_uint7, downsample_16_to_7bit, u8. intros. bitnorm. dlia.
Qed.
Lemma ctl7 v : is_u32 v -> controller_as_uint7 v = v / 33554432 /\ is_u7 (v / 33554432).
Proof.
  unfold is_u32, is_u7, controller_as_uint7, downsample_32_to_7bit, u8. intros. bitnorm. dlia.
Qed.
Lemma pb14 v : is_u32 v -> pitch_bend_as_uint14 v = v / 262144 /\ is_u14 (v / 262144).
Proof.
  unfold is_u32, is_u14, pitch_bend_as_uint14, downsample_32_to_14bit, u16. intros. bitnorm. dlia.
Qed.

Section Make1.
  Variables g ch : Z.
  Hypothesis HA : address g ch.

  Lemma mk1_note_off n v : is_u7 n -> is_u16 v ->
    make_midi1_note_off g ch n v = layout1 g ch (NoteOff1 n (v / 512)).
  Proof. intros Hn Hv. destruct (vel7 v Hv) as [E B]. unfold make_midi1_note_off. rewrite E.
    now apply (make_midi1_cv_layout g 8). Qed.
  Lemma mk1_note_on n v : is_u7 n -> is_u16 v ->
    make_midi1_note_on g ch n v = layout1 g ch (NoteOn1 n (v / 512)).
  Proof. intros Hn Hv. destruct (vel7 v Hv) as [E B]. unfold make_midi1_note_on. rewrite E.
    now apply (make_midi1_cv_layout g 9). Qed.
  Lemma mk1_poly n v : is_u7 n -> is_u32 v ->
    make_midi1_poly_pressure g ch n v = layout1 g ch (PolyPressure1 n (v / 33554432)).
  Proof. intros Hn Hv. destruct (ctl7 v Hv) as [E B]. unfold make_midi1_poly_pressure. rewrite E.
    now apply (make_midi1_cv_layout g 10). Qed.
  Lemma mk1_cc n v : is_u7 n -> is_u32 v ->
    make_midi1_control_change g ch n v = layout1 g ch (ControlChange1 n (v / 33554432)).
  Proof. intros Hn Hv. destruct (ctl7 v Hv) as [E B]. unfold make_midi1_control_change. rewrite E.
    now apply (make_midi1_cv_layout g 11). Qed.
  Lemma mk1_program n : is_u7 n ->
    make_midi1_program_change g ch n = layout1 g ch (ProgramChange1 n).
  Proof. intros Hn. unfold make_midi1_program_change.
    apply (make_midi1_cv_layout g 12); try assumption; unfold is_u7; lia. Qed.
  Lemma mk1_pressure v : is_u32 v ->
    make_midi1_channel_pressure g ch v = layout1 g ch (ChannelPressure1 (v / 33554432)).
  Proof. intros Hv. destruct (ctl7 v Hv) as [E B]. unfold make_midi1_channel_pressure. rewrite E.
    apply (make_midi1_cv_layout g 13); try assumption; unfold is_u7; lia. Qed.
  Lemma mk1_bend v : is_u32 v ->
    make_midi1_pitch_bend g ch v = layout1 g ch (PitchBend1 (v / 262144)).
  Proof. intros Hv. destruct (pb14 v Hv) as [E B]. unfold make_midi1_pitch_bend. rewrite E.
    set (x := v / 262144) in *. clearbody x. unfold is_u14 in B.
    assert (E1 : u8 (Z.land x 127) = x mod 128) by (unfold u8; bitlia).
    assert (E2 : u8 (Z.land (Z.shiftr x 7) 127) = x / 128) by (unfold u8; bitlia).
    rewrite E1, E2. apply (make_midi1_cv_layout g 14); try assumption; unfold is_u7; dlia. Qed.
End Make1.

Lemma u8_7 x : is_u7 x -> u8 (Z.land x 127) = x.
Proof. unfold is_u7, u8. intros. bitlia. Qed.

Lemma note_data_add v d : is_u16 v -> is_u16 d -> note_data v d = v * 65536 + d.
Proof. unfold is_u16, note_data, u32. intros. bitlia. Qed.

Ltac mk2 g k :=
  match goal with |- midi2_cv ?g ?st ?c ?a ?b ?d = layout2 ?g ?c ?m =>
    change (layout2 g c m) with
      (mkP (be32 (4 * 16 + g) (m2_kind m + c) (fst (fst (m2_fields m))) (snd (fst (m2_fields m))))
           (snd (m2_fields m)) 0 0);
    cbn [m2_kind m2_fields fst snd];
    rewrite (midi2_cv_be32 g st c k); [reflexivity|..];
    unfold is_u7, is_u8, address in *; try reflexivity; lia
  end.

Section Make2.
  Variables g ch : Z.
  Hypothesis HA : address g ch.

  Lemma mk2_rpn n i v : is_u7 n -> is_u8 i ->
    make_registered_per_note_controller g ch n i v = layout2 g ch (RegisteredPerNote n i v).
  Proof. intros. unfold make_registered_per_note_controller. mk2 g 0. Qed.
  Lemma mk2_apn n i v : is_u7 n -> is_u8 i ->
    make_assignable_per_note_controller g ch n i v = layout2 g ch (AssignablePerNote n i v).
  Proof. intros. unfold make_assignable_per_note_controller. mk2 g 1. Qed.
  Lemma mk2_rc b i v : is_u7 b -> is_u7 i ->
    make_registered_controller g ch b i v = layout2 g ch (RegisteredCtrl b i v).
  Proof. intros. unfold make_registered_controller. rewrite !u8_7 by assumption. mk2 g 2. Qed.
  Lemma mk2_ac b i v : is_u7 b -> is_u7 i ->
    make_assignable_controller g ch b i v = layout2 g ch (AssignableCtrl b i v).
  Proof. intros. unfold make_assignable_controller. rewrite !u8_7 by assumption. mk2 g 3. Qed.
  Lemma mk2_rrc b i v : is_u7 b -> is_u7 i ->
    make_relative_registered_controller g ch b i v = layout2 g ch (RelRegisteredCtrl b i v).
  Proof. intros. unfold make_relative_registered_controller. rewrite !u8_7 by assumption. mk2 g 4. Qed.
  Lemma mk2_rac b i v : is_u7 b -> is_u7 i ->
    make_relative_assignable_controller g ch b i v = layout2 g ch (RelAssignableCtrl b i v).
  Proof. intros. unfold make_relative_assignable_controller. rewrite !u8_7 by assumption. mk2 g 5. Qed.
  Lemma mk2_pnpb n v : is_u7 n ->
    make_per_note_pitch_bend g ch n v = layout2 g ch (PerNotePitchBend n v).
  Proof. intros. unfold make_per_note_pitch_bend. mk2 g 6. Qed.
  Lemma mk2_note_off n v a d : is_u7 n -> is_u16 v -> is_u8 a -> is_u16 d ->
    make_midi2_note_off g ch n v a d = layout2 g ch (NoteOff2 n v a d).
  Proof. intros. unfold make_midi2_note_off. rewrite u8_7, note_data_add by assumption. mk2 g 8. Qed.
  Lemma mk2_note_on n v : is_u7 n -> is_u16 v ->
    make_midi2_note_on g ch n v = layout2 g ch (NoteOn2 n v 0 0).
  Proof.
    intros. unfold make_midi2_note_on.
    replace (u32 (Z.shiftl v 16)) with (v * 65536 + 0) by (unfold u32, is_u16 in *; bitlia). mk2 g 9.
  Qed.
  Lemma mk2_note_on_attribute n v a d : is_u7 n -> is_u16 v -> is_u8 a -> is_u16 d ->
    make_midi2_note_on_attribute g ch n v a d = layout2 g ch (NoteOn2 n v a d).
  Proof. intros. unfold make_midi2_note_on_attribute. rewrite note_data_add by assumption. mk2 g 9. Qed.
  Lemma mk2_note_on_pitch n v d : is_u7 n -> is_u16 v -> is_u16 d ->
    make_midi2_note_on_pitch g ch n v d = layout2 g ch (NoteOn2 n v 3 d).
  Proof. intros. unfold make_midi2_note_on_pitch. rewrite note_data_add by assumption. mk2 g 9. Qed.
  Lemma mk2_poly n v : is_u7 n ->
    make_midi2_poly_pressure g ch n v = layout2 g ch (PolyPressure2 n v).
  Proof. intros. unfold make_midi2_poly_pressure. mk2 g 10. Qed.
  Lemma mk2_cc n v : is_u7 n ->
    make_midi2_control_change g ch n v = layout2 g ch (ControlChange2 n v).
  Proof. intros. unfold make_midi2_control_change. rewrite u8_7 by assumption. mk2 g 11. Qed.
  Lemma mk2_program n : is_u7 n ->
    make_midi2_program_change g ch n = layout2 g ch (ProgramChange2 n None).
  Proof.
    intros. unfold make_midi2_program_change.
    replace (u32 (Z.shiftl (Z.land n 127) 24)) with (n * 16777216) by (unfold u32, is_u7 in *; bitlia).
    mk2 g 12.
  Qed.
  Lemma mk2_program_bank n b : is_u7 n -> is_u14 b ->
    make_midi2_program_change_bank g ch n b = layout2 g ch (ProgramChange2 n (Some b)).
  Proof.
    intros Hn Hb. unfold make_midi2_program_change_bank.
    match goal with |- context[u32 ?x] =>
      replace (u32 x) with (n * 16777216 + (b / 128) * 256 + b mod 128) end.
    - mk2 g 12.
    - unfold is_u7, is_u14 in *.
      replace (Z.land b 0x3F80) with ((b / 128) * 128).
      2:{ change 0x3F80 with (Z.shiftl (Z.ones 7) 7). rewrite land_field by lia. pow2_simpl. dlia. }
      unfold u32. bitlia.
  Qed.
  Lemma mk2_pressure v :
    make_midi2_channel_pressure g ch v = layout2 g ch (ChannelPressure2 v).
  Proof. unfold make_midi2_channel_pressure. mk2 g 13. Qed.
  Lemma mk2_bend v : make_midi2_pitch_bend g ch v = layout2 g ch (PitchBend2 v).
  Proof. unfold make_midi2_pitch_bend. mk2 g 14. Qed.
  Lemma mk2_pnm n f : is_u7 n -> is_u8 f ->
    make_per_note_management g ch n f = layout2 g ch (PerNoteManagement n f).
  Proof. intros. unfold make_per_note_management. mk2 g 15. Qed.
End Make2.

Lemma voice_views p :
  (if type p =? 2 then midi1_view p = Ok p /\ as_midi1_view p = Some p else midi1_view p = Fault AssertFail /\ as_midi1_view p = None) /\
  (if type p =? 4 then midi2_view p = Ok p /\ as_midi2_view p = Some p else midi2_view p = Fault AssertFail /\ as_midi2_view p = None).
Proof.
  unfold midi1_view, as_midi1_view, midi2_view, as_midi2_view, is_midi1_channel_voice_message, is_midi2_channel_voice_message.
  change pt_midi1_channel_voice with 2. change pt_midi2_channel_voice with 4.
  destruct (type p =? 2), (type p =? 4); repeat split.
Qed.

Lemma generic_constructors g ch : address g ch ->
  (forall m, m1_ok m -> make_midi1_cv g (m1_kind m) ch (fst (m1_data m)) (snd (m1_data m)) = layout1 g ch m) /\
  (forall m, m2_ok m ->
     make_midi2_cv g (m2_kind m) ch (fst (fst (m2_fields m))) (snd (fst (m2_fields m))) (snd (m2_fields m)) = layout2 g ch m).
Proof.
  intros HA. split; intros m H.
  - assert (D : exists k, m1_kind m = 16 * k /\ 8 <= k < 15 /\ is_u7 (fst (m1_data m)) /\ is_u7 (snd (m1_data m))).
    { destruct m; cbn [m1_kind m1_data m1_ok fst snd] in *; unfold is_u7, is_u14 in *;
        [exists 8|exists 9|exists 10|exists 11|exists 12|exists 13|exists 14]; repeat split; dlia. }
    destruct D as (k & K & R & A & B). unfold layout1. rewrite K. now apply make_midi1_cv_layout.
  - assert (D : exists k, m2_kind m = 16 * k /\ 0 <= k < 16 /\ is_u8 (fst (fst (m2_fields m))) /\ is_u8 (snd (fst (m2_fields m)))).
    { exists (m2_kind m / 16). destruct m as [| | | | | | | | | | |p [b|]| | |]; cbn [m2_kind m2_fields m2_ok fst snd] in *; unfold is_u7, is_u8, is_u14 in *; repeat split; dlia. }
    destruct D as (k & K & R & A & B). unfold layout2, make_midi2_cv. destruct HA. now apply (midi2_cv_be32 g (m2_kind m) ch k).
Qed.
