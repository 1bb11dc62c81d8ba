(* Proofs about translation between protocols and the protocol agnostic getters. *)
From Coq Require Import ZArith List Bool Lia.
From Verif Require Import Base Bits Packet PacketSpec PacketProofs Messages Types TypesSpec TypesProofs
  ChannelVoice VoiceSpec VoiceProofs.
Import ListNotations.
Local Open Scope Z_scope.

(* ---- the scaling functions are min-center-max scaling ---------------------------- *)

Lemma mcm_7_16 v : is_u7 v -> upsample_7_to_16bit v = min_center_max 7 16 v.
Proof.
  intros H.
  assert (S : forall v, 0 <= v < 0 + Z.of_nat 128 ->
    (upsample_7_to_16bit v =? min_center_max 7 16 v) = true) by (by_sweep 128%nat 0).
  apply Z.eqb_eq, S. unfold is_u7 in H. lia.
Qed.
Lemma mcm_7_32 v : is_u7 v -> upsample_7_to_32bit v = min_center_max 7 32 v.
Proof.
  intros H.
  assert (S : forall v, 0 <= v < 0 + Z.of_nat 128 ->
    (upsample_7_to_32bit v =? min_center_max 7 32 v) = true) by (by_sweep 128%nat 0).
  apply Z.eqb_eq, S. unfold is_u7 in H. lia.
Qed.
Definition mcm_14_check (v : Z) : bool :=
  match upsample_14_to_32bit v with Ok r => r =? min_center_max 14 32 v | Fault _ => false end.
Lemma mcm_14_32 v : is_u14 v -> upsample_14_to_32bit v = Ok (min_center_max 14 32 v).
Proof.
  intros H.
  assert (S : forall v, 0 <= v < 0 + Z.of_nat (Z.to_nat 16384) -> mcm_14_check v = true)
    by (by_sweep (Z.to_nat 16384) 0).
  rewrite Z2Nat.id in S by lia. unfold is_u14 in H. specialize (S v ltac:(lia)).
  unfold mcm_14_check in S. destruct (upsample_14_to_32bit v); [|discriminate].
  apply Z.eqb_eq in S. now subst.
Qed.

Lemma mcm_7_16_range v : is_u7 v -> is_u16 (min_center_max 7 16 v) /\ min_center_max 7 16 v / 512 = v.
Proof.
  intros H. rewrite <- mcm_7_16 by assumption. unfold is_u7 in H.
  destruct (up_defined _ _ _ upscaler_7_16 v) as (r & E & B); [exact H|].
  pose proof (up_lossless _ _ _ upscaler_7_16 v r H E) as L.
  assert (upsample_7_to_16bit v = r) by congruence. subst r. split; [exact B|exact L].
Qed.
Lemma mcm_7_32_range v : is_u7 v -> is_u32 (min_center_max 7 32 v) /\ min_center_max 7 32 v / 33554432 = v.
Proof.
  intros H. rewrite <- mcm_7_32 by assumption. unfold is_u7 in H.
  destruct (up_defined _ _ _ upscaler_7_32 v) as (r & E & B); [exact H|].
  pose proof (up_lossless _ _ _ upscaler_7_32 v r H E) as L.
  assert (upsample_7_to_32bit v = r) by congruence. subst r. split; [exact B|exact L].
Qed.
Lemma mcm_14_32_range v : is_u14 v -> is_u32 (min_center_max 14 32 v) /\ min_center_max 14 32 v / 262144 = v.
Proof.
  intros H. pose proof (mcm_14_32 v H) as M. unfold is_u14 in H.
  destruct (up_defined _ _ _ upscaler_14_32 v) as (r & E & B); [exact H|].
  pose proof (up_lossless _ _ _ upscaler_14_32 v r H E) as L.
  rewrite M in E. cbn [value] in E. assert (min_center_max 14 32 v = r) by congruence. subst r.
  split; [exact B|exact L].
Qed.

(* ---- MIDI 1 to MIDI 2 --------------------------------------------------------------- *)

Lemma land127 x : is_u7 x -> Z.land x 127 = x.
Proof. unfold is_u7. intros. bitlia. Qed.

Lemma reserved_eq c : is_reserved_controller c = existsb (Z.eqb c) reserved_controllers.
Proof. reflexivity. Qed.

Lemma join14 v : is_u14 v -> u16 (Z.lor (v mod 128) (Z.shiftl (v / 128) 7)) = v.
Proof.
  unfold is_u14, u16. intros. rewrite shiftl_mul by lia. pow2_simpl.
  rewrite (lor_add_r 7) by (pow2_simpl; dlia). pow2_simpl. dlia.
Qed.

Lemma as_midi2_layout g ch m : address g ch -> m1_ok m ->
  as_midi2 (layout1 g ch m) = Ok (option_map (layout2 g ch) (translate_to_midi2 m)).
Proof.
  intros HA Hm. pose proof (layout1_view g ch m HA Hm) as V.
  pose proof (m1_data_ok m Hm) as [D1 D2].
  assert (K : m1_status (layout1 g ch m) = m1_kind m) by exact (v1_kind _ _ _ _ _ _ V).
  assert (C : m1_channel (layout1 g ch m) = ch) by exact (v1_channel _ _ _ _ _ _ V).
  assert (G : group (layout1 g ch m) = g) by exact (v1_group _ _ _ _ _ _ V).
  assert (E1 : m1_data_byte_1 (layout1 g ch m) = fst (m1_data m)).
  { unfold m1_data_byte_1. rewrite (v1_byte3 _ _ _ _ _ _ V). now apply land127. }
  assert (E2 : m1_data_byte_2 (layout1 g ch m) = snd (m1_data m)).
  { unfold m1_data_byte_2. rewrite (v1_byte4 _ _ _ _ _ _ V). now apply land127. }
  assert (P : m1_get_14bit_value (layout1 g ch m) =
              u16 (Z.lor (fst (m1_data m)) (Z.shiftl (snd (m1_data m)) 7))).
  { unfold m1_get_14bit_value. now rewrite E1, E2. }
  unfold as_midi2. rewrite K, C, G, E1, E2, P. clear K C G E1 E2 P V.
  destruct m as [n v|n v|n v|n v|n|v|v]; cbn [m1_kind m1_data fst snd] in *;
    cbn [Z.eqb Pos.eqb st_note_off st_note_on st_poly_pressure st_control_change st_program_change
         st_channel_pressure st_pitch_bend].
  - cbn [translate_to_midi2 option_map]. unfold velocity_of_uint7. rewrite mcm_7_16 by assumption.
    rewrite mk2_note_off; try assumption; try reflexivity; try (unfold is_u8, is_u16; lia).
    apply mcm_7_16_range; assumption.
  - cbn [translate_to_midi2]. destruct (Z.eqb_spec v 0).
    + cbn [option_map]. rewrite mk2_note_off; try assumption; try reflexivity;
        unfold is_u8, is_u16; vm_compute; split; congruence.
    + cbn [option_map]. unfold velocity_of_uint7. rewrite mcm_7_16 by assumption.
      rewrite mk2_note_on; try assumption; try reflexivity. apply mcm_7_16_range; assumption.
  - cbn [translate_to_midi2 option_map]. unfold controller_of_uint7. rewrite mcm_7_32 by assumption.
    now rewrite mk2_poly.
  - cbn [translate_to_midi2]. rewrite reserved_eq.
    destruct (existsb (Z.eqb n) reserved_controllers); [reflexivity|].
    cbn [option_map]. unfold controller_of_uint7. rewrite mcm_7_32 by assumption.
    now rewrite mk2_cc.
  - cbn [translate_to_midi2 option_map]. now rewrite mk2_program.
  - cbn [translate_to_midi2 option_map]. unfold controller_of_uint7. rewrite mcm_7_32 by assumption.
    now rewrite mk2_pressure.
  - cbn [m1_ok] in Hm. rewrite join14 by assumption. unfold pitch_bend_of_uint14.
    rewrite mcm_14_32 by assumption. cbn [bind translate_to_midi2 option_map]. now rewrite mk2_bend.
Qed.

Lemma layout1_type g ch m : address g ch -> m1_ok m -> type (layout1 g ch m) = 2.
Proof. intros. eapply v1_type, layout1_view; assumption. Qed.
Lemma layout2_type g ch m : address g ch -> m2_ok m -> type (layout2 g ch m) = 4.
Proof. intros. eapply v2_type, layout2_view; assumption. Qed.

Lemma to_midi2_layout g ch m : address g ch -> m1_ok m ->
  to_midi2 (layout1 g ch m) = Ok (option_map (layout2 g ch) (translate_to_midi2 m)).
Proof.
  intros HA Hm. unfold to_midi2, as_midi1_view, is_midi1_channel_voice_message.
  rewrite layout1_type by assumption. now apply as_midi2_layout.
Qed.

Lemma translated_ok m m2 : m1_ok m -> translate_to_midi2 m = Some m2 -> m2_ok m2.
Proof.
  intros H E. destruct m as [n v|n v|n v|n v|n|v|v]; cbn [translate_to_midi2 m1_ok] in *;
    try (lazymatch type of H with _ /\ _ => destruct H as [Hn Hv] end).
  - injection E as <-. cbn [m2_ok]. destruct (mcm_7_16_range v Hv) as [R _].
    unfold is_u7, is_u8, is_u16 in *. lia.
  - destruct (v =? 0); injection E as <-; cbn [m2_ok].
    + unfold is_u7, is_u8, is_u16 in *. lia.
    + destruct (mcm_7_16_range v Hv) as [R _]. unfold is_u7, is_u8, is_u16 in *. lia.
  - injection E as <-. cbn [m2_ok]. split; [assumption|now apply mcm_7_32_range].
  - destruct (existsb _ _); [discriminate|]. injection E as <-. cbn [m2_ok].
    split; [assumption|now apply mcm_7_32_range].
  - injection E as <-. cbn [m2_ok]. auto.
  - injection E as <-. cbn [m2_ok]. now apply mcm_7_32_range.
  - injection E as <-. cbn [m2_ok]. now apply mcm_14_32_range.
Qed.

(* ---- MIDI 2 to MIDI 1 ---------------------------------------------------------------- *)

(* attribute types with bit 7 set lose it in the view *)
Definition attribute_7bit (m : m2msg) : Prop :=
  match m with NoteOff2 _ _ a _ | NoteOn2 _ _ a _ => is_u7 a | _ => True end.

Lemma note_vel v d : is_u16 v -> is_u16 d -> u16 (Z.shiftr (v * 65536 + d) 16) = v.
Proof. unfold is_u16, u16. intros. bitlia. Qed.

Lemma as_midi1_layout g ch m : address g ch -> m2_ok m -> attribute_7bit m ->
  as_midi1 (layout2 g ch m) = option_map (layout1 g ch) (translate_to_midi1 m).
Proof.
  intros HA Hm H7. pose proof (layout2_view g ch m HA Hm) as V.
  assert (K : m2_status (layout2 g ch m) = m2_kind m) by exact (v2_kind _ _ _ _ _ _ _ V).
  assert (C : m2_channel (layout2 g ch m) = ch) by exact (v2_channel _ _ _ _ _ _ _ V).
  assert (G : group (layout2 g ch m) = g) by exact (v2_group _ _ _ _ _ _ _ V).
  assert (E1 : m2_byte3 (layout2 g ch m) = Z.land (fst (fst (m2_fields m))) 127).
  { unfold m2_byte3. now rewrite (v2_byte3 _ _ _ _ _ _ _ V). }
  assert (E2 : m2_byte4 (layout2 g ch m) = Z.land (snd (fst (m2_fields m))) 127).
  { unfold m2_byte4. now rewrite (v2_byte4 _ _ _ _ _ _ _ V). }
  assert (P : m2_data (layout2 g ch m) = snd (m2_fields m)) by exact (v2_data _ _ _ _ _ _ _ V).
  unfold as_midi1. rewrite K, C, G, E1, E2, P. clear K C G E1 E2 P V.
  destruct m as [n i v|n i v|b i v|b i v|b i v|b i v|n v|n v a d|n v a d|n v|n v|n bk|v|v|n f];
    cbn [m2_kind m2_fields fst snd m2_ok attribute_7bit] in *;
    cbn [Z.eqb Pos.eqb st_note_off st_note_on st_poly_pressure st_control_change st_program_change
         st_channel_pressure st_pitch_bend]; try reflexivity.
  - destruct Hm as (Hn & Hv & Ha & Hd). rewrite (land127 a), (land127 n) by assumption.
    destruct (Z.eqb_spec a 0) as [->|N].
    + cbn [translate_to_midi1 option_map]. rewrite note_vel by assumption. now rewrite mk1_note_off.
    + destruct a; [congruence|reflexivity|reflexivity].
  - destruct Hm as (Hn & Hv & Ha & Hd). rewrite (land127 a), (land127 n) by assumption.
    destruct (Z.eqb_spec a 0) as [->|N].
    + cbn [translate_to_midi1 option_map]. rewrite note_vel by assumption.
      destruct (vel7 v Hv) as [E B]. rewrite E. destruct (Z.eqb_spec (v / 512) 0) as [Z0|Z0].
      * rewrite mk1_note_on; try assumption.
        -- rewrite Z0. reflexivity.
        -- vm_compute; split; congruence.
      * rewrite mk1_note_on by assumption. replace (Z.max 1 (v / 512)) with (v / 512); [reflexivity|].
        unfold is_u7 in B. lia.
    + destruct a; [congruence|reflexivity|reflexivity].
  - destruct Hm as (Hn & Hv). rewrite land127 by assumption. now rewrite mk1_poly.
  - destruct Hm as (Hn & Hv). rewrite land127 by assumption. cbn [translate_to_midi1].
    rewrite reserved_eq. destruct (existsb _ _); [reflexivity|]. now rewrite mk1_cc.
  - destruct bk as [bk|]; cbn [fst snd].
    + reflexivity.
    + destruct Hm as (Hn & _). change (Z.land (Z.land 0 127) 1 =? 0) with true. cbv iota.
      replace (u8 (Z.shiftr (n * 16777216) 24)) with n by (unfold u8, is_u7 in *; bitlia).
      now rewrite mk1_program.
  - now rewrite mk1_pressure.
  - now rewrite mk1_bend.
Qed.

Lemma to_midi1_layout g ch m : address g ch -> m2_ok m -> attribute_7bit m ->
  to_midi1 (layout2 g ch m) = option_map (layout1 g ch) (translate_to_midi1 m).
Proof.
  intros HA Hm H7. unfold to_midi1, as_midi2_view, is_midi2_channel_voice_message.
  rewrite layout2_type by assumption. now apply as_midi1_layout.
Qed.

Lemma translate_back m m2 : m1_ok m -> translate_to_midi2 m = Some m2 ->
  translate_to_midi1 m2 = Some (without_zero_velocity m) /\ attribute_7bit m2.
Proof.
  intros H E. destruct m as [n v|n v|n v|n v|n|v|v]; cbn [translate_to_midi2 m1_ok] in *;
    try (lazymatch type of H with _ /\ _ => destruct H as [Hn Hv] end); cbn [without_zero_velocity].
  - injection E as <-. cbn [translate_to_midi1 attribute_7bit].
    destruct (mcm_7_16_range v Hv) as [_ ->]. split; [reflexivity|unfold is_u7; lia].
  - destruct (Z.eqb_spec v 0) as [->|N]; injection E as <-; cbn [translate_to_midi1 attribute_7bit].
    + split; [reflexivity|unfold is_u7; lia].
    + destruct (mcm_7_16_range v Hv) as [_ ->]. unfold is_u7 in *. split; [|lia].
      replace (Z.max 1 v) with v by lia. destruct v; [congruence|reflexivity|reflexivity].
  - injection E as <-. cbn [translate_to_midi1 attribute_7bit].
    destruct (mcm_7_32_range v Hv) as [_ ->]. auto.
  - destruct (existsb _ _) eqn:X; [discriminate|]. injection E as <-. cbn [translate_to_midi1 attribute_7bit].
    rewrite X. destruct (mcm_7_32_range v Hv) as [_ ->]. auto.
  - injection E as <-. cbn [translate_to_midi1 attribute_7bit]. auto.
  - injection E as <-. cbn [translate_to_midi1 attribute_7bit].
    destruct (mcm_7_32_range v H) as [_ ->]. auto.
  - injection E as <-. cbn [translate_to_midi1 attribute_7bit].
    destruct (mcm_14_32_range v H) as [_ ->]. auto.
Qed.

(* the round trip *)
Lemma round_trip g ch m q : address g ch -> m1_ok m ->
  to_midi2 (layout1 g ch m) = Ok (Some q) -> to_midi1 q = Some (layout1 g ch (without_zero_velocity m)).
Proof.
  intros HA Hm E. rewrite to_midi2_layout in E by assumption.
  destruct (translate_to_midi2 m) as [m2|] eqn:T; [|discriminate].
  cbn [option_map] in E. assert (q = layout2 g ch m2) by congruence. subst q.
  destruct (translate_back m m2 Hm T) as [B A7].
  rewrite to_midi1_layout; [|assumption|now apply (translated_ok m)|assumption].
  now rewrite B.
Qed.

Lemma untranslatable g ch m : address g ch -> m1_ok m ->
  (to_midi2 (layout1 g ch m) = Ok None <->
   exists c v, m = ControlChange1 c v /\ In c reserved_controllers).
Proof.
  intros HA Hm. rewrite to_midi2_layout by assumption. split.
  - intros E. destruct m as [n v|n v|n v|n v|n|v|v]; cbn [translate_to_midi2] in E; try discriminate.
    + destruct (v =? 0); discriminate.
    + destruct (existsb (Z.eqb n) reserved_controllers) eqn:X; [|discriminate].
      apply existsb_exists in X. destruct X as (c & I & Q). apply Z.eqb_eq in Q. subst c.
      exists n, v. auto.
  - intros (c & v & -> & I). cbn [translate_to_midi2].
    replace (existsb (Z.eqb c) reserved_controllers) with true; [reflexivity|].
    symmetry. apply existsb_exists. exists c. split; [assumption|apply Z.eqb_refl].
Qed.

(* ---- translation of arbitrary packets --------------------------------------------------- *)

Lemma mod7 x : Z.land x 127 = x mod 128 /\ is_u7 (Z.land x 127).
Proof. rewrite land_127. unfold is_u7. split; [reflexivity|]. apply Z.mod_pos_bound; lia. Qed.

Lemma as_midi1_any p q : wf_packet p -> as_midi1 p = Some q ->
  exists m, m1_ok m /\ q = layout1 (w0 p / 16777216 mod 16) (w0 p / 65536 mod 16) m /\
    m1_kind m = 16 * (w0 p / 1048576 mod 16) /\
    (forall n v, m = NoteOn1 n v -> 1 <= v) /\
    (forall c v, m = ControlChange1 c v -> ~ In c reserved_controllers).
Proof.
  intros W E. pose proof (packet_fields p W) as F. destruct W as (W0 & W1 & _).
  set (g := w0 p / 16777216 mod 16). set (c := w0 p / 65536 mod 16).
  assert (G : group p = g) by apply group_spec.
  assert (C : m2_channel p = c).
  { unfold m2_channel, c. rewrite status_spec, land_15. dlia. }
  assert (K : m2_status p = 16 * (w0 p / 1048576 mod 16)).
  { unfold m2_status. rewrite status_spec, land_240. dlia. }
  assert (HA : address g c) by (unfold address, g, c; split; apply Z.mod_pos_bound; lia).
  assert (B3 : is_u7 (m2_byte3 p)) by apply mod7.
  unfold as_midi1 in E. rewrite G, C in E. rewrite <- K. clear K F. clearbody g c.
  set (b3 := m2_byte3 p) in *. clearbody b3. unfold m2_data in E.
  set (d := w1 p) in *. clearbody d.
  assert (V : is_u16 (u16 (Z.shiftr d 16))) by (unfold is_u16, u16; apply Z.mod_pos_bound; lia).
  destruct (Z.eqb_spec (m2_status p) st_note_off) as [K|_].
  { destruct (_ =? 0); [|discriminate]. apply (f_equal (fun o => match o with Some x => x | None => q end)) in E.
    cbv beta iota in E. rewrite mk1_note_off in E by assumption. subst q. rewrite K.
    eexists. split; [|split; [reflexivity|split; [reflexivity|split; intros; discriminate]]].
    cbn [m1_ok]. split; [assumption|now apply vel7]. }
  destruct (Z.eqb_spec (m2_status p) st_note_on) as [K|_].
  { destruct (_ =? 0); [|discriminate]. apply (f_equal (fun o => match o with Some x => x | None => q end)) in E.
    cbv beta iota in E. rewrite K.
    set (v := u16 (Z.shiftr d 16)) in *. clearbody v. destruct (vel7 v V) as [E7 B7].
    rewrite E7 in E. destruct (Z.eqb_spec (v / 512) 0).
    - rewrite mk1_note_on in E; try assumption; [|vm_compute; split; congruence]. subst q.
      eexists. split; [|split; [reflexivity|split; [reflexivity|split; [|intros; discriminate]]]].
      + cbn [m1_ok]. split; [assumption|vm_compute; split; congruence].
      + intros n0 v0 Q. assert (v0 = velocity_of_uint7 1 / 512) by congruence. subst. vm_compute. congruence.
    - rewrite mk1_note_on in E by assumption. subst q.
      eexists. split; [|split; [reflexivity|split; [reflexivity|split; [|intros; discriminate]]]].
      + cbn [m1_ok]. auto.
      + intros n0 v0 Q. assert (v0 = v / 512) by congruence. unfold is_u7 in *. lia. }
  destruct (Z.eqb_spec (m2_status p) st_poly_pressure) as [K|_].
  { apply (f_equal (fun o => match o with Some x => x | None => q end)) in E.
    cbv beta iota in E. rewrite mk1_poly in E by assumption. subst q. rewrite K.
    eexists. split; [|split; [reflexivity|split; [reflexivity|split; intros; discriminate]]].
    cbn [m1_ok]. split; [assumption|now apply ctl7]. }
  destruct (Z.eqb_spec (m2_status p) st_control_change) as [K|_].
  { rewrite reserved_eq in E. destruct (existsb (Z.eqb b3) reserved_controllers) eqn:R; [discriminate|].
    apply (f_equal (fun o => match o with Some x => x | None => q end)) in E.
    cbv beta iota in E. rewrite mk1_cc in E by assumption. subst q. rewrite K.
    eexists. split; [|split; [reflexivity|split; [reflexivity|split; [intros; discriminate|]]]].
    - cbn [m1_ok]. split; [assumption|now apply ctl7].
    - intros c0 v0 Q I. assert (c0 = b3) by congruence. subst c0.
      apply Bool.not_true_iff_false in R. apply R, existsb_exists. exists b3. split; [assumption|apply Z.eqb_refl]. }
  destruct (Z.eqb_spec (m2_status p) st_program_change) as [K|_].
  { destruct (_ =? 0); [|discriminate]. apply (f_equal (fun o => match o with Some x => x | None => q end)) in E.
    cbv beta iota in E. rewrite K.
    exists (ProgramChange1 (d / 16777216 mod 128)).
    split; [|split; [|split; [reflexivity|split; intros; discriminate]]].
    - cbn [m1_ok]. unfold is_u7. apply Z.mod_pos_bound; lia.
    - subst q. unfold make_midi1_program_change, make_midi1_cv.
      rewrite <- mk1_program by (try assumption; unfold is_u7; apply Z.mod_pos_bound; lia).
      unfold make_midi1_program_change, make_midi1_cv. f_equal. f_equal.
      unfold is_u32 in *. unfold u8. bitlia. }
  destruct (Z.eqb_spec (m2_status p) st_channel_pressure) as [K|_].
  { apply (f_equal (fun o => match o with Some x => x | None => q end)) in E.
    cbv beta iota in E. rewrite mk1_pressure in E by assumption. subst q. rewrite K.
    eexists. split; [|split; [reflexivity|split; [reflexivity|split; intros; discriminate]]].
    cbn [m1_ok]. now apply ctl7. }
  destruct (Z.eqb_spec (m2_status p) st_pitch_bend) as [K|_].
  { apply (f_equal (fun o => match o with Some x => x | None => q end)) in E.
    cbv beta iota in E. rewrite mk1_bend in E by assumption. subst q. rewrite K.
    eexists. split; [|split; [reflexivity|split; [reflexivity|split; intros; discriminate]]].
    cbn [m1_ok]. now apply pb14. }
  discriminate.
Qed.

Lemma to_midi1_any p q : wf_packet p -> to_midi1 p = Some q ->
  w0 p / 268435456 = 4 /\
  exists m, m1_ok m /\ q = layout1 (w0 p / 16777216 mod 16) (w0 p / 65536 mod 16) m /\
    m1_kind m = 16 * (w0 p / 1048576 mod 16) /\
    (forall n v, m = NoteOn1 n v -> 1 <= v) /\
    (forall c v, m = ControlChange1 c v -> ~ In c reserved_controllers).
Proof.
  intros W. unfold to_midi1, as_midi2_view, is_midi2_channel_voice_message.
  rewrite type_spec by assumption. destruct (Z.eqb_spec (w0 p / 268435456) pt_midi2_channel_voice); [|discriminate].
  intros E. split; [assumption|]. now apply as_midi1_any.
Qed.

(* no fault on any packet *)

Lemma m14_range p : is_u14 (m1_get_14bit_value p).
Proof.
  unfold m1_get_14bit_value, m1_data_byte_1, m1_data_byte_2.
  pose proof (mod7 (byte3 p)) as [_ A]. pose proof (mod7 (byte4 p)) as [_ B].
  set (x := Z.land (byte3 p) 127) in *. set (y := Z.land (byte4 p) 127) in *. clearbody x y.
  unfold is_u7, is_u14, u16 in *. rewrite shiftl_mul by lia. pow2_simpl.
  rewrite (lor_add_r 7) by (pow2_simpl; dlia). rewrite Z.mod_small; lia.
Qed.

Lemma to_midi2_total p : exists o, to_midi2 p = Ok o.
Proof.
  unfold to_midi2, as_midi1_view. destruct (is_midi1_channel_voice_message p); [|eauto].
  unfold as_midi2, pitch_bend_of_uint14. rewrite mcm_14_32 by apply m14_range. cbn [bind].
  repeat match goal with
  | |- context[if ?b then _ else _] => destruct b; eauto
  end.
Qed.
