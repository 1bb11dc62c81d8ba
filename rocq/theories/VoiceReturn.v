(* Lemmas for C67. *)
From Coq Require Import ZArith List Bool Lia ZifyBool.
From Verif Require Import Base Bits Packet PacketSpec PacketProofs Types ChannelVoice VoiceSpec VoiceChecks
  VoiceProofs VoiceTranslate VoiceReturnSpec.
Import ListNotations.
Local Open Scope Z_scope.

(* scaling down and up again *)
Lemma mcm_back x y v : 2 < x -> x < y -> 0 <= v < 2 ^ y -> rounded x y v (min_center_max x y (v / 2 ^ (y - x))).
Proof.
  intros X Y V. unfold rounded, min_center_max.
  assert (K : 0 < 2 ^ (y - x)) by (apply Z.pow_pos_nonneg; lia).
  assert (C2 : 2 ^ x = 2 * 2 ^ (x - 1)) by (rewrite <- Z.pow_succ_r by lia; f_equal; lia).
  assert (C4 : 4 <= 2 ^ (x - 1)) by (change 4 with (2 ^ 2); apply Z.pow_le_mono_r; lia).
  assert (Y1 : 2 ^ y = 2 ^ (y - x) * (2 * 2 ^ (x - 1))) by (rewrite <- C2, <- Z.pow_add_r by lia; f_equal; lia).
  assert (Y2 : 2 ^ (y - 1) = 2 ^ (y - x) * 2 ^ (x - 1)) by (rewrite <- Z.pow_add_r by lia; f_equal; lia).
  rewrite Y1, Y2 in *. clear Y1 Y2 C2.
  generalize dependent (2 ^ (y - x)). intros k V K. generalize dependent (2 ^ (x - 1)). intros c V C.
  pose proof (Z.div_mod v k ltac:(lia)) as D. pose proof (Z.mod_pos_bound v k K) as M.
  assert (W : 0 <= v / k < 2 * c).
  { split; [apply Z.div_pos; lia|]. apply Z.div_lt_upper_bound; lia. }
  set (w := v / k) in *. set (r := v mod k) in *. clearbody w r.
  destruct (Z.leb_spec w c) as [L|L].
  - split; [nia|]. intros [E | [E | E]]; [nia| |].
    + assert (w = c) by nia. nia.
    + exfalso. nia.
  - assert (E : w mod c = w - c).
    { symmetry. apply (Z.mod_unique_pos w c 1); lia. }
    rewrite E. destruct (Z.eqb_spec (w - c) (c - 1)) as [G|G].
    + assert (w = 2 * c - 1) by lia. subst w. split; [nia|]. intros [H | [H | H]]; nia.
    + assert (Q : 0 <= (w - c) * k / (c - 1) < k).
      { split; [apply Z.div_pos; nia|]. apply Z.div_lt_upper_bound; nia. }
      set (q := (w - c) * k / (c - 1)) in *. clearbody q.
      split; [nia|]. intros [H | [H | H]]; exfalso; nia.
Qed.

Lemma back_16 v : is_u16 v -> rounded 7 16 v (min_center_max 7 16 (v / 512)).
Proof. intros H. unfold is_u16 in H. apply (mcm_back 7 16 v); [lia|lia|]. change (2 ^ 16) with 65536. lia. Qed.
Lemma back_32 v : is_u32 v -> rounded 7 32 v (min_center_max 7 32 (v / 33554432)).
Proof. intros H. unfold is_u32 in H. apply (mcm_back 7 32 v); [lia|lia|]. change (2 ^ 32) with 4294967296. lia. Qed.
Lemma back_bend v : is_u32 v -> rounded 14 32 v (min_center_max 14 32 (v / 262144)).
Proof. intros H. unfold is_u32 in H. apply (mcm_back 14 32 v); [lia|lia|]. change (2 ^ 32) with 4294967296. lia. Qed.

(* on the level of message contents *)
Lemma return_ok m m1 : m2_ok m -> attribute_7bit m -> translate_to_midi1 m = Some m1 ->
  m1_ok m1 /\ exists m', translate_to_midi2 m1 = Some m' /\ comes_back m m' /\ translate_to_midi1 m' = Some m1.
Proof.
  intros W A T.
  assert (V16 : forall v, is_u16 v -> is_u7 (v / 512)) by (intros v H; apply vel7, H).
  assert (V32 : forall v, is_u32 v -> is_u7 (v / 33554432)) by (intros v H; apply ctl7, H).
  assert (V14 : forall v, is_u32 v -> is_u14 (v / 262144)) by (intros v H; apply pb14, H).
  assert (B : forall m1, m1_ok m1 -> (forall n, m1 <> NoteOn1 n 0) -> forall m', translate_to_midi2 m1 = Some m' ->
    translate_to_midi1 m' = Some m1).
  { intros a O N b E. destruct (translate_back a b O E) as (E1 & _). rewrite E1. clear E1. destruct a as [| n v | | | | |]; try reflexivity.
    cbn. destruct v; try reflexivity. now destruct (N n). }
  destruct m; cbn [translate_to_midi1] in T; try discriminate; cbn [m2_ok] in W.
  - (* note off *) destruct attribute; try discriminate. injection T as <-. destruct W as (N & V & _).
    assert (O : m1_ok (NoteOff1 note (vel / 512))) by (split; auto).
    split; [exact O|]. eexists. split; [reflexivity|]. split; [|apply (B _ O); [discriminate|reflexivity]].
    eexists. split; [reflexivity|]. now apply back_16.
  - (* note on *) destruct attribute; try discriminate. injection T as <-. destruct W as (N & V & _).
    assert (P : is_u7 (Z.max 1 (vel / 512)) /\ 1 <= Z.max 1 (vel / 512)).
    { pose proof (V16 _ V) as U. unfold is_u7 in *. lia. }
    assert (O : m1_ok (NoteOn1 note (Z.max 1 (vel / 512)))) by (split; tauto).
    assert (T2 : translate_to_midi2 (NoteOn1 note (Z.max 1 (vel / 512))) =
      Some (NoteOn2 note (min_center_max 7 16 (Z.max 1 (vel / 512))) 0 0)).
    { cbn [translate_to_midi2]. destruct (Z.eqb_spec (Z.max 1 (vel / 512)) 0); [lia|reflexivity]. }
    split; [exact O|]. eexists. split; [exact T2|]. split; [|apply (B _ O); [|exact T2]].
    + eexists. split; [reflexivity|]. split; intros L.
      * assert (1 <= vel / 512) by (apply Z.div_le_lower_bound; lia).
        replace (Z.max 1 (vel / 512)) with (vel / 512) by lia. now apply back_16.
      * unfold is_u16 in V. replace (vel / 512) with 0 by (symmetry; apply Z.div_small; lia). reflexivity.
    + intros n E. injection E as _ E. lia.
  - destruct W as (N & V). injection T as <-. assert (O : m1_ok (PolyPressure1 note (v / 33554432))) by (split; auto).
    split; [exact O|]. eexists. split; [reflexivity|]. split; [|apply (B _ O); [discriminate|reflexivity]].
    eexists. split; [reflexivity|]. now apply back_32.
  - destruct W as (N & V). destruct (existsb (Z.eqb controller) reserved_controllers) eqn:R; [discriminate|]. injection T as <-.
    assert (O : m1_ok (ControlChange1 controller (v / 33554432))) by (split; auto).
    assert (T2 : translate_to_midi2 (ControlChange1 controller (v / 33554432)) =
      Some (ControlChange2 controller (min_center_max 7 32 (v / 33554432)))).
    { cbn [translate_to_midi2]. now rewrite R. }
    split; [exact O|]. eexists. split; [exact T2|]. split; [|apply (B _ O); [discriminate|exact T2]].
    eexists. split; [reflexivity|]. now apply back_32.
  - destruct bank; [discriminate|]. injection T as <-. assert (O : m1_ok (ProgramChange1 program)) by (cbn; tauto).
    split; [exact O|]. eexists. split; [reflexivity|]. split; reflexivity.
  - injection T as <-. assert (O : m1_ok (ChannelPressure1 (v / 33554432))) by (cbn; auto).
    split; [exact O|]. eexists. split; [reflexivity|]. split; [|apply (B _ O); [discriminate|reflexivity]].
    eexists. split; [reflexivity|]. now apply back_32.
  - injection T as <-. assert (O : m1_ok (PitchBend1 (v / 262144))) by (cbn; auto).
    split; [exact O|]. eexists. split; [reflexivity|]. split; [|apply (B _ O); [discriminate|reflexivity]].
    eexists. split; [reflexivity|]. now apply back_bend.
Qed.

Lemma there_and_back g ch m q : address g ch -> m2_ok m -> attribute_7bit m -> to_midi1 (layout2 g ch m) = Some q ->
  exists m', to_midi2 q = Ok (Some (layout2 g ch m')) /\ m2_ok m' /\ comes_back m m' /\
    to_midi1 (layout2 g ch m') = Some q.
Proof.
  intros A W T E. rewrite to_midi1_layout in E by assumption.
  destruct (translate_to_midi1 m) as [m1|] eqn:M; [|discriminate]. injection E as <-.
  destruct (return_ok m m1 W T M) as (O & m' & T2 & C & T1).
  assert (O' : m2_ok m') by (apply (translated_ok m1 m' O T2)).
  destruct (translate_back m1 m' O T2) as (_ & A7).
  exists m'. rewrite to_midi2_layout, T2 by assumption. repeat split; try assumption.
  rewrite to_midi1_layout, T1 by assumption. reflexivity.
Qed.

(* any packet that translates: a second pass changes nothing *)
Lemma second_pass p q : wf_packet p -> to_midi1 p = Some q ->
  exists r, to_midi2 q = Ok (Some r) /\ to_midi1 r = Some q /\ w0 r / 65536 = w0 p / 65536.
Proof.
  intros W E. destruct (to_midi1_any p q W E) as (T & m & O & -> & K & N & R).
  set (g := w0 p / 16777216 mod 16) in *. set (ch := w0 p / 65536 mod 16) in *.
  assert (A : address g ch) by (unfold address, g, ch; split; apply Z.mod_pos_bound; lia).
  assert (S2 : exists m', translate_to_midi2 m = Some m' /\ m2_kind m' = m1_kind m).
  { destruct m as [n v|n v|n v|n v|n|v|v]; cbn [translate_to_midi2]; eauto.
    - specialize (N n v eq_refl). destruct (Z.eqb_spec v 0); [lia|eauto].
    - destruct (existsb (Z.eqb n) reserved_controllers) eqn:X; [|eauto].
      apply existsb_exists in X. destruct X as (y & I & Y). apply Z.eqb_eq in Y. subst y. now destruct (R n v eq_refl). }
  destruct S2 as (m' & T2 & K2).
  assert (E2 : to_midi2 (layout1 g ch m) = Ok (Some (layout2 g ch m'))) by (rewrite to_midi2_layout, T2 by assumption; reflexivity).
  exists (layout2 g ch m'). split; [exact E2|]. split.
  - rewrite (round_trip g ch m _ A O E2). do 2 f_equal. destruct m as [n v|n v|n v|n v|n|v|v]; try reflexivity.
    cbn. specialize (N n v eq_refl). destruct v; [lia|reflexivity|reflexivity].
  - pose proof (translated_ok m m' O T2) as O2. pose proof (m2_fields_ok m' O2) as (F1 & F2 & _).
    unfold layout2, be32. cbn [w0]. rewrite K2, K. destruct A as (G & C). destruct W as (W0 & _).
    unfold is_u8, is_u32 in *. clear - F1 F2 G C T W0. subst g ch.
    set (x := fst (fst (m2_fields m'))) in *. set (y := snd (fst (m2_fields m'))) in *. clearbody x y.
    set (w := w0 p) in *. clearbody w. dlia.
Qed.

Lemma order_kept g ch a b : address g ch -> m2_ok a -> m2_ok b -> attribute_7bit a -> attribute_7bit b -> not_above a b ->
  forall p q, to_midi1 (layout2 g ch a) = Some p -> to_midi1 (layout2 g ch b) = Some q ->
  exists x y, p = layout1 g ch x /\ q = layout1 g ch y /\ m1_ok x /\ m1_ok y /\ not_above1 x y.
Proof.
  intros A Wa Wb Ta Tb L p q E F. rewrite to_midi1_layout in E, F by assumption.
  destruct (translate_to_midi1 a) as [x|] eqn:X; [|discriminate]. destruct (translate_to_midi1 b) as [y|] eqn:Y; [|discriminate].
  injection E as <-. injection F as <-. exists x, y.
  destruct (return_ok a x Wa Ta X) as (Ox & _). destruct (return_ok b y Wb Tb Y) as (Oy & _).
  repeat split; try assumption. clear Ox Oy Wa Wb Ta Tb A.
  assert (D : forall k u v, 0 < k -> u <= v -> u / k <= v / k) by (intros; apply Z.div_le_mono; lia).
  destruct a, b; cbn in L; try contradiction; cbn [translate_to_midi1] in X, Y;
    repeat match goal with
    | H : context[match ?z with Z0 => _ | _ => _ end] |- _ => destruct z; try discriminate
    | H : context[if ?z then _ else _] |- _ => destruct z; try discriminate
    end; injection X as <-; injection Y as <-; cbn; try (destruct L as (-> & L)); try split; try reflexivity;
    try (apply D; lia).
  apply Z.max_le_compat_l, D; lia.
Qed.
