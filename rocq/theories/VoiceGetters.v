(* Proofs about message classification and the getters. *)
From Coq Require Import ZArith List Bool Lia.
From Verif Require Import Base Bits Packet PacketSpec PacketProofs Messages Types TypesSpec TypesProofs
  ChannelVoice VoiceSpec VoiceChecks VoiceProofs VoiceTranslate.
Import ListNotations.
Local Open Scope Z_scope.

(* ---- classification ------------------------------------------------------------- *)

Lemma cvs_spec p st : wf_packet p -> 0 <= st < 16 ->
  (is_channel_voice_message_with_status p (16 * st) = true <->
   (w0 p / 268435456 = 2 \/ w0 p / 268435456 = 4) /\ w0 p / 1048576 mod 16 = st).
Proof.
  intros W Hs. unfold is_channel_voice_message_with_status, is_channel_voice_message.
  rewrite type_spec, status_spec, land_240 by assumption.
  unfold pt_midi1_channel_voice, pt_midi2_channel_voice.
  rewrite andb_true_iff, orb_true_iff, !Z.eqb_eq.
  replace (w0 p / 65536 mod 256 / 16 mod 16) with (w0 p / 1048576 mod 16) by dlia.
  split; intros [A B]; (split; [|]); try tauto; lia.
Qed.

Lemma note_on_spec p : wf_packet p ->
  (is_note_on_message p = true <->
   w0 p / 1048576 mod 16 = 9 /\
   ((w0 p / 268435456 = 2 /\ w0 p mod 256 <> 0) \/ w0 p / 268435456 = 4)).
Proof.
  intros W. unfold is_note_on_message.
  pose proof (cvs_spec p 9 W ltac:(lia)) as S. change (16 * 9) with 0x90 in S.
  rewrite type_spec, byte4_spec by assumption.
  destruct (is_channel_voice_message_with_status p 0x90).
  - rewrite orb_true_iff, negb_true_iff, Z.eqb_eq, Z.eqb_neq. unfold pt_midi2_channel_voice.
    destruct S as [S _]. specialize (S eq_refl). split; [|lia].
    intros H. split; [tauto|]. destruct S as [[S|S] _]; [left|right]; [|assumption].
    split; [assumption|]. lia.
  - split; [discriminate|]. intros [A B]. apply S. split; [|assumption]. tauto.
Qed.

Lemma note_off_spec p : wf_packet p ->
  (is_note_off_message p = true <->
   (w0 p / 1048576 mod 16 = 8 /\ (w0 p / 268435456 = 2 \/ w0 p / 268435456 = 4)) \/
   (w0 p / 1048576 mod 16 = 9 /\ w0 p / 268435456 = 2 /\ w0 p mod 256 = 0)).
Proof.
  intros W. unfold is_note_off_message.
  pose proof (cvs_spec p 8 W ltac:(lia)) as S. change (16 * 8) with 0x80 in S.
  rewrite type_spec, byte4_spec, status_spec, land_240 by assumption.
  replace (w0 p / 65536 mod 256 / 16 mod 16) with (w0 p / 1048576 mod 16) by dlia.
  destruct (is_channel_voice_message_with_status p 0x80).
  - destruct S as [S _]. specialize (S eq_refl). split; [|reflexivity]. intros _. left. tauto.
  - rewrite !andb_true_iff, !Z.eqb_eq. unfold pt_midi1_channel_voice.
    split.
    + intros. right. lia.
    + intros [[A B]|H]; [|lia]. exfalso. assert (false = true) by (apply S; tauto). discriminate.
Qed.

Fixpoint count_true (l : list bool) : nat :=
  match l with [] => O | b :: r => ((if b then 1 else 0) + count_true r)%nat end.

Lemma count_filter (p : packet) l : length (filter (fun f => f p) l) = count_true (map (fun f => f p) l).
Proof. induction l as [|f l IH]; cbn; [reflexivity|]. destruct (f p); cbn; lia. Qed.

Lemma eqb_case k c (P : bool -> Prop) : (k = c -> P true) -> (k <> c -> P false) -> P (k =? c).
Proof. intros. destruct (Z.eqb_spec k c); auto. Qed.

Lemma kinds_of p : map (fun f => f p) kind_predicates =
  let v k := (Z.land (status p) 240 =? k) && ((type p =? 2) || (type p =? 4)) in
  let w k := (type p =? 4) && (Z.land (status p) 240 =? k) in
  [(if v 0x90 then (type p =? 4) || negb (byte4 p =? 0) else false);
   (if v 0x80 then true else (type p =? 2) && (Z.land (status p) 240 =? 0x90) && (byte4 p =? 0));
   v 0xA0; v 0xB0; v 0xC0; v 0xD0; v 0xE0; w 0x20; w 0x30; w 0x00; w 0x10; w 0x60].
Proof.
  unfold kind_predicates, is_note_on_message, is_note_off_message, is_poly_pressure_message,
    is_control_change_message, is_program_change_message, is_channel_pressure_message,
    is_channel_pitch_bend_message, is_registered_controller_message, is_assignable_controller_message,
    is_registered_per_note_controller_message, is_assignable_per_note_controller_message,
    is_per_note_pitch_bend_message, has_m2_status, is_channel_voice_message_with_status,
    is_channel_voice_message, is_midi2_channel_voice_message.
  cbv zeta. cbn [map]. unfold pt_midi1_channel_voice, pt_midi2_channel_voice, st_registered_controller,
    st_assignable_controller, st_registered_per_note_controller, st_assignable_per_note_controller,
    st_per_note_pitch_bend. reflexivity.
Qed.

Lemma at_most_one p : (length (filter (fun f => f p) kind_predicates) <= 1)%nat.
Proof.
  rewrite count_filter, kinds_of. cbv zeta.
  set (k := Z.land (status p) 240). clearbody k.
  set (t := type p). clearbody t. set (b := byte4 p =? 0). clearbody b. clear p.
  assert (D : k = 0x80 \/ k = 0x90 \/ k = 0xA0 \/ k = 0xB0 \/ k = 0xC0 \/ k = 0xD0 \/ k = 0xE0 \/
              k = 0x20 \/ k = 0x30 \/ k = 0 \/ k = 0x10 \/ k = 0x60 \/
    (k <> 0x80 /\ k <> 0x90 /\ k <> 0xA0 /\ k <> 0xB0 /\ k <> 0xC0 /\ k <> 0xD0 /\ k <> 0xE0 /\
              k <> 0x20 /\ k <> 0x30 /\ k <> 0 /\ k <> 0x10 /\ k <> 0x60)) by lia.
  assert (T : (t =? 2) = true /\ (t =? 4) = false \/ (t =? 2) = false).
  { destruct (Z.eqb_spec t 2) as [->|]; auto. }
  repeat (destruct D as [->|D]); cbn [Z.eqb Pos.eqb andb];
    try (destruct T as [[-> ->]| ->]; destruct (t =? 4), b; cbn; lia);
    try (destruct T as [[-> ->]| ->]; destruct b; cbn; lia).
  destruct D as (D1 & D2 & D3 & D4 & D5 & D6 & D7 & D8 & D9 & D10 & D11 & D12).
  apply Z.eqb_neq in D1, D2, D3, D4, D5, D6, D7, D8, D9, D10, D11, D12.
  rewrite D1, D2, D3, D4, D5, D6, D7, D8, D9, D10, D11, D12. cbn [andb].
  rewrite !andb_false_r. cbn. lia.
Qed.

(* a MIDI 1 channel voice packet with a channel voice status is of exactly one kind *)
Lemma exactly_one p : type p = 2 -> 0x80 <= status p < 0xF0 ->
  length (filter (fun f => f p) kind_predicates) = 1%nat.
Proof.
  intros T S. rewrite count_filter, kinds_of. cbv zeta. rewrite T.
  set (b := byte4 p =? 0). clearbody b.
  assert (K : exists j, Z.land (status p) 240 = 16 * j /\ 8 <= j < 15).
  { exists (status p / 16). rewrite land_240. dlia. }
  destruct K as (j & -> & J).
  assert (D : j = 8 \/ j = 9 \/ j = 10 \/ j = 11 \/ j = 12 \/ j = 13 \/ j = 14) by lia.
  destruct D as [->|[->|[->|[->|[->|[->| ->]]]]]]; destruct b; reflexivity.
Qed.

(* ---- getters on MIDI 1 messages --------------------------------------------------- *)

Lemma u8_small x : is_u7 x -> u8 (Z.land x 127) = x.
Proof. apply u8_7. Qed.

Lemma note_pitch_7_9 n : is_u7 n -> pitch_7_9_of_note n = 512 * n.
Proof. unfold is_u7, pitch_7_9_of_note, u16. intros. bitnorm. dlia. Qed.

Lemma getters1 g ch m : address g ch -> m1_ok m -> getters1_ok (layout1 g ch m) m.
Proof.
  intros HA Hm. pose proof (layout1_view g ch m HA Hm) as [T G S K C B3 B4].
  destruct m as [n v|n v|n v|n v|n|v|v];
    cbn [getters1_ok m1_ok m1_kind m1_data fst snd] in *;
    unfold get_note_nr, get_note_pitch, get_note_velocity, get_poly_pressure_value,
      get_controller_nr, get_controller_value, get_program_value, get_channel_pressure_value,
      get_channel_pitch_bend_value, get_note_nr; rewrite ?T, ?K, ?B3, ?B4;
    cbn [Z.eqb Pos.eqb andb pt_midi1_channel_voice pt_midi2_channel_voice].
  - destruct Hm as [Hn Hv]. rewrite !u8_small by assumption.
    split; [reflexivity|]. split; [apply note_pitch_7_9; assumption|]. now apply mcm_7_16.
  - destruct Hm as [Hn Hv]. rewrite !u8_small by assumption.
    split; [reflexivity|]. split; [apply note_pitch_7_9; assumption|].
    destruct (v =? 0); [reflexivity|now apply mcm_7_16].
  - destruct Hm as [Hn Hv]. rewrite !u8_small by assumption. split; [reflexivity|now apply mcm_7_32].
  - destruct Hm as [Hn Hv]. rewrite !u8_small by assumption. split; [reflexivity|now apply mcm_7_32].
  - now apply u8_small.
  - rewrite u8_small by assumption. now apply mcm_7_32.
  - rewrite join14 by assumption. now apply mcm_14_32.
Qed.

(* ---- getters on MIDI 2 messages ----------------------------------------------------- *)

Lemma land_fffc0000 v : is_u32 v -> Z.land v 0xFFFC0000 = v / 262144 * 262144.
Proof.
  unfold is_u32. intros H. change 0xFFFC0000 with (Z.shiftl (Z.ones 14) 18).
  rewrite land_field by lia. pow2_simpl. dlia.
Qed.

Lemma s32_mod v : is_s32 v -> s32 (v mod 4294967296) = v.
Proof.
  intros H. rewrite <- (s32_id v H) at 2. unfold s32. now rewrite Z.mod_mod by lia.
Qed.

Lemma adata v d : is_u16 v -> is_u16 d -> u16 (Z.land (v * 65536 + d) 65535) = d.
Proof. unfold is_u16, u16. intros. bitlia. Qed.

Lemma getters2 g ch m : address g ch -> m2_ok m -> getters2_ok (layout2 g ch m) m.
Proof.
  intros HA Hm. pose proof (layout2_view g ch m HA Hm) as [T G S K C B3 B4 D].
  destruct m as [n i v|n i v|b i v|b i v|b i v|b i v|n v|n v a d|n v a d|n v|n v|n bk|v|v|n f];
    cbn [getters2_ok m2_ok m2_kind m2_fields fst snd] in *;
    unfold get_note_nr, get_note_pitch, get_note_velocity, get_poly_pressure_value,
      get_controller_nr, get_controller_value, get_program_value, get_channel_pressure_value,
      get_channel_pitch_bend_value, get_note_nr, get_per_note_controller_index, m2_byte3, m2_byte4,
      m2_data, is_registered_per_note_controller_pitch_message, get_per_note_controller_index,
      is_pitch_bend_sensitivity_message, is_per_note_pitch_bend_sensitivity_message,
      get_pitch_bend_sensitivity_value, get_per_note_pitch_bend_sensitivity_value,
      get_per_note_pitch_bend_value, is_registered_per_note_controller_message,
      is_assignable_per_note_controller_message, is_registered_controller_message,
      is_assignable_controller_message, is_per_note_pitch_bend_message, is_note_on_with_pitch_7_9,
      is_note_on_with_attribute, is_note_off_with_attribute, get_midi2_note_attribute,
      get_midi2_note_attribute_data, is_note_on_message, is_note_off_message, is_poly_pressure_message,
      is_control_change_message, is_program_change_message, is_channel_pressure_message,
      is_channel_pitch_bend_message, is_channel_voice_message_with_status, is_channel_voice_message,
      has_m2_status, is_midi2_channel_voice_message, get_note_nr;
    rewrite ?T, ?K, ?B3, ?B4, ?D;
    cbn [Z.eqb Pos.eqb andb orb pt_midi1_channel_voice pt_midi2_channel_voice
         st_registered_per_note_controller st_assignable_per_note_controller st_registered_controller
         st_assignable_controller st_per_note_pitch_bend st_note_off st_note_on].
  - destruct Hm as (Hn & Hi & Hv). rewrite u8_small by assumption. auto.
  - destruct Hm as (Hn & Hi & Hv). rewrite u8_small by assumption. auto.
  - destruct Hm as (Hn & Hi & Hv). rewrite !land127, land_fffc0000 by assumption. auto 10.
  - destruct Hm as (Hn & Hi & Hv). rewrite !land127 by assumption. auto.
  - destruct Hm as (Hn & Hi & Hv). rewrite !land127, s32_mod by assumption. auto.
  - destruct Hm as (Hn & Hi & Hv). rewrite !land127, s32_mod by assumption. auto.
  - destruct Hm as (Hn & Hv). rewrite u8_small by assumption. auto.
  - destruct Hm as (Hn & Hv & Ha & Hd). rewrite u8_small, note_vel, adata by assumption.
    repeat (split; [reflexivity|]). intros x. rewrite Z.eqb_eq. split; congruence.
  - destruct Hm as (Hn & Hv & Ha & Hd). rewrite u8_small, note_vel, adata by assumption.
    repeat (split; [reflexivity|]). split; [intros x; rewrite Z.eqb_eq; split; congruence|].
    split; [reflexivity|]. destruct (a =? 3); [reflexivity|]. apply note_pitch_7_9; assumption.
  - destruct Hm as (Hn & Hv). rewrite u8_small by assumption. auto.
  - destruct Hm as (Hn & Hv). rewrite u8_small by assumption. auto.
  - destruct Hm as (Hn & Hb). destruct bk as [bk|]; cbn [fst snd] in *.
    + unfold is_u7, is_u14 in *. split; [|split; reflexivity]. unfold u8. bitlia.
    + unfold is_u7, is_u14 in *. split; [|split; reflexivity]. unfold u8. bitlia.
  - auto.
  - auto.
  - destruct Hm as (Hn & Hf). rewrite u8_small by assumption. auto.
Qed.

(* ---- agreement across translation ----------------------------------------------------- *)

Lemma translation_agrees g ch m q : address g ch -> m1_ok m ->
  to_midi2 (layout1 g ch m) = Ok (Some q) -> getters_agree (layout1 g ch m) q m.
Proof.
  intros HA Hm E. rewrite to_midi2_layout in E by assumption.
  destruct (translate_to_midi2 m) as [m2|] eqn:T; [|discriminate].
  cbn [option_map] in E. assert (q = layout2 g ch m2) by congruence. subst q. clear E.
  pose proof (translated_ok m m2 Hm T) as Hm2.
  pose proof (getters1 g ch m HA Hm) as G1. pose proof (getters2 g ch m2 HA Hm2) as G2.
  pose proof (layout2_view g ch m2 HA Hm2) as V2.
  destruct m as [n v|n v|n v|n v|n|v|v]; cbn [translate_to_midi2] in T;
    cbn [getters1_ok getters_agree] in *.
  - destruct G1 as (A & B & C). injection T as <-. cbn [getters2_ok] in G2. destruct G2 as (A2 & C2 & _).
    rewrite A, A2, B, C, C2. repeat split. unfold get_note_pitch. rewrite A2.
    destruct V2 as [VT _ _ VK _ _ _ _]. rewrite VT, VK. cbn [m2_kind Z.eqb Pos.eqb andb].
    symmetry. rewrite andb_false_r. apply note_pitch_7_9. cbn [m1_ok] in Hm. tauto.
  - destruct G1 as (A & B & C). destruct (Z.eqb_spec v 0) as [->|N].
    + injection T as <-. cbn [getters2_ok] in G2. destruct G2 as (A2 & C2 & _).
      rewrite A, A2, B, C, C2. repeat split. unfold get_note_pitch. rewrite A2.
      destruct V2 as [VT _ _ VK _ _ _ _]. rewrite VT, VK. cbn [m2_kind Z.eqb Pos.eqb andb].
      symmetry. rewrite andb_false_r. apply note_pitch_7_9. cbn [m1_ok] in Hm. tauto.
    + injection T as <-. cbn [getters2_ok] in G2. destruct G2 as (A2 & C2 & _ & _ & _ & _ & _ & P2).
      rewrite A, A2, B, C, C2, P2. repeat split.
  - destruct G1 as (A & B). injection T as <-. cbn [getters2_ok] in G2. destruct G2 as (A2 & B2 & _).
    split; congruence.
  - destruct G1 as (A & B). destruct (existsb _ _); [discriminate|]. injection T as <-.
    cbn [getters2_ok] in G2. destruct G2 as (A2 & B2 & _). split; congruence.
  - injection T as <-. cbn [getters2_ok] in G2. destruct G2 as (A2 & _). congruence.
  - injection T as <-. cbn [getters2_ok] in G2. destruct G2 as (A2 & _). congruence.
  - injection T as <-. cbn [getters2_ok] in G2. destruct G2 as (A2 & _). congruence.
Qed.

Lemma predicates_agree g ch m q : address g ch -> m1_ok m ->
  to_midi2 (layout1 g ch m) = Ok (Some q) ->
  forall f, In f agnostic_predicates -> f (layout1 g ch m) = f q.
Proof.
  intros HA Hm E. rewrite to_midi2_layout in E by assumption.
  destruct (translate_to_midi2 m) as [m2|] eqn:T; [|discriminate].
  cbn [option_map] in E. assert (q = layout2 g ch m2) by congruence. subst q. clear E.
  pose proof (translated_ok m m2 Hm T) as Hm2.
  pose proof (layout1_view g ch m HA Hm) as [T1 _ _ K1 _ _ B1 ].
  pose proof (layout2_view g ch m2 HA Hm2) as [T2 _ _ K2 _ _ _ _].
  assert (K : forall st, is_channel_voice_message_with_status (layout1 g ch m) st = (m1_kind m =? st)).
  { intros. unfold is_channel_voice_message_with_status, is_channel_voice_message.
    rewrite T1, K1. cbn [Z.eqb Pos.eqb orb pt_midi1_channel_voice]. apply andb_true_r. }
  assert (K' : forall st, is_channel_voice_message_with_status (layout2 g ch m2) st = (m2_kind m2 =? st)).
  { intros. unfold is_channel_voice_message_with_status, is_channel_voice_message.
    rewrite T2, K2. cbn [Z.eqb Pos.eqb orb pt_midi1_channel_voice pt_midi2_channel_voice]. apply andb_true_r. }
  intros f Hf. unfold agnostic_predicates in Hf.
  assert (D : (m2_kind m2 = m1_kind m /\ (m1_kind m = 0x90 -> snd (m1_data m) <> 0)) \/
              (m1_kind m = 0x90 /\ snd (m1_data m) = 0 /\ m2_kind m2 = 0x80)).
  { destruct m as [n v|n v|n v|n v|n|v|v]; cbn [translate_to_midi2] in T.
    2:{ cbn [m1_kind m1_data snd]. destruct (Z.eqb_spec v 0) as [->|N]; injection T as <-; cbn [m2_kind]; auto. }
    3:{ destruct (existsb _ _); [discriminate|]. injection T as <-. left. split; [reflexivity|discriminate]. }
    all: injection T as <-; left; split; [reflexivity|discriminate]. }
  cbn [In] in Hf.
  destruct Hf as [<-|[<-|[<-|[<-|[<-|[<-|[<-|[]]]]]]]];
    unfold is_note_on_message, is_note_off_message, is_poly_pressure_message, is_control_change_message,
      is_program_change_message, is_channel_pressure_message, is_channel_pitch_bend_message;
    rewrite ?K, ?K', ?T1, ?T2, ?K1, ?K2, ?B1;
    cbn [Z.eqb Pos.eqb orb andb pt_midi1_channel_voice pt_midi2_channel_voice];
    destruct D as [[-> D]|(-> & D & ->)]; try reflexivity.
  - destruct (Z.eqb_spec (m1_kind m) 0x90) as [X|X]; [|reflexivity].
    specialize (D X). destruct (Z.eqb_spec (snd (m1_data m)) 0); [contradiction|reflexivity].
  - rewrite D. reflexivity.
  - destruct (Z.eqb_spec (m1_kind m) 0x80) as [X|X]; [reflexivity|].
    destruct (Z.eqb_spec (m1_kind m) 0x90) as [Y|Y]; [|reflexivity].
    specialize (D Y). destruct (Z.eqb_spec (snd (m1_data m)) 0); [contradiction|reflexivity].
  - rewrite D. reflexivity.
Qed.

(* ---- defined behaviour ------------------------------------------------------------------ *)

Lemma pitch_bend_defined p : wf_packet p ->
  ((exists v, get_channel_pitch_bend_value p = Ok v) <->
   (w0 p / 268435456 <> 2 \/ w0 p mod 256 < 128)).
Proof.
  intros W. unfold get_channel_pitch_bend_value. rewrite type_spec by assumption.
  rewrite byte3_spec, byte4_spec.
  destruct (Z.eqb_spec (w0 p / 268435456) pt_midi1_channel_voice) as [T|T];
    unfold pt_midi1_channel_voice in T.
  2:{ split; [intros _; left; assumption|intros _; eauto]. }
  set (a := w0 p / 256 mod 256). set (b := w0 p mod 256).
  assert (Ha : 0 <= a < 256) by (apply Z.mod_pos_bound; lia).
  assert (Hb : 0 <= b < 256) by (apply Z.mod_pos_bound; lia). clearbody a b.
  assert (B : 0 <= Z.lor a (Z.shiftl b 7) < 2 ^ 15).
  { rewrite shiftl_mul by lia. pow2_simpl. apply (lor_bound 15); pow2_simpl; lia. }
  pow2_simpl. change (2 ^ 15) with 32768 in B.
  assert (C : b < 128 <-> Z.lor a (Z.shiftl b 7) < 16384).
  { split; intros H.
    - rewrite shiftl_mul by lia. pow2_simpl. pose proof (lor_bound 14 a (b * 128)). pow2_simpl.
      change (2 ^ 14) with 16384 in *. lia.
    - destruct (Z_lt_le_dec b 128) as [|L]; [assumption|exfalso].
      assert (T14 : Z.testbit (Z.lor a (Z.shiftl b 7)) 14 = true).
      { rewrite Z.lor_spec, Z.shiftl_spec by lia. apply orb_true_iff. right.
        change (14 - 7) with 7. rewrite Z.testbit_true by lia. change (2 ^ 7) with 128.
        assert (b / 128 = 1) by dlia. rewrite H0. reflexivity. }
      rewrite Z.testbit_true in T14 by lia. change (2 ^ 14) with 16384 in T14.
      rewrite Z.div_small in T14 by lia. discriminate. }
  unfold u16. rewrite Z.mod_small by lia. set (v := Z.lor a (Z.shiftl b 7)) in *. clearbody v.
  rewrite T. unfold pitch_bend_of_uint14. split.
  - intros (r & E). right. apply C. destruct (Z_lt_le_dec v 16384) as [|L]; [assumption|exfalso].
    unfold upsample_14_to_32bit, shl_int in E. rewrite shiftl_mul in E by lia.
    change (2 ^ 18) with 262144 in E.
    destruct ((0 <=? v * 262144) && (v * 262144 <? 4294967296)) eqn:X; [|discriminate].
    apply andb_true_iff in X. rewrite Z.leb_le, Z.ltb_lt in X. lia.
  - intros [X|X]; [lia|]. apply C in X. rewrite mcm_14_32 by (unfold is_u14; lia). eauto.
Qed.

(* the other getters have no undefined operations; their results stay in range *)
Lemma getters_in_range p : wf_packet p ->
  is_u7 (get_note_nr p) /\ is_u16 (get_note_pitch p) /\ is_u16 (get_note_velocity p) /\
  is_u7 (get_controller_nr p) /\ is_u32 (get_controller_value p) /\
  is_u32 (get_channel_pressure_value p) /\ is_u8 (get_program_value p).
Proof.
  intros W.
  assert (N : forall x, is_u7 (u8 (Z.land x 127))).
  { intros x. rewrite land_127. unfold u8, is_u7. dlia. }
  assert (U16 : forall x, is_u16 (u16 x)) by (intros; unfold u16, is_u16; apply Z.mod_pos_bound; lia).
  assert (W1 : is_u32 (w1 p)) by apply W.
  assert (V : forall x, is_u16 (velocity_of_uint7 (u8 (Z.land x 127)))).
  { intros. unfold velocity_of_uint7. rewrite mcm_7_16 by apply N. apply mcm_7_16_range, N. }
  assert (C : forall x, is_u32 (controller_of_uint7 (u8 (Z.land x 127)))).
  { intros. unfold controller_of_uint7. rewrite mcm_7_32 by apply N. apply mcm_7_32_range, N. }
  unfold get_note_nr, get_note_pitch, get_note_velocity, get_controller_nr, get_controller_value,
    get_channel_pressure_value, get_program_value.
  repeat split; try apply N;
    repeat match goal with
    | |- context[if ?b then _ else _] => destruct b
    end; try apply U16; try apply V; try apply C; try apply W1; try (apply u7_u8, N);
    try (vm_compute; congruence).
Qed.

(* ---- views -------------------------------------------------------------------------------- *)

Lemma midi1_view_ok g ch m : address g ch -> m1_ok m ->
  let p := layout1 g ch m in
  as_midi1_view p = Some p /\ as_midi2_view p = None /\ group p = g /\ m1_channel p = ch /\
  m1_status p = m1_kind m /\ m1_data_byte_1 p = fst (m1_data m) /\ m1_data_byte_2 p = snd (m1_data m) /\
  (forall v, m = PitchBend1 v -> m1_get_14bit_value p = v).
Proof.
  intros HA Hm p. pose proof (layout1_view g ch m HA Hm) as [T G S K C B3 B4].
  pose proof (m1_data_ok m Hm) as [D1 D2]. fold p in T, G, S, K, C, B3, B4.
  assert (E1 : m1_data_byte_1 p = fst (m1_data m)) by (unfold m1_data_byte_1; rewrite B3; now apply land127).
  assert (E2 : m1_data_byte_2 p = snd (m1_data m)) by (unfold m1_data_byte_2; rewrite B4; now apply land127).
  unfold as_midi1_view, as_midi2_view, is_midi1_channel_voice_message, is_midi2_channel_voice_message.
  rewrite T. repeat split; try assumption.
  intros v ->. unfold m1_get_14bit_value. rewrite E1, E2. cbn [m1_data fst snd]. now apply join14.
Qed.

Lemma midi2_view_ok g ch m : address g ch -> m2_ok m ->
  let p := layout2 g ch m in
  as_midi2_view p = Some p /\ as_midi1_view p = None /\ group p = g /\ m2_channel p = ch /\
  m2_status p = m2_kind m /\ m2_data p = snd (m2_fields m).
Proof.
  intros HA Hm p. pose proof (layout2_view g ch m HA Hm) as [T G S K C B3 B4 D].
  fold p in T, G, S, K, C, B3, B4, D.
  unfold as_midi1_view, as_midi2_view, is_midi1_channel_voice_message, is_midi2_channel_voice_message.
  rewrite T. repeat split; try assumption.
Qed.
