(* Lemmas for C77. *)
From Coq Require Import ZArith List Bool Lia ZifyBool ZifyNat.
From Verif Require Import Base Bits Packet PacketSpec PacketProofs Messages Sysex ByteStream Collector Types TypesSpec TypesProofs
  ChannelVoice VoiceSpec VoiceChecks VoiceProofs VoiceTranslate VoiceGetters StreamSpec StreamProofs StreamCalls Docs DocsSpec.
Import ListNotations.
Local Open Scope Z_scope.
Local Open Scope res_scope.

(* the handler in terms of message type and status *)
Lemma processor_kinds p : processor p =
  let k := Z.land (status p) 240 in
  let v c := (k =? c) && ((type p =? 2) || (type p =? 4)) in
  let w c := (type p =? 4) && (k =? c) in
  if (if v 0x90 then (type p =? 4) || negb (byte4 p =? 0) else false)
  then Ok [AllocateVoice (get_note_nr p) (get_note_velocity p) (get_note_pitch p)]
  else if (if v 0x80 then true else (type p =? 2) && (k =? 0x90) && (byte4 p =? 0))
  then Ok [ReleaseVoice (get_note_nr p) (get_note_velocity p)]
  else if v 0xA0 then Ok [VoicePressure (get_note_nr p) (get_poly_pressure_value p)]
  else if w 0x00 then Ok [VoiceController (get_note_nr p) (get_per_note_controller_index p) (get_controller_value p)]
  else if w 0x60 then Ok [VoicePitchBend (get_note_nr p) (get_per_note_pitch_bend_value p)]
  else if v 0xB0 then Ok [ChannelController (get_controller_nr p) (get_controller_value p)]
  else if v 0xE0 then r <- get_channel_pitch_bend_value p ;; Ok [ChannelPitchBend r]
  else Ok [].
Proof. reflexivity. Qed.

Lemma processor_midi1 g ch m : address g ch -> m1_ok m -> processor (layout1 g ch m) = Ok (handled1 m).
Proof.
  intros A M. pose proof (layout1_view g ch m A M) as V. pose proof (getters1 g ch m A M) as G.
  rewrite processor_kinds. cbv zeta. rewrite (v1_type _ _ _ _ _ _ V), (v1_kind _ _ _ _ _ _ V), (v1_byte4 _ _ _ _ _ _ V).
  set (p := layout1 g ch m) in *. clearbody p.
  destruct m; cbn [m1_kind m1_data snd handled1 getters1_ok] in *;
    repeat match goal with H : _ /\ _ |- _ => destruct H end; cbn [Z.eqb Pos.eqb andb orb]; try reflexivity; try congruence.
  - destruct (Z.eqb_spec vel 0) as [->|N]; cbn [negb andb].
    + congruence.
    + replace (match vel with 0 => [ReleaseVoice note 0x8000] | _ => [AllocateVoice note (min_center_max 7 16 vel) (512 * note)] end)
        with [AllocateVoice note (min_center_max 7 16 vel) (512 * note)] by (destruct vel; [lia|reflexivity|reflexivity]).
      congruence.
  - rewrite G. reflexivity.
Qed.

Lemma processor_midi2 g ch m : address g ch -> m2_ok m -> processor (layout2 g ch m) = Ok (handled2 m).
Proof.
  intros A M. pose proof (layout2_view g ch m A M) as V. pose proof (getters2 g ch m A M) as G.
  rewrite processor_kinds. cbv zeta. rewrite (v2_type _ _ _ _ _ _ _ V), (v2_kind _ _ _ _ _ _ _ V).
  destruct m; cbn [m2_kind handled2 getters2_ok] in *;
    repeat match goal with H : _ /\ _ |- _ => destruct H end; cbn [Z.eqb Pos.eqb andb orb]; try reflexivity; try congruence.
  match goal with H : get_channel_pitch_bend_value _ = _ |- _ => rewrite H end. reflexivity.
Qed.

Lemma processor_translated g ch m q : address g ch -> m1_ok m -> to_midi2 (layout1 g ch m) = Ok (Some q) ->
  processor q = processor (layout1 g ch m).
Proof.
  intros A M E. rewrite processor_midi1 by assumption. rewrite to_midi2_layout in E by assumption.
  destruct (translate_to_midi2 m) as [m2|] eqn:T; [|discriminate]. injection E as <-.
  rewrite (processor_midi2 g ch m2 A (translated_ok _ _ M T)). f_equal.
  destruct m; cbn [translate_to_midi2] in T; try (injection T as <-; reflexivity).
  - destruct (Z.eqb_spec vel 0) as [->|N]; injection T as <-; [reflexivity|]. cbn [handled2 handled1 Z.eqb].
    destruct vel; [lia|reflexivity|reflexivity].
  - destruct (existsb _ _); [discriminate|]. injection T as <-. reflexivity.
Qed.

Lemma up14_range v r : is_u16 v -> pitch_bend_of_uint14 v = Ok r -> is_u32 r.
Proof.
  intros V E. assert (L : is_u14 v).
  { unfold pitch_bend_of_uint14, upsample_14_to_32bit, shl_int in E. rewrite shiftl_mul in E by lia. change (2 ^ 18) with 262144 in E.
    destruct ((0 <=? v * 262144) && (v * 262144 <? 4294967296)) eqn:X; [|discriminate]. unfold is_u14. lia. }
  unfold pitch_bend_of_uint14 in E. rewrite mcm_14_32 in E by exact L. injection E as <-. now apply mcm_14_32_range.
Qed.

Lemma processor_any p : wf_packet p ->
  (exists l, processor p = Ok l /\ (length l <= 1)%nat /\ Forall call_ok l) \/
  (w0 p / 268435456 = 2 /\ w0 p / 1048576 mod 16 = 14 /\ 128 <= w0 p mod 256).
Proof.
  intros W. destruct (getters_in_range p W) as (R1 & R2 & R3 & R4 & R5 & R6 & R7).
  assert (IDX : is_u8 (get_per_note_controller_index p)).
  { unfold get_per_note_controller_index. rewrite byte4_spec by assumption. unfold is_u8. dlia. }
  assert (W1 : is_u32 (w1 p)) by apply W.
  pose proof (pitch_bend_defined p W) as PB. pose proof (cvs_spec p 14 W ltac:(lia)) as CV. change (16 * 14) with 0xE0 in CV.
  unfold processor.
  destruct (is_note_on_message p). { left. eexists. split; [reflexivity|]. split; [cbn; lia|]. constructor; [cbn [call_ok]; auto|constructor]. }
  destruct (is_note_off_message p). { left. eexists. split; [reflexivity|]. split; [cbn; lia|]. constructor; [cbn [call_ok]; auto|constructor]. }
  destruct (is_poly_pressure_message p). { left. eexists. split; [reflexivity|]. split; [cbn; lia|]. constructor; [cbn [call_ok]; auto|constructor]. }
  destruct (is_registered_per_note_controller_message p). { left. eexists. split; [reflexivity|]. split; [cbn; lia|]. constructor; [|constructor].
    split; [exact R1|]. split; [exact IDX|exact R5]. }
  destruct (is_per_note_pitch_bend_message p). { left. eexists. split; [reflexivity|]. split; [cbn; lia|]. constructor; [cbn [call_ok]; auto|constructor]. }
  destruct (is_control_change_message p). { left. eexists. split; [reflexivity|]. split; [cbn; lia|]. constructor; [cbn [call_ok]; auto|constructor]. }
  unfold is_channel_pitch_bend_message.
  destruct (is_channel_voice_message_with_status p 0xE0).
  2:{ left. exists []. split; [reflexivity|]. split; [cbn; lia|constructor]. }
  destruct CV as [CV _]. specialize (CV eq_refl).
  destruct (Z.ltb_spec (w0 p mod 256) 128) as [L|L].
  - destruct PB as [_ PB]. destruct PB as [v E]; [now right|]. left. rewrite E. exists [ChannelPitchBend v].
    split; [reflexivity|]. split; [cbn; lia|]. constructor; [|constructor]. cbn [call_ok].
    unfold get_channel_pitch_bend_value in E. destruct (type p =? pt_midi1_channel_voice); [|congruence].
    apply up14_range in E; [exact E|]. unfold is_u16, u16. apply Z.mod_pos_bound. lia.
  - destruct (Z.eq_dec (w0 p / 268435456) 2) as [T|T]; [right; tauto|].
    destruct PB as [_ PB]. destruct PB as [v E]; [now left|]. left. rewrite E. exists [ChannelPitchBend v].
    split; [reflexivity|]. split; [cbn; lia|]. constructor; [|constructor]. cbn [call_ok].
    unfold get_channel_pitch_bend_value in E. rewrite type_spec in E by assumption.
    replace (w0 p / 268435456 =? pt_midi1_channel_voice) with false in E by (unfold pt_midi1_channel_voice; lia). congruence.
Qed.

(* ---- MIDI 1 bytes ------------------------------------------------------------------ *)

Lemma short_type g s ds : 0 <= g < 16 -> is_u8 s -> is_u7 (nth 0 ds 0) -> is_u7 (nth 1 ds 0) ->
  type (short_packet g s ds) = (if s <? 0xF0 then 2 else 1).
Proof.
  intros G S0 D0 D1. unfold is_u8, is_u7 in *. rewrite type_spec.
  - unfold short_packet. cbn [w0]. destruct (s <? 0xF0); dlia.
  - unfold wf_packet, short_packet, is_u32. cbn [w0 w1 w2 w3]. destruct (s <? 0xF0); lia.
Qed.

Lemma nth_u7 ds i : Forall is_u7 ds -> is_u7 (nth i ds 0).
Proof.
  intros F. destruct (Nat.lt_ge_cases i (length ds)) as [L|L].
  - rewrite Forall_forall in F. apply F. now apply nth_In.
  - rewrite nth_overflow by exact L. unfold is_u7. lia.
Qed.

Lemma processor_other p : type p <> 2 -> type p <> 4 -> processor p = Ok [].
Proof.
  intros A B. rewrite processor_kinds. cbv zeta.
  replace (type p =? 2) with false by lia. replace (type p =? 4) with false by lia.
  cbn [orb andb]. rewrite !andb_false_r. reflexivity.
Qed.

Lemma sc_len_high s n : sc_len s = Some n -> 0xF0 <= s < 0xF8.
Proof.
  unfold sc_len. intros H. repeat match type of H with context[if ?c then _ else _] => destruct c eqn:? end; try discriminate; lia.
Qed.

Lemma processor_message g m : 0 <= g < 16 -> valid_message m ->
  processor (short_packet g (ms_status m) (ms_data m)) = Ok (handled m).
Proof.
  intros G [V F]. destruct m as [s ds]. cbn [ms_status ms_data] in *.
  pose proof (nth_u7 ds 0 F) as D0. pose proof (nth_u7 ds 1 F) as D1.
  destruct V as [[S0 L]|SC].
  - assert (K : exists v, voice_of (mkMsg s ds) = Some v /\ m1_ok v /\ short_packet g s ds = layout1 g (s mod 16) v).
    { unfold voice_of. cbn [ms_status ms_data].
      assert (S1 : s / 16 = 8 \/ s / 16 = 9 \/ s / 16 = 10 \/ s / 16 = 11 \/ s / 16 = 12 \/ s / 16 = 13 \/ s / 16 = 14) by dlia.
      unfold short_packet. replace (s <? 0xF0) with true by lia.
      assert (N1 : cv_len s = 1%nat -> nth 1 ds 0 = 0). { intros E. rewrite E in L. destruct ds as [|d [|]]; try discriminate. reflexivity. }
      set (d0 := nth 0 ds 0) in *. set (d1 := nth 1 ds 0) in *. clearbody d0 d1.
      repeat (destruct S1 as [S1|S1]); rewrite S1; eexists; (split; [reflexivity|]);
        unfold m1_ok, layout1, be32; cbn [m1_kind m1_data fst snd]; unfold is_u7, is_u14 in *.
      1-4: split; [lia|]; f_equal; dlia.
      - assert (d1 = 0) by (apply N1; unfold cv_len; now replace ((0xC0 <=? s) && (s <? 0xE0)) with true by dlia).
        split; [lia|]; f_equal; dlia.
      - assert (d1 = 0) by (apply N1; unfold cv_len; now replace ((0xC0 <=? s) && (s <? 0xE0)) with true by dlia).
        split; [lia|]; f_equal; dlia.
      - split; [lia|]; f_equal; dlia. }
    destruct K as (v & E & OK & ->). unfold handled. rewrite E. apply processor_midi1; [|exact OK].
    split; [exact G|]. apply Z.mod_pos_bound. lia.
  - apply sc_len_high in SC.
    assert (T : type (short_packet g s ds) = 1).
    { rewrite short_type by (try assumption; unfold is_u8; lia). now replace (s <? 0xF0) with false by lia. }
    rewrite processor_other by lia. unfold handled, voice_of. cbn [ms_status]. replace (s / 16) with 15 by dlia. reflexivity.
Qed.

Lemma processor_realtime g r : 0 <= g < 16 -> 0xF8 <= r < 256 -> processor (short_packet g r []) = Ok [].
Proof.
  intros G R. assert (T : type (short_packet g r []) = 1).
  { rewrite short_type by (cbn; unfold is_u7, is_u8; lia). now replace (r <? 0xF0) with false by lia. }
  apply processor_other; lia.
Qed.

Lemma process_app x y : process_events (x ++ y) = (r <- process_events x ;; r' <- process_events y ;; Ok (r ++ r')).
Proof.
  induction x as [|e x IH]; cbn [app process_events].
  - cbn [bind]. now destruct (process_events y).
  - destruct e as [p|s]; [|exact IH]. destruct (processor p); cbn [bind]; [|reflexivity]. rewrite IH.
    destruct (process_events x); cbn [bind]; [|reflexivity]. destruct (process_events y); cbn [bind]; [|reflexivity].
    now rewrite app_assoc.
Qed.

Lemma process_rt g a b : 0 <= g < 16 -> with_realtime g a b ->
  process_events (concat (map snd b)) = process_events (concat (map snd a)).
Proof.
  intros G. induction 1 as [|x a b _ IH|r a b R L _ IH]; [reflexivity| |]; cbn [map concat snd].
  - rewrite !process_app, IH. reflexivity.
  - rewrite process_app, IH. unfold is_rt in R. destruct (rt_defined r); cbn [process_events].
    + rewrite processor_realtime by lia. cbn [bind app]. now destruct (process_events (concat (map snd a))).
    + cbn [bind app]. now destruct (process_events (concat (map snd a))).
Qed.

Lemma renders_valid g rs ms a : renders g rs ms a -> Forall valid_message ms.
Proof. induction 1; constructor; assumption. Qed.

Lemma process_messages g ms : 0 <= g < 16 -> Forall valid_message ms ->
  process_events (map (fun m => EPacket (short_packet g (ms_status m) (ms_data m))) ms) = Ok (concat (map handled ms)).
Proof.
  intros G. induction 1 as [|m ms V _ IH]; [reflexivity|]. cbn [map process_events concat].
  rewrite processor_message by assumption. cbn [bind]. rewrite IH. reflexivity.
Qed.

Lemma process_legal g cb st ms a b : reached g cb st -> renders g None ms a -> with_realtime g a b ->
  exists st', process_bytes st (map fst b) = Ok (st', concat (map handled ms)).
Proof.
  intros R RE W. pose proof (reached_group _ _ _ R) as G.
  destruct (legal_stream_anywhere g cb st ms a b (length b) R RE W) as [st' E].
  rewrite firstn_all in E. exists st'. unfold process_bytes. rewrite E. cbn [bind fst snd].
  rewrite (process_rt g a b G W), (renders_events g None ms a RE), process_messages by (try assumption; exact (renders_valid _ _ _ _ RE)).
  reflexivity.
Qed.

Lemma sx7_type g f ds : 0 <= g < 16 -> 0 <= f < 4 -> (length ds <= 6)%nat -> Forall is_u7 ds -> type (sx7_packet g f ds) = 3.
Proof.
  intros G F L D. pose proof (nth_u7 ds 0 D) as D0. pose proof (nth_u7 ds 1 D) as D1.
  pose proof (nth_u7 ds 2 D). pose proof (nth_u7 ds 3 D). pose proof (nth_u7 ds 4 D). pose proof (nth_u7 ds 5 D).
  unfold is_u7 in *. rewrite type_spec.
  - unfold sx7_packet, be32. cbn [w0]. dlia.
  - unfold wf_packet, sx7_packet, be32, is_u32. cbn [w0 w1 w2 w3]. lia.
Qed.

Lemma process_wf (P : Z -> Prop) es : (forall g, P g -> 0 <= g < 16) -> Forall (wf_output_some P) es ->
  exists ls, Forall2 (fun p l => processor p = Ok l) (posted es) ls /\ process_events es = Ok (concat ls).
Proof.
  intros PG. induction 1 as [|e es (g & Pg & W) _ (ls & F & IH)]; [exists []; split; [constructor|reflexivity]|].
  apply PG in Pg. destruct e as [p|s]; cbn [process_events]; [|exists ls; split; assumption].
  assert (X : exists r, processor p = Ok r).
  { destruct W as [(m & V & ->)|[(r & R & _ & ->)|(f & ds & F0 & L & D & _ & ->)]].
    - eexists. now apply processor_message.
    - eexists. now apply processor_realtime.
    - exists []. pose proof (sx7_type g f ds Pg F0 L D). apply processor_other; lia. }
  destruct X as [r E]. exists (r :: ls). split.
  - change (posted (EPacket p :: es)) with (p :: posted es). constructor; assumption.
  - rewrite E. cbn [bind]. rewrite IH. reflexivity.
Qed.

Lemma process_any g cb on cs : 0 <= g < 16 -> Forall valid_call cs ->
  exists st out ls, parser_calls (new_parser g cb on) cs = Ok (st, out) /\
    Forall2 (fun p l => processor p = Ok l) (posted out) ls /\ process_events out = Ok (concat ls).
Proof.
  intros G V. destruct (calls_wf g cb on cs G V) as (st & out & E & W).
  destruct (process_wf (configured g cs) out) as (ls & F & L).
  - intros x [->|I]; [exact G|]. rewrite Forall_forall in V. exact (V _ I).
  - exact W.
  - eauto 6.
Qed.

(* ---- constructors, filters -------------------------------------------------------------- *)

Lemma processor_note_on1 g ch n v : address g ch -> is_u7 n -> is_u16 v ->
  processor (make_midi1_note_on g ch n v) = Ok (handled1 (NoteOn1 n (v / 512))).
Proof.
  intros A N V. rewrite mk1_note_on by assumption. apply processor_midi1; [exact A|].
  split; [exact N|]. now apply vel7.
Qed.
Lemma processor_note_on2 g ch n v : address g ch -> is_u7 n -> is_u16 v ->
  processor (make_midi2_note_on g ch n v) = Ok [AllocateVoice n v (512 * n)].
Proof.
  intros A N V. rewrite mk2_note_on by assumption. rewrite processor_midi2; [reflexivity|exact A|].
  repeat split; try apply N; try apply V; unfold is_u8; lia.
Qed.

Lemma filter7 a c p : filtered7 a c p = c7_feed a c p.
Proof. unfold filtered7, c7_feed. now destruct (is_sysex7_packet p). Qed.
Lemma filter8 a c p : filtered8 a c p = c8_feed a c p.
Proof. unfold filtered8, c8_feed. now destruct (is_sysex8_packet p). Qed.
