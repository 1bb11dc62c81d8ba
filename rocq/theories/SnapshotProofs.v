(* Lemmas for C97. *)
From Coq Require Import ZArith List Bool Lia ZifyBool ZifyNat.
From Verif Require Import Base Bits Packet PacketSpec PacketProofs Messages Types ChannelVoice VoiceSpec VoiceChecks VoiceProofs VoiceGetters
  Sysex UniversalSysex SysexSpec SysexProofs StreamSpec StreamProofs SendProofs Collector CollectSpec CollectLemmas CollectProofs CollectCalls
  CapInq CapSpec CapProofs CapWire CapCalls CapMake CapRead CiNetSpec CiNetProofs Profiles ProfilesSpec ProfilesProofs
  ManySpec ManyProofs Snapshot SnapshotSpec.
Import ListNotations.
Local Open Scope Z_scope.
Local Open Scope res_scope.

(* ---- settings as packets --------------------------------------------------------------------- *)

Definition m2_of (x : setting) : m2msg :=
  match x with
  | PitchBendIs v => PitchBend2 v
  | ControllerIs n v => ControlChange2 n v
  | RegisteredIs b i v => RegisteredCtrl b i v
  | AssignableIs b i v => AssignableCtrl b i v
  | ProgramIs n => ProgramChange2 n None
  | PressureIs v => ChannelPressure2 v
  | NoteIs n v => NoteOn2 n v 0 0
  | NotePressureIs n v => PolyPressure2 n v
  | NoteBendIs n v => PerNotePitchBend n v
  | NoteRegisteredIs n i v => RegisteredPerNote n i v
  | NoteAssignableIs n i v => AssignablePerNote n i v
  end.
Lemma setting_m2 g x : 0 <= g < 16 -> setting_ok x ->
  address g (fst x) /\ m2_ok (m2_of (snd x)) /\ setting_packet g x = layout2 g (fst x) (m2_of (snd x)).
Proof.
  intros G (C & O). destruct x as [ch x]. cbn [fst snd] in *. assert (A : address g ch) by (split; assumption). split; [exact A|].
  unfold setting_packet. cbn [fst snd]. destruct x; cbn [m2_of m2_ok]; (split; [try tauto; unfold is_u7, is_u8, is_u16 in *; lia|]).
  - now apply mk2_bend.
  - now apply mk2_cc.
  - now apply mk2_rc.
  - now apply mk2_ac.
  - now apply mk2_program.
  - now apply mk2_pressure.
  - now apply mk2_note_on.
  - now apply mk2_poly.
  - now apply mk2_pnpb.
  - now apply mk2_rpn.
  - now apply mk2_apn.
Qed.
Lemma setting_read g x : 0 <= g < 16 -> setting_ok x ->
  wf_packet (setting_packet g x) /\ type (setting_packet g x) = 4 /\ group (setting_packet g x) = g /\
  read_setting (setting_packet g x) = Ok (Some x).
Proof.
  intros G O. destruct (setting_m2 g x G O) as (A & M & ->). split; [now apply layout2_wf|].
  pose proof (layout2_view g _ _ A M) as V. split; [apply (v2_type _ _ _ _ _ _ _ V)|]. split; [apply (v2_group _ _ _ _ _ _ _ V)|].
  pose proof (getters2 g _ _ A M) as GT. destruct x as [ch x]. cbn [fst snd] in *.
  unfold read_setting, as_midi2_view, is_midi2_channel_voice_message, is_channel_pitch_bend_message, is_control_change_message,
    is_registered_controller_message, is_assignable_controller_message, is_program_change_message, is_channel_pressure_message,
    is_note_on_message, is_poly_pressure_message, is_per_note_pitch_bend_message, is_registered_per_note_controller_message,
    is_assignable_per_note_controller_message, has_m2_status, is_channel_voice_message_with_status, is_channel_voice_message,
    is_midi2_channel_voice_message,
    st_registered_controller, st_assignable_controller, st_per_note_pitch_bend, st_registered_per_note_controller, st_assignable_per_note_controller.
  rewrite (v2_type _ _ _ _ _ _ _ V), (v2_kind _ _ _ _ _ _ _ V). unfold pt_midi1_channel_voice, pt_midi2_channel_voice.
  change (4 =? 4) with true. cbv iota beta zeta. unfold m2_channel, m2_data.
  rewrite (v2_channel _ _ _ _ _ _ _ V), (v2_data _ _ _ _ _ _ _ V).
  destruct x; cbn [m2_of m2_kind m2_fields fst snd getters2_ok] in *;
    repeat match goal with H : _ /\ _ |- _ => destruct H end; cbn [Z.eqb Pos.eqb andb orb];
    try congruence.
  match goal with H : get_channel_pitch_bend_value _ = _ |- _ => rewrite H end. reflexivity.
Qed.

Lemma read_total p : exists y, read_setting p = Ok y.
Proof.
  unfold read_setting, as_midi2_view, is_midi2_channel_voice_message. destruct (type p =? pt_midi2_channel_voice) eqn:T; [|eexists; reflexivity].
  unfold get_channel_pitch_bend_value, pt_midi1_channel_voice, pt_midi2_channel_voice in *. replace (type p =? 2) with false by lia. cbn [bind].
  repeat match goal with |- context[if ?b then _ else _] => destruct b; [eexists; reflexivity|] end. eexists; reflexivity.
Qed.
Lemma read_other p : type p <> 4 -> read_setting p = Ok None.
Proof.
  intros T. unfold read_setting, as_midi2_view, is_midi2_channel_voice_message, pt_midi2_channel_voice.
  now replace (type p =? 4) with false by lia.
Qed.

(* ---- messages ---------------------------------------------------------------------------------- *)

Lemma note_total dbg me device o s : Forall is_u8 (sx_data s) -> exists o' rs, note_message dbg me device o s = Ok (o', rs).
Proof.
  intros U. unfold note_message. destruct (for_me_total me s) as (f & F). rewrite F. cbn [bind]. destruct f as [src|]; [|eexists _, _; reflexivity].
  destruct (negb (src =? device)); [eexists _, _; reflexivity|].
  destruct (validate_total KReportReply s eq_refl) as (b & V).
  change report_reply_validate with (validate_of KReportReply). rewrite (as_view_ok dbg _ s _ U V). cbn [bind]. destruct b.
  { destruct (accepted_safe dbg KReportReply s V) as [((d & R1) & _) RA]. cbn [accessors] in RA.
    destruct RA as (_ & (c & R2) & (n & R3)). rewrite R1, R2, R3. cbn [bind]. eexists _, _; reflexivity. }
  unfold for_me in F. rewrite is_ci_eq in F. cbn [bind] in F. destruct (is_ci s) eqn:C; [|discriminate].
  pose proof (is_ci_size s C). unfold view_subtype. replace (2 <? size (sx_data s)) with true by lia. rewrite (at_nth _ _ 0) by lia. cbn [bind]. destruct (nth 2 (sx_data s) 0 =? 0x44); eexists _, _; reflexivity.
Qed.
Lemma notes_total dbg me device ss : Forall (fun s => Forall is_u8 (sx_data s)) ss ->
  forall o, exists o' rs, note_messages dbg me device o ss = Ok (o', rs).
Proof.
  induction 1 as [|s ss U _ IH]; intros o; [eexists _, _; reflexivity|]. cbn [note_messages].
  destruct (note_total dbg me device o s U) as (o1 & r1 & ->). cbn [bind fst snd]. destruct (IH o1) as (o2 & r2 & ->).
  eexists _, _; reflexivity.
Qed.
Lemma notes_app dbg me device ss ss' : forall o o1 r1, note_messages dbg me device o ss = Ok (o1, r1) ->
  note_messages dbg me device o (ss ++ ss') = (x <- note_messages dbg me device o1 ss' ;; Ok (fst x, r1 ++ snd x)).
Proof.
  induction ss as [|s ss IH]; intros o o1 r1 E; cbn [note_messages app] in *.
  - injection E as <- <-. destruct (note_messages dbg me device o ss') as [[]|]; reflexivity.
  - destruct (note_message dbg me device o s) as [[o2 r2]|]; cbn [bind fst snd] in *; [|discriminate].
    destruct (note_messages dbg me device o2 ss) as [[o3 r3]|] eqn:E3; cbn [bind fst snd] in *; [|discriminate].
    injection E as <- <-. rewrite (IH _ _ _ E3). destruct (note_messages dbg me device o3 ss') as [[]|]; cbn [bind fst snd]; [|reflexivity].
    now rewrite app_assoc.
Qed.

Lemma notes_prefix dbg me device ss ss' : forall o x, note_messages dbg me device o (ss ++ ss') = Ok x ->
  exists y, note_messages dbg me device o ss = Ok y.
Proof.
  induction ss as [|s ss IH]; intros o x E; cbn [note_messages app] in *; [eexists; reflexivity|].
  destruct (note_message dbg me device o s) as [[o2 r2]|]; cbn [bind fst snd] in *; [|discriminate].
  destruct (note_messages dbg me device o2 (ss ++ ss')) as [x2|] eqn:E2; [|discriminate].
  destruct (IH _ _ E2) as (y & ->). eexists; reflexivity.
Qed.

Lemma note_foreign dbg me device o s : all7 (sx_data s) -> from device s = false -> note_message dbg me device o s = Ok (o, []).
Proof.
  intros A F. unfold note_message. rewrite (proj1 (for_me_eq me s A)). cbn [bind].
  change (from device s) with (is_ci s && (muid_at 4 s =? device)) in F.
  destruct (is_ci s); cbn [andb] in *; [|reflexivity].
  destruct (negb (muid_at 4 s =? me) && _); [|reflexivity]. rewrite F. reflexivity.
Qed.

Lemma reply_in_range device c n dev : muid_ok device -> is_u7 c -> is_u7 n -> is_u7 dev -> in_range (CReportReply device 0 c n dev).
Proof. intros. pranges. Qed.
Lemma end_in_range device dev : muid_ok device -> is_u7 dev -> in_range (CReportEnd device dev).
Proof. intros. pranges. Qed.
Lemma inquiry_in_range me device dc sys c n dev : muid_ok me -> muid_ok device -> is_u7 dc -> is_u7 sys -> is_u7 c -> is_u7 n -> is_u7 dev ->
  in_range (CReportInquiry me device dc sys c n dev).
Proof. intros. pranges. Qed.

Lemma note_reply dbg me device o c n dev : muid_ok me -> muid_ok device -> me <> device -> is_u7 c -> is_u7 n -> is_u7 dev ->
  note_message dbg me device o (wire_of (CReportReply device 0 c n dev)) = Ok (Some (mkRep dev c n []), []).
Proof.
  intros M N X C1 N1 D. pose proof (reply_in_range device c n dev N C1 N1 D) as R.
  destruct (round_trip_ok dbg _ R I) as (s & B & E & H & A & F). subst s. pose proof (wire_seven _ R) as S7.
  pose proof (for_me_wire me _ R) as FM. cbn [header_of] in FM. specialize (FM H).
  unfold note_message. rewrite FM; [|lia|right; reflexivity]. cbn [bind]. rewrite Z.eqb_refl. cbn [negb].
  pose proof (view_of dbg KReportReply _ _ S7 A) as W. change report_reply_validate with (validate_of KReportReply). rewrite W. cbn [kinds_of existsb kind_eqb orb bind].
  unfold header_fields in H. cbn [header_of] in H. destruct H as (_ & _ & _ & H4 & _).
  cbn [fields_of] in F. destruct F as (_ & F2 & F3). rewrite H4, F2, F3. reflexivity.
Qed.
Lemma note_end dbg me device o dev : muid_ok me -> muid_ok device -> me <> device -> is_u7 dev ->
  note_message dbg me device o (wire_of (CReportEnd device dev)) = Ok (None, match o with Some x => [x] | None => [] end).
Proof.
  intros M N X D. pose proof (end_in_range device dev N D) as R.
  destruct (round_trip_ok dbg _ R I) as (s & B & E & H & A & F). subst s. pose proof (wire_seven _ R) as S7.
  pose proof (for_me_wire me _ R) as FM. cbn [header_of] in FM. specialize (FM H).
  unfold note_message. rewrite FM; [|lia|right; reflexivity]. cbn [bind]. rewrite Z.eqb_refl. cbn [negb].
  pose proof (view_of dbg KReportReply _ _ S7 A) as W. change report_reply_validate with (validate_of KReportReply). rewrite W. cbn [kinds_of existsb bind].
  unfold header_fields in H. cbn [header_of] in H. destruct H as (_ & _ & _ & _ & _ & H5 & _). rewrite H5. reflexivity.
Qed.

(* ---- the recorder --------------------------------------------------------------------------------- *)

Section Recorder.
  Variables (a : allocator) (dbg : bool) (me device g : Z).
  Hypotheses (A : std_alloc a) (M : muid_ok me) (N : muid_ok device) (X : me <> device) (G : 0 <= g < 16).

  Notation step := (record_packet a dbg me device g).
  Notation run := (record_packets a dbg me device g).

  (* collected bytes are bytes *)
  Definition good (r : recorder) : Prop :=
    exists st, inv7 0 true st (re_collector r) /\ a_clean st /\ Forall is_u8 (a_bytes st).

  Lemma new_good : good new_recorder.
  Proof.
    exists a_idle. split; [|split; [apply idle_clean|constructor]].
    pose proof (inv7_new a 0 true (limit_std a A)) as I. exact I.
  Qed.

  Lemma run_app ps qs : forall r r1 o1, run r ps = Ok (r1, o1) ->
    run r (ps ++ qs) = (x <- run r1 qs ;; Ok (fst x, o1 ++ snd x)).
  Proof.
    induction ps as [|p ps IH]; intros r r1 o1 E; cbn [record_packets app] in *.
    - injection E as <- <-. destruct (run r qs) as [[]|]; reflexivity.
    - destruct (step r p) as [[r2 o2]|]; cbn [bind fst snd] in *; [|discriminate].
      destruct (run r2 ps) as [[r3 o3]|] eqn:E3; cbn [bind fst snd] in *; [|discriminate].
      injection E as <- <-. rewrite (IH _ _ _ E3). destruct (run r3 qs) as [[]|]; cbn [bind fst snd]; [|reflexivity].
      now rewrite app_assoc.
  Qed.

  Lemma counts_iff p : wf_packet p -> counts g p = ((type p =? 3) || (type p =? 4)) && (group p =? g).
  Proof.
    intros W. destruct (packet_fields p W) as (E & T & GR & _). unfold counts. cbv zeta.
    assert (B : nth 0 (bytes p) 0 = type p * 16 + group p).
    { rewrite (type_byte p W), group_spec. destruct W as (W0 & _). unfold bytes, word_bytes, is_u32 in *. cbn [nth app]. dlia. }
    rewrite B. lia.
  Qed.
  Lemma skipped r p : wf_packet p -> counts g p = false -> step r p = Ok (r, []).
  Proof.
    intros W C. rewrite counts_iff in C by exact W. unfold record_packet. destruct (Z.eqb_spec (group p) g); cbn [negb]; [|reflexivity].
    unfold pt_data. replace (type p =? 3) with false by lia. rewrite read_other by lia. cbn [bind]. now destruct (re_open r).
  Qed.
  Lemma run_filter ps : Forall wf_packet ps -> forall r, run r ps = run r (filter (counts g) ps).
  Proof.
    induction 1 as [|p ps W _ IH]; intros r; [reflexivity|]. cbn [filter record_packets]. destruct (counts g p) eqn:C.
    - cbn [record_packets]. destruct (step r p) as [[r1 o1]|]; cbn [bind fst snd]; [|reflexivity]. now rewrite IH.
    - rewrite skipped by assumption. cbn [bind fst snd]. rewrite IH. destruct (run r (filter (counts g) ps)) as [[]|]; reflexivity.
  Qed.

  Lemma decode_bytes l : Forall is_u8 l -> Forall is_u8 (sx_data (decode7 l)).
  Proof.
    intros U. destruct U as [|m r _ U]; [constructor|]. cbn [decode7]. destruct (m =? 0); [|exact U].
    destruct U as [|x r _ U]; [constructor|]. destruct U as [|y r _ U]; [constructor|]. exact U.
  Qed.
  Lemma content_bytes p x : wf_packet p -> content7 p = Some x -> Forall is_u8 (ct_payload x).
  Proof.
    intros W. unfold content7. cbv zeta. destruct (_ && _ && _); [|discriminate]. intros E. apply some_eq in E. subst x. cbn [ct_payload].
    pose proof (bytes_range p) as U. rewrite <- (firstn_skipn 2 (bytes p)) in U. apply Forall_app in U. destruct U as [_ U].
    rewrite <- (firstn_skipn (Z.to_nat (nth 1 (bytes p) 0 mod 16)) (skipn 2 (bytes p))) in U. now apply Forall_app in U.
  Qed.

  (* a packet that may be anything *)
  Lemma step_any r p : good r -> wf_packet p -> exists r' o, step r p = Ok (r', o) /\ good r'.
  Proof.
    intros (st & I & CL & U) W. unfold record_packet. destruct (group p =? g); cbn [negb].
    2:{ exists r, []. split; [reflexivity|]. now exists st. }
    destruct (type p =? pt_data).
    - destruct (content7 p) as [x|] eqn:C.
      + destruct (feed7_step a 0 true st _ p x (limit_std a A) I W C) as (c' & E & I'). rewrite E. cbn [bind fst snd].
        pose proof (content_bytes p x W C) as UX.
        assert (P : Forall is_u8 (a_bytes (fst (a_step decode7 0 st x))) /\
                    Forall (fun s => Forall is_u8 (sx_data s)) (map fst (snd (a_step decode7 0 st x)))).
        { unfold a_step. cbv zeta. destruct (negb (ct_format x <? 2) && negb (a_open st)); [split; constructor|].
          destruct (negb (ct_format x <? 2) && negb (ct_stream x =? a_stream st)); [split; [exact U|constructor]|].
          assert (UB : Forall is_u8 (if (ct_format x <? 2) && a_open st then [] else a_bytes st)) by (destruct (_ && _); [constructor|exact U]).
          set (base := if (ct_format x <? 2) && a_open st then [] else a_bytes st) in *. clearbody base.
          cbn [Z.ltb Z.compare andb].
          assert (UA : Forall is_u8 (base ++ ct_payload x)) by (apply Forall_app; now split).
          destruct (_ || _); cbn [fst snd a_bytes map]; [|split; [exact UA|constructor]].
          split; [constructor|]. constructor; [|constructor]. now apply decode_bytes. }
        destruct P as [P1 P2].
        destruct (notes_total dbg me device _ P2 (re_open r)) as (o & rs & ->).
        cbn [bind fst snd]. eexists _, _. split; [reflexivity|].
        eexists. split; [exact I'|]. split; [now apply a_step_clean|exact P1].
      + rewrite feed7_skip by assumption. cbn [bind fst snd note_messages]. eexists _, _. split; [reflexivity|]. now exists st.
    - destruct (re_open r) as [x|]; [|exists r, []; split; [reflexivity|now exists st]].
      destruct (read_total p) as (y & ->). cbn [bind]. eexists _, _. split; [reflexivity|].
      destruct y; [exists st; now cbn [re_collector]|now exists st].
  Qed.
  Lemma run_any ps : Forall wf_packet ps -> forall r, good r -> exists r' o, run r ps = Ok (r', o) /\ good r'.
  Proof.
    induction 1 as [|p ps W _ IH]; intros r GR; [exists r, []; split; [reflexivity|exact GR]|]. cbn [record_packets].
    destruct (step_any r p GR W) as (r1 & o1 & E1 & G1). rewrite E1. cbn [bind fst snd].
    destruct (IH r1 G1) as (r2 & o2 & E2 & G2). rewrite E2. cbn [bind fst snd]. eauto.
  Qed.

  (* SysEx7 packets of the group go to the collector *)
  Lemma run_data ps : Forall (fun p => wf_packet p /\ nth 0 (bytes p) 0 = 3 * 16 + g) ps -> forall r c ss,
    c7_calls a (re_collector r) (map KFeed ps) = Ok (c, ss) ->
    forall o rs, note_messages dbg me device (re_open r) ss = Ok (o, rs) -> run r ps = Ok (mkRecorder c o, rs).
  Proof.
    induction 1 as [|p ps [W H] _ IH]; intros r c ss E o rs NM; cbn [map c7_calls record_packets] in *.
    - injection E as <- <-. cbn [note_messages] in NM. injection NM as <- <-. now destruct r.
    - pose proof (counts_iff p W) as CI. unfold counts in CI. cbv zeta in CI. rewrite H, Z.eqb_refl in CI. cbn [orb] in CI.
      assert (T : type p = 3) by (rewrite (type_byte p W), H; dlia).
      unfold record_packet. replace (group p =? g) with true by lia. cbn [negb]. unfold pt_data. rewrite T. cbn [Z.eqb Pos.eqb].
      cbn [c7_call] in E. destruct (c7_feed a (re_collector r) p) as [[c1 s1]|]; cbn [bind fst snd] in *; [|discriminate].
      destruct (c7_calls a c1 (map KFeed ps)) as [[c2 s2]|] eqn:E2; cbn [bind] in *; [|discriminate]. injection E as <- <-.
      destruct (note_messages dbg me device (re_open r) s1) as [[o1 r1]|] eqn:N1.
      + rewrite (notes_app _ _ _ _ _ _ _ _ N1) in NM.
        destruct (note_messages dbg me device o1 s2) as [[o2 r2]|] eqn:N2; cbn [bind fst snd] in NM; [|discriminate]. injection NM as <- <-.
        cbn [bind fst snd]. rewrite (IH (mkRecorder c1 o1) _ _ E2 _ _ N2). reflexivity.
      + destruct (notes_prefix _ _ _ _ _ _ _ NM) as (x & Q). rewrite N1 in Q. discriminate Q.
  Qed.

  (* a whole SysEx7 message *)
  Lemma run_message r s qs o rs : good r -> sendable7 s -> send_sysex7 s g = Ok qs ->
    note_message dbg me device (re_open r) s = Ok (o, rs) ->
    exists r', run r qs = Ok (r', rs) /\ good r' /\ re_open r' = o /\ Forall wf_packet qs.
  Proof.
    intros (st & I & CL & U) S E NM.
    destruct (sender7 g [s] qs G) as (W & css & NE & CT & D).
    { constructor; [exact S|constructor]. }
    { exists [qs]. split; [constructor; [exact E|constructor]|]. cbn [concat]. now rewrite app_nil_r. }
    assert (WF : Forall wf_packet qs) by (eapply Forall_impl; [|exact W]; now intros p (P & _)).
    destruct css as [|cs [|cs2 css]]; try discriminate D. cbn [map] in D.
    assert (DS : decode7 (concat cs) = s) by congruence.
    cbn [map concat] in CT. rewrite app_nil_r in CT. apply Forall_inv in NE.
    destruct (feeds7 a 0 true st _ qs (limit_std a A) I WF) as (c' & EC & I').
    rewrite CT, message_fits in EC, I' by auto. cbn [fst snd map] in EC, I'. rewrite DS in EC.
    exists (mkRecorder c' o). split.
    - apply (run_data qs W r c' [s] EC). cbn [note_messages]. rewrite NM. cbn [bind fst snd]. now rewrite app_nil_r.
    - split; [|split; [reflexivity|exact WF]]. eexists. split; [exact I'|]. split; [apply idle_clean|constructor].
  Qed.

  (* a value while a report is recorded *)
  Lemma run_setting r x y : good r -> setting_ok y -> re_open r = Some x ->
    exists r', run r [setting_packet g y] = Ok (r', []) /\ good r' /\
      re_open r' = Some (mkRep (rp_dev x) (rp_controller x) (rp_note x) (rp_said x ++ [y])).
  Proof.
    intros GR O OP. destruct (setting_read g y G O) as (W & T & GP & RD). cbn [record_packets]. unfold record_packet.
    rewrite GP, Z.eqb_refl, T, OP, RD. cbn [negb bind]. unfold pt_data. cbn [Z.eqb Pos.eqb bind fst snd app].
    eexists. split; [reflexivity|]. split; [|reflexivity]. destruct GR as (st & GR). exists st. exact GR.
  Qed.

  Lemma foreign_run r qs : good r -> foreign device g qs ->
    exists r', run r qs = Ok (r', []) /\ good r' /\ re_open r' = re_open r.
  Proof.
    intros GR (s & S & F & E).
    destruct (run_message r s qs (re_open r) [] GR S E) as (r' & R & G' & O & _).
    { apply note_foreign; [|exact F]. destruct S as (_ & _ & S). exact S. }
    eauto.
  Qed.

  (* after the reply: values, then the end, with foreign messages between *)
  Lemma after_reply ep e : sendable7 e -> send_sysex7 e g = Ok ep ->
    (forall o, note_message dbg me device o e = Ok (None, match o with Some x => [x] | None => [] end)) ->
    forall us said r x, Forall setting_ok said -> good r -> re_open r = Some x ->
    mixed device g (map (fun y => [setting_packet g y]) said ++ [ep]) us ->
    exists r', run r (concat (map snd us)) =
      Ok (r', [mkRep (rp_dev x) (rp_controller x) (rp_note x) (rp_said x ++ said)]) /\ good r' /\ re_open r' = None.
  Proof.
    intros SE EE NE. induction us as [|[own qs] us IH]; intros said r x OK GR OP [MX F].
    - destruct said; discriminate MX.
    - apply Forall_cons_iff in F. destruct F as [F1 F]. cbn [map snd concat fst] in *. destruct own.
      + cbn [filter fst map snd] in MX. destruct said as [|y said]; cbn [map app] in MX.
        * assert (qs = ep) as -> by congruence. assert (MX' : map snd (filter fst us) = []) by congruence.
          destruct (run_message r e ep None [x] GR SE EE) as (r1 & R1 & G1 & O1 & _); [rewrite NE, OP; reflexivity|].
          assert (K : forall r, good r -> re_open r = None -> exists r', run r (concat (map snd us)) = Ok (r', []) /\ good r' /\ re_open r' = None).
          { clear - F MX' A M N X G. induction us as [|[own qs] us IH]; intros r GR O; [exists r; repeat split; assumption|].
            apply Forall_cons_iff in F. destruct F as [F1 F]. destruct own; [discriminate MX'|]. cbn [filter fst] in MX'.
            destruct F1 as [F1|F1]; [discriminate F1|]. cbn [snd map concat] in *.
            destruct (foreign_run r qs GR F1) as (r1 & R1 & G1 & O1). rewrite (run_app _ _ _ _ _ R1).
            destruct (IH F MX' r1 G1 ltac:(congruence)) as (r2 & -> & G2 & O2). cbn [bind fst snd app]. eauto. }
          rewrite (run_app _ _ _ _ _ R1). destruct (K r1 G1 O1) as (r2 & -> & G2 & O2). cbn [bind fst snd].
          rewrite !app_nil_r. exists r2. split; [destruct x; reflexivity|]. split; assumption.
        * assert (qs = [setting_packet g y]) as -> by congruence.
          assert (MX' : map snd (filter fst us) = map (fun y => [setting_packet g y]) said ++ [ep]) by congruence.
          apply Forall_cons_iff in OK. destruct OK as [O1 OK].
          destruct (run_setting r x y GR O1 OP) as (r1 & R1 & G1 & P1). rewrite (run_app _ _ _ _ _ R1).
          destruct (IH said r1 _ OK G1 P1 (conj MX' F)) as (r2 & -> & G2 & O2). cbn [bind fst snd app rp_dev rp_controller rp_note rp_said].
          rewrite <- app_assoc. cbn [app]. eauto.
      + cbn [filter fst] in MX. destruct F1 as [F1|F1]; [discriminate F1|].
        destruct (foreign_run r qs GR F1) as (r1 & R1 & G1 & O1). rewrite (run_app _ _ _ _ _ R1).
        destruct (IH said r1 x OK G1 ltac:(congruence) (conj MX F)) as (r2 & -> & G2 & O2). cbn [bind fst snd app]. eauto.
  Qed.
  Lemma whole_report rp rm ep e x0 : sendable7 rm -> send_sysex7 rm g = Ok rp -> sendable7 e -> send_sysex7 e g = Ok ep ->
    (forall o, note_message dbg me device o rm = Ok (Some x0, [])) ->
    (forall o, note_message dbg me device o e = Ok (None, match o with Some x => [x] | None => [] end)) ->
    forall us said r, Forall setting_ok said -> good r ->
    mixed device g (rp :: map (fun y => [setting_packet g y]) said ++ [ep]) us ->
    exists r', run r (concat (map snd us)) =
      Ok (r', [mkRep (rp_dev x0) (rp_controller x0) (rp_note x0) (rp_said x0 ++ said)]) /\ good r' /\ re_open r' = None.
  Proof.
    intros SR ER SE EE NR NE. induction us as [|[own qs] us IH]; intros said r OK GR [MX F].
    - discriminate MX.
    - apply Forall_cons_iff in F. destruct F as [F1 F]. cbn [map snd concat fst] in *. destruct own.
      + cbn [filter fst map snd] in MX. assert (qs = rp) as -> by congruence.
        assert (MX' : map snd (filter fst us) = map (fun y => [setting_packet g y]) said ++ [ep]) by congruence.
        destruct (run_message r rm rp (Some x0) [] GR SR ER (NR _)) as (r1 & R1 & G1 & O1 & _).
        rewrite (run_app _ _ _ _ _ R1).
        destruct (after_reply ep e SE EE NE us said r1 x0 OK G1 O1 (conj MX' F)) as (r2 & -> & G2 & O2). cbn [bind fst snd app]. eauto.
      + cbn [filter fst] in MX. destruct F1 as [F1|F1]; [discriminate F1|].
        destruct (foreign_run r qs GR F1) as (r1 & R1 & G1 & O1). rewrite (run_app _ _ _ _ _ R1).
        destruct (IH said r1 OK G1 (conj MX F)) as (r2 & -> & G2 & O2). cbn [bind fst snd app]. eauto.
  Qed.
End Recorder.

(* ---- the device ------------------------------------------------------------------------------------- *)

Lemma wire_sendable c : in_range c -> sendable7 (wire_of c).
Proof.
  intros R. destruct (ci_wire_shape c R) as (d & -> & D & _). split; [|split; [cbn [sx_id]; lia|exact D]].
  left. exists 0x7E. cbn [sx_id]. lia.
Qed.
Lemma wire_sent c g : in_range c -> 0 <= g < 16 -> exists qs, send_sysex7 (wire_of c) g = Ok qs.
Proof.
  intros R G. destruct (wire_sendable c R) as (V & NZ & D). destruct (wire_of c) as [id d]. cbn [sx_id sx_data] in *.
  destruct (send7_valid id d g V NZ (Forall_u7_u8 _ D) G) as (chunks & _ & _ & E). eauto.
Qed.

Lemma land7 a b : is_u7 a -> is_u7 b -> is_u7 (Z.land a b).
Proof.
  intros A B. unfold is_u7 in *. split; [apply Z.land_nonneg; lia|].
  destruct (Z.eq_dec (Z.land a b) 0) as [->|N]; [lia|]. assert (0 <= Z.land a b) by (apply Z.land_nonneg; lia).
  apply (Z.log2_lt_pow2 _ 7); [lia|]. pose proof (Z.log2_land a b). pose proof (Z.log2_le_mono a 127).
  assert (Z.log2 127 = 6) by reflexivity. lia.
Qed.
Lemma bit_of c s k : 0 <= k -> Z.testbit (Z.land c s) k = has_bit c (2 ^ k) && has_bit s (2 ^ k).
Proof.
  intros K. rewrite Z.land_spec. unfold has_bit. pose proof (Z.pow_pos_nonneg 2 k). replace (2 ^ k =? 0) with false by lia. cbn [orb].
  pose proof (Z.testbit_spec' c k K) as C. pose proof (Z.testbit_spec' s k K) as S.
  destruct (Z.testbit c k), (Z.testbit s k); cbn [Z.b2z] in *; lia.
Qed.
Lemma has_zero m : has_bit m 0 = true.
Proof. reflexivity. Qed.
Lemma type_bit_eq c n sc sn x : type_bit (Z.land c sc) (Z.land n sn) x = of_type c n x && of_type sc sn x.
Proof.
  unfold of_type. destruct x; cbn [type_bit mask_of fst snd]; rewrite !has_zero, ?andb_true_l, ?andb_true_r; rewrite bit_of by lia; reflexivity.
Qed.
Lemma wanted_eq dev c n sup x :
  in_scope dev x && type_bit (Z.land c (fst sup)) (Z.land n (snd sup)) (snd x) = wanted dev c n sup x.
Proof.
  rewrite type_bit_eq. unfold in_scope, wanted. rewrite andb_assoc. do 2 f_equal. lia.
Qed.

(* what the device sends *)
Definition reported (dc dev c n : Z) (sup : Z * Z) (settings : list (Z * setting)) : list (Z * setting) :=
  if dc =? 0 then [] else filter (wanted dev c n sup) settings.

Lemma answer_eq dbg device g sup settings s src dev dc c n :
  muid_ok device -> 0 <= g < 16 -> is_u7 (fst sup) -> is_u7 (snd sup) -> is_u7 dev -> is_u7 c -> is_u7 n ->
  for_me device s = Ok (Some src) -> as_view dbg report_inquiry_validate s = Ok (Some s) ->
  view_device_id s = Ok dev -> report_inquiry_data_control s = Ok dc -> report_inquiry_controller s = Ok c -> report_inquiry_note s = Ok n ->
  exists rp ep, send_sysex7 (wire_of (CReportReply device 0 (Z.land c (fst sup)) (Z.land n (snd sup)) dev)) g = Ok rp /\
    send_sysex7 (wire_of (CReportEnd device dev)) g = Ok ep /\
    answer dbg device g sup settings s =
      Ok (rp :: map (fun x => [setting_packet g x]) (reported dc dev c n sup settings) ++ [ep]).
Proof.
  intros N G S1 S2 D C1 N1 FM W E1 E2 E3 E4.
  pose proof (reply_in_range device _ _ dev N (land7 _ _ C1 S1) (land7 _ _ N1 S2) D) as R1.
  pose proof (end_in_range device dev N D) as R2.
  destruct (wire_sent _ g R1 G) as (rp & P1). destruct (wire_sent _ g R2 G) as (ep & P2). exists rp, ep.
  split; [exact P1|]. split; [exact P2|]. unfold answer. rewrite FM. cbn [bind]. rewrite W. cbn [bind]. rewrite E1, E2, E3, E4. cbn [bind].
  pose proof (ci_built dbg _ R1) as B1. pose proof (ci_built dbg _ R2) as B2. cbn [build] in B1, B2. rewrite B1. cbn [bind]. rewrite B2. cbn [bind].
  rewrite P1. cbn [bind]. rewrite P2. cbn [bind]. unfold reported. destruct (dc =? 0); [reflexivity|].
  rewrite (filter_ext _ _ (fun x => wanted_eq dev c n sup x)). reflexivity.
Qed.

Lemma asked dbg me device g sup settings dc sys c n dev :
  muid_ok me -> muid_ok device -> me <> device -> 0 <= g < 16 -> is_u7 (fst sup) -> is_u7 (snd sup) ->
  is_u7 dc -> is_u7 sys -> is_u7 c -> is_u7 n -> is_u7 dev ->
  exists q rp ep, make_midi_message_report_inquiry dbg me device dc sys c n dev = Ok q /\
    send_sysex7 (wire_of (CReportReply device 0 (Z.land c (fst sup)) (Z.land n (snd sup)) dev)) g = Ok rp /\
    send_sysex7 (wire_of (CReportEnd device dev)) g = Ok ep /\
    answer dbg device g sup settings q =
      Ok (rp :: map (fun x => [setting_packet g x]) (reported dc dev c n sup settings) ++ [ep]).
Proof.
  intros M N X G S1 S2 DC SY C1 N1 D. pose proof (inquiry_in_range me device dc sys c n dev M N DC SY C1 N1 D) as R.
  destruct (round_trip_ok dbg _ R I) as (s & B & E & H & A & F). cbn [build] in B. exists s. subst s.
  pose proof (wire_seven _ R) as S7. pose proof (for_me_wire device _ R) as FM. cbn [header_of] in FM. specialize (FM H).
  pose proof (view_of dbg KReportInquiry _ _ S7 A) as W. cbn [kinds_of existsb kind_eqb orb] in W.
  unfold header_fields in H. cbn [header_of] in H. destruct H as (_ & _ & _ & H4 & _). cbn [fields_of] in F. destruct F as (F1 & _ & F3 & F4).
  destruct (answer_eq dbg device g sup settings _ me dev dc c n N G S1 S2 D C1 N1 (FM ltac:(lia) ltac:(left; reflexivity)) W H4 F1 F3 F4)
    as (rp & ep & P1 & P2 & P3). exists rp, ep. split; [exact B|]. split; [exact P1|]. split; [exact P2|exact P3].
Qed.

Lemma settings_reported dc dev c n sup settings : Forall setting_ok settings -> Forall setting_ok (reported dc dev c n sup settings).
Proof. intros O. unfold reported. destruct (dc =? 0); [constructor|]. now apply ProfilesProofs.Forall_filter. Qed.

(* the whole exchange *)
Lemma exchange a dbg me device g sup settings dc sys c n dev :
  std_alloc a -> muid_ok me -> muid_ok device -> me <> device -> 0 <= g < 16 -> is_u7 (fst sup) -> is_u7 (snd sup) ->
  is_u7 dc -> is_u7 sys -> is_u7 c -> is_u7 n -> is_u7 dev -> Forall setting_ok settings ->
  exists q own, make_midi_message_report_inquiry dbg me device dc sys c n dev = Ok q /\
    answer dbg device g sup settings q = Ok own /\
    forall before us ps, Forall wf_packet ps -> Forall wf_packet before ->
      filter (counts g) ps = before ++ concat (map snd us) -> mixed device g own us ->
      exists r0 rs r, record_packets a dbg me device g new_recorder before = Ok (r0, rs) /\
        record_packets a dbg me device g new_recorder ps =
          Ok (r, rs ++ [mkRep dev (Z.land c (fst sup)) (Z.land n (snd sup)) (reported dc dev c n sup settings)]) /\
        re_open r = None.
Proof.
  intros A M N X G S1 S2 DC SY C1 N1 D O.
  destruct (asked dbg me device g sup settings dc sys c n dev M N X G S1 S2 DC SY C1 N1 D) as (q & rp & ep & Q & P1 & P2 & P3).
  eexists q, _. split; [exact Q|]. split; [exact P3|]. intros before us ps WP WB F MX.
  destruct (run_any a dbg me device g A G before WB new_recorder (new_good a A)) as (r0 & rs & R0 & G0). exists r0, rs.
  pose proof (reply_in_range device _ _ dev N (land7 _ _ C1 S1) (land7 _ _ N1 S2) D) as R1.
  pose proof (end_in_range device dev N D) as R2.
  destruct (whole_report a dbg me device g A G rp _ ep _ (mkRep dev (Z.land c (fst sup)) (Z.land n (snd sup)) [])
    (wire_sendable _ R1) P1 (wire_sendable _ R2) P2
    (fun o => note_reply dbg me device o _ _ dev M N X (land7 _ _ C1 S1) (land7 _ _ N1 S2) D)
    (fun o => note_end dbg me device o dev M N X D)
    us _ r0 (settings_reported dc dev c n sup settings O) G0 MX) as (r & R & _ & OR).
  exists r. split; [exact R0|]. split; [|exact OR].
  rewrite (run_filter a dbg me device g G ps WP), F, (run_app _ _ _ _ _ _ _ _ _ _ R0), R. reflexivity.
Qed.

(* whatever a device gets *)
Lemma answers dbg me g sup settings s : muid_ok me -> 0 <= g < 16 -> is_u7 (fst sup) -> is_u7 (snd sup) -> all7 (sx_data s) ->
  exists own, answer dbg me g sup settings s = Ok own /\ (own <> [] <-> asks_report me s = true).
Proof.
  intros N G S1 S2 A7. destruct (for_me_eq me s A7) as [FM _].
  destruct (asks_report me s) eqn:AS.
  - unfold asks_report in AS. rewrite !andb_true_iff in AS. destruct AS as (((((A1 & A2) & A3) & A4) & A5) & A6).
    assert (CI : is_ci s = true) by (unfold is_ci; lia). rewrite CI, A5 in FM. cbn [andb] in FM.
    change broadcast_muid with 0x0FFFFFFF in FM. rewrite A6 in FM.
    assert (V : validate_of KReportInquiry s = Ok true).
    { cbn [validate_of]. unfold report_inquiry_validate, plain_validate, at_is, and_res. change universal_non_realtime with 0x7E0000.
      rewrite A1, A2. cbn [and_]. rewrite !(at_nth _ _ 0) by lia. cbn [bind]. rewrite A3. cbn [and_]. rewrite A4. reflexivity. }
    pose proof (as_view_ok dbg _ s _ (CapRead.u7_u8 _ A7) V) as W.
    destruct (accepted_safe dbg KReportInquiry s V) as [((d & E1) & _) ((dc & E2) & _ & (c & E3) & (n & E4))].
    assert (K : forall i x, vec_at (sx_data s) i = Ok x -> is_u7 x).
    { intros i x E. unfold vec_at in E. destruct (nth_error (sx_data s) i) eqn:NE; [|discriminate]. injection E as <-.
      apply nth_error_In in NE. unfold all7 in A7. rewrite Forall_forall in A7. now apply A7. }
    destruct (answer_eq dbg me g sup settings s (muid_at 4 s) d dc c n N G S1 S2 (K _ _ E1) (K _ _ E3) (K _ _ E4) FM W E1 E2 E3 E4)
      as (rp & ep & _ & _ & P). rewrite P. eexists. split; [reflexivity|].
    split; [reflexivity|discriminate].
  - exists []. split; [|split; [now intros H|discriminate]]. unfold answer. rewrite FM. cbn [bind].
    destruct (is_ci s && _ && _) eqn:C; [|reflexivity].
    destruct (validate_total KReportInquiry s eq_refl) as (b & V).
    change report_inquiry_validate with (validate_of KReportInquiry). rewrite (as_view_ok dbg _ s _ (CapRead.u7_u8 _ A7) V). cbn [bind].
    destruct b; [|reflexivity]. exfalso.
    cbn [validate_of] in V. unfold report_inquiry_validate, plain_validate, at_is, and_res in V. change universal_non_realtime with 0x7E0000 in V.
    unfold asks_report in AS. change broadcast_muid with 0x0FFFFFFF in C. unfold and_ at 1 in V.
    destruct (sx_id s =? 0x7E0000); [|discriminate]. unfold and_ at 1 in V. destruct (17 <=? size (sx_data s)) eqn:L; [|discriminate].
    rewrite !(at_nth _ _ 0) in V by lia. cbn [bind] in V. unfold and_ in V. destruct (nth 1 (sx_data s) 0 =? 0x0D); [|discriminate].
    destruct (nth 2 (sx_data s) 0 =? 0x42); [|discriminate]. cbn [andb] in AS.
    destruct (is_ci s); [|discriminate C]. cbn [andb] in C. rewrite C in AS. discriminate AS.
Qed.

(* nothing of the device: no report *)
Lemma nothing a dbg me device g us : std_alloc a -> 0 <= g < 16 ->
  Forall (fun qs => foreign device g qs \/ exists p, wf_packet p /\ type p = 4 /\ qs = [p]) us -> forall ps, Forall wf_packet ps ->
  filter (counts g) ps = filter (counts g) (concat us) -> Forall wf_packet (concat us) ->
  exists r, record_packets a dbg me device g new_recorder ps = Ok (r, []) /\ re_open r = None.
Proof.
  intros A G F ps W E WU. rewrite (run_filter a dbg me device g G ps W), E, <- (run_filter a dbg me device g G _ WU). clear ps W E.
  assert (H : forall r, @good r -> re_open r = None ->
    exists r', record_packets a dbg me device g r (concat us) = Ok (r', []) /\ re_open r' = None);
    [|exact (H _ (new_good a A) eq_refl)].
  clear WU. induction F as [|qs us [F|(p & W & T & ->)] _ IH]; intros r GR O; cbn [concat].
  - exists r. split; [reflexivity|exact O].
  - destruct (foreign_run a dbg me device g A G r qs GR F) as (r1 & R1 & G1 & O1). rewrite (run_app _ _ _ _ _ _ _ _ _ _ R1).
    destruct (IH r1 G1) as (r2 & -> & O2); [congruence|]. cbn [bind fst snd app]. eauto.
  - cbn [app record_packets]. unfold record_packet. rewrite T, O. change (4 =? pt_data) with false. destruct (negb (group p =? g)); cbn [bind fst snd app];
      destruct (IH r GR O) as (r2 & -> & O2); cbn [bind fst snd app]; eauto.
Qed.
