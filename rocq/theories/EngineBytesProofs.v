(* Lemmas for C96: bytes, parser and engine. *)
From Coq Require Import ZArith List Bool Lia ZifyBool ZifyNat.
From Verif Require Import Base Bits Packet PacketSpec PacketProofs ByteStream StreamSpec StreamLemmas StreamCalls StreamProofs
  DocsProofs PacketBytes ChannelVoice VoiceSpec VoiceProofs VoiceTranslate ReceiverSpec Engine EngineSpec EngineProofs EngineBytesSpec.
Import ListNotations.
Local Open Scope Z_scope.
Local Open Scope res_scope.

Lemma run_voices ps : forall e, engine_run e ps = engine_run e (filter is_channel_voice_message ps).
Proof.
  induction ps as [|p ps IH]; intros e; [reflexivity|]. cbn [engine_run filter].
  destruct (is_channel_voice_message p) eqn:C.
  - cbn [engine_run]. destruct (engine_step e p); [apply IH|reflexivity].
  - unfold engine_step. rewrite C. cbn [negb bind]. apply IH.
Qed.

Lemma packets_app a b : packets_out (a ++ b) = packets_out a ++ packets_out b.
Proof. unfold packets_out. now rewrite map_app, concat_app. Qed.

Lemma short_voice g s ds : 0 <= g < 16 -> is_u8 s -> Forall is_u8 ds ->
  is_channel_voice_message (short_packet g s ds) = (s <? 0xF0).
Proof.
  intros G S D. unfold is_channel_voice_message. rewrite StreamProofs.short_type by assumption. unfold short_ty.
  now destruct (s <? 0xF0).
Qed.

Lemma realtime_silent g a b : 0 <= g < 16 -> with_realtime g a b ->
  filter is_channel_voice_message (packets_out (concat (map snd b))) =
  filter is_channel_voice_message (packets_out (concat (map snd a))).
Proof.
  intros G W. induction W as [|x a b W IH|r a b R U W IH]; cbn [map concat snd].
  - reflexivity.
  - now rewrite !packets_app, !filter_app, IH.
  - rewrite packets_app, filter_app, IH. destruct (rt_defined r); [|reflexivity].
    cbn [packets_out map concat app filter]. unfold is_rt in R. rewrite short_voice by (trivial; unfold is_u8; lia).
    replace (r <? 0xF0) with false by lia. reflexivity.
Qed.

Lemma messages_voices g ms : 0 <= g < 16 -> Forall valid_message ms ->
  filter is_channel_voice_message (packets_out (map (fun m => EPacket (short_packet g (ms_status m) (ms_data m))) ms)) =
  map (fun m => short_packet g (ms_status m) (ms_data m)) (filter is_cv ms).
Proof.
  intros G V. induction V as [|m ms Vm V IH]; [reflexivity|].
  change (packets_out (map ?f (m :: ms))) with (short_packet g (ms_status m) (ms_data m) :: packets_out (map f ms)).
  cbn [filter]. pose proof (annotate_u8 m Vm) as U. apply Forall_cons_iff in U. destruct U as [U1 U2].
  rewrite short_voice by assumption. unfold is_cv. destruct (ms_status m <? 0xF0); cbn [map]; unfold is_cv in IH; now rewrite IH.
Qed.

Lemma wire_layout g x : short_packet g (ms_status (wire_message x)) (ms_data (wire_message x)) = layout1 g (fst x) (snd x) \/
  ~ (0 <= fst x < 16).
Proof.
  destruct (Z_lt_dec (fst x) 0) as [L|L]; [right; lia|]. destruct (Z_lt_dec (fst x) 16) as [H|H]; [left|right; lia].
  unfold short_packet, layout1, wire_message, be32. cbn [ms_status ms_data].
  destruct (snd x); cbn [m1_kind m1_data fst snd nth]; replace (_ <? 0xF0) with true by lia; f_equal; lia.
Qed.

Lemma renders_valid g rs ms a : renders g rs ms a -> Forall valid_message ms.
Proof. induction 1; constructor; assumption. Qed.

Theorem from_bytes g cb st ms a b played_on : reached g cb st -> renders g None ms a -> with_realtime g a b ->
  filter is_cv ms = map wire_message played_on -> Forall (fun x => 0 <= fst x < 16 /\ m1_ok (snd x)) played_on ->
  exists st' out e, feed_all st (map fst b) = Ok (st', out) /\ play (packets_out out) = Ok e /\
  forall g' ch n, heard e g' ch n = Ok (sounds g' ch n (history (map (fun x => Midi1 g (fst x) (snd x)) played_on))).
Proof.
  intros R RE W F P. pose proof (reached_group _ _ _ R) as G.
  destruct (legal_stream_anywhere g cb st ms a b (length b) R RE W) as (st' & E). rewrite !firstn_all in E.
  set (hs := map (fun x => Midi1 g (fst x) (snd x)) played_on).
  assert (O : Forall message_ok hs).
  { unfold hs. clear - P G. induction P as [|x l [C M] P IH]; cbn [map]; constructor; trivial. repeat split; lia || assumption. }
  destruct (played hs O) as (e & Pl & H).
  exists st', (concat (map snd b)), e. split; [exact E|]. split; [|exact H].
  assert (V : filter is_channel_voice_message (packets_out (concat (map snd b))) = map message_packet hs).
  { rewrite (realtime_silent g a b G W), (renders_events _ _ _ _ RE), messages_voices by (trivial; now apply renders_valid with (1 := RE)).
    rewrite F. unfold hs. rewrite !map_map. clear - P. induction P as [|x l [C M] P IH]; [reflexivity|].
    cbn [map]. rewrite IH. f_equal. cbn [message_packet]. now destruct (wire_layout g x). }
  rewrite <- Pl. unfold play. destruct new_engine as [n|f]; [|reflexivity]. cbn [bind]. now rewrite run_voices, V.
Qed.

Lemma output_good g e : 0 <= g < 16 -> wf_output g e ->
  match e with EPacket p => wf_packet p /\ ~ bad_packet p | ESysex _ => True end.
Proof.
  intros G W. destruct e as [p|s]; [|trivial]. destruct W as [(m & V & ->)|[(r & R & D & ->)|(f & ds & F & L & U & _ & ->)]].
  - pose proof (annotate_u8 m V) as U. apply Forall_cons_iff in U. destruct U as [U1 U2]. split; [now apply short_wf|].
    destruct V as [_ V]. unfold bad_packet, short_packet. cbn [w0].
    assert (B : forall i, 0 <= nth i (ms_data m) 0 < 128).
    { intros i. destruct (nth_in_or_default i (ms_data m) 0) as [I| ->]; [|lia]. rewrite Forall_forall in V. now apply V in I. }
    pose proof (B 0%nat). pose proof (B 1%nat). unfold is_u8 in U1. destruct (ms_status m <? 0xF0); dlia.
  - split; [apply short_wf; trivial; unfold is_u8; lia|]. unfold bad_packet, short_packet. cbn [w0 nth].
    replace (r <? 0xF0) with false by lia. dlia.
  - pose proof (Forall_u7_u8 ds U) as U8. split.
    + rewrite sx7_pob by assumption. apply pob_wf, sx7_u8; trivial.
    + unfold bad_packet. pose proof (sx7_w0 g f ds G F L U8). dlia.
Qed.

Theorem any_bytes g cb on cs : 0 <= g < 16 -> Forall valid_call cs ->
  exists st out e, parser_calls (new_parser g cb on) cs = Ok (st, out) /\ play (packets_out out) = Ok e /\
  forall g' ch n, exists o, heard e g' ch n = Ok o /\ forall p, o = Some p -> is_u32 p.
Proof.
  intros G V. destruct (calls_wf g cb on cs G V) as (st & out & E & W). exists st, out.
  assert (C : forall x, configured g cs x -> 0 <= x < 16).
  { intros x [->|I]; [exact G|]. rewrite Forall_forall in V. now apply V in I. }
  assert (X : Forall wf_packet (packets_out out) /\ Forall (fun p => ~ bad_packet p) (packets_out out)).
  { clear E. induction W as [|e out (x & Cx & We) W IH]; [split; constructor|].
    change (packets_out (e :: out)) with (match e with EPacket p => [p] | ESysex _ => [] end ++ packets_out out).
    pose proof (output_good x e (C x Cx) We) as O. destruct e as [p|s]; [|exact IH]. destruct IH, O. split; constructor; assumption. }
  destruct X as [X1 X2]. destruct (any_packets _ X1) as [A _]. destruct (A X2) as (e & P & H). exists e. repeat split; assumption.
Qed.
