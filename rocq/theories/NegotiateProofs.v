(* Lemmas for C98. *)
From Coq Require Import ZArith List Bool Lia ZifyBool ZifyNat.
From Verif Require Import Base Bits Packet PacketSpec PacketProofs Utility SystemProofs Types TypesSpec TypesProofs
  ChannelVoice VoiceSpec VoiceProofs VoiceTranslate VoiceReturnSpec VoiceReturn EngineSpec Endpoint Negotiate NegotiateSpec.
Import ListNotations.
Local Open Scope Z_scope.
Local Open Scope res_scope.

(* ---- single packets --------------------------------------------------------------------- *)

Lemma as_configuration dbg p : as_stream_configuration_view dbg p =
  Ok (if (type p =? 15) && ((status p =? 5) || (status p =? 6)) then Some p else None).
Proof.
  unfold as_stream_configuration_view, stream_configuration_view, is_stream_message, pt_stream, st_stream_configuration_request,
    st_stream_configuration_notify.
  destruct (type p =? 15); cbn [andb]; [|reflexivity].
  destruct ((status p =? 5) || (status p =? 6)); [|reflexivity]. now destruct dbg.
Qed.

Lemma small_protocol pr : pr = 1 \/ pr = 2 -> forall P : Z -> Prop, P 1 -> P 2 -> P pr.
Proof. now intros [-> | ->]. Qed.
Lemma small_extensions e : 0 <= e < 4 -> forall P : Z -> Prop, P 0 -> P 1 -> P 2 -> P 3 -> P e.
Proof. intros H. assert (e = 0 \/ e = 1 \/ e = 2 \/ e = 3) as [-> | [-> | [-> | ->]]] by lia; auto. Qed.

Definition carries (st pr e : Z) (p : packet) : Prop :=
  wf_packet p /\ type p = 15 /\ status p = st /\ configuration_protocol p = pr /\ configuration_extensions p = e.

Lemma request_made dbg pr e : pr = 1 \/ pr = 2 -> 0 <= e < 4 ->
  exists p, make_stream_configuration_request dbg pr e = Ok p /\ carries 5 pr e p.
Proof.
  intros HP HE. pattern pr; apply (small_protocol pr HP); pattern e; apply (small_extensions e HE);
  destruct dbg; (eexists; split; [vm_compute; reflexivity|]); vm_compute; repeat split; discriminate.
Qed.
Lemma notification_made dbg pr e : pr = 1 \/ pr = 2 -> 0 <= e < 4 ->
  exists p, make_stream_configuration_notification dbg pr e = Ok p /\ carries 6 pr e p.
Proof.
  intros HP HE. pattern pr; apply (small_protocol pr HP); pattern e; apply (small_extensions e HE);
  destruct dbg; (eexists; split; [vm_compute; reflexivity|]); vm_compute; repeat split; discriminate.
Qed.

Lemma stamp_made t : is_u16 t ->
  exists p, jr_timestamp_message t = Ok p /\ wf_packet p /\ type p = 0 /\ status p = 32 /\ jr_get_timestamp p = Ok t.
Proof.
  intros H. destruct (jr_messages_ok t H) as (_ & E & _ & _). exists (make_utility_message 32 t).
  split; [exact E|]. assert (U : is_u8 32) by (unfold is_u8; lia).
  rewrite utility_layout by assumption.
  destruct (utility_fields (mkP (be32 0 32 (t / 256) (t mod 256)) 0 0 0) 32 t U H eq_refl) as (A & _ & B & _ & _ & C).
  repeat split; cbn [w0 w1 w2 w3]; try assumption; unfold is_u16, be32 in *; unfold is_u32; try lia; dlia.
Qed.

(* ---- configurations --------------------------------------------------------------------- *)

Lemma able_range a pr : able a pr -> pr = 1 \/ pr = 2.
Proof. unfold able. destruct pr as [|[q|[q|q|]|]|q]; try tauto. Qed.

Lemma mask_range a e : 0 <= a <= 3 -> 0 <= Z.land e a <= 3.
Proof.
  intros H.
  assert (E : Z.land e a = Z.land (e mod 4) a).
  { change 4 with (2 ^ 2). rewrite <- Z.land_ones by lia. rewrite <- Z.land_assoc. f_equal.
    assert (a = 0 \/ a = 1 \/ a = 2 \/ a = 3) as [-> | [-> | [-> | ->]]] by lia; reflexivity. }
  rewrite E. pose proof (Z.mod_pos_bound e 4).
  assert (R : 0 <= e mod 4 < 4) by lia. revert R. generalize (e mod 4). intros r R.
  assert (a = 0 \/ a = 1 \/ a = 2 \/ a = 3) as [-> | [-> | [-> | ->]]] by lia;
  pattern r; apply (small_extensions r R); cbn; lia.
Qed.

Lemma supports_able a pr : 1 <= ab_protocols a <= 3 -> supports a pr = true -> able a pr.
Proof.
  intros H E. unfold supports in E. apply andb_true_iff in E. destruct E as [E1 E2].
  assert (ab_protocols a = 1 \/ ab_protocols a = 2 \/ ab_protocols a = 3) as Ha by lia.
  assert (P : pr < 0 \/ pr = 1 \/ pr = 2) by lia. destruct P as [P | [-> | ->]].
  - exfalso. lia.
  - cbn [able]. destruct Ha as [-> | [E | ->]]; auto. now rewrite E in E2.
  - cbn [able]. destruct Ha as [E | [-> | ->]]; auto. now rewrite E in E2.
Qed.

Lemma reconfigure_sound a c pr e : sound a c -> sound a (reconfigure a c pr e).
Proof.
  intros (A & B & C & D). unfold sound, reconfigure. cbn [cf_protocol cf_extensions].
  split; [exact A|]. split; [exact B|]. split; [|now apply mask_range].
  destruct (supports a pr) eqn:E; [|exact C]. now apply supports_able.
Qed.

Lemma reconfigure_answered a c pr e : sound a c -> pr = 1 \/ pr = 2 -> 0 <= e < 4 ->
  reconfigure a c pr e = answered a c pr e.
Proof.
  intros (A & B & C & D) HP HE. unfold reconfigure, answered. f_equal.
  - unfold supports.
    assert (ab_protocols a = 1 \/ ab_protocols a = 2 \/ ab_protocols a = 3) as [E | [E | E]] by lia; rewrite E;
    destruct HP as [-> | ->]; reflexivity.
  - assert (ab_extensions a = 0 \/ ab_extensions a = 1 \/ ab_extensions a = 2 \/ ab_extensions a = 3) as [E | [E | [E | E]]] by lia; rewrite E;
    pattern e; apply (small_extensions e HE); reflexivity.
Qed.

(* ---- messages --------------------------------------------------------------------------- *)

Lemma layout1_wf g ch m : address g ch -> m1_ok m -> wf_packet (layout1 g ch m).
Proof.
  intros [Hg Hc] Hm. destruct (m1_data_ok m Hm) as (D1 & D2).
  destruct (nibbles (m1_kind m) ch (m1_kind_mult m) Hc) as (_ & _ & N3).
  unfold wf_packet, layout1; cbn [w0 w1 w2 w3]. unfold is_u7, is_u8, is_u32, be32 in *. lia.
Qed.

Definition type_of_message (m : heard_message) : Z := match m with Midi1 _ _ _ => 2 | Midi2 _ _ _ => 4 end.
Lemma fine_packet m : message_ok m -> wf_packet (message_packet m) /\ type (message_packet m) = type_of_message m.
Proof.
  intros H. destruct m as [g ch m|g ch m]; destruct H as [A M]; cbn [message_packet].
  - split; [now apply layout1_wf|now apply layout1_type].
  - split; [now apply layout2_wf|now apply layout2_type].
Qed.

Lemma spoken_ok pr m m' : pr = 1 \/ pr = 2 -> fine_message m -> spoken pr m = Some m' ->
  message_ok m' /\ type_of_message m' = 2 * pr.
Proof.
  intros HP [H F] E. destruct m as [g ch m|g ch m]; destruct H as [A M]; cbn [spoken] in E;
    destruct HP as [-> | ->]; cbn [Z.eqb Pos.eqb] in E; try (injection E as <-; repeat split; trivial; apply A).
  - destruct (translate_to_midi2 m) as [x|] eqn:T; [|discriminate]. injection E as <-.
    repeat split; try apply A. now apply translated_ok with (2 := T).
  - destruct (translate_to_midi1 m) as [x|] eqn:T; [|discriminate]. injection E as <-.
    repeat split; try apply A. now apply (return_ok m x M F T).
Qed.

Lemma in_protocol_spoken pr m : pr = 1 \/ pr = 2 -> fine_message m ->
  in_protocol pr (message_packet m) = Ok (option_map message_packet (spoken pr m)).
Proof.
  intros HP [H F]. destruct (fine_packet m H) as [_ T]. unfold in_protocol.
  unfold is_midi1_channel_voice_message, is_midi2_channel_voice_message. rewrite T.
  destruct m as [g ch m|g ch m]; destruct H as [A M]; cbn [type_of_message spoken message_packet];
    destruct HP as [-> | ->]; cbn [Z.eqb Pos.eqb pt_midi1_channel_voice pt_midi2_channel_voice]; try reflexivity.
  - rewrite to_midi2_layout by assumption. now destruct (translate_to_midi2 m).
  - rewrite to_midi1_layout by assumption. now destruct (translate_to_midi1 m).
Qed.

(* ---- the host --------------------------------------------------------------------------- *)

Lemma noted_spec p : wf_packet p -> noted p =
  is_channel_voice_message p || ((type p =? 15) && (status p =? 6)) || (is_utility_message p && (status p =? us_jr_timestamp)).
Proof. intros W. unfold noted. now rewrite <- status_spec, <- type_spec. Qed.

Lemma host_ignores dbg h p : wf_packet p -> noted p = false -> host_step dbg h p = Ok (h, []).
Proof.
  intros W N. rewrite noted_spec in N by assumption. unfold host_step. rewrite as_configuration. cbn [bind].
  apply orb_false_elim in N. destruct N as [N N3]. apply orb_false_elim in N. destruct N as [N1 N2].
  destruct (type p =? 15) eqn:T; cbn [andb] in *.
  - rewrite N2, orb_false_r. destruct (status p =? 5) eqn:S5.
    + cbn [bind]. unfold st_stream_configuration_notify. now rewrite N2.
    + now rewrite N3, N1.
  - now rewrite N3, N1.
Qed.

Lemma host_filter dbg ps : Forall wf_packet ps -> forall h, host_run dbg h ps = host_run dbg h (filter noted ps).
Proof.
  induction 1 as [|p ps W F IH]; intros h; [reflexivity|]. cbn [host_run filter].
  destruct (noted p) eqn:N.
  - cbn [host_run]. destruct (host_step dbg h p) as [x|f]; [|reflexivity]. cbn [bind]. now rewrite IH.
  - rewrite host_ignores by assumption. cbn [bind fst snd app]. rewrite IH.
    destruct (host_run dbg h (filter noted ps)) as [[]|]; reflexivity.
Qed.

Lemma host_app dbg ps qs : forall h, host_run dbg h (ps ++ qs) =
  (x <- host_run dbg h ps ;; y <- host_run dbg (fst x) qs ;; Ok (fst y, snd x ++ snd y)).
Proof.
  induction ps as [|p ps IH]; intros h; cbn [host_run app].
  - cbn [bind fst snd app]. destruct (host_run dbg h qs) as [[]|]; reflexivity.
  - destruct (host_step dbg h p) as [x|f]; [|reflexivity]. cbn [bind]. rewrite IH.
    destruct (host_run dbg (fst x) ps) as [y|f]; [|reflexivity]. cbn [bind fst snd].
    destruct (host_run dbg (fst y) qs) as [z|f]; [|reflexivity]. cbn [bind fst snd]. now rewrite app_assoc.
Qed.

Lemma host_notified dbg h p pr e : carries 6 pr e p ->
  host_step dbg h p = Ok (mkHost (Some (mkConfiguration pr e)) (ho_stamp h), []).
Proof.
  intros (W & T & S & P & E). unfold host_step. rewrite as_configuration. rewrite T, S. cbn. now rewrite P, E.
Qed.
Lemma host_stamped dbg h p t : type p = 0 -> status p = 32 -> jr_get_timestamp p = Ok t ->
  host_step dbg h p = Ok (mkHost (ho_known h) (Some t), []).
Proof.
  intros T S J. unfold host_step, is_utility_message. rewrite as_configuration. rewrite T, S, J. reflexivity.
Qed.
Lemma host_hears dbg h p : type p = 2 \/ type p = 4 ->
  host_step dbg h p = Ok (mkHost (ho_known h) None, [mkArrival (ho_known h) (ho_stamp h) p]).
Proof.
  intros T. unfold host_step, is_utility_message, is_channel_voice_message. rewrite as_configuration.
  destruct T as [-> | ->]; reflexivity.
Qed.

(* ---- the endpoint ----------------------------------------------------------------------- *)

Lemma endpoint_asked dbg a c p pr e : sound a c -> carries 5 pr e p -> exists n,
  endpoint_receive dbg a c p = Ok (reconfigure a c pr e, [n]) /\
  carries 6 (cf_protocol (reconfigure a c pr e)) (cf_extensions (reconfigure a c pr e)) n.
Proof.
  intros HS (W & T & S & P & E). unfold endpoint_receive. rewrite as_configuration. rewrite T, S. cbn [Z.eqb Pos.eqb andb orb bind].
  rewrite P, E. cbn zeta. change (5 =? st_stream_configuration_request) with true. cbn iota.
  destruct (reconfigure_sound a c pr e HS) as (_ & _ & A & B). apply able_range in A.
  destruct (notification_made dbg _ (cf_extensions (reconfigure a c pr e)) A ltac:(lia)) as (n & -> & C).
  exists n. split; [reflexivity|exact C].
Qed.
Lemma endpoint_stray dbg a c p : wf_packet p -> ~ is_request p -> endpoint_receive dbg a c p = Ok (c, []).
Proof.
  intros W N. unfold is_request in N. rewrite <- status_spec, <- type_spec in N by assumption.
  unfold endpoint_receive, st_stream_configuration_request. rewrite as_configuration.
  destruct (Z.eqb_spec (type p) 15) as [T|T]; [|reflexivity].
  destruct (Z.eqb_spec (status p) 5) as [S|S]; [tauto|]. now destruct (status p =? 6).
Qed.

Lemma odd_land e : 0 <= e <= 3 -> (Z.land e 1 =? 0) = negb (Z.odd e).
Proof. intros H. pattern e. now apply (small_extensions e ltac:(lia)). Qed.

Lemma said dbg c t m : (cf_protocol c = 1 \/ cf_protocol c = 2) -> 0 <= cf_extensions c <= 3 -> is_u16 t -> fine_message m ->
  exists ps, endpoint_say c t (message_packet m) = Ok ps /\ Forall wf_packet ps /\ filter noted ps = ps /\
  forall known, host_run dbg (mkHost known None) ps = Ok (mkHost known None,
    match spoken (cf_protocol c) m with
    | None => []
    | Some m' => [mkArrival known (if Z.odd (cf_extensions c) then Some t else None) (message_packet m')]
    end).
Proof.
  intros HP HE HT F. unfold endpoint_say. rewrite in_protocol_spoken by assumption. cbn [bind].
  destruct (spoken (cf_protocol c) m) as [m'|] eqn:E; cbn [option_map]; [|exists []; repeat split; constructor].
  destruct (spoken_ok _ _ _ HP F E) as [M Tm]. destruct (fine_packet m' M) as [W T].
  assert (T2 : type (message_packet m') = 2 \/ type (message_packet m') = 4) by (rewrite T; lia).
  assert (N : noted (message_packet m') = true).
  { rewrite noted_spec by assumption. unfold is_channel_voice_message. destruct T2 as [-> | ->]; reflexivity. }
  rewrite odd_land by assumption. destruct (Z.odd (cf_extensions c)); cbn [negb].
  - destruct (stamp_made t HT) as (j & EJ & Wj & Tj & Sj & Gj). rewrite EJ. cbn [bind]. eexists. split; [reflexivity|].
    split; [repeat (apply Forall_cons; [assumption|]); apply Forall_nil|]. split.
    + cbn [filter]. rewrite N. assert (noted j = true) as ->; [|reflexivity].
      rewrite noted_spec by assumption. unfold is_channel_voice_message, is_utility_message. now rewrite Tj, Sj.
    + intros known. cbn [host_run]. rewrite (host_stamped dbg _ j t) by assumption. cbn [bind fst snd].
      rewrite host_hears by assumption. reflexivity.
  - eexists. split; [reflexivity|]. split; [repeat (apply Forall_cons; [assumption|]); apply Forall_nil|]. split.
    + cbn [filter]. now rewrite N.
    + intros known. cbn [host_run]. rewrite host_hears by assumption. reflexivity.
Qed.

(* ---- the conversation ------------------------------------------------------------------- *)

Theorem conversation dbg a l is : Forall happening_ok l -> Forall2 (put dbg) l is -> forall c, sound a c ->
  exists out, endpoint_run dbg a c is = Ok (fst (fst (course a c None l)), out) /\ Forall wf_packet out /\ filter noted out = out /\
  forall known, host_run dbg (mkHost known None) out = Ok (mkHost (snd (fst (course a c known l))) None, snd (course a c known l)).
Proof.
  intros H P. revert H. induction P as [|x i l is X P IH]; intros H c HS.
  - exists []. repeat split; constructor.
  - apply Forall_cons_iff in H. destruct H as [Hx H].
    assert (K : forall l c k k', fst (fst (course a c k l)) = fst (fst (course a c k' l))).
    { clear. induction l as [|[pr e|t m|p] l IH]; intros c k k'; cbn [course]; trivial.
      destruct (spoken (cf_protocol c) m); cbn [fst]; auto. }
    destruct X as [pr e p MK|t m|p]; cbn [happening_ok] in Hx; cbn [endpoint_run endpoint_step course].
    + destruct Hx as [HP HE]. destruct (request_made dbg pr e HP HE) as (p' & MK' & C). rewrite MK in MK'. injection MK' as <-.
      destruct (endpoint_asked dbg a c p pr e HS C) as (n & -> & Cn). cbn [bind fst snd].
      pose proof (reconfigure_sound a c pr e HS) as HS'.
      rewrite reconfigure_answered in * by assumption.
      destruct (IH H _ HS') as (out & E & W & N & R). rewrite E. cbn [bind fst snd app].
      exists (n :: out). cbn zeta. split; [now rewrite (K l (answered a c pr e) (Some (answered a c pr e)) None)|]. pose proof Cn as (Wn & Tn & Sn & Pn & En).
      split; [now constructor|]. split.
      * cbn [filter]. rewrite N. assert (noted n = true) as ->; [|reflexivity].
        rewrite noted_spec by assumption. rewrite Tn, Sn. now rewrite orb_true_r.
      * intros known. cbn [host_run]. rewrite (host_notified dbg _ n (cf_protocol (answered a c pr e)) (cf_extensions (answered a c pr e)))
          by exact Cn.
        cbn [bind fst snd ho_stamp]. replace (mkConfiguration (cf_protocol (answered a c pr e)) (cf_extensions (answered a c pr e)))
          with (answered a c pr e) by reflexivity. rewrite R. reflexivity.
    + destruct Hx as [HT F]. destruct HS as (A & B & C & D). pose proof (able_range _ _ C) as HP.
      destruct (said dbg c t m HP D HT F) as (ps & -> & Wp & Np & Rp). cbn [bind fst snd].
      destruct (IH H c (conj A (conj B (conj C D)))) as (out & E & W & N & R). rewrite E. cbn [bind fst snd].
      exists (ps ++ out). split; [|split; [|split]].
      * destruct (spoken (cf_protocol c) m); reflexivity.
      * apply Forall_app. now split.
      * rewrite filter_app. now rewrite Np, N.
      * intros known. rewrite host_app, Rp. cbn [bind fst snd]. rewrite R. cbn [bind fst snd].
        destruct (spoken (cf_protocol c) m); reflexivity.
    + destruct Hx as [Wx Nx]. rewrite endpoint_stray by assumption. cbn [bind fst snd].
      destruct (IH H c HS) as (out & E & W & N & R). rewrite E. cbn [bind fst snd app].
      exists out. repeat split; assumption.
Qed.

(* with other packets between *)
Theorem conversation_between dbg a l is c out x : Forall happening_ok l -> Forall2 (put dbg) l is -> sound a c ->
  endpoint_run dbg a c is = Ok (x, out) -> forall known ps, Forall wf_packet ps -> filter noted ps = out ->
  x = fst (fst (course a c known l)) /\
  host_run dbg (mkHost known None) ps = Ok (mkHost (snd (fst (course a c known l))) None, snd (course a c known l)).
Proof.
  intros H P S E known ps W F. destruct (conversation dbg a l is H P c S) as (out' & E' & _ & _ & R).
  rewrite E in E'. injection E' as -> ->. split.
  - clear. revert c known. induction l as [|[pr e|t m|p] l IH]; intros c k; cbn [course]; trivial.
    destruct (spoken (cf_protocol c) m); cbn [fst]; auto.
  - rewrite host_filter by assumption. rewrite F. apply R.
Qed.

Lemma answered_sound a c pr e : sound a c -> pr = 1 \/ pr = 2 -> 0 <= e < 4 -> sound a (answered a c pr e).
Proof. intros S P E. rewrite <- reconfigure_answered by assumption. now apply reconfigure_sound. Qed.

Lemma course_in_order a l : Forall happening_ok l -> forall c known, sound a c -> known = None \/ known = Some c ->
  Forall in_order (snd (course a c known l)) /\
  (snd (fst (course a c known l)) = None \/ snd (fst (course a c known l)) = Some (fst (fst (course a c known l)))).
Proof.
  induction 1 as [|x l Hx H IH]; intros c known S K.
  - split; [constructor|exact K].
  - destruct x as [pr e|t m|p]; cbn [course happening_ok] in *.
    + cbn zeta. destruct Hx as [P E]. apply IH; auto. now apply answered_sound.
    + destruct Hx as [T F]. destruct (IH c known S K) as [A B].
      destruct (spoken (cf_protocol c) m) as [m'|] eqn:E; [|split; assumption].
      cbn [fst snd]. split; [|exact B]. constructor; [|exact A]. unfold in_order. cbn [ar_known ar_packet ar_stamp].
      destruct K as [-> | ->]; [trivial|]. destruct S as (_ & _ & C & _).
      destruct (spoken_ok _ _ _ (able_range _ _ C) F E) as [M Tm]. destruct (fine_packet m' M) as [W Tp].
      rewrite <- type_spec by assumption. rewrite Tp, Tm. split; [reflexivity|].
      destruct (Z.odd (cf_extensions c)); split; congruence.
    + now apply IH.
Qed.

(* the last request counts *)
Lemma course_rest a l : existsb is_asked l = false -> forall c known, fst (course a c known l) = (c, known).
Proof.
  induction l as [|x l IH]; intros H c known; [reflexivity|]. cbn [existsb] in H. apply orb_false_elim in H. destruct H as [Hx H].
  destruct x as [pr e|t m|p]; cbn [course is_asked] in *; [discriminate| |now apply IH].
  destruct (spoken (cf_protocol c) m); cbn [fst]; now apply IH.
Qed.
Lemma course_app a l r : forall c known, course a c known (l ++ r) =
  let x := course a c known l in let y := course a (fst (fst x)) (snd (fst x)) r in (fst y, snd x ++ snd y).
Proof.
  induction l as [|x l IH]; intros c known; cbn [app].
  - cbn [course fst snd app]. cbn zeta. destruct (course a c known r); reflexivity.
  - destruct x as [pr e|t m|p]; cbn [course]; rewrite ?IH; trivial.
    destruct (spoken (cf_protocol c) m); cbn [fst snd]; trivial.
Qed.
Lemma course_sound a l : Forall happening_ok l -> forall c known, sound a c -> sound a (fst (fst (course a c known l))).
Proof.
  induction 1 as [|x l Hx H IH]; intros c known S; [exact S|].
  destruct x as [pr e|t m|p]; cbn [course happening_ok] in *.
  - cbn zeta. apply IH. now apply answered_sound.
  - destruct (spoken (cf_protocol c) m); cbn [fst]; now apply IH.
  - now apply IH.
Qed.

Lemma granted a l pr e r : Forall happening_ok (l ++ Asked pr e :: r) -> existsb is_asked r = false -> forall c known, sound a c ->
  exists k, fst (course a c known (l ++ Asked pr e :: r)) = (k, Some k) /\ able a (cf_protocol k) /\
  cf_extensions k = common e (ab_extensions a) /\
  (able a pr -> cf_protocol k = pr) /\
  (~ able a pr -> cf_protocol k = cf_protocol (fst (fst (course a c known l)))).
Proof.
  intros H N c known S. apply Forall_app in H. destruct H as [Hl H]. apply Forall_cons_iff in H. destruct H as [[P E] _].
  pose proof (course_sound a l Hl c known S) as S'. rewrite course_app. cbn zeta. cbn [course fst].
  rewrite course_rest by assumption.
  pose proof (answered_sound a _ pr e S' P E) as (_ & _ & A & _).
  destruct S' as (R & _ & C & _).
  eexists. split; [reflexivity|]. split; [exact A|]. split; [reflexivity|].
  revert A C. generalize (fst (fst (course a c known l))). intros k A C.
  unfold answered, able in *. cbn [cf_protocol] in *.
  assert (ab_protocols a = 1 \/ ab_protocols a = 2 \/ ab_protocols a = 3) as [Q | [Q | Q]] by lia; rewrite Q in *;
  destruct P as [-> | ->]; cbn [Z.eqb Pos.eqb] in *; split; intros; try reflexivity; try tauto; intuition lia.
Qed.

(* ---- arbitrary packets ------------------------------------------------------------------ *)

Lemma endpoint_safe dbg a is : Forall input_ok is -> forall c, sound a c ->
  exists c' out, endpoint_run dbg a c is = Ok (c', out) /\ sound a c'.
Proof.
  induction 1 as [|i is Hi H IH]; intros c S.
  - exists c, []. split; [reflexivity|exact S].
  - assert (X : exists c' out, endpoint_step dbg a c i = Ok (c', out) /\ sound a c').
    { destruct i as [p|t p]; cbn [endpoint_step input_ok] in *.
      - destruct (Z.eq_dec (type p) 15) as [T|T]; [destruct (Z.eq_dec (status p) 5) as [Q|Q]|].
        + assert (C : carries 5 (configuration_protocol p) (configuration_extensions p) p) by (unfold carries; auto).
          destruct (endpoint_asked dbg a c p _ _ S C) as (n & -> & _). eexists _, _. split; [reflexivity|]. now apply reconfigure_sound.
        + rewrite endpoint_stray; [now exists c, []|assumption|]. unfold is_request. rewrite <- status_spec. tauto.
        + rewrite endpoint_stray; [now exists c, []|assumption|]. unfold is_request. rewrite <- type_spec by assumption. tauto.
      - destruct Hi as [T W]. unfold endpoint_say.
        assert (O : exists o, in_protocol (cf_protocol c) p = Ok o).
        { unfold in_protocol. destruct (to_midi2_total p) as [o ->].
          repeat match goal with |- context[if ?b then _ else _] => destruct b end; eauto. }
        destruct O as [o ->]. cbn [bind]. destruct o as [q|]; [|now exists c, []].
        destruct (Z.land (cf_extensions c) 1 =? 0); [now exists c, [q]|].
        destruct (stamp_made t T) as (j & -> & _). now exists c, [j; q]. }
    destruct X as (c' & out & E & S'). cbn [endpoint_run]. rewrite E. cbn [bind fst snd].
    destruct (IH c' S') as (c2 & out2 & -> & S2). cbn [bind fst snd]. eexists _, _. split; [reflexivity|exact S2].
Qed.

Lemma host_safe dbg ps : forall h, exists h' out, host_run dbg h ps = Ok (h', out) /\
  forall k, ho_known h' = Some k -> ho_known h = Some k \/
    exists p, In p ps /\ w0 p / 65536 mod 256 = 6 /\ type p = 15 /\
      cf_protocol k = w0 p / 256 mod 4 /\ cf_extensions k = w0 p mod 4.
Proof.
  induction ps as [|p ps IH]; intros h.
  - exists h, []. split; [reflexivity|]. auto.
  - assert (X : exists h' out, host_step dbg h p = Ok (h', out) /\ forall k, ho_known h' = Some k -> ho_known h = Some k \/
      w0 p / 65536 mod 256 = 6 /\ type p = 15 /\ cf_protocol k = w0 p / 256 mod 4 /\ cf_extensions k = w0 p mod 4).
    { unfold host_step. rewrite as_configuration. cbn [bind]. unfold st_stream_configuration_notify.
      destruct (Z.eqb_spec (type p) 15) as [T|T]; cbn [andb].
      - destruct (Z.eqb_spec (status p) 6) as [Q|Q]; [rewrite orb_true_r|rewrite orb_false_r; destruct (status p =? 5) eqn:Q5].
        + eexists _, _. split; [reflexivity|]. cbn [ho_known]. intros k K. injection K as <-. right. cbn [cf_protocol cf_extensions].
          rewrite <- status_spec. repeat split; trivial; unfold configuration_protocol, configuration_extensions, byte3, byte4, u8; bitlia.
        + eexists _, _. split; [reflexivity|]. auto.
        + unfold is_utility_message, is_channel_voice_message. rewrite T. eexists _, _. split; [reflexivity|]. auto.
      - destruct (is_utility_message p && (status p =? us_jr_timestamp)).
        + unfold jr_get_timestamp. rewrite !get_byte_spec by lia. eexists _, _. split; [reflexivity|]. auto.
        + destruct (is_channel_voice_message p); eexists _, _; (split; [reflexivity|]); auto. }
    destruct X as (h' & out & E & K). cbn [host_run]. rewrite E. cbn [bind fst snd].
    destruct (IH h') as (h2 & out2 & -> & K2). cbn [bind fst snd]. eexists _, _. split; [reflexivity|].
    intros k Hk. destruct (K2 k Hk) as [A|(q & I & A)].
    + destruct (K k A) as [B|B]; [now left|]. right. exists p. split; [now left|exact B].
    + right. exists q. split; [now right|exact A].
Qed.
