(* Lemmas for C109: a translator in front of a sound engine. *)
From Coq Require Import ZArith List Bool Lia ZifyBool ZifyNat.
From Verif Require Import Base Bits Packet PacketSpec Messages Types ChannelVoice VoiceSpec VoiceProofs VoiceTranslate Engine EngineSpec EngineProofs EngineBytesProofs
  Translate TranslateSpec TranslateProofs.
Import ListNotations.
Local Open Scope Z_scope.
Local Open Scope res_scope.

Definition heard_items (l : list (item m2msg)) : list heard_message :=
  flat_map (fun x => match x with Message g ch m => [Midi2 g ch m] | Other _ => [] end) l.

Lemma heard_history g ch l : on_channel g ch (history (heard_items l)) = said g ch (rev l).
Proof.
  assert (R : rev (concat (map meaning_of (heard_items l))) = flat_map (fun x => match x with Message g ch m => [(g, ch, m)] | Other _ => [] end) (rev l)).
  { induction l as [|x l IH]; [reflexivity|]. cbn [rev heard_items flat_map]. fold (heard_items l). rewrite map_app, concat_app, rev_app_distr, IH, flat_map_app.
    f_equal. destruct x; reflexivity. }
  unfold history. rewrite R. clear R. induction (rev l) as [|x t IH]; [reflexivity|]. cbn [flat_map]. unfold on_channel in *. rewrite filter_app, map_app, IH.
  destruct x as [g' ch' m|p]; [|reflexivity]. cbn [filter fst snd said flat_map]. destruct (_ && _); reflexivity.
Qed.

Lemma heard_packets l : Forall item2_ok l ->
  filter is_channel_voice_message (map (item_packet layout2) l) = map message_packet (heard_items l).
Proof.
  induction 1 as [|x l Hx H IH]; [reflexivity|]. cbn [map filter heard_items flat_map]. fold (heard_items l). rewrite map_app, IH.
  destruct x as [g ch m|p].
  - destruct Hx as [HA [Hm _]]. cbn [item_packet]. unfold is_channel_voice_message. rewrite layout2_type by assumption. reflexivity.
  - destruct Hx as [W N]. destruct (other_type p W N) as [T2 T4]. cbn [item_packet]. unfold is_channel_voice_message, pt_midi1_channel_voice, pt_midi2_channel_voice.
    destruct (type p =? 2) eqn:E2; [lia|]. destruct (type p =? 4) eqn:E4; [lia|]. reflexivity.
Qed.

(* what is said without parameters and programs *)
Definition simple2 (m : m2msg) : bool := match m with RegisteredCtrl _ _ _ | AssignableCtrl _ _ _ | ProgramChange2 _ _ => false | _ => true end.
Lemma said_plain g ch l : said g ch (filter plain2 l) = filter simple2 (said g ch l).
Proof.
  induction l as [|x l IH]; [reflexivity|]. destruct x as [g' ch' m|p]; [|exact IH].
  cbn [filter]. rewrite said_cons. destruct m; cbn [plain2]; rewrite ?said_cons, ?IH; destruct here; reflexivity.
Qed.
Lemma filter_rev' A (f : A -> bool) l : filter f (rev l) = rev (filter f l).
Proof.
  induction l as [|x l IH]; [reflexivity|]. cbn [rev filter]. rewrite filter_app, IH. cbn [filter]. destruct (f x); cbn [rev]; [reflexivity|apply app_nil_r].
Qed.
Lemma said_rev A g ch (l : list (item A)) : said g ch (rev l) = rev (said g ch l).
Proof.
  induction l as [|x l IH]; [reflexivity|]. cbn [rev]. rewrite said_app, IH. destruct x as [g' ch' m|p]; [|now rewrite app_nil_r].
  rewrite !said_cons. destruct here; cbn [rev]; [reflexivity|]. now rewrite app_nil_r.
Qed.
Lemma said_each A B (f : A -> option B) g ch l : said g ch (each f l) = flat_map (fun m => opt (f m)) (said g ch l).
Proof.
  induction l as [|x l IH]; [reflexivity|]. unfold each. cbn [flat_map]. fold (each f l). rewrite said_app, IH. destruct x as [g' ch' m|p]; [|reflexivity].
  rewrite said_cons. destruct (here g ch g' ch') eqn:E.
  - cbn [flat_map]. f_equal. destruct (f m); [|reflexivity]. rewrite said_cons, E. reflexivity.
  - destruct (f m); [|reflexivity]. now rewrite said_cons, E.
Qed.
Lemma rev_opt A B (f : A -> option B) l : rev (flat_map (fun m => opt (f m)) l) = flat_map (fun m => opt (f m)) (rev l).
Proof.
  rewrite rev_flat_map. apply flat_map_ext. intros a. now destruct (f a).
Qed.

Lemma latest_simple f d h : (forall m, simple2 m = false -> f m = None) -> latest f d (filter simple2 h) = latest f d h.
Proof.
  intros F. induction h as [|m h IH]; [reflexivity|]. cbn [filter latest]. destruct (simple2 m) eqn:S.
  - cbn [latest]. destruct (f m); [reflexivity|exact IH].
  - rewrite (F m S). exact IH.
Qed.
Lemma unbent_simple n h : unbent n (filter simple2 h) = unbent n h.
Proof.
  induction h as [|m h IH]; [reflexivity|]. destruct m; cbn [filter simple2 unbent]; rewrite ?IH; reflexivity.
Qed.

(* of translated messages *)
Definition up_said (l : list m1msg) : list m2msg := flat_map (fun m => opt (translate_to_midi2 m)) l.
Lemma bend_up l : latest bend_in 0x80000000 (up_said l) = min_center_max 14 32 (bend1 l).
Proof.
  induction l as [|m l IH]; [reflexivity|]. unfold up_said. cbn [flat_map]. fold (up_said l).
  destruct m as [n v|n v|n v|n v|p|v|v]; cbn [translate_to_midi2 bend1]; try exact IH.
  - destruct (v =? 0); exact IH.
  - destruct (existsb _ _); exact IH.
  - reflexivity.
Qed.
Lemma note_bend_up n l : latest (note_bend_in n) 0x80000000 (up_said l) = 0x80000000.
Proof.
  induction l as [|m l IH]; [reflexivity|]. unfold up_said. cbn [flat_map]. fold (up_said l).
  destruct m as [n' v|n' v|n' v|n' v|p|v|v]; cbn [translate_to_midi2]; try exact IH.
  - destruct (v =? 0); cbn [opt app latest note_bend_in]; [exact IH|]. destruct (n' =? n); [reflexivity|exact IH].
  - destruct (existsb _ _); exact IH.
Qed.
Lemma unbent_up n l : unbent n (up_said l) = if key_down n l then Some (n * 33554432) else None.
Proof.
  induction l as [|m l IH]; [reflexivity|]. unfold up_said. cbn [flat_map]. fold (up_said l).
  destruct m as [n' v|n' v|n' v|n' v|p|v|v]; cbn [translate_to_midi2 key_down]; try exact IH.
  - cbn [opt app unbent]. destruct (n' =? n); [reflexivity|exact IH].
  - destruct (v =? 0); cbn [opt app unbent]; destruct (n' =? n); try exact IH; [reflexivity|]. cbn [negb Z.eqb]. f_equal. lia.
  - destruct (existsb _ _); exact IH.
Qed.
Lemma range_of h : latest range_in usual_range h = match parameter2 true 0 0 h with Some v => v / 262144 * 262144 | None => usual_range end.
Proof.
  induction h as [|m h IH]; [reflexivity|]. destruct m; cbn [latest range_in parameter2 andb negb]; try exact IH.
  destruct ((bank =? 0) && (index =? 0)); [reflexivity|exact IH].
Qed.

Theorem engine_up xs : Forall (item_ok m1_ok) xs ->
  exists st ps e, up_run new_up (map (item_packet layout1) xs) = Ok (st, ps) /\ play ps = Ok e /\
  forall g ch n, let l := said g ch (rev xs) in
    heard e g ch n = Ok (if key_down n l
      then Some (limited 0 4294967295 (n * 33554432 + moved (min_center_max 14 32 (bend1 l)) (262144 * range1 l))) else None).
Proof.
  intros H. destruct (up_holds xs H) as (st & ys & E & K & P & _ & L).
  assert (O : Forall message_ok (heard_items ys)).
  { clear - K. induction K as [|x l Hx H IH]; [constructor|]. cbn [heard_items flat_map]. apply Forall_app. split; [|exact IH].
    destruct x as [g ch m|p]; constructor; [|constructor]. split; apply Hx. }
  destruct (played _ O) as (e & Pl & He).
  exists st, (map (item_packet layout2) ys), e. split; [exact E|]. split.
  { rewrite <- Pl. unfold play. destruct new_engine as [n|f]; [|reflexivity]. cbn [bind]. now rewrite run_voices, heard_packets. }
  intros g ch n l. rewrite He. f_equal. unfold sounds. rewrite heard_history.
  assert (S : filter simple2 (said g ch (rev ys)) = filter simple2 (up_said l)).
  { subst l. rewrite !said_rev, filter_rev', <- said_plain, L, said_plain, said_each, <- filter_rev', rev_opt. reflexivity. }
  set (m := said g ch (rev ys)) in *.
  rewrite <- (unbent_simple n m), S, unbent_simple, unbent_up.
  destruct (key_down n l); [|reflexivity]. cbn [option_map]. f_equal.
  rewrite <- (latest_simple bend_in _ m), S, latest_simple, bend_up by (intros []; reflexivity || discriminate).
  rewrite <- (latest_simple (note_bend_in n) _ m), S, latest_simple, note_bend_up by (intros []; reflexivity || discriminate).
  rewrite range_of. unfold m. rewrite P. fold l.
  replace (match option_map (min_center_max 14 32) (parameter1 true 0 0 l) with Some v => v / 262144 * 262144 | None => usual_range end) with (262144 * range1 l).
  2:{ unfold range1. destruct (parameter1 true 0 0 l) as [w|] eqn:W; [|reflexivity]. cbn [option_map].
      apply parameter1_range in W; [|subst l; now apply said_ok, Forall_rev]. destruct (mcm_14_32_range w W) as [_ X]. rewrite X. lia. }
  assert (Z0 : forall r, moved 0x80000000 r = 0) by reflexivity. rewrite Z0, Z.add_0_r.
  unfold limited. lia.
Qed.

(* ---- any packets ------------------------------------------------------------------------------------- *)

Definition sane (st : Z -> Z -> chan) : Prop := forall g ch k b i, is_u14 (cn_value (st g ch) k b i).
Lemma d2_range m : is_u7 (m1_data_byte_2 m).
Proof.
  unfold m1_data_byte_2, is_u7. change 0x7F with (Z.ones 7). rewrite Z.land_ones by lia. apply Z.mod_pos_bound. lia.
Qed.
Lemma put_sane st g ch c : sane st -> (forall k b i, is_u14 (cn_value c k b i)) -> sane (put_chan st g ch c).
Proof. intros S C g' ch' k b i. unfold put_chan. destruct (_ && _); [apply C|apply S]. Qed.
Lemma any_up_step st p : sane st -> exists st' qs, up_step st p = Ok (st', qs) /\ sane st'.
Proof.
  intros S. unfold up_step, up_step_with. pose proof (to_midi2_total p) as T. unfold to_midi2 in T. destruct (as_midi1_view p) as [m|]; [|eauto]. cbv zeta.
  destruct T as [q Q].
  destruct (m1_status m =? st_control_change).
  - destruct ((m1_data_byte_1 m =? 6) || (m1_data_byte_1 m =? 38)).
    + unfold data_entry. set (c := st (group m) (m1_channel m)). pose proof (S (group m) (m1_channel m)) as Sc. fold c in Sc.
      destruct (selected_parameter c) as [[[k b] i]|].
      * set (w := if m1_data_byte_1 m =? 6 then _ else _). pose proof (d2_range m) as D. pose proof (Sc k b i) as V.
        assert (W : is_u14 w).
        { subst w. destruct (m1_data_byte_1 m =? 6).
          - rewrite shiftl7. unfold is_u7, is_u14 in *. lia.
          - rewrite Z.shiftr_div_pow2 by lia. rewrite join7; unfold is_u7, is_u14 in *; dlia. }
        unfold controller_of_uint14. rewrite (mcm_14_32 w W). cbn [bind fst snd]. eexists _, _. split; [reflexivity|].
        apply put_sane; [exact S|]. intros k' b' i'. cbn [cn_value]. destruct (_ && _); [exact W|apply Sc].
      * cbn [bind fst snd]. eexists _, _. split; [reflexivity|]. apply put_sane; [exact S|exact Sc].
    + destruct (existsb _ _).
      * eexists _, _. split; [reflexivity|]. apply put_sane; [exact S|]. intros k b i. apply S.
      * rewrite Q. cbn [bind]. eauto.
  - destruct (m1_status m =? st_program_change); [eauto|]. rewrite Q. cbn [bind]. eauto.
Qed.
Lemma any_up ps : forall st, sane st -> exists st' qs, up_run st ps = Ok (st', qs).
Proof.
  induction ps as [|p ps IH]; intros st S; unfold up_run in *; cbn [up_run_with]; [eauto|].
  destruct (any_up_step st p S) as (st1 & q1 & E & S1). unfold up_step in *. rewrite E. cbn [bind fst].
  destruct (IH st1 S1) as (st2 & q2 & E2). rewrite E2. cbn [bind]. eauto.
Qed.
Lemma any_up_new ps : exists st qs, up_run new_up ps = Ok (st, qs).
Proof. apply any_up. intros g ch k b i. cbn. unfold is_u14. lia. Qed.
