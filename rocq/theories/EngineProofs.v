(* Lemmas for C96. *)
From Coq Require Import ZArith List Bool Lia ZifyBool ZifyNat.
From Verif Require Import Base Bits Packet PacketSpec PacketProofs Types TypesSpec TypesProofs
  ChannelVoice VoiceSpec VoiceChecks VoiceProofs VoiceTranslate VoiceGetters VoiceReturnSpec VoiceReturn DocsProofs ReceiverSpec
  Engine EngineSpec.
Import ListNotations.
Local Open Scope Z_scope.
Local Open Scope res_scope.

(* ---- what a message does ---------------------------------------------------------------- *)

Definition event_step (e : engine) (x : Z * Z * m2msg) : engine :=
  let g := fst (fst x) in
  let ch := snd (fst x) in
  match snd x with
  | NoteOn2 n _ a d =>
      mkEngine (en_bend e) (en_range e) (en_note_range e)
        (mkVoice g ch n ((if a =? 3 then d else 512 * n) * 65536) 2147483648 :: stop_voice g ch n (en_voices e))
  | NoteOff2 n _ _ _ => mkEngine (en_bend e) (en_range e) (en_note_range e) (stop_voice g ch n (en_voices e))
  | PitchBend2 v => mkEngine (put_for (en_bend e) g ch v) (en_range e) (en_note_range e) (en_voices e)
  | RegisteredCtrl b i v =>
      if (b =? 0) && (i =? 0)
      then mkEngine (en_bend e) (put_for (en_range e) g ch (v / 262144 * 262144)) (en_note_range e) (en_voices e)
      else if (b =? 0) && (i =? 7)
      then mkEngine (en_bend e) (en_range e) (put_for (en_note_range e) g ch v) (en_voices e)
      else e
  | PerNotePitchBend n v =>
      mkEngine (en_bend e) (en_range e) (en_note_range e) (change_voice g ch n (bent v) (en_voices e))
  | RegisteredPerNote n i v =>
      if i =? 3 then mkEngine (en_bend e) (en_range e) (en_note_range e) (change_voice g ch n (retuned v) (en_voices e)) else e
  | _ => e
  end.

Definition kind_step (e : engine) (p : packet) (k ch : Z) : res engine :=
  let g := group p in
  let n := get_note_nr p in
  let v c := (k =? c) && ((type p =? 2) || (type p =? 4)) in
  let w c := (type p =? 4) && (k =? c) in
  if (if v 0x90 then (type p =? 4) || negb (byte4 p =? 0) else false)
  then Ok (mkEngine (en_bend e) (en_range e) (en_note_range e)
            (mkVoice g ch n (pitch_7_25_of_7_9 (get_note_pitch p)) 2147483648 :: stop_voice g ch n (en_voices e)))
  else if (if v 0x80 then true else (type p =? 2) && (k =? 0x90) && (byte4 p =? 0))
  then Ok (mkEngine (en_bend e) (en_range e) (en_note_range e) (stop_voice g ch n (en_voices e)))
  else if v 0xE0
  then b <- get_channel_pitch_bend_value p ;;
       Ok (mkEngine (put_for (en_bend e) g ch b) (en_range e) (en_note_range e) (en_voices e))
  else if w 0x20 && (byte3 p =? 0) && (byte4 p =? 0)
  then Ok (mkEngine (en_bend e) (put_for (en_range e) g ch (get_pitch_bend_sensitivity_value p)) (en_note_range e) (en_voices e))
  else if w 0x20 && (byte3 p =? 0) && (byte4 p =? 7)
  then Ok (mkEngine (en_bend e) (en_range e) (put_for (en_note_range e) g ch (get_per_note_pitch_bend_sensitivity_value p))
            (en_voices e))
  else if w 0x60
  then Ok (mkEngine (en_bend e) (en_range e) (en_note_range e)
            (change_voice g ch n (bent (get_per_note_pitch_bend_value p)) (en_voices e)))
  else if w 0x00 && (get_per_note_controller_index p =? 3)
  then Ok (mkEngine (en_bend e) (en_range e) (en_note_range e)
            (change_voice g ch n (retuned (get_controller_value p)) (en_voices e)))
  else Ok e.

Lemma step_kinds e p : type p = 2 \/ type p = 4 ->
  engine_step e p = kind_step e p (Z.land (status p) 240) (Z.land (status p) 15).
Proof.
  intros T. unfold engine_step, is_channel_voice_message, channel, has_channel, pt_midi1_channel_voice, pt_midi2_channel_voice.
  replace ((type p =? 2) || (type p =? 4)) with true by lia. cbn [negb orb assert_ bind]. reflexivity.
Qed.
Lemma step_other e p : type p <> 2 -> type p <> 4 -> engine_step e p = Ok e.
Proof.
  intros A B. unfold engine_step, is_channel_voice_message, pt_midi1_channel_voice, pt_midi2_channel_voice.
  replace ((type p =? 2) || (type p =? 4)) with false by lia. reflexivity.
Qed.

Lemma widened q : is_u16 q -> pitch_7_25_of_7_9 q = q * 65536.
Proof. intros U. destruct (pitch_7_9_widened q U) as (_ & -> & _). lia. Qed.

Lemma step2 e g ch m : address g ch -> m2_ok m -> engine_step e (layout2 g ch m) = Ok (event_step e (g, ch, m)).
Proof.
  intros A M. pose proof (layout2_view g ch m A M) as V. pose proof (getters2 g ch m A M) as G.
  rewrite step_kinds by (right; apply (v2_type _ _ _ _ _ _ _ V)). unfold kind_step. cbv zeta.
  rewrite (v2_type _ _ _ _ _ _ _ V), (v2_kind _ _ _ _ _ _ _ V), (v2_channel _ _ _ _ _ _ _ V), (v2_group _ _ _ _ _ _ _ V),
    (v2_byte3 _ _ _ _ _ _ _ V), (v2_byte4 _ _ _ _ _ _ _ V).
  destruct m; cbn [m2_kind m2_fields fst snd event_step getters2_ok m2_ok] in *;
    repeat match goal with H : _ /\ _ |- _ => destruct H end; cbn [Z.eqb Pos.eqb andb orb]; try reflexivity; try congruence.
  - repeat match goal with H : ?f (layout2 _ _ _) = _ |- _ => rewrite ?H; clear H end. now destruct (index =? 3).
  - repeat match goal with H : ?f (layout2 _ _ _) = _ |- _ => rewrite ?H; clear H end.
    unfold event_step. cbn [fst snd].
    destruct ((bank =? 0) && (index =? 0)); [reflexivity|]. now destruct ((bank =? 0) && (index =? 7)).
  - match goal with H : get_note_pitch _ = _ |- _ => rewrite H end.
    match goal with H : get_note_nr _ = _ |- _ => rewrite H end.
    rewrite widened; [reflexivity|]. unfold is_u16, is_u7 in *. destruct (attribute =? 3); lia.
  - match goal with H : get_channel_pitch_bend_value _ = _ |- _ => rewrite H end. reflexivity.
Qed.

Lemma step1 e g ch m : address g ch -> m1_ok m ->
  engine_step e (layout1 g ch m) = Ok (fold_left event_step (meaning_of (Midi1 g ch m)) e).
Proof.
  intros A M. pose proof (layout1_view g ch m A M) as V. pose proof (getters1 g ch m A M) as G.
  rewrite step_kinds by (left; apply (v1_type _ _ _ _ _ _ V)). unfold kind_step. cbv zeta.
  rewrite (v1_type _ _ _ _ _ _ V), (v1_kind _ _ _ _ _ _ V), (v1_channel _ _ _ _ _ _ V), (v1_group _ _ _ _ _ _ V),
    (v1_byte3 _ _ _ _ _ _ V), (v1_byte4 _ _ _ _ _ _ V).
  destruct m; cbn [m1_kind m1_data fst snd meaning_of translate_to_midi2 getters1_ok m1_ok] in *;
    repeat match goal with H : _ /\ _ |- _ => destruct H end; cbn [Z.eqb Pos.eqb andb orb fold_left];
    unfold event_step; cbn [fst snd]; try reflexivity; try congruence.
  - destruct (Z.eqb_spec vel 0) as [->|N]; cbn [negb fold_left fst snd]; [congruence|].
    match goal with H : get_note_pitch _ = _ |- _ => rewrite H end.
    match goal with H : get_note_nr _ = _ |- _ => rewrite H end.
    rewrite widened; [reflexivity|]. unfold is_u16, is_u7 in *. lia.
  - destruct (existsb _ _); reflexivity.
  - rewrite G. reflexivity.
Qed.

Lemma step_message e m : message_ok m -> engine_step e (message_packet m) = Ok (fold_left event_step (meaning_of m) e).
Proof. destruct m; intros [A M]; [now apply step1|now apply step2]. Qed.

Lemma run_messages ms : forall e, Forall message_ok ms ->
  engine_run e (map message_packet ms) = Ok (fold_left event_step (concat (map meaning_of ms)) e).
Proof.
  induction ms as [|m ms IH]; intros e F; [reflexivity|]. apply Forall_cons_iff in F as [M F].
  cbn [map engine_run concat]. rewrite step_message by exact M. cbn [bind]. rewrite IH by exact F. now rewrite fold_left_app.
Qed.

Definition silent : engine := mkEngine (fun _ _ => 2147483648) (fun _ _ => 67108864) (fun _ _ => 67108864) [].
Lemma play_messages ms : Forall message_ok ms ->
  play (map message_packet ms) = Ok (fold_left event_step (concat (map meaning_of ms)) silent).
Proof. intros F. unfold play, new_engine. cbn [bind pitch_bend_sensitivity_default]. now rewrite <- run_messages. Qed.

(* ---- the engine and the history ----------------------------------------------------------- *)

Definition event_ok (x : Z * Z * m2msg) : Prop := address (fst (fst x)) (snd (fst x)) /\ m2_ok (snd x).
Lemma meaning_ok ms : Forall message_ok ms -> Forall event_ok (concat (map meaning_of ms)).
Proof.
  induction ms as [|m ms IH]; intros F; [constructor|]. apply Forall_cons_iff in F as [M F]. cbn [map concat].
  apply Forall_app. split; [|now apply IH]. destruct m as [g ch m|g ch m]; destruct M as [A M]; cbn [meaning_of].
  - destruct (translate_to_midi2 m) as [m'|] eqn:T; repeat constructor; cbn [fst snd]; try apply A. now apply (translated_ok m).
  - repeat constructor; cbn [fst snd]; try apply A. exact M.
Qed.

Record follows (e : engine) (h : list (Z * Z * m2msg)) : Prop := {
  fl_bend : forall g ch, en_bend e g ch = latest bend_in 2147483648 (on_channel g ch h);
  fl_range : forall g ch, en_range e g ch = latest range_in usual_range (on_channel g ch h);
  fl_note_range : forall g ch, en_note_range e g ch = latest note_range_in usual_range (on_channel g ch h);
  fl_voices : forall g ch n, find (is_voice g ch n) (en_voices e) =
    option_map (fun b => mkVoice g ch n b (latest (note_bend_in n) 2147483648 (on_channel g ch h))) (unbent n (on_channel g ch h)) }.

Lemma is_voice_iff g ch n v : is_voice g ch n v = true <-> vo_group v = g /\ vo_channel v = ch /\ vo_note v = n.
Proof. unfold is_voice. rewrite !andb_true_iff, !Z.eqb_eq. tauto. Qed.

Definition same_key (g ch n g' ch' n' : Z) : bool := (g' =? g) && (ch' =? ch) && (n' =? n).

Lemma find_stop g ch n g' ch' n' l :
  find (is_voice g' ch' n') (stop_voice g ch n l) = if same_key g ch n g' ch' n' then None else find (is_voice g' ch' n') l.
Proof.
  induction l as [|v l IH]; cbn [stop_voice filter find]; [now destruct (same_key _ _ _ _ _ _)|].
  fold (stop_voice g ch n l). destruct (is_voice g ch n v) eqn:A; cbn [negb].
  - rewrite IH. destruct (is_voice g' ch' n' v) eqn:B; [|reflexivity].
    apply is_voice_iff in A, B. unfold same_key. replace ((g' =? g) && (ch' =? ch) && (n' =? n)) with true by lia. reflexivity.
  - cbn [find]. rewrite IH. destruct (is_voice g' ch' n' v) eqn:B; [|reflexivity].
    apply is_voice_iff in B. destruct (same_key g ch n g' ch' n') eqn:K; [|reflexivity].
    unfold same_key in K. exfalso. apply (Bool.diff_true_false). rewrite <- A. symmetry. apply is_voice_iff. lia.
Qed.

Lemma find_change g ch n g' ch' n' f l : (forall v, vo_group (f v) = vo_group v /\ vo_channel (f v) = vo_channel v /\ vo_note (f v) = vo_note v) ->
  find (is_voice g' ch' n') (change_voice g ch n f l) =
  if same_key g ch n g' ch' n' then option_map f (find (is_voice g' ch' n') l) else find (is_voice g' ch' n') l.
Proof.
  intros K. induction l as [|v l IH]; cbn [change_voice map find option_map]; [now destruct (same_key _ _ _ _ _ _)|].
  fold (change_voice g ch n f l). rewrite IH. clear IH. destruct (K v) as (K1 & K2 & K3).
  assert (Q : is_voice g' ch' n' (f v) = is_voice g' ch' n' v) by (unfold is_voice; now rewrite K1, K2, K3).
  unfold same_key. destruct (is_voice g ch n v) eqn:A.
  - rewrite Q. destruct (is_voice g' ch' n' v) eqn:B; [|reflexivity].
    apply is_voice_iff in A, B. replace ((g' =? g) && (ch' =? ch) && (n' =? n)) with true by lia. reflexivity.
  - destruct (is_voice g' ch' n' v) eqn:B; [|reflexivity]. apply is_voice_iff in B.
    destruct ((g' =? g) && (ch' =? ch) && (n' =? n)) eqn:E; [|reflexivity].
    exfalso. apply (Bool.diff_true_false). rewrite <- A. symmetry. apply is_voice_iff. lia.
Qed.

Lemma on_channel_cons g ch g' ch' m h :
  on_channel g' ch' ((g, ch, m) :: h) = if (g' =? g) && (ch' =? ch) then m :: on_channel g' ch' h else on_channel g' ch' h.
Proof.
  unfold on_channel. cbn [filter fst snd]. rewrite (Z.eqb_sym g g'), (Z.eqb_sym ch ch'). now destruct ((g' =? g) && (ch' =? ch)).
Qed.

Lemma find_start g ch n b x g' ch' n' l :
  find (is_voice g' ch' n') (mkVoice g ch n b x :: l) =
  if same_key g ch n g' ch' n' then Some (mkVoice g' ch' n' b x) else find (is_voice g' ch' n') l.
Proof.
  cbn [find]. unfold is_voice at 1. cbn [vo_group vo_channel vo_note].
  rewrite (Z.eqb_sym g), (Z.eqb_sym ch), (Z.eqb_sym n). unfold same_key.
  destruct ((g' =? g) && (ch' =? ch) && (n' =? n)) eqn:E; [|reflexivity]. do 2 f_equal; lia.
Qed.

Lemma follows_step e h x : follows e h -> follows (event_step e x) (x :: h).
Proof.
  intros [B R N V]. destruct x as [[g ch] m].
  destruct m; unfold event_step; cbn [fst snd];
    repeat match goal with |- context[if ?c then _ else _] => let E := fresh "E" in destruct c eqn:E end;
    (constructor; intros g' ch'; [| | |intros n'];
     rewrite on_channel_cons; cbn [en_bend en_range en_note_range en_voices];
     unfold put_for; rewrite ?find_start, ?find_stop, ?find_change by (intros; split; [|split]; reflexivity);
     unfold same_key; destruct ((g' =? g) && (ch' =? ch)) eqn:K;
     cbn [latest bend_in range_in note_range_in note_bend_in unbent andb];
     rewrite ?B, ?R, ?N, ?V by assumption; rewrite ?E, ?E0, ?E1; trivial);
    try match goal with |- context[?a =? ?b] => try rewrite (Z.eqb_sym b a); destruct (Z.eqb_spec a b); subst end;
    cbn [andb]; trivial;
    try (destruct (unbent _ _); reflexivity).
  replace (index =? 7) with false by lia. reflexivity.
Qed.

Lemma follows_all l : forall e h, follows e h -> follows (fold_left event_step l e) (rev l ++ h).
Proof.
  induction l as [|x l IH]; intros e h F; [exact F|]. cbn [fold_left rev]. rewrite <- app_assoc. apply IH. now apply follows_step.
Qed.
Lemma silent_follows : follows silent [].
Proof. constructor; reflexivity. Qed.

(* ---- values in range ------------------------------------------------------------------------ *)

Lemma on_channel_ok g ch h : Forall event_ok h -> Forall m2_ok (on_channel g ch h).
Proof.
  unfold on_channel. intros F. apply Forall_map. apply Forall_forall. intros x I. apply filter_In in I as [I _].
  rewrite Forall_forall in F. apply (F x I).
Qed.
Lemma latest_range f d h : is_u32 d -> (forall m v, m2_ok m -> f m = Some v -> is_u32 v) -> Forall m2_ok h -> is_u32 (latest f d h).
Proof.
  intros D K. induction h as [|m h IH]; intros F; [exact D|]. apply Forall_cons_iff in F as [M F]. cbn [latest].
  destruct (f m) as [v|] eqn:E; [now apply (K m)|auto].
Qed.
Lemma unbent_range n h b : Forall m2_ok h -> unbent n h = Some b -> is_u32 b.
Proof.
  revert b. induction h as [|m h IH]; intros b F E; [discriminate|]. apply Forall_cons_iff in F as [M F].
  destruct m; cbn [unbent] in E; try (now apply IH); cbn [m2_ok] in M.
  - destruct ((note =? n) && (index =? 3)); [|now apply IH]. destruct (unbent n h); [|discriminate]. injection E as <-. apply M.
  - destruct (note =? n); [discriminate|now apply IH].
  - destruct (Z.eqb_spec note n) as [->|_]; [|now apply IH].
    assert (b = (if attribute =? 3 then adata else 512 * n) * 65536) as -> by congruence. clear E. unfold is_u7, is_u16, is_u32 in *.
    destruct (attribute =? 3); lia.
Qed.
Lemma bend_range_ok m v : m2_ok m -> bend_in m = Some v -> is_u32 v.
Proof. destruct m; try discriminate. intros M E. injection E as <-. exact M. Qed.
Lemma range_range_ok m v : m2_ok m -> range_in m = Some v -> is_u32 v.
Proof.
  destruct m; try discriminate. cbn [range_in m2_ok]. destruct (_ && _); [|discriminate]. intros M E. injection E as <-.
  unfold is_u32 in *. dlia.
Qed.
Lemma note_range_range_ok m v : m2_ok m -> note_range_in m = Some v -> is_u32 v.
Proof.
  destruct m; try discriminate. cbn [note_range_in m2_ok]. destruct (_ && _); [|discriminate]. intros M E. injection E as <-. tauto.
Qed.
Lemma note_bend_range_ok n m v : m2_ok m -> note_bend_in n m = Some v -> is_u32 v.
Proof.
  destruct m; try discriminate; cbn [note_bend_in m2_ok]; destruct (_ =? _); try discriminate; intros M E; injection E as <-.
  - tauto.
  - unfold is_u32. lia.
Qed.

(* ---- the arithmetic ----------------------------------------------------------------------------- *)

Lemma saturated_limited s lo hi r : lo <= hi -> saturated s lo hi r -> r = limited lo hi s.
Proof. unfold saturated, limited. lia. Qed.
Lemma limited_range lo hi x : lo <= hi -> lo <= limited lo hi x <= hi.
Proof. unfold limited. lia. Qed.

Lemma product_is pb sens : is_u32 pb -> is_u32 sens ->
  bend_times_sensitivity pb sens = Ok (moved pb sens) /\ sensitivity_times_bend sens pb = Ok (moved pb sens).
Proof.
  intros P Q. destruct (bend_exact pb sens P Q) as (q & r & E1 & E2 & T & S0).
  assert (q = Z.quot ((pb - 2147483648) * sens) 2147483648) as ->.
  { apply (towards_zero_unique ((pb - 2147483648) * sens) 2147483648); [lia|exact T|]. apply quot_towards_zero. lia. }
  apply saturated_limited in S0; [|lia]. unfold moved. rewrite <- S0. auto.
Qed.
Lemma moved_range pb sens : is_s32 (moved pb sens).
Proof. unfold moved, is_s32. pose proof (limited_range (-2147483648) 2147483647 (Z.quot ((pb - 2147483648) * sens) 2147483648)). lia. Qed.
Lemma plus_is p i : is_u32 p -> is_s32 i ->
  pitch_add p i = Ok (limited 0 4294967295 (p + i)) /\ pitch_add_assign p i = Ok (limited 0 4294967295 (p + i)).
Proof.
  intros P I. destruct (pitch_add_ok p i P I) as (r & E & S0). apply saturated_limited in S0; [|lia]. subst r.
  split; exact E.
Qed.
Lemma limited_u32 x : is_u32 (limited 0 4294967295 x).
Proof. unfold is_u32. pose proof (limited_range 0 4294967295 x). lia. Qed.

Definition pitch_is (base bend range nbend nrange : Z) : Z :=
  limited 0 4294967295 (limited 0 4294967295 (base + moved bend range) + moved nbend nrange).
Lemma voice_pitch_is e v : is_u32 (vo_base v) -> is_u32 (vo_bend v) -> is_u32 (en_bend e (vo_group v) (vo_channel v)) ->
  is_u32 (en_range e (vo_group v) (vo_channel v)) -> is_u32 (en_note_range e (vo_group v) (vo_channel v)) ->
  voice_pitch e v = Ok (pitch_is (vo_base v) (en_bend e (vo_group v) (vo_channel v)) (en_range e (vo_group v) (vo_channel v))
                          (vo_bend v) (en_note_range e (vo_group v) (vo_channel v))).
Proof.
  intros B X Y R N. unfold voice_pitch. cbv zeta.
  rewrite (proj1 (product_is _ _ Y R)). cbn [bind]. rewrite (proj1 (plus_is _ _ B (moved_range _ _))). cbn [bind].
  rewrite (proj2 (product_is _ _ X N)). cbn [bind]. now rewrite (proj2 (plus_is _ _ (limited_u32 _) (moved_range _ _))).
Qed.

Lemma usual_u32 : is_u32 usual_range.
Proof. unfold is_u32, usual_range. lia. Qed.
Lemma centre_u32 : is_u32 2147483648.
Proof. unfold is_u32. lia. Qed.
#[local] Hint Resolve usual_u32 centre_u32 bend_range_ok range_range_ok note_range_range_ok note_bend_range_ok on_channel_ok : ranges.

Lemma heard_is e h g ch n : follows e h -> Forall event_ok h -> heard e g ch n = Ok (sounds g ch n h).
Proof.
  intros [B R N V] F. unfold heard. rewrite V. unfold sounds. cbv zeta.
  destruct (unbent n (on_channel g ch h)) as [b|] eqn:U; cbn [option_map]; [|reflexivity].
  rewrite voice_pitch_is; cbn [vo_base vo_bend vo_group vo_channel]; rewrite ?B, ?R, ?N; try apply latest_range; eauto with ranges.
  apply (unbent_range n (on_channel g ch h)); eauto with ranges.
Qed.

Lemma played ms : Forall message_ok ms ->
  exists e, play (map message_packet ms) = Ok e /\ forall g ch n, heard e g ch n = Ok (sounds g ch n (history ms)).
Proof.
  intros F. eexists. split; [now apply play_messages|]. intros g ch n. apply heard_is.
  - unfold history. rewrite <- (app_nil_r (rev _)). apply follows_all, silent_follows.
  - unfold history. apply Forall_rev. now apply meaning_ok.
Qed.

(* ---- in the other protocol ------------------------------------------------------------------------- *)

Lemma upgraded p ms e : Forall message_ok ms -> Forall2 (fun m q => q = message_packet m \/ to_midi2 (message_packet m) = Ok (Some q)) ms p ->
  engine_run e p = engine_run e (map message_packet ms).
Proof.
  intros F R. revert e. induction R as [|m q ms p Q R IH]; intros e; [reflexivity|]. apply Forall_cons_iff in F as [M F].
  cbn [map engine_run]. assert (E : engine_step e q = engine_step e (message_packet m)).
  { destruct Q as [->|Q]; [reflexivity|]. rewrite step_message by exact M. destruct m as [g ch m|g ch m]; destruct M as [A M]; cbn [message_packet meaning_of] in *.
    - rewrite to_midi2_layout in Q by assumption. destruct (translate_to_midi2 m) as [m'|] eqn:T; [|discriminate].
      injection Q as <-. cbn [option_map fold_left]. apply step2; [exact A|now apply (translated_ok m)].
    - unfold to_midi2, as_midi1_view, is_midi1_channel_voice_message in Q.
      rewrite (v2_type _ _ _ _ _ _ _ (layout2_view g ch m A M)) in Q. discriminate Q. }
  rewrite E. destruct (engine_step e (message_packet m)); cbn [bind]; [now apply IH|reflexivity].
Qed.

(* ---- any packets ------------------------------------------------------------------------------------- *)

Definition voice_ok (v : voice) : Prop := is_u32 (vo_base v) /\ is_u32 (vo_bend v).
Record engine_ok (e : engine) : Prop := {
  eo_bend : forall g ch, is_u32 (en_bend e g ch);
  eo_range : forall g ch, is_u32 (en_range e g ch);
  eo_note_range : forall g ch, is_u32 (en_note_range e g ch);
  eo_voices : Forall voice_ok (en_voices e) }.

Lemma put_ok f g ch v : is_u32 v -> (forall g ch, is_u32 (f g ch)) -> forall g' ch', is_u32 (put_for f g ch v g' ch').
Proof. intros U K g' ch'. unfold put_for. now destruct (_ && _). Qed.
Lemma stop_ok g ch n l : Forall voice_ok l -> Forall voice_ok (stop_voice g ch n l).
Proof. intros F. apply Forall_forall. intros v I. apply filter_In in I as [I _]. rewrite Forall_forall in F. now apply F. Qed.
Lemma change_ok g ch n f l : (forall v, voice_ok v -> voice_ok (f v)) -> Forall voice_ok l -> Forall voice_ok (change_voice g ch n f l).
Proof.
  intros K F. apply Forall_map. apply Forall_forall. intros v I. rewrite Forall_forall in F. specialize (F v I).
  destruct (is_voice g ch n v); auto.
Qed.

Lemma bend_readable p : wf_packet p -> ~ bad_packet p -> Z.land (status p) 240 = 224 ->
  exists b, get_channel_pitch_bend_value p = Ok b /\ is_u32 b.
Proof.
  intros W NB K. assert (W1 : is_u32 (w1 p)) by apply W. pose proof (proj2 (pitch_bend_defined p W)) as PB.
  rewrite status_spec, land_240 in K.
  destruct PB as [v E]; [unfold bad_packet in NB; dlia|]. exists v. split; [exact E|].
  unfold get_channel_pitch_bend_value in E. destruct (type p =? pt_midi1_channel_voice); [|congruence].
  apply up14_range in E; [exact E|]. unfold is_u16, u16. apply Z.mod_pos_bound. lia.
Qed.

Lemma step_ok e p : wf_packet p -> ~ bad_packet p -> engine_ok e -> exists e', engine_step e p = Ok e' /\ engine_ok e'.
Proof.
  intros W NB [B R N V]. destruct (getters_in_range p W) as (R1 & R2 & R3 & R4 & R5 & R6 & R7).
  assert (W1 : is_u32 (w1 p)) by apply W.
  assert (M1 : is_u32 (get_pitch_bend_sensitivity_value p)).
  { unfold get_pitch_bend_sensitivity_value. rewrite land_fffc0000 by exact W1. unfold is_u32 in *. dlia. }
  destruct (Z.eq_dec (type p) 2) as [T|T]; [|destruct (Z.eq_dec (type p) 4) as [T'|T']].
  3:{ rewrite step_other by assumption. exists e. split; [reflexivity|now constructor]. }
  all: rewrite step_kinds by auto; unfold kind_step; cbv zeta.
  all: repeat match goal with
    | |- exists e', (if ?c then Ok _ else _) = Ok e' /\ _ => destruct c
    | |- exists e', (if ?c then bind _ _ else _) = Ok e' /\ _ =>
        let K := fresh "K" in destruct c eqn:K;
        [destruct (bend_readable p W NB) as (b & Eb & Ub); [lia|]; rewrite Eb; cbn [bind]|]
    | |- exists e', Ok ?x = Ok e' /\ _ => exists x; split; [reflexivity|]; constructor; cbn [en_bend en_range en_note_range en_voices]; trivial
    end.
  all: try (apply put_ok; trivial).
  all: try (apply stop_ok; exact V).
  all: try (constructor; [|now apply stop_ok]; split; cbn [vo_base vo_bend]; [apply pitch_7_9_widened; exact R2|apply centre_u32]).
  all: apply change_ok; [|exact V]; intros v [V1 V2]; split; cbn [bent retuned vo_base vo_bend]; trivial.
Qed.

Lemma step_bad e p : wf_packet p -> bad_packet p -> exists f, engine_step e p = Fault f.
Proof.
  intros W (A & B & C). assert (T : type p = 2) by (rewrite type_spec by exact W; exact A).
  assert (K : Z.land (status p) 240 = 224) by (rewrite status_spec, land_240; dlia).
  rewrite step_kinds by auto. unfold kind_step. cbv zeta. rewrite T, K. cbn [Z.eqb Pos.eqb andb orb].
  pose proof (proj1 (pitch_bend_defined p W)) as PB.
  destruct (get_channel_pitch_bend_value p) as [v|f]; [|exists f; reflexivity].
  exfalso. destruct PB as [X|X]; [now exists v|lia|lia].
Qed.

Lemma bad_dec p : bad_packet p \/ ~ bad_packet p.
Proof. unfold bad_packet. lia. Qed.

Lemma run_any ps : Forall wf_packet ps -> forall e, engine_ok e ->
  (Forall (fun p => ~ bad_packet p) ps -> exists e', engine_run e ps = Ok e' /\ engine_ok e') /\
  (Exists bad_packet ps -> exists f, engine_run e ps = Fault f).
Proof.
  induction ps as [|p ps IH]; intros W e O.
  { split; [exists e; auto|intros X; inversion X]. }
  apply Forall_cons_iff in W as [Wp W]. cbn [engine_run]. split.
  - intros F. apply Forall_cons_iff in F as [NB F]. destruct (step_ok e p Wp NB O) as (e' & E & O'). rewrite E. cbn [bind].
    now apply (IH W e' O').
  - intros X. destruct (bad_dec p) as [BP|NB].
    + destruct (step_bad e p Wp BP) as [f E]. rewrite E. exists f. reflexivity.
    + apply Exists_cons in X as [X|X]; [contradiction|]. destruct (step_ok e p Wp NB O) as (e' & E & O'). rewrite E. cbn [bind].
      now apply (IH W e' O').
Qed.

Lemma silent_ok : engine_ok silent.
Proof. constructor; cbn; intros; try constructor; unfold is_u32; lia. Qed.

Lemma heard_any e g ch n : engine_ok e -> exists o, heard e g ch n = Ok o /\ forall p, o = Some p -> is_u32 p.
Proof.
  intros [B R N V]. unfold heard. destruct (find _ _) as [v|] eqn:E; [|exists None; split; [reflexivity|discriminate]].
  apply find_some in E as [I _]. rewrite Forall_forall in V. destruct (V v I) as [V1 V2].
  rewrite voice_pitch_is by auto. cbn [bind]. eexists. split; [reflexivity|]. intros p P. injection P as <-. apply limited_u32.
Qed.

Lemma any_packets ps : Forall wf_packet ps ->
  (Forall (fun p => ~ bad_packet p) ps ->
    exists e, play ps = Ok e /\ forall g ch n, exists o, heard e g ch n = Ok o /\ forall p, o = Some p -> is_u32 p) /\
  (Exists bad_packet ps -> exists f, play ps = Fault f).
Proof.
  intros W. destruct (run_any ps W silent silent_ok) as [A B].
  change (play ps) with (engine_run silent ps). split; [|exact B].
  intros F. destruct (A F) as (e & E & O). exists e. split; [exact E|]. intros g ch n. now apply heard_any.
Qed.

(* ---- through MIDI 1 ------------------------------------------------------------------------------------- *)

Definition alike (x y : Z * Z * m2msg) : Prop := fst x = fst y /\ comes_back (snd x) (snd y).

Lemma on_channel_alike g ch h h' : Forall2 alike h h' -> Forall2 comes_back (on_channel g ch h) (on_channel g ch h').
Proof.
  intros R. induction R as [|x y h h' [A C] R IH]; [constructor|]. unfold on_channel. cbn [filter]. rewrite A.
  destruct (_ && _); [constructor; [exact C|exact IH]|exact IH].
Qed.
Lemma unbent_alike n l l' : Forall2 comes_back l l' -> Forall (fun m => translate_to_midi1 m <> None) l -> unbent n l = unbent n l'.
Proof.
  intros R F. induction R as [|x y l l' C R IH]; [reflexivity|]. apply Forall_cons_iff in F as [X F].
  destruct x; cbn [comes_back] in C; try contradiction; try (destruct C as (v' & -> & C)); try subst y; cbn [unbent]; auto.
  - destruct (_ =? _); auto.
  - destruct attribute; cbn [translate_to_midi1] in X; try congruence. cbn [Z.eqb]. destruct (_ =? _); auto.
Qed.
Lemma unranged l l' f : Forall2 comes_back l l' -> (forall m, f m = None \/ exists b i v, m = RegisteredCtrl b i v) ->
  latest f usual_range l = usual_range /\ latest f usual_range l' = usual_range.
Proof.
  intros R K. induction R as [|x y l l' C R IH]; [split; reflexivity|]. cbn [latest].
  destruct (K x) as [->|(b & i & v & ->)]; [|contradiction].
  destruct (K y) as [->|(b & i & v & ->)]; [exact IH|].
  exfalso. destruct x; cbn [comes_back] in C; try contradiction; try (destruct C as (v' & C & _); discriminate C). discriminate C.
Qed.
Lemma note_unbent n l l' : Forall2 comes_back l l' ->
  latest (note_bend_in n) 2147483648 l = 2147483648 /\ latest (note_bend_in n) 2147483648 l' = 2147483648.
Proof.
  intros R. induction R as [|x y l l' C R IH]; [split; reflexivity|]. cbn [latest].
  destruct x; cbn [comes_back] in C; try contradiction; try (destruct C as (v' & -> & C)); try subst y; cbn [note_bend_in]; auto.
  destruct (_ =? _); auto.
Qed.
Lemma bend_alike l l' : Forall2 comes_back l l' ->
  Z.abs (latest bend_in 2147483648 l' - latest bend_in 2147483648 l) < 262144.
Proof.
  intros R. induction R as [|x y l l' C R IH]; [cbn; lia|]. cbn [latest].
  destruct x; cbn [comes_back] in C; try contradiction; try (destruct C as (v' & -> & C)); try subst y; cbn [bend_in]; auto.
  destruct C as [C _]. exact C.
Qed.

Lemma moved_near b b' : Z.abs (b' - b) < 262144 -> Z.abs (moved b' usual_range - moved b usual_range) <= 8192.
Proof.
  intros D. unfold moved, usual_range.
  pose proof (quot_towards_zero ((b - 2147483648) * (2 * 33554432)) 2147483648 ltac:(lia)) as Q.
  pose proof (quot_towards_zero ((b' - 2147483648) * (2 * 33554432)) 2147483648 ltac:(lia)) as Q'.
  set (q := Z.quot ((b - 2147483648) * (2 * 33554432)) 2147483648) in *. set (q' := Z.quot ((b' - 2147483648) * (2 * 33554432)) 2147483648) in *.
  clearbody q q'. unfold towards_zero in *. assert (Z.abs (q' - q) <= 8192) by lia. unfold limited. lia.
Qed.
Lemma limited_near lo hi x y : Z.abs (limited lo hi x - limited lo hi y) <= Z.abs (x - y).
Proof. unfold limited. lia. Qed.

Lemma sounds_alike g ch n h h' : Forall2 alike h h' -> Forall (fun x => translate_to_midi1 (snd x) <> None) h ->
  match sounds g ch n h, sounds g ch n h' with
  | Some p, Some p' => Z.abs (p' - p) <= 8192
  | None, None => True
  | _, _ => False
  end.
Proof.
  intros R F. apply (on_channel_alike g ch) in R.
  assert (F' : Forall (fun m => translate_to_midi1 m <> None) (on_channel g ch h)).
  { unfold on_channel. apply Forall_map. apply Forall_forall. intros x I. apply filter_In in I as [I _].
    rewrite Forall_forall in F. now apply F. }
  unfold sounds. cbv zeta. rewrite <- (unbent_alike n _ _ R F').
  destruct (unbent n (on_channel g ch h)) as [b|]; cbn [option_map]; [|exact I].
  destruct (unranged _ _ range_in R) as [-> ->].
  { intros m. destruct m; cbn [range_in]; eauto. }
  destruct (unranged _ _ note_range_in R) as [-> ->].
  { intros m. destruct m; cbn [note_range_in]; eauto. }
  destruct (note_unbent n _ _ R) as [-> ->]. pose proof (moved_near _ _ (bend_alike _ _ R)) as M.
  eapply Z.le_trans; [apply limited_near|]. 
  eapply Z.le_trans; [|exact M].
  set (x := moved (latest bend_in 2147483648 (on_channel g ch h')) usual_range) in *.
  set (y := moved (latest bend_in 2147483648 (on_channel g ch h)) usual_range) in *.
  pose proof (limited_near 0 4294967295 (b + x) (b + y)). lia.
Qed.

Lemma downgraded ms qs : Forall message_ok ms -> Forall passes ms ->
  Forall2 (fun m q => to_midi1 (message_packet m) = Some q) ms qs ->
  exists ms', qs = map message_packet ms' /\ Forall message_ok ms' /\
    Forall2 alike (concat (map meaning_of ms)) (concat (map meaning_of ms')) /\
    Forall (fun x => translate_to_midi1 (snd x) <> None) (concat (map meaning_of ms)).
Proof.
  intros O P R. induction R as [|m q ms qs Q R IH].
  { exists []. repeat split; constructor. }
  apply Forall_cons_iff in O as [Om O]. apply Forall_cons_iff in P as [Pm P].
  destruct (IH O P) as (ms' & -> & O' & A & N). clear IH. destruct m as [g ch m|g ch m]; [contradiction|].
  destruct Om as [AD M]. cbn [passes message_packet] in *.
  assert (A7 : attribute_7bit m).
  { destruct m; cbn [attribute_7bit]; trivial; cbn [translate_to_midi1] in Pm; destruct attribute; try congruence; unfold is_u7; lia. }
  rewrite to_midi1_layout in Q by assumption. destruct (translate_to_midi1 m) as [m1|] eqn:T; [|contradiction].
  injection Q as <-. destruct (return_ok m m1 M A7 T) as (O1 & m' & T2 & C & _).
  exists (Midi1 g ch m1 :: ms'). split; [reflexivity|]. split; [constructor; [split; assumption|exact O']|].
  cbn [map concat meaning_of]. rewrite T2. cbn [app].
  split; constructor; try assumption. split; [reflexivity|exact C]. cbn [snd]. rewrite T. discriminate.
Qed.

Lemma Forall2_rev {A B} (P : A -> B -> Prop) l l' : Forall2 P l l' -> Forall2 P (rev l) (rev l').
Proof. intros R. induction R; [constructor|]. cbn [rev]. apply Forall2_app; [assumption|now constructor]. Qed.

Lemma through_midi1 ms qs : Forall message_ok ms -> Forall passes ms ->
  Forall2 (fun m q => to_midi1 (message_packet m) = Some q) ms qs ->
  exists e e', play (map message_packet ms) = Ok e /\ play qs = Ok e' /\
    forall g ch n, (heard e g ch n = Ok None /\ heard e' g ch n = Ok None) \/
      exists p p', heard e g ch n = Ok (Some p) /\ heard e' g ch n = Ok (Some p') /\ Z.abs (p' - p) <= 8192.
Proof.
  intros O P R. destruct (downgraded ms qs O P R) as (ms' & -> & O' & A & N).
  destruct (played ms O) as (e & E & H). destruct (played ms' O') as (e' & E' & H').
  exists e, e'. split; [exact E|]. split; [exact E'|]. intros g ch n. rewrite H, H'.
  pose proof (sounds_alike g ch n (history ms) (history ms') (Forall2_rev _ _ _ A) (Forall_rev N)) as S0.
  destruct (sounds g ch n (history ms)) as [p|], (sounds g ch n (history ms')) as [p'|]; try contradiction; [right; eauto|left; auto].
Qed.
