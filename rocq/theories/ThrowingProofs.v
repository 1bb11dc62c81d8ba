(* Lemmas on callbacks that throw *)
From Coq Require Import ZArith List Bool Lia ZifyBool ZifyNat.
From Verif Require Import Base Bits Packet PacketSpec PacketProofs PacketBytes Messages Sysex ByteStream
  StreamSpec StreamLemmas StreamProofs StreamCalls Reentrant ReentrantSpec ReentrantProofs Throwing ThrowingSpec.
From Verif Require Import Collector CollectSpec CollectProofs ReentrantCollectSpec ReentrantCollectProofs.
Import ListNotations.
Local Open Scope Z_scope.
Local Open Scope res_scope.

(* ---- parser ---------------------------------------------------------------------------- *)

Lemma post_x_done t st e k : post_x t st e (fun st => done (k st)) =
  Ok (if m_invoke_callbacks st && t e then st else k st, post st e).
Proof. unfold post_x, post, done. destruct (m_invoke_callbacks st); [|reflexivity]. now destruct (t e). Qed.
Lemma post_x_done' t st e : post_x t st e done = Ok (st, post st e).
Proof. unfold post_x, post, done. destruct (m_invoke_callbacks st); [|reflexivity]. now destruct (t e). Qed.

(* what an exception can leave behind of a system common message *)
Definition stale (st : parser) : Prop := type (m_packet st) <> pt_data /\ m_num_missing_bytes st = 0.
Definition same_conf (s1 s : parser) : Prop :=
  m_group s1 = m_group s /\ has_cb s1 = has_cb s /\ m_invoke_callbacks s1 = m_invoke_callbacks s.
Definition left_behind (s1 s : parser) : Prop :=
  s1 = s \/ m_packet s = packet0 /\ same_conf s1 s /\ (m_packet s1 = packet0 \/ stale s1).

Lemma left_same s : left_behind s s.
Proof. now left. Qed.

Lemma plain_x t st b s o : feed_plain st b = Ok (s, o) -> spares_sysex t ->
  exists s1, feed_plain_x t st b = Ok (s1, o) /\ left_behind s1 s.
Proof.
  intros E SP. unfold feed_plain, feed_plain_x in *.
  destruct (b =? 0xF0). { exists s. split; [exact E|apply left_same]. }
  destruct (0xF0 <? b).
  { unfold system_common, system_common_x in *. cbv zeta in *.
    remember (make_system_message (m_group st) b 0 0) as p.
    destruct (_ || _). { exists s. split; [exact E|apply left_same]. }
    destruct (_ =? 0xF2). { exists s. split; [exact E|apply left_same]. }
    destruct (_ =? 0xF6). 2:{ exists s. split; [exact E|apply left_same]. }
    rewrite post_x_done. injection E as <- <-. eexists. split; [reflexivity|].
    cbn [with_state m_invoke_callbacks]. destruct (m_invoke_callbacks st && t (EPacket p)) eqn:TH; [|apply left_same].
    right. split; [reflexivity|]. split; [now repeat split|]. right. split; [|reflexivity].
    cbn. intros D. rewrite SP in TH by exact D. rewrite andb_false_r in TH. discriminate. }
  destruct (0x80 <=? b).
  { unfold channel_voice, channel_voice_x in *. cbv zeta in *. rewrite post_x_done'.
    exists s. split; [|apply left_same]. rewrite <- E. now destruct (_ =? 0). }
  destruct (_ && _). 2:{ exists s. split; [exact E|apply left_same]. }
  destruct (set_byte _ _ _) as [p|]; [|discriminate]. cbn [bind] in *. cbv zeta in *.
  destruct (u8 (m_num_missing_bytes st - 1) =? 0) eqn:M. 2:{ exists s. split; [exact E|apply left_same]. }
  destruct (Z.ltb_spec (status p) 0xF0); rewrite post_x_done; cbn [with_state m_packet m_invoke_callbacks].
  - replace (0xF0 <=? status p) with false in * by lia. injection E as <- <-. eexists. split; [reflexivity|].
    destruct (_ && _); apply left_same.
  - replace (0xF0 <=? status p) with true in * by lia. injection E as <- <-. eexists. split; [reflexivity|].
    destruct (m_invoke_callbacks st && t (EPacket p)) eqn:TH; [|apply left_same].
    right. split; [reflexivity|]. split; [now repeat split|]. right. split; [|cbn; lia].
    cbn. intros D. rewrite SP in TH by exact D. rewrite andb_false_r in TH. discriminate.
Qed.

Lemma feed_x_shape t st b s o : feed st b = Ok (s, o) -> spares_sysex t ->
  (type (m_packet st) = pt_data -> has_cb st = false -> (b < 0x80 \/ b = 0xF7) -> existsb t o = false) ->
  exists s1, feed_x t st b = Ok (s1, o) /\ left_behind s1 s.
Proof.
  intros E SP SX. unfold feed, feed_x in *. destruct (0xF8 <=? b) eqn:RT.
  { unfold system_realtime, system_realtime_x in *. rewrite post_x_done'. exists s. split; [|apply left_same].
    rewrite <- E. now destruct (_ || _). }
  destruct (Z.eqb_spec (type (m_packet st)) pt_data) as [D|D]; [|now apply plain_x].
  specialize (SX D).
  destruct (b <? 0x80) eqn:L.
  { destruct (has_cb st). { exists s. split; [exact E|apply left_same]. }
    specialize (SX eq_refl ltac:(lia)).
    unfold sysex_continue_packet, sysex_continue_packet_x in *. destruct (set_byte _ _ _) as [p|]; [|discriminate].
    cbn [bind] in *. cbv zeta in *. exists s. split; [|apply left_same]. rewrite <- E.
    destruct (_ =? 8); [|reflexivity]. cbn [with_state m_invoke_callbacks].
    destruct (m_invoke_callbacks st) eqn:I; [|reflexivity].
    destruct (set_byte p 1 _) as [q|]; [|reflexivity]. cbn [bind] in *. unfold post_x.
    cbn [with_packet with_state m_invoke_callbacks m_group]. rewrite I.
    destruct (make_sysex7_continue_packet _) as [c|]; [|discriminate]. cbn [bind] in *. injection E as _ <-.
    cbn [existsb] in SX. apply orb_false_iff in SX. destruct SX as [-> _]. reflexivity. }
  destruct (Z.eqb_spec b 0xF7); cbn [negb] in *; [|now apply plain_x].
  destruct (has_cb st).
  { unfold sysex_end_callback, sysex_end_callback_x in *. cbv zeta in *.
    destruct (_ && _). { exists s. split; [exact E|apply left_same]. }
    rewrite post_x_done. injection E as <- <-. eexists. split; [reflexivity|]. destruct (_ && _); [|apply left_same].
    right. split; [reflexivity|]. split; [now repeat split|]. now left. }
  specialize (SX eq_refl (or_intror e)).
  unfold sysex_end_packet, sysex_end_packet_x in *. cbv zeta in *. exists s. split; [|apply left_same]. rewrite <- E.
  destruct (_ && _); [reflexivity|].
  destruct (set_byte _ _ _) as [p|]; [|reflexivity]. cbn [bind] in *. rewrite post_x_done.
  injection E as _ <-. unfold post in *. cbn [with_packet m_invoke_callbacks]. destruct (m_invoke_callbacks st); [|reflexivity].
  cbn [existsb] in SX. apply orb_false_iff in SX. destruct SX as [-> _]. reflexivity.
Qed.

(* a stale state is treated as one without packet *)
Lemma stale_status t st b : stale st -> 0x80 <= b < 0xF8 -> feed_x t st b = feed_x t (with_packet st packet0) b.
Proof.
  intros [T M] B. unfold feed_x. replace (0xF8 <=? b) with false by lia.
  replace (type (m_packet st) =? pt_data) with false by lia. change (type (m_packet (with_packet st packet0)) =? pt_data) with false.
  cbv iota. unfold feed_plain_x. destruct (b =? 0xF0); [reflexivity|]. destruct (0xF0 <? b); [reflexivity|].
  now replace (0x80 <=? b) with true by lia.
Qed.
Lemma stale_data t st b : stale st -> b < 0x80 -> feed_x t st b = Ok (st, []).
Proof.
  intros [T M] B. unfold feed_x. replace (0xF8 <=? b) with false by lia.
  replace (type (m_packet st) =? pt_data) with false by lia. unfold feed_plain_x.
  replace (b =? 0xF0) with false by lia. replace (0xF0 <? b) with false by lia. replace (0x80 <=? b) with false by lia.
  rewrite M. change (negb (0 =? 0)) with false. now rewrite andb_false_r.
Qed.
Lemma rt_x t st b : 0xF8 <= b -> feed_x t st b = feed st b.
Proof.
  intros B. unfold feed_x, feed. replace (0xF8 <=? b) with true by lia. unfold system_realtime_x, system_realtime.
  now rewrite post_x_done'.
Qed.

(* the packets of a SysEx *)
Lemma emission_sysex c x e : cc_ok c -> Forall is_u8 (match c with Some (_, ds) => map f_byte ds | None => [] end) -> is_u8 (f_byte x) ->
  match c with Some (x0, _) => f_byte x0 = 0xF0 | None => False end -> f_byte x < 0x80 \/ f_byte x = 0xF7 ->
  In e (calls_emission false c x) -> exists p, e = EPacket p /\ type p = 3.
Proof.
  destruct c as [[x0 ds]|]; [|easy]. intros C U B S L. assert (PG := abs_group_ok _ C). cbn [abs_group] in PG.
  unfold calls_emission. destruct (negb (f_on x)); [easy|].
  unfold is_rt. replace (0xF8 <=? f_byte x) with false by lia. rewrite S.
  destruct L as [L|L].
  - replace (f_byte x <? 0x80) with true by lia. unfold on_data. cbn [Z.ltb Z.eqb Z.compare Pos.compare Pos.compare_cont Pos.eqb].
    destruct (_ =? 0)%nat; [|easy]. intros [<-|[]]. eexists. split; [reflexivity|].
    apply sx7_type; [exact PG|destruct (_ =? 6)%nat; lia| |].
    + unfold lastn. rewrite skipn_length. lia.
    + rewrite map_app. apply Forall_lastn. apply Forall_app. split; [exact U|]. now constructor.
  - rewrite L. cbn [Z.ltb Z.eqb Z.compare Pos.compare Pos.compare_cont Pos.eqb andb negb orb].
    unfold on_sysex_end. cbv zeta. destruct (_ =? 0)%nat eqn:E0; [easy|].
    destruct (_ <? 6)%nat eqn:E6; (intros [<-|[]]; eexists; split; [reflexivity|]).
    + apply sx7_type; trivial; [lia|]. apply Nat.ltb_lt in E6. lia.
    + apply sx7_type; trivial; [lia| |now apply Forall_lastn].
      unfold lastn. rewrite skipn_length. pose proof (Nat.mod_upper_bound (length (map f_byte ds)) 6). lia.
Qed.

(* the state of a parser whose callbacks throw *)
Definition xinv (g : Z) (cb on : bool) (c : calls_context) (st : parser) : Prop :=
  cinv g cb on c st \/ stale st /\ cinv g cb on c (with_packet st packet0).

Lemma xinv_left g cb on c s1 s : cinv g cb on c s -> left_behind s1 s -> xinv g cb on c s1.
Proof.
  intros I [->|(P & (C1 & C2 & C3) & H)]; [now left|].
  assert (X := I). destruct X as (G & _ & (X1 & X2 & X3 & _)).
  destruct H as [P1|ST]; [left|right; split; [exact ST|]].
  - rewrite <- X1, <- X3, <- C1, <- C3. apply (cinv_dead g cb on c s); trivial; [lia|congruence].
  - rewrite <- X1, <- X3, <- C1, <- C3.
    apply (cinv_dead g cb on c s (with_packet s1 packet0)); trivial; cbn; [lia|congruence].
Qed.

Lemma cinv_context_u8 g cb on c st : cinv g cb on c st ->
  Forall is_u8 (match c with Some (_, ds) => map f_byte ds | None => [] end).
Proof.
  intros (_ & _ & (_ & _ & _ & H)). destruct c as [[x0 ds]|]; [|constructor]. cbn [abs_ctx] in H.
  destruct H as (_ & D & _). eapply Forall_impl; [|exact D]. unfold is_u7, is_u8. lia.
Qed.

Lemma xinv_feed g cb on c st b t : is_u8 b -> spares_sysex t -> xinv g cb on c st ->
  exists st', feed_x t st b = Ok (st', calls_emission cb c (mkFed b g on)) /\
    xinv g cb on (calls_ctx_step c (mkFed b g on)) st'.
Proof.
  intros B SP. assert (K : forall st, cinv g cb on c st ->
    exists st', feed_x t st b = Ok (st', calls_emission cb c (mkFed b g on)) /\ xinv g cb on (calls_ctx_step c (mkFed b g on)) st').
  { clear st. intros st I. destruct (cinv_feed g cb on c st b B I) as (s & E & I').
    destruct (feed_x_shape t st b s _ E SP) as (s1 & E1 & LB).
    - intros D CB L. destruct (existsb t _) eqn:X; [|reflexivity]. apply existsb_exists in X. destruct X as (e & IN & TE).
      assert (CBf : cb = false) by (destruct I as (_ & _ & (_ & Z2 & _)); congruence). subst cb.
      destruct (emission_sysex c (mkFed b g on) e) as (p & -> & T3); trivial.
      + apply I.
      + now apply (cinv_context_u8 g false on c st).
      + pose proof (cinv_type _ _ _ _ _ I) as CT. rewrite D in CT. change (pt_data =? pt_data) with true in CT.
        destruct c as [[x0 ds]|]; [|discriminate]. lia.
      + rewrite (SP p T3) in TE. discriminate.
    - exists s1. split; [exact E1|]. exact (xinv_left _ _ _ _ _ _ I' LB). }
  intros [I|[ST I]]; [now apply K|].
  destruct (Z.lt_ge_cases b 0x80) as [L|L]; [|destruct (Z.lt_ge_cases b 0xF8) as [L'|L']].
  - destruct (cinv_feed g cb on c _ b B I) as (s & E & I').
    assert (E' : feed (with_packet st packet0) b = Ok (with_packet st packet0, [])).
    { unfold feed. replace (0xF8 <=? b) with false by lia. cbn [with_packet m_packet].
      change (type packet0 =? pt_data) with false. cbv iota. unfold feed_plain.
      replace (b =? 0xF0) with false by lia. replace (0xF0 <? b) with false by lia. replace (0x80 <=? b) with false by lia. reflexivity. }
    rewrite E in E'. injection E' as -> ->. exists st. split; [now apply stale_data|]. right. now split.
  - rewrite stale_status by (trivial; lia). now apply K.
  - destruct (cinv_feed g cb on c _ b B I) as (s & E & I').
    assert (U : exists o, feed st b = Ok (st, o) /\ feed (with_packet st packet0) b = Ok (with_packet st packet0, o)).
    { unfold feed. replace (0xF8 <=? b) with true by lia. unfold system_realtime. destruct (_ || _); eexists; split; reflexivity. }
    destruct U as (o & U1 & U2). rewrite E in U2. injection U2 as -> <-. exists st. rewrite rt_x by lia. split; [exact U1|].
    right. now split.
Qed.

Lemma xinv_enable g cb on on' c st : xinv g cb on c st -> xinv g cb on' c (enable_callbacks st on').
Proof. intros [I|[ST I]]; [left|right; split; [exact ST|]]; exact (cinv_enable g cb on on' c _ I). Qed.
Lemma xinv_set_group g g' cb on c st : 0 <= g' < 16 -> xinv g cb on c st -> xinv g' cb on c (parser_set_group st g').
Proof. intros G [I|[ST I]]; [left|right; split; [exact ST|]]; exact (cinv_set_group g g' cb on c _ G I). Qed.
Lemma xinv_reset g cb on c st : xinv g cb on c st -> xinv g cb on None (parser_reset st).
Proof. intros [I|[ST I]]; left; exact (cinv_reset g cb on c _ I). Qed.

Lemma guarded_refine cb ks : Forall careful ks -> forall g on c st, xinv g cb on c st ->
  exists st', guarded_calls st ks = Ok (st', calls_outputs cb g on c (map call_of ks)).
Proof.
  induction 1 as [|k ks K _ IH]; intros g on c st I; [now exists st|]. cbn [guarded_calls map].
  destruct k as [b t|on'|g'|]; cbn [guarded_step call_of calls_outputs].
  - destruct K as [B SP]. destruct (xinv_feed g cb on c st b t B SP I) as (s1 & E1 & I1). rewrite E1. cbn [bind fst snd].
    destruct (IH _ _ _ _ I1) as (s2 & E2). rewrite E2. cbn [bind fst snd bytes_outputs]. exists s2. now rewrite app_nil_r.
  - cbn [bind fst snd]. destruct (IH _ _ _ _ (xinv_enable _ _ _ on' _ _ I)) as (s2 & E2). rewrite E2. now exists s2.
  - cbn [bind fst snd]. destruct (IH _ _ _ _ (xinv_set_group _ g' _ _ _ _ K I)) as (s2 & E2). rewrite E2. now exists s2.
  - cbn [bind fst snd]. destruct (IH _ _ _ _ (xinv_reset _ _ _ _ _ I)) as (s2 & E2). rewrite E2. now exists s2.
Qed.

Lemma careful_valid ks : Forall careful ks -> Forall valid_call (map call_of ks).
Proof.
  induction 1 as [|k ks K _ IH]; [constructor|]. constructor; [|exact IH].
  destruct k; cbn in *; trivial. now constructor.
Qed.

Lemma guarded_new g cb on ks : 0 <= g < 16 -> Forall careful ks ->
  observed (guarded_calls (new_parser g cb on) ks) = observed (parser_calls (new_parser g cb on) (map call_of ks)) /\
  exists out, observed (guarded_calls (new_parser g cb on) ks) = Ok out.
Proof.
  intros G K. destruct (guarded_refine cb ks K g on None (new_parser g cb on)) as (s1 & E1); [left; now apply cinv_new|].
  destruct (calls_refine cb _ (careful_valid ks K) g on None _ (cinv_new g cb on G)) as (s2 & E2).
  rewrite E1, E2. split; [reflexivity|]. eexists. reflexivity.
Qed.

(* buffers *)
Lemma post_x_one t st e s o : post_x t st e (fun s => done s) = Ok (s, o) -> (length o <= 1)%nat.
Proof. unfold post_x, done. destruct (m_invoke_callbacks st), (t e); intros [= _ <-]; cbn; lia. Qed.
Lemma post_x_one' t st e f s o : post_x t st e (fun s => done (f s)) = Ok (s, o) -> (length o <= 1)%nat.
Proof. unfold post_x, done. destruct (m_invoke_callbacks st), (t e); intros [= _ <-]; cbn; lia. Qed.
Lemma ok_one (a s : parser) (b o : list event) : Ok (a, b) = Ok (s, o) -> (length b <= 1)%nat -> (length o <= 1)%nat.
Proof. intros [= _ <-]. trivial. Qed.
Lemma ok_none (a s : parser) (o : list event) : Ok (a, []) = Ok (s, o) -> (length o <= 1)%nat.
Proof. intros E. eapply ok_one; [exact E|cbn; lia]. Qed.
Lemma ok_single (a s : parser) e (o : list event) : Ok (a, [e]) = Ok (s, o) -> (length o <= 1)%nat.
Proof. intros E. eapply ok_one; [exact E|cbn; lia]. Qed.
Lemma feed_plain_x_one t st b s o : feed_plain_x t st b = Ok (s, o) -> (length o <= 1)%nat.
Proof.
  unfold feed_plain_x, sysex_start, system_common_x, channel_voice_x. cbv zeta.
  repeat match goal with
  | |- (if ?c then _ else _) = _ -> _ => destruct c
  | |- bind ?a _ = _ -> _ => destruct a; cbn [bind]; [|discriminate]
  | |- (let '(_, _) := if ?c then _ else _ in _) = _ -> _ => destruct c
  end; try (now apply post_x_one'); try (now apply post_x_one); apply ok_none.
Qed.
Lemma feed_x_one t st b s o : feed_x t st b = Ok (s, o) -> (length o <= 1)%nat.
Proof.
  unfold feed_x. destruct (0xF8 <=? b).
  { unfold system_realtime_x. destruct (_ || _); [apply ok_none|]. apply post_x_one. }
  destruct (_ =? _); [|apply feed_plain_x_one]. destruct (b <? 0x80).
  { destruct (has_cb st).
    - unfold sysex_continue_callback. cbv zeta. repeat match goal with
      | |- (if ?c then _ else _) = _ -> _ => destruct c
      | |- bind ?a _ = _ -> _ => destruct a; cbn [bind]; [|discriminate]
      end; apply ok_none.
    - unfold sysex_continue_packet_x. destruct (set_byte _ _ _) as [p|]; [|discriminate]. cbn [bind]. cbv zeta.
      destruct (_ =? 8); [|apply ok_none]. unfold post_x, done.
      destruct (m_invoke_callbacks (with_state st _ _ _)) eqn:M.
      + destruct (set_byte p 1 _) as [q|]; [|discriminate]. cbn [bind].
        change (m_invoke_callbacks (with_packet _ q)) with (m_invoke_callbacks st).
        cbn [with_state m_invoke_callbacks] in M. rewrite M.
        destruct (t (EPacket q)); [apply ok_single|].
        destruct (make_sysex7_continue_packet _); cbn [bind fst snd]; [|discriminate]. apply ok_single.
      + destruct (make_sysex7_continue_packet _); cbn [bind fst snd]; [|discriminate]. apply ok_none. }
  destruct (negb _); [apply feed_plain_x_one|]. destruct (has_cb st).
  - unfold sysex_end_callback_x. cbv zeta. destruct (_ && _); [apply ok_none|apply post_x_one'].
  - unfold sysex_end_packet_x. cbv zeta. destruct (_ && _); [apply ok_none|].
    destruct (set_byte _ _ _); [|discriminate]. cbn [bind]. apply post_x_one'.
Qed.
Lemma existsb_removelast {A} (f : A -> bool) l : existsb f l = false -> existsb f (removelast l) = false.
Proof.
  induction l as [|x l IH]; [trivial|]. cbn [existsb]. rewrite orb_false_iff. intros [X L].
  destruct l as [|y l]; [reflexivity|]. change (removelast (x :: y :: l)) with (x :: removelast (y :: l)).
  cbn [existsb]. rewrite X. now apply IH.
Qed.
Lemma buffer_refine g cb on t bs : Forall is_u8 bs -> spares_sysex t -> forall c st, xinv g cb on c st ->
  exists st' pre rest, feed_all_x t st bs = Ok (st', snd (bytes_outputs cb g on c pre), rest) /\ bs = pre ++ rest /\
    (rest <> [] -> existsb t (snd (bytes_outputs cb g on c pre)) = true) /\
    existsb t (removelast (snd (bytes_outputs cb g on c pre))) = false /\
    xinv g cb on (fst (bytes_outputs cb g on c pre)) st'.
Proof.
  intros U SP. induction U as [|b bs B _ IH]; intros c st I.
  { exists st, [], []. cbn. repeat split; trivial. congruence. }
  destruct (xinv_feed g cb on c st b t B SP I) as (s1 & E1 & I1). cbn [feed_all_x]. rewrite E1. cbn [bind fst snd].
  destruct (existsb t _) eqn:X.
  - exists s1, [b], bs. cbn [bytes_outputs fst snd app]. rewrite app_nil_r. repeat split; trivial.
    apply feed_x_one in E1. destruct (calls_emission _ _ _) as [|? [|? ?]]; [reflexivity|reflexivity|cbn in E1; lia].
  - destruct (IH _ _ I1) as (s2 & pre & rest & E2 & EQ & R & RL & I2). rewrite E2. cbn [bind fst snd].
    exists s2, (b :: pre), rest. cbn [bytes_outputs fst snd app]. subst bs. repeat split; trivial.
    { intros N. rewrite existsb_app, (R N). apply orb_true_r. }
    destruct (snd (bytes_outputs _ _ _ _ pre)) as [|e l] eqn:N.
    + rewrite app_nil_r. now apply existsb_removelast.
    + rewrite removelast_app by discriminate. now rewrite existsb_app, X, RL.
Qed.

Lemma guarded_inv cb ks : Forall careful ks -> forall g on c st st' o, xinv g cb on c st -> guarded_calls st ks = Ok (st', o) ->
  exists g' on' c', xinv g' cb on' c' st' /\
    forall later, calls_outputs cb g on c (map call_of ks ++ later) = o ++ calls_outputs cb g' on' c' later.
Proof.
  induction 1 as [|k ks K _ IH]; intros g on c st st' o I.
  { intros [= <- <-]. exists g, on, c. now split. }
  cbn [guarded_calls map].
  destruct k as [b t|on'|g'|]; cbn [guarded_step call_of]; cbn [app calls_outputs].
  - destruct K as [B SP]. destruct (xinv_feed g cb on c st b t B SP I) as (s1 & E1 & I1). rewrite E1. cbn [bind fst snd].
    destruct (guarded_calls s1 ks) as [[s2 o2]|f] eqn:E2; [|discriminate]. cbn [bind fst snd]. intros [= <- <-].
    destruct (IH _ _ _ _ _ _ I1 E2) as (g2 & on2 & c2 & I2 & L). exists g2, on2, c2. split; [exact I2|]. intros later.
    cbn [bytes_outputs fst snd]. rewrite app_nil_r, L. apply app_assoc.
  - cbn [bind fst snd]. destruct (guarded_calls _ ks) as [[s2 o2]|f] eqn:E2; [|discriminate]. intros [= <- <-].
    destruct (IH _ _ _ _ _ _ (xinv_enable _ _ _ on' _ _ I) E2) as (g2 & on2 & c2 & I2 & L). exists g2, on2, c2. now split.
  - cbn [bind fst snd]. destruct (guarded_calls _ ks) as [[s2 o2]|f] eqn:E2; [|discriminate]. intros [= <- <-].
    destruct (IH _ _ _ _ _ _ (xinv_set_group _ g' _ _ _ _ K I) E2) as (g2 & on2 & c2 & I2 & L). exists g2, on2, c2. now split.
  - cbn [bind fst snd]. destruct (guarded_calls _ ks) as [[s2 o2]|f] eqn:E2; [|discriminate]. intros [= <- <-].
    destruct (IH _ _ _ _ _ _ (xinv_reset _ _ _ _ _ I) E2) as (g2 & on2 & c2 & I2 & L). exists g2, on2, c2. now split.
Qed.

Lemma buffer_new g cb on before st o t bs later : 0 <= g < 16 -> Forall careful before -> Forall careful later ->
  Forall is_u8 bs -> spares_sysex t -> guarded_calls (new_parser g cb on) before = Ok (st, o) ->
  exists st1 out read unread st2 o2, feed_all_x t st bs = Ok (st1, out, unread) /\ bs = read ++ unread /\
    (unread <> [] -> existsb t out = true) /\ existsb t (removelast out) = false /\
    guarded_calls st1 later = Ok (st2, o2) /\
    observed (parser_calls (new_parser g cb on) (map call_of before ++ CFeed read :: map call_of later)) = Ok (o ++ out ++ o2).
Proof.
  intros G B L U SP E. destruct (guarded_inv cb before B g on None _ _ _ (or_introl (cinv_new g cb on G)) E) as (g1 & on1 & c1 & I1 & O1).
  destruct (buffer_refine g1 cb on1 t bs U SP c1 st I1) as (s1 & pre & rest & E1 & EQ & R & RL & I2).
  destruct (guarded_refine cb later L g1 on1 _ s1 I2) as (s2 & E2).
  exists s1, (snd (bytes_outputs cb g1 on1 c1 pre)), pre, rest, s2, (calls_outputs cb g1 on1 (fst (bytes_outputs cb g1 on1 c1 pre)) (map call_of later)).
  split; [exact E1|]. split; [exact EQ|]. split; [exact R|]. split; [exact RL|]. split; [exact E2|].
  destruct (calls_refine cb (map call_of before ++ CFeed pre :: map call_of later)) with (g := g) (on := on) (c := @None (fed * list fed)) (st := new_parser g cb on) as (s3 & E3).
  - apply Forall_app. split; [now apply careful_valid|]. constructor; [|now apply careful_valid].
    subst bs. now apply Forall_app in U.
  - now apply cinv_new.
  - rewrite E3. unfold observed. f_equal. rewrite O1. reflexivity.
Qed.

(* ---- collectors ------------------------------------------------------------------------ *)

Section Collectors.
  Context (rd : packet -> option content) (dec : list Z -> sysex) (max : Z).
  Context {C E : Type} (feed_x : (sysex -> bool) -> C -> packet -> res (C * list E)) (reset : C -> C)
    (guarded : C -> list guarded_collect -> res (C * list E)) (inv : astate -> C -> Prop) (ev : sysex * Z -> E).
  Hypothesis g_nil : forall c, guarded c [] = Ok (c, []).
  Hypothesis g_feed : forall c p t ks, guarded c (XKFeed p t :: ks) =
    (r <- feed_x t c p ;; r' <- guarded (fst r) ks ;; Ok (fst r', snd r ++ snd r')).
  Hypothesis g_reset : forall c ks, guarded c (XKReset :: ks) = (r' <- guarded (reset c) ks ;; Ok (fst r', snd r')).
  Hypothesis x_reset : forall st c, inv st c -> inv a_idle (reset c).
  Hypothesis x_skip : forall t c p, wf_packet p -> rd p = None -> feed_x t c p = Ok (c, []).
  Hypothesis x_quiet : forall t st c p x, inv st c -> wf_packet p -> rd p = Some x -> snd (a_step dec max st x) = [] ->
    exists c', feed_x t c p = Ok (c', []) /\ inv (fst (a_step dec max st x)) c'.
  Hypothesis x_loud : forall t st c p x e, inv st c -> wf_packet p -> rd p = Some x -> snd (a_step dec max st x) = [e] ->
    exists c', feed_x t c p = Ok (c', [ev e]) /\
      if t (fst e) then exists b i, inv (mkA b (ct_format x =? 3) i) c' else inv a_idle c'.

  Definition resumed (st : astate) (c : C) (ks : list guarded_collect) : Prop :=
    inv st c \/ st = a_idle /\ exists b several i, inv (mkA b several i) c /\ resumes_clean rd several ks.

  Lemma guarded_ok ks : forall st c, recovers rd dec max st ks -> resumed st c ks ->
    exists c', guarded c ks = Ok (c', map ev (snd (a_calls rd dec max true st (map collect_of ks)))).
  Proof.
    induction ks as [|k ks IH]; intros st c R S.
    { exists c. apply g_nil. }
    destruct k as [p t|]; cbn [recovers map collect_of a_calls] in *.
    - destruct R as [W R]. rewrite g_feed. destruct (rd p) as [x|] eqn:X.
      + assert (I : exists st0, inv st0 c /\ a_step dec max st0 x = a_step dec max st x).
        { destruct S as [I|(-> & b & several & i & I & RC)]; [now exists st|]. cbn [resumes_clean] in RC. rewrite X in RC.
          destruct RC as [-> F]. exists (mkA b true i). split; [exact I|]. now apply step_open. }
        destruct I as (st0 & I & EQ). destruct (a_step dec max st x) as [st' e] eqn:AS. destruct R as [RC R]. cbn [fst snd].
        destruct e as [|e l].
        * destruct (x_quiet t st0 c p x I W X) as (c1 & -> & I1); [now rewrite EQ|]. cbn [bind fst snd]. rewrite EQ in I1.
          destruct (IH st' c1 R (or_introl I1)) as (c2 & ->). cbn [bind fst snd]. exists c2. reflexivity.
        * destruct (step_delivers dec max _ _ _ _ AS ltac:(discriminate)) as (-> & v & [= -> ->]).
          destruct (x_loud t st0 c p x (v, ct_stream x) I W X) as (c1 & -> & I1); [now rewrite EQ|]. cbn [bind fst snd].
          destruct (IH a_idle c1 R) as (c2 & ->).
          { cbn [fst map existsb] in *. destruct (t v); [|left; exact I1]. right. split; [reflexivity|].
            destruct I1 as (b & i & I1). exists b, (ct_format x =? 3), i. split; [exact I1|]. now apply RC. }
          cbn [bind fst snd]. exists c2. reflexivity.
      + rewrite x_skip by assumption. cbn [bind fst snd].
        destruct (IH st c R) as (c2 & ->).
        { destruct S as [I|(-> & b & several & i & I & RC)]; [now left|]. cbn [resumes_clean] in RC. rewrite X in RC.
          right. split; [reflexivity|]. now exists b, several, i. }
        cbn [bind fst snd]. now exists c2.
    - rewrite g_reset. destruct (IH a_idle (reset c) R) as (c2 & ->).
      { left. destruct S as [I|(_ & b & several & i & I & _)]; exact (x_reset _ _ I). }
      cbn [bind fst snd]. now exists c2.
  Qed.
End Collectors.

Lemma recovers_keeps rd dec max ks : forall st, recovers rd dec max st ks -> Forall keeps_limit (map collect_of ks).
Proof.
  induction ks as [|[p t|] ks IH]; intros st R; cbn in *; [constructor| |constructor; [exact I|exact (IH _ R)]].
  destruct R as [W R]. constructor; [exact W|]. destruct (rd p) as [x|]; [|exact (IH _ R)].
  destruct (a_step dec max st x). exact (IH _ (proj2 R)).
Qed.

Lemma c7_feed_x_gen a t c p : c7_feed_x a t c p = c7_feed_gen a (fun c =>
  Ok (if c7_has_cb c && t (c7_sysex c) then c else c7_reset a c, if c7_has_cb c then [c7_sysex c] else [])) c p.
Proof. reflexivity. Qed.
Lemma c8_feed_x_gen a t c p : c8_feed_x a t c p = c8_feed_gen a (fun c =>
  Ok (if c8_has_cb c && t (c8_sysex c) then c else c8_reset a c, if c8_has_cb c then [(c8_sysex c, c8_stream c)] else [])) c p.
Proof. reflexivity. Qed.

Lemma guarded7_like a max ks : limit_alloc a max -> recovers content7 decode7 max a_idle ks ->
  let c := c7_set_max a (new_collector7 true) max in
  observed (guarded7 a c ks) = observed (c7_calls a c (map collect_of ks)) /\ exists out, observed (guarded7 a c ks) = Ok out.
Proof.
  intros A R c. assert (I := inv7_new a max true A). fold c in I.
  destruct (guarded_ok content7 decode7 max (c7_feed_x a) (c7_reset a) (guarded7 a) (inv7 max true) fst) with (ks := ks) (st := a_idle) (c := c) as (c1 & E1); trivial.
  - intros st d J. exact (inv7_reset a max true st d 0 A J).
  - intros t d p W X. unfold c7_feed_x. now rewrite (content7_none p W X).
  - intros t st d p x J W X Q. rewrite c7_feed_x_gen. exact (feed7_gen_quiet a max _ st d p x A J W X Q).
  - intros t st d p x e J W X Q. rewrite c7_feed_x_gen.
    match goal with |- context[c7_feed_gen a ?l d p] => destruct (feed7_gen_loud a max l st d p x e A J W X Q) as (b & i & c' & J' & CB & EV & ->) end.
    rewrite CB, EV. cbn [andb]. eexists. split; [reflexivity|]. destruct (t (fst e)).
    + now exists b, i.
    + exact (inv7_reset a max true _ _ 0 A J').
  - now left.
  - destruct (calls7_refine a max (map collect_of ks) A (recovers_keeps _ _ _ _ _ R) true a_idle c I) as (c2 & E2 & _).
    rewrite E1, E2. split; [reflexivity|]. eexists. reflexivity.
Qed.

Lemma guarded8_like a max ks : limit_alloc a max -> recovers content8 decode8 max a_idle ks ->
  let c := c8_set_max a (new_collector8 true) max in
  observed (guarded8 a c ks) = observed (c8_calls a c (map collect_of ks)) /\ exists out, observed (guarded8 a c ks) = Ok out.
Proof.
  intros A R c. assert (I := inv8_new a max true A). fold c in I.
  destruct (guarded_ok content8 decode8 max (c8_feed_x a) (c8_reset a) (guarded8 a) (inv8 max true) (fun e => e)) with (ks := ks) (st := a_idle) (c := c) as (c1 & E1); trivial.
  - intros st d J. exact (inv8_reset a max true st d A J).
  - intros t d p W X. unfold c8_feed_x. now rewrite (content8_none p W X).
  - intros t st d p x J W X Q. rewrite c8_feed_x_gen. exact (feed8_gen_quiet a max _ st d p x A J W X Q).
  - intros t st d p x e J W X Q. rewrite c8_feed_x_gen.
    match goal with |- context[c8_feed_gen a ?l d p] => destruct (feed8_gen_loud a max l st d p x e A J W X Q) as (b & i & c' & J' & CB & EV & ->) end.
    rewrite CB, EV. cbn [andb]. eexists. split; [reflexivity|]. subst e. cbn [fst]. destruct (t (c8_sysex c')).
    + now exists b, i.
    + exact (inv8_reset a max true _ _ A J').
  - now left.
  - destruct (calls8_refine a max (map collect_of ks) A (recovers_keeps _ _ _ _ _ R) true a_idle c I) as (c2 & E2 & _).
    rewrite E1, E2, map_id. split; [reflexivity|]. eexists. reflexivity.
Qed.
