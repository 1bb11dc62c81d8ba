(* Proofs about callbacks that call back into the parser *)
From Coq Require Import ZArith List Bool Lia ZifyBool ZifyNat.
From Verif Require Import Base Bits Packet PacketSpec PacketProofs PacketBytes
  Messages Sysex ByteStream StreamSpec StreamProofs StreamLemmas StreamCalls Reentrant ReentrantSpec.
Import ListNotations.
Local Open Scope Z_scope.
Local Open Scope res_scope.

(* ---- structure -------------------------------------------------------------------------- *)

Section NestedInd.
  Variable P : nested_call -> Prop.
  Hypothesis HF : forall b during, Forall P during -> P (NFeed b during).
  Hypothesis HE : forall on, P (NEnable on).
  Hypothesis HG : forall g, P (NSetGroup g).
  Hypothesis HR : P NReset.
  Fixpoint nested_ind (k : nested_call) : P k :=
    match k with
    | NFeed b during =>
        HF b during ((fix go (ks : list nested_call) : Forall P ks :=
                        match ks with
                        | [] => Forall_nil P
                        | k :: ks' => Forall_cons k (nested_ind k) (go ks')
                        end) during)
    | NEnable on => HE on
    | NSetGroup g => HG g
    | NReset => HR
    end.
End NestedInd.

Lemma nested_feed st b during : nested_step st (NFeed b during) = feed_in (fun st => nested_calls st during) st b.
Proof. reflexivity. Qed.
Lemma spec_feed cb g on c b during :
  nested_spec cb (g, on, c) (NFeed b during) =
    let x := mkFed b g on in
    let later := (g, on, calls_ctx_step c x) in
    match calls_emission cb c x with
    | [] => (later, [])
    | e => let r := nested_specs cb later during in
           let '(g', on', c') := fst r in
           (g', on', if in_sysex_packets cb c b then calls_ctx_step c (mkFed b g' on) else c', e ++ snd r)
    end.
Proof. reflexivity. Qed.
Lemma permitted_feed cb g on c b during :
  permitted cb (g, on, c) (NFeed b during) =
    let x := mkFed b g on in
    let later := (g, on, calls_ctx_step c x) in
      (is_u8 b /\
      (calls_emission cb c x <> [] ->
       all_permitted cb later during /\
       (Forall is_control during \/
        let after := snd (fst (nested_specs cb later during)) in
        if is_rt b then True
        else if b <? 0x80 then
          match c with Some (x0, _) => f_byte x0 < 0xF0 /\ ~ common_unfinished after | None => False end
        else if b =? 0xF7 then cb = true /\ ~ in_sysex after
        else False))).
Proof. reflexivity. Qed.
Lemma undisturbed_feed cb g on c b during :
  sysex_undisturbed cb (g, on, c) (NFeed b during) =
    let x := mkFed b g on in
    let later := (g, on, calls_ctx_step c x) in
      (calls_emission cb c x <> [] ->
       (in_sysex_packets cb c b = true -> Forall only_enable during) /\ all_undisturbed cb later during).
Proof. reflexivity. Qed.
Lemma afterwards_feed st b during :
  afterwards_step st (NFeed b during) =
    (r <- feed st b ;;
     match snd r with
     | [] => Ok r
     | out => r' <- afterwards (fst r) during ;; Ok (fst r', out ++ snd r')
     end).
Proof. reflexivity. Qed.

(* ---- a callback without calls -------------------------------------------------------------- *)

Definition idle (st : parser) : result := Ok (st, []).

Lemma post_idle st e : post_in idle st e = Ok (st, post st e).
Proof. unfold post_in, post, idle. now destruct (m_invoke_callbacks st). Qed.

Lemma plain_idle st b : feed_plain_in idle st b = feed_plain st b.
Proof.
  unfold feed_plain_in, feed_plain. destruct (b =? 0xF0); [reflexivity|].
  destruct (0xF0 <? b).
  { unfold system_common_in, system_common. repeat (destruct (_ || _); [reflexivity|]).
    destruct (_ =? 0xF2); [reflexivity|]. destruct (_ =? 0xF6); [|reflexivity].
    rewrite post_idle. reflexivity. }
  destruct (0x80 <=? b).
  { unfold channel_voice_in, channel_voice. cbv zeta. rewrite post_idle. now destruct (_ =? 0). }
  destruct (_ && _); [|reflexivity].
  destruct (set_byte _ _ _) as [p|]; [|reflexivity]. cbn [bind]. destruct (_ =? 0); [|reflexivity].
  destruct (Z.ltb_spec (status p) 0xF0).
  - rewrite post_idle. cbn [bind fst snd with_state m_packet]. replace (0xF0 <=? status p) with false by lia. reflexivity.
  - rewrite post_idle. cbn [bind fst snd with_state m_packet]. replace (0xF0 <=? status p) with true by lia. reflexivity.
Qed.

Lemma feed_idle st b : feed_in idle st b = feed st b.
Proof.
  unfold feed_in, feed. destruct (0xF8 <=? b).
  { unfold system_realtime_in, system_realtime. rewrite post_idle. reflexivity. }
  destruct (_ =? pt_data); [|apply plain_idle]. destruct (b <? 0x80).
  { destruct (has_cb st); [reflexivity|].
    unfold sysex_continue_packet_in, sysex_continue_packet. destruct (set_byte _ _ _) as [p|]; [|reflexivity].
    cbn [bind]. destruct (_ =? 8); [|reflexivity]. cbn [with_state m_invoke_callbacks].
    destruct (m_invoke_callbacks st) eqn:E.
    - destruct (set_byte p 1 _) as [q|]; [|reflexivity]. cbn [bind]. rewrite post_idle. unfold post.
      cbn [with_packet with_state m_invoke_callbacks]. rewrite E. reflexivity.
    - cbn [bind fst]. reflexivity. }
  destruct (negb _); [apply plain_idle|]. destruct (has_cb st).
  { unfold sysex_end_callback_in, sysex_end_callback. cbv zeta. destruct (_ && _); [reflexivity|].
    rewrite post_idle. reflexivity. }
  unfold sysex_end_packet_in, sysex_end_packet. cbv zeta. destruct (_ && _); [reflexivity|].
  destruct (set_byte _ _ _) as [p|]; [|reflexivity]. cbn [bind]. rewrite post_idle. reflexivity.
Qed.

(* ---- bytes that lead to no callback ---------------------------------------------------------- *)

Lemma post_off run st e : m_invoke_callbacks st = false -> post_in run st e = Ok (st, []).
Proof. intros E. unfold post_in. now rewrite E. Qed.

(* if no callback is invoked, the callback does not matter *)
Lemma feed_quiet run st b st' : feed st b = Ok (st', []) -> feed_in run st b = Ok (st', []).
Proof.
  intros E. rewrite <- feed_idle in E. unfold feed_in in *.
  assert (PQ : forall st e (x : parser) (k : parser -> parser), (r <- post_in idle st e ;; Ok (k (fst r), snd r)) = Ok (x, []) ->
               (r <- post_in run st e ;; Ok (k (fst r), snd r)) = Ok (x, [])).
  { intros s e x k. unfold post_in. destruct (m_invoke_callbacks s); [|trivial]. cbn. discriminate. }
  assert (PQ0 : forall st e x, post_in idle st e = Ok (x, []) -> post_in run st e = Ok (x, [])).
  { intros s e x. unfold post_in. destruct (m_invoke_callbacks s); [|trivial]. cbn. discriminate. }
  assert (PL : forall st, feed_plain_in idle st b = Ok (st', []) -> feed_plain_in run st b = Ok (st', [])).
  { clear E st. intros st E. unfold feed_plain_in in *. destruct (b =? 0xF0); [assumption|].
    destruct (0xF0 <? b).
    { unfold system_common_in in *. cbv zeta in *. destruct (_ || _); [assumption|].
      destruct (_ =? 0xF2); [assumption|]. destruct (_ =? 0xF6); [|assumption].
      now apply (PQ _ _ _ (fun s => with_packet s packet0)). }
    destruct (0x80 <=? b).
    { unfold channel_voice_in in *. cbv zeta in *. destruct (_ =? 0); [|assumption]. now apply PQ0. }
    destruct (_ && _); [|assumption].
    destruct (set_byte _ _ _) as [p|]; [|assumption]. cbn [bind] in *. cbv zeta in *.
    destruct (u8 (m_num_missing_bytes st - 1) =? 0); [|assumption].
    destruct (if status p <? 0xF0 then _ else _) as [m k].
    now apply (PQ _ _ _ (fun s => if 0xF0 <=? status (m_packet s) then with_packet s packet0 else s)). }
  destruct (0xF8 <=? b).
  { unfold system_realtime_in in *. destruct (_ || _); [assumption|]. now apply PQ0. }
  destruct (_ =? pt_data); [|now apply PL]. destruct (b <? 0x80).
  { destruct (has_cb st); [assumption|].
    unfold sysex_continue_packet_in in *. destruct (set_byte _ _ _) as [p|]; [|assumption].
    cbn [bind] in *. cbv zeta in *. destruct (_ =? 8); [|assumption]. cbn [with_state m_invoke_callbacks] in *.
    destruct (m_invoke_callbacks st) eqn:I; [|assumption].
    destruct (set_byte p 1 _) as [q|]; [|assumption]. cbn [bind] in *. rewrite post_idle in E. unfold post in E.
    cbn [with_packet with_state m_invoke_callbacks] in E. rewrite I in E. cbn [bind fst snd] in E.
    destruct (make_sysex7_continue_packet _); discriminate E. }
  destruct (negb _); [now apply PL|]. destruct (has_cb st).
  { unfold sysex_end_callback_in in *. cbv zeta in *. destruct (_ && _); [assumption|].
    now apply (PQ _ _ _ (fun s => with_sysex s sysex_empty_value (m_packet_byte s))). }
  unfold sysex_end_packet_in in *. cbv zeta in *. destruct (_ && _); [assumption|].
  destruct (set_byte _ _ _) as [p|]; [|assumption]. cbn [bind] in *.
  now apply (PQ _ _ _ (fun s => with_state s packet0 2 (m_num_missing_bytes s))).
Qed.

(* ---- bytes that lead to a callback ------------------------------------------------------------- *)

Lemma loud_rt run st b st' e l : 0xF8 <= b -> feed st b = Ok (st', e :: l) ->
  feed_in run st b = (r <- run st' ;; Ok (fst r, (e :: l) ++ snd r)).
Proof.
  intros R E. unfold feed, feed_in in *. replace (0xF8 <=? b) with true in * by lia.
  unfold system_realtime, system_realtime_in in *. destruct (_ || _); [discriminate|].
  unfold post, post_in in *. destruct (m_invoke_callbacks st); [|discriminate]. injection E as <- <- <-. reflexivity.
Qed.

Definition clear_common (st : parser) : parser :=
  if 0xF0 <=? status (m_packet st) then with_packet st packet0 else st.

Lemma loud_cv run st b st' e l : b < 0x80 -> type (m_packet st) <> pt_data ->
  feed st b = Ok (st', e :: l) -> status (m_packet st') <> 0 ->
  feed_in run st b = (r <- run st' ;; Ok (clear_common (fst r), (e :: l) ++ snd r)).
Proof.
  intros R T E N. unfold feed, feed_in in *. replace (0xF8 <=? b) with false in * by lia.
  replace (type (m_packet st) =? pt_data) with false in * by lia.
  unfold feed_plain, feed_plain_in in *. replace (b =? 0xF0) with false in * by lia.
  replace (0xF0 <? b) with false in * by lia. replace (0x80 <=? b) with false in * by lia.
  destruct (_ && _); [|discriminate]. destruct (set_byte _ _ _) as [p|]; [|discriminate]. cbn [bind] in *.
  destruct (u8 (m_num_missing_bytes st - 1) =? 0); [|discriminate].
  destruct (Z.ltb_spec (status p) 0xF0) as [L|L].
  - unfold post in E. destruct (m_invoke_callbacks st) eqn:I; [|discriminate].
    replace (0xF0 <=? status p) with false in E by lia.
    injection E as <- <- <-. unfold post_in. cbn [with_state m_invoke_callbacks]. rewrite I.
    unfold bind. destruct (run _) as [[st1 o]|f]; reflexivity.
  - replace (0xF0 <=? status p) with true in E by lia. injection E as <- _. cbn in N. congruence.
Qed.

Lemma loud_cb run st st' e l : type (m_packet st) = pt_data -> has_cb st = true ->
  feed st 0xF7 = Ok (st', e :: l) ->
  let mid := with_packet st packet0 in
  feed_in run st 0xF7 =
    (r <- run mid ;; Ok (with_sysex (fst r) sysex_empty_value (m_packet_byte (fst r)), (e :: l) ++ snd r)).
Proof.
  intros T H E mid. unfold feed, feed_in in *. cbn [Z.leb Z.compare Pos.compare Pos.compare_cont Z.ltb Z.eqb Pos.eqb negb] in *.
  rewrite T, H in *. cbn [Z.eqb Pos.eqb pt_data] in *. unfold sysex_end_callback, sysex_end_callback_in in *. cbv zeta in *.
  destruct (_ && _); [discriminate|]. unfold post in E. unfold post_in. fold mid in E |- *.
  destruct (m_invoke_callbacks mid); [|discriminate]. injection E as <- <- <-. unfold bind.
  destruct (run mid) as [[st1 o]|f]; reflexivity.
Qed.

(* ---- callbacks without feed() --------------------------------------------------------------------- *)

Definition control (k : nested_call) (st : parser) : parser :=
  match k with
  | NFeed _ _ => st
  | NEnable on => enable_callbacks st on
  | NSetGroup g => parser_set_group st g
  | NReset => parser_reset st
  end.
Fixpoint controls (ks : list nested_call) (st : parser) : parser :=
  match ks with [] => st | k :: ks' => controls ks' (control k st) end.
Fixpoint grp (ks : list nested_call) (g : Z) : Z :=
  match ks with [] => g | NSetGroup g' :: ks' => grp ks' g' | _ :: ks' => grp ks' g end.
Fixpoint ons (ks : list nested_call) (on : bool) : bool :=
  match ks with [] => on | NEnable on' :: ks' => ons ks' on' | _ :: ks' => ons ks' on end.
Fixpoint rst (ks : list nested_call) : bool :=
  match ks with [] => false | NReset :: _ => true | _ :: ks' => rst ks' end.

Lemma controls_run ks : Forall is_control ks -> forall st, nested_calls st ks = Ok (controls ks st, []).
Proof.
  induction 1 as [|k ks K _ IH]; intros st; [reflexivity|]. cbn [nested_calls controls].
  destruct k; [destruct K|..]; cbn [nested_step bind fst snd control]; rewrite IH; reflexivity.
Qed.
Lemma controls_after ks : Forall is_control ks -> forall st, afterwards st ks = Ok (controls ks st, []).
Proof.
  induction 1 as [|k ks K _ IH]; intros st; [reflexivity|]. cbn [afterwards controls].
  destruct k; [destruct K|..]; cbn [afterwards_step bind fst snd control]; rewrite IH; reflexivity.
Qed.
Lemma controls_spec cb ks : Forall is_control ks -> forall g on c,
  nested_specs cb (g, on, c) ks = ((grp ks g, ons ks on, if rst ks then None else c), []).
Proof.
  induction 1 as [|k ks K _ IH]; intros g on c; [reflexivity|].
  change (nested_specs cb (g, on, c) (k :: ks)) with
    (let r := nested_spec cb (g, on, c) k in
     let r' := nested_specs cb (fst r) ks in (fst r', snd r ++ snd r')).
  destruct k; [destruct K|..]; cbn [nested_spec fst snd grp ons rst]; rewrite IH; cbn [fst snd app]; try reflexivity.
  now destruct (rst ks).
Qed.
Lemma controls_group ks : forall st, m_group (controls ks st) = grp ks (m_group st).
Proof. induction ks as [|[] ks IH]; intros st; cbn [controls grp control]; rewrite ?IH; reflexivity. Qed.
Lemma controls_on ks : forall st, m_invoke_callbacks (controls ks st) = ons ks (m_invoke_callbacks st).
Proof. induction ks as [|[] ks IH]; intros st; cbn [controls ons control]; rewrite ?IH; reflexivity. Qed.
Lemma controls_cb ks : forall st, has_cb (controls ks st) = has_cb st.
Proof. induction ks as [|[] ks IH]; intros st; cbn [controls control]; rewrite ?IH; reflexivity. Qed.
Lemma controls_packet0 ks : forall st, m_packet st = packet0 -> m_packet (controls ks st) = packet0.
Proof. induction ks as [|[] ks IH]; intros st E; cbn [controls control]; trivial; apply IH; trivial. Qed.
Lemma controls_packet ks : forall st, m_packet (controls ks st) = if rst ks then packet0 else m_packet st.
Proof.
  induction ks as [|[] ks IH]; intros st; cbn [controls control rst]; rewrite ?IH; trivial.
  cbn [parser_reset m_packet]. now destruct (rst ks).
Qed.
Lemma controls_same ks : rst ks = false -> forall st,
  m_sysex (controls ks st) = m_sysex st /\ m_packet_byte (controls ks st) = m_packet_byte st /\
  m_num_missing_bytes (controls ks st) = m_num_missing_bytes st.
Proof.
  induction ks as [|[] ks IH]; intros E st; cbn [controls control rst] in *; trivial; try discriminate;
    repeat split; rewrite ?(proj1 (IH E _)), ?(proj1 (proj2 (IH E _))), ?(proj2 (proj2 (IH E _))); reflexivity.
Qed.
Lemma grp_ok cb ks : Forall is_control ks -> forall g on c, all_permitted cb (g, on, c) ks -> 0 <= g < 16 -> 0 <= grp ks g < 16.
Proof.
  induction 1 as [|k ks K _ IH]; intros g on c A G; [exact G|]. destruct A as (A1 & A2).
  destruct k; [destruct K|..]; cbn [grp]; cbn [nested_spec fst] in A2; eapply IH; try exact A2; trivial.
Qed.

(* the state only matters through its configuration if nothing is in progress *)
Lemma inv_packet0 g p al cb on c st st2 : 0 <= p < 16 -> inv g p al cb on c st -> m_packet st = packet0 ->
  has_cb st2 = cb -> m_packet st2 = packet0 -> inv (m_group st2) p al cb (m_invoke_callbacks st2) c st2.
Proof.
  intros PG (Hg & Hcb & Hon & H) E C2 E2. split; [reflexivity|]. split; [assumption|]. split; [reflexivity|].
  destruct c as [[s ds]|]; [|assumption]. destruct H as (Hs & Hd & H). split; [assumption|]. split; [assumption|].
  destruct (Z.ltb_spec s 0xF0).
  { exfalso. destruct H as (a & b & Ha & Hb & Hp & _). rewrite E in Hp.
    assert (X : status packet0 = s) by (rewrite Hp; apply short_status; unfold is_u8, is_u7 in *; repeat constructor; lia).
    change (status packet0) with 0 in X. lia. }
  destruct (Z.eqb_spec s 0xF0) as [->|N].
  { exfalso. assert (T : type (m_packet st) =? pt_data = true).
    { rewrite (inv_not_data g p al cb on 0xF0 ds st PG); [reflexivity|].
      exact (conj Hg (conj Hcb (conj Hon (conj Hs (conj Hd H))))). }
    rewrite E in T. discriminate T. }
  unfold sc_inv in *. destruct (sc_len s) as [n|] eqn:L; [|assumption].
  destruct (length ds <? n)%nat; [|assumption]. exfalso. destruct H as (Hp & _). rewrite E in Hp.
  assert (X : status packet0 = s).
  { rewrite Hp. apply short_status; [assumption|unfold is_u8; lia|].
    eapply Forall_impl; [|exact Hd]. unfold is_u7, is_u8. lia. }
  change (status packet0) with 0 in X. lia.
Qed.

Lemma post_controls ks st e : Forall is_control ks -> m_invoke_callbacks st = true ->
  post_in (fun st => nested_calls st ks) st e = Ok (controls ks st, [e]).
Proof. intros K I. unfold post_in. rewrite I, controls_run by assumption. reflexivity. Qed.

Lemma controls_conf ks st st1 : m_group st1 = m_group st -> has_cb st1 = has_cb st ->
  m_invoke_callbacks st1 = m_invoke_callbacks st ->
  m_group (controls ks st1) = grp ks (m_group st) /\ m_invoke_callbacks (controls ks st1) = ons ks (m_invoke_callbacks st) /\
  has_cb (controls ks st1) = has_cb st.
Proof. intros A B C. rewrite controls_group, controls_on, controls_cb, A, B, C. repeat split. Qed.

Lemma plain_dead ks st b st' e l : Forall is_control ks -> b < 0xF8 ->
  feed_plain st b = Ok (st', e :: l) -> m_packet st' = packet0 ->
  exists st2, feed_plain_in (fun st => nested_calls st ks) st b = Ok (st2, e :: l) /\ m_packet st2 = packet0 /\
    m_group st2 = grp ks (m_group st) /\ m_invoke_callbacks st2 = ons ks (m_invoke_callbacks st) /\
    has_cb st2 = has_cb st.
Proof.
  intros K B E P0. unfold feed_plain, feed_plain_in in *.
  destruct (b =? 0xF0).
  { unfold sysex_start in E. destruct (make_sysex7_start_packet _); [|discriminate]. cbn [bind] in E.
    destruct (has_cb _); discriminate. }
  destruct (0xF0 <? b).
  { unfold system_common, system_common_in in *. cbv zeta in *.
    remember (make_system_message (m_group st) b 0 0) as p. destruct (_ || _); [discriminate|].
    destruct (_ =? 0xF2); [discriminate|]. destruct (_ =? 0xF6); [|discriminate].
    unfold post in E. destruct (m_invoke_callbacks st) eqn:I; [|discriminate]. injection E as _ <- <-.
    rewrite post_controls by assumption. cbn [bind fst snd]. eexists. split; [reflexivity|]. split; [reflexivity|].
    rewrite <- I. apply controls_conf; reflexivity. }
  destruct (0x80 <=? b).
  { unfold channel_voice, channel_voice_in in *. cbv zeta in *.
    remember (midi1_cv (m_group st) b 0 0) as p. remember (if _ || _ then 2 else _) as m.
    clear Heqm. destruct (m =? 0); [|discriminate].
    unfold post in E. destruct (m_invoke_callbacks st) eqn:I; [|discriminate]. injection E as <- <- <-.
    rewrite post_controls by assumption. eexists. split; [reflexivity|].
    split; [now apply controls_packet0|]. rewrite <- I. apply controls_conf; reflexivity. }
  destruct (_ && _); [|discriminate]. destruct (set_byte _ _ _) as [p|]; [|discriminate]. cbn [bind] in *. cbv zeta in *.
  destruct (u8 (m_num_missing_bytes st - 1) =? 0); [|discriminate].
  destruct (if status p <? 0xF0 then _ else _) as [m k].
  unfold post in E. destruct (m_invoke_callbacks st) eqn:I; [|discriminate]. injection E as <- <- <-.
  rewrite post_controls by assumption. cbn [bind fst snd]. eexists. split; [reflexivity|].
  assert (CC := controls_conf ks st (with_state st p k m) eq_refl eq_refl eq_refl). rewrite I in CC.
  cbn [with_state m_packet] in P0. rewrite controls_packet. cbn [with_state m_packet].
  destruct (rst ks) eqn:R.
  - change (0xF0 <=? status packet0) with false. cbv iota. rewrite controls_packet, R. split; [reflexivity|exact CC].
  - destruct (0xF0 <=? status p).
    + split; [reflexivity|exact CC].
    + rewrite controls_packet, R. split; [assumption|exact CC].
Qed.

Lemma loud_dead ks st b st' e l : Forall is_control ks -> b < 0xF8 ->
  (b < 0x80 -> type (m_packet st) <> pt_data) ->
  feed st b = Ok (st', e :: l) -> m_packet st' = packet0 ->
  exists st2, feed_in (fun st => nested_calls st ks) st b = Ok (st2, e :: l) /\ m_packet st2 = packet0 /\
    m_group st2 = grp ks (m_group st) /\ m_invoke_callbacks st2 = ons ks (m_invoke_callbacks st) /\
    has_cb st2 = has_cb st.
Proof.
  intros K B T E P0. unfold feed, feed_in in *. replace (0xF8 <=? b) with false in * by lia.
  destruct (Z.eqb_spec (type (m_packet st)) pt_data) as [D|D]; [|eapply plain_dead; eassumption].
  destruct (Z.ltb_spec b 0x80) as [L|L]; [destruct (T L D)|].
  destruct (negb _).
  { destruct (plain_dead ks (with_packet st packet0) b st' e l K B E P0) as (st2 & H). exists st2. exact H. }
  destruct (has_cb st) eqn:C.
  - unfold sysex_end_callback, sysex_end_callback_in in *. cbv zeta in *. destruct (_ && _); [discriminate|].
    unfold post in E. cbn [with_packet m_invoke_callbacks] in E. destruct (m_invoke_callbacks st) eqn:I; [|discriminate].
    injection E as _ <- <-. rewrite post_controls by assumption. cbn [bind fst snd]. eexists. split; [reflexivity|].
    cbn [with_sysex m_packet m_group m_invoke_callbacks has_cb]. split; [now apply controls_packet0|].
    assert (CC := controls_conf ks st (with_packet st packet0) eq_refl eq_refl eq_refl). rewrite I, C in CC. exact CC.
  - unfold sysex_end_packet, sysex_end_packet_in in *. cbv zeta in *. destruct (_ && _); [discriminate|].
    destruct (set_byte _ _ _) as [p|]; [|discriminate]. cbn [bind] in *.
    unfold post in E. destruct (m_invoke_callbacks st) eqn:I; [|discriminate]. injection E as _ <- <-.
    rewrite post_controls by assumption. cbn [bind fst snd]. eexists. split; [reflexivity|].
    split; [reflexivity|]. cbn [with_state m_group m_invoke_callbacks has_cb]. assert (CC := controls_conf ks st (with_packet st p) eq_refl eq_refl eq_refl). rewrite I, C in CC. exact CC.
Qed.

(* a full packet of a SysEx *)
Lemma loud_sx ks st b st' e l : Forall is_control ks -> b < 0x80 ->
  type (m_packet st) = pt_data -> has_cb st = false ->
  feed (parser_set_group st (grp ks (m_group st))) b = Ok (st', e :: l) ->
  exists st2, feed_in (fun st => nested_calls st ks) st b = Ok (st2, e :: l) /\
    m_group st2 = grp ks (m_group st) /\ m_invoke_callbacks st2 = ons ks (m_invoke_callbacks st) /\ has_cb st2 = false /\
    m_packet st2 = m_packet st' /\ m_packet_byte st2 = m_packet_byte st'.
Proof.
  intros K B D C E. unfold feed, feed_in in *. replace (0xF8 <=? b) with false in * by lia.
  cbn [parser_set_group m_packet has_cb] in E. rewrite D, C in *. change (pt_data =? pt_data) with true in *. cbv iota in *.
  replace (b <? 0x80) with true in * by lia.
  unfold sysex_continue_packet, sysex_continue_packet_in in *.
  cbn [parser_set_group m_packet m_packet_byte m_invoke_callbacks m_group] in E.
  destruct (set_byte _ _ _) as [p|]; [|discriminate]. cbn [bind] in *. cbv zeta in *.
  destruct (_ =? 8); [|discriminate]. cbn [with_state m_invoke_callbacks].
  destruct (m_invoke_callbacks st) eqn:I.
  2:{ cbn [bind] in E. destruct (make_sysex7_continue_packet _); discriminate. }
  destruct (set_byte p 1 _) as [q|]; [|discriminate]. cbn [bind] in *.
  rewrite post_controls by assumption. cbn [bind fst snd].
  destruct (controls_conf ks st (with_packet (with_state st p (u8 (m_packet_byte st + 1)) (m_num_missing_bytes st)) q)
              eq_refl eq_refl eq_refl) as (X1 & X2 & X3).
  rewrite X1. destruct (make_sysex7_continue_packet _) as [c|]; [|discriminate]. cbn [bind] in *.
  injection E as <- <- <-. eexists. split; [reflexivity|]. cbn [with_state m_group m_invoke_callbacks has_cb m_packet m_packet_byte].
  rewrite X1, X2, X3, I, C. repeat split.
Qed.

(* ---- one call --------------------------------------------------------------------------------------- *)

Definition conf_inv (cb : bool) (s : configuration) (st : parser) : Prop :=
  cinv (fst (fst s)) cb (snd (fst s)) (snd s) st.

Lemma emission_on cb c x : calls_emission cb c x <> [] -> f_on x = true.
Proof. unfold calls_emission. destruct (f_on x); cbn [negb]; congruence. Qed.

(* in_sysex_packets does not depend on the configuration of the byte *)
Lemma emission_group cb c b g g' on : b < 0x80 -> calls_emission cb c (mkFed b g on) = calls_emission cb c (mkFed b g' on).
Proof.
  intros B. unfold calls_emission. cbn [f_byte f_on f_group]. destruct (negb on); [reflexivity|].
  unfold is_rt. replace (0xF8 <=? b) with false by lia. replace (b <? 0x80) with true by lia.
  destruct c as [[x0 ds]|]; [|reflexivity]. now rewrite !map_app.
Qed.

Lemma cinv_set_group g g' cb on c st : 0 <= g' < 16 -> cinv g cb on c st -> cinv g' cb on c (parser_set_group st g').
Proof.
  intros G (_ & C & (H1 & H2 & H3 & H4)). split; [assumption|]. split; [assumption|].
  split; [reflexivity|]. split; [assumption|]. split; [assumption|]. exact H4.
Qed.
Lemma cinv_enable g cb on on' c st : cinv g cb on c st -> cinv g cb on' c (enable_callbacks st on').
Proof.
  intros (G & C & (H1 & H2 & H3 & H4)). split; [assumption|]. split; [assumption|].
  split; [assumption|]. split; [assumption|]. split; [reflexivity|]. exact H4.
Qed.
Lemma cinv_reset g cb on c st : cinv g cb on c st -> cinv g cb on None (parser_reset st).
Proof.
  intros (G & C & (H1 & H2 & H3 & H4)). split; [assumption|]. split; [exact Logic.I|]. repeat split; assumption.
Qed.

(* the type of the packet in progress *)
Lemma cinv_type g cb on c st : cinv g cb on c st ->
  (type (m_packet st) =? pt_data) = match c with Some (x0, _) => f_byte x0 =? 0xF0 | None => false end.
Proof.
  intros (G & C & I). assert (PG := abs_group_ok c C). destruct c as [[x0 ds]|]; cbn [abs_ctx] in I.
  - exact (inv_not_data _ _ _ _ _ _ _ _ PG I).
  - destruct I as (_ & _ & _ & E). now rewrite E.
Qed.

Lemma cinv_dead g cb on c st st2 : cinv g cb on c st -> m_packet st = packet0 ->
  0 <= m_group st2 < 16 -> has_cb st2 = cb -> m_packet st2 = packet0 ->
  cinv (m_group st2) cb (m_invoke_callbacks st2) c st2.
Proof.
  intros (G & C & I) E G2 C2 E2. split; [assumption|]. split; [assumption|].
  exact (inv_packet0 _ _ _ _ _ _ _ _ (abs_group_ok c C) I E C2 E2).
Qed.
Lemma cinv_none cb st2 : 0 <= m_group st2 < 16 -> has_cb st2 = cb -> m_packet st2 = packet0 ->
  cinv (m_group st2) cb (m_invoke_callbacks st2) None st2.
Proof. intros G C E. split; [assumption|]. split; [exact Logic.I|]. repeat split; assumption. Qed.

Lemma clear_common_same g cb on c st : cinv g cb on c st -> ~ common_unfinished c -> clear_common st = st.
Proof.
  intros (G & C & (H1 & H2 & H3 & H4)) N. unfold clear_common. assert (PG := abs_group_ok c C).
  destruct c as [[x0 ds]|]; cbn [abs_ctx] in H4; [|now rewrite H4].
  destruct H4 as (Hs & Hd & H). set (s := f_byte x0) in *.
  assert (U8 : Forall is_u8 (map f_byte ds)) by (eapply Forall_impl; [|exact Hd]; unfold is_u7, is_u8; lia).
  destruct (Z.ltb_spec s 0xF0).
  { destruct H as (a & b & Ha & Hb & Hp & _). rewrite Hp, short_status; trivial.
    - now replace (0xF0 <=? s) with false by lia.
    - unfold is_u8. lia.
    - unfold is_u7 in *. repeat constructor; unfold is_u8; lia. }
  destruct (Z.eqb_spec s 0xF0) as [Es|Ns].
  { unfold sx_inv in H. destruct (has_cb st).
    - destruct H as ((g' & G' & Hp) & _). rewrite Hp, raw7_status; trivial; lia.
    - destruct H as (Hp & _). rewrite Hp, raw7_status; trivial;
        try (now destruct (_ <? 6)%nat); try (destruct (_ <? 6)%nat; lia).
        now apply Forall_lastn. }
  unfold sc_inv in H. destruct (sc_len s) as [n|] eqn:L; [|now rewrite H].
  rewrite map_length in H. destruct (Nat.ltb_spec (length ds) n); [|now rewrite H].
  destruct N. exists n. now split.
Qed.

Lemma with_sysex_inv g cb on c st s : cinv g cb on c st -> ~ in_sysex c ->
  cinv g cb on c (with_sysex st s (m_packet_byte st)).
Proof.
  intros (G & C & (H1 & H2 & H3 & H4)) N. split; [assumption|]. split; [assumption|].
  split; [assumption|]. split; [assumption|]. split; [assumption|].
  destruct c as [[x0 ds]|]; cbn [abs_ctx] in *; [|exact H4]. destruct H4 as (Hs & Hd & H).
  split; [assumption|]. split; [assumption|]. destruct (_ <? 0xF0); [exact H|].
  destruct (Z.eqb_spec (f_byte x0) 0xF0); [contradiction|]. exact H.
Qed.

Lemma sx_transfer g cb on on' c st st2 x0 ds : cb = false -> cinv g cb on c st -> c = Some (x0, ds) -> f_byte x0 = 0xF0 ->
  m_group st2 = g -> m_invoke_callbacks st2 = on' -> has_cb st2 = false -> m_packet st2 = m_packet st ->
  m_packet_byte st2 = m_packet_byte st -> cinv g cb on' c st2.
Proof.
  intros -> (G & C & (H1 & H2 & H3 & H4)) -> F E1 E2 E3 E4 E5. split; [assumption|]. split; [assumption|].
  split; [assumption|]. split; [assumption|]. split; [assumption|]. cbn [abs_ctx] in *.
  destruct H4 as (Hs & Hd & H). split; [assumption|]. split; [assumption|].
  rewrite F in *. cbn [Z.ltb Z.compare Pos.compare Pos.compare_cont Z.eqb Pos.eqb] in *.
  unfold sx_inv in *. rewrite E3, E4, E5. rewrite H2 in H. exact H.
Qed.

Definition step_ok (cb : bool) (k : nested_call) : Prop := forall s st, conf_inv cb s st -> permitted cb s k ->
  exists st', nested_step st k = Ok (st', snd (nested_spec cb s k)) /\ conf_inv cb (fst (nested_spec cb s k)) st'.

Lemma steps_ok cb ks : Forall (step_ok cb) ks -> forall s st, conf_inv cb s st -> all_permitted cb s ks ->
  exists st', nested_calls st ks = Ok (st', snd (nested_specs cb s ks)) /\ conf_inv cb (fst (nested_specs cb s ks)) st'.
Proof.
  induction 1 as [|k ks K _ IH]; intros s st I A; [exists st; now split|].
  destruct A as (A1 & A2). destruct (K s st I A1) as (st1 & E1 & I1).
  destruct (IH _ _ I1 A2) as (st2 & E2 & I2). exists st2.
  change (nested_specs cb s (k :: ks)) with
    (let r := nested_spec cb s k in let r' := nested_specs cb (fst r) ks in (fst r', snd r ++ snd r')).
  cbv zeta. cbn [fst snd]. split; [|exact I2]. cbn [nested_calls]. rewrite E1. cbn [bind fst snd]. rewrite E2. reflexivity.
Qed.

Lemma feed_ok cb b during : Forall (step_ok cb) during -> step_ok cb (NFeed b during).
Proof.
  intros K [[g on] c] st I Pm. unfold conf_inv in I. cbn [fst snd] in I.
  rewrite permitted_feed in Pm. cbv zeta in Pm. destruct Pm as (B & Pm).
  rewrite nested_feed, spec_feed. cbv zeta. set (x := mkFed b g on) in *.
  destruct (cinv_feed g cb on c st b B I) as (st1 & E1 & I1). fold x in E1, I1.
  destruct (calls_emission cb c x) as [|e l] eqn:EM.
  { exists st1. split; [now apply feed_quiet|exact I1]. }
  specialize (Pm ltac:(discriminate)). destruct Pm as (A & Pm).
  assert (ON : on = true) by (assert (O := emission_on cb c x); rewrite EM in O; apply O; discriminate).
  assert (TY := cinv_type _ _ _ _ _ I).
  assert (G := proj1 I).
  assert (HC : has_cb st = cb) by apply I.
  assert (HG : m_group st = g) by apply I.
  assert (HO : m_invoke_callbacks st = on) by apply I.
  destruct (in_sysex_packets cb c b) eqn:SX.
  { (* a full SysEx packet *)
    unfold in_sysex_packets in SX. apply andb_prop in SX as [SX F0]. apply andb_prop in SX as [NC LT].
    destruct c as [[x0 ds]|]; [|discriminate]. apply Z.eqb_eq in F0.
    assert (CTL : Forall is_control during).
    { destruct Pm as [Pm|Pm]; [exact Pm|exfalso]. unfold is_rt in Pm. replace (0xF8 <=? b) with false in Pm by lia.
      rewrite LT in Pm. lia. }
    rewrite controls_spec by assumption. cbn [fst snd].
    assert (G' : 0 <= grp during g < 16) by (eapply grp_ok; eassumption).
    set (g' := grp during g) in *.
    destruct (cinv_feed g' cb on _ _ b B (cinv_set_group g g' cb on _ st G' I)) as (st3 & E3 & I3).
    rewrite (emission_group cb _ b g' g on ltac:(lia)) in E3. fold x in E3. rewrite EM in E3.
    destruct (loud_sx during st b st3 e l CTL ltac:(lia)) as (st2 & E2 & X1 & X2 & X3 & X4 & X5).
    { apply Z.eqb_eq. rewrite TY. lia. }
    { destruct cb; [discriminate|assumption]. }
    { rewrite HG. exact E3. }
    exists st2. rewrite app_nil_r. split; [exact E2|]. unfold conf_inv. cbn [fst snd].
    rewrite HG in X1. rewrite HO in X2.
    eapply sx_transfer; [now destruct cb|exact I3| |exact F0|exact X1|exact X2|exact X3|exact X4|exact X5].
    unfold calls_ctx_step. cbn [f_byte]. unfold is_rt. replace (0xF8 <=? b) with false by lia.
    replace (0x80 <=? b) with false by lia. reflexivity. }
  destruct (nested_specs cb (g, on, calls_ctx_step c x) during) as [[[g' on'] c'] o] eqn:NS. cbn [fst snd] in *.
  assert (RUN : forall st1, cinv g cb on (calls_ctx_step c x) st1 ->
    exists st2, nested_calls st1 during = Ok (st2, o) /\ cinv g' cb on' c' st2).
  { intros s1 J. destruct (steps_ok cb during K (g, on, calls_ctx_step c x) s1 J A) as (st2 & E2 & I2).
    rewrite NS in E2, I2. exists st2. split; [exact E2|exact I2]. }
  assert (DEAD : Forall is_control during -> b < 0xF8 -> (b < 0x80 -> type (m_packet st) <> pt_data) ->
    m_packet st1 = packet0 ->
    exists st2, feed_in (fun st => nested_calls st during) st b = Ok (st2, (e :: l) ++ o) /\ cinv g' cb on' c' st2).
  { intros CTL LT T P0. destruct (loud_dead during st b st1 e l CTL LT T E1 P0) as (st2 & E2 & X1 & X2 & X3 & X4).
    rewrite controls_spec in NS by assumption. injection NS as <- <- <- <-. exists st2. rewrite app_nil_r.
    split; [exact E2|]. rewrite HG in X2. rewrite HO in X3. rewrite HC in X4. rewrite <- X2, <- X3.
    assert (G2 : 0 <= m_group st2 < 16) by (rewrite X2; eapply grp_ok; eassumption).
    destruct (rst during); [now apply cinv_none|]. eapply cinv_dead; eassumption. }
  destruct (Z.leb_spec 0xF8 b) as [RT|RT].
  { destruct (RUN st1 I1) as (st2 & E2 & I2). exists st2. rewrite (loud_rt _ st b st1 e l RT E1), E2. split; [reflexivity|exact I2]. }
  assert (IR : is_rt b = false) by (unfold is_rt; lia). rewrite IR in Pm.
  assert (EM' := EM). unfold calls_emission in EM'. cbn [f_byte f_on f_group x] in EM'. rewrite ON, IR in EM'. cbn [negb] in EM'.
  destruct (Z.ltb_spec b 0x80) as [LT|GE].
  { destruct c as [[x0 ds]|]; [|discriminate].
    assert (ST : calls_ctx_step (Some (x0, ds)) x = Some (x0, ds ++ [x])).
    { unfold calls_ctx_step. cbn [f_byte x]. rewrite IR. now replace (0x80 <=? b) with false by lia. }
    rewrite ST in *.
    assert (D0 : f_byte x0 <> 0xF0).
    { intros F0. unfold in_sysex_packets in SX. rewrite F0 in SX. replace (b <? 0x80) with true in SX by lia.
      rewrite Z.eqb_refl, !andb_true_r in SX. destruct cb; [|discriminate]. unfold on_data in EM'. rewrite F0 in EM'. discriminate EM'. }
    assert (TN : type (m_packet st) <> pt_data).
    { intros T. rewrite T, Z.eqb_refl in TY. lia. }
    destruct I1 as (_ & C1 & (J1 & J2 & J3 & J4)). assert (PG := abs_group_ok _ C1). cbn [abs_ctx] in J4. destruct J4 as (Hs & Hd & H).
    destruct (Z.lt_ge_cases (f_byte x0) 0xF0) as [CV|SC].
    - assert (NF : ~ common_unfinished c').
      { destruct Pm as [Pm|Pm]; [|apply Pm]. rewrite controls_spec in NS by assumption. injection NS as _ _ <- _.
        destruct (rst during); [intros []|]. intros (n & L & _). unfold sc_len in L.
        replace (f_byte x0 =? 0xF1) with false in L by lia. replace (f_byte x0 =? 0xF2) with false in L by lia.
        replace (f_byte x0 =? 0xF3) with false in L by lia. replace (f_byte x0 =? 0xF6) with false in L by lia.
        discriminate L. }
      destruct (RUN st1) as (st2 & E2 & I2).
      { exact (conj G (conj C1 (conj J1 (conj J2 (conj J3 (conj Hs (conj Hd H))))))). }
      replace (f_byte x0 <? 0xF0) with true in H by lia.
      exists st2. rewrite (loud_cv _ st b st1 e l LT TN E1).
      + rewrite E2. cbn [bind fst snd]. rewrite (clear_common_same _ _ _ _ _ I2 NF). split; [reflexivity|exact I2].
      + destruct H as (a1 & b1 & Ha & Hb & Hp & _). rewrite Hp, short_status; trivial; try (unfold is_u8; lia).
        unfold is_u7 in *. repeat constructor; unfold is_u8; lia.
    - assert (CTL : Forall is_control during) by (destruct Pm as [Pm|Pm]; [exact Pm|lia]).
      apply DEAD; trivial; try lia.
      replace (f_byte x0 <? 0xF0) with false in H by lia. replace (f_byte x0 =? 0xF0) with false in H by lia.
      unfold sc_inv in H. unfold on_data in EM'. replace (f_byte x0 <? 0xF0) with false in EM' by lia.
      replace (f_byte x0 =? 0xF0) with false in EM' by lia.
      destruct (sc_len (f_byte x0)) as [n|]; [|discriminate].
      destruct (Nat.eqb_spec (length (map f_byte (ds ++ [x]))) n) as [L|L]; [|discriminate].
      rewrite L, Nat.ltb_irrefl in H. exact H. }
  assert (ST : calls_ctx_step c x = Some (x, [])).
  { unfold calls_ctx_step. cbn [f_byte x]. rewrite IR. now replace (0x80 <=? b) with true by lia. }
  rewrite ST in *.
  destruct (Z.eqb_spec b 0xF6) as [->|N6].
  { assert (CTL : Forall is_control during) by (destruct Pm as [Pm|Pm]; [exact Pm|destruct Pm]).
    apply DEAD; trivial; try lia. destruct I1 as (_ & _ & (_ & _ & _ & J)). cbn in J. apply J. }
  destruct (Z.eqb_spec b 0xF7) as [->|N7]; [|discriminate].
  destruct c as [[x0 ds]|]; [|discriminate]. destruct (Z.eqb_spec (f_byte x0) 0xF0) as [F0|F0]; [|discriminate].
  assert (T : type (m_packet st) = pt_data) by (apply Z.eqb_eq; rewrite TY; reflexivity).
  destruct cb.
  - assert (NF : ~ in_sysex c').
    { destruct Pm as [Pm|Pm]; [|apply Pm]. rewrite controls_spec in NS by assumption. injection NS as _ _ <- _.
      destruct (rst during); [intros []|]. cbn. lia. }
    destruct (RUN (with_packet st packet0)) as (st2 & E2 & I2).
    { split; [assumption|]. split; [split; [exact G|constructor]|].
      split; [assumption|]. split; [assumption|]. split; [assumption|]. cbn [abs_ctx f_byte x map].
      split; [lia|]. split; [constructor|]. reflexivity. }
    eexists. rewrite (loud_cb _ st st1 e l T HC E1), E2. cbn [bind fst snd]. split; [reflexivity|].
    now apply with_sysex_inv.
  - assert (CTL : Forall is_control during) by (destruct Pm as [Pm|Pm]; [exact Pm|destruct Pm; discriminate]).
    apply DEAD; trivial; try lia. destruct I1 as (_ & _ & (_ & _ & _ & J)). cbn in J. apply J.
Qed.

Lemma every_step_ok cb k : step_ok cb k.
Proof.
  induction k as [b during K|on'|g'|] using nested_ind.
  - now apply feed_ok.
  - intros [[g on] c] st I _. eexists. split; [reflexivity|]. eapply cinv_enable. exact I.
  - intros [[g on] c] st I P. eexists. split; [reflexivity|]. eapply cinv_set_group; [exact P|exact I].
  - intros [[g on] c] st I _. eexists. split; [reflexivity|]. eapply cinv_reset. exact I.
Qed.

Lemma nested_refine cb ks s st : conf_inv cb s st -> all_permitted cb s ks ->
  exists st', nested_calls st ks = Ok (st', snd (nested_specs cb s ks)) /\ conf_inv cb (fst (nested_specs cb s ks)) st'.
Proof. apply steps_ok. apply Forall_forall. intros k _. apply every_step_ok. Qed.

(* ---- the calls made afterwards ------------------------------------------------------------------------ *)

Definition after_ok (cb : bool) (k : nested_call) : Prop := forall s st,
  conf_inv cb s st -> permitted cb s k -> sysex_undisturbed cb s k ->
  exists st', afterwards_step st k = Ok (st', snd (nested_spec cb s k)) /\ conf_inv cb (fst (nested_spec cb s k)) st'.

Lemma afters_ok cb ks : Forall (after_ok cb) ks -> forall s st,
  conf_inv cb s st -> all_permitted cb s ks -> all_undisturbed cb s ks ->
  exists st', afterwards st ks = Ok (st', snd (nested_specs cb s ks)) /\ conf_inv cb (fst (nested_specs cb s ks)) st'.
Proof.
  induction 1 as [|k ks K _ IH]; intros s st I A U; [exists st; now split|].
  destruct A as (A1 & A2). destruct U as (U1 & U2). destruct (K s st I A1 U1) as (st1 & E1 & I1).
  destruct (IH _ _ I1 A2 U2) as (st2 & E2 & I2). exists st2.
  change (nested_specs cb s (k :: ks)) with
    (let r := nested_spec cb s k in let r' := nested_specs cb (fst r) ks in (fst r', snd r ++ snd r')).
  cbv zeta. cbn [fst snd]. split; [|exact I2]. cbn [afterwards]. rewrite E1. cbn [bind fst snd]. rewrite E2. reflexivity.
Qed.

Lemma only_enable_controls ks : Forall only_enable ks -> Forall is_control ks /\ rst ks = false /\ forall g, grp ks g = g.
Proof.
  induction 1 as [|k ks K _ (I1 & I2 & I3)]; [repeat split; constructor|].
  destruct k; destruct K. repeat split; trivial. constructor; trivial. exact I.
Qed.

Lemma after_feed_ok cb b during : Forall (after_ok cb) during -> after_ok cb (NFeed b during).
Proof.
  intros K [[g on] c] st I Pm Un. unfold conf_inv in I. cbn [fst snd] in I.
  rewrite permitted_feed in Pm. cbv zeta in Pm. destruct Pm as (B & Pm).
  rewrite undisturbed_feed in Un. cbv zeta in Un.
  rewrite afterwards_feed, spec_feed. cbv zeta. set (x := mkFed b g on) in *.
  destruct (cinv_feed g cb on c st b B I) as (st1 & E1 & I1). fold x in E1, I1. rewrite E1. cbn [bind fst snd].
  destruct (calls_emission cb c x) as [|e l] eqn:EM.
  { exists st1. split; [reflexivity|exact I1]. }
  specialize (Pm ltac:(discriminate)). destruct Pm as (A & _).
  specialize (Un ltac:(discriminate)). destruct Un as (SX & U).
  destruct (afters_ok cb during K (g, on, calls_ctx_step c x) st1 I1 A U) as (st2 & E2 & I2).
  destruct (nested_specs cb (g, on, calls_ctx_step c x) during) as [[[g' on'] c'] o] eqn:NS. cbn [fst snd] in *.
  exists st2. rewrite E2. cbn [bind fst snd]. split; [reflexivity|]. unfold conf_inv in *. cbn [fst snd] in *.
  destruct (in_sysex_packets cb c b); [|exact I2]. destruct (only_enable_controls during (SX eq_refl)) as (C1 & C2 & C3).
  rewrite controls_spec in NS by assumption. rewrite C2, C3 in NS. injection NS as <- <- <- _. exact I2.
Qed.

Lemma afterwards_refine cb ks s st : conf_inv cb s st -> all_permitted cb s ks -> all_undisturbed cb s ks ->
  exists st', afterwards st ks = Ok (st', snd (nested_specs cb s ks)).
Proof.
  intros I A U. destruct (afters_ok cb ks) with (s := s) (st := st) as (st' & E & _); trivial; [|now exists st'].
  apply Forall_forall. intros k _. induction k as [b during K|on'|g'|] using nested_ind.
  - now apply after_feed_ok.
  - intros [[g on] c] s1 J _ _. eexists. split; [reflexivity|]. eapply cinv_enable. exact J.
  - intros [[g on] c] s1 J P _. eexists. split; [reflexivity|]. eapply cinv_set_group; [exact P|exact J].
  - intros [[g on] c] s1 J _ _. eexists. split; [reflexivity|]. eapply cinv_reset. exact J.
Qed.

(* ---- theorems ------------------------------------------------------------------------------------------ *)

Lemma nested_new g cb on ks : 0 <= g < 16 -> all_permitted cb (g, on, None) ks ->
  exists st, nested_calls (new_parser g cb on) ks = Ok (st, snd (nested_specs cb (g, on, None) ks)).
Proof.
  intros G A. destruct (nested_refine cb ks (g, on, None) (new_parser g cb on)) as (st & E & _); trivial.
  - now apply cinv_new.
  - now exists st.
Qed.

Lemma nested_like_afterwards g cb on ks : 0 <= g < 16 ->
  all_permitted cb (g, on, None) ks -> all_undisturbed cb (g, on, None) ks ->
  exists st1 st2 out, nested_calls (new_parser g cb on) ks = Ok (st1, out) /\ afterwards (new_parser g cb on) ks = Ok (st2, out).
Proof.
  intros G A U. destruct (nested_new g cb on ks G A) as (st1 & E1).
  destruct (afterwards_refine cb ks (g, on, None) (new_parser g cb on)) as (st2 & E2); trivial.
  - now apply cinv_new.
  - exists st1, st2, (snd (nested_specs cb (g, on, None) ks)). now split.
Qed.

(* with callbacks that make no calls this is feed_all *)
Lemma nested_plain bs : forall st, nested_calls st (map (fun b => NFeed b []) bs) = feed_all st bs.
Proof.
  induction bs as [|b bs IH]; intros st; [reflexivity|]. cbn [map nested_calls feed_all].
  rewrite nested_feed. change (fun st => nested_calls st []) with idle. rewrite feed_idle.
  destruct (feed st b) as [[st1 o]|f]; [|reflexivity]. cbn [bind fst snd]. rewrite IH.
  destruct (feed_all st1 bs) as [[st2 o2]|f]; reflexivity.
Qed.

(* callbacks without feed() *)
Lemma valid_controls cb ks : Forall valid_control ks -> forall s, all_permitted cb s ks /\ all_undisturbed cb s ks.
Proof.
  induction 1 as [|k ks K _ IH]; intros s; [now split|]. destruct (IH (fst (nested_spec cb s k))) as [A U].
  split; split; trivial; destruct k; cbn in *; trivial; contradiction.
Qed.

Lemma controls_permitted cb ks : Forall (controls_only cb) ks -> forall s, all_permitted cb s ks /\ all_undisturbed cb s ks.
Proof.
  induction 1 as [|k ks K _ IH]; intros s; [now split|]. destruct (IH (fst (nested_spec cb s k))) as [A U].
  destruct k as [b during|on|g|].
  2-4: split; (split; [|assumption]); destruct s as [[g0 on0] c0]; cbn; try exact Logic.I; exact K.
  destruct K as (B & V & O). destruct s as [[g on] c].
  assert (CT : Forall is_control during).
  { eapply Forall_impl; [|exact V]. intros []; cbn; trivial. }
  split; (split; [|assumption]).
  - rewrite permitted_feed. cbv zeta. split; [exact B|]. intros _. split; [now apply valid_controls|now left].
  - rewrite undisturbed_feed. cbv zeta. intros _. split; [|now apply valid_controls].
    unfold in_sysex_packets. destruct cb; [discriminate|]. intros _. now apply O.
Qed.

Lemma controls_like_afterwards g cb on ks : 0 <= g < 16 -> Forall (controls_only cb) ks ->
  exists st1 st2 out, nested_calls (new_parser g cb on) ks = Ok (st1, out) /\ afterwards (new_parser g cb on) ks = Ok (st2, out).
Proof. intros G K. destruct (controls_permitted cb ks K (g, on, None)). now apply nested_like_afterwards. Qed.
