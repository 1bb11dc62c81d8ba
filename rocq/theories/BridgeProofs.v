(* Bytes to packets and back to bytes *)
From Coq Require Import ZArith List Bool Lia ZifyBool ZifyNat.
From Verif Require Import Base Bits Packet PacketSpec PacketProofs PacketBytes
  Messages Sysex ByteStream ChannelVoice StreamSpec StreamProofs StreamLemmas StreamBytes StreamCalls
  SessionProofs VoiceSpec VoiceProofs VoiceTranslate BridgeSpec.
Import ListNotations.
Local Open Scope Z_scope.
Local Open Scope res_scope.

Definition fz (z : bool) (p : packet) : packet := if z then off_for_zero p else p.

(* ---- effect on the packets of the parser ------------------------------------------- *)

Lemma off_high p : w0 p / 268435456 <> 2 -> off_for_zero p = p.
Proof. intros H. unfold off_for_zero. now replace (_ =? 2) with false by lia. Qed.

Lemma fz_system z g s ds : 0 <= g < 16 -> 0xF0 <= s < 256 -> Forall is_u8 ds ->
  fz z (short_packet g s ds) = short_packet g s ds.
Proof.
  intros G S D. destruct z; [|reflexivity]. apply off_high.
  pose proof (nth_u8 ds 0 D); pose proof (nth_u8 ds 1 D).
  unfold short_packet, is_u8 in *; cbn [w0]. replace (s <? 0xF0) with false by lia. dlia.
Qed.

Lemma fz_sx7 z g f ds : 0 <= g < 16 -> 0 <= f < 4 -> (length ds <= 6)%nat -> Forall is_u8 ds ->
  fz z (sx7_packet g f ds) = sx7_packet g f ds.
Proof.
  intros G F L D. destruct z; [|reflexivity]. apply off_high.
  pose proof (sx7_w0 g f ds G F L D). dlia.
Qed.

Lemma fz_voice z m : valid_message m -> ms_status m < 0xF0 ->
  exists m', valid_message m' /\ ms_status m' < 0xF0 /\
    forall g, 0 <= g < 16 -> fz z (short_packet g (ms_status m) (ms_data m)) = short_packet g (ms_status m') (ms_data m').
Proof.
  intros V S. destruct z; [|now exists m].
  destruct m as [s ds]; cbn [ms_status ms_data] in *.
  pose proof (valid_message_status _ V) as [S0 _]; cbn [ms_status] in S0.
  destruct (Z.eq_dec (s / 16) 9) as [S9|S9].
  - assert (L : exists n v, ds = [n; v] /\ is_u7 n /\ is_u7 v).
    { destruct V as [V F]. cbn [ms_status ms_data] in *.
      assert (L : length ds = 2%nat).
      { destruct V as [[_ L]|L]; [|apply sc_len_range in L; lia]. rewrite L. unfold cv_len.
        replace (0xC0 <=? s) with false by dlia. reflexivity. }
      destruct ds as [|n [|v [|]]]; try discriminate. exists n, v. inversion_clear F as [|? ? Fn F'].
      inversion_clear F'. auto. }
    destruct L as (n & v & -> & N & VV).
    destruct (Z.eq_dec v 0) as [->|NZ].
    + exists (mkMsg (s - 16) [n; 64]). cbn [ms_status ms_data]. split; [|split; [lia|]].
      * split; [left; cbn [ms_status ms_data]; split; [dlia|]|].
        -- unfold cv_len. replace (0xC0 <=? s - 16) with false by dlia. reflexivity.
        -- cbn. constructor; [exact N|]. constructor; [unfold is_u7; lia|constructor].
      * intros g G. cbn [fz]. unfold off_for_zero, short_packet, is_u7 in *. cbn [nth w0 w1 w2 w3].
        replace (s <? 0xF0) with true by lia. replace (s - 16 <? 0xF0) with true by lia.
        replace (_ && _) with true; [f_equal; lia|]. symmetry. rewrite !andb_true_iff, !Z.eqb_eq.
        split; [split|]; dlia.
    + exists (mkMsg s [n; v]). split; [exact V|]. split; [exact S|]. cbn [ms_status ms_data].
      intros g G. cbn [fz]. unfold off_for_zero, short_packet, is_u7 in *. cbn [nth w0].
      replace (s <? 0xF0) with true by lia. replace (_ && _) with false; [reflexivity|].
      symmetry. apply andb_false_iff. right. dlia.
  - exists (mkMsg s ds). split; [exact V|]. split; [exact S|]. cbn [ms_status ms_data].
    intros g G. cbn [fz]. unfold off_for_zero, short_packet. cbn [w0].
    assert (U : Forall is_u8 ds) by (apply Forall_u7_u8, V).
    pose proof (nth_u8 ds 0 U); pose proof (nth_u8 ds 1 U). unfold is_u8 in *.
    replace (s <? 0xF0) with true by lia. replace (_ && _) with false; [reflexivity|].
    symmetry. apply andb_false_iff. left. apply andb_false_iff. right. dlia.
Qed.

(* ---- a whole message at the receiver ------------------------------------------------- *)

Lemma annotate_data_events ds e : ds <> [] -> concat (map snd (annotate_data ds e)) = [e].
Proof.
  induction ds as [|d [|d' ds] IH]; intros N; [congruence|reflexivity|].
  change (annotate_data (d :: d' :: ds) e) with ((d, []) :: annotate_data (d' :: ds) e).
  cbn [map concat snd app]. apply IH. discriminate.
Qed.

Lemma message_outputs cb g h m : valid_message m ->
  outputs cb g h (ms_status m :: ms_data m) = [EPacket (short_packet g (ms_status m) (ms_data m))] /\
  context (fold_left remember (ms_status m :: ms_data m) h) = Some (ms_status m, ms_data m).
Proof.
  intros V. destruct (annotate_full cb g m h V) as (A & B & C). split; [|exact C].
  rewrite <- B, (annotates_outputs _ _ _ _ A). unfold render_full.
  destruct (ms_data m) as [|d ds]; [reflexivity|]. cbn [map concat snd app].
  apply annotate_data_events. discriminate.
Qed.

(* data bytes within a SysEx, up to the next multiple of six *)
Lemma quiet_f0 cb g h ds b : context h = Some (0xF0, ds) -> is_u7 b ->
  emission cb g h b = on_data cb g 0xF0 (ds ++ [b]).
Proof. intros C B. now rewrite emission_data, C. Qed.

Lemma sx_run cb g c : forall h ds0 q, context h = Some (0xF0, ds0) -> length ds0 = (6 * q)%nat ->
  Forall is_u7 c -> (length c <= 6)%nat ->
  outputs cb g h c = (if (length c =? 6)%nat then on_data cb g 0xF0 (ds0 ++ c) else []) /\
  context (fold_left remember c h) = Some (0xF0, ds0 ++ c).
Proof.
  intros h ds0 q C L F N. split; [|now apply context_data_app].
  destruct cb.
  - transitivity (@nil event); [|destruct (length c =? 6)%nat; reflexivity].
    clear N L q. revert h ds0 C. induction F as [|x c X F IH]; intros h ds0 C; cbn [outputs]; [reflexivity|].
    rewrite (quiet_f0 _ _ _ _ _ C X), (IH _ (ds0 ++ [x])) by now apply context_u7. reflexivity.
  - destruct (Nat.eqb_spec (length c) 6) as [E|E].
    + destruct c as [|x c] using rev_ind; [discriminate|]. clear IHc. rewrite app_length in E; cbn [length] in E.
      apply Forall_app in F as [F1 F2]. inversion_clear F2.
      destruct (short_tail g h ds0 q c C L F1 ltac:(lia)) as [O C']. rewrite outputs_app, O. cbn [app outputs].
      rewrite (quiet_f0 _ _ _ _ _ C') by trivial. now rewrite app_nil_r, <- app_assoc.
    + apply (short_tail g h ds0 q c C L F). lia.
Qed.

(* ---- simulation ------------------------------------------------------------------------ *)

(* within a SysEx of which a packet was emitted, the receiver has the bytes of the packets *)
Definition sim (c c' : option (Z * list Z)) : Prop :=
  forall ds, c = Some (0xF0, ds) -> (6 <= length ds)%nat ->
    c' = Some (0xF0, firstn (6 * (length ds / 6)) ds).

Definition open_sysex (c : option (Z * list Z)) : bool :=
  match c with Some (s, ds) => (s =? 0xF0) && (6 <=? length ds)%nat | None => false end.

Definition leads (c c1 : option (Z * list Z)) (bs : list Z) : Prop :=
  open_sysex c = false ->
  (filter not_rt bs = [] /\ open_sysex c1 = false) \/
  (exists x t, filter not_rt bs = x :: t /\ 0x80 <= x /\ x <> 0xF7).

Definition step_ok (z cb : bool) (g g' : Z) (h h' : list Z) (b : Z) : Prop :=
  exists qs bs', emission false g h b = map EPacket qs /\
    stream_of_packets (map (fz z) qs) = Ok bs' /\ Forall is_u8 bs' /\
    outputs cb g' h' bs' = map (packet_map (fz z)) (emission cb g' h b) /\
    sim (context (remember h b)) (context (fold_left remember bs' h')) /\
    leads (context h) (context (remember h b)) bs'.

Lemma one_packet p b : to_midi1_byte_stream p = Ok b -> stream_of_packets [p] = Ok b.
Proof. intros E. cbn. rewrite E. cbn. now rewrite app_nil_r. Qed.

Lemma sim_other c c' : open_sysex c = false -> sim c c'.
Proof. intros O ds -> L. unfold open_sysex in O. rewrite Z.eqb_refl in O. cbn [andb] in O. lia. Qed.

(* nothing emitted *)
Lemma silent_step z cb g g' h h' b : emission false g h b = [] -> emission cb g' h b = [] ->
  sim (context (remember h b)) (context h') -> (open_sysex (context h) = false -> open_sysex (context (remember h b)) = false) ->
  step_ok z cb g g' h h' b.
Proof.
  intros E E' S O. exists [], []. rewrite E, E'. cbn. split; [reflexivity|]. split; [reflexivity|].
  split; [constructor|]. split; [reflexivity|]. split; [exact S|]. intros N. left. auto.
Qed.

(* a channel voice or system common message completed *)
Lemma message_step z cb g g' h h' b m : 0 <= g < 16 -> 0 <= g' < 16 -> valid_message m ->
  emission false g h b = [EPacket (short_packet g (ms_status m) (ms_data m))] ->
  emission cb g' h b = [EPacket (short_packet g' (ms_status m) (ms_data m))] ->
  open_sysex (context (remember h b)) = false ->
  step_ok z cb g g' h h' b.
Proof.
  intros G G' V E E' O.
  assert (M : exists m', valid_message m' /\ forall g, 0 <= g < 16 ->
    fz z (short_packet g (ms_status m) (ms_data m)) = short_packet g (ms_status m') (ms_data m')).
  { destruct (Z_lt_ge_dec (ms_status m) 0xF0) as [L|L].
    - destruct (fz_voice z m V L) as (m' & V' & _ & X). now exists m'.
    - exists m. split; [exact V|]. intros g0 G0. pose proof (valid_message_status _ V).
      apply fz_system; [exact G0|lia|]. apply Forall_u7_u8, V. }
  destruct M as (m' & V' & X).
  exists [short_packet g (ms_status m) (ms_data m)], (ms_status m' :: ms_data m').
  pose proof (valid_message_status _ V') as [SS NS].
  split; [exact E|]. cbn [map]. rewrite X by exact G.
  split; [apply one_packet; now apply (short_to_bytes g m' G V')|].
  split; [constructor; [unfold is_u8; lia|apply Forall_u7_u8, V']|].
  destruct (message_outputs cb g' h' m' V') as [O1 C1]. split; [|split].
  - rewrite O1, E'. cbn [map packet_map]. now rewrite X.
  - apply sim_other. exact O.
  - intros _. right. exists (ms_status m'), (filter not_rt (ms_data m')). cbn [filter].
    replace (not_rt (ms_status m')) with true by (unfold not_rt, is_rt; lia). split; [reflexivity|]. lia.
Qed.

Lemma rt_step z cb g g' h h' b : 0 <= g < 16 -> 0 <= g' < 16 -> 0xF8 <= b < 256 ->
  sim (context h) (context h') -> step_ok z cb g g' h h' b.
Proof.
  intros G G' B S. assert (R : is_rt b = true) by (unfold is_rt; lia).
  assert (RM : forall h, remember h b = h) by (intros; unfold remember; now rewrite R).
  destruct (rt_defined b) eqn:D.
  - exists [short_packet g b []], [b]. rewrite !emission_rt, D by exact R. split; [reflexivity|].
    cbn [map]. rewrite fz_system by (try lia; constructor).
    split; [apply one_packet; now apply rt_to_bytes|]. split; [constructor; [unfold is_u8; lia|constructor]|].
    cbn [outputs map packet_map fold_left]. rewrite emission_rt, D, !RM, fz_system by (try lia; try constructor; exact R).
    split; [reflexivity|]. split; [exact S|]. intros O. left. split; [|exact O].
    cbn [filter]. unfold not_rt. now rewrite R.
  - apply silent_step.
    + now rewrite emission_rt, D by exact R.
    + now rewrite emission_rt, D by exact R.
    + now rewrite RM.
    + now rewrite RM.
Qed.

(* data byte in a channel voice context *)
Lemma lastn_length {A} n (l : list A) : (n <= length l)%nat -> length (lastn n l) = n.
Proof. intros H. unfold lastn. rewrite skipn_length. lia. Qed.

Lemma Forall_lastn {A} (P : A -> Prop) n l : Forall P l -> Forall P (lastn n l).
Proof. intros H. unfold lastn. rewrite <- (firstn_skipn (length l - n) l) in H. now apply Forall_app in H. Qed.

Lemma lastn_split {A} n (l : list A) : firstn (length l - n) l ++ lastn n l = l.
Proof. apply firstn_skipn. Qed.

Lemma voice_data_step z cb g g' h h' b s ds : 0 <= g < 16 -> 0 <= g' < 16 -> is_u7 b ->
  context h = Some (s, ds) -> Forall is_u7 ds -> 0x80 <= s < 0xF0 -> step_ok z cb g g' h h' b.
Proof.
  intros G G' B C F S.
  assert (C1 := context_u7 h b s ds C B).
  assert (F1 : Forall is_u7 (ds ++ [b])) by (apply Forall_app; split; [exact F|now constructor]).
  assert (O1 : open_sysex (context (remember h b)) = false).
  { rewrite C1. cbn. now replace (s =? 0xF0) with false by lia. }
  assert (E : forall cb g, emission cb g h b =
    if (length (ds ++ [b]) mod cv_len s =? 0)%nat then [EPacket (short_packet g s (lastn (cv_len s) (ds ++ [b])))] else []).
  { intros. rewrite emission_data, C by exact B. unfold on_data. now replace (s <? 0xF0) with true by lia. }
  destruct (Nat.eqb_spec (length (ds ++ [b]) mod cv_len s) 0) as [M|M].
  - apply (message_step z cb g g' h h' b (mkMsg s (lastn (cv_len s) (ds ++ [b])))); trivial; try apply E.
    split; [left; cbn [ms_status ms_data]; split; [exact S|]|now apply Forall_lastn].
    apply lastn_length. apply Nat.mod_divides in M; [|unfold cv_len; destruct (_ && _); lia].
    destruct M as [k M]. rewrite app_length in *. cbn [length] in *. destruct k as [|k]; [lia|]. rewrite M. nia.
  - apply silent_step; try apply E; [|now intros]. now apply sim_other.
Qed.

Lemma common_data_step z cb g g' h h' b s ds : 0 <= g < 16 -> 0 <= g' < 16 -> is_u7 b ->
  context h = Some (s, ds) -> Forall is_u7 ds -> 0xF0 < s < 0xF8 -> step_ok z cb g g' h h' b.
Proof.
  intros G G' B C F S.
  assert (C1 := context_u7 h b s ds C B).
  assert (F1 : Forall is_u7 (ds ++ [b])) by (apply Forall_app; split; [exact F|now constructor]).
  assert (O1 : open_sysex (context (remember h b)) = false).
  { rewrite C1. cbn. now replace (s =? 0xF0) with false by lia. }
  assert (E : forall cb g, emission cb g h b =
    match sc_len s with
    | Some n => if (length (ds ++ [b]) =? n)%nat then [EPacket (short_packet g s (ds ++ [b]))] else []
    | None => [] end).
  { intros. rewrite emission_data, C by exact B. unfold on_data. replace (s <? 0xF0) with false by lia.
    now replace (s =? 0xF0) with false by lia. }
  destruct (sc_len s) as [n|] eqn:SL;
    [destruct (Nat.eqb_spec (length (ds ++ [b])) n) as [M|M]|];
    try (apply silent_step; try apply E; [|now intros]; now apply sim_other).
  apply (message_step z cb g g' h h' b (mkMsg s (ds ++ [b]))); trivial; try apply E.
  split; [right; cbn [ms_status ms_data]; now rewrite SL, M|exact F1].
Qed.

Lemma div6 k q : (6 * q <= k)%nat -> (k < 6 * q + 6)%nat -> (k / 6 = q)%nat /\ (k mod 6 = k - 6 * q)%nat.
Proof.
  intros A B. assert (Q : (k / 6 = q)%nat).
  { symmetry. apply (Nat.div_unique k 6 q (k - 6 * q)); lia. }
  split; [exact Q|]. rewrite Nat.mod_eq by lia. now rewrite Q.
Qed.

Lemma sx_full_step z cb g g' h h' b ds q : 0 <= g < 16 -> 0 <= g' < 16 -> is_u7 b ->
  context h = Some (0xF0, ds) -> Forall is_u7 ds -> sim (context h) (context h') ->
  length ds = (6 * q + 5)%nat -> step_ok z cb g g' h h' b.
Proof.
  intros G G' B C F S L.
  assert (C1 := context_u7 h b _ ds C B). set (l := ds ++ [b]) in *.
  assert (F1 : Forall is_u7 l) by (apply Forall_app; split; [exact F|now constructor]).
  assert (LL : length l = (6 * q + 6)%nat) by (unfold l; rewrite app_length; cbn [length]; lia).
  destruct (div6 (length l) (q + 1)) as [LD LM]; [lia|lia|].
  assert (E : forall cb g, emission cb g h b = on_data cb g 0xF0 l).
  { intros. now rewrite emission_data, C by exact B. }
  assert (EF : forall g, emission false g h b = [EPacket (sx7_packet g (if (q =? 0)%nat then 1 else 2) (lastn 6 l))]).
  { intros g0. rewrite E. unfold on_data. cbn [Z.ltb Z.compare Pos.compare Pos.compare_cont Z.eqb Pos.eqb].
    rewrite LM, LL. replace (6 * q + 6 - 6 * (q + 1))%nat with 0%nat by lia. cbn [Nat.eqb].
    now replace (6 * q + 6 =? 6)%nat with (q =? 0)%nat by lia. }
  assert (L6 : length (lastn 6 l) = 6%nat) by (apply lastn_length; lia).
  assert (F6 : Forall is_u7 (lastn 6 l)) by now apply Forall_lastn.
  assert (U6 : Forall is_u8 (lastn 6 l)) by now apply Forall_u7_u8.
  assert (FZ : forall g f, 0 <= g < 16 -> 0 <= f < 4 -> fz z (sx7_packet g f (lastn 6 l)) = sx7_packet g f (lastn 6 l)).
  { intros. apply fz_sx7; trivial. lia. }
  assert (EM : map (packet_map (fz z)) (on_data cb g' 0xF0 l) = on_data cb g' 0xF0 l).
  { rewrite <- E. destruct cb; [now rewrite E|]. rewrite EF. cbn [map packet_map]. rewrite FZ; trivial.
    destruct (q =? 0)%nat; lia. }
  assert (SIM : forall c', c' = Some (0xF0, l) -> sim (context (remember h b)) c').
  { intros c' -> ds1 X _. rewrite C1 in X. injection X as <-. rewrite LD. replace (6 * (q + 1))%nat with (length l) by lia.
    now rewrite firstn_all. }
  destruct (Nat.eqb_spec q 0) as [Q|Q].
  - subst q. assert (LL' : lastn 6 l = l) by (unfold lastn; rewrite LL; reflexivity). rewrite LL' in *.
    exists [sx7_packet g 1 l], (0xF0 :: l). split; [apply EF|]. cbn [map]. rewrite FZ by lia.
    split; [apply one_packet; rewrite sx7_to_bytes by (trivial; lia); cbn [Z.eqb Pos.eqb orb app]; now rewrite app_nil_r|].
    split; [constructor; [unfold is_u8; lia|exact U6]|].
    assert (C0 : context (remember h' 0xF0) = Some (0xF0, [])) by (apply context_status; lia).
    destruct (sx_run cb g' l (remember h' 0xF0) [] 0 C0 eq_refl F1 ltac:(lia)) as [O1 C2]. split; [|split].
    + cbn [outputs]. rewrite O1, L6. cbn [Nat.eqb app]. rewrite E, EM. reflexivity.
    + cbn [fold_left]. apply SIM. exact C2.
    + intros _. right. exists 0xF0, (filter not_rt l). split; [reflexivity|lia].
  - exists [sx7_packet g 2 (lastn 6 l)], (lastn 6 l). split; [apply EF|]. cbn [map]. rewrite FZ by lia.
    split; [apply one_packet; rewrite sx7_to_bytes by (trivial; lia); cbn [Z.eqb Pos.eqb orb app]; now rewrite app_nil_r|].
    split; [exact U6|].
    assert (CH := S ds C ltac:(lia)). destruct (div6 (length ds) q) as [DD _]; [lia|lia|]. rewrite DD in CH.
    assert (SP : firstn (6 * q) ds ++ lastn 6 l = l).
    { transitivity (firstn (length l - 6) l ++ lastn 6 l); [|apply lastn_split]. f_equal.
      replace (length l - 6)%nat with (6 * q)%nat by lia. unfold l. rewrite firstn_app.
      replace (6 * q - length ds)%nat with 0%nat by lia. cbn [firstn]. now rewrite app_nil_r. }
    destruct (sx_run cb g' (lastn 6 l) h' _ q CH ltac:(rewrite firstn_length; lia) F6 ltac:(lia)) as [O1 C2].
    rewrite SP in *. split; [|split].
    + rewrite O1, L6. cbn [Nat.eqb]. now rewrite E, EM.
    + apply SIM. exact C2.
    + intros O. rewrite C in O. unfold open_sysex in O. rewrite Z.eqb_refl in O. cbn [andb] in O. lia.
Qed.

Lemma sx_data_step z cb g g' h h' b ds : 0 <= g < 16 -> 0 <= g' < 16 -> is_u7 b ->
  context h = Some (0xF0, ds) -> Forall is_u7 ds -> sim (context h) (context h') -> step_ok z cb g g' h h' b.
Proof.
  intros G G' B C F S.
  pose proof (Nat.div_mod (length ds) 6 ltac:(lia)) as DM. pose proof (Nat.mod_upper_bound (length ds) 6 ltac:(lia)) as MB.
  set (q := (length ds / 6)%nat) in *.
  destruct (Nat.eq_dec (length ds mod 6) 5) as [M|M].
  - apply (sx_full_step z cb g g' h h' b ds q); trivial. lia.
  - assert (C1 := context_u7 h b _ ds C B).
    assert (LL : length (ds ++ [b]) = (length ds + 1)%nat) by (rewrite app_length; cbn [length]; lia).
    destruct (div6 (length (ds ++ [b])) q) as [LD LM]; [lia|lia|].
    assert (E : forall cb g, emission cb g h b = []).
    { intros. rewrite emission_data, C by exact B. unfold on_data. cbn [Z.ltb Z.compare Pos.compare Pos.compare_cont Z.eqb Pos.eqb].
      destruct cb0; [reflexivity|]. rewrite LM. now replace (_ =? 0)%nat with false by lia. }
    apply silent_step; try apply E.
    + intros ds1 X L1. rewrite C1 in X. injection X as <-. rewrite LD.
      assert (Q : (1 <= q)%nat) by lia. rewrite (S ds C ltac:(lia)). fold q. f_equal. f_equal.
      rewrite firstn_app. replace (6 * q - length ds)%nat with 0%nat by lia. cbn [firstn]. now rewrite app_nil_r.
    + rewrite C, C1. unfold open_sysex. rewrite Z.eqb_refl. cbn [andb]. intros X. apply Nat.leb_gt. apply Nat.leb_gt in X. lia.
Qed.

Lemma sx_end_step z cb g g' h h' ds : 0 <= g < 16 -> 0 <= g' < 16 ->
  context h = Some (0xF0, ds) -> Forall is_u7 ds -> sim (context h) (context h') -> step_ok z cb g g' h h' 0xF7.
Proof.
  intros G G' C F S.
  assert (E : forall cb g, emission cb g h 0xF7 = on_sysex_end cb g ds).
  { intros. unfold emission. cbn. now rewrite C. }
  assert (C1 : context (remember h 0xF7) = Some (0xF7, [])) by (apply context_status; lia).
  pose proof (Nat.div_mod (length ds) 6 ltac:(lia)) as DM. pose proof (Nat.mod_upper_bound (length ds) 6 ltac:(lia)) as MB.
  set (q := (length ds / 6)%nat) in *. set (t := lastn (length ds mod 6) ds).
  assert (Ft : Forall is_u7 t) by now apply Forall_lastn.
  assert (Lt : length t = (length ds mod 6)%nat) by (apply lastn_length; lia).
  assert (Ut : Forall is_u8 t) by now apply Forall_u7_u8.
  assert (SP : firstn (6 * q) ds ++ t = ds).
  { transitivity (firstn (length ds - length ds mod 6) ds ++ t); [|apply lastn_split]. do 2 f_equal. lia. }
  destruct (Nat.eq_dec (length ds) 0) as [Z0|NZ].
  { destruct ds; [|discriminate]. apply silent_step; [apply E|rewrite E; now destruct cb| |].
    - apply sim_other. now rewrite C1.
    - intros _. now rewrite C1. }
  assert (EM : map (packet_map (fz z)) (on_sysex_end cb g' ds) = on_sysex_end cb g' ds).
  { unfold on_sysex_end. destruct cb; [now destruct (sx_decode ds)|].
    destruct (length ds =? 0)%nat; [reflexivity|]. destruct (Nat.ltb_spec (length ds) 6) as [L|L]; cbn [map packet_map].
    - rewrite fz_sx7; trivial; try lia. now apply Forall_u7_u8.
    - rewrite fz_sx7; trivial; try lia. fold t. lia. }
  assert (RUN : forall h1, context h1 = Some (0xF0, firstn (6 * q) ds) ->
    outputs cb g' h1 (t ++ [0xF7]) = on_sysex_end cb g' ds /\ context (fold_left remember (t ++ [0xF7]) h1) = Some (0xF7, [])).
  { intros h1 H1.
    destruct (sx_run cb g' t h1 _ q H1 ltac:(rewrite firstn_length; lia) Ft ltac:(lia)) as [O1 C2].
    rewrite SP in *. rewrite outputs_app, O1, fold_left_app. replace (length t =? 6)%nat with false by lia.
    cbn [app outputs fold_left]. rewrite app_nil_r. split; [now apply emission_f7|].
    apply context_status. lia. }
  destruct (Nat.lt_ge_cases (length ds) 6) as [L|L].
  - assert (Q : q = 0%nat) by lia. assert (SP' : t = ds) by (rewrite Q in SP; exact SP).
    exists [sx7_packet g 0 ds], (0xF0 :: ds ++ [0xF7]). split; [|cbn [map]; rewrite fz_sx7; trivial; try lia; try (now apply Forall_u7_u8)].
    { rewrite E. unfold on_sysex_end. replace (length ds =? 0)%nat with false by lia.
      now replace (length ds <? 6)%nat with true by lia. }
    split; [apply one_packet; rewrite sx7_to_bytes by (trivial; try lia; now apply Forall_u7_u8); reflexivity|].
    split; [constructor; [unfold is_u8; lia|apply Forall_app; split; [now apply Forall_u7_u8|constructor; [unfold is_u8; lia|constructor]]]|].
    assert (C0 : context (remember h' 0xF0) = Some (0xF0, firstn (6 * q) ds)) by (rewrite Q; apply context_status; lia).
    destruct (RUN _ C0) as [O1 C2]. rewrite SP' in O1, C2. split; [|split].
    + cbn [outputs]. rewrite O1, E, EM. reflexivity.
    + apply sim_other. now rewrite C1.
    + intros _. right. exists 0xF0, (filter not_rt (ds ++ [0xF7])). split; [reflexivity|lia].
  - exists [sx7_packet g 3 t], (t ++ [0xF7]). split; [|cbn [map]; rewrite fz_sx7 by (trivial; lia)].
    { rewrite E. unfold on_sysex_end. replace (length ds =? 0)%nat with false by lia.
      now replace (length ds <? 6)%nat with false by lia. }
    split; [apply one_packet; rewrite sx7_to_bytes by (trivial; lia); reflexivity|].
    split; [apply Forall_app; split; [exact Ut|constructor; [unfold is_u8; lia|constructor]]|].
    destruct (RUN h' (S ds C L)) as [O1 C2]. split; [|split].
    + now rewrite O1, E, EM.
    + apply sim_other. now rewrite C1.
    + intros O. rewrite C in O. unfold open_sysex in O. rewrite Z.eqb_refl in O. cbn [andb] in O. lia.
Qed.

Lemma step z cb g g' h h' b : 0 <= g < 16 -> 0 <= g' < 16 -> is_u8 b -> ctx_ok (context h) ->
  sim (context h) (context h') -> step_ok z cb g g' h h' b.
Proof.
  intros G G' B OK S. unfold is_u8 in B.
  destruct (Z_le_gt_dec 0xF8 b) as [R|R]; [apply rt_step; trivial; lia|].
  destruct (Z_lt_ge_dec b 0x80) as [D|D].
  - assert (B7 : is_u7 b) by (unfold is_u7; lia).
    destruct (context h) as [[s ds]|] eqn:C.
    + destruct OK as [SS F]. destruct (Z_lt_ge_dec s 0xF0); [now apply (voice_data_step z cb g g' h h' b s ds); trivial; lia|].
      destruct (Z.eq_dec s 0xF0) as [->|]; [apply (sx_data_step z cb g g' h h' b ds); trivial; now rewrite C|].
      apply (common_data_step z cb g g' h h' b s ds); trivial; lia.
    + assert (C1 : context (remember h b) = None) by (now rewrite context_data, C).
      apply silent_step; try (now rewrite emission_data, C); [apply sim_other; now rewrite C1|now rewrite C1].
  - assert (C1 : context (remember h b) = Some (b, [])) by (apply context_status; lia).
    assert (O1 : open_sysex (context (remember h b)) = false) by (rewrite C1; cbn; apply andb_false_r).
    assert (E0 : forall cb g, b <> 0xF6 -> (b = 0xF7 -> forall ds, context h <> Some (0xF0, ds)) -> emission cb g h b = []).
    { intros cb0 g0 N6 N7. unfold emission, is_rt. replace (0xF8 <=? b) with false by lia.
      replace (b <? 0x80) with false by lia. replace (b =? 0xF6) with false by lia.
      destruct (Z.eqb_spec b 0xF7) as [E7|]; [|reflexivity]. specialize (N7 E7).
      destruct (context h) as [[s ds]|]; [|reflexivity]. destruct (Z.eqb_spec s 0xF0) as [->|]; [|reflexivity].
      now destruct (N7 ds). }
    destruct (Z.eq_dec b 0xF6) as [->|N6].
    { apply (message_step z cb g g' h h' 0xF6 (mkMsg 0xF6 [])); trivial.
      split; [right; reflexivity|constructor]. }
    assert (DEC : (b = 0xF7 /\ exists ds, context h = Some (0xF0, ds)) \/
      (b = 0xF7 -> forall ds, context h <> Some (0xF0, ds))).
    { destruct (Z.eq_dec b 0xF7); [|right; tauto]. destruct (context h) as [[s ds]|]; [|right; discriminate].
      destruct (Z.eq_dec s 0xF0) as [->|N]; [left; eauto|right; intros _ ds' X; congruence]. }
    destruct DEC as [[-> (ds & C)]|N7].
    + apply (sx_end_step z cb g g' h h' ds); trivial. rewrite C in OK. apply OK.
    + apply silent_step; auto. now apply sim_other.
Qed.

Lemma stream_packets_app a b x y : stream_of_packets a = Ok x -> stream_of_packets b = Ok y ->
  stream_of_packets (a ++ b) = Ok (x ++ y).
Proof.
  revert x. induction a as [|p a IH]; intros x A B; cbn in *.
  - injection A as <-. exact B.
  - destruct (to_midi1_byte_stream p) as [u|]; [|discriminate]. cbn in *.
    destruct (stream_of_packets a) as [v|]; [|discriminate]. cbn in *. injection A as <-.
    rewrite (IH v eq_refl B). cbn. now rewrite app_assoc.
Qed.

Lemma bridge_outputs z cb g g' : 0 <= g < 16 -> 0 <= g' < 16 -> forall bs, Forall is_u8 bs ->
  forall h h', ctx_ok (context h) -> sim (context h) (context h') ->
  exists ps bs', outputs false g h bs = map EPacket ps /\
    stream_of_packets (map (fz z) ps) = Ok bs' /\ Forall is_u8 bs' /\
    outputs cb g' h' bs' = map (packet_map (fz z)) (outputs cb g' h bs) /\
    (open_sysex (context h) = false -> starts_with_status bs').
Proof.
  intros G G' bs B. induction B as [|b bs B _ IH]; intros h h' OK S.
  - exists [], []. cbn. repeat (split; [first [reflexivity|constructor]|]). intros _. exact I.
  - destruct (step z cb g g' h h' b G G' B OK S) as (qs & b1 & E & T & U & O & S1 & LD).
    destruct (IH (remember h b) (fold_left remember b1 h')) as (ps & b2 & E2 & T2 & U2 & O2 & LD2); trivial.
    { rewrite context_remember. now apply ctx_ok_next. }
    exists (qs ++ ps), (b1 ++ b2). cbn [outputs]. rewrite E, E2, !map_app.
    split; [reflexivity|]. split; [now apply stream_packets_app|]. split; [apply Forall_app; split; trivial|].
    split; [now rewrite outputs_app, O, O2|]. intros N. unfold starts_with_status. rewrite filter_app.
    destruct (LD N) as [[X Y]|(x & t & X & Y)]; rewrite X; [|exact Y]. cbn [app]. apply LD2, Y.
Qed.

Lemma bridge z cb g g' st bs : 0 <= g < 16 -> reached g' cb st -> Forall is_u8 bs ->
  exists ps bs' out st1 st2 st3,
    feed_all (new_parser g false true) bs = Ok (st1, map EPacket ps) /\
    stream_of_packets (map (fz z) ps) = Ok bs' /\ Forall is_u8 bs' /\
    feed_all (new_parser g' cb true) bs = Ok (st2, out) /\
    feed_all st bs' = Ok (st3, map (packet_map (fz z)) out).
Proof.
  intros G R B. assert (G' := reached_group _ _ _ R).
  destruct (bridge_outputs z cb g g' G G' bs B [] [] I) as (ps & bs' & E & T & U & O & SS).
  { now apply sim_other. }
  destruct (feed_all_outputs g false bs G B [] _ (inv_new g g true false true)) as (st1 & E1 & _).
  destruct (feed_all_outputs g' cb bs G' B [] _ (inv_new g' g' true cb true)) as (st2 & E2 & _).
  destruct (resync g' cb st bs' R U (SS eq_refl)) as (st3 & E3).
  exists ps, bs', (outputs cb g' [] bs), st1, st2, st3. rewrite E1, E, E2, E3, O. auto.
Qed.

(* ---- through MIDI 2 ----------------------------------------------------------------------- *)

Lemma off_layout g ch m : address g ch -> m1_ok m ->
  off_for_zero (layout1 g ch m) = layout1 g ch (without_zero_velocity m).
Proof.
  intros [G C] M.
  assert (K : forall k d e, k = 0x80 \/ k = 0xA0 \/ k = 0xB0 \/ k = 0xC0 \/ k = 0xD0 \/ k = 0xE0 -> is_u7 d -> is_u7 e ->
    off_for_zero (mkP (be32 (2 * 16 + g) (k + ch) d e) 0 0 0) = mkP (be32 (2 * 16 + g) (k + ch) d e) 0 0 0).
  { intros k d e HK D E. unfold off_for_zero, be32, is_u7 in *. cbn [w0]. replace (_ && _) with false; [reflexivity|].
    symmetry. apply andb_false_iff. left. apply andb_false_iff. right. dlia. }
  destruct m as [n v|n v|n v|n v|n|v|v]; cbn [m1_ok] in M; unfold layout1; cbn [without_zero_velocity m1_kind m1_data fst snd];
    try (apply K; [tauto| |]; try (now apply M); unfold is_u7, is_u14 in *; dlia).
  destruct M as [N V]. unfold is_u7 in *. destruct (Z.eq_dec v 0) as [->|NZ].
  - cbn [m1_kind m1_data fst snd]. unfold off_for_zero, be32. cbn [w0 w1 w2 w3].
    replace (_ && _) with true; [f_equal; lia|]. symmetry. rewrite !andb_true_iff, !Z.eqb_eq. split; [split|]; dlia.
  - replace (match v with 0 => NoteOff1 n 64 | _ => NoteOn1 n v end) with (NoteOn1 n v) by (destruct v; [congruence|reflexivity|lia]).
    cbn [m1_kind m1_data fst snd]. unfold off_for_zero, be32. cbn [w0].
    replace (_ && _) with false; [reflexivity|]. symmetry. apply andb_false_iff. right. dlia.
Qed.

Lemma voice_layout g m : valid_message m -> ms_status m < 0xF0 -> 0 <= g < 16 ->
  exists ch m1, address g ch /\ m1_ok m1 /\ short_packet g (ms_status m) (ms_data m) = layout1 g ch m1.
Proof.
  destruct m as [s ds]. intros V S G. pose proof (valid_message_status _ V) as [S0 _]. destruct V as [V F].
  cbn [ms_status ms_data] in *.
  assert (L : length ds = cv_len s) by (destruct V as [[_ L]|L]; [exact L|apply sc_len_range in L; lia]).
  exists (s mod 16).
  assert (A : address g (s mod 16)) by (split; [exact G|dlia]).
  assert (SS : s = s / 16 * 16 + s mod 16) by dlia.
  assert (K : forall m1 k, s / 16 * 16 = k -> m1_ok m1 -> m1_kind m1 = k ->
    fst (m1_data m1) = nth 0 ds 0 -> snd (m1_data m1) = nth 1 ds 0 ->
    exists m1, address g (s mod 16) /\ m1_ok m1 /\ short_packet g s ds = layout1 g (s mod 16) m1).
  { intros m1 k K1 K2 K3 K4 K5. exists m1. split; [exact A|]. split; [exact K2|].
    unfold short_packet, layout1, be32. rewrite K3, K4, K5. replace (s <? 0xF0) with true by lia. f_equal. lia. }
  destruct (Z_le_gt_dec 0xC0 s) as [C1|C1]; [destruct (Z_lt_ge_dec s 0xE0) as [C2|C2]|].
  - assert (X : cv_len s = 1%nat) by (unfold cv_len; now replace ((0xC0 <=? s) && (s <? 0xE0)) with true by lia).
    rewrite X in L. destruct ds as [|d [|]]; try discriminate. inversion_clear F.
    assert (Y : s / 16 * 16 = 0xC0 \/ s / 16 * 16 = 0xD0) by dlia.
    destruct Y as [Y|Y]; [apply (K (ProgramChange1 d) _ Y)|apply (K (ChannelPressure1 d) _ Y)]; trivial.
  - assert (X : cv_len s = 2%nat) by (unfold cv_len; now replace (s <? 0xE0) with false by lia; rewrite andb_false_r).
    rewrite X in L. destruct ds as [|d [|e [|]]]; try discriminate. inversion_clear F as [|? ? D F']. inversion_clear F' as [|? ? E _].
    unfold is_u7 in *. assert (Y : s / 16 * 16 = 0xE0) by dlia.
    apply (K (PitchBend1 (e * 128 + d)) _ Y); cbn; trivial; unfold is_u14; dlia.
  - assert (X : cv_len s = 2%nat) by (unfold cv_len; now replace (0xC0 <=? s) with false by lia).
    rewrite X in L. destruct ds as [|d [|e [|]]]; try discriminate. inversion_clear F as [|? ? D F']. inversion_clear F' as [|? ? E _].
    assert (Y : s / 16 * 16 = 0x80 \/ s / 16 * 16 = 0x90 \/ s / 16 * 16 = 0xA0 \/ s / 16 * 16 = 0xB0) by dlia.
    destruct Y as [Y|[Y|[Y|Y]]];
      [apply (K (NoteOff1 d e) _ Y)|apply (K (NoteOn1 d e) _ Y)|apply (K (PolyPressure1 d e) _ Y)|apply (K (ControlChange1 d e) _ Y)];
      cbn; auto.
Qed.

Lemma no_view_up p : type p <> 2 -> towards_midi2 p = p.
Proof.
  intros T. unfold towards_midi2, to_midi2, as_midi1_view, is_midi1_channel_voice_message.
  change pt_midi1_channel_voice with 2. now replace (type p =? 2) with false by lia.
Qed.
Lemma no_view_down p : type p <> 4 -> towards_midi1 p = p.
Proof.
  intros T. unfold towards_midi1, to_midi1, as_midi2_view, is_midi2_channel_voice_message.
  change pt_midi2_channel_voice with 4. now replace (type p =? 4) with false by lia.
Qed.

Lemma up_down g p : 0 <= g < 16 -> wf_output g (EPacket p) -> towards_midi1 (towards_midi2 p) = off_for_zero p.
Proof.
  intros G W.
  assert (SYS : forall s ds, 0xF0 <= s < 256 -> Forall is_u8 ds ->
    towards_midi1 (towards_midi2 (short_packet g s ds)) = off_for_zero (short_packet g s ds)).
  { intros s ds S D. assert (T : type (short_packet g s ds) = 1).
    { rewrite short_type by (trivial; unfold is_u8; lia). unfold short_ty. now replace (s <? 0xF0) with false by lia. }
    rewrite no_view_up, no_view_down by (rewrite ?T; lia). symmetry. exact (fz_system true g s ds G S D). }
  destruct W as [(m & V & ->)|[(r & R & _ & ->)|(f & ds & F & L & D & _ & ->)]].
  - pose proof (valid_message_status _ V) as [S0 _]. destruct (Z_lt_ge_dec (ms_status m) 0xF0) as [C|C].
    + destruct (voice_layout g m V C G) as (ch & m1 & A & M & ->). rewrite off_layout by assumption.
      unfold towards_midi2. pose proof (to_midi2_layout g ch m1 A M) as T.
      destruct (to_midi2 (layout1 g ch m1)) as [[q|]|] eqn:E.
      * unfold towards_midi1. now rewrite (round_trip g ch m1 q A M E).
      * apply untranslatable in E; trivial. destruct E as (c & v & -> & _).
        rewrite no_view_down; [reflexivity|]. rewrite layout1_type by assumption. discriminate.
      * discriminate.
    + apply SYS; [lia|]. apply Forall_u7_u8, V.
  - apply SYS; [lia|constructor].
  - assert (U : Forall is_u8 ds) by now apply Forall_u7_u8.
    assert (T := StreamLemmas.sx7_type g f ds G F L U). rewrite no_view_up, no_view_down by (rewrite ?T; lia).
    symmetry. exact (fz_sx7 true g f ds G F L U).
Qed.

Lemma bridge_midi2 cb g g' st bs : 0 <= g < 16 -> reached g' cb st -> Forall is_u8 bs ->
  exists ps bs' out st1 st2 st3,
    feed_all (new_parser g false true) bs = Ok (st1, map EPacket ps) /\
    stream_of_packets (map towards_midi1 (map towards_midi2 ps)) = Ok bs' /\
    feed_all (new_parser g' cb true) bs = Ok (st2, out) /\
    feed_all st bs' = Ok (st3, map (packet_map off_for_zero) out).
Proof.
  intros G R B. destruct (bridge true cb g g' st bs G R B) as (ps & bs' & out & st1 & st2 & st3 & E1 & T & _ & E2 & E3).
  exists ps, bs', out, st1, st2, st3. split; [exact E1|]. split; [|split; [exact E2|exact E3]].
  rewrite map_map. rewrite <- T. f_equal. apply map_ext_in. intros p P.
  destruct (feed_all_outputs g false bs G B [] _ (inv_new g g true false true)) as (st1' & E & _).
  rewrite E1 in E. injection E as _ E.
  pose proof (outputs_wf false g bs B [] I) as W. rewrite <- E in W. rewrite Forall_forall in W.
  apply (up_down g p G). apply W. now apply in_map.
Qed.

Lemma bridge_plain cb g g' st bs : 0 <= g < 16 -> reached g' cb st -> Forall is_u8 bs ->
  exists ps bs' out st1 st2 st3,
    feed_all (new_parser g false true) bs = Ok (st1, map EPacket ps) /\
    stream_of_packets ps = Ok bs' /\ Forall is_u8 bs' /\
    feed_all (new_parser g' cb true) bs = Ok (st2, out) /\
    feed_all st bs' = Ok (st3, out).
Proof.
  intros G R B. destruct (bridge false cb g g' st bs G R B) as (ps & bs' & out & st1 & st2 & st3 & E1 & T & U & E2 & E3).
  exists ps, bs', out, st1, st2, st3. rewrite (map_ext _ (fun p => p)), map_id in T by reflexivity.
  rewrite (map_ext _ (fun e => e)), map_id in E3 by (intros []; reflexivity). auto.
Qed.

Lemma reached_fresh g cb : 0 <= g < 16 -> reached g cb (new_parser g cb true).
Proof. intros G. exists g, true, [], []. split; [exact G|]. split; [constructor|]. repeat split. Qed.

Lemma bridge_again g bs ps bs' st1 : 0 <= g < 16 -> Forall is_u8 bs ->
  feed_all (new_parser g false true) bs = Ok (st1, map EPacket ps) -> stream_of_packets ps = Ok bs' ->
  exists st2, feed_all (new_parser g false true) bs' = Ok (st2, map EPacket ps).
Proof.
  intros G B E S.
  destruct (bridge_plain false g g _ bs G (reached_fresh g false G) B) as (ps1 & bs1 & out & x & y & st3 & E1 & T & _ & E2 & E3).
  rewrite E in E1, E2. injection E1 as _ E1. injection E2 as _ E2.
  assert (ps = ps1).
  { clear - E1. revert ps1 E1. induction ps as [|p ps IH]; intros [|q qs] X; try discriminate; [reflexivity|].
    cbn in X. injection X as -> X. f_equal. now apply IH. }
  subst ps1. rewrite S in T. injection T as <-. exists st3. now rewrite E3, E2.
Qed.
