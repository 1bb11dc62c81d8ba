(* Proofs about leaders and followers. *)
From Coq Require Import ZArith List Bool Lia ZifyBool ZifyNat.
From Verif Require Import Base Bits Packet PacketSpec PacketProofs PacketBytes Messages Sysex ByteStream StreamSpec StreamProofs StreamLemmas
  StreamBytes VoiceProofs SystemProofs SessionSpec Merge MergeSpec MergeProofs Follow FollowSpec.
Import ListNotations.
Local Open Scope Z_scope.
Local Open Scope res_scope.

Definition pr (s : transport) : bool * Z := (tp_rolling s, tp_clock s).

Lemma nth7 ds i : Forall is_u7 ds -> is_u7 (nth i ds 0).
Proof. intros F. destruct (Nat.lt_ge_cases i (length ds)); [now apply Forall_nth|]. rewrite nth_overflow by assumption. unfold is_u7. lia. Qed.

Lemma short_is_system g s ds : 0 <= g < 16 -> 0xF0 <= s < 256 -> Forall is_u7 ds ->
  short_packet g s ds = make_system_message g s (nth 0 ds 0) (nth 1 ds 0).
Proof.
  intros G S D. pose proof (nth7 ds 0 D). pose proof (nth7 ds 1 D). unfold is_u7 in *.
  rewrite system_layout by (unfold is_u8; lia). unfold short_packet, be32. replace (s <? 0xF0) with false by lia. f_equal.
  rewrite Z.mod_small by lia. lia.
Qed.

Lemma told_eq s k v : told s (k, v) =
  if k =? 0xFA then (true, 0) else if k =? 0xFB then (true, snd s) else if k =? 0xFC then (false, snd s)
  else if k =? 0xF8 then (fst s, snd s + if fst s then 1 else 0)
  else if k =? 0xF2 then (fst s, if fst s then snd s else 6 * v) else s.
Proof. unfold told. cbn [fst snd]. destruct k as [|p|p]; try reflexivity. do 8 (destruct p; try reflexivity). Qed.

Lemma follow_system g g' st s d1 d2 : 0 <= g < 16 -> is_u8 g' -> 0xF0 <= s < 256 -> is_u7 d1 -> is_u7 d2 ->
  pr (follow_step g st (make_system_message g' s d1 d2)) =
  if g' mod 16 =? g then told (pr st) (s, d1 + 128 * d2) else pr st.
Proof.
  intros G G' S D1 D2. destruct (system_view_ok g' s d1 d2 G' ltac:(unfold is_u8; lia) D1 D2) as (V & GR & ST & B1 & B2).
  unfold follow_step. rewrite V, GR, ST. destruct (g' mod 16 =? g); cbn [negb]; [|reflexivity]. rewrite told_eq. unfold pr. cbn [fst snd].
  destruct (Z.eqb_spec s 0xFA); [reflexivity|]. destruct (Z.eqb_spec s 0xFB); [reflexivity|]. destruct (Z.eqb_spec s 0xFC); [reflexivity|].
  destruct (Z.eqb_spec s 0xF8). { destruct st as [[] c]; cbn; f_equal; lia. }
  destruct (Z.eqb_spec s 0xF2); [|reflexivity].
  assert (E : get_song_position (make_system_message g' s d1 d2) = d1 + 128 * d2).
  { unfold get_song_position. rewrite ST, B1, B2. replace (s =? 0xF2) with true by lia. unfold is_u7 in *. bitlia. }
  rewrite E. destruct st as [[] c]; reflexivity.
Qed.

Lemma follow_short g st s ds : 0 <= g < 16 -> 0xF0 <= s < 256 -> Forall is_u7 ds ->
  pr (follow_step g st (short_packet g s ds)) = told (pr st) (s, nth 0 ds 0 + 128 * nth 1 ds 0).
Proof.
  intros G S D. rewrite short_is_system, follow_system by (try assumption; try (now apply nth7); unfold is_u8; lia).
  rewrite Z.mod_small by lia. now rewrite Z.eqb_refl.
Qed.

Lemma follow_other g st p : type p <> 1 -> follow_step g st p = st.
Proof. intros T. unfold follow_step, as_system_message_view. change pt_system with 1. now replace (type p =? 1) with false by lia. Qed.

(* ---- any bytes ---------------------------------------------------------------------------------- *)

Definition pending (c : option (Z * list Z)) : option (list Z) :=
  match c with Some (s, ds) => if (s =? 0xF2) && (length ds <? 2)%nat then Some ds else None | None => None end.

Lemma told_none s k v : ~ In k [0xF2; 0xF8; 0xFA; 0xFB; 0xFC] -> told s (k, v) = s.
Proof.
  intros N. rewrite told_eq. cbn [In] in N. replace (k =? 0xFA) with false by lia. replace (k =? 0xFB) with false by lia.
  replace (k =? 0xFC) with false by lia. replace (k =? 0xF8) with false by lia. now replace (k =? 0xF2) with false by lia.
Qed.

Lemma packets_app a b : packets_of (a ++ b) = packets_of a ++ packets_of b.
Proof. unfold packets_of. now rewrite map_app, concat_app. Qed.

Lemma lastn_u7 n (l : list Z) : Forall is_u7 l -> Forall is_u7 (lastn n l).
Proof. intros F. unfold lastn. rewrite <- (firstn_skipn (length l - n) l) in F. now apply Forall_app in F. Qed.
Lemma lastn_len n (l : list Z) : (length (lastn n l) <= n)%nat.
Proof. unfold lastn. rewrite skipn_length. lia. Qed.

(* a data byte *)
Lemma on_data_told cb g st s ds : 0 <= g < 16 -> 0x80 <= s < 0xF8 -> Forall is_u7 ds ->
  pr (follow_run g st (packets_of (on_data cb g s ds))) =
  if (s =? 0xF2) && (length ds =? 2)%nat then told (pr st) (0xF2, nth 0 ds 0 + 128 * nth 1 ds 0) else pr st.
Proof.
  intros G S D. unfold on_data. destruct (Z.ltb_spec s 0xF0).
  { replace (s =? 0xF2) with false by lia. cbn [andb]. destruct (_ =? 0)%nat; [|reflexivity]. cbn [packets_of map concat app follow_run fold_left].
    rewrite follow_other; [reflexivity|]. rewrite short_type by (try assumption; try (unfold is_u8; lia); apply Forall_u7_u8; now apply lastn_u7).
    unfold short_ty. replace (s <? 0xF0) with true by lia. lia. }
  destruct (Z.eqb_spec s 0xF0) as [->|N0].
  { change (0xF0 =? 0xF2) with false. cbn [andb]. destruct cb; [reflexivity|]. destruct (_ mod 6 =? 0)%nat; [|reflexivity].
    cbn [packets_of map concat app follow_run fold_left].
    rewrite follow_other; [reflexivity|]. rewrite sx7_type; [lia|assumption| |apply lastn_len|apply Forall_u7_u8; now apply lastn_u7].
    destruct (_ =? 6)%nat; lia. }
  destruct (sc_len s) as [n|] eqn:E.
  - apply sc_len_cases in E. destruct (Nat.eqb_spec (length ds) n) as [L|L].
    + cbn [packets_of map concat app follow_run fold_left]. rewrite follow_short by (trivial; lia).
      destruct (Z.eqb_spec s 0xF2) as [->|N2].
      * replace (length ds =? 2)%nat with true by lia. reflexivity.
      * cbn [andb]. apply told_none. cbn. lia.
    + cbn [packets_of map concat follow_run fold_left]. destruct (Z.eqb_spec s 0xF2) as [->|N2]; [|reflexivity].
      now replace (length ds =? 2)%nat with false by lia.
  - destruct (Z.eqb_spec s 0xF2) as [->|N2]; [discriminate|reflexivity].
Qed.

Lemma sysex_end_told cb g st ds : 0 <= g < 16 -> Forall is_u7 ds -> follow_run g st (packets_of (on_sysex_end cb g ds)) = st.
Proof.
  intros G D. unfold on_sysex_end. destruct cb; [now destruct (sx_decode ds)|].
  destruct (Nat.eqb_spec (length ds) 0); [reflexivity|]. destruct (Nat.ltb_spec (length ds) 6).
  - cbn [packets_of map concat app follow_run fold_left]. apply follow_other. rewrite sx7_type; try lia. now apply Forall_u7_u8.
  - cbn [packets_of map concat app follow_run fold_left]. apply follow_other. rewrite sx7_type; try lia.
    + pose proof (lastn_len (length ds mod 6) ds). pose proof (Nat.mod_upper_bound (length ds) 6 ltac:(lia)). lia.
    + apply Forall_u7_u8. now apply lastn_u7.
Qed.

Lemma heard_ok cb g bs : 0 <= g < 16 -> Forall is_u8 bs -> forall h st, ctx_ok (context h) ->
  pr (follow_run g st (packets_of (outputs cb g h bs))) = fold_left told (heard (pending (context h)) bs) (pr st).
Proof.
  intros G. induction 1 as [|b bs B _ IH]; intros h st C; [reflexivity|]. cbn [outputs heard].
  rewrite packets_app. unfold follow_run. rewrite fold_left_app. fold (follow_run g st (packets_of (emission cb g h b))).
  fold (follow_run g (follow_run g st (packets_of (emission cb g h b))) (packets_of (outputs cb g (remember h b) bs))).
  assert (C' : ctx_ok (context (remember h b))) by (rewrite context_remember; now apply ctx_ok_next).
  rewrite (IH _ _ C'), context_remember. unfold is_u8 in B. unfold emission, next_ctx, is_rt, ctx_step.
  destruct (Z.leb_spec 0xF8 b).
  { cbn [fold_left]. f_equal. destruct (rt_defined b) eqn:R.
    - cbn [packets_of map concat app follow_run fold_left]. now rewrite follow_short by (trivial; lia).
    - unfold rt_defined in R. symmetry. apply told_none. cbn. lia. }
  destruct (Z.leb_spec 0x80 b).
  - replace (b <? 0x80) with false by lia.
    assert (E : pr (follow_run g st (packets_of
       (if b =? 0xF6 then [EPacket (short_packet g b [])] else if b =? 0xF7
        then match context h with Some (s, ds) => if s =? 0xF0 then on_sysex_end cb g ds else [] | None => [] end else []))) = pr st).
    { destruct (Z.eqb_spec b 0xF6) as [->|]; [cbn [packets_of map concat app follow_run fold_left]; rewrite follow_short by (trivial; lia); reflexivity|].
      destruct (b =? 0xF7); [|reflexivity]. destruct (context h) as [[s ds]|]; [|reflexivity]. destruct (s =? 0xF0); [|reflexivity].
      now rewrite sysex_end_told by (trivial; apply C). }
    rewrite E. f_equal. cbn [pending length Nat.ltb Nat.leb]. now destruct (b =? 0xF2).
  - replace (b <? 0x80) with true by lia. destruct (context h) as [[s ds]|]; [|reflexivity]. destruct C as [SR D].
    assert (D' : Forall is_u7 (ds ++ [b])) by (apply Forall_app; split; [assumption|constructor; [unfold is_u7; lia|constructor]]).
    rewrite on_data_told by assumption. cbn [pending]. rewrite app_length. cbn [length].
    destruct (Z.eqb_spec s 0xF2) as [->|]; cbn [andb]; [|reflexivity].
    destruct ds as [|lo [|x ds]]; cbn [length app nth].
    + reflexivity.
    + reflexivity.
    + replace (S (S (length ds)) + 1 =? 2)%nat with false by lia. replace (S (S (length ds)) <? 2)%nat with false by lia.
      now replace (S (S (length ds)) + 1 <? 2)%nat with false by lia.
Qed.

Theorem any_bytes_followed g cb bs s : 0 <= g < 16 -> Forall is_u8 bs ->
  exists st out, feed_all (new_parser g cb true) bs = Ok (st, out) /\
    pr (follow_run g s (packets_of out)) = fold_left told (heard None bs) (pr s).
Proof.
  intros G B. destruct (feed_all_outputs g cb bs G B [] _ (inv_new g g true cb true)) as (st & E & _).
  exists st, (outputs cb g [] bs). split; [exact E|]. now apply (heard_ok cb g bs G B [] s).
Qed.

(* ---- packets ------------------------------------------------------------------------------------- *)

Definition tr (p : packet) : Z * Z := (status p, byte3 p + 128 * byte4 p).

Lemma heard_data bs rest : Forall is_u7 bs -> heard None (bs ++ rest) = heard None rest.
Proof.
  induction 1 as [|b bs B _ IH]; [reflexivity|]. cbn [app heard]. unfold is_u7 in B.
  replace (0xF8 <=? b) with false by lia. now replace (0x80 <=? b) with false by lia.
Qed.

Lemma transport_short g s ds : 0 <= g < 16 -> 0x80 <= s < 256 -> Forall is_u7 ds ->
  transport_packet (short_packet g s ds) = existsb (Z.eqb s) [0xF2; 0xF8; 0xFA; 0xFB; 0xFC].
Proof.
  intros G S D. assert (U : is_u8 s) by (unfold is_u8; lia). assert (D8 : Forall is_u8 ds) by now apply Forall_u7_u8.
  unfold transport_packet. rewrite <- status_spec, <- type_spec by now apply short_wf. rewrite short_type, short_status by assumption.
  unfold short_ty. destruct (Z.ltb_spec s 0xF0); [|reflexivity]. cbn. symmetry. lia.
Qed.

Lemma tr_short g s ds : 0 <= g < 16 -> is_u8 s -> Forall is_u7 ds -> tr (short_packet g s ds) = (s, nth 0 ds 0 + 128 * nth 1 ds 0).
Proof.
  intros G S D. unfold tr. rewrite short_status by (try assumption; now apply Forall_u7_u8). f_equal.
  pose proof (nth7 ds 0 D). pose proof (nth7 ds 1 D). unfold is_u7, is_u8 in *. rewrite byte3_spec, byte4_spec.
  unfold short_packet. cbn [w0]. destruct (s <? 0xF0); dlia.
Qed.

Definition said (p : packet) : list (Z * Z) := if transport_packet p then [tr p] else [].

Lemma sendable_heard p : sendable p -> exists b, to_midi1_byte_stream p = Ok b /\ Forall is_u8 b /\
  forall rest s, fold_left told (heard None (b ++ rest)) s = fold_left told (heard None rest) (fold_left told (said p) s).
Proof.
  intros [g m G V|g r G R D|g f ds G F L D|q U N].
  - destruct (valid_message_status m V) as [S0 S1]. exists (ms_status m :: ms_data m). split; [apply (short_to_bytes g m G V)|].
    assert (D : Forall is_u7 (ms_data m)) by apply V. assert (SU : is_u8 (ms_status m)) by (unfold is_u8; lia).
    split; [constructor; [assumption|now apply Forall_u7_u8]|]. intros rest s.
    unfold said. rewrite transport_short by (trivial; lia). cbn [app heard].
    replace (0xF8 <=? ms_status m) with false by lia. replace (0x80 <=? ms_status m) with true by lia.
    destruct (Z.eqb_spec (ms_status m) 0xF2) as [E|E].
    + rewrite tr_short by assumption. destruct V as [[[X _]|X] _]; [lia|]. rewrite E in *. cbn in X. injection X as X.
      destruct (ms_data m) as [|lo [|hi [|]]]; try discriminate. inversion_clear D as [|? ? D1 D']. inversion_clear D' as [|? ? D2 _].
      cbn [app heard nth]. unfold is_u7 in *. replace (0xF8 <=? lo) with false by lia. replace (0x80 <=? lo) with false by lia.
      replace (0xF8 <=? hi) with false by lia. replace (0x80 <=? hi) with false by lia. reflexivity.
    + replace (existsb (Z.eqb (ms_status m)) [0xF2; 0xF8; 0xFA; 0xFB; 0xFC]) with false.
      * now rewrite heard_data.
      * cbn. lia.
  - exists [r]. split; [now apply rt_to_bytes|]. split; [repeat constructor; unfold is_u8; lia|]. intros rest s.
    unfold said. rewrite transport_short by (trivial; lia). cbn [app heard]. replace (0xF8 <=? r) with true by lia. cbn [fold_left].
    f_equal. destruct (existsb _ _) eqn:E.
    + cbn [fold_left]. rewrite tr_short by (trivial; unfold is_u8; lia). reflexivity.
    + apply told_none. intros I. rewrite <- not_true_iff_false in E. apply E. apply existsb_exists. exists r. split; [assumption|lia].
  - assert (D8 : Forall is_u8 ds) by now apply Forall_u7_u8. eexists. split; [now apply sx7_to_bytes|]. split.
    { apply Forall_app; split; [|apply Forall_app; split; [assumption|]]; destruct (_ || _); repeat constructor; unfold is_u8; lia. }
    intros rest s. assert (T : transport_packet (sx7_packet g f ds) = false).
    { unfold transport_packet. rewrite <- type_spec by (rewrite sx7_pob by trivial; apply pob_wf; now apply sx7_u8). now rewrite sx7_type. }
    unfold said. rewrite T. cbn [fold_left]. f_equal. rewrite <- !app_assoc.
    transitivity (heard None (ds ++ (if (f =? 0) || (f =? 3) then [0xF7] else []) ++ rest)).
    { destruct (_ || _); reflexivity. }
    rewrite heard_data by assumption. now destruct (_ || _).
  - exists []. assert (T := type_spec q U).
    cbn [In] in N. rewrite <- T in N. split; [|split; [constructor|]].
    + unfold to_midi1_byte_stream. change pt_system with 1. change pt_midi1_channel_voice with 2. change pt_data with 3.
      replace (type q =? 1) with false by lia. replace (type q =? 2) with false by lia. now replace (type q =? 3) with false by lia.
    + intros rest s. unfold said, transport_packet. rewrite <- T. now replace (type q =? 1) with false by lia.
Qed.

Lemma sent_heard qs : Forall sendable qs -> exists bs, stream_of_packets qs = Ok bs /\ Forall is_u8 bs /\
  forall rest s, fold_left told (heard None (bs ++ rest)) s = fold_left told (heard None rest) (fold_left told (map tr (filter transport_packet qs)) s).
Proof.
  induction 1 as [|q qs Q _ (bs & E & U & H)]; [exists []; repeat split; constructor|].
  destruct (sendable_heard q Q) as (b & E' & U' & H'). exists (b ++ bs). cbn [stream_of_packets]. rewrite E', E. cbn [bind].
  split; [reflexivity|]. split; [now apply Forall_app|]. intros rest s. rewrite <- app_assoc, H', H. f_equal.
  unfold said. cbn [filter]. now destruct (transport_packet q).
Qed.

(* ---- the leader ------------------------------------------------------------------------------------ *)

Lemma tr_system g s d1 d2 : is_u8 g -> 0xF0 <= s < 256 -> is_u7 d1 -> is_u7 d2 -> tr (make_system_message g s d1 d2) = (s, d1 + 128 * d2).
Proof.
  intros G S D1 D2. assert (G' : 0 <= g mod 16 < 16) by (apply Z.mod_pos_bound; lia). unfold is_u7, is_u8 in *.
  unfold tr. rewrite system_layout by (unfold is_u8; lia). rewrite status_spec, byte3_spec, byte4_spec. cbn [w0]. unfold be32.
  set (x := g mod 16) in *. f_equal; dlia.
Qed.
Lemma tr_position g p : is_u8 g -> is_u14 p -> tr (make_song_position_message g p) = (0xF2, p).
Proof.
  intros G P. unfold make_song_position_message, is_u14 in *.
  assert (A : u8 (Z.land p 0x7F) = p mod 128) by (unfold u8; bitlia).
  assert (B : u8 (Z.land (Z.shiftr p 7) 0x7F) = p / 128) by (unfold u8; bitlia).
  rewrite A, B, tr_system by (trivial; unfold is_u7; dlia). f_equal. dlia.
Qed.

Lemma lead_told g ms : is_u8 g -> Forall move_ok ms -> forall s,
  fold_left told (map tr (snd (lead_run g s ms))) (pr s) = pr (fst (lead_run g s ms)).
Proof.
  intros G. unfold lead_run. induction 1 as [|m ms M _ IH]; intros s; [reflexivity|]. cbn [lead_with]. cbn [fst snd]. rewrite map_app, fold_left_app, <- IH.
  f_equal. assert (Z7 : is_u7 0) by (unfold is_u7; lia).
  destruct m as [| | | |p]; cbn [lead_step fst snd]; unfold pr; destruct s as [r c]; cbn [tp_rolling tp_clock];
    try (destruct r); cbn [map]; rewrite ?tr_system, ?tr_position by (trivial; lia); cbn; f_equal; lia.
Qed.

Lemma lead_history g ms : forall h,
  fst (lead_run g (mkTransport (rolling h) (clocks h)) ms) = mkTransport (rolling (rev ms ++ h)) (clocks (rev ms ++ h)).
Proof.
  unfold lead_run. induction ms as [|m ms IH]; intros h; [reflexivity|]. cbn [lead_with fst rev]. rewrite <- app_assoc. cbn [app].
  rewrite <- IH. f_equal. f_equal. destruct m; reflexivity.
Qed.

Lemma lead_position g ms : fst (lead_run g new_transport ms) = mkTransport (rolling (rev ms)) (clocks (rev ms)).
Proof. pose proof (lead_history g ms []) as H. now rewrite app_nil_r in H. Qed.

Lemma pr_inj s r c : pr s = (r, c) -> s = mkTransport r c.
Proof. destruct s. unfold pr. cbn. congruence. Qed.

Theorem in_step g g' cb ms qs : is_u8 g -> 0 <= g' < 16 -> Forall move_ok ms -> Forall sendable qs ->
  filter transport_packet qs = snd (lead_run g new_transport ms) ->
  exists bs st out, stream_of_packets qs = Ok bs /\ feed_all (new_parser g' cb true) bs = Ok (st, out) /\
    fst (lead_run g new_transport ms) = mkTransport (rolling (rev ms)) (clocks (rev ms)) /\
    follow_run g' new_transport (packets_of out) = mkTransport (rolling (rev ms)) (clocks (rev ms)).
Proof.
  intros G G' M Q E. destruct (sent_heard qs Q) as (bs & B & U & H). destruct (any_bytes_followed g' cb bs new_transport G' U) as (st & out & F & P).
  exists bs, st, out. split; [exact B|]. split; [exact F|]. split; [apply lead_position|]. apply pr_inj. rewrite P.
  specialize (H [] (pr new_transport)). rewrite app_nil_r in H. rewrite H, E, lead_told by assumption. rewrite lead_position. reflexivity.
Qed.

Lemma heard_app a : forall w b s, exists w', fold_left told (heard w (a ++ b)) s = fold_left told (heard w' b) (fold_left told (heard w a) s).
Proof.
  induction a as [|x a IH]; intros w b s; [now exists w|]. cbn [app heard]. destruct (0xF8 <=? x); [cbn [fold_left]; apply IH|].
  destruct (0x80 <=? x); [apply IH|]. destruct w as [[|lo l]|]; [apply IH| |apply IH]. cbn [fold_left]. apply IH.
Qed.

Theorem joins_late g g' cb before p ms qs s0 : 0 <= g < 16 -> 0 <= g' < 16 -> Forall is_u8 before -> is_u14 p -> Forall move_ok ms -> Forall sendable qs ->
  filter transport_packet qs = snd (lead_run g (mkTransport false (6 * p)) ms) ->
  exists bs st out, stream_of_packets (snd (lead_run g s0 [Halt; Locate p]) ++ qs) = Ok bs /\
    feed_all (new_parser g' cb true) (before ++ bs) = Ok (st, out) /\
    follow_run g' new_transport (packets_of out) = mkTransport (rolling (rev ms ++ [Locate p])) (clocks (rev ms ++ [Locate p])).
Proof.
  intros G G' U P M Q E. destruct (sent_heard qs Q) as (bs & B & U' & H). assert (G8 : is_u8 g) by (unfold is_u8; lia).
  assert (P7 : is_u7 (p mod 128) /\ is_u7 (p / 128)) by (unfold is_u7, is_u14 in *; split; dlia).
  assert (X1 : make_system_message g 0xFC 0 0 = short_packet g 0xFC []) by (rewrite short_is_system by (trivial; try lia; constructor); reflexivity).
  assert (X2 : make_song_position_message g p = short_packet g 0xF2 [p mod 128; p / 128]).
  { rewrite short_is_system; [|assumption|lia|repeat constructor; apply P7]. unfold make_song_position_message. cbn [nth]. unfold is_u14 in P.
    f_equal; unfold u8; bitlia. }
  assert (V : valid_message (mkMsg 0xF2 [p mod 128; p / 128])) by (split; [right; reflexivity|repeat constructor; apply P7]).
  exists (0xFC :: 0xF2 :: p mod 128 :: p / 128 :: bs).
  assert (UB : Forall is_u8 (before ++ 0xFC :: 0xF2 :: p mod 128 :: p / 128 :: bs)).
  { apply Forall_app. split; [assumption|]. unfold is_u7, is_u8 in *. repeat (apply Forall_cons; [lia|]). assumption. }
  destruct (any_bytes_followed g' cb _ new_transport G' UB) as (st & out & F & FP). exists st, out. split; [|split; [exact F|]].
  { cbn [lead_run lead_with lead_step fst snd app tp_rolling]. rewrite X1, X2. cbn [app stream_of_packets].
    destruct (rt_to_bytes g 0xFC G ltac:(lia) eq_refl) as [-> _]. destruct (short_to_bytes g _ G V) as [Y _]. cbn [ms_status ms_data] in Y.
    rewrite Y, B. reflexivity. }
  apply pr_inj. rewrite FP. destruct (heard_app before None (0xFC :: 0xF2 :: p mod 128 :: p / 128 :: bs) (pr new_transport)) as (w & ->).
  set (s := fold_left told (heard None before) (pr new_transport)). cbn [heard].
  destruct P7 as [PA PB]. unfold is_u7 in *.
  change (0xF8 <=? 0xFC) with true. change (0xF8 <=? 0xF2) with false. change (0x80 <=? 0xF2) with true. change (0xF2 =? 0xF2) with true. cbv iota.
  replace (0xF8 <=? p mod 128) with false by lia. replace (0x80 <=? p mod 128) with false by lia.
  replace (0xF8 <=? p / 128) with false by lia. replace (0x80 <=? p / 128) with false by lia. cbn [fold_left].
  replace (p mod 128 + 128 * (p / 128)) with p by dlia.
  specialize (H [] (told (told s (0xFC, 0)) (0xF2, p))). rewrite app_nil_r in H. rewrite H.
  change (told (told s (0xFC, 0)) (0xF2, p)) with (pr (mkTransport false (6 * p))). rewrite E, lead_told by assumption.
  pose proof (lead_history g ms [Locate p]) as L. cbn [rolling clocks] in L. rewrite L. reflexivity.
Qed.

(* ---- behind a merge box ------------------------------------------------------------------------------ *)

Lemma sendable_wf p : sendable p -> wf_packet p.
Proof.
  intros [g m G V|g r G R D|g f ds G F L D|q U N]; [| | |assumption].
  - destruct (valid_message_status m V) as [S0 S1]. apply short_wf; [assumption|unfold is_u8; lia|apply Forall_u7_u8, V].
  - apply short_wf; [assumption|unfold is_u8; lia|constructor].
  - assert (D8 : Forall is_u8 ds) by now apply Forall_u7_u8. rewrite sx7_pob by trivial. apply pob_wf. now apply sx7_u8.
Qed.

Lemma in_source {A} s (x : A) l : In x (of_source s l) <-> In (s, x) l.
Proof.
  unfold of_source. rewrite in_map_iff. split.
  - intros ([s' y] & <- & I). apply filter_In in I as [I E]. apply Nat.eqb_eq in E. cbn in *. now subst.
  - intros I. exists (s, x). split; [reflexivity|]. apply filter_In. split; [assumption|]. apply Nat.eqb_refl.
Qed.

Lemma filter_within {A} (f k : A -> bool) l : (forall x, In x l -> f x = true -> k x = true) -> filter f (filter k l) = filter f l.
Proof.
  induction l as [|x l IH]; intros H; [reflexivity|]. cbn [filter]. pose proof (H x (or_introl eq_refl)).
  destruct (f x) eqn:F, (k x) eqn:K; cbn [filter]; rewrite ?F, ?IH; auto; try (intros; apply H; [now right|assumption]). now specialize (H0 eq_refl).
Qed.

Lemma lead_realtime g ms : is_u8 g -> Forall no_locate ms -> forall s, Forall (fun p => realtime_packet p = true) (snd (lead_run g s ms)).
Proof.
  intros G. assert (R : forall k, 0xF8 <= k < 256 -> realtime_packet (make_system_message g k 0 0) = true).
  { intros k K. rewrite system_layout by (try assumption; unfold is_u8; lia). assert (X : 0 <= g mod 16 < 16) by (apply Z.mod_pos_bound; lia).
    unfold realtime_packet. cbn [w0]. unfold be32. set (x := g mod 16) in *. lia. }
  unfold lead_run. induction 1 as [|m ms M _ IH]; intros s; cbn [lead_with snd]; [constructor|]. apply Forall_app. split; [|apply IH].
  destruct m; cbn in M; try easy; cbn [lead_step snd]; constructor; try constructor; apply R; lia.
Qed.

Theorem merged_in_step g g' cb s ms l : is_u8 g -> 0 <= g' < 16 -> Forall no_locate ms -> Forall (fun x => sendable (snd x)) l ->
  filter (fun x => transport_packet (snd x)) l = map (pair s) (snd (lead_run g new_transport ms)) ->
  exists m out bs st ev, merge_run new_merger l = (m, out) /\ stream_of_packets (map snd out) = Ok bs /\
    feed_all (new_parser g' cb true) bs = Ok (st, ev) /\
    follow_run g' new_transport (packets_of ev) = mkTransport (rolling (rev ms)) (clocks (rev ms)).
Proof.
  intros G G' M Q E. destruct (any_packets l) as (m & out & R & NR & RT & _).
  { eapply Forall_impl; [|exact Q]. intros x. apply sendable_wf. }
  assert (SUB : forall x, In x out -> In x l).
  { intros [i p] I. destruct (realtime_packet p) eqn:RP.
    - assert (J : In (i, p) (filter (fun x => realtime_packet (snd x)) out)) by (apply filter_In; auto). rewrite RT in J. now apply filter_In in J.
    - assert (J : In p (filter (fun p => negb (realtime_packet p)) (of_source i out))).
      { apply filter_In. split; [now apply in_source|now rewrite RP]. }
      assert (K : In p (filter (fun p => negb (realtime_packet p)) (of_source i l))) by (rewrite <- NR; apply in_or_app; now left).
      apply filter_In in K as [K _]. now apply in_source in K. }
  assert (TR : forall x, In x l -> transport_packet (snd x) = true -> realtime_packet (snd x) = true).
  { intros x I T. assert (J : In x (filter (fun x => transport_packet (snd x)) l)) by (apply filter_In; auto). rewrite E in J.
    apply in_map_iff in J as (p & <- & J). pose proof (lead_realtime g ms G M new_transport) as F. rewrite Forall_forall in F. now apply F. }
  assert (TO : filter transport_packet (map snd out) = snd (lead_run g new_transport ms)).
  { assert (FM : forall (k : packet -> bool) (y : list (nat * packet)), filter k (map snd y) = map snd (filter (fun x => k (snd x)) y)).
    { clear. intros k y. induction y as [|x y IH]; [reflexivity|]. cbn [map filter]. rewrite IH. now destruct (k (snd x)). }
    rewrite FM, <- (filter_within _ (fun x => realtime_packet (snd x))) by (intros x I; apply TR, SUB, I).
    rewrite RT, filter_within by exact TR. rewrite E, map_map. cbn [snd]. apply map_id. }
  assert (QO : Forall sendable (map snd out)).
  { apply Forall_forall. intros p I. apply in_map_iff in I as (x & <- & I). rewrite Forall_forall in Q. apply Q, SUB, I. }
  assert (MO : Forall move_ok ms) by (eapply Forall_impl; [|exact M]; intros []; cbn; tauto).
  destruct (in_step g g' cb ms (map snd out) G G' MO QO TO) as (bs & st & ev & B & F & _ & P). exists m, out, bs, st, ev. auto.
Qed.

(* ---- other groups ---------------------------------------------------------------------------------- *)

Theorem follow_own_group g ps : forall s, follow_run g s ps = follow_run g s (filter (fun p => w0 p / 16777216 mod 16 =? g) ps).
Proof.
  unfold follow_run. induction ps as [|p ps IH]; intros s; [reflexivity|]. cbn [filter fold_left]. rewrite IH.
  destruct (Z.eqb_spec (w0 p / 16777216 mod 16) g) as [E|E]; [reflexivity|]. f_equal. unfold follow_step, as_system_message_view.
  destruct (type p =? pt_system); [|reflexivity]. rewrite group_spec. now replace (_ =? g) with false by lia.
Qed.
