(* Consequences of the refinement: legal streams, chunking, silence, reset, SysEx *)
From Coq Require Import ZArith List Bool Lia ZifyBool ZifyNat.
From Verif Require Import Base Bits Packet PacketSpec PacketProofs PacketBytes
  Messages Sysex ByteStream StreamSpec StreamProofs.
Import ListNotations.
Local Open Scope Z_scope.
Local Open Scope res_scope.

(* ---- annotated streams -------------------------------------------------------- *)

Inductive annotates (cb : bool) (g : Z) : list Z -> annotated -> Prop :=
| an_nil h : annotates cb g h []
| an_cons h b e a : e = emission cb g h b -> annotates cb g (remember h b) a ->
    annotates cb g h ((b, e) :: a).

Lemma annotates_outputs cb g h a : annotates cb g h a ->
  outputs cb g h (map fst a) = concat (map snd a).
Proof. induction 1; cbn; [reflexivity|]. now rewrite H, IHannotates. Qed.

Lemma annotates_app cb g h a b : annotates cb g h a ->
  annotates cb g (fold_left remember (map fst a) h) b -> annotates cb g h (a ++ b).
Proof. induction 1; cbn; intros; [assumption|]. constructor; auto. Qed.

Lemma annotates_firstn cb g n : forall h a, annotates cb g h a -> annotates cb g h (firstn n a).
Proof.
  induction n; intros h a H; cbn; [constructor|]. destruct H; [constructor|]. constructor; auto.
Qed.

Lemma emission_rt cb g h r : is_rt r = true ->
  emission cb g h r = if rt_defined r then [EPacket (short_packet g r [])] else [].
Proof. intros H. unfold emission. now rewrite H. Qed.

Lemma annotates_rt cb g a b : with_realtime g a b -> forall h, annotates cb g h a -> annotates cb g h b.
Proof.
  induction 1 as [|[x e] a b W IH|r a b Hr Hb W IH]; intros h A.
  - assumption.
  - inversion A; subst. constructor; auto.
  - constructor; [now rewrite emission_rt|]. unfold remember. rewrite Hr. auto.
Qed.

Lemma context_data h d : is_u7 d -> context (remember h d) =
  match context h with Some (s, ds) => Some (s, ds ++ [d]) | None => None end.
Proof.
  intros H. rewrite context_remember. unfold next_ctx, is_rt, ctx_step, is_u7 in *.
  replace (0xF8 <=? d) with false by lia. now replace (0x80 <=? d) with false by lia.
Qed.

Lemma context_status h b : 0x80 <= b < 0xF8 -> context (remember h b) = Some (b, []).
Proof.
  intros H. rewrite context_remember. unfold next_ctx, is_rt, ctx_step.
  replace (0xF8 <=? b) with false by lia. now replace (0x80 <=? b) with true by lia.
Qed.

Lemma emission_data cb g h d : is_u7 d -> emission cb g h d =
  match context h with Some (s, ds) => on_data cb g s (ds ++ [d]) | None => [] end.
Proof.
  intros H. unfold emission, is_rt, is_u7 in *. replace (0xF8 <=? d) with false by lia.
  now replace (d <? 0x80) with true by lia.
Qed.

Lemma sc_len_cases s n : sc_len s = Some n ->
  (s = 0xF1 /\ n = 1%nat \/ s = 0xF2 /\ n = 2%nat \/ s = 0xF3 /\ n = 1%nat \/ s = 0xF6 /\ n = 0%nat).
Proof.
  unfold sc_len.
  destruct (Z.eqb_spec s 0xF1); [injection 1; auto|].
  destruct (Z.eqb_spec s 0xF2); [injection 1; auto|].
  destruct (Z.eqb_spec s 0xF3); [injection 1; auto 6|].
  destruct (Z.eqb_spec s 0xF6); [injection 1; auto 7|]. discriminate.
Qed.

Lemma sc_len_range s n : sc_len s = Some n -> 0xF0 < s < 0xF7.
Proof. intros E. apply sc_len_cases in E. lia. Qed.

(* the data bytes of one message, after a status byte or in running status *)
Lemma annotate_message cb g s ds0 data : 0x80 <= s < 0xF8 ->
  (s < 0xF0 /\ length data = cv_len s /\ (length ds0 mod cv_len s = 0)%nat \/
   sc_len s = Some (length data) /\ ds0 = []) ->
  Forall is_u7 data ->
  forall h, context h = Some (s, ds0) ->
  annotates cb g h (annotate_data data (EPacket (short_packet g s data))) /\
  context (fold_left remember data h) = Some (s, ds0 ++ data).
Proof.
  intros Hs H Hd h Hh.
  assert (L : (length data <= 2)%nat).
  { destruct H as [(_ & -> & _)|[E _]].
    - unfold cv_len. destruct (_ && _); lia.
    - apply sc_len_cases in E. lia. }
  assert (LN : forall ds', lastn (length data) (ds' ++ data) = data).
  { intros. unfold lastn. rewrite app_length. replace (length ds' + length data - length data)%nat with (length ds') by lia.
    rewrite skipn_app, skipn_all, Nat.sub_diag. reflexivity. }
  destruct data as [|d1 [|d2 [|d3 data]]]; cbn [length] in L; [..|lia].
  - split; [constructor|]. now rewrite app_nil_r.
  - inversion_clear Hd as [|? ? D1 _]. cbn [annotate_data fold_left].
    rewrite context_data, Hh by assumption. split; [|reflexivity].
    constructor; [|constructor]. rewrite emission_data, Hh by assumption.
    unfold on_data. destruct H as [(Hlt & Len & M)|[E ->]].
    + replace (s <? 0xF0) with true by lia. cbn [length] in Len. rewrite <- Len in *.
      rewrite app_length. cbn [length]. rewrite Nat.mod_1_r. cbn [Nat.eqb].
      specialize (LN ds0). cbn [length] in LN. now rewrite LN.
    + assert (0xF0 < s).
      { apply sc_len_range in E; lia. }
      replace (s <? 0xF0) with false by lia. replace (s =? 0xF0) with false by lia.
      rewrite E. reflexivity.
  - inversion_clear Hd as [|? ? D1 Hd2]. inversion_clear Hd2 as [|? ? D2 _].
    cbn [annotate_data fold_left].
    assert (C1 : context (remember h d1) = Some (s, ds0 ++ [d1])) by (now rewrite context_data, Hh).
    assert (C2 : context (remember (remember h d1) d2) = Some (s, ds0 ++ [d1; d2]))
      by (rewrite context_data, C1 by assumption; now rewrite <- app_assoc).
    split; [|assumption].
    constructor; [|constructor; [|constructor]].
    + rewrite emission_data, Hh by assumption. unfold on_data.
      destruct H as [(Hlt & Len & M)|[E ->]].
      * replace (s <? 0xF0) with true by lia. cbn [length] in Len. rewrite <- Len in *.
        rewrite app_length. cbn [length].
        apply Nat.mod_divides in M as [c M]; [|lia]. rewrite M.
        replace (2 * c + 1)%nat with (1 + c * 2)%nat by lia. rewrite Nat.mod_add by lia. reflexivity.
      * assert (0xF0 < s).
        { apply sc_len_range in E; lia. }
        replace (s <? 0xF0) with false by lia. replace (s =? 0xF0) with false by lia.
        rewrite E. reflexivity.
    + rewrite emission_data, C1 by assumption. unfold on_data. rewrite <- app_assoc. cbn [app].
      destruct H as [(Hlt & Len & M)|[E ->]].
      * replace (s <? 0xF0) with true by lia. cbn [length] in Len. rewrite <- Len in *.
        rewrite app_length. cbn [length].
        apply Nat.mod_divides in M as [c M]; [|lia]. rewrite M.
        replace (2 * c + 2)%nat with (0 + (c + 1) * 2)%nat by lia. rewrite Nat.mod_add by lia.
        cbn [Nat.modulo Nat.divmod Nat.eqb fst snd Nat.sub].
        specialize (LN ds0). cbn [length] in LN. now rewrite LN.
      * assert (0xF0 < s).
        { apply sc_len_range in E; lia. }
        replace (s <? 0xF0) with false by lia. replace (s =? 0xF0) with false by lia.
        rewrite E. reflexivity.
Qed.

Lemma valid_message_status m : valid_message m -> 0x80 <= ms_status m < 0xF7 /\ ms_status m <> 0xF0.
Proof. intros [[[H _]|H] _]; [lia|apply sc_len_range in H; lia]. Qed.

Lemma valid_message_cases m : valid_message m ->
  (ms_status m < 0xF0 /\ length (ms_data m) = cv_len (ms_status m)) \/
  sc_len (ms_status m) = Some (length (ms_data m)).
Proof. intros [[[H L]|H] _]; [left; split; [lia|assumption]|now right]. Qed.

Lemma annotate_data_fst ds e : map fst (annotate_data ds e) = ds.
Proof.
  induction ds as [|d [|d' ds] IH]; [reflexivity|reflexivity|].
  cbn [annotate_data map fst]. f_equal. exact IH.
Qed.

Lemma annotate_full cb g m h : valid_message m ->
  annotates cb g h (render_full g m) /\
  map fst (render_full g m) = ms_status m :: ms_data m /\
  context (fold_left remember (ms_status m :: ms_data m) h) = Some (ms_status m, ms_data m).
Proof.
  intros V. pose proof (valid_message_status m V) as [Hs NS]. pose proof (valid_message_cases m V) as C.
  destruct V as [_ F]. set (s := ms_status m) in *. unfold render_full. fold s.
  assert (C1 : context (remember h s) = Some (s, [])) by (apply context_status; lia).
  assert (EM : ms_data m <> [] -> emission cb g h s = []).
  { intros NE. unfold emission, is_rt. replace (0xF8 <=? s) with false by lia.
    replace (s <? 0x80) with false by lia.
    destruct (Z.eqb_spec s 0xF6) as [E6|N6].
    - exfalso. rewrite E6 in C. destruct C as [C|C]; [lia|].
      cbn in C. injection C as C. destruct (ms_data m); [congruence|discriminate].
    - replace (s =? 0xF7) with false by lia. reflexivity. }
  destruct (ms_data m) as [|d ds] eqn:E.
  - cbn [map fst fold_left]. rewrite C1. repeat split; try reflexivity.
    constructor; [|constructor]. unfold emission, is_rt. replace (0xF8 <=? s) with false by lia.
    replace (s <? 0x80) with false by lia.
    destruct C as [[C1' C2]|C2].
    + unfold cv_len in C2. cbn in C2. destruct (_ && _); discriminate.
    + apply sc_len_cases in C2. cbn [length] in C2.
      replace (s =? 0xF6) with true by lia. reflexivity.
  - rewrite <- E in *. 
    destruct (annotate_message cb g s [] (ms_data m) ltac:(lia)) with (h := remember h s) as [A B].
    + destruct C as [[L C]|C]; [left; repeat split; auto; apply Nat.mod_0_l; unfold cv_len; destruct (_ && _); lia|right; now split].
    + assumption.
    + assumption.
    + repeat split.
      * constructor; [now rewrite EM by (rewrite E; discriminate)|assumption].
      * cbn [map fst]. now rewrite annotate_data_fst.
      * assumption.
Qed.

Definition running_ok (rs : option Z) (h : list Z) : Prop :=
  match rs with
  | None => True
  | Some s => exists ds, context h = Some (s, ds) /\ (length ds mod cv_len s = 0)%nat
  end.

Lemma renders_annotates cb g rs ms a : renders g rs ms a ->
  forall h, running_ok rs h -> annotates cb g h a.
Proof.
  induction 1 as [rs|rs m ms a V R IH|m ms a V CV R IH]; intros h OK.
  - constructor.
  - destruct (annotate_full cb g m h V) as (A & B & C).
    apply annotates_app; [assumption|]. rewrite B. apply IH.
    unfold running_ok. destruct (is_cv m) eqn:CV; [|exact I].
    exists (ms_data m). split; [assumption|].
    destruct V as [[[_ L]|L] _].
    + rewrite L. apply Nat.mod_same. unfold cv_len; destruct (_ && _); lia.
    + apply sc_len_range in L. unfold is_cv in CV. lia.
  - destruct OK as (ds & C & M). unfold is_cv in CV.
    pose proof (valid_message_status m V) as [Hs NS].
    assert (L : length (ms_data m) = cv_len (ms_status m)).
    { destruct (valid_message_cases m V) as [[_ L]|L]; [assumption|apply sc_len_range in L; lia]. }
    destruct (annotate_message cb g (ms_status m) ds (ms_data m) ltac:(lia)) with (h := h) as [A B]; trivial.
    + left. repeat split; trivial; lia.
    + apply V.
    + apply annotates_app; [assumption|]. unfold render_running. rewrite annotate_data_fst.
      apply IH. exists (ds ++ ms_data m). split; [assumption|].
      rewrite app_length, L. rewrite <- Nat.add_mod_idemp_l, M by (unfold cv_len; destruct (_ && _); lia).
      apply Nat.mod_same. unfold cv_len; destruct (_ && _); lia.
Qed.

Lemma annotate_u8 m : valid_message m -> Forall is_u8 (ms_status m :: ms_data m).
Proof.
  intros V. pose proof (valid_message_status m V). constructor; [unfold is_u8; lia|].
  apply Forall_u7_u8, V.
Qed.

Lemma render_full_fst g m : valid_message m -> map fst (render_full g m) = ms_status m :: ms_data m.
Proof. intros V. apply (annotate_full true g m [] V). Qed.

Lemma renders_u8 g rs ms a : renders g rs ms a -> Forall is_u8 (map fst a).
Proof.
  induction 1 as [|rs m ms a V R IH|m ms a V CV R IH]; [constructor| |];
    rewrite map_app; apply Forall_app; split; trivial.
  - rewrite render_full_fst by assumption. now apply annotate_u8.
  - unfold render_running. rewrite annotate_data_fst. apply Forall_u7_u8, V.
Qed.

Lemma with_realtime_u8 g a b : with_realtime g a b -> Forall is_u8 (map fst a) -> Forall is_u8 (map fst b).
Proof.
  induction 1 as [|x a b W IH|r a b Hr Hb W IH]; intros F; cbn in *.
  - constructor.
  - inversion_clear F. constructor; auto.
  - constructor; auto. unfold is_rt in Hr. unfold is_u8; lia.
Qed.

Lemma Forall_firstn {A} (P : A -> Prop) n l : Forall P l -> Forall P (firstn n l).
Proof.
  intros H. rewrite Forall_forall in *. intros x Hx. apply H.
  rewrite <- (firstn_skipn n l). apply in_or_app. now left.
Qed.

Lemma after_inv g cb h st : 0 <= g < 16 -> Forall is_u8 h -> after g cb h st ->
  inv g g true cb true (context (fold_left remember h [])) st.
Proof.
  intros G H [o E].
  destruct (feed_all_outputs g cb h G H [] _ (inv_new g g true cb true)) as (st' & E' & I).
  rewrite E in E'. now injection E' as -> _.
Qed.

Lemma feed_after g cb h st bs : 0 <= g < 16 -> Forall is_u8 h -> after g cb h st ->
  Forall is_u8 bs ->
  exists st', feed_all st bs = Ok (st', outputs cb g (fold_left remember h []) bs) /\
    inv g g true cb true (context (fold_left remember bs (fold_left remember h []))) st'.
Proof.
  intros G H A B. pose proof (after_inv g cb h st G H A) as I.
  destruct (feed_all_outputs g cb bs G B _ _ I) as (st' & E & I').
  exists st'. split; assumption.
Qed.

Lemma legal_stream_any_history g cb h st ms a b n : 0 <= g < 16 -> Forall is_u8 h -> after g cb h st ->
  renders g None ms a -> with_realtime g a b ->
  exists st', feed_all st (map fst (firstn n b)) = Ok (st', concat (map snd (firstn n b))).
Proof.
  intros G H A R W.
  assert (AN : annotates cb g (fold_left remember h []) b)
    by (eapply annotates_rt; [eassumption|]; eapply renders_annotates; [eassumption|exact I]).
  apply (annotates_firstn _ _ n) in AN.
  assert (F : Forall is_u8 (map fst (firstn n b))).
  { rewrite <- firstn_map. apply Forall_firstn. eapply with_realtime_u8; [eassumption|]. eapply renders_u8; eassumption. }
  destruct (feed_after g cb h st _ G H A F) as (st' & E & _).
  exists st'. now rewrite E, (annotates_outputs _ _ _ _ AN).
Qed.

(* ---- real-time bytes ---------------------------------------------------------------- *)

Lemma feed_all_app st a b : feed_all st (a ++ b) =
  (r <- feed_all st a ;; r' <- feed_all (fst r) b ;; Ok (fst r', snd r ++ snd r')).
Proof.
  revert st; induction a as [|x a IH]; intros st; cbn [feed_all app bind].
  - cbn [fst snd app]. destruct (feed_all st b) as [[st' o]|f]; reflexivity.
  - destruct (feed st x) as [[st1 o1]|f]; cbn [bind]; [|reflexivity].
    rewrite IH. destruct (feed_all st1 a) as [[st2 o2]|f]; cbn [bind fst snd]; [|reflexivity].
    destruct (feed_all st2 b) as [[st3 o3]|f]; cbn [bind fst snd]; [|reflexivity].
    now rewrite app_assoc.
Qed.

Lemma rt_insert st r pre post st1 o1 st2 o2 : 0xF8 <= r < 256 ->
  0 <= m_group st1 < 16 ->
  feed_all st pre = Ok (st1, o1) -> feed_all st1 post = Ok (st2, o2) ->
  feed_all st (pre ++ r :: post) =
    Ok (st2, o1 ++ (if m_invoke_callbacks st1 then rt_events (m_group st1) r else []) ++ o2).
Proof.
  intros Hr G E1 E2. rewrite feed_all_app, E1. cbn [bind fst snd feed_all].
  rewrite feed_rt by assumption. cbn [bind]. rewrite E2. cbn [bind fst snd]. reflexivity.
Qed.

(* events of non real-time bytes are never real-time messages *)
Lemma short_w0 g s ds : 0 <= g < 16 -> is_u8 s -> Forall is_u8 ds ->
  w0 (short_packet g s ds) / 16777216 = short_ty s * 16 + g /\
  w0 (short_packet g s ds) / 65536 mod 256 = s.
Proof.
  intros G S D. pose proof (nth_u8 ds 0 D); pose proof (nth_u8 ds 1 D).
  unfold short_packet, short_ty, is_u8 in *; cbn [w0]. destruct (s <? 0xF0); split; dlia.
Qed.

Lemma short_not_rt g s ds : 0 <= g < 16 -> 0 <= s < 0xF8 -> Forall is_u8 ds ->
  is_realtime_event (EPacket (short_packet g s ds)) = false.
Proof.
  intros G S D. unfold is_realtime_event.
  destruct (short_w0 g s ds G) as [-> ->]; trivial; [unfold is_u8; lia|].
  replace (0xF8 <=? s) with false by lia. apply andb_false_r.
Qed.

Lemma sx7_w0 g f ds : 0 <= g < 16 -> 0 <= f < 4 -> (length ds <= 6)%nat -> Forall is_u8 ds ->
  w0 (sx7_packet g f ds) / 16777216 = 48 + g.
Proof.
  intros G F L D. pose proof (nth_u8 ds 0 D); pose proof (nth_u8 ds 1 D).
  unfold sx7_packet, be32, is_u8 in *; cbn [w0]. dlia.
Qed.

Lemma sx7_not_rt g f ds : 0 <= g < 16 -> 0 <= f < 4 -> (length ds <= 6)%nat -> Forall is_u8 ds ->
  is_realtime_event (EPacket (sx7_packet g f ds)) = false.
Proof.
  intros. unfold is_realtime_event. rewrite sx7_w0 by assumption.
  replace (48 + g <? 32) with false by lia. now rewrite andb_false_r.
Qed.

Lemma rt_is_rt g r : 0 <= g < 16 -> 0xF8 <= r < 256 ->
  is_realtime_event (EPacket (short_packet g r [])) = true.
Proof.
  intros G S. unfold is_realtime_event.
  destruct (short_w0 g r [] G) as [-> ->]; trivial; [unfold is_u8; lia|].
  unfold short_ty. replace (r <? 0xF0) with false by lia.
  replace (0xF8 <=? r) with true by lia. lia.
Qed.

Definition ctx_ok (c : option (Z * list Z)) : Prop :=
  match c with Some (s, ds) => 0x80 <= s < 0xF8 /\ Forall is_u7 ds | None => True end.

Lemma ctx_ok_next c b : is_u8 b -> ctx_ok c -> ctx_ok (next_ctx c b).
Proof.
  unfold next_ctx, is_rt, ctx_step, is_u8. intros B C.
  destruct (Z.leb_spec 0xF8 b); [assumption|]. destruct (Z.leb_spec 0x80 b).
  - split; [lia|constructor].
  - destruct c as [[s ds]|]; [|exact I]. destruct C as [S D]. split; [assumption|].
    apply Forall_app; split; [assumption|]. repeat constructor; unfold is_u7; lia.
Qed.

Lemma ctx_ok_context h : Forall is_u8 h -> forall c, ctx_ok c -> ctx_ok (fold_left next_ctx h c).
Proof. induction 1; cbn; intros; auto using ctx_ok_next. Qed.

(* well-formedness of everything emitted *)
Lemma sx_decode_valid ds s : Forall is_u7 ds -> sx_decode ds = Some s ->
  valid_id (sx_id s) /\ Forall is_u7 (sx_data s).
Proof.
  intros D E. destruct ds as [|m rest]; [discriminate|]. inversion_clear D as [|? ? M R].
  destruct (Z.eq_dec m 0) as [->|N].
  - destruct rest as [|a [|b rest]]; try discriminate. injection E as <-. cbn.
    inversion_clear R as [|? ? A R']. inversion_clear R' as [|? ? B R]. split; [|assumption].
    right. exists a, b. auto.
  - unfold is_u7 in M. assert (E' : s = mkSx (m * 65536) rest) by (destruct m; [lia|unfold sx_decode in E; congruence|lia]).
    subst. cbn [sx_id sx_data]. split; [|assumption]. left. exists m. split; lia.
Qed.

Lemma on_data_wf cb g s ds : 0x80 <= s < 0xF8 -> Forall is_u7 ds -> ds <> [] ->
  Forall (wf_output g) (on_data cb g s ds).
Proof.
  intros S D NE. assert (NE' : (length ds <> 0)%nat) by (destruct ds; [congruence|discriminate]).
  unfold on_data.
  destruct (Z.ltb_spec s 0xF0).
  - destruct (_ =? 0)%nat eqn:M; [|constructor]. constructor; [|constructor].
    left. exists (mkMsg s (lastn (cv_len s) ds)). cbn [ms_status ms_data]. split; [|reflexivity].
    split; [|now apply Forall_lastn]. left. cbn [ms_status ms_data]. split; [lia|]. apply lastn_length.
    apply Nat.eqb_eq in M. apply Nat.mod_divides in M; [|unfold cv_len; destruct (_ && _); lia].
    destruct M as [c M]. rewrite M. destruct c; [lia|]. nia.
  - destruct (Z.eqb_spec s 0xF0).
    + destruct cb; [constructor|]. destruct (_ =? 0)%nat eqn:M; [|constructor]. constructor; [|constructor].
      apply Nat.eqb_eq, Nat.mod_divides in M; [|lia]. destruct M as [c M].
      assert (L : length (lastn 6 ds) = 6%nat) by (apply lastn_length; lia).
      right; right. eexists _, (lastn 6 ds). split; [|split; [|split; [|split; [|reflexivity]]]].
      * destruct (_ =? _)%nat; lia.
      * lia.
      * now apply Forall_lastn.
      * intros _ E. now rewrite E in L.
    + destruct (sc_len s) as [k|] eqn:E; [|constructor].
      destruct (Nat.eqb_spec (length ds) k); [|constructor]. constructor; [|constructor].
      left. exists (mkMsg s ds). cbn. split; [|reflexivity]. split; [right; cbn; congruence|assumption].
Qed.

Lemma on_sysex_end_wf cb g ds : Forall is_u7 ds -> Forall (wf_output g) (on_sysex_end cb g ds).
Proof.
  intros D. unfold on_sysex_end. destruct cb.
  - destruct (sx_decode ds) eqn:E; [|constructor]. constructor; [|constructor].
    now apply sx_decode_valid with (ds := ds).
  - destruct (Nat.eqb_spec (length ds) 0); [constructor|].
    destruct (Nat.ltb_spec (length ds) 6); (constructor; [|constructor]); right; right.
    + exists 0, ds. repeat split; trivial; try lia. intros _ ->. now cbn in *.
    + exists 3, (lastn (length ds mod 6) ds). repeat split; trivial; try lia.
      * rewrite lastn_length by (apply Nat.mod_le; lia).
        pose proof (Nat.mod_upper_bound (length ds) 6). lia.
      * now apply Forall_lastn.
Qed.

Lemma emit_wf cb g c b : is_u8 b -> ctx_ok c -> Forall (wf_output g) (emit_ctx cb g c b).
Proof.
  intros B C. unfold emit_ctx, is_rt, is_u8 in *.
  destruct (Z.leb_spec 0xF8 b).
  - destruct (rt_defined b) eqn:R; [|constructor]. constructor; [|constructor].
    right; left. exists b. repeat split; trivial; lia.
  - destruct (Z.ltb_spec b 0x80).
    + destruct c as [[s ds]|]; [|constructor]. destruct C. apply on_data_wf; trivial.
      * apply Forall_app; split; trivial. repeat constructor; unfold is_u7; lia.
      * destruct ds; discriminate.
    + destruct (Z.eqb_spec b 0xF6) as [->|].
      * constructor; [|constructor]. left. exists (mkMsg 0xF6 []). split; [|reflexivity].
        split; [now right|constructor].
      * destruct (b =? 0xF7); [|constructor]. destruct c as [[s ds]|]; [|constructor].
        destruct C. destruct (s =? 0xF0); [|constructor]. now apply on_sysex_end_wf.
Qed.

Lemma outputs_wf cb g bs : Forall is_u8 bs -> forall h, ctx_ok (context h) ->
  Forall (wf_output g) (outputs cb g h bs).
Proof.
  induction 1 as [|b bs B _ IH]; intros h C; cbn [outputs]; [constructor|].
  apply Forall_app; split.
  - rewrite emission_ctx. now apply emit_wf.
  - apply IH. rewrite context_remember. now apply ctx_ok_next.
Qed.

Lemma wf_output_not_rt g e : 0 <= g < 16 -> wf_output g e -> is_realtime_event e = true ->
  exists r, 0xF8 <= r < 256 /\ rt_defined r = true /\ e = EPacket (short_packet g r []).
Proof.
  intros G W R. destruct e as [p|s]; [|discriminate].
  destruct W as [(m & V & ->)|[(r & Hr & D & ->)|(f & ds & F & L & D & _ & ->)]].
  - pose proof (valid_message_status m V). rewrite short_not_rt in R; try discriminate; trivial; [lia|].
    apply Forall_u7_u8, V.
  - now exists r.
  - rewrite sx7_not_rt in R; try discriminate; trivial. now apply Forall_u7_u8.
Qed.


Lemma filter_all {A} (f : A -> bool) l : Forall (fun x => f x = true) l -> filter f l = l.
Proof. induction 1; cbn; [reflexivity|]. now rewrite H, IHForall. Qed.

Lemma Forall_one {A} (P : A -> Prop) (c : bool) x : P x -> Forall P (if c then [x] else []).
Proof. destruct c; auto. Qed.

Lemma emit_not_rt cb g c b : 0 <= g < 16 -> 0 <= b < 0xF8 -> ctx_ok c ->
  filter not_rt_event (emit_ctx cb g c b) = emit_ctx cb g c b.
Proof.
  intros G B C. apply filter_all. unfold not_rt_event.
  assert (ST : forall s ds, 0 <= s < 0xF8 -> Forall is_u8 ds ->
     negb (is_realtime_event (EPacket (short_packet g s ds))) = true)
    by (intros; now rewrite short_not_rt).
  assert (SX : forall f ds, 0 <= f < 4 -> (length ds <= 6)%nat -> Forall is_u8 ds ->
     negb (is_realtime_event (EPacket (sx7_packet g f ds))) = true)
    by (intros; now rewrite sx7_not_rt).
  unfold emit_ctx, is_rt. replace (0xF8 <=? b) with false by lia.
  destruct (Z.ltb_spec b 0x80).
  - destruct c as [[s ds]|]; [|constructor]. destruct C as [S D].
    assert (D' : Forall is_u8 (ds ++ [b]))
      by (apply Forall_app; split; [now apply Forall_u7_u8|repeat constructor; lia]).
    unfold on_data. destruct (s <? 0xF0); [apply Forall_one, ST; [lia|now apply Forall_lastn]|].
    destruct (s =? 0xF0).
    + destruct cb; [constructor|]. apply Forall_one, SX; [|unfold lastn; rewrite skipn_length; lia|now apply Forall_lastn].
      destruct (_ =? _)%nat; lia.
    + destruct (sc_len s); [|constructor]. apply Forall_one, ST; trivial. lia.
  - destruct (b =? 0xF6); [constructor; [apply ST; [lia|constructor]|constructor]|].
    destruct (b =? 0xF7); [|constructor]. destruct c as [[s ds]|]; [|constructor]. destruct C as [S D].
    destruct (s =? 0xF0); [|constructor]. unfold on_sysex_end. destruct cb.
    + destruct (sx_decode ds); constructor; [reflexivity|constructor].
    + destruct (length ds =? 0)%nat; [constructor|].
      destruct (Nat.ltb_spec (length ds) 6); (constructor; [apply SX; [lia|..]|constructor]).
      * lia.
      * now apply Forall_u7_u8.
      * unfold lastn. rewrite skipn_length. pose proof (Nat.mod_upper_bound (length ds) 6). lia.
      * now apply Forall_lastn, Forall_u7_u8.
Qed.

Lemma outputs_filter_rt cb g bs : 0 <= g < 16 -> Forall is_u8 bs -> forall h, ctx_ok (context h) ->
  filter not_rt_event (outputs cb g h bs) = outputs cb g h (filter not_rt bs).
Proof.
  intros G. induction 1 as [|b bs B _ IH]; intros h C; cbn [outputs filter]; [reflexivity|].
  rewrite filter_app, IH by (rewrite context_remember; now apply ctx_ok_next).
  unfold not_rt at 2. unfold is_u8 in B. destruct (is_rt b) eqn:R; cbn [negb outputs].
  - unfold remember. rewrite R.
    replace (filter not_rt_event (emission cb g h b)) with (@nil event); [reflexivity|].
    unfold emission. rewrite R. destruct (rt_defined b); [|reflexivity].
    cbn [filter]. unfold not_rt_event. unfold is_rt in R. now rewrite rt_is_rt by lia.
  - f_equal. rewrite emission_ctx. apply emit_not_rt; trivial. unfold is_rt in R; lia.
Qed.

Lemma ctx_ok_history h : Forall is_u8 h -> ctx_ok (context (fold_left remember h [])).
Proof.
  intros H. assert (X : forall h0, ctx_ok (context h0) -> ctx_ok (context (fold_left remember h h0))).
  { induction H; cbn; intros; trivial. apply IHForall. rewrite context_remember. now apply ctx_ok_next. }
  apply X. exact I.
Qed.

(* ---- chunking ------------------------------------------------------------------------ *)

Lemma feed_chunks_concat cs : forall st, feed_chunks st cs = feed_all st (concat cs).
Proof.
  induction cs as [|c cs IH]; intros st; cbn [feed_chunks concat]; [reflexivity|].
  rewrite feed_all_app. destruct (feed_all st c) as [[st1 o1]|f]; cbn [bind fst snd]; [|reflexivity].
  now rewrite IH.
Qed.

(* ---- silence -------------------------------------------------------------------------- *)

Definition silent (r : result) : Prop :=
  match r with Ok (st, o) => o = [] /\ m_invoke_callbacks st = false | Fault _ => True end.

Lemma silent_if (c : bool) a b : silent a -> silent b -> silent (if c then a else b).
Proof. now destruct c. Qed.
Lemma silent_bind {A} (x : res A) k : (forall a, silent (k a)) -> silent (bind x k).
Proof. intros H. destruct x; cbn; auto. Qed.

Lemma feed_silent_aux st b : m_invoke_callbacks st = false -> silent (feed st b).
Proof.
  intros H.
  assert (P : forall e, post st e = []) by (intros; unfold post; now rewrite H).
  assert (PL : forall st b, m_invoke_callbacks st = false -> silent (feed_plain st b)).
  { clear. intros st b H. assert (P : forall e, post st e = []) by (intros; unfold post; now rewrite H).
    unfold feed_plain. apply silent_if; [|apply silent_if; [|apply silent_if; [|apply silent_if]]].
    - unfold sysex_start. apply silent_bind; intros p. apply silent_if; split; trivial.
    - unfold system_common. rewrite P. repeat apply silent_if; split; trivial.
    - unfold channel_voice. rewrite P. split; [|assumption]. now destruct (_ =? 0) at 1.
    - apply silent_bind; intros p. rewrite P. destruct (u8 (m_num_missing_bytes st - 1) =? 0).
      + destruct (status p <? 0xF0); split; trivial.
      + split; trivial.
    - split; trivial. }
  unfold feed. apply silent_if; [|apply silent_if; [|now apply PL]].
  - unfold system_realtime. rewrite P. apply silent_if; split; trivial.
  - apply silent_if; [apply silent_if|apply silent_if; [now apply PL|apply silent_if]].
    + unfold sysex_continue_callback. repeat apply silent_if; split; trivial.
    + unfold sysex_continue_packet. rewrite H. apply silent_bind; intros p. apply silent_if; [|split; trivial].
      cbn [bind]. apply silent_bind; intros c. split; trivial.
    + unfold sysex_end_callback. apply silent_if; split; trivial. unfold post; cbn. now rewrite H.
    + unfold sysex_end_packet. apply silent_if; [split; trivial|].
      apply silent_bind; intros p. split; [apply P|assumption].
Qed.

Lemma feed_silent st b st' o : m_invoke_callbacks st = false -> feed st b = Ok (st', o) ->
  o = [] /\ m_invoke_callbacks st' = false.
Proof. intros H E. pose proof (feed_silent_aux st b H) as S. now rewrite E in S. Qed.

Lemma feed_all_silent bs : forall st st' o, m_invoke_callbacks st = false -> feed_all st bs = Ok (st', o) ->
  o = [] /\ m_invoke_callbacks st' = false.
Proof.
  induction bs as [|b bs IH]; intros st st' o H; cbn [feed_all].
  - injection 1 as <- <-. auto.
  - destruct (feed st b) as [[st1 o1]|f] eqn:E1; cbn [bind]; [|discriminate].
    destruct (feed_all st1 bs) as [[st2 o2]|f] eqn:E2; cbn [bind]; [|discriminate].
    injection 1 as <- <-. apply feed_silent in E1; [|assumption]. destruct E1 as [-> H1].
    destruct (IH _ _ _ H1 E2) as [-> H2]. auto.
Qed.

(* ---- SysEx without callback: packets ----------------------------------------------------- *)

Lemma context_u7 h d s ds : context h = Some (s, ds) -> is_u7 d ->
  context (remember h d) = Some (s, ds ++ [d]).
Proof. intros E H. now rewrite context_data, E. Qed.

Lemma six_bytes g h ds0 q a b c d e f :
  context h = Some (0xF0, ds0) -> length ds0 = (6 * q)%nat ->
  Forall is_u7 [a; b; c; d; e; f] ->
  outputs false g h [a; b; c; d; e; f]
    = [EPacket (sx7_packet g (if (q =? 0)%nat then 1 else 2) [a; b; c; d; e; f])] /\
  context (fold_left remember [a; b; c; d; e; f] h) = Some (0xF0, ds0 ++ [a; b; c; d; e; f]).
Proof.
  intros C L F. repeat match goal with H : Forall _ (_ :: _) |- _ => inversion_clear H end.
  pose proof (context_u7 h a _ _ C ltac:(assumption)) as C1.
  pose proof (context_u7 _ b _ _ C1 ltac:(assumption)) as C2.
  pose proof (context_u7 _ c _ _ C2 ltac:(assumption)) as C3.
  pose proof (context_u7 _ d _ _ C3 ltac:(assumption)) as C4.
  pose proof (context_u7 _ e _ _ C4 ltac:(assumption)) as C5.
  pose proof (context_u7 _ f _ _ C5 ltac:(assumption)) as C6.
  rewrite <- !app_assoc in *. cbn [app] in *. cbn [fold_left]. split; [|assumption].
  cbn [outputs]. rewrite !emission_data by assumption. rewrite C, C1, C2, C3, C4, C5.
  unfold on_data. cbn [Z.ltb Z.compare Pos.compare Pos.compare_cont Z.eqb Pos.eqb].
  rewrite <- !app_assoc. cbn [app]. rewrite !app_length, L. cbn [length].
  assert (M : forall i, (i < 6)%nat -> ((6 * q + i) mod 6 = i)%nat).
  { intros i Hi. replace (6 * q + i)%nat with (i + q * 6)%nat by lia. rewrite Nat.mod_add by lia. now apply Nat.mod_small. }
  rewrite !M by lia.
  replace ((6 * q + 6) mod 6)%nat with 0%nat
    by (replace (6 * q + 6)%nat with (0 + (q + 1) * 6)%nat by lia; now rewrite Nat.mod_add by lia).
  cbn [Nat.eqb app].
  replace (6 * q + 6 =? 6)%nat with (q =? 0)%nat by lia.
  replace (lastn 6 (ds0 ++ [a; b; c; d; e; f])) with [a; b; c; d; e; f]; [reflexivity|].
  unfold lastn. rewrite app_length. cbn [length].
  replace (length ds0 + 6 - 6)%nat with (length ds0) by lia.
  rewrite skipn_app, skipn_all, Nat.sub_diag. reflexivity.
Qed.

Lemma outputs_app cb g a b : forall h, outputs cb g h (a ++ b) = outputs cb g h a ++ outputs cb g (fold_left remember a h) b.
Proof. induction a as [|x a IH]; intros h; cbn; [reflexivity|]. now rewrite IH, app_assoc. Qed.

Lemma short_tail g h ds0 q t : context h = Some (0xF0, ds0) -> length ds0 = (6 * q)%nat ->
  Forall is_u7 t -> (length t < 6)%nat ->
  outputs false g h t = [] /\ context (fold_left remember t h) = Some (0xF0, ds0 ++ t).
Proof.
  revert h. induction t as [|x t IH] using rev_ind; intros h C L F Lt.
  - cbn. rewrite app_nil_r. auto.
  - apply Forall_app in F as [F Fx]. inversion_clear Fx. rewrite app_length in Lt. cbn [length] in Lt.
    destruct (IH h C L F ltac:(lia)) as [O C']. rewrite outputs_app, O, fold_left_app. cbn [fold_left outputs app].
    split.
    + rewrite emission_data, C', app_nil_r by assumption. unfold on_data.
      cbn [Z.ltb Z.compare Pos.compare Pos.compare_cont Z.eqb Pos.eqb].
      rewrite !app_length, L. cbn [length].
      replace (6 * q + length t + 1)%nat with ((length t + 1) + q * 6)%nat by lia.
      rewrite Nat.mod_add, Nat.mod_small by lia. now replace (length t + 1 =? 0)%nat with false by lia.
    + rewrite (context_u7 _ _ _ _ C'); [now rewrite app_assoc|assumption].
Qed.

Lemma emission_f7 cb g h ds : context h = Some (0xF0, ds) -> emission cb g h 0xF7 = on_sysex_end cb g ds.
Proof. intros C. unfold emission. cbn. now rewrite C. Qed.

Lemma sysex_packets g : 0 <= g < 16 -> forall n ds h ds0 q, length ds = n ->
  context h = Some (0xF0, ds0) -> length ds0 = (6 * q)%nat -> Forall is_u7 ds ->
  (q <> 0 \/ ds <> [])%nat ->
  exists chunks, chunked6 chunks /\ concat chunks = ds /\
    outputs false g h (ds ++ [0xF7]) =
      map EPacket (if (q =? 0)%nat then sx7_sequence g chunks else sx7_tail g chunks).
Proof.
  intros G. induction n as [n IH] using lt_wf_ind. intros ds h ds0 q Ln C L F NE.
  destruct (Nat.lt_ge_cases (length ds) 6) as [S|S].
  - exists [ds]. split; [cbn; lia|]. split; [cbn; apply app_nil_r|].
    destruct (short_tail g h ds0 q ds C L F S) as [O C'].
    rewrite outputs_app, O. cbn [app outputs]. rewrite app_nil_r.
    rewrite (emission_f7 _ _ _ _ C'). unfold on_sysex_end. rewrite app_length, L.
    destruct (Nat.eqb_spec q 0) as [->|Q].
    + destruct ds0; [|discriminate]. cbn [app].
      replace (6 * 0 + length ds =? 0)%nat with false by (destruct ds; [tauto|reflexivity]).
      replace (6 * 0 + length ds <? 6)%nat with true by lia. reflexivity.
    + replace (6 * q + length ds =? 0)%nat with false by lia.
      replace (6 * q + length ds <? 6)%nat with false by lia.
      replace ((6 * q + length ds) mod 6)%nat with (length ds)
        by (replace (6 * q + length ds)%nat with (length ds + q * 6)%nat by lia;
            rewrite Nat.mod_add, Nat.mod_small by lia; reflexivity).
      replace (lastn (length ds) (ds0 ++ ds)) with ds; [reflexivity|].
      unfold lastn. rewrite app_length. replace (length ds0 + length ds - length ds)%nat with (length ds0) by lia.
      rewrite skipn_app, skipn_all, Nat.sub_diag. reflexivity.
  - destruct ds as [|a [|b [|c [|d [|e [|f t]]]]]]; cbn [length] in S; try lia.
    change (a :: b :: c :: d :: e :: f :: t) with ([a; b; c; d; e; f] ++ t) in *.
    apply Forall_app in F as [F6 Ft].
    destruct (six_bytes g h ds0 q a b c d e f C L F6) as [O6 C6].
    rewrite app_length in Ln. cbn [length] in Ln.
    destruct (IH (length t) ltac:(lia) t _ _ (1 + q)%nat eq_refl C6) as (chunks & CH & CC & OO); trivial.
    { rewrite app_length, L. cbn [length]. lia. }
    { lia. }
    exists ([a; b; c; d; e; f] :: chunks). split; [|split].
    + destruct chunks; [destruct CH|]. split; [reflexivity|assumption].
    + cbn [concat]. now rewrite CC.
    + rewrite <- app_assoc, outputs_app, O6, OO. cbn [Nat.eqb].
      destruct chunks; [destruct CH|]. now destruct (q =? 0)%nat.
Qed.

(* ---- bytes of a packet ----------------------------------------------------------------------- *)

Lemma get_bytes_pob l i n : Forall is_u8 l -> (i + n <= 16)%nat ->
  get_bytes (packet_of_bytes l) i n = Ok (map (fun j => nth j l 0) (seq i n)).
Proof.
  intros F. revert i. induction n as [|n IH]; intros i H; cbn [get_bytes seq map]; [reflexivity|].
  rewrite pob_get by (trivial; lia). cbn [bind]. rewrite IH by lia. reflexivity.
Qed.

Lemma map_nth_seq l : forall pre, map (fun j => nth j (pre ++ l) 0) (seq (length pre) (length l)) = l.
Proof.
  induction l as [|x l IH]; intros pre; cbn [length seq map]; [reflexivity|].
  rewrite app_nth2, Nat.sub_diag by lia. cbn [nth]. f_equal.
  specialize (IH (pre ++ [x])). rewrite <- app_assoc in IH. cbn [app] in IH.
  rewrite app_length in IH. cbn [length] in IH. rewrite Nat.add_1_r in IH. exact IH.
Qed.

Lemma sx7_u8 g f ds : 0 <= g < 16 -> 0 <= f < 4 -> (length ds <= 6)%nat -> Forall is_u8 ds ->
  Forall is_u8 ((3 * 16 + g) :: (f * 16 + Z.of_nat (length ds)) :: ds).
Proof. intros. repeat constructor; trivial; unfold is_u8; lia. Qed.

Lemma sx7_type g f ds : 0 <= g < 16 -> 0 <= f < 4 -> (length ds <= 6)%nat -> Forall is_u8 ds ->
  type (sx7_packet g f ds) = 3.
Proof.
  intros. rewrite sx7_pob, pob_type by (trivial; now apply sx7_u8). cbn [nth]. dlia.
Qed.
Lemma sx7_status g f ds : 0 <= g < 16 -> 0 <= f < 4 -> (length ds <= 6)%nat -> Forall is_u8 ds ->
  status (sx7_packet g f ds) = f * 16 + Z.of_nat (length ds).
Proof. intros. rewrite sx7_pob, pob_status by (trivial; now apply sx7_u8). reflexivity. Qed.
Lemma sx7_is_sysex7 g f ds : 0 <= g < 16 -> 0 <= f < 4 -> (length ds <= 6)%nat -> Forall is_u8 ds ->
  is_sysex7_packet (sx7_packet g f ds) = true.
Proof.
  intros. unfold is_sysex7_packet. rewrite sx7_type, sx7_status by trivial.
  rewrite land_240, land_15. change (3 =? pt_data) with true.
  replace ((f * 16 + Z.of_nat (length ds)) / 16 mod 16) with f by dlia.
  replace ((f * 16 + Z.of_nat (length ds)) mod 16) with (Z.of_nat (length ds)) by dlia. lia.
Qed.
Lemma sx7_stream_size g f ds : 0 <= g < 16 -> 0 <= f < 4 -> (length ds <= 6)%nat -> Forall is_u8 ds ->
  midi1_byte_stream_size (sx7_packet g f ds) = length ds.
Proof.
  intros. unfold midi1_byte_stream_size. rewrite sx7_type, sx7_status by trivial.
  change (3 =? pt_system) with false. change (3 =? pt_midi1_channel_voice) with false.
  change (3 =? pt_data) with true. cbv iota. rewrite land_240, land_15.
  replace ((f * 16 + Z.of_nat (length ds)) / 16 mod 16) with f by dlia.
  replace ((f * 16 + Z.of_nat (length ds)) mod 16) with (Z.of_nat (length ds)) by dlia.
  assert (D : f = 0 \/ f = 1 \/ f = 2 \/ f = 3) by lia.
  replace (existsb (Z.eqb (f * 16)) [0; 16; 48; 32]) with true by (destruct D as [->|[->|[->| ->]]]; reflexivity).
  replace (Z.of_nat (length ds) <=? 6) with true by lia. apply Nat2Z.id.
Qed.

Lemma sx7_to_bytes g f ds : 0 <= g < 16 -> 0 <= f < 4 -> (length ds <= 6)%nat -> Forall is_u8 ds ->
  to_midi1_byte_stream (sx7_packet g f ds) =
  Ok ((if (f =? 0) || (f =? 1) then [0xF0] else []) ++ ds ++ (if (f =? 0) || (f =? 3) then [0xF7] else [])).
Proof.
  intros. unfold to_midi1_byte_stream. rewrite sx7_stream_size, sx7_type, sx7_is_sysex7, sx7_status by trivial.
  change (3 =? pt_system) with false. change (3 =? pt_midi1_channel_voice) with false.
  change (3 =? pt_data) with true. cbn [orb]. rewrite sx7_pob by trivial.
  rewrite get_bytes_pob by (try lia; now apply sx7_u8).
  change (seq 2 (length ds)) with (seq (length [3 * 16 + g; f * 16 + Z.of_nat (length ds)]) (length ds)).
  change ((3 * 16 + g) :: (f * 16 + Z.of_nat (length ds)) :: ds) with ([3 * 16 + g; f * 16 + Z.of_nat (length ds)] ++ ds).
  rewrite map_nth_seq. cbn [bind]. rewrite land_240.
  replace ((f * 16 + Z.of_nat (length ds)) / 16 mod 16) with f by dlia.
  assert (D : f = 0 \/ f = 1 \/ f = 2 \/ f = 3) by lia.
  destruct D as [->|[->|[->| ->]]]; reflexivity.
Qed.

Lemma tail_to_bytes g chunks : 0 <= g < 16 -> chunked6 chunks -> Forall (Forall is_u8) chunks ->
  stream_of_packets (sx7_tail g chunks) = Ok (concat chunks ++ [0xF7]).
Proof.
  intros G. induction chunks as [|c [|c' rest] IH]; intros CH F; [destruct CH| |].
  - inversion_clear F. cbn [sx7_tail stream_of_packets]. rewrite sx7_to_bytes by (trivial; cbn in CH; lia).
    cbn. now rewrite !app_nil_r.
  - destruct CH as [L CH]. inversion_clear F as [|? ? F1 F2].
    change (sx7_tail g (c :: c' :: rest)) with (sx7_packet g 2 c :: sx7_tail g (c' :: rest)).
    cbn [stream_of_packets]. rewrite sx7_to_bytes by (trivial; lia). cbn [bind].
    rewrite IH by trivial. cbn [bind]. cbn [Z.eqb Pos.eqb orb app concat]. now rewrite app_nil_r, <- !app_assoc.
Qed.

Lemma sequence_to_bytes g chunks : 0 <= g < 16 -> chunked6 chunks -> Forall (Forall is_u8) chunks ->
  stream_of_packets (sx7_sequence g chunks) = Ok (0xF0 :: concat chunks ++ [0xF7]).
Proof.
  intros G CH F. destruct chunks as [|c [|c' rest]]; [destruct CH| |].
  - inversion_clear F. cbn [sx7_sequence stream_of_packets]. rewrite sx7_to_bytes by (trivial; cbn in CH; lia).
    cbn. now rewrite !app_nil_r.
  - destruct CH as [L CH]. inversion_clear F as [|? ? F1 F2].
    change (sx7_sequence g (c :: c' :: rest)) with (sx7_packet g 1 c :: sx7_tail g (c' :: rest)).
    cbn [stream_of_packets]. rewrite sx7_to_bytes by (trivial; lia). cbn [bind].
    rewrite tail_to_bytes by trivial. cbn [bind]. cbn [Z.eqb Pos.eqb orb app concat]. now rewrite app_nil_r, <- !app_assoc.
Qed.

Lemma Forall_concat {A} (P : A -> Prop) ls : Forall P (concat ls) -> Forall (Forall P) ls.
Proof.
  induction ls as [|l ls IH]; cbn; intros H; [constructor|]. apply Forall_app in H as [H1 H2]. constructor; auto.
Qed.

Lemma filter_app_nrt a b : filter not_rt (a ++ b) = filter not_rt a ++ filter not_rt b.
Proof. apply filter_app. Qed.

Lemma sysex_to_packets g h st bs ds : 0 <= g < 16 -> Forall is_u8 h -> after g false h st ->
  Forall is_u8 bs -> filter not_rt bs = 0xF0 :: ds ++ [0xF7] -> Forall is_u7 ds -> ds <> [] ->
  exists st' out chunks, feed_all st bs = Ok (st', out) /\
    chunked6 chunks /\ concat chunks = ds /\
    filter not_rt_event out = map EPacket (sx7_sequence g chunks) /\
    stream_of_packets (sx7_sequence g chunks) = Ok (0xF0 :: ds ++ [0xF7]).
Proof.
  intros G H A B FB D NE.
  destruct (feed_after g false h st bs G H A B) as (st' & E & _).
  set (h' := fold_left remember h []) in *.
  assert (C : context (remember h' 0xF0) = Some (0xF0, [])) by (apply context_status; lia).
  destruct (sysex_packets g G (length ds) ds (remember h' 0xF0) [] 0 eq_refl C eq_refl D (or_intror NE))
    as (chunks & CH & CC & O).
  exists st', (outputs false g h' bs), chunks. split; [assumption|]. split; [assumption|]. split; [assumption|]. split.
  - rewrite outputs_filter_rt by (trivial; now apply ctx_ok_history). rewrite FB. cbn [outputs].
    rewrite O. reflexivity.
  - rewrite sequence_to_bytes; trivial.
    + now rewrite CC.
    + apply Forall_concat. rewrite CC. now apply Forall_u7_u8.
Qed.

(* ---- SysEx with callback -------------------------------------------------------------------- *)

Lemma cb_data_silent g ds : forall h s0, context h = Some (0xF0, s0) -> Forall is_u7 ds ->
  outputs true g h ds = [] /\ context (fold_left remember ds h) = Some (0xF0, s0 ++ ds).
Proof.
  induction ds as [|d ds IH]; intros h s0 C F; cbn [outputs fold_left].
  - rewrite app_nil_r. auto.
  - inversion_clear F as [|? ? D F']. pose proof (context_u7 _ _ _ _ C D) as C'.
    destruct (IH _ _ C' F') as [O E]. rewrite O, E, <- app_assoc. split; [|reflexivity].
    rewrite emission_data, C by assumption. reflexivity.
Qed.

Lemma id_bytes_u7 id : valid_id id -> Forall is_u7 (id_bytes id).
Proof.
  intros [(m & M & ->)|(a & b & A & B & ->)]; unfold id_bytes.
  - replace (65536 <=? m * 65536) with true by lia. rewrite Z.div_mul by lia.
    repeat constructor; unfold is_u7; lia.
  - unfold is_u7 in *. replace (65536 <=? a * 256 + b) with false by lia.
    replace ((a * 256 + b) / 256) with a by dlia. replace ((a * 256 + b) mod 256) with b by dlia.
    repeat constructor; unfold is_u7; lia.
Qed.

Lemma sx_decode_id id ds : valid_id id -> sx_decode (id_bytes id ++ ds) = Some (mkSx id ds).
Proof.
  intros [(m & M & ->)|(a & b & A & B & ->)]; unfold id_bytes.
  - replace (65536 <=? m * 65536) with true by lia. rewrite Z.div_mul by lia. cbn [app].
    destruct m; [lia|reflexivity|lia].
  - unfold is_u7 in *. replace (65536 <=? a * 256 + b) with false by lia.
    replace ((a * 256 + b) / 256) with a by dlia. replace ((a * 256 + b) mod 256) with b by dlia. reflexivity.
Qed.

Lemma outputs_sysex_cb g h ds : Forall is_u7 ds ->
  outputs true g h (0xF0 :: ds ++ [0xF7]) =
  match sx_decode ds with Some s => [ESysex s] | None => [] end.
Proof.
  intros D. cbn [outputs].
  assert (C : context (remember h 0xF0) = Some (0xF0, [])) by (apply context_status; lia).
  destruct (cb_data_silent g ds _ _ C D) as [O C'].
  rewrite outputs_app, O. cbn [app outputs]. rewrite (emission_f7 _ _ _ _ C'). cbn [app].
  rewrite app_nil_r. reflexivity.
Qed.

Lemma sysex_to_callback g h st bs id ds : 0 <= g < 16 -> Forall is_u8 h -> after g true h st ->
  Forall is_u8 bs -> valid_id id -> Forall is_u7 ds ->
  filter not_rt bs = 0xF0 :: id_bytes id ++ ds ++ [0xF7] ->
  exists st' out, feed_all st bs = Ok (st', out) /\
    filter not_rt_event out = [ESysex (mkSx id ds)].
Proof.
  intros G H A B V D FB.
  destruct (feed_after g true h st bs G H A B) as (st' & E & _).
  exists st', (outputs true g (fold_left remember h []) bs). split; [assumption|].
  rewrite outputs_filter_rt by (trivial; now apply ctx_ok_history). rewrite FB.
  rewrite app_assoc, outputs_sysex_cb, sx_decode_id; trivial.
  apply Forall_app; split; [now apply id_bytes_u7|assumption].
Qed.

(* where SysEx callbacks come from *)
Lemma context_shape h s ds : Forall (fun b => is_rt b = false) h -> context h = Some (s, ds) ->
  exists h0, h = h0 ++ s :: ds /\ 0x80 <= s /\ Forall (fun b => b < 0x80) ds.
Proof.
  revert s ds. induction h as [|b h IH] using rev_ind; intros s ds R C; [discriminate|].
  apply Forall_app in R as [R Rb]. unfold context in C. rewrite fold_left_app in C. fold (context h) in C.
  cbn in C. unfold ctx_step in C. destruct (Z.leb_spec 0x80 b).
  - injection C as <- <-. exists h. auto.
  - destruct (context h) as [[s' ds']|] eqn:E; [|discriminate]. injection C as <- <-.
    destruct (IH _ _ R eq_refl) as (h0 & -> & S & D). exists h0. rewrite <- app_assoc. split; [reflexivity|].
    split; [assumption|]. apply Forall_app; split; [assumption|]. auto.
Qed.

Lemma remember_filter bs : forall h, fold_left remember bs h = h ++ filter not_rt bs.
Proof.
  induction bs as [|b bs IH]; intros h; cbn [fold_left filter]; [now rewrite app_nil_r|].
  rewrite IH. unfold remember, not_rt at 2. destruct (is_rt b); cbn [negb]; [reflexivity|].
  now rewrite <- app_assoc.
Qed.

Lemma sysex_event_source g cb h st b st' out s : 0 <= g < 16 -> Forall is_u8 h -> is_u8 b ->
  after g cb h st -> feed st b = Ok (st', out) -> In (ESysex s) out ->
  cb = true /\ b = 0xF7 /\ out = [ESysex s] /\
  exists h0 ds, filter not_rt h = h0 ++ 0xF0 :: id_bytes (sx_id s) ++ ds /\
    Forall is_u7 (id_bytes (sx_id s) ++ ds) /\ sx_data s = ds /\ valid_id (sx_id s).
Proof.
  intros G H B A E I. pose proof (after_inv g cb h st G H A) as V.
  pose proof (ctx_ok_history h H) as OK.
  destruct (feed_step g cb _ st b G B V) as (st2 & E2 & _). rewrite E in E2. injection E2 as <- ->.
  rewrite remember_filter in *. cbn [app] in *. unfold emit_ctx in *.
  assert (NP : forall c p, ~ In (ESysex s) (if (c : bool) then [EPacket p] else [])) by (intros [] p; cbn; intuition discriminate).
  destruct (is_rt b); [exfalso; revert I; apply NP|].
  destruct (b <? 0x80).
  { exfalso. destruct (context (filter not_rt h)) as [[s0 ds]|]; [|destruct I]. revert I. unfold on_data.
    destruct (s0 <? 0xF0); [apply NP|]. destruct (s0 =? 0xF0); [destruct cb; [intros []|apply NP]|].
    destruct (sc_len s0); [apply NP|intros []]. }
  destruct (b =? 0xF6); [exfalso; revert I; apply (NP true)|].
  destruct (Z.eqb_spec b 0xF7); [|destruct I].
  destruct (context (filter not_rt h)) as [[s0 ds]|] eqn:C; [|destruct I]. destruct OK as [S0 D].
  destruct (Z.eqb_spec s0 0xF0) as [->|]; [|destruct I].
  unfold on_sysex_end in *. destruct cb.
  2:{ exfalso. destruct (_ =? _)%nat; [destruct I|]. destruct (_ <? _)%nat; revert I; apply (NP true). }
  destruct (sx_decode ds) as [sx|] eqn:DE; [|destruct I]. destruct I as [I|[]]. injection I as ->.
  split; [reflexivity|]. split; [assumption|]. split; [reflexivity|].
  destruct (sx_decode_valid ds s D DE) as [VI VD].
  assert (FR : Forall (fun b => is_rt b = false) (filter not_rt h)).
  { apply Forall_forall; intros x X; apply filter_In in X as [_ X]; unfold not_rt in X; now destruct (is_rt x). }
  destruct (context_shape _ _ _ FR C) as (h0 & HE & _).
  assert (DS : ds = id_bytes (sx_id s) ++ sx_data s).
  { destruct ds as [|m rest]; [discriminate|]. inversion_clear D as [|? ? M R]. unfold is_u7 in M.
    destruct (Z.eq_dec m 0) as [->|N].
    - destruct rest as [|a [|c rest]]; try discriminate. injection DE as <-. cbn [sx_id sx_data].
      inversion_clear R as [|? ? A1 R']. inversion_clear R' as [|? ? A2 R]. unfold is_u7, id_bytes in *.
      replace (65536 <=? a * 256 + c) with false by lia.
      replace ((a * 256 + c) / 256) with a by dlia. replace ((a * 256 + c) mod 256) with c by dlia. reflexivity.
    - assert (E' : s = mkSx (m * 65536) rest) by (destruct m; [lia|unfold sx_decode in DE; congruence|lia]).
      subst s. cbn [sx_id sx_data]. unfold id_bytes. replace (65536 <=? m * 65536) with true by lia.
      now rewrite Z.div_mul by lia. }
  exists h0, (sx_data s). rewrite <- DS. auto.
Qed.

(* ---- junk: data without status, undefined status ---------------------------------------------- *)

Lemma outputs_no_status cb g bs : Forall is_u7 bs -> forall h, context h = None -> outputs cb g h bs = [].
Proof.
  induction 1 as [|b bs B _ IH]; intros h C; [reflexivity|]. cbn [outputs].
  rewrite emission_data, C by assumption. apply IH. now rewrite context_data, C.
Qed.

Lemma undefined_status cb g s bs : s = 0xF4 \/ s = 0xF5 -> Forall is_u7 bs -> forall h,
  outputs cb g h (s :: bs) = [].
Proof.
  intros S F h. cbn [outputs].
  replace (emission cb g h s) with (@nil event) by (destruct S as [-> | ->]; reflexivity).
  assert (C : context (remember h s) = Some (s, [])) by (apply context_status; lia).
  revert C. generalize (remember h s) (@nil Z). clear h.
  induction F as [|b bs B _ IH]; intros h ds C; [reflexivity|]. cbn [app outputs].
  rewrite emission_data, C by assumption.
  replace (on_data cb g s (ds ++ [b])) with (@nil event) by (destruct S as [-> | ->]; reflexivity).
  apply (IH _ (ds ++ [b])). now apply context_u7.
Qed.

(* ---- faults ------------------------------------------------------------------------------------ *)

Definition sane (st : parser) : Prop :=
  0 <= m_group st < 16 /\ wf_packet (m_packet st) /\ 0 <= m_packet_byte st < 8.

Definition safe (r : result) : Prop := match r with Ok (st, _) => sane st | Fault _ => False end.

Lemma safe_if (c : bool) a b : (c = true -> safe a) -> (c = false -> safe b) -> safe (if c then a else b).
Proof. destruct c; auto. Qed.

Lemma packet0_wf : wf_packet packet0.
Proof. unfold wf_packet, is_u32; cbn; lia. Qed.

Lemma short_wf g s ds : 0 <= g < 16 -> is_u8 s -> Forall is_u8 ds -> wf_packet (short_packet g s ds).
Proof.
  intros. rewrite short_pob. apply pob_wf.
  pose proof (nth_u8 ds 0 H1); pose proof (nth_u8 ds 1 H1). now apply short_hdr_u8; auto.
Qed.

Lemma set_byte_safe p i v : wf_packet p -> is_u8 v -> (i < 16)%nat ->
  exists q, set_byte p i v = Ok q /\ wf_packet q.
Proof.
  intros W V I. rewrite set_byte_ok by assumption. eexists; split; [reflexivity|].
  now apply set_byte_nd_spec.
Qed.

Lemma raw7_wf g f : 0 <= g < 16 -> 0 <= f < 4 -> wf_packet (raw7 g f []).
Proof. intros. unfold raw7. apply pob_wf. repeat constructor; unfold is_u8; lia. Qed.

Lemma feed_plain_safe st b : sane st -> is_u8 b -> b < 0xF8 -> safe (feed_plain st b).
Proof.
  intros (G & W & B) Hb L. unfold feed_plain, is_u8 in *.
  apply safe_if; intros E0; [|apply safe_if; intros E1; [|apply safe_if; intros E2; [|apply safe_if; intros E3]]].
  - unfold sysex_start. change (make_sysex7_start_packet (m_group st)) with (sysex7_packet (1 * 16) (m_group st)).
    rewrite sysex7_packet_raw by lia. cbn [bind].
    assert (W' := raw7_wf (m_group st) 1 G ltac:(lia)).
    apply safe_if; intros _; repeat split; cbn; try apply W'; try lia;
      destruct (negb (m_invoke_callbacks st)); lia.
  - unfold system_common. rewrite make_system_short by lia.
    assert (W' := short_wf (m_group st) b [] G ltac:(unfold is_u8; lia) ltac:(constructor)).
    repeat (apply safe_if; intros _); repeat split; cbn; try apply W'; try apply packet0_wf; lia.
  - unfold channel_voice. rewrite midi1_cv_short by lia.
    assert (W' := short_wf (m_group st) b [] G ltac:(unfold is_u8; lia) ltac:(constructor)).
    repeat split; cbn; try apply W'; lia.
  - destruct (set_byte_safe (m_packet st) (Z.to_nat (m_packet_byte st)) b W ltac:(unfold is_u8; lia) ltac:(lia)) as (q & -> & Wq).
    cbn [bind]. destruct (u8 (m_num_missing_bytes st - 1) =? 0).
    + destruct (status q <? 0xF0); destruct (0xF0 <=? status q); repeat split; cbn; try apply packet0_wf; try apply Wq; try lia.
    + repeat split; cbn [with_state m_group m_packet m_packet_byte]; try apply Wq; try lia; unfold u8; dlia.
  - repeat split; try apply W; lia.
Qed.

Lemma feed_safe st b : sane st -> is_u8 b -> safe (feed st b).
Proof.
  intros S Hb. assert (S' := S). destruct S as (G & W & B). unfold feed.
  apply safe_if; intros E0; [|apply safe_if; intros E1].
  - unfold system_realtime. apply safe_if; intros _; assumption.
  - apply safe_if; intros E2; [apply safe_if; intros E3|apply safe_if; intros E3; [|apply safe_if; intros E4]].
    + unfold sysex_continue_callback.
      repeat (apply safe_if; intros ?); repeat split; cbn [with_sysex m_group m_packet m_packet_byte]; try apply W; try lia; unfold u8; dlia.
    + unfold sysex_continue_packet.
      destruct (set_byte_safe (m_packet st) (Z.to_nat (m_packet_byte st)) b W Hb ltac:(lia)) as (q & -> & Wq).
      cbn [bind].
      destruct (set_byte_safe q 1 (u8 (Z.land (status q) 0xF0 + 6)) Wq ltac:(unfold is_u8, u8; dlia) ltac:(lia)) as (q2 & -> & Wq2).
      change (make_sysex7_continue_packet (m_group st)) with (sysex7_packet (2 * 16) (m_group st)).
      rewrite sysex7_packet_raw by lia.
      assert (W' := raw7_wf (m_group st) 2 G ltac:(lia)).
      apply safe_if; intros E4.
      * destruct (m_invoke_callbacks st); cbn [bind]; repeat split; cbn; try apply W'; lia.
      * repeat split; cbn [with_state m_group m_packet m_packet_byte]; try apply Wq; try lia; unfold u8 in *; dlia.
    + apply feed_plain_safe; [|assumption|lia]. repeat split; cbn; try apply packet0_wf; lia.
    + unfold sysex_end_callback. apply safe_if; intros _; repeat split; cbn; try apply packet0_wf; lia.
    + unfold sysex_end_packet. apply safe_if; intros _.
      * repeat split; cbn; try apply packet0_wf; lia.
      * match goal with |- context[set_byte (m_packet st) 1 ?v] =>
          destruct (set_byte_safe (m_packet st) 1 v W ltac:(unfold is_u8, u8; dlia) ltac:(lia)) as (q & -> & Wq) end.
        cbn [bind]. repeat split; cbn; try apply packet0_wf; lia.
  - apply feed_plain_safe; trivial. lia.
Qed.

Lemma feed_all_safe bs : Forall is_u8 bs -> forall st, sane st -> safe (feed_all st bs).
Proof.
  induction 1 as [|b bs B _ IH]; intros st S; [exact S|]. cbn [feed_all].
  pose proof (feed_safe st b S B) as X. destruct (feed st b) as [[st1 o1]|]; [|destruct X]. cbn [bind].
  specialize (IH st1 X). destruct (feed_all st1 bs) as [[st2 o2]|]; [|destruct IH]. exact IH.
Qed.

Lemma calls_safe cs : Forall valid_call cs -> forall st, sane st -> safe (parser_calls st cs).
Proof.
  induction 1 as [|c cs C _ IH]; intros st S; [exact S|]. cbn [parser_calls].
  assert (X : safe (parser_call_step st c)).
  { destruct c; cbn [parser_call_step].
    - now apply feed_all_safe.
    - exact S.
    - destruct S as (_ & W & B). repeat split; cbn; try apply W; try lia; apply C.
    - destruct S as (G & _). repeat split; cbn; try apply packet0_wf; lia. }
  destruct (parser_call_step st c) as [[st1 o1]|]; [|destruct X]. cbn [bind].
  specialize (IH st1 X). destruct (parser_calls st1 cs) as [[st2 o2]|]; [|destruct IH]. exact IH.
Qed.

Lemma sane_new g cb on : 0 <= g < 16 -> sane (new_parser g cb on).
Proof. intros. repeat split; cbn; try apply packet0_wf; lia. Qed.

(* ---- silence for arbitrary calls ------------------------------------------------------------------ *)

Lemma calls_silent cs : Forall stays_off cs -> forall st st' o, m_invoke_callbacks st = false ->
  parser_calls st cs = Ok (st', o) -> o = [].
Proof.
  induction 1 as [|c cs C _ IH]; intros st st' o H E; cbn [parser_calls] in E.
  - congruence.
  - destruct (parser_call_step st c) as [[st1 o1]|] eqn:E1; cbn [bind] in E; [|discriminate].
    destruct (parser_calls st1 cs) as [[st2 o2]|] eqn:E2; cbn [bind] in E; [|discriminate].
    assert (X : o1 = [] /\ m_invoke_callbacks st1 = false).
    { destruct c; cbn [parser_call_step] in E1.
      - eapply feed_all_silent; eassumption.
      - cbn in C. injection E1 as <- <-. auto.
      - injection E1 as <- <-. auto.
      - injection E1 as <- <-. auto. }
    destruct X as [-> H1]. rewrite (IH _ _ _ H1 E2) in E. cbn in E. congruence.
Qed.
