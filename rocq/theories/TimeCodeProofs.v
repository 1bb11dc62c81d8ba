(* Proofs about time code. *)
From Coq Require Import ZArith List Bool Lia ZifyBool ZifyNat.
From Verif Require Import Base Bits Packet PacketSpec PacketProofs PacketBytes Messages Sysex ByteStream StreamSpec StreamProofs StreamLemmas
  StreamBytes VoiceProofs SystemProofs SessionSpec Merge MergeSpec MergeProofs FollowSpec FollowProofs TimeCode TimeCodeSpec.
Import ListNotations.
Local Open Scope Z_scope.
Local Open Scope res_scope.

(* ---- reading quarter frames -------------------------------------------------------------------------- *)

Fixpoint row (k : Z) (q : list Z) : Prop := match q with [] => True | d :: t => d / 16 = k /\ row (k + 1) t end.

Lemma row_app q : forall k d, row k q -> d / 16 = k + size q -> row k (q ++ [d]).
Proof.
  unfold size. induction q as [|x q IH]; intros k d R D; cbn [app row length] in *; [split; [lia|trivial]|].
  destruct R. split; [assumption|]. apply IH; [assumption|lia].
Qed.
Lemma skip_row q l : forall k, 1 <= k -> row k q -> times_in (q ++ l) = times_in l.
Proof.
  induction q as [|x q IH]; intros k K R; [reflexivity|]. destruct R as [X R]. cbn [app times_in in_a_row].
  replace (x / 16 =? 0) with false by lia. cbn [andb app]. apply (IH (k + 1)); [lia|assumption].
Qed.
Lemma row_then q d l : forall k n, row k q -> (length q < n)%nat ->
  in_a_row k n (q ++ d :: l) = (d / 16 =? k + size q) && in_a_row (k + size q + 1) (n - length q - 1) l.
Proof.
  unfold size. induction q as [|x q IH]; intros k n R N; cbn [length app row] in *.
  - destruct n as [|n]; [lia|]. cbn [in_a_row]. replace (k + Z.of_nat 0) with k by lia. now replace (S n - 0 - 1)%nat with n by lia.
  - destruct n as [|n]; [lia|]. destruct R as [X R]. cbn [in_a_row]. replace (x / 16 =? k) with true by lia. cbn [andb].
    rewrite IH by (trivial; lia). replace (k + 1 + Z.of_nat (length q)) with (k + Z.of_nat (S (length q))) by lia. f_equal.
Qed.
Lemma row_short q : forall k n, (length q < n)%nat -> in_a_row k n q = false.
Proof.
  induction q as [|x q IH]; intros k n N; destruct n; cbn [length] in *; try lia; [reflexivity|]. cbn [in_a_row]. rewrite IH by lia. apply andb_false_r.
Qed.
Lemma times_short q : (length q < 8)%nat -> times_in q = [].
Proof.
  induction q as [|x q IH]; intros L; [reflexivity|]. cbn [times_in]. rewrite row_short by assumption. cbn [length] in L. rewrite IH by lia. reflexivity.
Qed.
Lemma times_mismatch q d l : row 0 q -> (length q < 8)%nat -> d / 16 <> size q -> times_in (q ++ d :: l) = times_in (d :: l).
Proof.
  intros R L D. destruct q as [|x q]; [reflexivity|]. cbn [app]. change (times_in (x :: q ++ d :: l)) with
    ((if in_a_row 0 8 ((x :: q) ++ d :: l) then [time_of (firstn 8 (x :: q ++ d :: l))] else []) ++ times_in (q ++ d :: l)).
  rewrite row_then by assumption. replace (d / 16 =? 0 + size (x :: q)) with false by lia. cbn [andb app].
  destruct R as [_ R]. now apply (skip_row q _ 1).
Qed.
Lemma assemble_ok q : Forall is_u7 q -> length q = 8%nat -> assemble (map (fun d => Z.land d 0xF) q) = time_of q.
Proof.
  intros F L. do 8 (destruct q as [|? q]; [discriminate|]). destruct q; [|discriminate]. clear L.
  repeat match goal with H : Forall _ (_ :: _) |- _ => inversion_clear H end. unfold is_u7 in *. unfold assemble. cbn [map nth time_of].
  f_equal; bitlia.
Qed.
Lemma read_row qs : Forall is_u7 qs -> forall q ts, Forall is_u7 q -> row 0 q -> (length q < 8)%nat ->
  rx_times (fold_left read_quarter qs (mkRx (map (fun d => Z.land d 0xF) q) ts)) = ts ++ times_in (q ++ qs).
Proof.
  induction 1 as [|d qs D _ IH]; intros q ts Q R L.
  - cbn [fold_left rx_times]. rewrite app_nil_r, times_short by assumption. now rewrite app_nil_r.
  - assert (K : Z.shiftr d 4 = d / 16) by (rewrite Z.shiftr_div_pow2 by lia; reflexivity).
    cbn [fold_left]. unfold read_quarter at 2. cbn [rx_pieces rx_times]. unfold size. rewrite K, app_length, map_length. cbn [length].
    assert (QD : Forall is_u7 (q ++ [d])) by (apply Forall_app; split; [assumption|now apply Forall_cons]).
    change [Z.land d 0xF] with (map (fun d => Z.land d 0xF) [d]). rewrite <- map_app.
    destruct (Z.eqb_spec (d / 16) (Z.of_nat (length q))) as [E|E].
    + destruct (Z.eqb_spec (Z.of_nat (length q + 1)) 8) as [N|N].
      * rewrite (IH [] _ (Forall_nil _) I ltac:(cbn; lia)). rewrite assemble_ok by (trivial; rewrite app_length; cbn [length]; lia).
        rewrite <- app_assoc. f_equal. destruct q as [|x q]; [cbn [length] in N; lia|]. cbn [app]. cbn [times_in].
        change (x :: q ++ d :: qs) with ((x :: q) ++ d :: qs). rewrite row_then by assumption. unfold size.
        replace (d / 16 =? _) with true by lia. replace (8 - length (x :: q) - 1)%nat with 0%nat by lia. cbn [andb in_a_row].
        match goal with |- ?a :: ?b = _ => change (a :: b) with ([a] ++ b) end. f_equal.
        -- change ((x :: q) ++ d :: qs) with ((x :: q) ++ [d] ++ qs). rewrite app_assoc, firstn_app.
           rewrite app_length. cbn [length]. replace (8 - (S (length q) + 1))%nat with 0%nat by (cbn [length] in N; lia).
           rewrite firstn_O, app_nil_r, firstn_all2; [reflexivity|]. rewrite app_length. cbn [length] in *. lia.
        -- destruct R as [_ R]. rewrite (skip_row q _ 1) by (trivial; lia). cbn [times_in in_a_row].
           replace (d / 16 =? 0) with false by lia. reflexivity.
      * rewrite IH; [|assumption|now apply row_app|rewrite app_length; cbn [length]; lia]. now rewrite <- app_assoc.
    + rewrite times_mismatch by (trivial; unfold size; lia). destruct (Z.eqb_spec (d / 16) 0) as [Z0|Z0].
      * rewrite (IH [d] ts); [reflexivity|now apply Forall_cons|now cbn|cbn; lia].
      * etransitivity; [exact (IH [] ts (Forall_nil _) I ltac:(cbn; lia))|]. cbn [app times_in in_a_row]. replace (d / 16 =? 0) with false by lia. reflexivity.
Qed.
Lemma read_all qs : Forall is_u7 qs -> rx_times (fold_left read_quarter qs new_rx) = times_in qs.
Proof. intros F. apply (read_row qs F [] []); [constructor|exact I|cbn; lia]. Qed.

Lemma quarters_u7 bs : Forall is_u8 bs -> forall w, Forall is_u7 (quarters w bs).
Proof.
  induction 1 as [|b bs B _ IH]; intros w; cbn [quarters]; [constructor|]. destruct (Z.leb_spec 0xF8 b); [apply IH|].
  destruct (Z.leb_spec 0x80 b); [apply IH|]. apply Forall_app. split; [|apply IH]. destruct w; repeat constructor; unfold is_u8, is_u7 in *; lia.
Qed.

(* ---- any bytes --------------------------------------------------------------------------------------- *)

Lemma rx_system g g' st s d1 d2 : 0 <= g < 16 -> is_u8 g' -> 0xF0 <= s < 256 -> is_u7 d1 -> is_u7 d2 ->
  rx_step g st (make_system_message g' s d1 d2) = if (g' mod 16 =? g) && (s =? 0xF1) then read_quarter st d1 else st.
Proof.
  intros G G' S D1 D2. destruct (system_view_ok g' s d1 d2 G' ltac:(unfold is_u8; lia) D1 D2) as (V & GR & ST & B1 & _).
  unfold rx_step. now rewrite V, GR, ST, B1.
Qed.
Lemma rx_short g st s ds : 0 <= g < 16 -> 0xF0 <= s < 256 -> Forall is_u7 ds ->
  rx_step g st (short_packet g s ds) = if s =? 0xF1 then read_quarter st (nth 0 ds 0) else st.
Proof.
  intros G S D. rewrite short_is_system, rx_system by (try assumption; try (now apply nth7); unfold is_u8; lia).
  rewrite Z.mod_small by lia. now rewrite Z.eqb_refl.
Qed.
Lemma rx_other g st p : type p <> 1 -> rx_step g st p = st.
Proof. intros T. unfold rx_step, as_system_message_view. change pt_system with 1. now replace (type p =? 1) with false by lia. Qed.

Definition waits (c : option (Z * list Z)) : bool := match c with Some (s, ds) => (s =? 0xF1) && (length ds =? 0)%nat | None => false end.

Lemma on_data_read cb g st s ds : 0 <= g < 16 -> 0x80 <= s < 0xF8 -> Forall is_u7 ds ->
  rx_run g st (packets_of (on_data cb g s ds)) =
  if (s =? 0xF1) && (length ds =? 1)%nat then read_quarter st (nth 0 ds 0) else st.
Proof.
  intros G S D. unfold on_data. destruct (Z.ltb_spec s 0xF0).
  { replace (s =? 0xF1) with false by lia. cbn [andb]. destruct (_ =? 0)%nat; [|reflexivity]. cbn [packets_of map concat app rx_run fold_left].
    rewrite rx_other; [reflexivity|]. rewrite short_type by (try assumption; try (unfold is_u8; lia); apply Forall_u7_u8; now apply lastn_u7).
    unfold short_ty. replace (s <? 0xF0) with true by lia. lia. }
  destruct (Z.eqb_spec s 0xF0) as [->|N0].
  { change (0xF0 =? 0xF1) with false. cbn [andb]. destruct cb; [reflexivity|]. destruct (_ mod 6 =? 0)%nat; [|reflexivity].
    cbn [packets_of map concat app rx_run fold_left].
    rewrite rx_other; [reflexivity|]. rewrite sx7_type; [lia|assumption| |apply lastn_len|apply Forall_u7_u8; now apply lastn_u7].
    destruct (_ =? 6)%nat; lia. }
  destruct (sc_len s) as [n|] eqn:E.
  - apply sc_len_cases in E. destruct (Nat.eqb_spec (length ds) n) as [L|L].
    + cbn [packets_of map concat app rx_run fold_left]. rewrite rx_short by (trivial; lia).
      destruct (Z.eqb_spec s 0xF1) as [->|N2]; [|reflexivity]. now replace (length ds =? 1)%nat with true by lia.
    + cbn [packets_of map concat rx_run fold_left]. destruct (Z.eqb_spec s 0xF1) as [->|N2]; [|reflexivity].
      now replace (length ds =? 1)%nat with false by lia.
  - destruct (Z.eqb_spec s 0xF1) as [->|N2]; [discriminate|reflexivity].
Qed.
Lemma sysex_end_read cb g st ds : 0 <= g < 16 -> Forall is_u7 ds -> rx_run g st (packets_of (on_sysex_end cb g ds)) = st.
Proof.
  intros G D. unfold on_sysex_end. destruct cb; [now destruct (sx_decode ds)|].
  destruct (Nat.eqb_spec (length ds) 0); [reflexivity|]. destruct (Nat.ltb_spec (length ds) 6).
  - cbn [packets_of map concat app rx_run fold_left]. apply rx_other. rewrite sx7_type; try lia. now apply Forall_u7_u8.
  - cbn [packets_of map concat app rx_run fold_left]. apply rx_other. rewrite sx7_type; try lia.
    + pose proof (lastn_len (length ds mod 6) ds). pose proof (Nat.mod_upper_bound (length ds) 6 ltac:(lia)). lia.
    + apply Forall_u7_u8. now apply lastn_u7.
Qed.

Lemma quarters_read cb g bs : 0 <= g < 16 -> Forall is_u8 bs -> forall h st, ctx_ok (context h) ->
  rx_run g st (packets_of (outputs cb g h bs)) = fold_left read_quarter (quarters (waits (context h)) bs) st.
Proof.
  intros G. induction 1 as [|b bs B _ IH]; intros h st C; [reflexivity|]. cbn [outputs quarters].
  rewrite packets_app. unfold rx_run. rewrite fold_left_app. fold (rx_run g st (packets_of (emission cb g h b))).
  fold (rx_run g (rx_run g st (packets_of (emission cb g h b))) (packets_of (outputs cb g (remember h b) bs))).
  assert (C' : ctx_ok (context (remember h b))) by (rewrite context_remember; now apply ctx_ok_next).
  rewrite (IH _ _ C'), context_remember. unfold is_u8 in B. unfold emission, next_ctx, is_rt, ctx_step.
  destruct (Z.leb_spec 0xF8 b).
  { f_equal. destruct (rt_defined b) eqn:R; [|reflexivity].
    cbn [packets_of map concat app rx_run fold_left]. rewrite rx_short by (trivial; lia). now replace (b =? 0xF1) with false by lia. }
  destruct (Z.leb_spec 0x80 b).
  - replace (b <? 0x80) with false by lia.
    assert (E : rx_run g st (packets_of
       (if b =? 0xF6 then [EPacket (short_packet g b [])] else if b =? 0xF7
        then match context h with Some (s, ds) => if s =? 0xF0 then on_sysex_end cb g ds else [] | None => [] end else [])) = st).
    { destruct (Z.eqb_spec b 0xF6) as [->|]; [cbn [packets_of map concat app rx_run fold_left]; rewrite rx_short by (trivial; lia); reflexivity|].
      destruct (b =? 0xF7); [|reflexivity]. destruct (context h) as [[s ds]|]; [|reflexivity]. destruct (s =? 0xF0); [|reflexivity].
      now rewrite sysex_end_read by (trivial; apply C). }
    rewrite E. f_equal. cbn [waits length Nat.eqb]. now rewrite andb_true_r.
  - replace (b <? 0x80) with true by lia. destruct (context h) as [[s ds]|]; [|reflexivity]. destruct C as [SR D].
    assert (D' : Forall is_u7 (ds ++ [b])) by (apply Forall_app; split; [assumption|constructor; [unfold is_u7; lia|constructor]]).
    rewrite on_data_read by assumption. cbn [waits]. rewrite app_length. cbn [length].
    replace (length ds + 1 =? 0)%nat with false by lia. rewrite andb_false_r.
    destruct (Z.eqb_spec s 0xF1) as [->|]; cbn [andb]; [|reflexivity].
    destruct ds as [|x ds]; cbn [length app nth]; [reflexivity|]. now replace (S (length ds) + 1 =? 1)%nat with false by lia.
Qed.

Theorem any_bytes_read g cb bs : 0 <= g < 16 -> Forall is_u8 bs ->
  exists st out, feed_all (new_parser g cb true) bs = Ok (st, out) /\ rx_times (rx_run g new_rx (packets_of out)) = times_in (quarters false bs).
Proof.
  intros G B. destruct (feed_all_outputs g cb bs G B [] _ (inv_new g g true cb true)) as (st & E & _).
  exists st, (outputs cb g [] bs). split; [exact E|]. rewrite (quarters_read cb g bs G B [] new_rx I). apply read_all. now apply quarters_u7.
Qed.

(* ---- packets ------------------------------------------------------------------------------------------ *)

Lemma quarters_data ds rest : Forall is_u7 ds -> quarters false (ds ++ rest) = quarters false rest.
Proof.
  induction 1 as [|d ds D _ IH]; [reflexivity|]. cbn [app quarters]. unfold is_u7 in D. replace (0xF8 <=? d) with false by lia.
  now replace (0x80 <=? d) with false by lia.
Qed.
Definition told_by (p : packet) : list Z := if quarter_packet p then [byte3 p] else [].
Lemma quarter_short g s ds : 0 <= g < 16 -> 0x80 <= s < 256 -> Forall is_u7 ds ->
  quarter_packet (short_packet g s ds) = (s =? 0xF1) /\ byte3 (short_packet g s ds) = nth 0 ds 0.
Proof.
  intros G S D. pose proof (nth7 ds 0 D) as A. pose proof (nth7 ds 1 D) as B. unfold is_u7 in *.
  rewrite byte3_spec. unfold quarter_packet, short_packet. cbn [w0]. destruct (Z.ltb_spec s 0xF0); split; dlia.
Qed.
Lemma sendable_quarters p : sendable p -> exists b, to_midi1_byte_stream p = Ok b /\ Forall is_u8 b /\
  forall rest, quarters false (b ++ rest) = told_by p ++ quarters false rest.
Proof.
  intros [g m G V|g r G R D|g f ds G F L D|q U N]; unfold told_by.
  - destruct (valid_message_status m V) as [S0 S1]. exists (ms_status m :: ms_data m). split; [apply (short_to_bytes g m G V)|].
    assert (D : Forall is_u7 (ms_data m)) by apply V. assert (SU : is_u8 (ms_status m)) by (unfold is_u8; lia).
    split; [constructor; [assumption|now apply Forall_u7_u8]|]. intros rest.
    destruct (quarter_short g (ms_status m) (ms_data m) G ltac:(lia) D) as [-> ->]. cbn [app quarters].
    replace (0xF8 <=? ms_status m) with false by lia. replace (0x80 <=? ms_status m) with true by lia.
    destruct (Z.eqb_spec (ms_status m) 0xF1) as [E|E]; [|now rewrite quarters_data].
    destruct V as [[[X _]|X] _]; [lia|]. rewrite E in *. cbn in X. injection X as X.
    destruct (ms_data m) as [|lo [|]]; try discriminate. inversion_clear D as [|? ? D1 _].
    cbn [app quarters nth]. unfold is_u7 in *. replace (0xF8 <=? lo) with false by lia. now replace (0x80 <=? lo) with false by lia.
  - exists [r]. split; [now apply rt_to_bytes|]. split; [repeat constructor; unfold is_u8; lia|]. intros rest.
    destruct (quarter_short g r [] G ltac:(lia) (Forall_nil _)) as [-> _]. cbn [app quarters]. replace (0xF8 <=? r) with true by lia.
    now replace (r =? 0xF1) with false by lia.
  - assert (D8 : Forall is_u8 ds) by now apply Forall_u7_u8. eexists. split; [now apply sx7_to_bytes|]. split.
    { apply Forall_app; split; [|apply Forall_app; split; [assumption|]]; destruct (_ || _); repeat constructor; unfold is_u8; lia. }
    intros rest. assert (T : quarter_packet (sx7_packet g f ds) = false).
    { unfold quarter_packet. rewrite <- type_spec by (rewrite sx7_pob by trivial; apply pob_wf; now apply sx7_u8). now rewrite sx7_type. }
    rewrite T. cbn [app]. rewrite <- !app_assoc.
    transitivity (quarters false (ds ++ (if (f =? 0) || (f =? 3) then [0xF7] else []) ++ rest)).
    { destruct (_ || _); reflexivity. }
    rewrite quarters_data by assumption. now destruct (_ || _).
  - exists []. assert (T := type_spec q U).
    cbn [In] in N. rewrite <- T in N. split; [|split; [constructor|]].
    + unfold to_midi1_byte_stream. change pt_system with 1. change pt_midi1_channel_voice with 2. change pt_data with 3.
      replace (type q =? 1) with false by lia. replace (type q =? 2) with false by lia. now replace (type q =? 3) with false by lia.
    + intros rest. unfold quarter_packet. rewrite <- T. now replace (type q =? 1) with false by lia.
Qed.
Lemma sent_quarters qs : Forall sendable qs -> exists bs, stream_of_packets qs = Ok bs /\ Forall is_u8 bs /\
  quarters false bs = map byte3 (filter quarter_packet qs).
Proof.
  induction 1 as [|q qs Q _ (bs & E & U & H)]; [exists []; repeat split; constructor|].
  destruct (sendable_quarters q Q) as (b & E' & U' & H'). exists (b ++ bs). cbn [stream_of_packets]. rewrite E', E. cbn [bind].
  split; [reflexivity|]. split; [now apply Forall_app|]. rewrite H', H.
  unfold told_by. cbn [filter]. now destruct (quarter_packet q).
Qed.

(* ---- the sender --------------------------------------------------------------------------------------- *)

Theorem sent g t : is_u8 g -> time_ok t -> send_time g t = map (fun d => make_system_message g 0xF1 d 0) (quarters_of t).
Proof.
  intros G (H & M & S & F & R). unfold send_time, nibbles, quarters_of. cbn [send_from map]. destruct t as [h m s f r]. cbn [tc_h tc_m tc_s tc_f tc_rate] in *.
  repeat match goal with |- _ :: _ = _ :: _ => f_equal end; try reflexivity; f_equal; unfold u8; bitlia.
Qed.
Lemma quarters_of_u7 t : time_ok t -> Forall is_u7 (quarters_of t).
Proof. intros (H & M & S & F & R). unfold quarters_of, is_u7. repeat constructor; dlia. Qed.
Lemma quarters_of_row t : time_ok t -> row 0 (quarters_of t).
Proof. intros (H & M & S & F & R). unfold quarters_of. cbn [row]. repeat split; try trivial; dlia. Qed.
Lemma time_of_quarters t : time_ok t -> time_of (quarters_of t) = t.
Proof. intros (H & M & S & F & R). destruct t as [h m s f r]. cbn [tc_h tc_m tc_s tc_f tc_rate time_of quarters_of] in *. f_equal; dlia. Qed.
Lemma byte3_sent g t : is_u8 g -> time_ok t -> map byte3 (send_time g t) = quarters_of t.
Proof.
  intros G T. rewrite sent, map_map by assumption. rewrite <- (map_id (quarters_of t)) at 2. apply map_ext_in. intros d I.
  assert (D := quarters_of_u7 t T). rewrite Forall_forall in D. specialize (D d I).
  rewrite system_layout by (trivial; unfold is_u7, is_u8 in *; lia). rewrite byte3_spec. cbn [w0]. unfold be32.
  assert (0 <= g mod 16 < 16) by (apply Z.mod_pos_bound; lia). unfold is_u7 in D. set (x := g mod 16) in *. dlia.
Qed.
Lemma byte3_all g ts : is_u8 g -> Forall time_ok ts -> map byte3 (flat_map (send_time g) ts) = flat_map quarters_of ts.
Proof. intros G. induction 1 as [|t ts T _ IH]; [reflexivity|]. cbn [flat_map]. now rewrite map_app, byte3_sent, IH. Qed.
Lemma times_one t l : time_ok t -> times_in (quarters_of t ++ l) = t :: times_in l.
Proof.
  intros T. assert (R := quarters_of_row t T). rewrite <- (time_of_quarters t T) at 2.
  assert (L : length (quarters_of t) = 8%nat) by reflexivity.
  destruct (quarters_of t) as [|a q]; [discriminate|]. destruct (exists_last (l := q)) as (q' & z & E); [intros ->; discriminate|].
  subst q. cbn [length] in L. rewrite app_length in L. cbn [length] in L.
  assert (RZ : row 0 (a :: q') /\ z / 16 = 7).
  { cbn [row app] in *. do 7 (destruct q' as [|? q']; [cbn [length] in L; try lia|]); cbn [length] in L; try lia. cbn [app row] in R. cbn [row]. lia. }
  destruct RZ as [R0 Z7]. cbn [app times_in]. rewrite <- app_assoc. cbn [app]. change (a :: q' ++ z :: l) with ((a :: q') ++ z :: l).
  rewrite row_then by (trivial; cbn [length]; lia). unfold size. cbn [length]. replace (z / 16 =? _) with true by lia.
  replace (8 - S (length q') - 1)%nat with 0%nat by lia. cbn [andb in_a_row]. change (?x :: times_in l) with ([x] ++ times_in l). f_equal.
  - do 6 (destruct q' as [|? q']; [cbn [length] in L; lia|]). destruct q'; [reflexivity|cbn [length] in L; lia].
  - destruct R0 as [_ R0]. rewrite (skip_row q' _ 1) by (trivial; lia). cbn [times_in in_a_row]. now replace (z / 16 =? 0) with false by lia.
Qed.
Lemma times_all ts l : Forall time_ok ts -> times_in (flat_map quarters_of ts ++ l) = ts ++ times_in l.
Proof. induction 1 as [|t ts T _ IH]; [reflexivity|]. cbn [flat_map]. now rewrite <- app_assoc, times_one, IH. Qed.
Lemma times_ts ts : Forall time_ok ts -> times_in (flat_map quarters_of ts) = ts.
Proof. intros T. pose proof (times_all ts [] T) as H. now rewrite !app_nil_r in H. Qed.

Theorem arrives g g' cb ts qs : is_u8 g -> 0 <= g' < 16 -> Forall time_ok ts -> Forall sendable qs ->
  filter quarter_packet qs = flat_map (send_time g) ts ->
  exists bs st out, stream_of_packets qs = Ok bs /\ feed_all (new_parser g' cb true) bs = Ok (st, out) /\
    rx_times (rx_run g' new_rx (packets_of out)) = ts.
Proof.
  intros G G' T Q E. destruct (sent_quarters qs Q) as (bs & B & U & H). destruct (any_bytes_read g' cb bs G' U) as (st & out & F & P).
  exists bs, st, out. split; [exact B|]. split; [exact F|]. rewrite P, H, E, byte3_all by assumption. now apply times_ts.
Qed.

(* ---- joining late --------------------------------------------------------------------------------------- *)

(* the last piece of a is not the one before the first of b *)
Definition apart (a b : list Z) : Prop :=
  forall a' x y b', a = a' ++ [x] -> b = y :: b' -> x / 16 + 1 <> y / 16.
Lemma row_apart a b : apart a b -> a <> [] -> forall k n, in_a_row k n (a ++ b) = in_a_row k n a.
Proof.
  induction a as [|x a IH]; intros A N k n; [easy|]. destruct n as [|n]; [reflexivity|]. cbn [app in_a_row].
  destruct a as [|y a].
  - cbn [app]. destruct (Z.eqb_spec (x / 16) k); [|reflexivity]. cbn [andb]. destruct n as [|n]; [reflexivity|]. destruct b as [|y b]; [reflexivity|].
    cbn [in_a_row]. specialize (A [] x y b eq_refl eq_refl). now replace (y / 16 =? k + 1) with false by lia.
  - f_equal. apply IH; [|discriminate]. intros a' u v b' E F. apply (A (x :: a') u v b'); [now rewrite E|assumption].
Qed.
Lemma row_long q : forall k n, in_a_row k n q = true -> (n <= length q)%nat.
Proof. intros k n H. destruct (Nat.lt_ge_cases (length q) n); [|assumption]. rewrite row_short in H by assumption. discriminate. Qed.
Lemma times_apart a b : apart a b -> times_in (a ++ b) = times_in a ++ times_in b.
Proof.
  induction a as [|x a IH]; intros A; [reflexivity|]. cbn [app times_in].
  change (x :: a ++ b) with ((x :: a) ++ b). rewrite row_apart by (trivial; discriminate). rewrite IH, app_assoc.
  - f_equal. f_equal. destruct (in_a_row 0 8 (x :: a)) eqn:R; [|reflexivity]. apply row_long in R. rewrite firstn_app.
    replace (8 - length (x :: a))%nat with 0%nat by lia. now rewrite firstn_O, app_nil_r.
  - intros a' u v b' E F. apply (A (x :: a') u v b'); [now rewrite E|assumption].
Qed.
Lemma quarters_stray bs : forall w, exists x, (length x <= 1)%nat /\ quarters w bs = x ++ quarters false bs.
Proof.
  induction bs as [|b bs IH]; intros w; [exists []; cbn; auto|]. cbn [quarters]. destruct (0xF8 <=? b); [apply IH|].
  destruct (0x80 <=? b); [exists []; cbn; auto|]. destruct w; [exists [b]|exists []]; cbn; auto.
Qed.
Lemma quarters_app a b : forall w, exists w', quarters w (a ++ b) = quarters w a ++ quarters w' b.
Proof.
  induction a as [|x a IH]; intros w; [now exists w|]. cbn [app quarters]. destruct (0xF8 <=? x); [apply IH|].
  destruct (0x80 <=? x); [apply IH|]. destruct (IH false) as (w' & ->). exists w'. now rewrite app_assoc.
Qed.
Theorem joins_late g g' cb before ts qs : is_u8 g -> 0 <= g' < 16 -> Forall is_u8 before -> Forall time_ok ts -> Forall sendable qs ->
  filter quarter_packet qs = flat_map (send_time g) ts ->
  exists bs st out x, stream_of_packets qs = Ok bs /\ feed_all (new_parser g' cb true) (before ++ bs) = Ok (st, out) /\
    (length x <= 1)%nat /\ rx_times (rx_run g' new_rx (packets_of out)) = times_in (quarters false before ++ x) ++ ts.
Proof.
  intros G G' UB T Q E. destruct (sent_quarters qs Q) as (bs & B & U & H).
  destruct (any_bytes_read g' cb (before ++ bs) G' ltac:(now apply Forall_app)) as (st & out & F & P).
  destruct (quarters_app before bs false) as (w & A). destruct (quarters_stray bs w) as (x & X & S).
  exists bs, st, out, x. split; [exact B|]. split; [exact F|]. split; [exact X|].
  rewrite P, A, S, H, E, byte3_all, app_assoc by assumption. rewrite times_apart; [now rewrite times_ts|].
  assert (UX : Forall is_u7 (quarters false before ++ x)).
  { apply Forall_app. split; [now apply quarters_u7|]. pose proof (quarters_u7 bs U w) as Y. rewrite S in Y. now apply Forall_app in Y. }
  intros a' u v b' EA EB. rewrite EA in UX. apply Forall_app in UX as [_ UX]. inversion_clear UX as [|? ? UU _]. unfold is_u7 in UU.
  destruct T as [|t ts T _]; [discriminate|]. assert (R := quarters_of_row t T). cbn [flat_map] in EB. unfold quarters_of in EB. cbn [app] in EB.
  injection EB as <- _. destruct R as [R _]. cbn [quarters_of] in R. rewrite R. dlia.
Qed.

(* ---- quarter frames that are lost ------------------------------------------------------------------------- *)

Lemma app_longer {A} (a : list A) : forall b c d, a ++ b = c ++ d -> (length a <= length c)%nat -> exists r, c = a ++ r /\ b = r ++ d.
Proof.
  induction a as [|x a IH]; intros b c d E L; [now exists c|]. destruct c as [|y c]; [cbn [length] in L; lia|]. cbn [app length] in *.
  injection E as <- E. destruct (IH b c d E ltac:(lia)) as (r & -> & ->). now exists r.
Qed.
Lemma row_split a : forall k b, row k (a ++ b) -> row k a /\ row (k + size a) b.
Proof.
  unfold size. induction a as [|x a IH]; intros k b R; cbn [app row length] in *; [split; [trivial|now replace (k + Z.of_nat 0) with k by lia]|].
  destruct R as [X R]. apply IH in R as [R1 R2]. split; [auto|]. now replace (k + Z.of_nat (S (length a))) with (k + 1 + Z.of_nat (length a)) by lia.
Qed.
Lemma rest_read ts a r j : Forall time_ok ts -> row 0 a -> (length a < 8)%nat -> row j r -> 1 <= j -> (r <> [] -> j <> size a) ->
  times_in (a ++ r ++ flat_map quarters_of ts) = ts.
Proof.
  intros T RA L RR J N. rewrite times_apart.
  { rewrite times_short, (skip_row r _ j), times_ts by assumption. reflexivity. }
  intros a' x y b' -> EB. apply row_split in RA as [_ RA]. destruct RA as [X _]. unfold size in *. rewrite app_length in N. cbn [length] in N.
  destruct r as [|z r].
  - cbn [app] in EB. destruct T as [|t ts T _]; [discriminate|]. assert (R := quarters_of_row t T). cbn [flat_map] in EB.
    unfold quarters_of in EB at 1. cbn [app] in EB. injection EB as <- _. destruct R as [R _]. rewrite R. lia.
  - cbn [app] in EB. injection EB as <- _. destruct RR as [RR _]. specialize (N ltac:(discriminate)). lia.
Qed.
Lemma loss_read ts : Forall time_ok ts -> forall a lost b, flat_map quarters_of ts = a ++ lost ++ b -> (0 < length lost < 8)%nat ->
  exists k1 d k2, times_in (a ++ b) = k1 ++ k2 /\ ts = k1 ++ d ++ k2 /\ (length d <= 2)%nat.
Proof.
  induction 1 as [|t ts T TS IH]; intros a lost b E L.
  { apply (f_equal (@length Z)) in E. rewrite !app_length in E. cbn [flat_map length] in E. lia. }
  cbn [flat_map] in E. assert (R := quarters_of_row t T). assert (L8 : length (quarters_of t) = 8%nat) by reflexivity.
  destruct (Nat.le_gt_cases 8 (length a)) as [A|A].
  - destruct (app_longer _ _ _ _ E ltac:(lia)) as (a' & -> & E'). destruct (IH a' lost b E' L) as (k1 & d & k2 & X & -> & D).
    exists (t :: k1), d, k2. split; [|auto]. rewrite <- app_assoc, times_one, X by assumption. reflexivity.
  - symmetry in E. destruct (app_longer _ _ _ _ E ltac:(lia)) as (r & Q & E'). rewrite Q in R, L8. rewrite app_length in L8.
    apply row_split in R as [RA RR]. destruct (Nat.le_gt_cases (length lost) (length r)) as [M|M].
    + destruct (app_longer _ _ _ _ E' M) as (r' & -> & ->). apply row_split in RR as [_ RR]. exists [], [t], ts.
      split; [|cbn; auto]. cbn [app]. unfold size in RR. eapply rest_read; [exact TS|exact RA|exact A|exact RR|lia|unfold size; lia].
    + symmetry in E'. destruct (app_longer _ _ _ _ E' ltac:(lia)) as (l2 & -> & E2). rewrite app_length in L, M.
      destruct TS as [|t2 ts T2 TS].
      { apply (f_equal (@length Z)) in E2. rewrite app_length in E2. cbn [flat_map length] in E2. lia. }
      cbn [flat_map] in E2. assert (R2 := quarters_of_row t2 T2). assert (L2 : length (quarters_of t2) = 8%nat) by reflexivity.
      symmetry in E2. destruct (app_longer _ _ _ _ E2 ltac:(lia)) as (r2 & Q2 & ->). rewrite Q2 in R2. apply row_split in R2 as [_ R2].
      exists [], [t; t2], ts. split; [|cbn; auto]. cbn [app]. unfold size in R2.
      eapply rest_read; [exact TS|exact RA|exact A|exact R2|lia|unfold size; lia].
Qed.
Theorem lost_some g g' cb ts a lost b qs : is_u8 g -> 0 <= g' < 16 -> Forall time_ok ts -> Forall sendable qs ->
  flat_map (send_time g) ts = a ++ lost ++ b -> (0 < length lost < 8)%nat -> filter quarter_packet qs = a ++ b ->
  exists bs st out k1 d k2, stream_of_packets qs = Ok bs /\ feed_all (new_parser g' cb true) bs = Ok (st, out) /\
    rx_times (rx_run g' new_rx (packets_of out)) = k1 ++ k2 /\ ts = k1 ++ d ++ k2 /\ (length d <= 2)%nat.
Proof.
  intros G G' T Q S L E. destruct (sent_quarters qs Q) as (bs & B & U & H). destruct (any_bytes_read g' cb bs G' U) as (st & out & F & P).
  destruct (loss_read ts T (map byte3 a) (map byte3 lost) (map byte3 b)) as (k1 & d & k2 & X & Y & D).
  { now rewrite <- (byte3_all g), S, !map_app by assumption. }
  { now rewrite map_length. }
  exists bs, st, out, k1, d, k2. split; [exact B|]. split; [exact F|]. rewrite P, H, E, map_app. auto.
Qed.

(* ---- behind a merge box ------------------------------------------------------------------------------------ *)

Lemma read_grows qs : forall s, exists z, rx_times (fold_left read_quarter qs s) = rx_times s ++ z.
Proof.
  induction qs as [|d qs IH]; intros s; [exists []; cbn [fold_left]; now rewrite app_nil_r|]. cbn [fold_left]. destruct (IH (read_quarter s d)) as (z & ->).
  unfold read_quarter. destruct (_ =? size _); [destruct (_ =? 8)|]; cbn [rx_times]; [|now exists z|now exists z].
  eexists. rewrite <- app_assoc. reflexivity.
Qed.
Lemma times_grow a b : Forall is_u7 (a ++ b) -> exists z, times_in (a ++ b) = times_in a ++ z.
Proof.
  intros F. rewrite <- read_all, fold_left_app by assumption. destruct (read_grows b (fold_left read_quarter a new_rx)) as (z & ->).
  exists z. rewrite read_all; [reflexivity|now apply Forall_app in F].
Qed.
Lemma all_of_source (f : packet -> bool) s l : (forall x, In x l -> f (snd x) = true -> fst x = s) ->
  filter f (map snd l) = filter f (of_source s l).
Proof.
  induction l as [|[i p] l IH]; intros H; [reflexivity|]. rewrite of_cons. cbn [map filter fst snd].
  rewrite filter_app, IH by (intros x I; apply H; now right). specialize (H (i, p) (or_introl eq_refl)). cbn [fst snd] in H.
  destruct (f p) eqn:F.
  - rewrite H by reflexivity. rewrite Nat.eqb_refl. cbn [filter]. now rewrite F.
  - destruct (Nat.eqb i s); cbn [filter]; rewrite ?F; reflexivity.
Qed.
Theorem merged g g' cb s ts l : is_u8 g -> 0 <= g' < 16 -> Forall time_ok ts -> Forall (fun x => sendable (snd x)) l ->
  filter (fun x => quarter_packet (snd x)) l = map (pair s) (flat_map (send_time g) ts) ->
  exists m out bs st ev rest, merge_run new_merger l = (m, out) /\ stream_of_packets (map snd out) = Ok bs /\
    feed_all (new_parser g' cb true) bs = Ok (st, ev) /\
    ts = rx_times (rx_run g' new_rx (packets_of ev)) ++ rest /\ (mg_waiting m = [] -> rest = []).
Proof.
  intros G G' T Q E. destruct (any_packets l) as (m & out & R & NR & RT & _).
  { eapply Forall_impl; [|exact Q]. intros x. apply sendable_wf. }
  assert (SUB : forall x, In x out -> In x l).
  { intros [i p] I. destruct (realtime_packet p) eqn:RP.
    - assert (J : In (i, p) (filter (fun x => realtime_packet (snd x)) out)) by (apply filter_In; auto). rewrite RT in J. now apply filter_In in J.
    - assert (J : In p (filter (fun p => negb (realtime_packet p)) (of_source i out))).
      { apply filter_In. split; [now apply in_source|now rewrite RP]. }
      assert (K : In p (filter (fun p => negb (realtime_packet p)) (of_source i l))) by (rewrite <- NR; apply in_or_app; now left).
      apply filter_In in K as [K _]. now apply in_source in K. }
  assert (ONE : forall x, In x l -> quarter_packet (snd x) = true -> fst x = s).
  { intros x I K. assert (J : In x (filter (fun x => quarter_packet (snd x)) l)) by (apply filter_In; auto). rewrite E in J.
    apply in_map_iff in J as (p & <- & _). reflexivity. }
  assert (NQ : forall p, quarter_packet p = true -> negb (realtime_packet p) = true).
  { intros p K. unfold quarter_packet in K. unfold realtime_packet. lia. }
  assert (FL : filter quarter_packet (map snd l) = flat_map (send_time g) ts).
  { assert (FM : forall y : list (nat * packet), filter quarter_packet (map snd y) = map snd (filter (fun x => quarter_packet (snd x)) y)).
    { clear. intros y. induction y as [|x y IH]; [reflexivity|]. cbn [map filter]. rewrite IH. now destruct (quarter_packet (snd x)). }
    rewrite FM, E, map_map. cbn [snd]. apply map_id. }
  rewrite (all_of_source _ s) in FL by exact ONE.
  rewrite <- (filter_within _ (fun p => negb (realtime_packet p))), <- NR, filter_app, filter_within in FL by (intros; auto).
  rewrite <- (all_of_source _ s) in FL by (intros x I; apply ONE, SUB, I).
  assert (QO : Forall sendable (map snd out)).
  { apply Forall_forall. intros p I. apply in_map_iff in I as (x & <- & I). rewrite Forall_forall in Q. apply Q, SUB, I. }
  destruct (sent_quarters _ QO) as (bs & B & U & H). destruct (any_bytes_read g' cb bs G' U) as (st & ev & F & P).
  assert (D : flat_map quarters_of ts = map byte3 (filter quarter_packet (map snd out)) ++ map byte3 (filter quarter_packet (of_source s (mg_waiting m)))).
  { rewrite <- map_app, FL. symmetry. now apply byte3_all. }
  assert (F7 : Forall is_u7 (flat_map quarters_of ts)).
  { clear - T. induction T; cbn [flat_map]; [constructor|]. apply Forall_app. split; [now apply quarters_of_u7|assumption]. }
  rewrite D in F7. destruct (times_grow _ _ F7) as (rest & X). rewrite <- D, times_ts, <- H, <- P in X by assumption.
  exists m, out, bs, st, ev, rest. repeat (split; [assumption|]). intros W. rewrite W in D. cbn [of_source filter map] in D. rewrite app_nil_r in D.
  assert (Y : rx_times (rx_run g' new_rx (packets_of ev)) = ts) by (rewrite P, H, <- D; now apply times_ts).
  rewrite Y in X. rewrite <- (app_nil_r ts) in X at 1. now apply app_inv_head in X.
Qed.

(* ---- other groups ------------------------------------------------------------------------------------------- *)

Theorem rx_own_group g ps : forall s, rx_run g s ps = rx_run g s (filter (fun p => w0 p / 16777216 mod 16 =? g) ps).
Proof.
  unfold rx_run. induction ps as [|p ps IH]; intros s; [reflexivity|]. cbn [filter fold_left]. rewrite IH.
  destruct (Z.eqb_spec (w0 p / 16777216 mod 16) g) as [E|E]; [reflexivity|]. f_equal. unfold rx_step, as_system_message_view.
  destruct (type p =? pt_system); [|reflexivity]. rewrite group_spec. now replace (_ =? g) with false by lia.
Qed.
