(* Lemmas for C76: when memory is asked for. *)
From Coq Require Import ZArith List Bool Lia ZifyBool ZifyNat.
From Verif Require Import Base Bits Packet PacketSpec PacketProofs Messages Sysex ByteStream Collector StreamSpec StreamProofs StreamCalls
  CollectSpec CollectProofs CollectCalls Memory MemorySpec MemoryProofs.
Import ListNotations.
Local Open Scope Z_scope.
Local Open Scope res_scope.

Lemma requests_app x y : requests (x ++ y) = (requests x + requests y)%nat.
Proof. induction x as [|[] x IH]; cbn [requests app]; lia. Qed.

(* ---- parser: which calls ask -------------------------------------------------------- *)

Lemma plain_quiet st r st' o m : plain_m st r = Ok (st', o, m) -> m = Untouched /\ mp_capacity st' = mp_capacity st.
Proof. unfold plain_m. destruct r as [[s x]|f]; cbn [bind fst snd]; [|discriminate]. intros [= <- <- <-]. now split. Qed.

Lemma feed_asks a ok st b st' o m : feed_m a ok st b = Ok (st', o, m) -> m <> Untouched ->
  has_cb (mp_parser st) = true /\ (b = 0xF0 \/ (b < 0x80 /\ type (m_packet (mp_parser st)) = pt_data)).
Proof.
  intros E M. unfold feed_m in E. destruct (0xF8 <=? b). { destruct (plain_quiet _ _ _ _ _ E); contradiction. }
  assert (PM : forall s1, has_cb (mp_parser s1) = has_cb (mp_parser st) -> feed_plain_m a ok s1 b = Ok (st', o, m) ->
    has_cb (mp_parser st) = true /\ b = 0xF0).
  { intros s1 H1 F. unfold feed_plain_m in F. destruct (Z.eqb_spec b 0xF0) as [->|]; [|destruct (plain_quiet _ _ _ _ _ F); contradiction].
    split; [|reflexivity]. unfold sysex_start_m in F. destruct (make_sysex7_start_packet _); cbn [bind] in F; [|discriminate].
    change (has_cb (with_state (mp_parser s1) a0 2 0)) with (has_cb (mp_parser s1)) in F. rewrite H1 in F.
    destruct (has_cb (mp_parser st)); [reflexivity|]. congruence. }
  destruct (Z.eqb_spec (type (m_packet (mp_parser st))) pt_data) as [T|T].
  - destruct (Z.ltb_spec b 0x80).
    + destruct (has_cb (mp_parser st)); [|destruct (plain_quiet _ _ _ _ _ E); contradiction]. auto.
    + destruct (negb (b =? 0xF7)). { apply PM in E; [|reflexivity]. tauto. }
      destruct (has_cb (mp_parser st)); [|destruct (plain_quiet _ _ _ _ _ E); contradiction].
      unfold sysex_end_callback_m in E. destruct (_ && _); congruence.
  - apply PM in E; [|reflexivity]. tauto.
Qed.

(* feed() with and without allocator *)
Lemma feed_m_feed a st b : match feed_m a true st b with
  | Fault f => feed (mp_parser st) b = Fault f
  | Ok (st', o, m) => feed (mp_parser st) b = Ok (mp_parser st', o) /\ m <> Refused
  end.
Proof.
  pose proof (feed_m_restart a b true st) as R. destruct (feed_m a true st b) as [[[s' o] m]|f]; [|exact R].
  destruct m; try (split; [exact R|discriminate]). now destruct R.
Qed.

(* ---- parser: how often --------------------------------------------------------------- *)

(* a parser without SysEx callback *)
Lemma watch_bytes_none a g on bs : Forall is_u8 bs -> forall c st, cinv g false on c (mp_parser st) ->
  exists st' ms c', watch_bytes a st bs = Ok (st', ms) /\ cinv g false on c' (mp_parser st') /\ requests ms = 0%nat.
Proof.
  induction 1 as [|b bs B _ IH]; intros c st I; [exists st, [], c; now split|].
  destruct (cinv_feed g false on c (mp_parser st) b B I) as (s1 & E1 & I1). cbn [watch_bytes].
  pose proof (feed_m_feed a st b) as F. destruct (feed_m a true st b) as [[[s2 o] m]|f] eqn:E; [|congruence].
  destruct F as [F M]. assert (mp_parser s2 = s1) by congruence. subst s1.
  destruct (IH _ _ I1) as (s3 & ms & c3 & E3 & I3 & R3). exists s3, (m :: ms), c3. cbn [bind fst snd].
  rewrite E3. split; [reflexivity|]. split; [exact I3|]. cbn [requests].
  destruct m; [exact R3| |contradiction]. destruct (feed_asks _ _ _ _ _ _ _ E) as [H _]; [discriminate|].
  destruct I as (_ & _ & (_ & H2 & _)). congruence.
Qed.
Lemma watch_none a ks : Forall valid_call ks -> forall g on c st, cinv g false on c (mp_parser st) ->
  exists st' ms, watch_calls a st ks = Ok (st', ms) /\ requests ms = 0%nat.
Proof.
  induction 1 as [|k ks K _ IH]; intros g on c st I; [exists st, []; now split|]. cbn [watch_calls].
  assert (ST : exists g' on' c' st' ms, watch_step a st k = Ok (st', ms) /\ cinv g' false on' c' (mp_parser st') /\ requests ms = 0%nat).
  { destruct I as (G & C & (H1 & H2 & H3 & H4)). destruct k as [bs|on'|g'|]; cbn [watch_step].
    - destruct (watch_bytes_none a g on bs K c st) as (s & ms & c' & E & I' & R); [now repeat split|].
      exists g, on, c', s, ms. auto.
    - exists g, on', c, (mkMP (enable_callbacks (mp_parser st) on') (mp_capacity st)), []. split; [reflexivity|]. split; [|reflexivity].
      split; [assumption|]. split; [assumption|]. split; [assumption|]. split; [assumption|]. split; [reflexivity|]. exact H4.
    - exists g', on, c, (mkMP (parser_set_group (mp_parser st) g') (mp_capacity st)), []. split; [reflexivity|]. split; [|reflexivity].
      split; [assumption|]. split; [assumption|]. split; [reflexivity|]. split; [assumption|]. split; [assumption|]. exact H4.
    - exists g, on, None, (parser_reset_m a st), []. split; [reflexivity|]. split; [|reflexivity].
      split; [assumption|]. split; [exact Logic.I|]. repeat split; assumption. }
  destruct ST as (g' & on' & c' & s1 & m1 & E1 & I1 & R1). rewrite E1. cbn [bind fst snd].
  destruct (IH _ _ _ _ I1) as (s2 & m2 & E2 & R2). rewrite E2. cbn [bind fst snd].
  exists s2, (m1 ++ m2). split; [reflexivity|]. rewrite requests_app. lia.
Qed.

(* a parser with SysEx callback: the vector was never used, or has its first size, doubled at most
   k times; [left] is how often it may still ask *)
Definition in_sysex (c : calls_context) : bool := match c with Some (x0, _) => f_byte x0 =? 0xF0 | None => false end.
Definition level (j : nat) : Z := 1024 * 2 ^ Z.of_nat j.
Definition grown (k : nat) (c : calls_context) (cap : Z) (left : nat) : Prop :=
  (exists j, (j + left = k)%nat /\ cap = level j) \/ (cap = 0 /\ in_sysex c = false /\ left = S k).
Lemma level_S j : level (S j) = level j * 2.
Proof. unfold level. rewrite Nat2Z.inj_succ, Z.pow_succ_r by lia. lia. Qed.
Lemma level_mono i j : (i <= j)%nat -> level i <= level j.
Proof. intros H. unfold level. apply Z.mul_le_mono_nonneg_l; [lia|]. apply Z.pow_le_mono_r; lia. Qed.
Lemma level_inj_lt i j : level i < level j -> (i < j)%nat.
Proof. intros H. destruct (Nat.le_gt_cases j i) as [L|L]; [|exact L]. pose proof (level_mono _ _ L). lia. Qed.
Lemma grown_clear a k c cap n : (k <= 4)%nat -> grown k c cap n -> clear_capacity a cap = cap.
Proof.
  intros K G. unfold clear_capacity. destruct G as [(j & J & ->)|(-> & _)]; [|reflexivity].
  pose proof (level_mono j 4 ltac:(lia)) as L. change (level 4) with 16384 in L.
  replace (16384 <? level j) with false by lia. reflexivity.
Qed.
Definition run_size (c : calls_context) : Z := match c with Some (_, ds) => size ds | None => 0 end.

Lemma cb_state_size ds : 0 <= size (sx_data (fst (cb_state ds))) /\
  (snd (cb_state ds) <> 2 -> size (sx_data (fst (cb_state ds))) <= size ds - 1).
Proof.
  unfold cb_state. destruct ds as [|m r]; [cbn; lia|]. destruct (m =? 0).
  - destruct r as [|x [|y r]]; cbn [fst snd sx_data]; unfold size; cbn [length]; lia.
  - cbn [fst snd sx_data]; unfold size; cbn [length]; lia.
Qed.

Lemma feed_grown a k n g on c st b st' o m : exact_alloc a -> (k <= 4)%nat -> is_u8 b -> cinv g true on c (mp_parser st) ->
  grown k c (mp_capacity st) n -> run_size c < level k + 1 \/ 0x80 <= b ->
  feed_m a true st b = Ok (st', o, m) ->
  exists n', grown k (calls_ctx_step c (mkFed b g on)) (mp_capacity st') n' /\
  (m = Untouched /\ n' = n \/ m = Obtained /\ n = S n').
Proof.
  intros [A X] K4 B I S0 R E. unfold is_u8 in B. unfold feed_m in E.
  pose proof (grown_clear a k c _ n K4 S0) as CC.
  unfold calls_ctx_step, is_rt. cbn [f_byte].
  destruct (Z.leb_spec 0xF8 b) as [RT|RT].
  { apply plain_quiet in E. destruct E as [-> ->]. exists n. auto. }
  assert (HC : has_cb (mp_parser st) = true) by apply I.
  assert (PM : forall s1, mp_capacity s1 = mp_capacity st -> has_cb (mp_parser s1) = true -> 0x80 <= b ->
    feed_plain_m a true s1 b = Ok (st', o, m) ->
    exists n', grown k (Some (mkFed b g on, [])) (mp_capacity st') n' /\ (m = Untouched /\ n' = n \/ m = Obtained /\ n = S n')).
  { intros s1 C1 H1 B1 F. unfold feed_plain_m in F. destruct (Z.eqb_spec b 0xF0) as [->|N].
    - unfold sysex_start_m in F. destruct (make_sysex7_start_packet _) as [p|]; cbn [bind] in F; [|discriminate].
      change (has_cb (with_state (mp_parser s1) p 2 0)) with (has_cb (mp_parser s1)) in F. rewrite H1, C1, CC in F.
      destruct S0 as [(j & J & S0)|(S0 & _ & L)]; rewrite S0 in F.
      + pose proof (level_mono 0 j ltac:(lia)) as L0. change (level 0) with 1024 in L0.
        replace (level j <? 1024) with false in F by lia. cbv iota in F.
        assert (m = Untouched) by congruence. assert (CS : mp_capacity st' = level j).
        { apply (f_equal (fun r => match r with Ok (x, _, _) => mp_capacity x | Fault _ => 0 end)) in F. cbn -[level] in F. congruence. }
        exists n. split; [|left; split; trivial]. left. exists j. split; [exact J|exact CS].
      + change (0 <? 1024) with true in F. cbv iota in F. rewrite (X 0 1024) in F by lia.
        assert (m = Obtained) by congruence. assert (CS : mp_capacity st' = 1024).
        { apply (f_equal (fun r => match r with Ok (x, _, _) => mp_capacity x | Fault _ => 0 end)) in F. cbn -[level] in F. congruence. }
        exists k. split; [|right; split; trivial]. left. exists O. split; [reflexivity|exact CS].
    - destruct (plain_quiet _ _ _ _ _ F) as [M1 M2]. rewrite M2, C1. exists n. split; [|left; split; trivial].
      destruct S0 as [S0|(S0 & _ & L)]; [now left|]. right. split; [exact S0|]. split; [|exact L]. cbn [in_sysex f_byte]. lia. }
  destruct (Z.ltb_spec b 0x80) as [D|D].
  - replace (0x80 <=? b) with false by lia.
    assert (K : forall m' st'', m' = Untouched /\ mp_capacity st'' = mp_capacity st ->
      exists n', grown k (match c with Some (x0, ds) => Some (x0, ds ++ [mkFed b g on]) | None => None end) (mp_capacity st'') n' /\
      (m' = Untouched /\ n' = n \/ m' = Obtained /\ n = S n')).
    { intros m' s2 [M1 M2]. rewrite M2. exists n. split; [|left; split; trivial]. destruct c as [[x0 ds]|]; exact S0. }
    destruct (type (m_packet (mp_parser st)) =? pt_data) eqn:T.
    + rewrite HC in E. destruct I as (_ & C & I). destruct c as [[x0 ds]|].
      2:{ destruct I as (_ & _ & _ & P). cbn [abs_ctx] in P. rewrite P in T. discriminate. }
      assert (SX : f_byte x0 = 0xF0).
      { pose proof (inv_not_data _ _ _ _ _ _ _ _ (abs_group_ok _ C) I) as ND. lia. }
      assert (CAP : exists j, (j + n = k)%nat /\ mp_capacity st = level j).
      { destruct S0 as [S0|(_ & S0 & _)]; [exact S0|]. cbn [in_sysex] in S0. lia. }
      destruct I as (_ & _ & _ & _ & _ & P). cbn [abs_ctx] in P. rewrite SX in P. cbn in P.
      unfold sx_inv in P. rewrite HC in P. destruct P as [_ P]. cbn [run_size] in R.
      unfold sysex_continue_callback_m in E.
      destruct ((m_packet_byte (mp_parser st) =? 0) || _) eqn:P0. { apply K. split; [congruence|].
        apply (f_equal (fun r => match r with Ok (x, _, _) => mp_capacity x | Fault _ => 0 end)) in E. now cbn in E. }
      destruct (m_packet_byte (mp_parser st) =? 2) eqn:P2. { apply K. split; [congruence|].
        apply (f_equal (fun r => match r with Ok (x, _, _) => mp_capacity x | Fault _ => 0 end)) in E. now cbn in E. }
      destruct (_ && (Z.land _ _ =? 0)). { apply K. split; [congruence|].
        apply (f_equal (fun r => match r with Ok (x, _, _) => mp_capacity x | Fault _ => 0 end)) in E. now cbn in E. }
      assert (SZ : size (sx_data (m_sysex (mp_parser st))) <= size ds - 1).
      { destruct (f_on x0).
        - pose proof (cb_state_size (map f_byte ds)) as [_ L]. rewrite <- P in L. cbn [fst snd] in L.
          unfold size in *. rewrite map_length in L. apply L. lia.
        - apply (f_equal snd) in P. cbn [snd] in P. rewrite P in P0. discriminate. }
      destruct (Z.eqb_spec (size (sx_data (m_sysex (mp_parser st)))) (mp_capacity st)) as [FULL|FULL].
      * destruct CAP as (j & J & CAP). rewrite CAP in E, FULL.
        assert (JK : (j < k)%nat) by (apply level_inj_lt; lia).
        pose proof (level_mono 0 j ltac:(lia)) as L0. change (level 0) with 1024 in L0.
        replace (level j =? 0) with false in E by lia. cbv iota in E. rewrite X in E by lia.
        assert (m = Obtained) by congruence. assert (CS : mp_capacity st' = level j * 2).
        { apply (f_equal (fun r => match r with Ok (x, _, _) => mp_capacity x | Fault _ => 0 end)) in E. cbn -[level] in E. congruence. }
        exists (n - 1)%nat. split; [|right; split; [assumption|lia]].
        left. exists (S j). split; [lia|]. rewrite level_S. exact CS.
      * apply K. split; [congruence|].
        apply (f_equal (fun r => match r with Ok (x, _, _) => mp_capacity x | Fault _ => 0 end)) in E. now cbn in E.
    + unfold feed_plain_m in E. replace (b =? 0xF0) with false in E by lia. apply K. now apply plain_quiet in E.
  - replace (0x80 <=? b) with true by lia.
    destruct (type (m_packet (mp_parser st)) =? pt_data) eqn:T; [|now apply (PM st)].
    destruct (negb (b =? 0xF7)) eqn:N7.
    + now apply (PM (mkMP (with_packet (mp_parser st) packet0) (mp_capacity st))).
    + rewrite HC in E. assert (b = 0xF7) by lia. subst b. unfold sysex_end_callback_m in E.
      assert (K : m = Untouched /\ mp_capacity st' = mp_capacity st).
      { rewrite CC in E. destruct (_ && _); (split; [congruence|]);
        apply (f_equal (fun r => match r with Ok (x, _, _) => mp_capacity x | Fault _ => 0 end)) in E; now cbn in E. }
      destruct K as [K1 K2]. rewrite K2. exists n. split; [|left; split; [exact K1|reflexivity]].
      destruct S0 as [S0|(S0 & _ & L)]; [left; exact S0|right; split; [exact S0|split; [reflexivity|exact L]]].
Qed.

(* the data bytes of the context are the last ones fed *)
Definition data_or_rt (b : Z) : Prop := b < 0x80 \/ 0xF8 <= b.
Definition last_run (bs : list Z) (c : calls_context) : Prop :=
  exists before run, bs = before ++ run /\ (forall b, In b run -> data_or_rt b) /\
    run_size c <= size (filter (fun b => b <? 0x80) run).
Lemma last_run_step bs c b g on : is_u8 b -> last_run bs c -> last_run (bs ++ [b]) (calls_ctx_step c (mkFed b g on)).
Proof.
  intros B (before & run & -> & D & S). unfold is_u8 in B. unfold calls_ctx_step, is_rt. cbn [f_byte].
  destruct (Z.leb_spec 0xF8 b).
  - exists before, (run ++ [b]). split; [now rewrite app_assoc|]. split.
    + intros x X. apply in_app_or in X. destruct X as [X|[X|[]]]; [auto|]. right. lia.
    + rewrite filter_app. cbn [filter]. replace (b <? 0x80) with false by lia. now rewrite app_nil_r.
  - destruct (Z.leb_spec 0x80 b).
    + exists (before ++ run ++ [b]), []. split; [now rewrite app_nil_r, app_assoc|]. split; [intros x []|]. reflexivity.
    + exists before, (run ++ [b]). split; [now rewrite app_assoc|]. split.
      * intros x X. apply in_app_or in X. destruct X as [X|[X|[]]]; [auto|]. left. lia.
      * rewrite filter_app. cbn [filter]. replace (b <? 0x80) with true by lia. rewrite size_snoc.
        destruct c as [[x0 ds]|]; cbn [run_size] in *; [rewrite size_snoc; lia|].
        pose proof (size_nonneg (filter (fun b => b <? 0x80) run)). lia.
Qed.
Lemma last_run_none bs : last_run bs None.
Proof. exists bs, []. split; [now rewrite app_nil_r|]. split; [intros b []|reflexivity]. Qed.
Lemma last_run_room n bs c b later : short_runs n (bs ++ b :: later) -> last_run bs c -> run_size c < n \/ 0x80 <= b.
Proof.
  intros SR (before & run & -> & D & S). destruct (Z.le_gt_cases 0x80 b); [now right|left].
  specialize (SR before (run ++ [b]) later). rewrite filter_app in SR. cbn [filter] in SR.
  replace (b <? 0x80) with true in SR by lia. rewrite size_snoc in SR.
  cut (size (filter (fun b => b <? 0x80) run) + 1 <= n); [lia|]. apply SR.
  - rewrite <- !app_assoc. reflexivity.
  - intros x X. apply in_app_or in X. destruct X as [X|[X|[]]]; [exact (D x X)|]. left. lia.
Qed.

Lemma watch_bytes_grown a k g on later bs : exact_alloc a -> (k <= 4)%nat -> Forall is_u8 bs -> forall n done c st,
  short_runs (level k + 1) (done ++ bs ++ later) -> last_run done c ->
  cinv g true on c (mp_parser st) -> grown k c (mp_capacity st) n ->
  exists st' ms c' n', watch_bytes a st bs = Ok (st', ms) /\ cinv g true on c' (mp_parser st') /\
    grown k c' (mp_capacity st') n' /\ last_run (done ++ bs) c' /\ (requests ms + n' = n)%nat.
Proof.
  intros A K4. induction 1 as [|b bs B _ IH]; intros n done c st SR LR I S0.
  { exists st, [], c, n. rewrite app_nil_r. cbn [watch_bytes requests]. repeat (split; [trivial|]). lia. }
  destruct (cinv_feed g true on c (mp_parser st) b B I) as (s1 & E1 & I1). cbn [watch_bytes].
  pose proof (feed_m_feed a st b) as F. destruct (feed_m a true st b) as [[[s2 o] m]|f] eqn:E; [|congruence].
  destruct F as [F M]. assert (mp_parser s2 = s1) by congruence. subst s1.
  destruct (feed_grown a k n g on c st b s2 o m A K4 B I S0 (last_run_room _ _ _ _ _ SR LR) E) as (n2 & S2 & RQ).
  assert (SR' : short_runs (level k + 1) ((done ++ [b]) ++ bs ++ later)) by (rewrite <- app_assoc; exact SR).
  destruct (IH n2 (done ++ [b]) _ s2 SR' (last_run_step done c b g on B LR) I1 S2) as (s3 & ms & c3 & n3 & E3 & I3 & S3 & L3 & R3).
  exists s3, (m :: ms), c3, n3. cbn [bind fst snd]. rewrite E3. split; [reflexivity|]. split; [exact I3|].
  split; [exact S3|]. split; [now rewrite <- app_assoc in L3|]. cbn [requests].
  destruct RQ as [[-> C]|[-> C]]; lia.
Qed.

Lemma watch_grown a k ks : exact_alloc a -> (k <= 4)%nat -> Forall valid_call ks -> forall n done g on c st,
  short_runs (level k + 1) (done ++ fed_bytes ks) -> last_run done c ->
  cinv g true on c (mp_parser st) -> grown k c (mp_capacity st) n ->
  exists st' ms, watch_calls a st ks = Ok (st', ms) /\ (requests ms <= n)%nat.
Proof.
  intros A K4. induction 1 as [|y ks K _ IH]; intros n done g on c st SR LR I S0.
  { exists st, []. split; [reflexivity|]. cbn. lia. }
  cbn [watch_calls].
  assert (ST : exists done' g' on' c' st' ms n', watch_step a st y = Ok (st', ms) /\
      short_runs (level k + 1) (done' ++ fed_bytes ks) /\ last_run done' c' /\
      cinv g' true on' c' (mp_parser st') /\ grown k c' (mp_capacity st') n' /\ (requests ms + n' = n)%nat).
  { destruct y as [bs|on'|g'|]; cbn [watch_step].
    - destruct (watch_bytes_grown a k g on (fed_bytes ks) bs A K4 K n done c st) as (s & ms & c' & n' & E & I' & S' & L' & R'); trivial.
      exists (done ++ bs), g, on, c', s, ms, n'. rewrite <- app_assoc. auto 10.
    - exists done, g, on', c, (mkMP (enable_callbacks (mp_parser st) on') (mp_capacity st)), [], n. split; [reflexivity|].
      split; [exact SR|]. split; [exact LR|]. split; [|split; [exact S0|reflexivity]].
      destruct I as (G & C & (H1 & H2 & H3 & H4)).
      split; [assumption|]. split; [assumption|]. split; [assumption|]. split; [assumption|]. split; [reflexivity|]. exact H4.
    - exists done, g', on, c, (mkMP (parser_set_group (mp_parser st) g') (mp_capacity st)), [], n. split; [reflexivity|].
      split; [exact SR|]. split; [exact LR|]. split; [|split; [exact S0|reflexivity]].
      destruct I as (G & C & (H1 & H2 & H3 & H4)).
      split; [assumption|]. split; [assumption|]. split; [reflexivity|]. split; [assumption|]. split; [assumption|]. exact H4.
    - exists done, g, on, None, (parser_reset_m a st), [], n. split; [reflexivity|].
      pose proof (grown_clear a k c _ n K4 S0) as CC.
      split; [exact SR|]. split; [apply last_run_none|].
      change (mp_capacity (parser_reset_m a st)) with (clear_capacity a (mp_capacity st)). rewrite CC.
      split; [|split; [destruct S0 as [S0|(S0 & _ & L)]; [now left|now right]|reflexivity]].
      destruct I as (G & C & (H1 & H2 & H3 & H4)).
      split; [assumption|]. split; [exact Logic.I|]. repeat split; assumption. }
  destruct ST as (done' & g' & on' & c' & s1 & m1 & n1 & E1 & SR1 & LR1 & I1 & S1 & R1). rewrite E1. cbn [bind fst snd].
  destruct (IH _ _ _ _ _ _ SR1 LR1 I1 S1) as (s2 & m2 & E2 & R2). rewrite E2. cbn [bind fst snd].
  exists s2, (m1 ++ m2). split; [reflexivity|]. rewrite requests_app. lia.
Qed.

Lemma parser_silent a g on ks : 0 <= g < 16 -> Forall valid_call ks ->
  exists st ms, watch_calls a (new_mparser g false on) ks = Ok (st, ms) /\ requests ms = 0%nat.
Proof. intros G V. exact (watch_none a ks V g on None (new_mparser g false on) (cinv_new g false on G)). Qed.

Lemma parser_doubles a g on ks k : exact_alloc a -> 0 <= g < 16 -> Forall valid_call ks -> (k <= 4)%nat ->
  short_runs (1024 * 2 ^ Z.of_nat k + 1) (fed_bytes ks) ->
  exists st ms, watch_calls a (new_mparser g true on) ks = Ok (st, ms) /\ (requests ms <= S k)%nat.
Proof.
  intros A G V K SR.
  apply (watch_grown a k ks A K V (S k) [] g on None (new_mparser g true on) SR (last_run_none []) (cinv_new g true on G)).
  right. now repeat split.
Qed.
Lemma parser_once a g on ks : exact_alloc a -> 0 <= g < 16 -> Forall valid_call ks -> short_runs 1025 (fed_bytes ks) ->
  exists st ms, watch_calls a (new_mparser g true on) ks = Ok (st, ms) /\ (requests ms <= 1)%nat.
Proof. intros A G V SR. apply (parser_doubles a g on ks 0 A G V); [lia|exact SR]. Qed.

(* ---- collectors ------------------------------------------------------------------------ *)

Lemma c7_bytes_total p n : forall b s idr, (2 + b + n <= 16)%nat -> exists r, c7_bytes p b n s idr = Ok r.
Proof.
  induction n as [|n IH]; intros b s idr H; cbn [c7_bytes]; [eexists; reflexivity|].
  unfold sysex7_payload_byte. rewrite get_byte_spec by lia. cbn [bind].
  destruct (idr =? 0). { destruct (negb _); apply IH; lia. }
  destruct (idr =? 1); [apply IH; lia|]. destruct (idr =? 2); apply IH; lia.
Qed.
Lemma c8_bytes_total p n : forall b s ids, (3 + b + n <= 16)%nat -> exists r, c8_bytes p b n s ids = Ok r.
Proof.
  induction n as [|n IH]; intros b s ids H; cbn [c8_bytes]; [eexists; reflexivity|].
  unfold sysex8_payload_byte. rewrite get_byte_spec by lia. cbn [bind].
  destruct ids; try (apply IH; lia). destruct (negb _); apply IH; lia.
Qed.
Lemma payload7_le p : is_sysex7_packet p = true -> (sysex7_payload_size p <= 6)%nat.
Proof. unfold is_sysex7_packet, sysex7_payload_size. set (n := Z.land (status p) 15). lia. Qed.

(* the capacity and the number of requests after one packet *)
Lemma lean7_total a c p : exists r, lean7 a true c p = Ok r.
Proof.
  unfold lean7. destruct (is_sysex7_packet p) eqn:IS; cbn [negb]; [|eexists; reflexivity].
  destruct (negb _ && negb _); [eexists; reflexivity|].
  match goal with |- context [if ?x then c7_reset a c else c] => set (c1 := if x then c7_reset a c else c) end.
  rewrite andb_false_r. destruct (make_room _ _ _ _ _) as [cap room]. destruct room; cbn [negb]; [|eexists; reflexivity].
  pose proof (payload7_le p IS).
  destruct (c7_bytes_total p (sysex7_payload_size p) 0 (c7_sysex c1) (c7_id_bytes c1)) as [[s idr] ->]; [lia|].
  cbn [bind]. destruct (_ || (_ =? 48)); eexists; reflexivity.
Qed.
Lemma lean8_total a c p : exists r, lean8 a true c p = Ok r.
Proof.
  unfold lean8. destruct (is_sysex8_packet p) eqn:IS; cbn [negb]; [|eexists; reflexivity].
  unfold sysex8_stream_id. rewrite get_byte_spec by lia. cbn [bind].
  destruct (negb _ && negb (c8_state c =? 2)); [eexists; reflexivity|]. destruct (negb _ && negb (_ =? c8_stream c)); [eexists; reflexivity|].
  match goal with |- context [if ?x then c8_reset a c else c] => set (c1 := if x then c8_reset a c else c) end.
  rewrite andb_false_r. destruct (make_room _ _ _ _ _) as [cap room]. destruct room; cbn [negb]; [|eexists; reflexivity].
  pose proof (payload8 p IS).
  destruct (c8_bytes_total p (sysex8_payload_size p) 0 (c8_sysex c1) (c8_id_state c1)) as [[s ids] ->]; [lia|].
  cbn [bind]. destruct (_ || (_ =? 3)); eexists; reflexivity.
Qed.

Definition fixed7 (n : Z) (c : collector7) : Prop := vec7 c /\ c7_capacity c = n /\ 1 <= c7_max c <= n.
Definition fixed8 (n : Z) (c : collector8) : Prop := vec8 c /\ c8_capacity c = n /\ 1 <= c8_max c <= n.

Lemma no_growth len n max num : 1 <= max <= n -> must_grow len n max num = false.
Proof. intros M. unfold must_grow. replace (0 <? max) with true by lia. lia. Qed.
Lemma room_fixed a len n max num : std_alloc a -> 1 <= max <= n -> fst (make_room a len n max num) = n.
Proof.
  intros (S1 & _) M. unfold make_room. destruct (n <? len + num); [|reflexivity]. cbn [fst]. replace (0 <? max) with true by lia.
  apply S1. lia.
Qed.

Lemma feed7_fixed a n c p : std_alloc a -> n <= 16384 -> fixed7 n c ->
  exists c' o, c7_feed_m a true c p = Ok (c', o, Untouched) /\ fixed7 n c'.
Proof.
  intros A N (V & C & M). destruct (lean7_total a c p) as [[[c' o] m] E].
  assert (K : m = Untouched /\ c7_capacity c' = n /\ c7_max c' = c7_max c).
  { assert (CC : clear_capacity a n = n) by (unfold clear_capacity; now replace (16384 <? n) with false by lia).
    assert (F3 : forall x y, @Ok (collector7 * list sysex * memory) x = Ok y -> fst (fst x) = fst (fst y) /\ snd x = snd y).
    { intros x y Q. assert (x = y) by congruence. now subst. }
    assert (RS : forall x, c7_capacity x = n -> c7_capacity (c7_reset a x) = n /\ c7_max (c7_reset a x) = c7_max x).
    { intros x Q. split; [|reflexivity]. change (clear_capacity a (c7_capacity x) = n). now rewrite Q. }
    revert E. unfold lean7. destruct (is_sysex7_packet p); cbn [negb].
    2:{ intros E. apply F3 in E. cbn [fst snd] in E. destruct E as [<- <-]. auto. }
    destruct (negb _ && negb _).
    { intros E. apply F3 in E. cbn [fst snd] in E. destruct E as [<- <-]. split; [reflexivity|]. now apply RS. }
    match goal with |- context [if ?x then c7_reset a c else c] => set (c1 := if x then c7_reset a c else c) end.
    assert (Q1 : c7_capacity c1 = n /\ c7_max c1 = c7_max c).
    { unfold c1. destruct (_ && negb (c7_state c =? 16)); [now apply RS|auto]. }
    destruct Q1 as [Q1 Q2]. rewrite Q1, Q2. rewrite no_growth by assumption. cbn [andb].
    pose proof (room_fixed a (size (sx_data (c7_sysex c1))) n (c7_max c) (Z.of_nat (sysex7_payload_size p)) A M) as RF.
    destruct (make_room _ _ _ _ _) as [cap room]. cbn [fst] in RF. subst cap. destruct room; cbn [negb].
    2:{ intros E. apply F3 in E. cbn [fst snd] in E. destruct E as [<- <-]. auto. }
    destruct (c7_bytes _ _ _ _ _) as [[s idr]|]; cbn [bind]; [|discriminate].
    destruct (_ || (_ =? 48)); intros E; apply F3 in E; cbn [fst snd] in E; destruct E as [<- <-]; (split; [reflexivity|]).
    - split; [exact CC|reflexivity].
    - auto. }
  destruct K as (-> & K1 & K2). exists c', o. rewrite feed7_lean by assumption. split; [exact E|].
  split; [|now rewrite K2].
  pose proof (lean7_restart a p true c) as R. rewrite E in R. eapply vec7_feed; eassumption.
Qed.
Lemma feed8_fixed a n c p : std_alloc a -> n <= 16384 -> fixed8 n c ->
  exists c' o, c8_feed_m a true c p = Ok (c', o, Untouched) /\ fixed8 n c'.
Proof.
  intros A N (V & C & M). destruct (lean8_total a c p) as [[[c' o] m] E].
  assert (K : m = Untouched /\ c8_capacity c' = n /\ c8_max c' = c8_max c).
  { assert (CC : clear_capacity a n = n) by (unfold clear_capacity; now replace (16384 <? n) with false by lia).
    assert (F3 : forall x y, @Ok (collector8 * list (sysex * Z) * memory) x = Ok y -> fst (fst x) = fst (fst y) /\ snd x = snd y).
    { intros x y Q. assert (x = y) by congruence. now subst. }
    assert (RS : forall x, c8_capacity x = n -> c8_capacity (c8_reset a x) = n /\ c8_max (c8_reset a x) = c8_max x).
    { intros x Q. split; [|reflexivity]. change (clear_capacity a (c8_capacity x) = n). now rewrite Q. }
    revert E. unfold lean8. destruct (is_sysex8_packet p); cbn [negb].
    2:{ intros E. apply F3 in E. cbn [fst snd] in E. destruct E as [<- <-]. auto. }
    destruct (sysex8_stream_id p) as [sid|]; cbn [bind]; [|discriminate].
    destruct (negb _ && negb (c8_state c =? 2)).
    { intros E. apply F3 in E. cbn [fst snd] in E. destruct E as [<- <-]. split; [reflexivity|]. now apply RS. }
    destruct (negb _ && negb (sid =? c8_stream c)).
    { intros E. apply F3 in E. cbn [fst snd] in E. destruct E as [<- <-]. auto. }
    match goal with |- context [if ?x then c8_reset a c else c] => set (c1 := if x then c8_reset a c else c) end.
    assert (Q1 : c8_capacity c1 = n /\ c8_max c1 = c8_max c).
    { unfold c1. destruct (_ && negb (c8_state c =? 1)); [now apply RS|auto]. }
    destruct Q1 as [Q1 Q2]. rewrite Q1, Q2. rewrite no_growth by assumption. cbn [andb].
    pose proof (room_fixed a (size (sx_data (c8_sysex c1))) n (c8_max c) (Z.of_nat (sysex8_payload_size p)) A M) as RF.
    destruct (make_room _ _ _ _ _) as [cap room]. cbn [fst] in RF. subst cap. destruct room; cbn [negb].
    2:{ intros E. apply F3 in E. cbn [fst snd] in E. destruct E as [<- <-]. auto. }
    destruct (c8_bytes _ _ _ _ _) as [[s idr]|]; cbn [bind]; [|discriminate].
    destruct (_ || (_ =? 3)); intros E; apply F3 in E; cbn [fst snd] in E; destruct E as [<- <-]; (split; [reflexivity|]).
    - split; [exact CC|reflexivity].
    - auto. }
  destruct K as (-> & K1 & K2). exists c', o. rewrite feed8_lean by assumption. split; [exact E|].
  split; [|now rewrite K2].
  pose proof (lean8_restart a p true c) as R. rewrite E in R. eapply vec8_feed; eassumption.
Qed.

Lemma watch7_fixed a n ks : std_alloc a -> n <= 16384 -> Forall (lowers_limit n) ks -> forall c, fixed7 n c ->
  exists c' ms, watch7_calls a c ks = Ok (c', ms) /\ requests ms = 0%nat.
Proof.
  intros A N. induction 1 as [|k ks K _ IH]; intros c F; [exists c, []; now split|]. cbn [watch7_calls].
  assert (ST : exists c', watch7_step a c k = Ok (c', Untouched) /\ fixed7 n c').
  { destruct k as [p| |s|cb]; cbn [watch7_step].
    - destruct (feed7_fixed a n c p A N F) as (c' & o & -> & F'). exists c'. now split.
    - eexists. split; [reflexivity|]. destruct F as (V & C & M). split; [now apply vec7_reset|]. split; [|exact M].
      change (clear_capacity a (c7_capacity c) = n). rewrite C. unfold clear_capacity. now replace (16384 <? n) with false by lia.
    - cbn [lowers_limit] in K. destruct F as (V & C & M). exists (c7_set_max a c s). unfold c7_set_max_m.
      replace (c7_capacity c <? s) with false by lia. rewrite andb_false_r. split; [reflexivity|].
      assert (Q : c7_capacity (c7_set_max a c s) = n).
      { unfold c7_set_max. cbn [c7_capacity]. replace (s =? 0) with false by lia. cbn [negb]. rewrite C. apply (proj1 A). lia. }
      split; [|split; [exact Q|exact K]]. unfold vec7 in *. rewrite Q. rewrite <- C. exact V.
    - eexists. split; [reflexivity|]. exact F. }
  destruct ST as (c1 & E1 & F1). rewrite E1. cbn [bind fst snd].
  destruct (IH c1 F1) as (c2 & ms & E2 & R2). rewrite E2. exists c2, (Untouched :: ms). now split.
Qed.
Lemma watch8_fixed a n ks : std_alloc a -> n <= 16384 -> Forall (lowers_limit n) ks -> forall c, fixed8 n c ->
  exists c' ms, watch8_calls a c ks = Ok (c', ms) /\ requests ms = 0%nat.
Proof.
  intros A N. induction 1 as [|k ks K _ IH]; intros c F; [exists c, []; now split|]. cbn [watch8_calls].
  assert (ST : exists c', watch8_step a c k = Ok (c', Untouched) /\ fixed8 n c').
  { destruct k as [p| |s|cb]; cbn [watch8_step].
    - destruct (feed8_fixed a n c p A N F) as (c' & o & -> & F'). exists c'. now split.
    - eexists. split; [reflexivity|]. destruct F as (V & C & M). split; [now apply vec8_reset|]. split; [|exact M].
      change (clear_capacity a (c8_capacity c) = n). rewrite C. unfold clear_capacity. now replace (16384 <? n) with false by lia.
    - cbn [lowers_limit] in K. destruct F as (V & C & M). exists (c8_set_max a c s). unfold c8_set_max_m.
      replace (c8_capacity c <? s) with false by lia. rewrite andb_false_r. split; [reflexivity|].
      assert (Q : c8_capacity (c8_set_max a c s) = n).
      { unfold c8_set_max. cbn [c8_capacity]. replace (s =? 0) with false by lia. cbn [negb]. rewrite C. apply (proj1 A). lia. }
      split; [|split; [exact Q|exact K]]. unfold vec8 in *. rewrite Q. rewrite <- C. exact V.
    - eexists. split; [reflexivity|]. exact F. }
  destruct ST as (c1 & E1 & F1). rewrite E1. cbn [bind fst snd].
  destruct (IH c1 F1) as (c2 & ms & E2 & R2). rewrite E2. exists c2, (Untouched :: ms). now split.
Qed.

Lemma limited_silent7 a n cb ks : exact_alloc a -> 0 < n <= 16384 -> Forall (lowers_limit n) ks ->
  exists c ms, watch7_calls a (new_collector7 cb) (KSetMax n :: ks) = Ok (c, Obtained :: ms) /\ requests ms = 0%nat.
Proof.
  intros [A X] N F. cbn [watch7_calls watch7_step]. unfold c7_set_max_m.
  replace (negb (n =? 0) && (c7_capacity (new_collector7 cb) <? n)) with true by (cbn [new_collector7 c7_capacity]; lia).
  cbn [bind fst snd].
  destruct (watch7_fixed a n ks A ltac:(lia) F (c7_set_max a (new_collector7 cb) n)) as (c & ms & E & R).
  { assert (Q : c7_capacity (c7_set_max a (new_collector7 cb) n) = n).
    { unfold c7_set_max. cbn [c7_capacity new_collector7]. replace (n =? 0) with false by lia. apply X. lia. }
    split; [|split; [exact Q|cbn [c7_set_max c7_max]; lia]]. unfold vec7. rewrite Q.
    change (sx_data (c7_sysex (c7_set_max a (new_collector7 cb) n))) with (@nil Z). change (0 <= n). lia. }
  rewrite E. exists c, ms. now split.
Qed.
Lemma limited_silent8 a n cb ks : exact_alloc a -> 0 < n <= 16384 -> Forall (lowers_limit n) ks ->
  exists c ms, watch8_calls a (new_collector8 cb) (KSetMax n :: ks) = Ok (c, Obtained :: ms) /\ requests ms = 0%nat.
Proof.
  intros [A X] N F. cbn [watch8_calls watch8_step]. unfold c8_set_max_m.
  replace (negb (n =? 0) && (c8_capacity (new_collector8 cb) <? n)) with true by (cbn [new_collector8 c8_capacity]; lia).
  cbn [bind fst snd].
  destruct (watch8_fixed a n ks A ltac:(lia) F (c8_set_max a (new_collector8 cb) n)) as (c & ms & E & R).
  { assert (Q : c8_capacity (c8_set_max a (new_collector8 cb) n) = n).
    { unfold c8_set_max. cbn [c8_capacity new_collector8]. replace (n =? 0) with false by lia. apply X. lia. }
    split; [|split; [exact Q|cbn [c8_set_max c8_max]; lia]]. unfold vec8. rewrite Q.
    change (sx_data (c8_sysex (c8_set_max a (new_collector8 cb) n))) with (@nil Z). change (0 <= n). lia. }
  rewrite E. exists c, ms. now split.
Qed.

(* ---- collectors without limit ----------------------------------------------------------- *)

Definition sizes : list Z := [0; 128; 256; 512; 1024; 2048; 4096; 8192; 16384].
Definition remaining (cap : Z) : nat :=
  if cap <? 128 then 8 else if cap <? 256 then 7 else if cap <? 512 then 6 else if cap <? 1024 then 5
  else if cap <? 2048 then 4 else if cap <? 4096 then 3 else if cap <? 8192 then 2 else if cap <? 16384 then 1 else 0.

Lemma sizes_clear a cap : In cap sizes -> clear_capacity a cap = cap.
Proof. intros I. unfold clear_capacity. cbn [sizes In] in I. now replace (16384 <? cap) with false by lia. Qed.

Lemma sizes_grow a len cap num : exact_alloc a -> In cap sizes -> len + num <= 16384 ->
  exists cap', make_room a len cap 0 num = (cap', true) /\ In cap' sizes /\
    (requests [if must_grow len cap 0 num then Obtained else Untouched] + remaining cap' <= remaining cap)%nat.
Proof.
  intros [A X] I L. unfold make_room, must_grow. change (0 <? 0) with false. cbv iota. cbn [andb negb].
  destruct (Z.ltb_spec cap (len + num)) as [G|G]; cbn [andb].
  2:{ exists cap. split; [reflexivity|]. split; [exact I|]. cbn [requests]. lia. }
  assert (B : cap < Z.max 128 (2 * cap)) by (cbn [sizes In] in I; lia).
  exists (Z.max 128 (2 * cap)). rewrite (X cap (Z.max 128 (2 * cap))) by assumption. split; [reflexivity|].
  replace (cap <? Z.max 128 (2 * cap)) with true by lia. cbn [requests].
  cbn [sizes In] in I.
  repeat (destruct I as [<-|I]; [try lia; (split; [vm_compute; tauto|vm_compute; lia])|]). contradiction.
Qed.

Definition grown7 (n : Z) (c : collector7) : Prop :=
  vec7 c /\ c7_max c = 0 /\ size (sx_data (c7_sysex c)) <= n /\ In (c7_capacity c) sizes /\
  (c7_state c = 0x10 -> size (sx_data (c7_sysex c)) = 0).
Definition grown8 (n : Z) (c : collector8) : Prop :=
  vec8 c /\ c8_max c = 0 /\ size (sx_data (c8_sysex c)) <= n /\ In (c8_capacity c) sizes /\
  (c8_state c = 1 -> size (sx_data (c8_sysex c)) = 0).

Lemma grown7_reset a n c x : std_alloc a -> grown7 n c -> 0 <= x -> grown7 x (c7_reset a c).
Proof.
  intros A (V & M & _ & I & _) X. split; [now apply vec7_reset|]. split; [exact M|]. split; [exact X|].
  split; [|reflexivity]. change (In (clear_capacity a (c7_capacity c)) sizes). now rewrite sizes_clear.
Qed.
Lemma grown8_reset a n c x : std_alloc a -> grown8 n c -> 0 <= x -> grown8 x (c8_reset a c).
Proof.
  intros A (V & M & _ & I & _) X. split; [now apply vec8_reset|]. split; [exact M|]. split; [exact X|].
  split; [|reflexivity]. change (In (clear_capacity a (c8_capacity c)) sizes). now rewrite sizes_clear.
Qed.

Lemma feed7_grown a n c p x : exact_alloc a -> grown7 n c -> 0 <= n -> wf_packet p -> content7 p = Some x ->
  let n' := (if ct_format x <? 2 then 0 else n) + size (ct_payload x) in n' <= 16384 ->
  exists c' o m, c7_feed_m a true c p = Ok (c', o, m) /\ grown7 n' c' /\
    (requests [m] + remaining (c7_capacity c') <= remaining (c7_capacity c))%nat.
Proof.
  intros A G N W X n' L. assert (SA : std_alloc a) by apply A.
  assert (P0 : 0 <= size (ct_payload x)) by apply size_nonneg.
  assert (N' : 0 <= n') by (unfold n'; destruct (ct_format x <? 2); lia).
  rewrite feed7_lean by (trivial; apply G). destruct (content7_some p x W X) as (IS & ST & F & _ & _ & _ & SZ).
  unfold lean7. rewrite IS, ST. cbn [negb]. rewrite andb_false_r.
  replace ((ct_format x * 16 =? 0) || (ct_format x * 16 =? 16)) with (ct_format x <? 2) by lia.
  assert (RC : c7_capacity (c7_reset a c) = c7_capacity c) by (apply sizes_clear; apply G).
  destruct (negb (ct_format x <? 2) && negb (c7_state c =? 32)) eqn:NO.
  { exists (c7_reset a c), [], Untouched. split; [reflexivity|]. split; [now apply (grown7_reset a n)|]. rewrite RC. cbn. lia. }
  match goal with |- context [if ?x then c7_reset a c else c] => set (c1 := if x then c7_reset a c else c) end.
  assert (G1 : grown7 (if ct_format x <? 2 then 0 else n) c1 /\ c7_capacity c1 = c7_capacity c).
  { unfold c1. destruct (ct_format x <? 2) eqn:O; cbn [andb]; [|now split].
    destruct (Z.eqb_spec (c7_state c) 16) as [Q|Q]; cbn [negb].
    - split; [|reflexivity]. destruct G as (V & M & S & I & Z0). pose proof (Z0 Q). repeat (split; trivial). lia.
    - split; [apply (grown7_reset a n); trivial; lia|exact RC]. }
  destruct G1 as [(V1 & M1 & S1 & I1 & Z1) C1]. rewrite M1.
  assert (LE : size (sx_data (c7_sysex c1)) + Z.of_nat (sysex7_payload_size p) <= n') by (rewrite <- SZ; unfold n'; lia).
  destruct (sizes_grow a (size (sx_data (c7_sysex c1))) (c7_capacity c1) (Z.of_nat (sysex7_payload_size p)) A I1) as (cap & MR & IN & RQ); [lia|].
  rewrite MR. cbn [negb].
  pose proof (payload7_le p IS).
  destruct (c7_bytes_total p (sysex7_payload_size p) 0 (c7_sysex c1) (c7_id_bytes c1)) as [[s idr] BY]; [lia|].
  rewrite BY. cbn [bind].
  pose proof (proj2 (c7_bytes_room a true p _ 0 (c7_sysex c1) (c7_id_bytes c1) _ Untouched (Z.le_refl _)) _ _ BY) as SB.
  assert (VC : size (sx_data s) <= cap).
  { pose proof (size_nonneg (sx_data (c7_sysex c1))). unfold vec7 in V1.
    destruct (room_enough _ _ _ _ _ _ _ SA (conj H0 V1) (payload7 p IS) MR) as [_ K]. specialize (K eq_refl). lia. }
  rewrite C1 in RQ |- *.
  destruct (_ || (_ =? 48)).
  - eexists _, _, _. split; [reflexivity|].
    assert (CC : clear_capacity a cap = cap) by now apply sizes_clear.
    split.
    + split; [change (0 <= clear_capacity a cap); rewrite CC; pose proof (size_nonneg (sx_data s)); lia|].
      split; [reflexivity|]. split; [exact N'|]. split; [|reflexivity].
      change (In (clear_capacity a cap) sizes). now rewrite CC.
    + change (c7_capacity (c7_reset a (mkC7 s cap 0 (c7_state c1) idr (c7_has_cb c1)))) with (clear_capacity a cap).
      rewrite CC. exact RQ.
  - eexists _, _, _. split; [reflexivity|]. split; [|exact RQ].
    split; [exact VC|]. split; [reflexivity|]. split; [cbn [c7_sysex]; lia|]. split; [exact IN|]. discriminate.
Qed.
Lemma feed8_grown a n c p x : exact_alloc a -> grown8 n c -> 0 <= n -> wf_packet p -> content8 p = Some x ->
  let n' := (if ct_format x <? 2 then 0 else n) + size (ct_payload x) in n' <= 16384 ->
  exists c' o m, c8_feed_m a true c p = Ok (c', o, m) /\ grown8 n' c' /\
    (requests [m] + remaining (c8_capacity c') <= remaining (c8_capacity c))%nat.
Proof.
  intros A G N W X n' L. assert (SA : std_alloc a) by apply A.
  assert (P0 : 0 <= size (ct_payload x)) by apply size_nonneg.
  assert (N' : 0 <= n') by (unfold n'; destruct (ct_format x <? 2); lia).
  rewrite feed8_lean by (trivial; apply G). destruct (content8_some p x W X) as (IS & ST & F & SID & _ & _ & SZ).
  unfold lean8. rewrite IS, ST, SID. cbn [negb bind]. rewrite andb_false_r.
  replace ((ct_format x =? 0) || (ct_format x =? 1)) with (ct_format x <? 2) by lia.
  assert (RC : c8_capacity (c8_reset a c) = c8_capacity c) by (apply sizes_clear; apply G).
  destruct (negb (ct_format x <? 2) && negb (c8_state c =? 2)) eqn:NO.
  { exists (c8_reset a c), [], Untouched. split; [reflexivity|]. split; [now apply (grown8_reset a n)|]. rewrite RC. cbn. lia. }
  destruct (negb (ct_format x <? 2) && negb (ct_stream x =? c8_stream c)) eqn:NS.
  { exists c, [], Untouched. split; [reflexivity|]. split; [|cbn; lia].
    destruct G as (V & M & S & I & Z0). repeat (split; trivial). unfold n'. destruct (ct_format x <? 2); [discriminate|lia]. }
  match goal with |- context [if ?x then c8_reset a c else c] => set (c1 := if x then c8_reset a c else c) end.
  assert (G1 : grown8 (if ct_format x <? 2 then 0 else n) c1 /\ c8_capacity c1 = c8_capacity c).
  { unfold c1. destruct (ct_format x <? 2) eqn:O; cbn [andb]; [|now split].
    destruct (Z.eqb_spec (c8_state c) 1) as [Q|Q]; cbn [negb].
    - split; [|reflexivity]. destruct G as (V & M & S & I & Z0). pose proof (Z0 Q). repeat (split; trivial). lia.
    - split; [apply (grown8_reset a n); trivial; lia|exact RC]. }
  destruct G1 as [(V1 & M1 & S1 & I1 & Z1) C1]. rewrite M1.
  assert (LE : size (sx_data (c8_sysex c1)) + Z.of_nat (sysex8_payload_size p) <= n') by (rewrite <- SZ; unfold n'; lia).
  destruct (sizes_grow a (size (sx_data (c8_sysex c1))) (c8_capacity c1) (Z.of_nat (sysex8_payload_size p)) A I1) as (cap & MR & IN & RQ); [lia|].
  rewrite MR. cbn [negb].
  pose proof (payload8 p IS).
  destruct (c8_bytes_total p (sysex8_payload_size p) 0 (c8_sysex c1) (c8_id_state c1)) as [[s idr] BY]; [lia|].
  rewrite BY. cbn [bind].
  pose proof (proj2 (c8_bytes_room a true p _ 0 (c8_sysex c1) (c8_id_state c1) _ Untouched (Z.le_refl _)) _ _ BY) as SB.
  assert (VC : size (sx_data s) <= cap).
  { pose proof (size_nonneg (sx_data (c8_sysex c1))). unfold vec8 in V1.
    destruct (room_enough _ _ _ _ _ _ _ SA (conj H0 V1) (payload8 p IS) MR) as [_ K]. specialize (K eq_refl). lia. }
  rewrite C1 in RQ |- *. set (stream := if _ <? 2 then _ else _).
  destruct (_ || (_ =? 3)).
  - eexists _, _, _. split; [reflexivity|].
    assert (CC : clear_capacity a cap = cap) by now apply sizes_clear.
    split.
    + split; [change (0 <= clear_capacity a cap); rewrite CC; pose proof (size_nonneg (sx_data s)); lia|].
      split; [reflexivity|]. split; [exact N'|]. split; [|reflexivity].
      change (In (clear_capacity a cap) sizes). now rewrite CC.
    + change (c8_capacity (c8_reset a (mkC8 stream s cap 0 (c8_state c1) idr (c8_has_cb c1)))) with (clear_capacity a cap).
      rewrite CC. exact RQ.
  - eexists _, _, _. split; [reflexivity|]. split; [|exact RQ].
    split; [exact VC|]. split; [reflexivity|]. split; [cbn [c8_sysex]; lia|]. split; [exact IN|]. discriminate.
Qed.

Lemma requests_cons m ms : requests (m :: ms) = (requests [m] + requests ms)%nat.
Proof. destruct m; reflexivity. Qed.

Lemma watch7_grown a ks : exact_alloc a -> forall n c, 0 <= n -> grown7 n c -> messages_within content7 16384 n ks ->
  exists c' ms, watch7_calls a c ks = Ok (c', ms) /\ (requests ms <= remaining (c7_capacity c))%nat.
Proof.
  intros A. induction ks as [|k ks IH]; intros n c N G W; [exists c, []; split; [reflexivity|cbn; lia]|]. cbn [watch7_calls].
  assert (ST : exists n' c' m, watch7_step a c k = Ok (c', m) /\ 0 <= n' /\ grown7 n' c' /\ messages_within content7 16384 n' ks /\
    (requests [m] + remaining (c7_capacity c') <= remaining (c7_capacity c))%nat).
  { destruct k as [p| |s|cb]; cbn [watch7_step messages_within] in *.
    - destruct W as [WP W]. destruct (content7 p) as [x|] eqn:X.
      + destruct W as [L W]. destruct (feed7_grown a n c p x A G N WP X L) as (c' & o & m & E & G' & R').
        rewrite E. eexists _, c', m. split; [reflexivity|]. split; [|split; [exact G'|split; [exact W|exact R']]].
        pose proof (size_nonneg (ct_payload x)). destruct (ct_format x <? 2); lia.
      + rewrite c7_skip_m by assumption. exists n, c, Untouched. repeat (split; [trivial|]). cbn. lia.
    - eexists 0, (c7_reset a c), Untouched. split; [reflexivity|]. split; [lia|].
      split; [apply (grown7_reset a n); trivial; [apply A|lia]|]. split; [exact W|].
      change (c7_capacity (c7_reset a c)) with (clear_capacity a (c7_capacity c)). rewrite sizes_clear by apply G. cbn. lia.
    - contradiction.
    - exists n, (c7_set_callback c cb), Untouched. repeat (split; [trivial|]). cbn. lia. }
  destruct ST as (n' & c1 & m & E1 & N1 & G1 & W1 & R1). rewrite E1. cbn [bind fst snd].
  destruct (IH n' c1 N1 G1 W1) as (c2 & ms & E2 & R2). rewrite E2. cbn [bind fst snd].
  exists c2, (m :: ms). split; [reflexivity|]. rewrite requests_cons. lia.
Qed.
Lemma watch8_grown a ks : exact_alloc a -> forall n c, 0 <= n -> grown8 n c -> messages_within content8 16384 n ks ->
  exists c' ms, watch8_calls a c ks = Ok (c', ms) /\ (requests ms <= remaining (c8_capacity c))%nat.
Proof.
  intros A. induction ks as [|k ks IH]; intros n c N G W; [exists c, []; split; [reflexivity|cbn; lia]|]. cbn [watch8_calls].
  assert (ST : exists n' c' m, watch8_step a c k = Ok (c', m) /\ 0 <= n' /\ grown8 n' c' /\ messages_within content8 16384 n' ks /\
    (requests [m] + remaining (c8_capacity c') <= remaining (c8_capacity c))%nat).
  { destruct k as [p| |s|cb]; cbn [watch8_step messages_within] in *.
    - destruct W as [WP W]. destruct (content8 p) as [x|] eqn:X.
      + destruct W as [L W]. destruct (feed8_grown a n c p x A G N WP X L) as (c' & o & m & E & G' & R').
        rewrite E. eexists _, c', m. split; [reflexivity|]. split; [|split; [exact G'|split; [exact W|exact R']]].
        pose proof (size_nonneg (ct_payload x)). destruct (ct_format x <? 2); lia.
      + rewrite c8_skip_m by assumption. exists n, c, Untouched. repeat (split; [trivial|]). cbn. lia.
    - eexists 0, (c8_reset a c), Untouched. split; [reflexivity|]. split; [lia|].
      split; [apply (grown8_reset a n); trivial; [apply A|lia]|]. split; [exact W|].
      change (c8_capacity (c8_reset a c)) with (clear_capacity a (c8_capacity c)). rewrite sizes_clear by apply G. cbn. lia.
    - contradiction.
    - exists n, (c8_set_callback c cb), Untouched. repeat (split; [trivial|]). cbn. lia. }
  destruct ST as (n' & c1 & m & E1 & N1 & G1 & W1 & R1). rewrite E1. cbn [bind fst snd].
  destruct (IH n' c1 N1 G1 W1) as (c2 & ms & E2 & R2). rewrite E2. cbn [bind fst snd].
  exists c2, (m :: ms). split; [reflexivity|]. rewrite requests_cons. lia.
Qed.

Lemma lifetime7 a cb ks : exact_alloc a -> messages_within content7 16384 0 ks ->
  exists c ms, watch7_calls a (new_collector7 cb) ks = Ok (c, ms) /\ (requests ms <= 8)%nat.
Proof.
  intros A W. apply (watch7_grown a ks A 0 (new_collector7 cb)); trivial; [lia|].
  repeat split; trivial; try (vm_compute; congruence). now left.
Qed.
Lemma lifetime8 a cb ks : exact_alloc a -> messages_within content8 16384 0 ks ->
  exists c ms, watch8_calls a (new_collector8 cb) ks = Ok (c, ms) /\ (requests ms <= 8)%nat.
Proof.
  intros A W. apply (watch8_grown a ks A 0 (new_collector8 cb)); trivial; [lia|].
  repeat split; trivial; try (vm_compute; congruence). now left.
Qed.

(* ---- parser: which calls ask, in terms of the bytes fed --------------------------------------- *)

Definition ctx_status (c : calls_context) : option Z := match c with Some (x0, _) => Some (f_byte x0) | None => None end.

Lemma watch_bytes_status a g cb on bs : Forall is_u8 bs -> forall c st, cinv g cb on c (mp_parser st) ->
  exists st' ms c', watch_bytes a st bs = Ok (st', ms) /\ cinv g cb on c' (mp_parser st') /\
    ctx_status c' = status_after (ctx_status c) bs.
Proof.
  induction 1 as [|b bs B _ IH]; intros c st I; [exists st, [], c; split; [reflexivity|]; split; [exact I|reflexivity]|].
  destruct (cinv_feed g cb on c (mp_parser st) b B I) as (s1 & E1 & I1). cbn [watch_bytes].
  pose proof (feed_m_feed a st b) as F. destruct (feed_m a true st b) as [[[s2 o] m]|f] eqn:E; [|congruence].
  destruct F as [F M]. assert (mp_parser s2 = s1) by congruence. subst s1.
  destruct (IH _ _ I1) as (s3 & ms & c3 & E3 & I3 & R3). exists s3, (m :: ms), c3. cbn [bind fst snd].
  rewrite E3. split; [reflexivity|]. split; [exact I3|]. rewrite R3. unfold status_after. cbn [fold_left]. f_equal.
  unfold is_u8 in B. unfold calls_ctx_step, is_rt. cbn [f_byte].
  destruct (Z.leb_spec 0xF8 b); [replace ((0x80 <=? b) && (b <? 0xF8)) with false by lia; reflexivity|].
  destruct (Z.leb_spec 0x80 b); [now replace (b <? 0xF8) with true by lia|]. cbn [andb]. destruct c as [[x0 ds]|]; reflexivity.
Qed.
Lemma watch_status a cb ks : Forall valid_call ks -> forall g on c st, cinv g cb on c (mp_parser st) ->
  exists g' on' st' ms c', watch_calls a st ks = Ok (st', ms) /\ cinv g' cb on' c' (mp_parser st') /\
    ctx_status c' = last_status (ctx_status c) ks.
Proof.
  induction 1 as [|k ks K _ IH]; intros g on c st I; [exists g, on, st, [], c; split; [reflexivity|]; split; [exact I|reflexivity]|]. cbn [watch_calls].
  assert (ST : exists g' on' c' st' ms, watch_step a st k = Ok (st', ms) /\ cinv g' cb on' c' (mp_parser st') /\
    ctx_status c' = last_status (ctx_status c) [k]).
  { destruct I as (G & C & (H1 & H2 & H3 & H4)). destruct k as [bs|on'|g'|]; cbn [watch_step].
    - destruct (watch_bytes_status a g cb on bs K c st) as (s & ms & c' & E & I' & R); [now repeat split|].
      exists g, on, c', s, ms. auto.
    - exists g, on', c, (mkMP (enable_callbacks (mp_parser st) on') (mp_capacity st)), []. split; [reflexivity|]. split; [|reflexivity].
      split; [assumption|]. split; [assumption|]. split; [assumption|]. split; [assumption|]. split; [reflexivity|]. exact H4.
    - exists g', on, c, (mkMP (parser_set_group (mp_parser st) g') (mp_capacity st)), []. split; [reflexivity|]. split; [|reflexivity].
      split; [assumption|]. split; [assumption|]. split; [reflexivity|]. split; [assumption|]. split; [assumption|]. exact H4.
    - exists g, on, None, (parser_reset_m a st), []. split; [reflexivity|]. split; [|reflexivity].
      split; [assumption|]. split; [exact Logic.I|]. repeat split; assumption. }
  destruct ST as (g' & on' & c' & s1 & m1 & E1 & I1 & R1). rewrite E1. cbn [bind fst snd].
  destruct (IH _ _ _ _ I1) as (g2 & on2 & s2 & m2 & c2 & E2 & I2 & R2). rewrite E2. cbn [bind fst snd].
  exists g2, on2, s2, (m1 ++ m2), c2. split; [reflexivity|]. split; [exact I2|]. rewrite R2, R1. reflexivity.
Qed.

Lemma parser_asks a g cb on ks ok b : 0 <= g < 16 -> Forall valid_call ks -> is_u8 b ->
  exists st ms st' o m, watch_calls a (new_mparser g cb on) ks = Ok (st, ms) /\ feed_m a ok st b = Ok (st', o, m) /\
    (m <> Untouched -> cb = true /\ (b = 0xF0 \/ (b < 0x80 /\ last_status None ks = Some 0xF0))).
Proof.
  intros G V B. destruct (watch_status a cb ks V g on None (new_mparser g cb on) (cinv_new g cb on G))
    as (g' & on' & st & ms & c & E & I & S). cbn [ctx_status] in S.
  destruct (cinv_feed g' cb on' c (mp_parser st) b B I) as (s1 & E1 & _).
  pose proof (feed_m_restart a b ok st) as R. destruct (feed_m a ok st b) as [[[st' o] m]|f] eqn:F; [|congruence].
  exists st, ms, st', o, m. split; [exact E|]. split; [exact F|]. intros M.
  destruct (feed_asks _ _ _ _ _ _ _ F M) as [HC [D|[D T]]].
  - split; [|now left]. destruct I as (_ & _ & (_ & H2 & _)). congruence.
  - destruct I as (G' & C & I). split; [destruct I as (_ & H2 & _); congruence|]. right. split; [exact D|]. rewrite <- S.
    destruct c as [[x0 ds]|].
    + pose proof (inv_not_data _ _ _ _ _ _ _ _ (abs_group_ok _ C) I) as ND. cbn [ctx_status]. f_equal. lia.
    + destruct I as (_ & _ & _ & P). cbn [abs_ctx] in P. rewrite P in T. discriminate.
Qed.
