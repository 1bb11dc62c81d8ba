(* Proofs about the jitter reduction clock follower. *)
From Coq Require Import ZArith List Bool Lia.
From Verif Require Import Base Bits Jitter JitterSpec.
Import ListNotations.
Local Open Scope Z_scope.
Local Open Scope res_scope.

(* ---- arithmetic ------------------------------------------------------------------ *)

Lemma i64_eq x y : i64 x = Ok y -> y = x.
Proof. unfold i64. destruct (_ && _); congruence. Qed.

Lemma i64_in x : - 9223372036854775808 <= x <= 9223372036854775807 -> i64 x = Ok x.
Proof.
  intros H. unfold i64. destruct (Z.leb_spec (-9223372036854775808) x); [|lia].
  destruct (Z.leb_spec x 9223372036854775807); [reflexivity|lia].
Qed.

Lemma ts_diff_mod a b : is_u16 a -> is_u16 b -> ts_diff a b = (a - b) mod 65536.
Proof. unfold is_u16, ts_diff, u16. intros. destruct (Z.ltb_spec (a - b) 0); dlia. Qed.

Lemma ts_diff_range a b : 0 <= ts_diff a b < 65536.
Proof. unfold ts_diff, u16. apply Z.mod_pos_bound. lia. Qed.

Lemma ts_diff_back a b : is_u16 a -> is_u16 b -> (b + ts_diff a b) mod 65536 = a.
Proof. intros Ha Hb. rewrite ts_diff_mod by assumption. unfold is_u16 in *. dlia. Qed.

Lemma ts_diff_ticks k l : l <= k < l + 65536 -> ts_diff (k mod 65536) (l mod 65536) = k - l.
Proof.
  intros. rewrite ts_diff_mod by (unfold is_u16; apply Z.mod_pos_bound; lia).
  rewrite <- Zminus_mod. apply Z.mod_small. lia.
Qed.

Lemma quot_12_10 j : 0 <= j -> Z.quot (j * 12) 10 = 12 * j / 10.
Proof. intros. rewrite Z.quot_div_nonneg by lia. f_equal. lia. Qed.

(* ---- what the calls do when nothing overflows ------------------------------------- *)

Definition clock_effect (s : follower) (t ts : Z) (s' : follower) : Prop :=
  zero s' = zero s /\ clock_ts s' = ts /\
  ((clock_time s = zero s /\ clock_time s' = t /\ message_time s' = t /\
    jitter s' = jitter s /\ security_offset s' = security_offset s) \/
   (clock_time s <> zero s /\
    let e := clock_time s + 32000 * ts_diff ts (clock_ts s) in
    t < e /\ clock_time s' = t /\ message_time s' = Z.max (message_time s) t /\
    jitter s' = jitter s + (e - t) /\
    security_offset s' = Z.max (security_offset s) (Z.quot (jitter s' * 12) 10)) \/
   (clock_time s <> zero s /\
    let e := clock_time s + 32000 * ts_diff ts (clock_ts s) in
    e <= t /\ clock_time s' = e /\ message_time s' = t /\
    ((t - e <= jitter s /\ jitter s' = jitter s /\ security_offset s' = security_offset s) \/
     (jitter s < t - e /\ jitter s' = t - e /\
      security_offset s' = Z.max (security_offset s) (Z.quot (jitter s' * 12) 10))))).

Lemma recalc_inv s s' : recalc_security_offset s = Ok s' ->
  s' = mkF (zero s) (clock_ts s) (clock_time s) (message_time s) (jitter s)
         (Z.max (security_offset s) (Z.quot (jitter s * 12) 10)).
Proof.
  unfold recalc_security_offset. destruct (i64 _) as [v|] eqn:E; [|discriminate]. cbn [bind].
  apply i64_eq in E. subst v. destruct s as [z c ct m j o]. cbn [zero clock_ts clock_time message_time jitter security_offset].
  destruct (Z.ltb_spec o (Z.quot (j * 12) 10)); intros E; injection E as <-; f_equal; lia.
Qed.

Lemma process_clock_inv s t ts s' : process_clock s t ts = Ok s' -> clock_effect s t ts s'.
Proof.
  unfold process_clock, clock_effect. destruct (Z.eqb_spec (clock_time s) (zero s)) as [Z0|Z0].
  { intros E. injection E as <-. cbn [zero clock_ts clock_time message_time jitter security_offset].
    repeat split. left. repeat split; assumption. }
  unfold to_duration. destruct (i64 (_ * 32000)) as [d|] eqn:Ed; [|discriminate]. cbn [bind].
  apply i64_eq in Ed. subst d.
  destruct (i64 (clock_time s + _)) as [e|] eqn:Ee; [|discriminate]. cbn [bind].
  apply i64_eq in Ee. destruct (i64 (t - e)) as [j|] eqn:Ej; [|discriminate]. cbn [bind].
  apply i64_eq in Ej. subst j.
  replace (clock_time s + 32000 * ts_diff ts (clock_ts s)) with e by lia.
  unfold update_stats. destruct (Z.ltb_spec t e) as [L|L].
  - cbn [jitter]. destruct (Z.ltb_spec (t - e) 0); [|lia].
    destruct (i64 (jitter s - _)) as [m|] eqn:Em; [|discriminate]. cbn [bind].
    apply i64_eq in Em. subst m. intros E. apply recalc_inv in E. subst s'. unfold with_jitter.
    cbn [zero clock_ts clock_time message_time jitter security_offset].
    repeat split. right. left. repeat split; try assumption; try lia.
    destruct (Z.ltb_spec (message_time s) t); lia.
  - cbn [jitter]. destruct (Z.ltb_spec (t - e) 0); [lia|].
    destruct (Z.ltb_spec (jitter s) (t - e)) as [J|J]; intros E.
    + apply recalc_inv in E. subst s'. unfold with_jitter.
      cbn [zero clock_ts clock_time message_time jitter security_offset].
      repeat split. right. right. repeat split; try assumption. right. auto.
    + injection E as <-. cbn [zero clock_ts clock_time message_time jitter security_offset].
      repeat split. right. right. repeat split; try assumption. left. auto.
Qed.

Definition message_effect (s : follower) (t ts : Z) (s' : follower) (r : Z) : Prop :=
  zero s' = zero s /\ clock_ts s' = clock_ts s /\ clock_time s' = clock_time s /\
  jitter s' = jitter s /\ security_offset s' = security_offset s /\
  r = message_time s' + security_offset s /\
  (clock_time s = zero s /\ message_time s' = t \/
   clock_time s <> zero s /\
   message_time s' = Z.max (message_time s) (clock_time s + 32000 * ts_diff ts (clock_ts s))).

Lemma schedule_inv s t ts s' r : schedule_message s t ts = Ok (s', r) -> message_effect s t ts s' r.
Proof.
  unfold schedule_message, message_effect. destruct (Z.eqb_spec (clock_time s) (zero s)) as [Z0|Z0]; cbn [negb bind].
  - destruct (i64 _) as [x|] eqn:E; [|discriminate]. cbn [bind]. apply i64_eq in E. subst x.
    intros E. apply (f_equal (fun o => match o with Ok p => p | Fault _ => (s', r) end)) in E.
    assert (E1 := f_equal fst E). assert (E2 := f_equal snd E). cbn [fst snd] in *. subst s' r.
    cbn [zero clock_ts clock_time message_time jitter security_offset]. repeat split. left. auto.
  - unfold to_duration. destruct (i64 (_ * 32000)) as [d|] eqn:Ed; [|discriminate]. cbn [bind].
    apply i64_eq in Ed. subst d.
    destruct (i64 (clock_time s + _)) as [e|] eqn:Ee; [|discriminate]. cbn [bind]. apply i64_eq in Ee.
    destruct (i64 _) as [x|] eqn:E; [|discriminate]. cbn [bind]. apply i64_eq in E. subst x.
    intros E. apply (f_equal (fun o => match o with Ok p => p | Fault _ => (s', r) end)) in E.
    assert (E1 := f_equal fst E). assert (E2 := f_equal snd E). cbn [fst snd] in *. subst s' r.
    cbn [zero clock_ts clock_time message_time jitter security_offset]. repeat split. right.
    split; [assumption|]. destruct (Z.ltb_spec (message_time s) e); lia.
Qed.

Lemma step_clock s t ts s' o : step s (Clock t ts) = Ok (s', o) -> o = None /\ clock_effect s t ts s'.
Proof.
  unfold step. destruct (process_clock s t ts) as [x|] eqn:E; [|discriminate]. cbn [bind].
  intros H. injection H as <- <-. split; [reflexivity|]. now apply process_clock_inv.
Qed.

Lemma step_message s t ts s' o : step s (Message t ts) = Ok (s', o) ->
  exists r, o = Some (r, security_offset s') /\ message_effect s t ts s' r.
Proof.
  unfold step. destruct (schedule_message s t ts) as [[x r]|] eqn:E; [|discriminate]. cbn [bind fst snd].
  intros H. injection H as <- <-. exists r. split; [reflexivity|]. now apply schedule_inv.
Qed.

Lemma run_cons s e es s' o : run s (e :: es) = Ok (s', o) ->
  exists s1 x o1, step s e = Ok (s1, x) /\ run s1 es = Ok (s', o1) /\
    o = match x with Some y => y :: o1 | None => o1 end.
Proof.
  cbn [run]. destruct (step s e) as [[s1 x]|]; [|discriminate]. cbn [bind fst snd].
  destruct (run s1 es) as [[s2 o1]|] eqn:R; [|discriminate]. cbn [bind fst snd].
  intros H. injection H as <- <-. exists s1, x, o1. auto.
Qed.

Lemma run_app s es fs s' o : run s (es ++ fs) = Ok (s', o) ->
  exists s1 o1 o2, run s es = Ok (s1, o1) /\ run s1 fs = Ok (s', o2) /\ o = o1 ++ o2.
Proof.
  revert s o. induction es as [|e es IH]; intros s o H.
  - exists s, [], o. auto.
  - cbn [app] in H. apply run_cons in H as (s1 & x & o1 & A & B & ->).
    destruct (IH _ _ B) as (s2 & a & b & C & D & ->).
    exists s2, (match x with Some y => y :: a | None => a end), b.
    cbn [run]. rewrite A. cbn [bind fst snd]. rewrite C. cbn [bind fst snd].
    repeat split; [assumption|]. now destruct x.
Qed.

(* ---- tracking --------------------------------------------------------------------- *)

Definition tracks (s : follower) (D : list Z) (last : option (Z * Z)) : Prop :=
  match last with
  | None => D = [] /\ clock_time s = zero s /\ jitter s = 0 /\ security_offset s = 2000000
  | Some (k, t) =>
      zero s < clock_time s /\ clock_ts s = k mod 65536 /\ t <= message_time s /\
      exists m M, is_min D m /\ is_max D M /\ clock_time s = tick_ns * k + m /\
        jitter s = M - m /\ security_offset s = Z.max 2000000 (12 * jitter s / 10)
  end.

Lemma is_min_snoc l m x : is_min l m -> is_min (l ++ [x]) (Z.min m x).
Proof.
  intros [A B]. split.
  - apply in_app_iff. destruct (Z.min_spec m x) as [[_ ->]|[_ ->]]; [left; assumption|right; now left].
  - intros y H. apply in_app_iff in H as [H|[<-|[]]]; [specialize (B y H)|]; lia.
Qed.

Lemma is_max_snoc l m x : is_max l m -> is_max (l ++ [x]) (Z.max m x).
Proof.
  intros [A B]. split.
  - apply in_app_iff. destruct (Z.max_spec m x) as [[_ ->]|[_ ->]]; [right; now left|left; assumption].
  - intros y H. apply in_app_iff in H as [H|[<-|[]]]; [specialize (B y H)|]; lia.
Qed.

Lemma is_min_1 x : is_min [x] x.
Proof. split; [now left|]. intros y [<-|[]]. lia. Qed.
Lemma is_max_1 x : is_max [x] x.
Proof. split; [now left|]. intros y [<-|[]]. lia. Qed.

Lemma min_le_max l m M : is_min l m -> is_max l M -> m <= M.
Proof. intros [A _] [_ B]. now apply B. Qed.

Lemma tick_ns_eq : tick_ns = 32000. Proof. reflexivity. Qed.

Definition last_tick (o : option (Z * Z)) : option Z := option_map fst o.

Lemma tracks_step x s D last s' o : tracks s D last -> in_range (last_tick last) [x] ->
  received_after (zero s) [x] -> step s (arrival x) = Ok (s', o) ->
  tracks s' (D ++ delays [x]) (last_clock last [x]) /\ zero s' = zero s.
Proof.
  intros T R A H. destruct x as [k t|k t]; cbn [arrival delays last_clock] in *.
  - apply step_clock in H as [_ (Hz & Hts & H)]. split; [|assumption].
    cbn [in_range received_after] in R, A. destruct R as [R _], A as [A _].
    destruct last as [[k0 t0]|]; cbn [last_tick option_map fst tracks] in *.
    + destruct T as (T1 & T2 & T3 & m & M & Hm & HM & T4 & T5 & T6).
      destruct H as [[H _]|[[_ H]|[_ H]]]; [lia| |]; cbv zeta in H; rewrite T2, ts_diff_ticks in H by assumption;
        rewrite T4 in H.
      * destruct H as (L & H1 & H2 & H3 & H4). change tick_ns with 32000 in *. repeat split; try lia.
        exists (Z.min m (t - 32000 * k)), (Z.max M (t - 32000 * k)).
        pose proof (min_le_max _ _ _ Hm HM).
        split; [now apply is_min_snoc|]. split; [now apply is_max_snoc|].
        rewrite H4, quot_12_10 by lia. change tick_ns with 32000 in *. repeat split; try lia.
      * destruct H as (L & H1 & H2 & H3). change tick_ns with 32000 in *. repeat split; try lia.
        exists (Z.min m (t - 32000 * k)), (Z.max M (t - 32000 * k)).
        pose proof (min_le_max _ _ _ Hm HM).
        split; [now apply is_min_snoc|]. split; [now apply is_max_snoc|].
        change tick_ns with 32000 in *.
        destruct H3 as [(J & H3 & H4)|(J & H3 & H4)]; rewrite ?H4, ?quot_12_10 by lia;
          repeat split; try lia; try (rewrite H3; lia).
    + destruct T as (-> & T1 & T2 & T3).
      destruct H as [(_ & H1 & H2 & H3 & H4)|[[H _]|[H _]]]; [|lia|lia].
      repeat split; try lia.
      exists (t - tick_ns * k), (t - tick_ns * k). split; [apply is_min_1|]. split; [apply is_max_1|].
      rewrite H3, H4, T2, T3. repeat split; try lia.
  - apply step_message in H as (r & _ & Hz & Hts & Hct & Hj & Ho & _ & H). rewrite app_nil_r.
    split; [|assumption]. destruct last as [[k0 t0]|]; cbn [tracks] in *.
    + destruct T as (T1 & T2 & T3 & m & M & Hm & HM & T4 & T5 & T6).
      split; [lia|]. split; [congruence|]. split; [destruct H as [[H _]|[_ H]]; lia|].
      exists m, M. rewrite Hj, Ho, Hct. auto.
    + destruct T as (-> & T1 & T2 & T3). repeat split; lia.
Qed.

Lemma tracks_run xs : forall s D last s' o, tracks s D last -> in_range (last_tick last) xs ->
  received_after (zero s) xs -> run s (map arrival xs) = Ok (s', o) ->
  tracks s' (D ++ delays xs) (last_clock last xs) /\ zero s' = zero s.
Proof.
  induction xs as [|x xs IH]; intros s D last s' o T R A H.
  - cbn [map run] in H. injection H as <- <-. cbn [delays last_clock]. now rewrite app_nil_r.
  - cbn [map] in H. apply run_cons in H as (s1 & y & o1 & S & Hr & _).
    assert (R1 : in_range (last_tick last) [x]).
    { destruct x; cbn [in_range] in *; tauto. }
    assert (A1 : received_after (zero s) [x]).
    { destruct x; cbn [received_after] in *; tauto. }
    destruct (tracks_step x s D last s1 y T R1 A1 S) as [T1 Z1].
    assert (R2 : in_range (last_tick (last_clock last [x])) xs).
    { destruct x; cbn [in_range last_clock last_tick option_map fst] in *; tauto. }
    assert (A2 : received_after (zero s1) xs).
    { rewrite Z1. destruct x; cbn [received_after] in *; tauto. }
    destruct (IH _ _ _ _ _ T1 R2 A2 Hr) as [T2 Z2]. split; [|congruence].
    replace (delays (x :: xs)) with (delays [x] ++ delays xs) by (destruct x; reflexivity).
    rewrite app_assoc. destruct x; exact T2.
Qed.

Lemma tracks_new z : tracks (new_follower z) [] None.
Proof. repeat split. Qed.

(* the state after any history *)
Lemma tracking z xs s o : in_range None xs -> received_after z xs ->
  run (new_follower z) (map arrival xs) = Ok (s, o) ->
  (delays xs = [] /\ jitter s = 0 /\ security_offset s = 2000000) \/
  exists m M, is_min (delays xs) m /\ is_max (delays xs) M /\
    jitter s = M - m /\ security_offset s = Z.max 2000000 (12 * (M - m) / 10).
Proof.
  intros R A H. destruct (tracks_run xs _ _ None _ _ (tracks_new z) R A H) as [T _].
  cbn [app] in T. destruct (last_clock None xs) as [[k t]|]; cbn [tracks] in T.
  - destruct T as (_ & _ & _ & m & M & Hm & HM & _ & J & O). right. exists m, M.
    rewrite <- J. auto.
  - destruct T as (-> & _ & J & O). left. auto.
Qed.

(* a message after any history with at least one clock *)
Lemma last_clock_or xs : forall o,
  last_clock o xs = match last_clock None xs with Some c => Some c | None => o end.
Proof.
  induction xs as [|[k t|k t] xs IH]; intros o; cbn [last_clock]; [reflexivity| |apply IH].
  rewrite (IH (Some (k, t))). now destruct (last_clock None xs).
Qed.

Lemma in_range_app xs ys : forall l, in_range l (xs ++ ys) ->
  in_range l xs /\ in_range (match last_clock None xs with Some (k, _) => Some k | None => l end) ys.
Proof.
  induction xs as [|[k t|k t] xs IH]; intros l; cbn [app in_range last_clock].
  - tauto.
  - intros [A B]. destruct (IH _ B) as [C D]. split; [tauto|].
    rewrite last_clock_or. destruct (last_clock None xs) as [[k1 t1]|]; assumption.
  - intros [A B]. destruct (IH _ B) as [C D]. tauto.
Qed.

Lemma received_after_app z xs ys : received_after z (xs ++ ys) -> received_after z xs /\ received_after z ys.
Proof.
  induction xs as [|[k t|k t] xs IH]; cbn [app received_after]; tauto.
Qed.

Lemma last_clock_in xs : forall o k t, last_clock o xs = Some (k, t) -> o = Some (k, t) \/ In (SentClock k t) xs.
Proof.
  induction xs as [|[k1 t1|k1 t1] xs IH]; intros o k t; cbn [last_clock In].
  - auto.
  - intros H. apply IH in H as [H|H]; [|auto]. right. left. congruence.
  - intros H. apply IH in H as [H|H]; auto.
Qed.

Lemma received_after_in z xs k t : received_after z xs -> In (SentClock k t) xs -> z < t.
Proof.
  induction xs as [|[k1 t1|k1 t1] xs IH]; cbn [received_after In]; [tauto| |].
  - intros [A B] [H|H]; [|auto]. congruence.
  - intros A [H|H]; [discriminate|auto].
Qed.

Lemma bounded_run B xs : forall s s' o, message_time s <= B ->
  Forall (fun x => match x with SentClock _ t' => t' <= B | SentMessage _ _ => True end) xs ->
  run s (map arrival xs) = Ok (s', o) -> Forall (fun p => fst p - snd p <= B) o ->
  message_time s' <= B.
Proof.
  induction xs as [|x xs IH]; intros s s' o Hs F H G.
  - cbn [map run] in H. injection H as <- <-. assumption.
  - cbn [map] in H. apply run_cons in H as (s1 & y & o1 & S & Hr & ->).
    inversion F as [|? ? F1 F2]; subst. destruct x as [k t|k t]; cbn [arrival] in S.
    + apply step_clock in S as [-> (_ & _ & S)]. refine (IH _ _ _ _ F2 Hr G).
      destruct S as [(_ & _ & S & _)|[(_ & _ & _ & S & _)|(_ & _ & _ & S & _)]]; lia.
    + apply step_message in S as (r & -> & _ & _ & _ & _ & So & Sr & S).
      inversion G as [|? ? G1 G2]; subst. cbn [fst snd] in G1.
      refine (IH _ _ _ _ F2 Hr G2). lia.
Qed.

Lemma scheduling z xs k t s o : in_range None (xs ++ [SentMessage k t]) -> received_after z xs ->
  run (new_follower z) (map arrival (xs ++ [SentMessage k t])) = Ok (s, o) ->
  forall kc tc, last_clock None xs = Some (kc, tc) ->
  exists o' r off m, o = o' ++ [(r, off)] /\ is_min (delays xs) m /\ security_offset s = off /\
    tick_ns * k + m <= r - off /\ tc <= r - off /\
    (Forall (fun p => fst p - snd p <= tick_ns * k + m) o' ->
     Forall (fun x => match x with SentClock _ t' => t' <= tick_ns * k + m | SentMessage _ _ => True end) xs ->
     r = tick_ns * k + m + off).
Proof.
  intros R A H kc tc L. rewrite map_app in H. apply run_app in H as (s1 & o1 & o2 & H1 & H2 & ->).
  apply in_range_app in R as [R R2].
  destruct (tracks_run xs _ _ None _ _ (tracks_new z) R A H1) as [T Z1]. cbn [app] in T.
  rewrite L in T, R2. cbn [tracks in_range] in T, R2. destruct R2 as [R2 _].
  destruct T as (T1 & T2 & T3 & m & M & Hm & HM & T4 & T5 & T6).
  cbn [map arrival] in H2. apply run_cons in H2 as (s2 & y & o3 & S & Hr & ->).
  cbn [run] in Hr. injection Hr as <- <-.
  apply step_message in S as (r & -> & Hz & Hts & Hct & Hj & Ho & Er & E).
  destruct E as [[E _]|[_ E]]; [lia|]. rewrite T2, ts_diff_ticks, T4 in E by assumption.
  change tick_ns with 32000 in *.
  exists o1, r, (security_offset s2), m. split; [reflexivity|]. split; [assumption|]. split; [reflexivity|].
  split; [lia|]. split; [lia|].
  intros F1 F2.
  assert (B : message_time s1 <= 32000 * k + m).
  { eapply bounded_run; [|exact F2|exact H1|exact F1].
    cbn [new_follower message_time]. apply last_clock_in in L as [L|L]; [discriminate|].
    rewrite Forall_forall in F2. specialize (F2 _ L). cbn beta iota in F2.
    pose proof (received_after_in _ _ _ _ A L). lia. }
  lia.
Qed.

(* ---- order ------------------------------------------------------------------------- *)

(* what was scheduled last *)
Definition before (p : option (Z * Z)) (m off : Z) : Prop :=
  match p with Some (r, o) => r - o <= m /\ o <= off | None => True end.

Lemma order_run es : forall s now p s' o, Forall is_arrival es -> receptions_from now es ->
  message_time s <= now -> before p (message_time s) (security_offset s) ->
  run s es = Ok (s', o) -> on_time (message_receptions es) o ->
  nondecreasing (match p with Some (r, _) => r :: map fst o | None => map fst o end).
Proof.
  induction es as [|e es IH]; intros s now p s' o F R M P H T.
  - cbn [run] in H. injection H as <- <-. now destruct p as [[r off]|].
  - apply run_cons in H as (s1 & y & o1 & S & Hr & ->). inversion F as [|? ? F1 F2]; subst.
    destruct e as [t ts|t ts| |]; try contradiction; cbn [receptions_from] in R; destruct R as [R1 R2].
    + apply step_clock in S as [-> (_ & _ & S)]. cbn [message_receptions] in T.
      apply (IH s1 t p s' o1); try assumption.
      * destruct S as [(_ & _ & S & _)|[(_ & _ & _ & S & _)|(_ & _ & _ & S & _)]]; lia.
      * destruct p as [[r off]|]; [|exact I]. cbn [before] in *.
        destruct S as [(_ & _ & S1 & _ & S2)|[(_ & _ & _ & S1 & _ & S2)|(_ & _ & _ & S1 & [(_ & _ & S2)|(_ & _ & S2)])]]; lia.
    + apply step_message in S as (r & -> & _ & _ & _ & _ & So & Sr & S).
      cbn [message_receptions] in T. inversion T as [|? ? ? ? T1 T2]; subst. cbn [fst snd] in T1.
      assert (Q : message_time s <= message_time s1) by lia.
      assert (N : nondecreasing ((message_time s1 + security_offset s) :: map fst o1)).
      { apply (IH s1 t (Some (message_time s1 + security_offset s, security_offset s)) s' o1); try assumption; [lia|].
        cbn [before]. lia. }
      destruct p as [[r0 off]|]; [|exact N]. cbn [map fst] in *. cbn [before] in P.
      cbn [nondecreasing]. cbn [nondecreasing] in N. split; [lia|exact N].
Qed.

Lemma order_new z es s o : Forall is_arrival es -> receptions_from z es ->
  run (new_follower z) es = Ok (s, o) -> on_time (message_receptions es) o ->
  nondecreasing (map fst o).
Proof.
  intros F R H T. apply (order_run es (new_follower z) z None s o); try assumption; [|exact I].
  cbn [new_follower message_time]. lia.
Qed.

(* without clocks in between the order is kept in any case *)
Lemma order_messages s t ts t' ts' s' o : t <= t' ->
  run s [Message t ts; Message t' ts'] = Ok (s', o) ->
  exists r r' off, o = [(r, off); (r', off)] /\ r <= r'.
Proof.
  intros L H. apply run_cons in H as (s1 & y & o1 & S & H & ->).
  apply run_cons in H as (s2 & y' & o2 & S' & H & ->).
  cbn [run] in H. injection H as <- <-.
  apply step_message in S as (r & -> & Z1 & _ & C1 & _ & So & Sr & S).
  apply step_message in S' as (r' & -> & _ & _ & _ & _ & So' & Sr' & S').
  exists r, r', (security_offset s1). rewrite So'. split; [reflexivity|].
  rewrite C1, Z1 in S'. lia.
Qed.

(* a message is never scheduled before the last clock was received *)
Lemma after_clock s tc c t ts s' o : run s [Clock tc c; Message t ts] = Ok (s', o) -> tc <= t ->
  exists r off, o = [(r, off)] /\ tc + off <= r.
Proof.
  intros H L. apply run_cons in H as (s1 & y & o1 & S & H & ->).
  apply run_cons in H as (s2 & y' & o2 & S' & H & ->).
  cbn [run] in H. injection H as <- <-.
  apply step_clock in S as [-> (_ & _ & S)].
  apply step_message in S' as (r' & -> & _ & _ & _ & _ & So' & Sr' & S').
  exists r', (security_offset s2). split; [reflexivity|].
  destruct S as [(_ & _ & S & _)|[(_ & _ & _ & S & _)|(_ & _ & _ & S & _)]]; lia.
Qed.

(* ---- jitter and security offset ------------------------------------------------------ *)

Definition sane (s : follower) : Prop := 0 <= jitter s /\ 0 <= security_offset s.

Lemma sane_step s e s' o : sane s -> step s e = Ok (s', o) -> sane s'.
Proof.
  intros [A B] H. destruct e as [t ts|t ts|off|].
  - apply step_clock in H as [_ (_ & _ & S)]. unfold sane.
    destruct S as [(_ & _ & _ & S1 & S2)|[(_ & S0 & _ & _ & S1 & S2)|(_ & _ & _ & _ & [(_ & S1 & S2)|(S0 & S1 & S2)])]];
      cbv zeta in *; lia.
  - apply step_message in H as (r & _ & _ & _ & _ & S1 & S2 & _). unfold sane. lia.
  - cbn [step] in H. unfold set_security_offset, assert_ in H. destruct (Z.leb_spec 0 off); [|discriminate].
    cbn [bind] in H. injection H as <- <-. unfold sane. cbn [jitter security_offset]. lia.
  - cbn [step] in H. injection H as <- <-. unfold sane. cbn [reset jitter security_offset]. lia.
Qed.

Lemma sane_run es : forall s s' o, sane s -> run s es = Ok (s', o) -> sane s'.
Proof.
  induction es as [|e es IH]; intros s s' o A H.
  - cbn [run] in H. injection H as <- <-. assumption.
  - apply run_cons in H as (s1 & y & o1 & S & H & _). eapply IH; [|exact H]. eapply sane_step; eassumption.
Qed.

Lemma sane_new z : sane (new_follower z). Proof. split; cbn; lia. Qed.

(* clocks and messages only ever raise jitter and security offset *)
Lemma grows_step s e s' o : sane s -> is_clock_or_message e -> step s e = Ok (s', o) ->
  jitter s <= jitter s' /\ security_offset s <= security_offset s' /\
  (12 * jitter s / 10 <= security_offset s -> 12 * jitter s' / 10 <= security_offset s').
Proof.
  intros [A B] C H. destruct e as [t ts|t ts|off|]; try contradiction.
  - apply step_clock in H as [_ (_ & _ & S)].
    destruct S as [(_ & _ & _ & S1 & S2)|[(_ & S0 & _ & _ & S1 & S2)|(_ & _ & _ & _ & [(_ & S1 & S2)|(S0 & S1 & S2)])]];
      cbv zeta in *; try (rewrite S1, S2; lia).
  - apply step_message in H as (r & _ & _ & _ & _ & S1 & S2 & _). rewrite S1, S2. lia.
Qed.

Lemma grows_run es : forall s s' o, sane s -> Forall is_clock_or_message es -> run s es = Ok (s', o) ->
  jitter s <= jitter s' /\ security_offset s <= security_offset s' /\
  (12 * jitter s / 10 <= security_offset s -> 12 * jitter s' / 10 <= security_offset s').
Proof.
  induction es as [|e es IH]; intros s s' o A F H.
  - cbn [run] in H. injection H as <- <-. lia.
  - apply run_cons in H as (s1 & y & o1 & S & H & _). inversion F as [|? ? F1 F2]; subst.
    destruct (grows_step _ _ _ _ A F1 S) as (G1 & G2 & G3).
    destruct (IH s1 s' o1 (sane_step _ _ _ _ A S) F2 H) as (I1 & I2 & I3). lia.
Qed.

Lemma offset_covers z es s o : Forall (fun e => forall x, e <> SetOffset x) es ->
  run (new_follower z) es = Ok (s, o) -> 0 <= jitter s /\ 12 * jitter s / 10 <= security_offset s.
Proof.
  intros F H. split; [apply (sane_run es _ _ _ (sane_new z) H)|].
  assert (G : forall es s s' o, sane s -> 12 * jitter s / 10 <= security_offset s ->
    Forall (fun e => forall x, e <> SetOffset x) es -> run s es = Ok (s', o) ->
    12 * jitter s' / 10 <= security_offset s').
  { clear. induction es as [|e es IH]; intros s s' o A B F H.
    - cbn [run] in H. injection H as <- <-. assumption.
    - apply run_cons in H as (s1 & y & o1 & S & H & _). inversion F as [|? ? F1 F2]; subst.
      refine (IH s1 s' o1 (sane_step _ _ _ _ A S) _ F2 H).
      destruct e as [t ts|t ts|off|].
      + apply (grows_step _ (Clock t ts) _ _ A I S). assumption.
      + apply (grows_step _ (Message t ts) _ _ A I S). assumption.
      + now destruct (F1 off).
      + cbn [step] in S. injection S as <- <-. cbn. lia. }
  refine (G es _ _ _ (sane_new z) _ F H). cbn. lia.
Qed.

(* ---- a clock without jitter ----------------------------------------------------------- *)

Lemma exact_run d off xs : forall s kc k0 s' o,
  zero s < clock_time s -> clock_ts s = kc mod 65536 -> clock_time s = tick_ns * kc + d ->
  message_time s <= tick_ns * k0 + d -> jitter s = 0 -> security_offset s = off -> 0 <= off -> kc <= k0 ->
  sender_order k0 xs -> in_range (Some kc) xs -> Forall (fun x => x = d) (delays xs) ->
  run s (map arrival xs) = Ok (s', o) ->
  o = map (fun k => (tick_ns * k + d + off, off)) (message_ticks xs) /\
  jitter s' = 0 /\ security_offset s' = off.
Proof.
  change tick_ns with 32000.
  induction xs as [|x xs IH]; intros s kc k0 s' o H1 H2 H3 H4 H5 H6 H7 H8 O R D H.
  - cbn [map run] in H. injection H as <- <-. auto.
  - cbn [map] in H. apply run_cons in H as (s1 & y & o1 & S & H & ->).
    destruct x as [k t|k t]; cbn [arrival sender_order in_range delays message_ticks] in *.
    + destruct O as [O1 O2], R as [R1 R2]. pose proof (Forall_inv D) as D1. pose proof (Forall_inv_tail D) as D2.
      cbn beta in D1.
      change tick_ns with 32000 in D1.
      apply step_clock in S as [-> (S0 & S1 & S)].
      rewrite H2, ts_diff_ticks in S by assumption.
      destruct S as [[S _]|[[_ S]|[_ S]]]; [lia|cbv zeta in S; lia|].
      cbv zeta in S. destruct S as (S2 & S3 & S4 & S5).
      refine (IH s1 k k s' o1 _ _ _ _ _ _ H7 _ O2 R2 D2 H); try lia.
    + destruct O as [O1 O2], R as [R1 R2].
      apply step_message in S as (r & -> & S0 & S1 & S2 & S3 & S4 & S5 & S).
      rewrite H2, ts_diff_ticks in S by assumption.
      destruct S as [[S _]|[_ S]]; [lia|].
      destruct (IH s1 kc k s' o1) as (I1 & I2 & I3); try assumption; try lia; try congruence.
      split; [|auto]. cbn [map]. rewrite I1. f_equal. f_equal; lia.
Qed.

Lemma exact_new z off k0 t0 xs s o : z < t0 -> 0 <= off ->
  sender_order k0 xs -> in_range (Some k0) xs ->
  Forall (fun x => x = t0 - tick_ns * k0) (delays xs) ->
  run (new_follower z) (SetOffset off :: Clock t0 (k0 mod 65536) :: map arrival xs) = Ok (s, o) ->
  o = map (fun k => (t0 + tick_ns * (k - k0) + off, off)) (message_ticks xs) /\
  jitter s = 0 /\ security_offset s = off.
Proof.
  intros Hz Ho O R D H. apply run_cons in H as (s1 & y & o1 & S & H & ->).
  cbn [step] in S. unfold set_security_offset, assert_ in S. destruct (Z.leb_spec 0 off); [|lia].
  cbn [bind] in S. injection S as <- <-.
  apply run_cons in H as (s2 & y & o2 & S & H & ->).
  apply step_clock in S as [-> (S0 & S1 & S)].
  cbn [zero clock_time jitter security_offset new_follower clock_ts message_time] in *.
  destruct S as [(_ & S2 & S3 & S4 & S5)|[[S _]|[S _]]]; [|lia|lia].
  destruct (exact_run (t0 - tick_ns * k0) off xs s2 k0 k0 s o2) as (A & B & C); try assumption; try lia.
  split; [|auto]. rewrite A. apply map_ext. intros k. f_equal. lia.
Qed.

(* ---- no overflow ------------------------------------------------------------------------ *)

Lemma gap_range x y : 0 <= 32000 * ts_diff x y <= longest_gap.
Proof. pose proof (ts_diff_range x y). unfold longest_gap. lia. Qed.

Record fits (a b off n : Z) (now : Z) (s : follower) : Prop := {
  f_zero : zero s = a; f_ct : a <= clock_time s <= now; f_now : now <= b;
  f_mt : a <= message_time s <= b + longest_gap;
  f_j : 0 <= jitter s <= (b - a) + n * longest_gap;
  f_o : 0 <= security_offset s <= Z.max off (12 * ((b - a) + n * longest_gap) / 10) }.

Lemma no_overflow_run es : forall s now a b off n,
  fits a b off n now s -> 2000000 <= off -> 0 <= a -> 0 <= n -> Forall (calls_within a b off) es ->
  receptions_from now es ->
  12 * ((b - a) + (n + count_clocks es) * longest_gap) <= 9223372036854775807 ->
  b + longest_gap + Z.max off (12 * ((b - a) + (n + count_clocks es) * longest_gap) / 10) <= 9223372036854775807 ->
  exists s' o, run s es = Ok (s', o).
Proof.
  assert (G : longest_gap = 2097120000) by reflexivity.
  induction es as [|e es IH]; intros s now a b off n Fi Ho Ha Hn F R B1 B2.
  { cbn [run]. eauto. }
  inversion F as [|? ? F1 F2]; subst. destruct Fi as [Fz Fct Fnow Fmt Fj Fo].
  assert (C0 : 0 <= count_clocks es) by (unfold count_clocks, size; lia).
  assert (Step : exists s1 y n', step s e = Ok (s1, y) /\ n' + count_clocks es = n + count_clocks (e :: es) /\
    0 <= n' /\ fits a b off n' (match e with Clock t _ | Message t _ => t | _ => now end) s1).
  2:{ destruct Step as (s1 & y & n' & S & N & N0 & Fi). rewrite <- N in B1, B2.
      destruct (IH s1 (match e with Clock t _ | Message t _ => t | _ => now end) a b off n') as (s' & o & H);
        try assumption.
      - destruct e; cbn [receptions_from] in R; tauto.
      - cbn [run]. rewrite S. cbn [bind fst snd]. rewrite H. cbn [bind fst snd]. eauto. }
  destruct e as [t ts|t ts|o|]; cbn [calls_within receptions_from] in *.
  - assert (CC : count_clocks (Clock t ts :: es) = count_clocks es + 1).
    { unfold count_clocks, size. cbn [filter length]. lia. }
    rewrite CC in *. destruct F1 as [F1 Fts], R as [R1 R2].
    cbn [step]. unfold process_clock. destruct (Z.eqb_spec (clock_time s) (zero s)) as [Z0|Z0].
    + cbn [bind]. eexists _, _, (n + 1). split; [reflexivity|]. split; [lia|]. split; [lia|].
      constructor; cbn [zero clock_time message_time jitter security_offset]; try lia.
    + pose proof (gap_range ts (clock_ts s)) as Gp. unfold to_duration.
      set (d := 32000 * ts_diff ts (clock_ts s)) in *.
      rewrite i64_in by (replace (ts_diff ts (clock_ts s) * 32000) with d by (unfold d; lia); lia).
      cbn [bind]. replace (ts_diff ts (clock_ts s) * 32000) with d by (unfold d; lia). clearbody d.
      rewrite i64_in by lia. cbn [bind]. rewrite i64_in by lia. cbn [bind].
      unfold update_stats. destruct (Z.ltb_spec t (clock_time s + d)) as [L|L]; cbn [jitter].
      * destruct (Z.ltb_spec (t - (clock_time s + d)) 0); [|lia].
        rewrite i64_in by lia. cbn [bind]. unfold recalc_security_offset, with_jitter.
        cbn [jitter zero clock_ts clock_time message_time security_offset].
        rewrite i64_in by lia. cbn [bind]. rewrite quot_12_10 by lia.
        set (j := jitter s - (t - (clock_time s + d))) in *.
        assert (J : 0 <= j <= b - a + (n + 1) * longest_gap) by lia.
        assert (J2 : 12 * j / 10 <= 12 * (b - a + (n + 1) * longest_gap) / 10) by (apply Z.div_le_mono; lia).
        assert (J3 : 12 * (b - a + n * longest_gap) / 10 <= 12 * (b - a + (n + 1) * longest_gap) / 10)
          by (apply Z.div_le_mono; lia).
        destruct (Z.ltb_spec (security_offset s) (12 * j / 10)); cbn [bind].
        -- eexists _, _, (n + 1). split; [reflexivity|]. split; [lia|]. split; [lia|].
           constructor; cbn [zero clock_time message_time jitter security_offset]; try lia.
           destruct (Z.ltb_spec (message_time s) t); lia.
        -- eexists _, _, (n + 1). split; [reflexivity|]. split; [lia|]. split; [lia|].
           constructor; cbn [zero clock_time message_time jitter security_offset]; try lia.
           destruct (Z.ltb_spec (message_time s) t); lia.
      * destruct (Z.ltb_spec (t - (clock_time s + d)) 0); [lia|].
        assert (J3 : 12 * (b - a + n * longest_gap) / 10 <= 12 * (b - a + (n + 1) * longest_gap) / 10)
          by (apply Z.div_le_mono; lia).
        destruct (Z.ltb_spec (jitter s) (t - (clock_time s + d))) as [J|J].
        -- unfold recalc_security_offset, with_jitter.
           cbn [jitter zero clock_ts clock_time message_time security_offset].
           rewrite i64_in by lia. cbn [bind]. rewrite quot_12_10 by lia.
           set (j := t - (clock_time s + d)) in *.
           assert (J1 : 0 <= j <= b - a + (n + 1) * longest_gap) by lia.
           assert (J2 : 12 * j / 10 <= 12 * (b - a + (n + 1) * longest_gap) / 10) by (apply Z.div_le_mono; lia).
           destruct (Z.ltb_spec (security_offset s) (12 * j / 10)); cbn [bind];
             (eexists _, _, (n + 1); split; [reflexivity|]; split; [lia|]; split; [lia|];
              constructor; cbn [zero clock_time message_time jitter security_offset]; lia).
        -- cbn [bind]. eexists _, _, (n + 1). split; [reflexivity|]. split; [lia|]. split; [lia|].
           constructor; cbn [zero clock_time message_time jitter security_offset]; lia.
  - destruct F1 as [F1 Fts], R as [R1 R2].
    assert (CC : count_clocks (Message t ts :: es) = count_clocks es) by reflexivity. rewrite CC in *.
    assert (J3 : 12 * (b - a + n * longest_gap) / 10 <= 12 * (b - a + (n + count_clocks es) * longest_gap) / 10)
      by (apply Z.div_le_mono; nia).
    cbn [step]. unfold schedule_message. destruct (Z.eqb_spec (clock_time s) (zero s)) as [Z0|Z0]; cbn [negb bind].
    + rewrite i64_in by lia. cbn [bind fst snd].
      eexists _, _, n. split; [reflexivity|]. split; [lia|]. split; [lia|].
      constructor; cbn [zero clock_time message_time jitter security_offset]; lia.
    + pose proof (gap_range ts (clock_ts s)) as Gp. unfold to_duration.
      set (d := 32000 * ts_diff ts (clock_ts s)) in *.
      rewrite i64_in by (replace (ts_diff ts (clock_ts s) * 32000) with d by (unfold d; lia); lia).
      cbn [bind]. replace (ts_diff ts (clock_ts s) * 32000) with d by (unfold d; lia). clearbody d.
      rewrite i64_in by lia. cbn [bind].
      rewrite i64_in by (destruct (Z.ltb_spec (message_time s) (clock_time s + d)); lia). cbn [bind fst snd].
      eexists _, _, n. split; [reflexivity|]. split; [lia|]. split; [lia|].
      constructor; cbn [zero clock_time message_time jitter security_offset]; try lia.
      destruct (Z.ltb_spec (message_time s) (clock_time s + d)); lia.
  - assert (CC : count_clocks (SetOffset o :: es) = count_clocks es) by reflexivity. rewrite CC in *.
    cbn [step]. unfold set_security_offset, assert_. destruct (Z.leb_spec 0 o); [|lia]. cbn [bind].
    eexists _, _, n. split; [reflexivity|]. split; [lia|]. split; [lia|].
    constructor; cbn [zero clock_time message_time jitter security_offset]; lia.
  - assert (CC : count_clocks (Reset :: es) = count_clocks es) by reflexivity. rewrite CC in *.
    cbn [step]. eexists _, _, n. split; [reflexivity|]. split; [lia|]. split; [lia|].
    constructor; cbn [reset zero clock_time message_time jitter security_offset]; lia.
Qed.

Lemma no_overflow a b off es : 0 <= a <= b -> 2000000 <= off ->
  Forall (calls_within a b off) es -> receptions_from a es ->
  12 * ((b - a) + count_clocks es * longest_gap) <= 9223372036854775807 ->
  b + longest_gap + Z.max off (12 * ((b - a) + count_clocks es * longest_gap) / 10) <= 9223372036854775807 ->
  exists s o, run (new_follower a) es = Ok (s, o).
Proof.
  intros Ha Ho F R B1 B2. apply (no_overflow_run es (new_follower a) a a b off 0); try assumption; try lia.
  assert (G : longest_gap = 2097120000) by reflexivity.
  constructor; cbn [new_follower zero clock_time message_time jitter security_offset]; lia.
Qed.
