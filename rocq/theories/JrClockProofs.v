(* Lemmas about jr_clock and conversations. *)
From Coq Require Import ZArith List Bool Lia ZifyBool ZifyNat.
From Verif Require Import Base Bits Packet PacketSpec Utility SystemProofs Jitter JitterSpec JitterProofs JrClock JrClockSpec.
Import ListNotations.
Local Open Scope Z_scope.
Local Open Scope res_scope.

Definition ticks (z now : Z) : Z := (now - z) / 32000.

Lemma i64_ok x y : i64 x = Ok y -> y = x.
Proof. unfold i64. destruct (_ && _); congruence. Qed.

Lemma stamp_value d : 0 <= d -> u16 (Z.land (Z.quot d 32000) 0xFFFF) = (d / 32000) mod 65536.
Proof.
  intros H. rewrite Z.quot_div_nonneg by lia. change 0xFFFF with (Z.ones 16). rewrite Z.land_ones by lia.
  unfold u16. change (2 ^ 16) with 65536. apply Z.mod_mod. lia.
Qed.
Lemma jr_now_some z i now st ts : z <= now -> jr_now (Some z) i now = Ok (st, ts) ->
  st = Some z /\ ts = ticks z now mod 65536.
Proof.
  intros H E. unfold jr_now in E. destruct (i64 (now - z)) as [d|] eqn:D; [|discriminate E]. apply i64_ok in D. subst d.
  cbn [bind] in E. injection E as <- <-. split; [reflexivity|]. unfold ticks. apply stamp_value. lia.
Qed.
Lemma jr_now_total z i now : 0 <= now - z < 9223372036854775808 ->
  jr_now (Some z) i now = Ok (Some z, ticks z now mod 65536).
Proof.
  intros H. unfold jr_now, i64. destruct ((- 9223372036854775808 <=? now - z) && (now - z <=? 9223372036854775807)) eqn:E; [|lia].
  cbn [bind]. rewrite stamp_value by lia. reflexivity.
Qed.

Lemma elapsed z a b : z <= a <= b -> b - a < 65535 * 32000 ->
  b - a - 32000 < 32000 * ts_diff (ticks z b mod 65536) (ticks z a mod 65536) < b - a + 32000.
Proof.
  intros H L. unfold ticks. rewrite ts_diff_ticks by dlia. dlia.
Qed.

(* ---- the packets are received as sent --------------------------------------------------------- *)

Definition to_sent (z : Z) (t : trip) : sent :=
  if is_clock t then SentClock (ticks z (sent_at t)) (received_at t) else SentMessage (ticks z (sent_at t)) (received_at t).

Definition packet_of (z : Z) (t : trip) : packet :=
  make_utility_message (if is_clock t then 0x10 else 0x20) (ticks z (sent_at t) mod 65536).

Lemma send_packets z l : forall ps, Forall (fun t => z <= sent_at t) l ->
  send (Some z) (map stamping_of l) = Ok ps -> ps = map (packet_of z) l.
Proof.
  induction l as [|t l IH]; intros ps F H; [cbn in *; congruence|]. apply Forall_cons_iff in F. destruct F as [F1 F].
  cbn [map] in H. unfold stamping_of at 1 in H.
  assert (U : is_u16 (ticks z (sent_at t) mod 65536)) by (unfold is_u16; dlia).
  destruct (jr_messages_ok _ U) as (C & M & _).
  destruct (is_clock t) eqn:K; cbn [send] in H;
    (destruct (jr_now (Some z) (init_at t) (sent_at t)) as [[st ts]|] eqn:N; [|discriminate H]);
    apply jr_now_some in N; trivial; destruct N as [-> ->]; cbn [bind fst snd] in H; rewrite ?C, ?M in H; cbn [bind] in H;
    (destruct (send (Some z) (map stamping_of l)) as [ps'|] eqn:S; [|discriminate H]); cbn [bind] in H;
    injection H as <-; cbn [map]; rewrite (IH ps' F eq_refl); unfold packet_of at 2; rewrite K; reflexivity.
Qed.

Lemma send_first t l : send None (map stamping_of (t :: l)) = send (Some (init_at t)) (map stamping_of (t :: l)).
Proof.
  cbn [map]. set (ps := map stamping_of l). unfold stamping_of. destruct (is_clock t); reflexivity.
Qed.

Lemma receive_packets z l : forall s, receive s (combine (map received_at l) (map (packet_of z) l)) = run s (map arrival (map (to_sent z) l)).
Proof.
  induction l as [|t l IH]; intros s; [reflexivity|]. cbn [map combine receive run].
  assert (U : is_u16 (ticks z (sent_at t) mod 65536)) by (unfold is_u16; dlia).
  destruct (jr_messages_ok _ U) as (_ & _ & C & M).
  assert (E : receive_event (received_at t) (packet_of z t) = Ok (Some (arrival (to_sent z t)))).
  { unfold receive_event, packet_of, to_sent. destruct (is_clock t).
    - destruct (utility_ok 0x10 _ ltac:(unfold is_u8; lia) U) as (_ & T & _ & S & _). rewrite T, S, C. reflexivity.
    - destruct (utility_ok 0x20 _ ltac:(unfold is_u8; lia) U) as (_ & T & _ & S & _). rewrite T, S, M. reflexivity. }
  rewrite E. cbn [bind]. destruct (step s _) as [[s1 y]|]; [|reflexivity]. cbn [bind fst snd]. rewrite IH. reflexivity.
Qed.

Lemma stamped_after l : forall last now, stamped_from last now l -> Forall (fun t => now <= sent_at t) l.
Proof.
  induction l as [|t l IH]; intros last now H; [constructor|]. cbn [stamped_from] in H. destruct H as (A & _ & H).
  constructor; trivial. eapply Forall_impl; [|exact (IH _ _ H)]. cbn beta. intros. lia.
Qed.

(* the first packet gives the origin of the sender's time *)
Definition origin (l : list trip) : Z := match l with t :: _ => init_at t | [] => 0 end.

Lemma origin_before l : stamped_in_order l -> Forall (fun t => origin l <= sent_at t) l.
Proof.
  destruct l as [|t l]; [constructor|]. cbn [stamped_in_order origin]. intros [A B].
  eapply Forall_impl; [|exact (stamped_after _ _ _ B)]. cbn beta. intros. lia.
Qed.
Lemma conversation_run z l s o : stamped_in_order l -> conversation z l s o ->
  run (new_follower z) (map arrival (map (to_sent (origin l)) l)) = Ok (s, o).
Proof.
  intros P (ps & S & R). rewrite <- receive_packets. rewrite <- R. f_equal. f_equal.
  destruct l as [|t l]; [cbn in S; injection S as <-; reflexivity|]. rewrite send_first in S.
  symmetry. apply send_packets; [|exact S]. exact (origin_before _ P).
Qed.

Lemma range_of z l : forall last now, Forall (fun t => z <= sent_at t) l -> stamped_from last now l ->
  (match last with Some c => z <= c <= now | None => True end) ->
  in_range (option_map (ticks z) last) (map (to_sent z) l).
Proof.
  induction l as [|t l IH]; intros last now F H L; [exact I|]. cbn [stamped_from] in H. destruct H as (A & B & H).
  apply Forall_cons_iff in F. destruct F as [F1 F]. cbn [map]. unfold to_sent at 1. change tick with 32000 in B.
  assert (R : match option_map (ticks z) last with Some l0 => l0 <= ticks z (sent_at t) < l0 + 65536 | None => True end).
  { destruct last as [c|]; [|exact I]. cbn [option_map]. unfold ticks. dlia. }
  destruct (is_clock t) eqn:K; cbn [in_range]; (split; [exact R|]).
  - apply (IH (Some (sent_at t)) (sent_at t) F H). lia.
  - apply (IH last (sent_at t) F H). destruct last; lia.
Qed.
Lemma order_of z l : forall last now, stamped_from last now l -> z <= now ->
  sender_order (ticks z now) (map (to_sent z) l).
Proof.
  induction l as [|t l IH]; intros last now H L; [exact I|]. cbn [stamped_from] in H. destruct H as (A & B & H).
  cbn [map]. unfold to_sent at 1. pose proof (IH _ _ H) as X.
  destruct (is_clock t); cbn [sender_order]; (split; [unfold ticks; dlia|apply X; lia]).
Qed.
Lemma after_of y z l : clocks_after y l -> received_after y (map (to_sent z) l).
Proof.
  induction 1 as [|t l A F IH]; [exact I|]. cbn [map]. unfold to_sent at 1. destruct (is_clock t); cbn [received_after]; auto.
Qed.

Lemma delays_of z l : delays (map (to_sent z) l) = map (fun t => received_at t - 32000 * ticks z (sent_at t)) (filter is_clock l).
Proof.
  induction l as [|t l IH]; [reflexivity|]. cbn [map filter]. unfold to_sent at 1. destruct (is_clock t); cbn [delays map]; rewrite IH; reflexivity.
Qed.

Lemma min_of z l m D : is_min (delays (map (to_sent z) l)) m -> shortest (clock_delays l) D -> z + D <= m < z + D + 32000.
Proof.
  rewrite delays_of. unfold clock_delays. intros [A B] [C E]. apply in_map_iff in A. destruct A as (t & <- & A).
  apply in_map_iff in C. destruct C as (u & <- & C).
  specialize (B _ (in_map _ _ _ C)). specialize (E _ (in_map delay _ _ A)). cbn beta in B. unfold delay, ticks in *. dlia.
Qed.
Lemma max_of z l m D : is_max (delays (map (to_sent z) l)) m -> longest (clock_delays l) D -> z + D <= m < z + D + 32000.
Proof.
  rewrite delays_of. unfold clock_delays. intros [A B] [C E]. apply in_map_iff in A. destruct A as (t & <- & A).
  apply in_map_iff in C. destruct C as (u & <- & C).
  specialize (B _ (in_map _ _ _ C)). specialize (E _ (in_map delay _ _ A)). cbn beta in B. unfold delay, ticks in *. dlia.
Qed.

(* ---- an upper bound for scheduled times --------------------------------------------------------- *)

Fixpoint last_stamp (k : Z) (xs : list sent) : Z :=
  match xs with [] => k | SentClock k _ :: xs | SentMessage k _ :: xs => last_stamp k xs end.

Definition capped (s : follower) (D : list Z) (last : option (Z * Z)) (k : Z) : Prop :=
  match last with None => True | Some _ => forall M, is_max D M -> message_time s <= 32000 * k + M end.

Lemma capped_run xs : forall s D last k s' o, tracks s D last -> capped s D last k -> in_range (last_tick last) xs ->
  sender_order k xs -> received_after (zero s) xs -> run s (map arrival xs) = Ok (s', o) ->
  capped s' (D ++ delays xs) (last_clock last xs) (last_stamp k xs).
Proof.
  induction xs as [|x xs IH]; intros s D last k s' o T C R O A H.
  - cbn [map run] in H. injection H as <- <-. cbn [delays last_clock last_stamp]. now rewrite app_nil_r.
  - cbn [map] in H. apply run_cons in H as (s1 & y & o1 & S & Hr & _).
    assert (R1 : in_range (last_tick last) [x]) by (destruct x; cbn [in_range] in *; tauto).
    assert (A1 : received_after (zero s) [x]) by (destruct x; cbn [received_after] in *; tauto).
    destruct (tracks_step x s D last s1 y T R1 A1 S) as [T1 Z1].
    assert (R2 : in_range (last_tick (last_clock last [x])) xs).
    { destruct x; cbn [in_range last_clock last_tick option_map fst] in *; tauto. }
    assert (A2 : received_after (zero s1) xs) by (rewrite Z1; destruct x; cbn [received_after] in *; tauto).
    assert (O2 : sender_order (last_stamp k [x]) xs) by (destruct x; cbn [sender_order last_stamp] in *; tauto).
    assert (C1 : capped s1 (D ++ delays [x]) (last_clock last [x]) (last_stamp k [x])).
    { destruct x as [j t|j t]; cbn [arrival delays last_clock last_stamp sender_order] in *.
      - apply step_clock in S as [_ (Hz & Hts & S)]. intros M HM.
        assert (L : t - 32000 * j <= M). { apply HM. apply in_or_app. right. now left. }
        assert (Mono : forall k t0 M0, last = Some (k, t0) -> is_max D M0 -> M0 <= M).
        { intros k0 t0 M0 _ [Q _]. apply HM. apply in_or_app. now left. }
        destruct S as [(_ & _ & S & _)|[(N & _ & _ & S & _)|(_ & _ & _ & S & _)]]; [lia| |lia].
        destruct last as [[k0 t0]|].
        + cbn [tracks] in T. destruct T as (_ & _ & _ & m & M0 & _ & HM0 & _). specialize (C M0 HM0). specialize (Mono _ _ _ eq_refl HM0). lia.
        + cbn [tracks] in T. destruct T as (_ & T & _). cbn [received_after] in A. destruct A as [A _].
          contradiction.
      - rewrite app_nil_r. apply step_message in S as (r & _ & Hz & Hts & Hct & Hj & Ho & _ & E).
        destruct last as [[k0 t0]|]; [|exact I]. intros M HM. specialize (C M HM). cbn [tracks] in T.
        destruct T as (T1' & T2 & _ & m & M0 & Hm & HM0 & T4 & _). cbn [last_tick option_map fst in_range] in R1.
        destruct E as [[E _]|[_ E]]; [lia|]. rewrite T2, ts_diff_ticks, T4 in E by tauto. change tick_ns with 32000 in E.
        pose proof (min_le_max _ _ _ Hm HM). lia. }
    specialize (IH _ _ _ _ _ _ T1 C1 R2 O2 A2 Hr).
    replace (delays (x :: xs)) with (delays [x] ++ delays xs) by (destruct x; reflexivity).
    rewrite app_assoc. destruct x; exact IH.
Qed.

(* ---- conversations ------------------------------------------------------------------------------ *)

Lemma clocks_last z l : clock_delays l <> [] -> exists k t, last_clock None (map (to_sent z) l) = Some (k, t).
Proof.
  intros H. destruct (last_clock None (map (to_sent z) l)) as [[k t]|] eqn:E; [eauto|]. exfalso. apply H. clear H.
  unfold clock_delays. induction l as [|u l IH]; [reflexivity|]. cbn [map filter] in *. unfold to_sent at 1 in E.
  destruct (is_clock u); cbn [last_clock] in E; [|now apply IH].
  rewrite last_clock_or in E. destruct (last_clock None (map (to_sent z) l)); discriminate E.
Qed.
Lemma in_order_range l : stamped_in_order l ->
  in_range None (map (to_sent (origin l)) l) /\ sender_order (ticks (origin l) (origin l)) (map (to_sent (origin l)) l).
Proof.
  intros P. pose proof (origin_before l P) as F. destruct l as [|t l]; [split; exact I|]. destruct P as [A B].
  change (origin (t :: l)) with (init_at t) in *. split.
  - exact (range_of (init_at t) (t :: l) None (sent_at t) F B I).
  - assert (Q : stamped_from None (init_at t) (t :: l)).
    { cbn [stamped_from] in B |- *. destruct B as (_ & B & C). repeat split; trivial. }
    apply (order_of (init_at t) (t :: l) None (init_at t) Q). lia.
Qed.

Lemma conversation_jitter z l s o D E : stamped_in_order l -> clocks_after z l -> conversation z l s o ->
  shortest (clock_delays l) D -> longest (clock_delays l) E ->
  E - D - 32000 < jitter s < E - D + 32000 /\ security_offset s = Z.max 2000000 (12 * jitter s / 10).
Proof.
  intros P A C HD HE. pose proof (conversation_run z l s o P C) as R. destruct (in_order_range l P) as [G _].
  destruct (tracking z _ s o G (after_of z (origin l) l A) R) as [[X _]|(m & M & Hm & HM & J & O)].
  - exfalso. rewrite delays_of in X. destruct HD as [HD _]. unfold clock_delays in HD. apply in_map_iff in HD. destruct HD as (t & _ & HD).
    destruct (filter is_clock l); [contradiction|discriminate X].
  - pose proof (min_of _ _ _ _ Hm HD). pose proof (max_of _ _ _ _ HM HE). rewrite J. split; [lia|exact O].
Qed.

Lemma filter_message l m : is_clock m = false -> filter is_clock (l ++ [m]) = filter is_clock l.
Proof. intros K. rewrite filter_app. cbn [filter]. rewrite K. apply app_nil_r. Qed.

Lemma conversation_message z l m s o D E : is_clock m = false -> stamped_in_order (l ++ [m]) -> clocks_after z l ->
  conversation z (l ++ [m]) s o -> shortest (clock_delays l) D -> longest (clock_delays l) E ->
  exists o' r off, o = o' ++ [(r, off)] /\ off = security_offset s /\
    sent_at m + D - 32000 < r - off < sent_at m + E + 32000 /\
    (Forall (fun p => fst p - snd p <= sent_at m + D - 32000) o' ->
     Forall (fun t => is_clock t = true -> received_at t <= sent_at m + D - 32000) l ->
     r - off < sent_at m + D + 32000) /\
    (delay m <= E -> received_at m <= r).
Proof.
  intros K P A C HD HE. pose proof (conversation_run z _ s o P C) as R. destruct (in_order_range _ P) as [G O].
  set (z0 := origin (l ++ [m])) in *.
  assert (NE : clock_delays l <> []). { destruct HD as [HD _]. destruct (clock_delays l); [contradiction|discriminate]. }
  destruct (clocks_last z0 l NE) as (kc & tc & L).
  assert (EQ : map (to_sent z0) (l ++ [m]) = map (to_sent z0) l ++ [SentMessage (ticks z0 (sent_at m)) (received_at m)]).
  { rewrite map_app. cbn [map]. unfold to_sent at 2. now rewrite K. }
  pose proof (after_of z z0 l A) as A1.
  assert (A2 : received_after z (map (to_sent z0) (l ++ [m]))).
  { apply after_of. apply Forall_app. split; trivial. repeat constructor. congruence. }
  pose proof (capped_run _ _ _ None (ticks z0 z0) _ _ (tracks_new z) I G O A2 R) as CAP.
  destruct (tracking z _ s o G A2 R) as [[X _]|(m1 & M1 & Hm1 & HM1 & J & OFF)].
  { exfalso. rewrite delays_of, filter_message in X by trivial. unfold clock_delays in NE. destruct (filter is_clock l); [now apply NE|discriminate X]. }
  rewrite delays_of, filter_message, <- delays_of in Hm1, HM1 by trivial.
  rewrite EQ in *.
  destruct (scheduling z _ _ _ s o G A1 R kc tc L) as (o' & r & off & mm & -> & Hm & HO & B1 & _ & B2).
  change tick_ns with 32000 in *.
  assert (mm = m1) as ->. { destruct Hm as [Q1 Q2], Hm1 as [Q3 Q4]. specialize (Q2 _ Q3). specialize (Q4 _ Q1). lia. }
  pose proof (min_of _ _ _ _ Hm HD) as ND. pose proof (max_of _ _ _ _ HM1 HE) as NE'.
  assert (W : ticks z0 (sent_at m) * 32000 <= sent_at m - z0 < ticks z0 (sent_at m) * 32000 + 32000) by (unfold ticks; dlia).
  exists o', r, off. split; [reflexivity|]. split; [now symmetry|]. split; [split; [lia|]|split].
  - cbn [app] in CAP. replace (delays (map (to_sent z0) l ++ [SentMessage (ticks z0 (sent_at m)) (received_at m)])) with (delays (map (to_sent z0) l)) in CAP
      by (rewrite <- EQ, !delays_of, filter_message by trivial; reflexivity).
    assert (LS : forall xs k j t, last_stamp k (xs ++ [SentMessage j t]) = j) by (induction xs as [|[? ?|? ?] xs IH]; intros; [reflexivity|apply IH..]).
    assert (LC : last_clock None (map (to_sent z0) l ++ [SentMessage (ticks z0 (sent_at m)) (received_at m)]) = Some (kc, tc)).
    { revert L. generalize (map (to_sent z0) l) (None : option (Z * Z)). induction l0 as [|[? ?|? ?] l0 IH]; intros o0 L; cbn [app last_clock] in *; auto. }
    rewrite LS, LC in CAP. cbn [capped] in CAP. specialize (CAP M1 HM1).
    assert (MT : r - off = message_time s).
    { rewrite map_app in R. apply run_app in R as (s1 & o1 & o2 & R1 & R2 & EO).
      cbn [map arrival] in R2. apply run_cons in R2 as (s2 & y & o3 & S & Hr & ->). cbn [run] in Hr. injection Hr as <- <-.
      apply step_message in S as (r' & -> & _ & _ & _ & _ & Ho & Er & _).
      apply app_inj_tail in EO. destruct EO as [_ EO]. injection EO as -> ->. lia. }
    lia.
  - intros F1 F2. rewrite (B2); [lia| |].
    + eapply Forall_impl; [|exact F1]. cbn beta. intros. lia.
    + apply Forall_map. eapply Forall_impl; [|exact F2]. cbn beta. intros t Q. unfold to_sent. destruct (is_clock t); [|exact I].
      specialize (Q eq_refl). lia.
  - intros Q. unfold delay in Q. pose proof (Z.div_mod (12 * (M1 - m1)) 10). pose proof (Z.mod_pos_bound (12 * (M1 - m1)) 10).
    rewrite HO in OFF. pose proof (min_le_max _ _ _ Hm HM1). lia.
Qed.
