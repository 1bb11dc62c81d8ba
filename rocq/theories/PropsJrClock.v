(* C79: jitter reduction from the sender's clock to the receiver's schedule. *)
From Coq Require Import ZArith List Bool Lia.
From Verif Require Import Base Packet Utility Jitter JrClock JrClockSpec JrClockProofs.
Import ListNotations.
Local Open Scope Z_scope.

(* jr_clock counts ticks since its first use, whatever the clock reads, for 292 years *)
Theorem C79_stamp z init now : 0 <= now - z < 2 ^ 63 ->
  jr_now (Some z) init now = Ok (Some z, (now - z) / tick mod 65536).
Proof. exact (jr_now_total z init now). Qed.
Print Assumptions C79_stamp.

(* the first call only differs in taking its origin from the clock *)
Theorem C79_first_stamp init now : jr_now None init now = jr_now (Some init) init now.
Proof. reflexivity. Qed.
Print Assumptions C79_first_stamp.

(* the difference of two stamps is the time between them up to one tick *)
Theorem C79_elapsed z init a b st x st' y : z <= a <= b -> b - a < 65535 * tick ->
  jr_now (Some z) init a = Ok (st, x) -> jr_now (Some z) init b = Ok (st', y) ->
  b - a - tick < tick * ts_diff y x < b - a + tick.
Proof.
  intros H L A B. apply jr_now_some in A; [|lia]. apply jr_now_some in B; [|lia].
  destruct A as [_ ->], B as [_ ->]. exact (elapsed z a b H L).
Qed.
Print Assumptions C79_elapsed.

(* it may be less, other than the (skipped) test of jr_clock expects: 1000 ticks and 31999 ns later the
   difference is 1000 ticks *)
Theorem C79_elapsed_at_least_refuted : exists z init a b st x st' y, z <= a <= b /\ b - a < 65535 * tick /\
  jr_now (Some z) init a = Ok (st, x) /\ jr_now (Some z) init b = Ok (st', y) /\
  tick * ts_diff y x < b - a.
Proof.
  exists 5, 5, 5, (5 + 32031999). eexists _, _, _, _. change tick with 32000. split; [lia|]. split; [lia|].
  split; [vm_compute; reflexivity|]. split; [vm_compute; reflexivity|]. vm_compute. reflexivity.
Qed.
Print Assumptions C79_elapsed_at_least_refuted.

(* the measured jitter is the range of the delays of all clocks up to one tick *)
Theorem C79_jitter z l s o D E : stamped_in_order l -> clocks_after z l -> conversation z l s o ->
  shortest (clock_delays l) D -> longest (clock_delays l) E ->
  E - D - tick < jitter s < E - D + tick /\ security_offset s = Z.max 2000000 (12 * jitter s / 10).
Proof. exact (conversation_jitter z l s o D E). Qed.
Print Assumptions C79_jitter.

(* A message is scheduled one offset after it would have arrived with a delay between the shortest and the
   longest delay of a clock so far, up to one tick; with the shortest delay unless that is before an earlier
   message or the arrival of a clock. *)
Theorem C79_schedule z l m s o D E : is_clock m = false -> stamped_in_order (l ++ [m]) -> clocks_after z l ->
  conversation z (l ++ [m]) s o -> shortest (clock_delays l) D -> longest (clock_delays l) E ->
  exists o' r off, o = o' ++ [(r, off)] /\ off = security_offset s /\
    sent_at m + D - tick < r - off < sent_at m + E + tick /\
    (Forall (fun p => fst p - snd p <= sent_at m + D - tick) o' ->
     Forall (fun t => is_clock t = true -> received_at t <= sent_at m + D - tick) l ->
     r - off < sent_at m + D + tick).
Proof.
  intros K P A C HD HE. destruct (conversation_message z l m s o D E K P A C HD HE) as (o' & r & off & X & Y & Z & W & _).
  exists o', r, off. exact (conj X (conj Y (conj Z W))).
Qed.
Print Assumptions C79_schedule.

(* a message that is not slower than the slowest clock is never scheduled in the past *)
Theorem C79_in_time z l m s o E : is_clock m = false -> stamped_in_order (l ++ [m]) -> clocks_after z l ->
  conversation z (l ++ [m]) s o -> longest (clock_delays l) E -> delay m <= E ->
  exists o' r off, o = o' ++ [(r, off)] /\ received_at m <= r.
Proof.
  intros K P A C HE Q.
  assert (HD : exists D, shortest (clock_delays l) D).
  { destruct HE as [HE _]. destruct (clock_delays l) as [|x d]; [contradiction|]. clear.
    revert x. induction d as [|y d IH]; intros x; [exists x; split; [now left|intros ? [<-|[]]; lia]|].
    destruct (IH (Z.min x y)) as (D & I & M). exists D. split.
    - destruct I as [<-|I]; [destruct (Z.min_spec x y) as [[_ ->]|[_ ->]]; cbn; auto|now do 2 right].
    - intros w [<-|[<-|W]]; [specialize (M (Z.min x y) (or_introl eq_refl)); lia..|apply M; now right]. }
  destruct HD as [D HD]. destruct (conversation_message z l m s o D E K P A C HD HE) as (o' & r & off & X & _ & _ & _ & W).
  exists o', r, off. exact (conj X (W Q)).
Qed.
Print Assumptions C79_in_time.

(* three clocks, 1 s apart, with delays of 2, 0.7 and 1.2 ms, and two messages with 1.1 ms *)
Definition talk : list trip :=
  [mkTrip true 100 150 2000150; mkTrip false 0 500000000 501100000; mkTrip true 0 1000000000 1000700000; mkTrip true 0 2000000000 2001200000].
Definition word : trip := mkTrip false 0 2100000000 2101100000.
Example talk_ok : is_clock word = false /\ stamped_in_order (talk ++ [word]) /\ clocks_after 0 talk /\
  clock_delays talk = [2000000; 700000; 1200000] /\ shortest (clock_delays talk) 700000 /\ longest (clock_delays talk) 2000000 /\
  delay word <= 2000000 /\
  exists s o, conversation 0 (talk ++ [word]) s o /\ jitter s = 1268150 /\
    o = [(503968150, 2000000); (2102700000, 2000000)].
Proof.
  split; [reflexivity|]. split; [unfold stamped_in_order; cbn -[Z.le Z.lt Z.mul Z.sub]; change tick with 32000; lia|].
  split; [unfold clocks_after, talk; repeat constructor; cbn; lia|]. split; [reflexivity|].
  split; [split; [right; now left|intros y H; cbn in H; lia]|]. split; [split; [now left|intros y H; cbn in H; lia]|].
  split; [cbn; lia|].
  exists (mkF 0 62499 2000700000 2100700000 1268150 2000000), [(503968150, 2000000); (2102700000, 2000000)].
  split; [|split; reflexivity]. eexists. split; [reflexivity|]. vm_compute. reflexivity.
Qed.
