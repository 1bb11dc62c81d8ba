(* Properties C40 to C43, C58 and C59 *)
From Coq Require Import ZArith List Bool Lia.
From Verif Require Import Base Jitter JitterSpec JitterProofs.
Import ListNotations.
Local Open Scope Z_scope.

(* ---- C40 -------------------------------------------------------------------- *)

Theorem C40_difference : forall a b, is_u16 a -> is_u16 b ->
  ts_diff a b = (a - b) mod 65536 /\ 0 <= ts_diff a b < 65536 /\
  (b + ts_diff a b) mod 65536 = a.
Proof.
  intros a b Ha Hb. exact (conj (ts_diff_mod a b Ha Hb) (conj (ts_diff_range a b) (ts_diff_back a b Ha Hb))).
Qed.
Print Assumptions C40_difference.

(* the elapsed time is recovered over any number of wrap-arounds *)
Theorem C40_unwraps : forall k l, l <= k < l + 65536 ->
  ts_diff (k mod 65536) (l mod 65536) = k - l.
Proof. exact ts_diff_ticks. Qed.
Print Assumptions C40_unwraps.

Example C40_ex :
  ts_diff 5 0xFFFB = 10 /\ ts_diff 0xFFFB 5 = 65526 /\ ts_diff 7 7 = 0.
Proof. repeat split. Qed.

(* ---- C41 -------------------------------------------------------------------- *)

Theorem C41_order : forall z es s o, Forall is_arrival es -> receptions_from z es ->
  run (new_follower z) es = Ok (s, o) -> on_time (message_receptions es) o ->
  nondecreasing (map fst o).
Proof. exact order_new. Qed.
Print Assumptions C41_order.

(* from any state, with no clock in between *)
Theorem C41_messages_in_a_row : forall s t ts t' ts' s' o, t <= t' ->
  run s [Message t ts; Message t' ts'] = Ok (s', o) ->
  exists r r' off, o = [(r, off); (r', off)] /\ r <= r'.
Proof. exact order_messages. Qed.
Print Assumptions C41_messages_in_a_row.

(* from any state, a message is never scheduled before the last clock came in *)
Theorem C41_not_before_the_clock : forall s tc c t ts s' o,
  run s [Clock tc c; Message t ts] = Ok (s', o) -> tc <= t ->
  exists r off, o = [(r, off)] /\ tc + off <= r.
Proof. exact after_clock. Qed.
Print Assumptions C41_not_before_the_clock.

(* without the provision the order can be violated *)
Theorem C41_order_refuted : exists z es s o, Forall is_arrival es /\ receptions_from z es /\
  run (new_follower z) es = Ok (s, o) /\ ~ nondecreasing (map fst o).
Proof.
  exists 0, [Clock 1000 0; Message 1000 31250; Clock 1001000 0; Message 1001000 0].
  eexists _, _. split; [|split; [|split; [vm_compute; reflexivity|]]].
  - repeat constructor; unfold is_u16; lia.
  - cbn [receptions_from]. lia.
  - cbn [map fst nondecreasing]. lia.
Qed.
Print Assumptions C41_order_refuted.

Example C41_ex :
  let es := [Clock 100000 1; Message 164000 2; Clock 200000 3; Message 300000 5] in
  Forall is_arrival es /\ receptions_from 5 es /\
  exists s o, run (new_follower 5) es = Ok (s, o) /\ on_time (message_receptions es) o /\
    map fst o = [2132000; 2228000].
Proof.
  cbv zeta. split; [repeat constructor; unfold is_u16; lia|]. split; [cbn [receptions_from]; lia|].
  eexists _, _. split; [vm_compute; reflexivity|]. split; [|reflexivity].
  repeat constructor; cbn [fst snd]; lia.
Qed.

(* ---- C42 -------------------------------------------------------------------- *)

(* all histories, including resets and offsets set explicitly *)
Theorem C42_never_negative : forall z es s o, run (new_follower z) es = Ok (s, o) ->
  0 <= jitter s /\ 0 <= security_offset s.
Proof. intros z es s o H. exact (sane_run es _ _ _ (sane_new z) H). Qed.
Print Assumptions C42_never_negative.

(* after any history [es], clocks and messages never lower jitter or offset *)
Theorem C42_never_decreases : forall z es fs s s' o o', run (new_follower z) es = Ok (s, o) ->
  Forall is_clock_or_message fs -> run s fs = Ok (s', o') ->
  jitter s <= jitter s' /\ security_offset s <= security_offset s'.
Proof.
  intros z es fs s s' o o' H F H'.
  destruct (grows_run fs s s' o' (sane_run es _ _ _ (sane_new z) H) F H') as (A & B & _). exact (conj A B).
Qed.
Print Assumptions C42_never_decreases.

Theorem C42_offset_covers_jitter : forall z es s o, Forall (fun e => forall x, e <> SetOffset x) es ->
  run (new_follower z) es = Ok (s, o) -> 0 <= jitter s /\ 12 * jitter s / 10 <= security_offset s.
Proof. exact offset_covers. Qed.
Print Assumptions C42_offset_covers_jitter.

(* an offset set explicitly is kept, and dominates until the jitter demands more *)
Theorem C42_offset_set_refuted : exists z es s o,
  run (new_follower z) es = Ok (s, o) /\ security_offset s < 12 * jitter s / 10.
Proof.
  exists 0, [Clock 1000 0; Clock 9001000 0; SetOffset 0]. eexists _, _.
  split; [vm_compute; reflexivity|]. cbn. lia.
Qed.
Print Assumptions C42_offset_set_refuted.

Example C42_ex :
  exists s o, run (new_follower 0) [Clock 1000 0; Clock 5001000 0; Clock 9001000 100] = Ok (s, o) /\
    jitter s = 5800000 /\ security_offset s = 6960000.
Proof. eexists _, _. split; [vm_compute; reflexivity|]. split; reflexivity. Qed.

(* ---- C43 -------------------------------------------------------------------- *)

(* every clock comes in exactly on the sender's grid *)
Theorem C43_exact : forall z off k0 t0 xs s o, z < t0 -> 0 <= off ->
  sender_order k0 xs -> in_range (Some k0) xs ->
  Forall (fun x => x = t0 - tick_ns * k0) (delays xs) ->
  run (new_follower z) (SetOffset off :: Clock t0 (k0 mod 65536) :: map arrival xs) = Ok (s, o) ->
  o = map (fun k => (t0 + tick_ns * (k - k0) + off, off)) (message_ticks xs) /\
  jitter s = 0 /\ security_offset s = off.
Proof. exact exact_new. Qed.
Print Assumptions C43_exact.

(* the clock must come in after construction: a clock at that very time is forgotten *)
Theorem C43_clock_at_construction_refuted : exists z k0 k t o s, in_range (Some k0) [SentMessage k t] /\
  run (new_follower z) [Clock z (k0 mod 65536); Message t (k mod 65536)] = Ok (s, o) /\
  map fst o <> [z + tick_ns * (k - k0) + 2000000].
Proof.
  exists 5, 0, 1, 100. eexists _, _. split; [cbn [in_range]; lia|].
  split; [vm_compute; reflexivity|]. vm_compute. congruence.
Qed.
Print Assumptions C43_clock_at_construction_refuted.

Example C43_ex :
  let xs := [SentMessage 65000 7; SentClock 65530 32000000; SentMessage 65540 9; SentClock 130000 2095040000;
             SentMessage 195000 0] in
  sender_order 64530 xs /\ in_range (Some 64530) xs /\
  Forall (fun x => x = 0 - tick_ns * 64530) (delays xs) /\
  exists s, run (new_follower (-1)) (SetOffset 2000000 :: Clock 0 (64530 mod 65536) :: map arrival xs) =
    Ok (s, [(17040000, 2000000); (34320000, 2000000); (4177040000, 2000000)]).
Proof.
  cbv zeta. split; [cbn [sender_order]; lia|]. split; [cbn [in_range]; lia|].
  split; [repeat constructor|]. eexists. vm_compute. reflexivity.
Qed.

(* ---- C58 -------------------------------------------------------------------- *)

(* after any history the jitter is the difference between the longest and the shortest
   transmission delay of the clocks received so far *)
Theorem C58_jitter_is_delay_range : forall z xs s o, in_range None xs -> received_after z xs ->
  run (new_follower z) (map arrival xs) = Ok (s, o) ->
  (delays xs = [] /\ jitter s = 0 /\ security_offset s = 2000000) \/
  exists m M, is_min (delays xs) m /\ is_max (delays xs) M /\
    jitter s = M - m /\ security_offset s = Z.max 2000000 (12 * (M - m) / 10).
Proof. exact tracking. Qed.
Print Assumptions C58_jitter_is_delay_range.

(* a message is scheduled as if transmitted like the fastest clock so far, plus the
   offset; later only if that is before the last clock or an earlier message *)
Theorem C58_follows_fastest_clock : forall z xs k t s o,
  in_range None (xs ++ [SentMessage k t]) -> received_after z xs ->
  run (new_follower z) (map arrival (xs ++ [SentMessage k t])) = Ok (s, o) ->
  forall kc tc, last_clock None xs = Some (kc, tc) ->
  exists o' r off m, o = o' ++ [(r, off)] /\ is_min (delays xs) m /\ security_offset s = off /\
    tick_ns * k + m <= r - off /\ tc <= r - off /\
    (Forall (fun p => fst p - snd p <= tick_ns * k + m) o' ->
     Forall (fun x => match x with SentClock _ t' => t' <= tick_ns * k + m | SentMessage _ _ => True end) xs ->
     r = tick_ns * k + m + off).
Proof. exact scheduling. Qed.
Print Assumptions C58_follows_fastest_clock.

(* a message stamped one tick before the last clock is taken for 65535 ticks after it *)
Theorem C58_older_message_refuted : exists z kc tc t s o,
  run (new_follower z) [Clock tc (kc mod 65536); Message t ((kc - 1) mod 65536)] = Ok (s, o) /\
  map fst o = [tc + tick_ns * 65535 + 2000000].
Proof.
  exists 0, 100, 1000000, 1000000. eexists _, _. split; vm_compute; reflexivity.
Qed.
Print Assumptions C58_older_message_refuted.

Example C58_ex :
  let xs := [SentClock 10 400000; SentClock 20 720500; SentClock 30 1039900] in
  in_range None (xs ++ [SentMessage 40 1500000]) /\ received_after 0 xs /\
  delays xs = [80000; 80500; 79900] /\ last_clock None xs = Some (30, 1039900) /\
  exists s, run (new_follower 0) (map arrival (xs ++ [SentMessage 40 1500000])) =
    Ok (s, [(1280000 + 79900 + 2000000, 2000000)]) /\ jitter s = 600.
Proof.
  cbv zeta. split; [cbn [in_range app]; lia|]. split; [cbn [received_after]; lia|].
  split; [reflexivity|]. split; [reflexivity|]. eexists. split; [vm_compute; reflexivity|reflexivity].
Qed.

(* ---- C59 -------------------------------------------------------------------- *)

(* no call overflows as long as the observed time span and the number of clocks stay
   within about 24 years *)
Theorem C59_no_overflow : forall a b off es, 0 <= a <= b -> 2000000 <= off ->
  Forall (calls_within a b off) es -> receptions_from a es ->
  12 * ((b - a) + count_clocks es * longest_gap) <= 9223372036854775807 ->
  b + longest_gap + Z.max off (12 * ((b - a) + count_clocks es * longest_gap) / 10) <= 9223372036854775807 ->
  exists s o, run (new_follower a) es = Ok (s, o).
Proof. exact no_overflow. Qed.
Print Assumptions C59_no_overflow.

(* beyond, they can *)
Theorem C59_overflow_refuted : exists a es, 0 <= a /\ receptions_from a es /\
  run (new_follower a) es = Fault SignedOverflow.
Proof.
  exists 0, [Clock 1 0; Clock 800000000000000000 0]. split; [lia|].
  split; [cbn [receptions_from]; lia|]. vm_compute. reflexivity.
Qed.
Print Assumptions C59_overflow_refuted.

(* one year of clocks every second, 60 years after the epoch *)
Example C59_ex :
  12 * (31536000000000000 + 31536000 * longest_gap) <= 9223372036854775807 /\
  1892160000000000000 + longest_gap +
    Z.max 2000000 (12 * (31536000000000000 + 31536000 * longest_gap) / 10) <= 9223372036854775807.
Proof. split; vm_compute; congruence. Qed.
