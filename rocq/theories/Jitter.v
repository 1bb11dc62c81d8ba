(* Model of class jr_clock_follower:
   inc/midi/jitter_reduction_timestamps.h and src/jitter_reduction_timestamps.cpp

   Times and durations are counts of nanoseconds in 64 bit signed integers, the
   representation of std::chrono::high_resolution_clock in libstdc++.  Arithmetic that
   leaves this range is undefined behaviour and a fault here. *)
From Coq Require Import ZArith List Bool.
From Verif Require Import Base.
Import ListNotations.
Local Open Scope Z_scope.
Local Open Scope res_scope.

(* the result of int64_t arithmetic *)
Definition i64 (x : Z) : res Z :=
  if (- 9223372036854775808 <=? x) && (x <=? 9223372036854775807) then Ok x else Fault SignedOverflow.

(* jitter_reduction_timestamps.h:64-70  jr_timestamp_t::operator-, a count of jr_ticks *)
Definition ts_diff (a b : Z) : Z :=
  let diff := a - b in
  u16 (if diff <? 0 then diff + 0x10000 else diff).

(* jitter_reduction_timestamps.h:38-42  jr_ticks has period 1/31250 s; the
   duration_cast to nanoseconds multiplies with 10^9 / 31250 = 32000 *)
Definition to_duration (ticks : Z) : res Z := i64 (ticks * 32000).

(* jitter_reduction_timestamps.h:166-174 *)
Record follower : Set := mkF {
  zero : Z;              (* time of construction *)
  clock_ts : Z; clock_time : Z; message_time : Z;
  jitter : Z; security_offset : Z }.

(* jitter_reduction_timestamps.h:166-174, the default member initialisers *)
Definition new_follower (now : Z) : follower := mkF now 0 now now 0 2000000.

(* jitter_reduction_timestamps.cpp:47-54 *)
Definition reset (s : follower) : follower := mkF (zero s) 0 (zero s) (zero s) 0 2000000.

(* jitter_reduction_timestamps.cpp:58-62 *)
Definition set_security_offset (s : follower) (offset : Z) : res follower :=
  assert_ (0 <=? offset) ;;;
  Ok (mkF (zero s) (clock_ts s) (clock_time s) (message_time s) (jitter s) offset).

(* jitter_reduction_timestamps.cpp:147-152; / truncates *)
Definition recalc_security_offset (s : follower) : res follower :=
  twelve <- i64 (jitter s * 12) ;;
  let value := Z.quot twelve 10 in
  if security_offset s <? value
  then Ok (mkF (zero s) (clock_ts s) (clock_time s) (message_time s) (jitter s) value)
  else Ok s.

(* assignment to the member *)
Definition with_jitter (s : follower) (j : Z) : follower :=
  mkF (zero s) (clock_ts s) (clock_time s) (message_time s) j (security_offset s).

(* jitter_reduction_timestamps.cpp:131-143 *)
Definition update_stats (s : follower) (j : Z) : res follower :=
  if j <? 0 then
    m <- i64 (jitter s - j) ;; recalc_security_offset (with_jitter s m)
  else if jitter s <? j then recalc_security_offset (with_jitter s j)
  else Ok s.

(* jitter_reduction_timestamps.cpp:66-102 *)
Definition process_clock (s : follower) (received ts : Z) : res follower :=
  if clock_time s =? zero s
  then Ok (mkF (zero s) ts received received (jitter s) (security_offset s))
  else
    duration <- to_duration (ts_diff ts (clock_ts s)) ;;
    expected <- i64 (clock_time s + duration) ;;
    j <- i64 (received - expected) ;;
    let s' :=
      if received <? expected
      then mkF (zero s) ts received
             (if message_time s <? received then received else message_time s)
             (jitter s) (security_offset s)
      else mkF (zero s) ts expected received (jitter s) (security_offset s) in
    update_stats s' j.

(* jitter_reduction_timestamps.cpp:106-127; returns the new state and the result *)
Definition schedule_message (s : follower) (received ts : Z) : res (follower * Z) :=
  m <- (if negb (clock_time s =? zero s)
        then
          duration <- to_duration (ts_diff ts (clock_ts s)) ;;
          t <- i64 (clock_time s + duration) ;;
          Ok (if message_time s <? t then t else message_time s)
        else Ok received) ;;
  result <- i64 (m + security_offset s) ;;
  Ok (mkF (zero s) (clock_ts s) (clock_time s) m (jitter s) (security_offset s), result).

(* ---- sequences of calls -------------------------------------------------------- *)

Inductive event : Set :=
| Clock (received ts : Z)       (* process_clock *)
| Message (received ts : Z)     (* schedule_message *)
| SetOffset (offset : Z)        (* set_security_offset *)
| Reset.                        (* reset *)

(* the new state and, for a scheduled message, the returned time and the security
   offset the caller can read *)
Definition step (s : follower) (e : event) : res (follower * option (Z * Z)) :=
  match e with
  | Clock t ts => s' <- process_clock s t ts ;; Ok (s', None)
  | Message t ts => r <- schedule_message s t ts ;; Ok (fst r, Some (snd r, security_offset (fst r)))
  | SetOffset o => s' <- set_security_offset s o ;; Ok (s', None)
  | Reset => Ok (reset s, None)
  end.

(* the final state and what was returned for the messages, in order *)
Fixpoint run (s : follower) (es : list event) : res (follower * list (Z * Z)) :=
  match es with
  | [] => Ok (s, [])
  | e :: es =>
      r <- step s e ;;
      r' <- run (fst r) es ;;
      Ok (fst r', match snd r with Some x => x :: snd r' | None => snd r' end)
  end.
