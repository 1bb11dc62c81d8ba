(* Model of class jr_clock of src/jitter_reduction_timestamps.cpp and of a sender and a receiver of jitter
   reduction messages. *)
From Coq Require Import ZArith List Bool.
From Verif Require Import Base Packet Utility Jitter.
Import ListNotations.
Local Open Scope Z_scope.
Local Open Scope res_scope.

(* src/jitter_reduction_timestamps.cpp:33-43  jr_clock::now()
   The state is the static variable zero, None before the first call.  [init] is the reading of the system
   clock that initialises it, used by the first call only, [now] the reading of this call, both in
   nanoseconds.  The duration_cast divides by 10^9 / 31250 = 32000 and truncates.  A concurrent first call
   is not modelled (the initialisation of a static variable is serialised by the language). *)
Definition jr_now (zero : option Z) (init now : Z) : res (option Z * Z) :=
  let z := match zero with Some z => z | None => init end in
  d <- i64 (now - z) ;;
  Ok (Some z, u16 (Z.land (Z.quot d 32000) 0xFFFF)).

(* What a sender does: it stamps a clock or a message with jr_clock::now() and sends the packet
   (inc/midi/jitter_reduction_timestamps.h:115-136). *)
Inductive stamping : Set :=
| StampClock (init now : Z)
| StampMessage (init now : Z).

Fixpoint send (zero : option Z) (l : list stamping) : res (list packet) :=
  match l with
  | [] => Ok []
  | StampClock init now :: l =>
      r <- jr_now zero init now ;;
      p <- jr_clock_message (snd r) ;;
      ps <- send (fst r) l ;; Ok (p :: ps)
  | StampMessage init now :: l =>
      r <- jr_now zero init now ;;
      p <- jr_timestamp_message (snd r) ;;
      ps <- send (fst r) l ;; Ok (p :: ps)
  end.

(* What a receiver does with a packet that comes in at the given time: clocks go to process_clock, timestamps
   to schedule_message, other packets nowhere (inc/midi/jitter_reduction_timestamps.h:90-93 timestamp(),
   inc/midi/utility_message.h:60 status(), :153-160 the follower). *)
Definition receive_event (t : Z) (p : packet) : res (option event) :=
  if type p =? pt_utility then
    if status p =? us_jr_clock then ts <- jr_get_timestamp p ;; Ok (Some (Clock t ts))
    else if status p =? us_jr_timestamp then ts <- jr_get_timestamp p ;; Ok (Some (Message t ts))
    else Ok None
  else Ok None.

Fixpoint receive (s : follower) (ps : list (Z * packet)) : res (follower * list (Z * Z)) :=
  match ps with
  | [] => Ok (s, [])
  | (t, p) :: ps =>
      e <- receive_event t p ;;
      match e with
      | None => receive s ps
      | Some e =>
          r <- step s e ;;
          r' <- receive (fst r) ps ;;
          Ok (fst r', match snd r with Some x => x :: snd r' | None => snd r' end)
      end
  end.
