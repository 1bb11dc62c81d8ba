(* What a clock follower should compute, in terms of the sender's unwrapped time. *)
From Coq Require Import ZArith List.
From Verif Require Import Base Jitter.
Import ListNotations.
Local Open Scope Z_scope.

(* what arrives: clocks and messages stamped with the sender's time in ticks of
   1/31250 s, counted without wrapping around, and the local time of reception *)
Inductive sent : Set :=
| SentClock (tick received : Z)
| SentMessage (tick received : Z).

(* only the low 16 bits of the sender's time are transmitted *)
Definition arrival (x : sent) : event :=
  match x with
  | SentClock k t => Clock t (k mod 65536)
  | SentMessage k t => Message t (k mod 65536)
  end.

(* nanoseconds per tick *)
Definition tick_ns : Z := 1000000000 / 31250.

(* The clocks of the sender do not go backwards and are less than 2^16 ticks apart,
   each message is less than 2^16 ticks after the last clock. *)
Fixpoint in_range (last : option Z) (xs : list sent) : Prop :=
  match xs with
  | [] => True
  | SentClock k _ :: xs =>
      (match last with Some l => l <= k < l + 65536 | None => True end) /\ in_range (Some k) xs
  | SentMessage k _ :: xs =>
      (match last with Some l => l <= k < l + 65536 | None => True end) /\ in_range last xs
  end.

(* all clocks are received after the follower was constructed *)
Fixpoint received_after (z : Z) (xs : list sent) : Prop :=
  match xs with
  | [] => True
  | SentClock _ t :: xs => z < t /\ received_after z xs
  | SentMessage _ _ :: xs => received_after z xs
  end.

(* transmission delays of the clocks, up to the unknown offset between the time bases *)
Fixpoint delays (xs : list sent) : list Z :=
  match xs with
  | [] => []
  | SentClock k t :: xs => (t - tick_ns * k) :: delays xs
  | SentMessage _ _ :: xs => delays xs
  end.

Definition is_min (l : list Z) (m : Z) : Prop := In m l /\ forall x, In x l -> m <= x.
Definition is_max (l : list Z) (m : Z) : Prop := In m l /\ forall x, In x l -> x <= m.

(* tick and reception time of the last clock *)
Fixpoint last_clock (o : option (Z * Z)) (xs : list sent) : option (Z * Z) :=
  match xs with
  | [] => o
  | SentClock k t :: xs => last_clock (Some (k, t)) xs
  | SentMessage _ _ :: xs => last_clock o xs
  end.

(* times of reception do not go backwards *)
Fixpoint receptions_from (now : Z) (es : list event) : Prop :=
  match es with
  | [] => True
  | Clock t _ :: es | Message t _ :: es => now <= t /\ receptions_from t es
  | _ :: es => receptions_from now es
  end.

Definition is_arrival (e : event) : Prop :=
  match e with Clock _ ts | Message _ ts => is_u16 ts | _ => False end.

(* reception times of the messages *)
Fixpoint message_receptions (es : list event) : list Z :=
  match es with
  | [] => []
  | Message t _ :: es => t :: message_receptions es
  | _ :: es => message_receptions es
  end.

(* every message is scheduled no later than the security offset after its reception *)
Definition on_time (received : list Z) (out : list (Z * Z)) : Prop :=
  Forall2 (fun t o => fst o <= t + snd o) received out.

Fixpoint nondecreasing (l : list Z) : Prop :=
  match l with
  | x :: ((y :: _) as r) => x <= y /\ nondecreasing r
  | _ => True
  end.

Definition count_clocks (es : list event) : Z :=
  size (filter (fun e => match e with Clock _ _ => true | _ => false end) es).

Definition is_clock_or_message (e : event) : Prop :=
  match e with Clock _ _ | Message _ _ => True | _ => False end.


(* events in the order in which the sender stamped them *)
Fixpoint sender_order (k0 : Z) (xs : list sent) : Prop :=
  match xs with
  | [] => True
  | SentClock k _ :: xs | SentMessage k _ :: xs => k0 <= k /\ sender_order k xs
  end.


Fixpoint message_ticks (xs : list sent) : list Z :=
  match xs with
  | [] => []
  | SentMessage k _ :: xs => k :: message_ticks xs
  | SentClock _ _ :: xs => message_ticks xs
  end.


(* the longest time between two clocks that can be told apart, in ns *)
Definition longest_gap : Z := 65535 * 32000.


(* reception times are in [a, b], offsets set explicitly at most off *)
Definition calls_within (a b off : Z) (e : event) : Prop :=
  match e with
  | Clock t ts | Message t ts => a <= t <= b /\ is_u16 ts
  | SetOffset o => 0 <= o <= off
  | Reset => True
  end.

