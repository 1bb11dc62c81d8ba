(* A sender and a receiver of jitter reduction messages in terms of real time. *)
From Coq Require Import ZArith List Bool.
From Verif Require Import Base Packet Jitter JrClock.
Import ListNotations.
Local Open Scope Z_scope.

(* A packet on its way: whether it is a clock or a message, the reading of the sender's clock that may
   initialise jr_clock, the reading when it is stamped and the receiver's time when it arrives.  The two
   clocks run equally fast but have an unknown offset, so that differences between the last two are
   transmission delays up to a constant. *)
Record trip : Set := mkTrip { is_clock : bool; init_at : Z; sent_at : Z; received_at : Z }.

Definition stamping_of (t : trip) : stamping :=
  if is_clock t then StampClock (init_at t) (sent_at t) else StampMessage (init_at t) (sent_at t).

(* nanoseconds of one tick of 1/31250 s *)
Definition tick : Z := 1000000000 / 31250.

(* the sender's clock does not go backwards, every packet is stamped less than 2.09712 s after the last clock *)
Fixpoint stamped_from (last : option Z) (now : Z) (l : list trip) : Prop :=
  match l with
  | [] => True
  | t :: l =>
      now <= sent_at t /\ (match last with Some c => sent_at t - c < 65535 * tick | None => True end) /\
      stamped_from (if is_clock t then Some (sent_at t) else last) (sent_at t) l
  end.
Definition stamped_in_order (l : list trip) : Prop :=
  match l with
  | [] => True
  | t :: _ => init_at t <= sent_at t /\ stamped_from None (sent_at t) l
  end.

(* clocks arrive after the receiver was made *)
Definition clocks_after (z : Z) (l : list trip) : Prop :=
  Forall (fun t => is_clock t = true -> z < received_at t) l.

Definition delay (t : trip) : Z := received_at t - sent_at t.
Definition clock_delays (l : list trip) : list Z := map delay (filter is_clock l).

Definition shortest (l : list Z) (x : Z) : Prop := In x l /\ forall y, In y l -> x <= y.
Definition longest (l : list Z) (x : Z) : Prop := In x l /\ forall y, In y l -> y <= x.

(* the packets of l are stamped, sent and received, with this final state of the follower and these times
   and offsets for the messages *)
Definition conversation (z : Z) (l : list trip) (s : follower) (o : list (Z * Z)) : Prop :=
  exists ps, send None (map stamping_of l) = Ok ps /\
    receive (new_follower z) (combine (map received_at l) ps) = Ok (s, o).
