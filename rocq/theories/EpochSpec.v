(* Histories of a clock follower seen from other clocks. *)
From Coq Require Import ZArith List.
From Verif Require Import Base Jitter.
Import ListNotations.
Local Open Scope Z_scope.

(* the receiver's clock shows [d] more *)
Definition received_later (d : Z) (e : event) : event :=
  match e with
  | Clock t ts => Clock (t + d) ts
  | Message t ts => Message (t + d) ts
  | SetOffset _ | Reset => e
  end.

(* the sender's clock shows [k] ticks more; 16 bits are sent *)
Definition stamped_later (k : Z) (e : event) : event :=
  match e with
  | Clock t ts => Clock t ((ts + k) mod 65536)
  | Message t ts => Message t ((ts + k) mod 65536)
  | SetOffset _ | Reset => e
  end.

(* what is returned for the messages, or that a computation overflowed *)
Definition returned (r : res (follower * list (Z * Z))) : res (list (Z * Z)) :=
  match r with Ok (_, o) => Ok o | Fault f => Fault f end.

Definition stamps_ok (e : event) : Prop :=
  match e with Clock _ ts | Message _ ts => is_u16 ts | SetOffset _ | Reset => True end.

(* no clock was received before the time [z], nor at that time *)
Definition clock_after (z : Z) (e : event) : Prop :=
  match e with Clock t _ => z < t | _ => True end.
