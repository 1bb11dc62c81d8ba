(* What is expected of time code: the times that are read are the times that were sent. *)
From Coq Require Import ZArith List Bool.
From Verif Require Import Base Packet PacketSpec TimeCode.
Import ListNotations.
Local Open Scope Z_scope.

Definition time_ok (t : timecode) : Prop :=
  0 <= tc_h t < 24 /\ 0 <= tc_m t < 60 /\ 0 <= tc_s t < 60 /\ 0 <= tc_f t < 30 /\ 0 <= tc_rate t < 4.

(* ---- the eight data bytes of a time, and the time they tell ---------------------------------------- *)

Definition quarters_of (t : timecode) : list Z :=
  [tc_f t mod 16; 0x10 + tc_f t / 16; 0x20 + tc_s t mod 16; 0x30 + tc_s t / 16; 0x40 + tc_m t mod 16; 0x50 + tc_m t / 16;
   0x60 + tc_h t mod 16; 0x70 + 2 * tc_rate t + tc_h t / 16].
Definition time_of (q : list Z) : timecode :=
  match q with
  | [f0; f1; s0; s1; m0; m1; h0; h1] =>
      mkTime (h0 mod 16 + 16 * (h1 mod 2)) (m0 mod 16 + 16 * (m1 mod 4)) (s0 mod 16 + 16 * (s1 mod 4)) (f0 mod 16 + 16 * (f1 mod 2))
             (h1 / 2 mod 4)
  | _ => mkTime 0 0 0 0 0
  end.

(* the first n bytes are the pieces k, k + 1, ... *)
Fixpoint in_a_row (k : Z) (n : nat) (q : list Z) : bool :=
  match n, q with
  | O, _ => true
  | S _, [] => false
  | S n', d :: t => (d / 16 =? k) && in_a_row (k + 1) n' t
  end.
(* a time is told wherever the pieces 0 to 7 come in a row *)
Fixpoint times_in (q : list Z) : list timecode :=
  match q with
  | [] => []
  | d :: t => (if in_a_row 0 8 (d :: t) then [time_of (firstn 8 (d :: t))] else []) ++ times_in t
  end.

(* ---- the quarter frames among the bytes of a MIDI 1 connection -------------------------------------- *)

(* w: the data byte is outstanding.  Real-time bytes may come anywhere, any other status byte ends a message that is under way. *)
Fixpoint quarters (w : bool) (bs : list Z) : list Z :=
  match bs with
  | [] => []
  | b :: t =>
      if 0xF8 <=? b then quarters w t
      else if 0x80 <=? b then quarters (b =? 0xF1) t
      else (if w then [b] else []) ++ quarters false t
  end.

(* by the bits *)
Definition quarter_packet (p : packet) : bool := (w0 p / 268435456 =? 1) && (w0 p / 65536 mod 256 =? 0xF1).
