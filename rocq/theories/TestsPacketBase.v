(* Helpers of the files that run the packet tests of /repo/tests on the model. *)
From Coq Require Import ZArith List Bool.
From Verif Require Import Base Bits Packet.
Import ListNotations.
Local Open Scope Z_scope.

(* a loop of a test: every expectation of the body holds for every value of the index *)
Definition over (l : list Z) (body : Z -> list (res bool)) : res bool :=
  Ok (forallb (fun i => forallb (fun r => match r with Ok b => b | Fault _ => false end) (body i)) l).
(* channel_voice_message_tests.cpp:33-36 *)
Definition make_packet (t g s d : Z) : packet :=
  mkP (Z.lor (Z.lor (Z.shiftl t 28) (Z.shiftl (Z.land g 15) 24)) (Z.shiftl s 16)) d 0 0.
