(* What is expected of a merge box with limited memory *)
From Coq Require Import ZArith List Bool.
From Verif Require Import Base Packet.
Import ListNotations.
Local Open Scope Z_scope.

(* some elements of a list, in its order *)
Inductive some_of {A} : list A -> list A -> Prop :=
| some_nil : some_of [] []
| some_take x l l' : some_of l l' -> some_of (x :: l) (x :: l')
| some_leave x l l' : some_of l l' -> some_of l (x :: l').

(* a packet that belongs to a SysEx that began before it, by the bits *)
Definition follows_on (p : packet) : Prop := w0 p / 268435456 = 3 /\ (w0 p / 1048576 mod 16 = 2 \/ w0 p / 1048576 mod 16 = 3).
