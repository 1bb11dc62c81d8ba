(* Specification vocabulary for 7-bit fields of SysEx messages: base 128 digits. *)
From Coq Require Import ZArith List Bool.
From Verif Require Import Base.
Import ListNotations.
Local Open Scope Z_scope.

(* the n least significant base 128 digits of v, least significant first *)
Fixpoint le7 (n : nat) (v : Z) : list Z :=
  match n with
  | O => []
  | S m => v mod 128 :: le7 m (v / 128)
  end.

(* the number written by base 128 digits, least significant first *)
Fixpoint val7 (l : list Z) : Z :=
  match l with
  | [] => 0
  | d :: t => d + 128 * val7 t
  end.

(* A device identity as a MIDI user knows it: three manufacturer bytes, where a one byte
   manufacturer b is b 0 0 and a three byte manufacturer starts with 0. *)
Definition identity_bytes (m0 m1 m2 family model revision : Z) : list Z :=
  [m0; m1; m2] ++ le7 2 family ++ le7 2 model ++ le7 4 revision.

Definition all7 (l : list Z) : Prop := Forall is_u7 l.
