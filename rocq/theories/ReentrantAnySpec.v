(* Calls of collectors with arguments of the parameter types, at any depth *)
From Coq Require Import ZArith List Bool.
From Verif Require Import Base Packet PacketSpec ReentrantAny.
Import ListNotations.
Local Open Scope Z_scope.

Fixpoint free_ok (k : free_collect) : Prop :=
  match k with
  | GFeed p during =>
      wf_packet p /\
      (fix go (ks : list free_collect) : Prop := match ks with [] => True | k :: ks' => free_ok k /\ go ks' end) during
  | GReset | GSetCallback _ => True
  | GSetMax s => 0 <= s
  end.
