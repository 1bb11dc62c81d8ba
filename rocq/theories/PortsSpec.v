(* Sixteen MIDI 1 ports over one connection. *)
From Coq Require Import ZArith List Bool.
From Verif Require Import Base Packet PacketSpec.
Import ListNotations.
Local Open Scope Z_scope.

(* what belongs to port k, in order *)
Definition of_port {A} (k : Z) (l : list (Z * A)) : list A := map snd (filter (fun x => fst x =? k) l).

(* other packets of any contents, but not of the listed types, sent anywhere between *)
Inductive among (types : list Z) : list packet -> list packet -> Prop :=
| among_nil : among types [] []
| among_keep p ps qs : among types ps qs -> among types (p :: ps) (p :: qs)
| among_other q ps qs : wf_packet q -> ~ In (w0 q / 268435456) types -> among types ps qs -> among types ps (q :: qs).

(* a system, MIDI 1 channel voice or SysEx7 packet on group k, by the bits *)
Definition from_port (k : Z) (p : packet) : bool :=
  ((1 <=? w0 p / 268435456) && (w0 p / 268435456 <=? 3)) && (w0 p / 16777216 mod 16 =? k).
