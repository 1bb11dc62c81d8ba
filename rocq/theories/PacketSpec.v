(* What a packet is to a user: 16 bytes in network order, the first
   size(type) * 4 of which are transmitted.  Arithmetic only; no helper of the
   model besides the record of four words. *)
From Coq Require Import ZArith List Bool.
From Verif Require Import Base Packet.
Import ListNotations.
Local Open Scope Z_scope.

Definition words (p : packet) : list Z := [w0 p; w1 p; w2 p; w3 p].

Definition word_bytes (w : Z) : list Z :=
  [w / 16777216 mod 256; w / 65536 mod 256; w / 256 mod 256; w mod 256].

Definition bytes (p : packet) : list Z :=
  word_bytes (w0 p) ++ word_bytes (w1 p) ++ word_bytes (w2 p) ++ word_bytes (w3 p).

Definition be32 (a b c d : Z) : Z := a * 16777216 + b * 65536 + c * 256 + d.

(* replace element b of a list *)
Fixpoint upd {A} (l : list A) (b : nat) (v : A) : list A :=
  match l, b with
  | [], _ => []
  | _ :: t, O => v :: t
  | h :: t, S m => h :: upd t m v
  end.

(* UMP specification: packet size in words by message type *)
Definition ump_words (mt : Z) : nat :=
  if mt <? 3 then 1%nat
  else if mt <? 5 then 2%nat
  else if mt =? 5 then 4%nat
  else if mt <? 8 then 1%nat
  else if mt <? 11 then 2%nat
  else if mt <? 13 then 3%nat
  else 4%nat.

(* the words that go over the wire *)
Definition wire (p : packet) : list Z := firstn (ump_words (w0 p / 268435456)) (words p).

(* system status bytes defined by MIDI 1.0 / UMP *)
Definition defined_system_status (s : Z) : Prop :=
  s = 0xF1 \/ s = 0xF2 \/ s = 0xF3 \/ s = 0xF6 \/ s = 0xF8 \/ s = 0xFA \/ s = 0xFB \/
  s = 0xFC \/ s = 0xFE \/ s = 0xFF.

(* the packet with the given leading bytes, all further bytes 0 *)
Definition packet_of_bytes (l : list Z) : packet :=
  mkP (be32 (nth 0 l 0) (nth 1 l 0) (nth 2 l 0) (nth 3 l 0))
      (be32 (nth 4 l 0) (nth 5 l 0) (nth 6 l 0) (nth 7 l 0))
      (be32 (nth 8 l 0) (nth 9 l 0) (nth 10 l 0) (nth 11 l 0))
      (be32 (nth 12 l 0) (nth 13 l 0) (nth 14 l 0) (nth 15 l 0)).
