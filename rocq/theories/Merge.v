(* A merge box: a client of the library that sends what arrives from several MIDI 1 connections over one.  It has no
   counterpart in /repo; it consists of one parser per connection (midi1_byte_stream.h:39-89), the predicates of
   universal_packet.h and data_message.h, and to_midi1_byte_stream (midi1_byte_stream.h:98-100). *)
From Coq Require Import ZArith List Bool.
From Verif Require Import Base Packet Messages ByteStream.
Import ListNotations.
Local Open Scope Z_scope.
Local Open Scope res_scope.

(* real-time messages are passed on at once, also within a SysEx *)
Definition passes_at_once (p : packet) : bool := is_system_message p && (0xF8 <=? status p).
(* start and continue packets: the line stays with the connection until the SysEx is complete *)
Definition keeps_line (p : packet) : bool :=
  is_sysex7_packet p && ((sysex7_format p =? 1) || (sysex7_format p =? 2)).

(* the connection that is within a SysEx, and packets that have to wait, with their connections *)
Record merger := mkMerger { mg_line : option nat; mg_waiting : list (nat * packet) }.
Definition new_merger : merger := mkMerger None [].

Definition may_send (line : option nat) (s : nat) : bool :=
  match line with None => true | Some o => Nat.eqb o s end.
(* the first of the waiting packets that may be sent, and the others *)
Fixpoint next_out (line : option nat) (w : list (nat * packet)) : option ((nat * packet) * list (nat * packet)) :=
  match w with
  | [] => None
  | x :: w' =>
      if may_send line (fst x) then Some (x, w')
      else match next_out line w' with Some (y, r) => Some (y, x :: r) | None => None end
  end.
(* sends what may be sent; the number bounds the packets sent *)
Fixpoint drain (n : nat) (line : option nat) (w : list (nat * packet)) : merger * list (nat * packet) :=
  match n with
  | O => (mkMerger line w, [])
  | S n' =>
      match next_out line w with
      | None => (mkMerger line w, [])
      | Some (x, w') =>
          let r := drain n' (if keeps_line (snd x) then Some (fst x) else None) w' in
          (fst r, x :: snd r)
      end
  end.
Definition merge_step (m : merger) (x : nat * packet) : merger * list (nat * packet) :=
  if passes_at_once (snd x) then (m, [x])
  else let w := mg_waiting m ++ [x] in drain (length w) (mg_line m) w.
Fixpoint merge_run (m : merger) (l : list (nat * packet)) : merger * list (nat * packet) :=
  match l with
  | [] => (m, [])
  | x :: l' => let r := merge_step m x in let r' := merge_run (fst r) l' in (fst r', snd r ++ snd r')
  end.

(* ---- with parsers in front of it ----------------------------------------------------------- *)

Record box := mkBox { bx_parsers : nat -> parser; bx_merger : merger }.
Definition box_packets (s : nat) (out : list event) : list (nat * packet) :=
  concat (map (fun e => match e with EPacket p => [(s, p)] | ESysex _ => [] end) out).
Definition box_step (b : box) (x : nat * Z) : res (box * list (nat * packet)) :=
  r <- feed (bx_parsers b (fst x)) (snd x) ;;
  let r' := merge_run (bx_merger b) (box_packets (fst x) (snd r)) in
  Ok (mkBox (fun i => if Nat.eqb i (fst x) then fst r else bx_parsers b i) (fst r'), snd r').
Fixpoint box_run (b : box) (l : list (nat * Z)) : res (box * list (nat * packet)) :=
  match l with
  | [] => Ok (b, [])
  | x :: l' => r <- box_step b x ;; r' <- box_run (fst r) l' ;; Ok (fst r', snd r ++ snd r')
  end.
