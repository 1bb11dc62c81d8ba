(* An interface with sixteen MIDI 1 ports on one UMP connection, a client of the library without counterpart in /repo: one
   parser per port (midi1_byte_stream.h:39-89), set to the group of the port; packets received over the connection are sent as
   bytes (midi1_byte_stream.h:98-100) out of the port with the number of their group (universal_packet.h:329). *)
From Coq Require Import ZArith List Bool.
From Verif Require Import Base Packet Messages ByteStream WireSpec.
Import ListNotations.
Local Open Scope Z_scope.
Local Open Scope res_scope.

(* ---- ports to connection -------------------------------------------------------------------- *)

Definition new_ports : Z -> parser := fun g => new_parser g false true.
(* packets in the order of the callbacks *)
Definition to_connection (out : list event) : list packet :=
  concat (map (fun e => match e with EPacket p => [p] | ESysex _ => [] end) out).
(* a byte arrives at a port *)
Definition ports_step (P : Z -> parser) (x : Z * Z) : res ((Z -> parser) * list packet) :=
  r <- feed (P (fst x)) (snd x) ;;
  Ok (fun i => if i =? fst x then fst r else P i, to_connection (snd r)).
Fixpoint ports_run (P : Z -> parser) (l : list (Z * Z)) : res ((Z -> parser) * list packet) :=
  match l with
  | [] => Ok (P, [])
  | x :: l' => r <- ports_step P x ;; r' <- ports_run (fst r) l' ;; Ok (fst r', snd r ++ snd r')
  end.

(* ---- connection to ports -------------------------------------------------------------------- *)

(* words arrive in pieces; the words of an incomplete packet are kept *)
Fixpoint receive_pieces (pending : list Z) (pieces : list (list Z)) : list Z * list packet :=
  match pieces with
  | [] => (pending, [])
  | ws :: rest =>
      let r := receive pending ws in
      let r' := receive_pieces (fst r) rest in
      (fst r', snd r ++ snd r')
  end.
Fixpoint ports_out (ps : list packet) : res (list (Z * Z)) :=
  match ps with
  | [] => Ok []
  | p :: ps' => b <- to_midi1_byte_stream p ;; r <- ports_out ps' ;; Ok (map (pair (group p)) b ++ r)
  end.
