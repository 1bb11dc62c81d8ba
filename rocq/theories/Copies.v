(* Collectors and parsers that are copied, assigned and moved.  The special member functions are
   the ones the compiler generates for the members of inc/midi/sysex_collector.h:53-57 and 78-83,
   inc/midi/midi1_byte_stream.h:75-85 and inc/midi/sysex.h:94-95, 158-164.  A callback is copied
   with its object, so a call of it is labelled with the object that makes it. *)
From Coq Require Import ZArith List Bool.
From Verif Require Import Base Packet Sysex Collector ByteStream.
Import ListNotations.
Local Open Scope Z_scope.
Local Open Scope res_scope.

(* ---- a program that uses any number of objects ------------------------------------------------- *)

(* a client: objects are numbered *)
Inductive object_op (K : Type) : Type :=
| On (i : nat) (k : K)        (* a call of the public interface of object i *)
| CopyTo (i j : nat)          (* object j is constructed as a copy of object i *)
| AssignTo (i j : nat)        (* object i is assigned to object j *)
| MoveTo (i j : nat).         (* object j is constructed or assigned from std::move of object i *)
Arguments On {K}. Arguments CopyTo {K}. Arguments AssignTo {K}. Arguments MoveTo {K}.

(* a client: object i becomes x *)
Definition put {A} (i : nat) (x : A) (s : nat -> A) : nat -> A := fun j => if Nat.eqb j i then x else s j.

Section Objects.
  Context {S K O : Type} (step : S -> K -> res (S * list O)) (copied : S -> S) (assigned : S -> S -> S) (moved : S -> S).

  (* a client; the output is the calls of callbacks, with the object that makes them *)
  Fixpoint run_objects (s : nat -> S) (prog : list (object_op K)) : res ((nat -> S) * list (nat * O)) :=
    match prog with
    | [] => Ok (s, [])
    | On i k :: prog' =>
        r <- step (s i) k ;;
        r' <- run_objects (put i (fst r) s) prog' ;;
        Ok (fst r', map (pair i) (snd r) ++ snd r')
    | CopyTo i j :: prog' => run_objects (put j (copied (s i)) s) prog'
    | AssignTo i j :: prog' => run_objects (put j (assigned (s i) (s j)) s) prog'
    | MoveTo i j :: prog' => run_objects (put i (moved (s i)) (put j (s i) s)) prog'
    end.
End Objects.

(* ---- sysex7_collector --------------------------------------------------------------------------- *)

(* sysex_collector.h:53-57, the copy constructor; the copy of a vector has the capacity that its
   elements need *)
Definition c7_copy (c : collector7) : collector7 :=
  mkC7 (c7_sysex c) (size (sx_data (c7_sysex c))) (c7_max c) (c7_state c) (c7_id_bytes c) (c7_has_cb c).
(* sysex_collector.h:53-57, copy assignment of c to d; a vector keeps its memory if it suffices *)
Definition c7_assign (c d : collector7) : collector7 :=
  mkC7 (c7_sysex c) (Z.max (c7_capacity d) (size (sx_data (c7_sysex c)))) (c7_max c) (c7_state c) (c7_id_bytes c) (c7_has_cb c).
(* sysex_collector.h:53-57, what is left of c after a move: a vector and a std::function are empty
   then, the other members are as before *)
Definition c7_moved (c : collector7) : collector7 :=
  mkC7 (mkSx (sx_id (c7_sysex c)) []) 0 (c7_max c) (c7_state c) (c7_id_bytes c) false.
Definition run7 (a : allocator) : (nat -> collector7) -> list (object_op collector_call) -> _ :=
  run_objects (c7_call a) c7_copy c7_assign c7_moved.

(* ---- sysex8_collector --------------------------------------------------------------------------- *)

(* sysex_collector.h:78-83, as above *)
Definition c8_copy (c : collector8) : collector8 :=
  mkC8 (c8_stream c) (c8_sysex c) (size (sx_data (c8_sysex c))) (c8_max c) (c8_state c) (c8_id_state c) (c8_has_cb c).
Definition c8_assign (c d : collector8) : collector8 :=
  mkC8 (c8_stream c) (c8_sysex c) (Z.max (c8_capacity d) (size (sx_data (c8_sysex c)))) (c8_max c) (c8_state c) (c8_id_state c)
    (c8_has_cb c).
Definition c8_moved (c : collector8) : collector8 :=
  mkC8 (c8_stream c) (mkSx (sx_id (c8_sysex c)) []) 0 (c8_max c) (c8_state c) (c8_id_state c) false.
Definition run8 (a : allocator) : (nat -> collector8) -> list (object_op collector_call) -> _ :=
  run_objects (c8_call a) c8_copy c8_assign c8_moved.

(* ---- midi1_byte_stream_parser -------------------------------------------------------------------- *)

(* midi1_byte_stream.h:75-85; the capacity of the vector is not part of the model of the parser, so
   copies equal the original *)
Definition parser_copy (st : parser) : parser := st.
Definition parser_assign (st old : parser) : parser := st.
(* midi1_byte_stream.h:75-85, what is left after a move; the packet callback is empty too, calling it
   throws std::bad_function_call, which is not modelled *)
Definition parser_moved (st : parser) : parser :=
  mkParser (m_group st) false (m_invoke_callbacks st) (m_packet st) (mkSx (sx_id (m_sysex st)) [])
    (m_packet_byte st) (m_num_missing_bytes st).
Definition run_parsers : (nat -> parser) -> list (object_op parser_call) -> _ :=
  run_objects parser_call_step parser_copy parser_assign parser_moved.
