(* Model of inc/midi/sysex.h and src/sysex.cpp *)
From Coq Require Import ZArith List Bool.
From Verif Require Import Base Packet Messages.
Import ListNotations.
Local Open Scope Z_scope.
Local Open Scope res_scope.

(* sysex.h:56-174  struct sysex { manufacturer_t manufacturerID; data_type data; }
   The data vector is modelled by its contents; its capacity is modelled only in
   Collector.v, where it is observable.  sysex7 and sysex8 derive from it. *)
Record sysex : Type := mkSx { sx_id : Z; sx_data : list Z }.

(* the value ranges given by the C++ types, sysex.h:95-96 *)
Definition wf_sysex (s : sysex) : Prop := is_u32 (sx_id s) /\ Forall is_u8 (sx_data s).

Definition sysex_empty_value : sysex := mkSx 0 [].

(* sysex.cpp:31-39 *)
Definition total_data_size (s : sysex) : Z :=
  if negb (sx_id s =? 0)
  then size (sx_data s) + (if negb (Z.land (sx_id s) 0xFF0000 =? 0) then 1 else 3)
  else size (sx_data s).

(* sysex.cpp:43-46 *)
Definition sysex_empty (s : sysex) : bool :=
  (sx_id s =? 0) && match sx_data s with [] => true | _ => false end.

(* sysex.cpp:50-57 *)
Definition is_7bit (s : sysex) : bool := forallb (fun b => Z.land b 0x80 =? 0) (sx_data s).
(* sysex.cpp:61-68 *)
Definition is_8bit (s : sysex) : bool := existsb (fun b => negb (Z.land b 0x80 =? 0)) (sx_data s).
(* sysex.h:182 *)
Definition sysex7_is_valid (s : sysex) : bool :=
  (Z.land (sx_id s) 0xFF808080 =? 0) && is_7bit s.

(* sysex.h:234-242 *)
Fixpoint list_eqb (a b : list Z) : bool :=
  match a, b with
  | [], [] => true
  | x :: a', y :: b' => (x =? y) && list_eqb a' b'
  | _, _ => false
  end.
Definition sysex_eq (a b : sysex) : bool := (sx_id a =? sx_id b) && list_eqb (sx_data a) (sx_data b).
Definition sysex_neq (a b : sysex) : bool :=
  negb (sx_id a =? sx_id b) || negb (list_eqb (sx_data a) (sx_data b)).

(* data.push_back() for each byte of l *)
Definition push (s : sysex) (l : list Z) : sysex := mkSx (sx_id s) (sx_data s ++ l).

(* An assert() with NDEBUG as a parameter: [dbg] is true in a debug build; in a release
   build the assertion is not compiled. *)
Definition check (dbg c : bool) : res unit := if dbg then assert_ c else Ok tt.

(* sysex.h:244-250 *)
Definition add_uint7 (dbg : bool) (s : sysex) (v : Z) : res sysex :=
  check dbg (v <=? 127) ;;; Ok (push s [u8 (Z.land v 0x7F)]).

(* sysex.h:252-258; the pointer is modelled by the range it designates *)
Definition add_data (dbg : bool) (s : sysex) (d : list Z) : res sysex :=
  check dbg (negb (size d =? 0)) ;;; Ok (push s d).

(* sysex.h:260-266 *)
Definition add_uint14 (dbg : bool) (s : sysex) (v : Z) : res sysex :=
  check dbg (v <=? 16383) ;;;
  Ok (push s [u8 (Z.land v 0x7F); u8 (Z.land (Z.shiftr v 7) 0x7F)]).

(* sysex.h:268-272; converted to uint14_t = uint16_t *)
Definition make_uint14 (s : sysex) (pos : nat) : res Z :=
  assert_ (Z.of_nat pos + 1 <? size (sx_data s)) ;;;
  a <- vec_at (sx_data s) pos ;;
  b <- vec_at (sx_data s) (pos + 1) ;;
  Ok (u16 (Z.lor a (Z.shiftl b 7))).

(* sysex.h:274-283 *)
Definition add_uint28 (dbg : bool) (s : sysex) (v : Z) : res sysex :=
  check dbg (v <=? 268435455) ;;;
  Ok (push s [u8 (Z.land v 0x7F); u8 (Z.land (Z.shiftr v 7) 0x7F);
              u8 (Z.land (Z.shiftr v 14) 0x7F); u8 (Z.land (Z.shiftr v 21) 0x7F)]).

(* sysex.h:285-289 *)
Definition make_uint28 (s : sysex) (pos : nat) : res Z :=
  assert_ (Z.of_nat pos + 3 <? size (sx_data s)) ;;;
  a <- vec_at (sx_data s) pos ;;
  b <- vec_at (sx_data s) (pos + 1) ;;
  c <- vec_at (sx_data s) (pos + 2) ;;
  d <- vec_at (sx_data s) (pos + 3) ;;
  Ok (u32 (Z.lor (Z.lor (Z.lor a (Z.shiftl b 7)) (Z.shiftl c 14)) (Z.shiftl d 21))).

(* sysex.h:291-299 *)
Definition add_uint32 (s : sysex) (v : Z) : res sysex :=
  Ok (push s [u8 (Z.land v 0x7F); u8 (Z.land (Z.shiftr v 7) 0x7F);
              u8 (Z.land (Z.shiftr v 14) 0x7F); u8 (Z.land (Z.shiftr v 21) 0x7F);
              u8 (Z.land (Z.shiftr v 28) 0x0F)]).

(* sysex.h:301-305 *)
Definition make_uint32 (s : sysex) (pos : nat) : res Z :=
  assert_ (Z.of_nat pos + 4 <? size (sx_data s)) ;;;
  a <- vec_at (sx_data s) pos ;;
  b <- vec_at (sx_data s) (pos + 1) ;;
  c <- vec_at (sx_data s) (pos + 2) ;;
  d <- vec_at (sx_data s) (pos + 3) ;;
  e <- vec_at (sx_data s) (pos + 4) ;;
  Ok (u32 (Z.lor (Z.lor (Z.lor (Z.lor a (Z.shiftl b 7)) (Z.shiftl c 14)) (Z.shiftl d 21))
                 (Z.shiftl (Z.land e 0x0F) 28))).

(* types.h:243-249  struct device_identity *)
Record device_identity : Type := mkDevId {
  di_manufacturer : Z; di_family : Z; di_model : Z; di_revision : Z }.

(* sysex.cpp:83-97 *)
Definition add_device_identity (dbg : bool) (s : sysex) (d : device_identity) : res sysex :=
  check dbg (Z.land (di_manufacturer d) 0xFF808080 =? 0) ;;;
  check dbg (Z.land (di_family d) 0xC000 =? 0) ;;;
  check dbg (Z.land (di_model d) 0xC000 =? 0) ;;;
  check dbg (Z.land (di_revision d) 0xF0000000 =? 0) ;;;
  let s := push s [u8 (Z.land (Z.shiftr (di_manufacturer d) 16) 0x7F)] in
  let s := push s [u8 (Z.land (Z.shiftr (di_manufacturer d) 8) 0x7F)] in
  let s := push s [u8 (Z.land (di_manufacturer d) 0x7F)] in
  s <- add_uint14 dbg s (di_family d) ;;
  s <- add_uint14 dbg s (di_model d) ;;
  add_uint28 dbg s (di_revision d).

(* sysex.cpp:101-113 *)
Definition make_device_identity (s : sysex) (pos : nat) : res device_identity :=
  assert_ (Z.of_nat pos + 10 <? size (sx_data s)) ;;;
  a <- vec_at (sx_data s) pos ;;
  b <- vec_at (sx_data s) (pos + 1) ;;
  c <- vec_at (sx_data s) (pos + 2) ;;
  fam <- make_uint14 s (pos + 3) ;;
  mod_ <- make_uint14 s (pos + 5) ;;
  rev <- make_uint28 s (pos + 7) ;;
  Ok (mkDevId (u32 (Z.lor (Z.lor (Z.shiftl a 16) (Z.shiftl b 8)) c)) fam mod_ rev).

(* ---- sending ---------------------------------------------------------------- *)

(* sysex.h:326-340, the loop over sysex.data.  [sent] collects the packets passed
   to the sender callback, in order. *)
Fixpoint send7_loop (g : Z) (bs : list Z) (p : packet) (left : Z) (sent : list packet)
  : res (packet * list packet) :=
  match bs with
  | [] => Ok (p, sent)
  | b :: bs' =>
      p <- sysex7_add_payload_byte p b ;;
      let left := left - 1 in
      if Z.of_nat (sysex7_payload_size p) =? 6 then
        q <- (if left <=? 6 then make_sysex7_end_packet g else make_sysex7_continue_packet g) ;;
        send7_loop g bs' q left (sent ++ [p])
      else send7_loop g bs' p left sent
  end.

(* sysex.h:309-346 *)
Definition send_sysex7 (s : sysex) (g : Z) : res (list packet) :=
  p <- (if total_data_size s <=? 6 then make_sysex7_complete_packet g
        else make_sysex7_start_packet g) ;;
  p <- sysex7_add_payload_byte p (Z.land (Z.shiftr (sx_id s) 16) 0x7F) ;;
  p <- (if negb (Z.land (sx_id s) 0x00FFFF =? 0) then
          q <- sysex7_add_payload_byte p (Z.land (Z.shiftr (sx_id s) 8) 0x7F) ;;
          sysex7_add_payload_byte q (Z.land (sx_id s) 0x7F)
        else Ok p) ;;
  r <- send7_loop g (sx_data s) p (size (sx_data s)) [] ;;
  let '(p, sent) := r in
  Ok (if negb (Z.of_nat (sysex7_payload_size p) =? 0) then sent ++ [p] else sent).

(* sysex.h:350-358; reserve() has no observable effect on the result *)
Definition as_sysex7_packets (s : sysex) (g : Z) : res (list packet) := send_sysex7 s g.

(* sysex.h:385-397, the loop over sysex.data *)
Fixpoint send8_loop (stream g : Z) (bs : list Z) (p : packet) (left : Z) (sent : list packet)
  : res (packet * list packet) :=
  match bs with
  | [] => Ok (p, sent)
  | b :: bs' =>
      p <- sysex8_add_payload_byte p b ;;
      let left := left - 1 in
      if Z.of_nat (sysex8_payload_size p) =? 13 then
        let q := if left <=? 13 then make_sysex8_end_packet stream g
                 else make_sysex8_continue_packet stream g in
        send8_loop stream g bs' q left (sent ++ [p])
      else send8_loop stream g bs' p left sent
  end.

(* sysex.h:362-403 *)
Definition send_sysex8 (s : sysex) (stream g : Z) : res (list packet) :=
  let p := if total_data_size s <=? 13 then make_sysex8_complete_packet stream g
           else make_sysex8_start_packet stream g in
  p <- (if negb (Z.land (sx_id s) 0x00FFFF =? 0) then
          q <- sysex8_add_payload_byte p (u8 (0x80 + Z.land (Z.shiftr (sx_id s) 8) 0x7F)) ;;
          sysex8_add_payload_byte q (Z.land (sx_id s) 0x7F)
        else
          q <- sysex8_add_payload_byte p 0 ;;
          sysex8_add_payload_byte q (Z.land (Z.shiftr (sx_id s) 16) 0x7F)) ;;
  r <- send8_loop stream g (sx_data s) p (size (sx_data s)) [] ;;
  let '(p, sent) := r in
  Ok (if negb (Z.of_nat (sysex8_payload_size p) =? 0) then sent ++ [p] else sent).

(* sysex.h:405-413 *)
Definition as_sysex8_packets (s : sysex) (stream g : Z) : res (list packet) := send_sysex8 s stream g.
