(* Model of inc/midi/universal_sysex.h and src/universal_sysex.cpp.

   universal_sysex::message and its derived classes add no members to sysex7, so they
   are modelled by [sysex].  A view holds a reference to the message and is modelled by
   the message itself. *)
From Coq Require Import ZArith List Bool.
From Verif Require Import Base Packet Messages Sysex.
Import ListNotations.
Local Open Scope Z_scope.
Local Open Scope res_scope.

(* manufacturer.h:66-67 *)
Definition universal_non_realtime : Z := 0x7E0000.
Definition universal_realtime : Z := 0x7F0000.

(* v[i] = x on a std::vector with contents l *)
Fixpoint vec_set {A} (l : list A) (i : nat) (x : A) : res (list A) :=
  match l, i with
  | [], _ => Fault OutOfBounds
  | _ :: t, O => Ok (x :: t)
  | h :: t, S j => r <- vec_set t j x ;; Ok (h :: r)
  end.

(* universal_sysex.h:98-105 message_view constructor: its two assertions *)
Definition message_view (dbg : bool) (s : sysex) : res sysex :=
  check dbg ((sx_id s =? universal_realtime) || (sx_id s =? universal_non_realtime)) ;;;
  check dbg (2 <=? size (sx_data s)) ;;;
  Ok s.
(* universal_sysex.h:107-110 *)
Definition view_device_id (s : sysex) : res Z := vec_at (sx_data s) 0.
Definition view_type (s : sysex) : res Z :=
  b <- vec_at (sx_data s) 1 ;; Ok (u16 (Z.lor (Z.shiftr (sx_id s) 8) b)).
Definition view_subtype (s : sysex) : res Z :=
  if 2 <? size (sx_data s) then vec_at (sx_data s) 2 else Ok 0.
Definition view_data_size (s : sysex) : Z := size (sx_data s).

(* universal_sysex.h:211-216 *)
Definition is_universal_sysex_message (s : sysex) : bool :=
  ((sx_id s =? universal_realtime) || (sx_id s =? universal_non_realtime)) &&
  (2 <=? size (sx_data s)).

(* universal_sysex.h:200-206 *)
Definition as_universal_sysex_view (dbg : bool) (s : sysex) : res (option sysex) :=
  if is_universal_sysex_message s then v <- message_view dbg s ;; Ok (Some v) else Ok None.

(* universal_sysex.h:218-226 *)
Definition universal_sysex_type_of (s : sysex) : res Z :=
  if is_universal_sysex_message s then
    b <- vec_at (sx_data s) 1 ;; Ok (u16 (Z.lor (Z.shiftr (sx_id s) 8) b))
  else Ok 0x0000.

(* universal_sysex.h:228-236 *)
Definition universal_sysex_subtype_of (s : sysex) : res Z :=
  if is_universal_sysex_message s && (2 <? size (sx_data s)) then vec_at (sx_data s) 2
  else Ok 0.

(* universal_sysex.h:238-246 *)
Definition universal_sysex_device_id_of (s : sysex) : res Z :=
  if is_universal_sysex_message s then vec_at (sx_data s) 0 else Ok 0xFF.

(* universal_sysex.h:284-297, accessors of message *)
Definition message_device_id (s : sysex) : res Z :=
  match sx_data s with [] => Ok 0xFF | _ => vec_at (sx_data s) 0 end.
Definition message_type (s : sysex) : res Z :=
  if size (sx_data s) <? 2 then Ok 0x0000
  else b <- vec_at (sx_data s) 1 ;; Ok (u16 (Z.lor (Z.shiftr (sx_id s) 8) b)).
Definition message_subtype (s : sysex) : res Z :=
  if 2 <? size (sx_data s) then vec_at (sx_data s) 2 else Ok 0.

(* universal_sysex.h:299-304 *)
Definition set_device_id (dbg : bool) (s : sysex) (i : Z) : res sysex :=
  check dbg (match sx_data s with [] => false | _ => true end) ;;;
  check dbg (i <? 128) ;;;
  d <- vec_set (sx_data s) 0 (u8 (Z.land i 0x7F)) ;;
  Ok (mkSx (sx_id s) d).

(* universal_sysex.h:248-251, 308-311 *)
Definition make_identity_request (device_id : Z) : sysex :=
  mkSx universal_non_realtime [device_id; 0x06; 0x01].

(* universal_sysex.h:253-257; && does not evaluate its right operand needlessly *)
Definition is_identity_request (s : sysex) : res bool :=
  t <- universal_sysex_type_of s ;;
  if t =? 0x7E06 then
    st <- universal_sysex_subtype_of s ;; Ok (st =? 0x01)
  else Ok false.

(* universal_sysex.cpp:31-56 *)
Definition identity_reply (dbg : bool) (sysex_id family family_member revision device_id : Z)
  : res sysex :=
  let s := mkSx universal_non_realtime [] in
  let s := push s [device_id] in
  let s := push s [0x06] in
  let s := push s [0x02] in
  let s := if sysex_id <? 0x10000 then
             push (push (push s [0x00]) [u8 (Z.land (Z.shiftr sysex_id 8) 0x7F)])
                  [u8 (Z.land sysex_id 0x7F)]
           else push s [u8 (Z.land (Z.shiftr sysex_id 16) 0x7F)] in
  s <- add_uint14 dbg s family ;;
  s <- add_uint14 dbg s family_member ;;
  add_uint28 dbg s revision.

(* universal_sysex.h:264-273, universal_sysex.cpp:60-63; the default device id is 0x7F *)
Definition make_identity_reply (dbg : bool) (i : device_identity) : res sysex :=
  identity_reply dbg (di_manufacturer i) (di_family i) (di_model i) (di_revision i) 0x7F.

(* universal_sysex.h:275-280 and the identical 324-329 *)
Definition is_identity_reply (s : sysex) : res bool :=
  t <- universal_sysex_type_of s ;;
  if t =? 0x7E06 then
    st <- universal_sysex_subtype_of s ;;
    if st =? 0x02 then
      if size (sx_data s) =? 12 then
        b <- vec_at (sx_data s) 3 ;;
        Ok (negb (b =? 0) || (size (sx_data s) =? 14))
      else Ok (size (sx_data s) =? 14)
    else Ok false
  else Ok false.
Definition identity_reply_validate : sysex -> res bool := is_identity_reply.

(* universal_sysex.h:315-322 *)
Definition reply_identity (s : sysex) : res device_identity :=
  b3 <- vec_at (sx_data s) 3 ;;
  let short := negb (b3 =? 0) in
  manu <- (if short then Ok (u32 (Z.shiftl b3 16))
           else b4 <- vec_at (sx_data s) 4 ;;
                b5 <- vec_at (sx_data s) 5 ;;
                Ok (u32 (Z.lor (Z.shiftl b4 8) b5))) ;;
  let offset := if short then 4%nat else 6%nat in
  fam <- make_uint14 s offset ;;
  mod_ <- make_uint14 s (offset + 2) ;;
  rev <- make_uint28 s (offset + 4) ;;
  Ok (mkDevId manu fam mod_ rev).

(* universal_sysex.h:259-262 with message_view::make_optional 121-128 *)
Definition as_identity_reply_view (dbg : bool) (s : sysex) : res (option sysex) :=
  b <- identity_reply_validate s ;;
  if b then v <- message_view dbg s ;; Ok (Some v) else Ok None.
