(* Model of inc/midi/sysex_collector.h and src/sysex_collector.cpp *)
From Coq Require Import ZArith List Bool.
From Verif Require Import Base Packet Messages Sysex.
Import ListNotations.
Local Open Scope Z_scope.
Local Open Scope res_scope.

(* The capacity of the data vector decides whether a packet is accepted, so it is part
   of the state.  How a standard library implements reserve() and shrink_to_fit() is a
   parameter: [al_reserve c n] is the capacity after reserve(n), [al_shrink c] the
   capacity of an empty vector after shrink_to_fit(). *)
Record allocator : Type := mkAlloc { al_reserve : Z -> Z -> Z; al_shrink : Z -> Z }.

(* what the C++ standard guarantees ([vector.capacity]) *)
Definition std_alloc (a : allocator) : Prop :=
  (forall c n, n <= c -> al_reserve a c n = c) /\
  (forall c n, c < n -> n <= al_reserve a c n) /\
  (forall c, 0 <= c -> 0 <= al_shrink a c <= c).
(* libstdc++, libc++ and MSVC allocate exactly what reserve() asks for *)
Definition exact_alloc (a : allocator) : Prop :=
  std_alloc a /\ forall c n, c < n -> al_reserve a c n = n.

(* ---- sysex7_collector ------------------------------------------------------------ *)

(* sysex_collector.h:53-57; the callback is only represented by its presence *)
Record collector7 : Type := mkC7 {
  c7_sysex : sysex;
  c7_capacity : Z;            (* m_sysex7.data.capacity() *)
  c7_max : Z;                 (* m_max_sysex_data_size *)
  c7_state : Z;               (* m_state: 0x10 or 0x20 *)
  c7_id_bytes : Z;            (* m_manufacturerIDBytesRead *)
  c7_has_cb : bool }.

(* sysex_collector.h:88-91 with the initialisers of 53-57 *)
Definition new_collector7 (cb : bool) : collector7 := mkC7 sysex_empty_value 0 0 0x10 0 cb.

(* sysex_collector.h:92-95 *)
Definition c7_set_callback (c : collector7) (cb : bool) : collector7 :=
  mkC7 (c7_sysex c) (c7_capacity c) (c7_max c) (c7_state c) (c7_id_bytes c) cb.

(* sysex_collector.cpp:35-41 *)
Definition c7_set_max (a : allocator) (c : collector7) (s : Z) : collector7 :=
  mkC7 (c7_sysex c) (if negb (s =? 0) then al_reserve a (c7_capacity c) s else c7_capacity c)
       s (c7_state c) (c7_id_bytes c) (c7_has_cb c).

(* sysex.cpp:72-79 sysex::clear(), the capacity *)
Definition clear_capacity (a : allocator) (cap : Z) : Z :=
  if 16384 <? cap then al_shrink a cap else cap.

(* sysex_collector.cpp:139-144 *)
Definition c7_reset (a : allocator) (c : collector7) : collector7 :=
  mkC7 sysex_empty_value (clear_capacity a (c7_capacity c)) (c7_max c) 0x10 0 (c7_has_cb c).

(* sysex_collector.cpp:90-117, the loop over the payload bytes b, b+1, ..., b+n-1 *)
Fixpoint c7_bytes (p : packet) (b n : nat) (s : sysex) (idr : Z) : res (sysex * Z) :=
  match n with
  | O => Ok (s, idr)
  | S m =>
      byte <- sysex7_payload_byte p b ;;
      let '(s, idr) :=
        if idr =? 0 then
          if negb (byte =? 0) then (mkSx (Z.shiftl byte 16) (sx_data s), 3) else (s, 1)
        else if idr =? 1 then (mkSx (Z.shiftl byte 8) (sx_data s), 2)
        else if idr =? 2 then (mkSx (Z.lor (sx_id s) byte) (sx_data s), 3)
        else (mkSx (sx_id s) (sx_data s ++ [byte]), idr) in
      c7_bytes p (S b) m s idr
  end.

(* sysex_collector.cpp:71-87: make room for [num] bytes; the resulting capacity and
   whether there is room (false: the "panic" case).  size_t arithmetic does not wrap for
   capacities below 2^63. *)
Definition make_room (a : allocator) (len cap max num : Z) : Z * bool :=
  if cap <? len + num then
    let new_capacity := Z.max 128 (2 * cap) in
    let new_capacity := if 0 <? max then Z.min new_capacity max else new_capacity in
    let cap := al_reserve a cap new_capacity in
    (cap, negb ((0 <? max) && (cap <? len + num)))
  else (cap, true).

(* sysex_collector.cpp:45-135; the result is the new state and the messages passed to
   the callback *)
Definition c7_feed (a : allocator) (c : collector7) (p : packet) : res (collector7 * list sysex) :=
  if negb (is_sysex7_packet p) then Ok (c, [])
  else
    let st := Z.land (status p) 0xF0 in
    let opening := (st =? 0x00) || (st =? 0x10) in
    if negb opening && negb (c7_state c =? 0x20) then Ok (c7_reset a c, [])
    else
      let c := if opening && negb (c7_state c =? 0x10) then c7_reset a c else c in
      let num := sysex7_payload_size p in
      let '(cap, room) := make_room a (size (sx_data (c7_sysex c))) (c7_capacity c) (c7_max c) (Z.of_nat num) in
      if negb room then
        Ok (mkC7 (c7_sysex c) cap (c7_max c) 0x10 (c7_id_bytes c) (c7_has_cb c), [])
      else
        r <- c7_bytes p 0 num (c7_sysex c) (c7_id_bytes c) ;;
        let '(s, idr) := r in
        if (st =? 0x00) || (st =? 0x30) then
          Ok (c7_reset a (mkC7 s cap (c7_max c) (c7_state c) idr (c7_has_cb c)),
              if c7_has_cb c then [s] else [])
        else Ok (mkC7 s cap (c7_max c) 0x20 idr (c7_has_cb c), []).

(* calls of the public interface, sysex_collector.h:46-50 and 69-73 *)
Inductive collector_call : Type :=
| KFeed (p : packet)
| KReset
| KSetMax (s : Z)
| KSetCallback (cb : bool).

Definition c7_call (a : allocator) (c : collector7) (k : collector_call) : res (collector7 * list sysex) :=
  match k with
  | KFeed p => c7_feed a c p
  | KReset => Ok (c7_reset a c, [])
  | KSetMax s => Ok (c7_set_max a c s, [])
  | KSetCallback cb => Ok (c7_set_callback c cb, [])
  end.

Fixpoint c7_calls (a : allocator) (c : collector7) (ks : list collector_call) : res (collector7 * list sysex) :=
  match ks with
  | [] => Ok (c, [])
  | k :: ks' =>
      r <- c7_call a c k ;; let '(c, o) := r in
      r' <- c7_calls a c ks' ;; let '(c, o') := r' in
      Ok (c, o ++ o')
  end.

(* ---- sysex8_collector ------------------------------------------------------------ *)

(* sysex_collector.h:82  the manufacturer id states *)
Inductive id_state : Type := Detect | OneByte | ThreeBytes | Invalid | Done.

(* sysex_collector.h:78-83 *)
Record collector8 : Type := mkC8 {
  c8_stream : Z;
  c8_sysex : sysex;
  c8_capacity : Z;
  c8_max : Z;
  c8_state : Z;               (* m_state: packet_format::start = 1 or cont = 2 *)
  c8_id_state : id_state;
  c8_has_cb : bool }.

(* sysex_collector.h:99-102 *)
Definition new_collector8 (cb : bool) : collector8 := mkC8 0 sysex_empty_value 0 0 1 Detect cb.

(* sysex_collector.h:103-106 *)
Definition c8_set_callback (c : collector8) (cb : bool) : collector8 :=
  mkC8 (c8_stream c) (c8_sysex c) (c8_capacity c) (c8_max c) (c8_state c) (c8_id_state c) cb.

(* sysex_collector.cpp:148-154 *)
Definition c8_set_max (a : allocator) (c : collector8) (s : Z) : collector8 :=
  mkC8 (c8_stream c) (c8_sysex c)
       (if negb (s =? 0) then al_reserve a (c8_capacity c) s else c8_capacity c)
       s (c8_state c) (c8_id_state c) (c8_has_cb c).

(* sysex_collector.cpp:263-269 *)
Definition c8_reset (a : allocator) (c : collector8) : collector8 :=
  mkC8 0 sysex_empty_value (clear_capacity a (c8_capacity c)) (c8_max c) 1 Detect (c8_has_cb c).

(* sysex_collector.cpp:209-241 *)
Fixpoint c8_bytes (p : packet) (b n : nat) (s : sysex) (ids : id_state) : res (sysex * id_state) :=
  match n with
  | O => Ok (s, ids)
  | S m =>
      byte <- sysex8_payload_byte p b ;;
      let '(s, ids) :=
        match ids with
        | Detect =>
            if negb (Z.land byte 0x80 =? 0)
            then (mkSx (Z.shiftl (Z.land byte 0x7F) 8) (sx_data s), ThreeBytes)
            else (mkSx 0 (sx_data s), if byte =? 0 then OneByte else Invalid)
        | OneByte => (mkSx (Z.shiftl (Z.land byte 0x7F) 16) (sx_data s), Done)
        | ThreeBytes => (mkSx (Z.lor (sx_id s) (Z.land byte 0x7F)) (sx_data s), Done)
        | Invalid => (s, Done)
        | Done => (mkSx (sx_id s) (sx_data s ++ [byte]), ids)
        end in
      c8_bytes p (S b) m s ids
  end.

(* sysex_collector.cpp:158-259 *)
Definition c8_feed (a : allocator) (c : collector8) (p : packet)
  : res (collector8 * list (sysex * Z)) :=
  if negb (is_sysex8_packet p) then Ok (c, [])
  else
    let fmt := sysex8_format p in
    sid <- sysex8_stream_id p ;;
    let opening := (fmt =? 0) || (fmt =? 1) in
    if negb opening && negb (c8_state c =? 2) then Ok (c8_reset a c, [])
    else if negb opening && negb (sid =? c8_stream c) then Ok (c, [])
    else
      let c := if opening && negb (c8_state c =? 1) then c8_reset a c else c in
      let stream := if opening then sid else c8_stream c in
      let num := sysex8_payload_size p in
      let '(cap, room) := make_room a (size (sx_data (c8_sysex c))) (c8_capacity c) (c8_max c) (Z.of_nat num) in
      if negb room then
        Ok (mkC8 stream (c8_sysex c) cap (c8_max c) 1 (c8_id_state c) (c8_has_cb c), [])
      else
        r <- c8_bytes p 0 num (c8_sysex c) (c8_id_state c) ;;
        let '(s, ids) := r in
        if (fmt =? 0) || (fmt =? 3) then
          Ok (c8_reset a (mkC8 stream s cap (c8_max c) (c8_state c) ids (c8_has_cb c)),
              if c8_has_cb c then [(s, stream)] else [])
        else Ok (mkC8 stream s cap (c8_max c) 2 ids (c8_has_cb c), []).

(* calls of the public interface, sysex_collector.h:69-73 *)
Definition c8_call (a : allocator) (c : collector8) (k : collector_call)
  : res (collector8 * list (sysex * Z)) :=
  match k with
  | KFeed p => c8_feed a c p
  | KReset => Ok (c8_reset a c, [])
  | KSetMax s => Ok (c8_set_max a c s, [])
  | KSetCallback cb => Ok (c8_set_callback c cb, [])
  end.

Fixpoint c8_calls (a : allocator) (c : collector8) (ks : list collector_call)
  : res (collector8 * list (sysex * Z)) :=
  match ks with
  | [] => Ok (c, [])
  | k :: ks' =>
      r <- c8_call a c k ;; let '(c, o) := r in
      r' <- c8_calls a c ks' ;; let '(c, o') := r' in
      Ok (c, o ++ o')
  end.
