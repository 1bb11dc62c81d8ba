(* Memory: the functions of src/midi1_byte_stream.cpp and src/sysex_collector.cpp that grow the
   data vector of a SysEx, once more, with the calls of the vector's allocator.  The allocator
   may be provided by the user (sysex.h:57-94), so that its calls can be observed and may fail
   by an exception.

   [ok] tells whether the allocator provides memory if it is asked during this call.  Neither
   feed() nor set_max_sysex_data_size() has a handler, and reserve() and push_back() have no
   effect if they throw ([vector.capacity], [vector.modifiers]): an exception leaves the object
   as it is when the vector is to grow.  shrink_to_fit() of an empty vector releases memory and
   asks for none. *)
From Coq Require Import ZArith List Bool.
From Verif Require Import Base Packet Messages Sysex ByteStream Collector.
Import ListNotations.
Local Open Scope Z_scope.
Local Open Scope res_scope.

(* whether a call asked for memory, and got it; Refused: the call ended with an exception *)
Inductive memory : Type := Untouched | Obtained | Refused.

(* the state left behind, what was posted or delivered, and what happened to memory *)
Definition mresult (S E : Type) : Type := res (S * list E * memory).

(* ---- midi1_byte_stream_parser ------------------------------------------------------ *)

(* the parser and m_sysex.data.capacity() *)
Record mparser : Type := mkMP { mp_parser : parser; mp_capacity : Z }.

Definition new_mparser (g : Z) (cb enabled : bool) : mparser := mkMP (new_parser g cb enabled) 0.

(* functions that do not use the vector *)
Definition plain_m (st : mparser) (r : result) : mresult mparser event :=
  r <- r ;; Ok (mkMP (fst r) (mp_capacity st), snd r, Untouched).

(* midi1_byte_stream.cpp:235-250 *)
Definition sysex_start_m (a : allocator) (ok : bool) (st : mparser) : mresult mparser event :=
  p <- make_sysex7_start_packet (m_group (mp_parser st)) ;;
  let ps := with_state (mp_parser st) p 2 0 in
  if has_cb ps then
    let cap := clear_capacity a (mp_capacity st) in
    let started := with_sysex ps sysex_empty_value (if negb (m_invoke_callbacks ps) then 0 else 2) in
    if cap <? 1024 then
      if ok then Ok (mkMP started (al_reserve a cap 1024), [], Obtained)
      else Ok (mkMP (with_sysex ps sysex_empty_value 2) cap, [], Refused)
    else Ok (mkMP started cap, [], Untouched)
  else Ok (mkMP ps (mp_capacity st), [], Untouched).

(* midi1_byte_stream.cpp:254-287; reserve(0) has no effect, push_back() then makes room for one
   byte or more *)
Definition sysex_continue_callback_m (a : allocator) (ok : bool) (st : mparser) (byte : Z) : mresult mparser event :=
  let ps := mp_parser st in
  let pb := m_packet_byte ps in
  let sx := m_sysex ps in
  let cap := mp_capacity st in
  if (pb =? 0) || (pb =? 1) then Ok (st, [], Untouched)
  else if pb =? 2 then
    Ok (mkMP (with_sysex ps (mkSx (u32 (Z.shiftl byte 16)) (sx_data sx)) (u8 (pb + 1))) cap, [], Untouched)
  else if ((pb =? 3) || (pb =? 4)) && (Z.land (sx_id sx) 0xFF0000 =? 0) then
    Ok (mkMP (with_sysex ps (mkSx (u32 (sx_id sx + Z.shiftl byte ((4 - pb) * 8))) (sx_data sx)) (u8 (pb + 1))) cap,
        [], Untouched)
  else
    let pushed := with_sysex ps (mkSx (sx_id sx) (sx_data sx ++ [byte])) pb in
    if size (sx_data sx) =? cap then
      if ok then Ok (mkMP pushed (al_reserve a cap (if cap =? 0 then 1 else cap * 2)), [], Obtained)
      else Ok (st, [], Refused)
    else Ok (mkMP pushed cap, [], Untouched).

(* midi1_byte_stream.cpp:291-307 *)
Definition sysex_end_callback_m (a : allocator) (st : mparser) : mresult mparser event :=
  let ps := with_packet (mp_parser st) packet0 in
  if (Z.land (sx_id (m_sysex ps)) 0xFF0000 =? 0) && (m_packet_byte ps <? 5)
  then Ok (mkMP ps (mp_capacity st), [], Untouched)
  else Ok (mkMP (with_sysex ps sysex_empty_value (m_packet_byte ps)) (clear_capacity a (mp_capacity st)),
           post ps (ESysex (m_sysex ps)), Untouched).

(* midi1_byte_stream.cpp:80-121 *)
Definition feed_plain_m (a : allocator) (ok : bool) (st : mparser) (byte : Z) : mresult mparser event :=
  if byte =? 0xF0 then sysex_start_m a ok st else plain_m st (feed_plain (mp_parser st) byte).

(* midi1_byte_stream.cpp:35-122 *)
Definition feed_m (a : allocator) (ok : bool) (st : mparser) (byte : Z) : mresult mparser event :=
  let ps := mp_parser st in
  if 0xF8 <=? byte then plain_m st (system_realtime ps byte)
  else if type (m_packet ps) =? pt_data then
    if byte <? 0x80 then
      if has_cb ps then sysex_continue_callback_m a ok st byte else plain_m st (sysex_continue_packet ps byte)
    else if negb (byte =? 0xF7) then feed_plain_m a ok (mkMP (with_packet ps packet0) (mp_capacity st)) byte
    else if has_cb ps then sysex_end_callback_m a st else plain_m st (sysex_end_packet ps)
  else feed_plain_m a ok st byte.

(* midi1_byte_stream.cpp:136-143 *)
Definition parser_reset_m (a : allocator) (st : mparser) : mparser :=
  mkMP (parser_reset (mp_parser st)) (clear_capacity a (mp_capacity st)).

(* ---- sysex7_collector, sysex8_collector -------------------------------------------- *)

(* sysex_collector.cpp:71-80 and 190-199: whether reserve() has to ask for memory *)
Definition must_grow (len cap max num : Z) : bool :=
  let new_capacity := Z.max 128 (2 * cap) in
  let new_capacity := if 0 <? max then Z.min new_capacity max else new_capacity in
  (cap <? len + num) && (cap <? new_capacity).

(* sysex_collector.cpp:35-41 *)
Definition c7_set_max_m (a : allocator) (ok : bool) (c : collector7) (s : Z) : collector7 * memory :=
  if negb (s =? 0) && (c7_capacity c <? s) then
    if ok then (c7_set_max a c s, Obtained)
    else (mkC7 (c7_sysex c) (c7_capacity c) s (c7_state c) (c7_id_bytes c) (c7_has_cb c), Refused)
  else (c7_set_max a c s, Untouched).

(* sysex_collector.cpp:90-117, the loop over the payload bytes; push_back() grows the vector if it
   is full.  Also returns the capacity. *)
Fixpoint c7_bytes_m (a : allocator) (ok : bool) (p : packet) (b n : nat) (s : sysex) (idr cap : Z) (mem : memory)
  : res (sysex * Z * Z * memory) :=
  match n with
  | O => Ok (s, idr, cap, mem)
  | S m =>
      byte <- sysex7_payload_byte p b ;;
      if idr =? 0 then
        let '(s, idr) := if negb (byte =? 0) then (mkSx (Z.shiftl byte 16) (sx_data s), 3) else (s, 1) in
        c7_bytes_m a ok p (S b) m s idr cap mem
      else if idr =? 1 then c7_bytes_m a ok p (S b) m (mkSx (Z.shiftl byte 8) (sx_data s)) 2 cap mem
      else if idr =? 2 then c7_bytes_m a ok p (S b) m (mkSx (Z.lor (sx_id s) byte) (sx_data s)) 3 cap mem
      else
        let full := size (sx_data s) =? cap in
        if full && negb ok then Ok (s, idr, cap, Refused)
        else
          c7_bytes_m a ok p (S b) m (mkSx (sx_id s) (sx_data s ++ [byte])) idr
            (if full then al_reserve a cap (cap + 1) else cap) (if full then Obtained else mem)
  end.

(* sysex_collector.cpp:45-135 *)
Definition c7_feed_m (a : allocator) (ok : bool) (c : collector7) (p : packet) : mresult collector7 sysex :=
  if negb (is_sysex7_packet p) then Ok (c, [], Untouched)
  else
    let st := Z.land (status p) 0xF0 in
    let opening := (st =? 0x00) || (st =? 0x10) in
    if negb opening && negb (c7_state c =? 0x20) then Ok (c7_reset a c, [], Untouched)
    else
      let c := if opening && negb (c7_state c =? 0x10) then c7_reset a c else c in
      let num := sysex7_payload_size p in
      let len := size (sx_data (c7_sysex c)) in
      let grow := must_grow len (c7_capacity c) (c7_max c) (Z.of_nat num) in
      if grow && negb ok then Ok (c, [], Refused)
      else
        let mem := if grow then Obtained else Untouched in
        let '(cap, room) := make_room a len (c7_capacity c) (c7_max c) (Z.of_nat num) in
        if negb room then
          Ok (mkC7 (c7_sysex c) cap (c7_max c) 0x10 (c7_id_bytes c) (c7_has_cb c), [], mem)
        else
          r <- c7_bytes_m a ok p 0 num (c7_sysex c) (c7_id_bytes c) cap mem ;;
          let '(s, idr, cap, mem) := r in
          if match mem with Refused => true | _ => false end then
            Ok (mkC7 s cap (c7_max c) (c7_state c) idr (c7_has_cb c), [], Refused)
          else if (st =? 0x00) || (st =? 0x30) then
            Ok (c7_reset a (mkC7 s cap (c7_max c) (c7_state c) idr (c7_has_cb c)),
                (if c7_has_cb c then [s] else []), mem)
          else Ok (mkC7 s cap (c7_max c) 0x20 idr (c7_has_cb c), [], mem).

(* sysex_collector.cpp:148-154 *)
Definition c8_set_max_m (a : allocator) (ok : bool) (c : collector8) (s : Z) : collector8 * memory :=
  if negb (s =? 0) && (c8_capacity c <? s) then
    if ok then (c8_set_max a c s, Obtained)
    else (mkC8 (c8_stream c) (c8_sysex c) (c8_capacity c) s (c8_state c) (c8_id_state c) (c8_has_cb c), Refused)
  else (c8_set_max a c s, Untouched).

(* sysex_collector.cpp:209-241 *)
Fixpoint c8_bytes_m (a : allocator) (ok : bool) (p : packet) (b n : nat) (s : sysex) (ids : id_state) (cap : Z) (mem : memory)
  : res (sysex * id_state * Z * memory) :=
  match n with
  | O => Ok (s, ids, cap, mem)
  | S m =>
      byte <- sysex8_payload_byte p b ;;
      match ids with
      | Detect =>
          if negb (Z.land byte 0x80 =? 0)
          then c8_bytes_m a ok p (S b) m (mkSx (Z.shiftl (Z.land byte 0x7F) 8) (sx_data s)) ThreeBytes cap mem
          else c8_bytes_m a ok p (S b) m (mkSx 0 (sx_data s)) (if byte =? 0 then OneByte else Invalid) cap mem
      | OneByte => c8_bytes_m a ok p (S b) m (mkSx (Z.shiftl (Z.land byte 0x7F) 16) (sx_data s)) Done cap mem
      | ThreeBytes => c8_bytes_m a ok p (S b) m (mkSx (Z.lor (sx_id s) (Z.land byte 0x7F)) (sx_data s)) Done cap mem
      | Invalid => c8_bytes_m a ok p (S b) m s Done cap mem
      | Done =>
          let full := size (sx_data s) =? cap in
          if full && negb ok then Ok (s, ids, cap, Refused)
          else
            c8_bytes_m a ok p (S b) m (mkSx (sx_id s) (sx_data s ++ [byte])) ids
              (if full then al_reserve a cap (cap + 1) else cap) (if full then Obtained else mem)
      end
  end.

(* sysex_collector.cpp:158-259 *)
Definition c8_feed_m (a : allocator) (ok : bool) (c : collector8) (p : packet) : mresult collector8 (sysex * Z) :=
  if negb (is_sysex8_packet p) then Ok (c, [], Untouched)
  else
    let fmt := sysex8_format p in
    sid <- sysex8_stream_id p ;;
    let opening := (fmt =? 0) || (fmt =? 1) in
    if negb opening && negb (c8_state c =? 2) then Ok (c8_reset a c, [], Untouched)
    else if negb opening && negb (sid =? c8_stream c) then Ok (c, [], Untouched)
    else
      let c := if opening && negb (c8_state c =? 1) then c8_reset a c else c in
      let stream := if opening then sid else c8_stream c in
      let num := sysex8_payload_size p in
      let len := size (sx_data (c8_sysex c)) in
      let grow := must_grow len (c8_capacity c) (c8_max c) (Z.of_nat num) in
      if grow && negb ok then
        Ok (mkC8 stream (c8_sysex c) (c8_capacity c) (c8_max c) (c8_state c) (c8_id_state c) (c8_has_cb c), [], Refused)
      else
        let mem := if grow then Obtained else Untouched in
        let '(cap, room) := make_room a len (c8_capacity c) (c8_max c) (Z.of_nat num) in
        if negb room then
          Ok (mkC8 stream (c8_sysex c) cap (c8_max c) 1 (c8_id_state c) (c8_has_cb c), [], mem)
        else
          r <- c8_bytes_m a ok p 0 num (c8_sysex c) (c8_id_state c) cap mem ;;
          let '(s, ids, cap, mem) := r in
          if match mem with Refused => true | _ => false end then
            Ok (mkC8 stream s cap (c8_max c) (c8_state c) ids (c8_has_cb c), [], Refused)
          else if (fmt =? 0) || (fmt =? 3) then
            Ok (c8_reset a (mkC8 stream s cap (c8_max c) (c8_state c) ids (c8_has_cb c)),
                (if c8_has_cb c then [(s, stream)] else []), mem)
          else Ok (mkC8 stream s cap (c8_max c) 2 ids (c8_has_cb c), [], mem).

(* ---- clients ------------------------------------------------------------------------- *)

Section Retry.
  Context {S E : Type}.
  (* A client that repeats a call as long as it ends with an exception, at most once for every
     element of [oks]; the last attempt gets memory. *)
  Fixpoint retry (call : bool -> S -> mresult S E) (st : S) (oks : list bool) : res (S * list E) :=
    match oks with
    | [] => r <- call true st ;; Ok (fst r)
    | ok :: oks' =>
        r <- call ok st ;;
        match snd r with
        | Refused => r' <- retry call (fst (fst r)) oks' ;; Ok (fst r', snd (fst r) ++ snd r')
        | _ => Ok (fst r)
        end
    end.
End Retry.

(* calls of a parser; [oks] is whether the allocator provides memory, attempt by attempt *)
Inductive mem_call : Type :=
| MFeed (byte : Z) (oks : list bool)
| MEnable (on : bool)
| MSetGroup (g : Z)
| MReset.

Definition mem_step (a : allocator) (st : mparser) (k : mem_call) : res (mparser * list event) :=
  match k with
  | MFeed b oks => retry (fun ok st => feed_m a ok st b) st oks
  | MEnable on => Ok (mkMP (enable_callbacks (mp_parser st) on) (mp_capacity st), [])
  | MSetGroup g => Ok (mkMP (parser_set_group (mp_parser st) g) (mp_capacity st), [])
  | MReset => Ok (parser_reset_m a st, [])
  end.
Fixpoint mem_calls (a : allocator) (st : mparser) (ks : list mem_call) : res (mparser * list event) :=
  match ks with
  | [] => Ok (st, [])
  | k :: ks' => r <- mem_step a st k ;; r' <- mem_calls a (fst r) ks' ;; Ok (fst r', snd r ++ snd r')
  end.

(* calls of a collector *)
Inductive mem_collect : Type :=
| MKFeed (p : packet) (oks : list bool)
| MKReset
| MKSetMax (s : Z) (oks : list bool)
| MKSetCallback (cb : bool).

Definition mem7_step (a : allocator) (c : collector7) (k : mem_collect) : res (collector7 * list sysex) :=
  match k with
  | MKFeed p oks => retry (fun ok c => c7_feed_m a ok c p) c oks
  | MKReset => Ok (c7_reset a c, [])
  | MKSetMax s oks => retry (fun ok c => let r := c7_set_max_m a ok c s in Ok (fst r, [], snd r)) c oks
  | MKSetCallback cb => Ok (c7_set_callback c cb, [])
  end.
Fixpoint mem7_calls (a : allocator) (c : collector7) (ks : list mem_collect) : res (collector7 * list sysex) :=
  match ks with
  | [] => Ok (c, [])
  | k :: ks' => r <- mem7_step a c k ;; r' <- mem7_calls a (fst r) ks' ;; Ok (fst r', snd r ++ snd r')
  end.

Definition mem8_step (a : allocator) (c : collector8) (k : mem_collect) : res (collector8 * list (sysex * Z)) :=
  match k with
  | MKFeed p oks => retry (fun ok c => c8_feed_m a ok c p) c oks
  | MKReset => Ok (c8_reset a c, [])
  | MKSetMax s oks => retry (fun ok c => let r := c8_set_max_m a ok c s in Ok (fst r, [], snd r)) c oks
  | MKSetCallback cb => Ok (c8_set_callback c cb, [])
  end.
Fixpoint mem8_calls (a : allocator) (c : collector8) (ks : list mem_collect) : res (collector8 * list (sysex * Z)) :=
  match ks with
  | [] => Ok (c, [])
  | k :: ks' => r <- mem8_step a c k ;; r' <- mem8_calls a (fst r) ks' ;; Ok (fst r', snd r ++ snd r')
  end.

(* A client that gives a packet up if feed() ends with an exception; [ok] is whether the
   allocator provides memory during the call.  Also returns which calls ended so. *)
Section GiveUp.
  Context {S E : Type} (feed : bool -> S -> packet -> mresult S E) (reset : S -> S).
  Inductive try_collect : Type := TKFeed (p : packet) (ok : bool) | TKReset.
  Fixpoint try_calls (c : S) (ks : list try_collect) : res (S * list E * list memory) :=
    match ks with
    | [] => Ok (c, [], [])
    | TKFeed p ok :: ks' =>
        r <- feed ok c p ;; r' <- try_calls (fst (fst r)) ks' ;;
        Ok (fst (fst r'), snd (fst r) ++ snd (fst r'), snd r :: snd r')
    | TKReset :: ks' =>
        r' <- try_calls (reset c) ks' ;; Ok (fst (fst r'), snd (fst r'), Untouched :: snd r')
    end.
End GiveUp.

(* ---- what calls do to memory, if they always get it ------------------------------------ *)

Fixpoint watch_bytes (a : allocator) (st : mparser) (bs : list Z) : res (mparser * list memory) :=
  match bs with
  | [] => Ok (st, [])
  | b :: bs' =>
      r <- feed_m a true st b ;; r' <- watch_bytes a (fst (fst r)) bs' ;; Ok (fst r', snd r :: snd r')
  end.
Definition watch_step (a : allocator) (st : mparser) (k : parser_call) : res (mparser * list memory) :=
  match k with
  | CFeed bs => watch_bytes a st bs
  | CEnable on => Ok (mkMP (enable_callbacks (mp_parser st) on) (mp_capacity st), [])
  | CSetGroup g => Ok (mkMP (parser_set_group (mp_parser st) g) (mp_capacity st), [])
  | CReset => Ok (parser_reset_m a st, [])
  end.
Fixpoint watch_calls (a : allocator) (st : mparser) (ks : list parser_call) : res (mparser * list memory) :=
  match ks with
  | [] => Ok (st, [])
  | k :: ks' => r <- watch_step a st k ;; r' <- watch_calls a (fst r) ks' ;; Ok (fst r', snd r ++ snd r')
  end.

Definition watch7_step (a : allocator) (c : collector7) (k : collector_call) : res (collector7 * memory) :=
  match k with
  | KFeed p => r <- c7_feed_m a true c p ;; Ok (fst (fst r), snd r)
  | KReset => Ok (c7_reset a c, Untouched)
  | KSetMax s => Ok (c7_set_max_m a true c s)
  | KSetCallback cb => Ok (c7_set_callback c cb, Untouched)
  end.
Fixpoint watch7_calls (a : allocator) (c : collector7) (ks : list collector_call) : res (collector7 * list memory) :=
  match ks with
  | [] => Ok (c, [])
  | k :: ks' => r <- watch7_step a c k ;; r' <- watch7_calls a (fst r) ks' ;; Ok (fst r', snd r :: snd r')
  end.

Definition watch8_step (a : allocator) (c : collector8) (k : collector_call) : res (collector8 * memory) :=
  match k with
  | KFeed p => r <- c8_feed_m a true c p ;; Ok (fst (fst r), snd r)
  | KReset => Ok (c8_reset a c, Untouched)
  | KSetMax s => Ok (c8_set_max_m a true c s)
  | KSetCallback cb => Ok (c8_set_callback c cb, Untouched)
  end.
Fixpoint watch8_calls (a : allocator) (c : collector8) (ks : list collector_call) : res (collector8 * list memory) :=
  match ks with
  | [] => Ok (c, [])
  | k :: ks' => r <- watch8_step a c k ;; r' <- watch8_calls a (fst r) ks' ;; Ok (fst r', snd r :: snd r')
  end.
