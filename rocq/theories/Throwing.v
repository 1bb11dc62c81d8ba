(* Callbacks that throw: the functions of src/midi1_byte_stream.cpp and src/sysex_collector.cpp
   that invoke callbacks, once more, with exceptions.  feed() has no handler and is not
   noexcept, so that an exception leaves the object as it is when the callback is invoked.

   [throws e] tells whether the callback invoked with e throws.  The result is the state
   feed() leaves behind, by returning or by an exception, and what was posted. *)
From Coq Require Import ZArith List Bool.
From Verif Require Import Base Packet Messages Sysex ByteStream Collector.
Import ListNotations.
Local Open Scope Z_scope.
Local Open Scope res_scope.

(* ---- midi1_byte_stream_parser ------------------------------------------------------ *)

(* if (m_invoke_callbacks) callback(...); then the rest of the function, unless it throws *)
Definition post_x (throws : event -> bool) (st : parser) (e : event) (rest : parser -> result) : result :=
  if m_invoke_callbacks st then
    if throws e then Ok (st, [e]) else r <- rest st ;; Ok (fst r, e :: snd r)
  else rest st.
Definition done (st : parser) : result := Ok (st, []).

(* midi1_byte_stream.cpp:147-158 *)
Definition system_realtime_x (t : event -> bool) (st : parser) (byte : Z) : result :=
  if (byte =? 0xF9) || (byte =? 0xFD) then Ok (st, [])
  else post_x t st (EPacket (make_system_message (m_group st) byte 0 0)) done.

(* midi1_byte_stream.cpp:162-196 *)
Definition system_common_x (t : event -> bool) (st : parser) (byte : Z) : result :=
  let p := make_system_message (m_group st) byte 0 0 in
  let s := status p in
  if (s =? 0xF1) || (s =? 0xF3) then Ok (with_state st p 2 1, [])
  else if s =? 0xF2 then Ok (with_state st p 2 2, [])
  else if s =? 0xF6 then
    post_x t (with_state st p 2 0) (EPacket p) (fun st => done (with_packet st packet0))
  else Ok (with_state st packet0 2 0, []).

(* midi1_byte_stream.cpp:200-231 *)
Definition channel_voice_x (t : event -> bool) (st : parser) (byte : Z) : result :=
  let p := midi1_cv (m_group st) byte 0 0 in
  let s := Z.land (status p) 0xF0 in
  let missing :=
    if (s =? 0x80) || (s =? 0x90) || (s =? 0xA0) || (s =? 0xB0) || (s =? 0xE0) then 2
    else if (s =? 0xC0) || (s =? 0xD0) then 1
    else 0 in
  let st := with_state st p 2 missing in
  if missing =? 0 then post_x t st (EPacket p) done else Ok (st, []).

(* midi1_byte_stream.cpp:291-307 *)
Definition sysex_end_callback_x (t : event -> bool) (st : parser) : result :=
  let st := with_packet st packet0 in
  if (Z.land (sx_id (m_sysex st)) 0xFF0000 =? 0) && (m_packet_byte st <? 5) then Ok (st, [])
  else
    post_x t st (ESysex (m_sysex st))
      (fun st => done (with_sysex st sysex_empty_value (m_packet_byte st))).

(* midi1_byte_stream.cpp:311-326 *)
Definition sysex_continue_packet_x (t : event -> bool) (st : parser) (byte : Z) : result :=
  p <- set_byte (m_packet st) (Z.to_nat (m_packet_byte st)) byte ;;
  let pb := u8 (m_packet_byte st + 1) in
  let st := with_state st p pb (m_num_missing_bytes st) in
  let rest (st : parser) : result :=
    c <- make_sysex7_continue_packet (m_group st) ;;
    done (with_state st c 2 (m_num_missing_bytes st)) in
  if pb =? 8 then
    if m_invoke_callbacks st then
      q <- set_byte p 1 (u8 (Z.land (status p) 0xF0 + 6)) ;;
      post_x t (with_packet st q) (EPacket q) rest
    else rest st
  else Ok (st, []).

(* midi1_byte_stream.cpp:330-358 *)
Definition sysex_end_packet_x (t : event -> bool) (st : parser) : result :=
  let cur_status := u8 (Z.land (status (m_packet st)) 0xF0) in
  let cur_size := u8 (Z.land (m_packet_byte st - 2) 0x0F) in
  if (cur_status =? 0x10) && (m_packet_byte st <? 3) then Ok (with_packet st packet0, [])
  else
    p <- set_byte (m_packet st) 1
           (u8 ((if cur_status =? 0x10 then 0x00 else 0x30) + cur_size)) ;;
    post_x t (with_packet st p) (EPacket p)
      (fun st => done (with_state st packet0 2 (m_num_missing_bytes st))).

(* midi1_byte_stream.cpp:80-121 *)
Definition feed_plain_x (t : event -> bool) (st : parser) (byte : Z) : result :=
  if byte =? 0xF0 then sysex_start st
  else if 0xF0 <? byte then system_common_x t st byte
  else if 0x80 <=? byte then channel_voice_x t st byte
  else if negb (status (m_packet st) =? 0) && negb (m_num_missing_bytes st =? 0)
          && (m_packet_byte st <? 4) then
    p <- set_byte (m_packet st) (Z.to_nat (m_packet_byte st)) byte ;;
    let missing := u8 (m_num_missing_bytes st - 1) in
    if missing =? 0 then
      let '(missing, pb) :=
        if status p <? 0xF0 then (u8 (m_packet_byte st - 1), 2)
        else (missing, m_packet_byte st) in
      post_x t (with_state st p pb missing) (EPacket p)
        (fun st => done (if 0xF0 <=? status (m_packet st) then with_packet st packet0 else st))
    else Ok (with_state st p (u8 (m_packet_byte st + 1)) missing, [])
  else Ok (st, []).

(* midi1_byte_stream.cpp:35-122 *)
Definition feed_x (t : event -> bool) (st : parser) (byte : Z) : result :=
  if 0xF8 <=? byte then system_realtime_x t st byte
  else if type (m_packet st) =? pt_data then
    if byte <? 0x80 then
      if has_cb st then sysex_continue_callback st byte else sysex_continue_packet_x t st byte
    else if negb (byte =? 0xF7) then feed_plain_x t (with_packet st packet0) byte
    else if has_cb st then sysex_end_callback_x t st else sysex_end_packet_x t st
  else feed_plain_x t st byte.

(* midi1_byte_stream.cpp:126-132, midi1_byte_stream.h:138-141: an exception ends the loop; also
   returns the bytes that were not read *)
Fixpoint feed_all_x (t : event -> bool) (st : parser) (bs : list Z)
  : res (parser * list event * list Z) :=
  match bs with
  | [] => Ok (st, [], [])
  | b :: bs' =>
      r <- feed_x t st b ;;
      if existsb t (snd r) then Ok (fst r, snd r, bs')
      else
        r' <- feed_all_x t (fst r) bs' ;;
        Ok (fst (fst r'), snd r ++ snd (fst r'), snd r')
  end.

(* A client that feeds single bytes and handles exceptions by going on; [t] is what the
   callback does during this call *)
Inductive guarded_call : Type :=
| XFeed (byte : Z) (t : event -> bool)
| XEnable (on : bool)
| XSetGroup (g : Z)
| XReset.

Definition guarded_step (st : parser) (k : guarded_call) : result :=
  match k with
  | XFeed b t => feed_x t st b
  | XEnable on => Ok (enable_callbacks st on, [])
  | XSetGroup g => Ok (parser_set_group st g, [])
  | XReset => Ok (parser_reset st, [])
  end.
Fixpoint guarded_calls (st : parser) (ks : list guarded_call) : result :=
  match ks with
  | [] => Ok (st, [])
  | k :: ks' =>
      r <- guarded_step st k ;; r' <- guarded_calls (fst r) ks' ;; Ok (fst r', snd r ++ snd r')
  end.

(* ---- sysex7_collector, sysex8_collector ------------------------------------------------ *)

(* sysex_collector.cpp:45-135 *)
Definition c7_feed_x (a : allocator) (throws : sysex -> bool) (c : collector7) (p : packet)
  : res (collector7 * list sysex) :=
  if negb (is_sysex7_packet p) then Ok (c, [])
  else
    let st := Z.land (status p) 0xF0 in
    let opening := (st =? 0x00) || (st =? 0x10) in
    if negb opening && negb (c7_state c =? 0x20) then Ok (c7_reset a c, [])
    else
      let c := if opening && negb (c7_state c =? 0x10) then c7_reset a c else c in
      let num := sysex7_payload_size p in
      let '(cap, room) := make_room a (size (sx_data (c7_sysex c))) (c7_capacity c) (c7_max c) (Z.of_nat num) in
      if negb room then
        Ok (mkC7 (c7_sysex c) cap (c7_max c) 0x10 (c7_id_bytes c) (c7_has_cb c), [])
      else
        r <- c7_bytes p 0 num (c7_sysex c) (c7_id_bytes c) ;;
        let '(s, idr) := r in
        if (st =? 0x00) || (st =? 0x30) then
          let c := mkC7 s cap (c7_max c) (c7_state c) idr (c7_has_cb c) in
          Ok (if c7_has_cb c && throws s then c else c7_reset a c, if c7_has_cb c then [s] else [])
        else Ok (mkC7 s cap (c7_max c) 0x20 idr (c7_has_cb c), []).

(* sysex_collector.cpp:158-259 *)
Definition c8_feed_x (a : allocator) (throws : sysex -> bool) (c : collector8) (p : packet)
  : res (collector8 * list (sysex * Z)) :=
  if negb (is_sysex8_packet p) then Ok (c, [])
  else
    let fmt := sysex8_format p in
    sid <- sysex8_stream_id p ;;
    let opening := (fmt =? 0) || (fmt =? 1) in
    if negb opening && negb (c8_state c =? 2) then Ok (c8_reset a c, [])
    else if negb opening && negb (sid =? c8_stream c) then Ok (c, [])
    else
      let c := if opening && negb (c8_state c =? 1) then c8_reset a c else c in
      let stream := if opening then sid else c8_stream c in
      let num := sysex8_payload_size p in
      let '(cap, room) := make_room a (size (sx_data (c8_sysex c))) (c8_capacity c) (c8_max c) (Z.of_nat num) in
      if negb room then
        Ok (mkC8 stream (c8_sysex c) cap (c8_max c) 1 (c8_id_state c) (c8_has_cb c), [])
      else
        r <- c8_bytes p 0 num (c8_sysex c) (c8_id_state c) ;;
        let '(s, ids) := r in
        if (fmt =? 0) || (fmt =? 3) then
          let c := mkC8 stream s cap (c8_max c) (c8_state c) ids (c8_has_cb c) in
          Ok (if c8_has_cb c && throws s then c else c8_reset a c, if c8_has_cb c then [(s, stream)] else [])
        else Ok (mkC8 stream s cap (c8_max c) 2 ids (c8_has_cb c), []).

(* A client that handles exceptions by going on *)
Inductive guarded_collect : Type :=
| XKFeed (p : packet) (throws : sysex -> bool)
| XKReset.

Fixpoint guarded7 (a : allocator) (c : collector7) (ks : list guarded_collect) : res (collector7 * list sysex) :=
  match ks with
  | [] => Ok (c, [])
  | k :: ks' =>
      r <- match k with XKFeed p t => c7_feed_x a t c p | XKReset => Ok (c7_reset a c, []) end ;;
      r' <- guarded7 a (fst r) ks' ;; Ok (fst r', snd r ++ snd r')
  end.
Fixpoint guarded8 (a : allocator) (c : collector8) (ks : list guarded_collect) : res (collector8 * list (sysex * Z)) :=
  match ks with
  | [] => Ok (c, [])
  | k :: ks' =>
      r <- match k with XKFeed p t => c8_feed_x a t c p | XKReset => Ok (c8_reset a c, []) end ;;
      r' <- guarded8 a (fst r) ks' ;; Ok (fst r', snd r ++ snd r')
  end.
