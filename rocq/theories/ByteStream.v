(* Model of inc/midi/midi1_byte_stream.h and src/midi1_byte_stream.cpp *)
From Coq Require Import ZArith List Bool.
From Verif Require Import Base Packet Messages Sysex.
Import ListNotations.
Local Open Scope Z_scope.
Local Open Scope res_scope.

(* midi1_byte_stream.h:77-78: what the user observes are calls of the packet callback and of the
   SysEx callback. *)
Inductive event : Type :=
| EPacket (p : packet)
| ESysex (s : sysex).

(* midi1_byte_stream.h:75-85  the members of midi1_byte_stream_parser.
   The callbacks themselves are not modelled, only whether a SysEx callback is set
   (has_cb).  m_packet_byte and m_num_missing_bytes are uint8_t. *)
Record parser : Type := mkParser {
  m_group : Z;
  has_cb : bool;
  m_invoke_callbacks : bool;
  m_packet : packet;
  m_sysex : sysex;
  m_packet_byte : Z;
  m_num_missing_bytes : Z }.

(* midi1_byte_stream.h:102-120 constructors with the member initialisers of 75-85 *)
Definition new_parser (g : Z) (cb enabled : bool) : parser :=
  mkParser g cb enabled packet0 sysex_empty_value 0 0.

(* assignments to members, midi1_byte_stream.h:76-85 *)
Definition with_packet (st : parser) (p : packet) : parser :=
  mkParser (m_group st) (has_cb st) (m_invoke_callbacks st) p (m_sysex st)
           (m_packet_byte st) (m_num_missing_bytes st).
Definition with_state (st : parser) (p : packet) (byte missing : Z) : parser :=
  mkParser (m_group st) (has_cb st) (m_invoke_callbacks st) p (m_sysex st) byte missing.
Definition with_sysex (st : parser) (s : sysex) (byte : Z) : parser :=
  mkParser (m_group st) (has_cb st) (m_invoke_callbacks st) (m_packet st) s
           byte (m_num_missing_bytes st).

(* if (m_invoke_callbacks) callback(...), as at midi1_byte_stream.cpp:188-191 *)
Definition post (st : parser) (e : event) : list event :=
  if m_invoke_callbacks st then [e] else [].

Definition result : Type := res (parser * list event).

(* midi1_byte_stream.h:51 *)
Definition enable_callbacks (st : parser) (on : bool) : parser :=
  mkParser (m_group st) (has_cb st) on (m_packet st) (m_sysex st)
           (m_packet_byte st) (m_num_missing_bytes st).
(* midi1_byte_stream.h:131-134 *)
Definition parser_set_group (st : parser) (g : Z) : parser :=
  mkParser g (has_cb st) (m_invoke_callbacks st) (m_packet st) (m_sysex st)
           (m_packet_byte st) (m_num_missing_bytes st).

(* midi1_byte_stream.cpp:136-143 *)
Definition parser_reset (st : parser) : parser :=
  mkParser (m_group st) (has_cb st) (m_invoke_callbacks st) packet0 sysex_empty_value 1 0.

(* midi1_byte_stream.cpp:147-158 *)
Definition system_realtime (st : parser) (byte : Z) : result :=
  if (byte =? 0xF9) || (byte =? 0xFD) then Ok (st, [])
  else Ok (st, post st (EPacket (make_system_message (m_group st) byte 0 0))).

(* midi1_byte_stream.cpp:162-196 *)
Definition system_common (st : parser) (byte : Z) : result :=
  let p := make_system_message (m_group st) byte 0 0 in
  let s := status p in
  if (s =? 0xF1) || (s =? 0xF3) then Ok (with_state st p 2 1, [])
  else if s =? 0xF2 then Ok (with_state st p 2 2, [])
  else if s =? 0xF6 then
    Ok (with_state st packet0 2 0, post st (EPacket p))
  else Ok (with_state st packet0 2 0, []).

(* midi1_byte_stream.cpp:200-231 *)
Definition channel_voice (st : parser) (byte : Z) : result :=
  let p := midi1_cv (m_group st) byte 0 0 in
  let s := Z.land (status p) 0xF0 in
  let missing :=
    if (s =? 0x80) || (s =? 0x90) || (s =? 0xA0) || (s =? 0xB0) || (s =? 0xE0) then 2
    else if (s =? 0xC0) || (s =? 0xD0) then 1
    else 0 in
  Ok (with_state st p 2 missing, if missing =? 0 then post st (EPacket p) else []).

(* midi1_byte_stream.cpp:235-250; the capacity reservation is not observable *)
Definition sysex_start (st : parser) : result :=
  p <- make_sysex7_start_packet (m_group st) ;;
  let st := with_state st p 2 0 in
  if has_cb st then
    Ok (with_sysex st sysex_empty_value (if negb (m_invoke_callbacks st) then 0 else 2), [])
  else Ok (st, []).

(* midi1_byte_stream.cpp:254-287; growth of the vector is not observable *)
Definition sysex_continue_callback (st : parser) (byte : Z) : result :=
  let pb := m_packet_byte st in
  let sx := m_sysex st in
  if (pb =? 0) || (pb =? 1) then Ok (st, [])
  else if pb =? 2 then
    Ok (with_sysex st (mkSx (u32 (Z.shiftl byte 16)) (sx_data sx)) (u8 (pb + 1)), [])
  else if ((pb =? 3) || (pb =? 4)) && (Z.land (sx_id sx) 0xFF0000 =? 0) then
    Ok (with_sysex st (mkSx (u32 (sx_id sx + Z.shiftl byte ((4 - pb) * 8))) (sx_data sx)) (u8 (pb + 1)), [])
  else
    Ok (with_sysex st (mkSx (sx_id sx) (sx_data sx ++ [byte])) pb, []).

(* midi1_byte_stream.cpp:291-307 *)
Definition sysex_end_callback (st : parser) : result :=
  let st := with_packet st packet0 in
  if (Z.land (sx_id (m_sysex st)) 0xFF0000 =? 0) && (m_packet_byte st <? 5) then Ok (st, [])
  else Ok (with_sysex st sysex_empty_value (m_packet_byte st), post st (ESysex (m_sysex st))).

(* midi1_byte_stream.cpp:311-326 *)
Definition sysex_continue_packet (st : parser) (byte : Z) : result :=
  p <- set_byte (m_packet st) (Z.to_nat (m_packet_byte st)) byte ;;
  let pb := u8 (m_packet_byte st + 1) in
  if pb =? 8 then
    out <- (if m_invoke_callbacks st then
              q <- set_byte p 1 (u8 (Z.land (status p) 0xF0 + 6)) ;;
              Ok [EPacket q]
            else Ok []) ;;
    c <- make_sysex7_continue_packet (m_group st) ;;
    Ok (with_state st c 2 (m_num_missing_bytes st), out)
  else Ok (with_state st p pb (m_num_missing_bytes st), []).

(* midi1_byte_stream.cpp:330-358 *)
Definition sysex_end_packet (st : parser) : result :=
  let cur_status := u8 (Z.land (status (m_packet st)) 0xF0) in
  let cur_size := u8 (Z.land (m_packet_byte st - 2) 0x0F) in
  if (cur_status =? 0x10) && (m_packet_byte st <? 3) then Ok (with_packet st packet0, [])
  else
    p <- set_byte (m_packet st) 1
           (u8 ((if cur_status =? 0x10 then 0x00 else 0x30) + cur_size)) ;;
    Ok (with_state st packet0 2 (m_num_missing_bytes st), post st (EPacket p)).

(* midi1_byte_stream.cpp:80-121, the part of feed() outside of SysEx *)
Definition feed_plain (st : parser) (byte : Z) : result :=
  if byte =? 0xF0 then sysex_start st
  else if 0xF0 <? byte then system_common st byte
  else if 0x80 <=? byte then channel_voice st byte
  else if negb (status (m_packet st) =? 0) && negb (m_num_missing_bytes st =? 0)
          && (m_packet_byte st <? 4) then
    p <- set_byte (m_packet st) (Z.to_nat (m_packet_byte st)) byte ;;
    let missing := u8 (m_num_missing_bytes st - 1) in
    if missing =? 0 then
      let '(missing, pb) :=
        if status p <? 0xF0 then (u8 (m_packet_byte st - 1), 2)
        else (missing, m_packet_byte st) in
      let out := post st (EPacket p) in
      let q := if 0xF0 <=? status p then packet0 else p in
      Ok (with_state st q pb missing, out)
    else Ok (with_state st p (u8 (m_packet_byte st + 1)) missing, [])
  else Ok (st, []).

(* midi1_byte_stream.cpp:35-122 *)
Definition feed (st : parser) (byte : Z) : result :=
  if 0xF8 <=? byte then system_realtime st byte
  else if type (m_packet st) =? pt_data then
    if byte <? 0x80 then
      if has_cb st then sysex_continue_callback st byte else sysex_continue_packet st byte
    else if negb (byte =? 0xF7) then feed_plain (with_packet st packet0) byte
    else if has_cb st then sysex_end_callback st else sysex_end_packet st
  else feed_plain st byte.

(* midi1_byte_stream.cpp:126-132, midi1_byte_stream.h:138-141 *)
Fixpoint feed_all (st : parser) (bs : list Z) : result :=
  match bs with
  | [] => Ok (st, [])
  | b :: bs' =>
      r <- feed st b ;;
      let '(st, out) := r in
      r <- feed_all st bs' ;;
      let '(st, out') := r in
      Ok (st, out ++ out')
  end.

(* A client's calls on one parser, midi1_byte_stream.h:50-61 *)
Inductive parser_call : Type :=
| CFeed (bs : list Z)       (* feed(uint8_t), feed(data, n), feed(begin, end) *)
| CEnable (on : bool)       (* enable_callbacks *)
| CSetGroup (g : Z)         (* set_group *)
| CReset.                   (* reset *)

(* a user of midi1_byte_stream.h:40-59 *)
Definition parser_call_step (st : parser) (c : parser_call) : result :=
  match c with
  | CFeed bs => feed_all st bs
  | CEnable on => Ok (enable_callbacks st on, [])
  | CSetGroup g => Ok (parser_set_group st g, [])
  | CReset => Ok (parser_reset st, [])
  end.

Fixpoint parser_calls (st : parser) (cs : list parser_call) : result :=
  match cs with
  | [] => Ok (st, [])
  | c :: cs' =>
      r <- parser_call_step st c ;;
      let '(st, out) := r in
      r <- parser_calls st cs' ;;
      let '(st, out') := r in
      Ok (st, out ++ out')
  end.

(* ---- conversion of single packets ------------------------------------------- *)

(* midi1_byte_stream.h:145-199 *)
Definition midi1_byte_stream_size (p : packet) : nat :=
  if type p =? pt_system then
    let s := status p in
    if s =? 0xF2 then 3%nat
    else if (s =? 0xF1) || (s =? 0xF3) then 2%nat
    else if existsb (Z.eqb s) [0xF6; 0xF8; 0xFA; 0xFB; 0xFC; 0xFE; 0xFF] then 1%nat
    else 0%nat
  else if type p =? pt_midi1_channel_voice then
    let s := Z.land (status p) 0xF0 in
    if existsb (Z.eqb s) [0x80; 0x90; 0xA0; 0xB0; 0xE0; 0xF2] then 3%nat
    else if (s =? 0xC0) || (s =? 0xD0) then 2%nat
    else 0%nat
  else if type p =? pt_data then
    let s := Z.land (status p) 0xF0 in
    if existsb (Z.eqb s) [0x00; 0x10; 0x30; 0x20] then
      if Z.land (status p) 0x0F <=? 6 then Z.to_nat (Z.land (status p) 0x0F) else 0%nat
    else 0%nat
  else 0%nat.

(* read n consecutive packet bytes starting at i *)
Fixpoint get_bytes (p : packet) (i n : nat) : res (list Z) :=
  match n with
  | O => Ok []
  | S m => b <- get_byte p i ;; r <- get_bytes p (S i) m ;; Ok (b :: r)
  end.

(* midi1_byte_stream.cpp:362-398; the result is the sequence of bytes written to
   result[0], result[1], ...; its length is the return value.  That at most 8 bytes
   are written is a theorem, not built in. *)
Definition to_midi1_byte_stream (p : packet) : res (list Z) :=
  let n := midi1_byte_stream_size p in
  if (type p =? pt_system) || (type p =? pt_midi1_channel_voice) then get_bytes p 1 n
  else if type p =? pt_data then
    if is_sysex7_packet p then
      let s := Z.land (status p) 0xF0 in
      body <- get_bytes p 2 n ;;
      Ok ((if (s =? 0x00) || (s =? 0x10) then [0xF0] else [])
          ++ body ++
          (if (s =? 0x00) || (s =? 0x30) then [0xF7] else []))
    else Ok []
  else Ok [].

(* midi1_byte_stream.h:203-233 *)
Definition from_midi1_byte_stream (st d1 d2 : Z) : packet :=
  let mk ty := packet1 (u32 (Z.lor (Z.lor (Z.lor (Z.shiftl ty 28) (Z.shiftl st 16)) (Z.shiftl d1 8)) d2)) in
  if Z.land st 0xF0 =? 0xF0 then
    if existsb (Z.eqb st) [0xF0; 0xF7; 0xF4; 0xF5; 0xF9; 0xFD] then packet0
    else mk pt_system
  else if st <? 0x80 then packet0
  else mk pt_midi1_channel_voice.
