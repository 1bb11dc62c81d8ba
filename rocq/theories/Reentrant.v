(* Callbacks that call back into the object that invoked them: the functions of
   src/midi1_byte_stream.cpp and src/sysex_collector.cpp that invoke callbacks, once more,
   with the calls a callback makes before it returns.

   [run st] is the effect of the callback's calls on the state [st] the object has when the
   callback is invoked: the state when the callback returns and what was posted meanwhile.
   Replacing the callback during its own invocation (set_callback) is modelled in ReentrantAny.v only; changing
   the limit of a collector from its callback (set_max_sysex_data_size) is no nested call but
   can be given as [run] (PropsLimit.v). *)
From Coq Require Import ZArith List Bool.
From Verif Require Import Base Packet Messages Sysex ByteStream Collector.
Import ListNotations.
Local Open Scope Z_scope.
Local Open Scope res_scope.

(* ---- midi1_byte_stream_parser ------------------------------------------------------ *)

(* if (m_invoke_callbacks) callback(...); e is delivered, then the callback makes its calls *)
Definition post_in (run : parser -> result) (st : parser) (e : event) : result :=
  if m_invoke_callbacks st then r <- run st ;; Ok (fst r, e :: snd r) else Ok (st, []).

(* midi1_byte_stream.cpp:147-158 *)
Definition system_realtime_in (run : parser -> result) (st : parser) (byte : Z) : result :=
  if (byte =? 0xF9) || (byte =? 0xFD) then Ok (st, [])
  else post_in run st (EPacket (make_system_message (m_group st) byte 0 0)).

(* midi1_byte_stream.cpp:162-196 *)
Definition system_common_in (run : parser -> result) (st : parser) (byte : Z) : result :=
  let p := make_system_message (m_group st) byte 0 0 in
  let s := status p in
  if (s =? 0xF1) || (s =? 0xF3) then Ok (with_state st p 2 1, [])
  else if s =? 0xF2 then Ok (with_state st p 2 2, [])
  else if s =? 0xF6 then
    r <- post_in run (with_state st p 2 0) (EPacket p) ;;
    Ok (with_packet (fst r) packet0, snd r)
  else Ok (with_state st packet0 2 0, []).

(* midi1_byte_stream.cpp:200-231 *)
Definition channel_voice_in (run : parser -> result) (st : parser) (byte : Z) : result :=
  let p := midi1_cv (m_group st) byte 0 0 in
  let s := Z.land (status p) 0xF0 in
  let missing :=
    if (s =? 0x80) || (s =? 0x90) || (s =? 0xA0) || (s =? 0xB0) || (s =? 0xE0) then 2
    else if (s =? 0xC0) || (s =? 0xD0) then 1
    else 0 in
  let st := with_state st p 2 missing in
  if missing =? 0 then post_in run st (EPacket p) else Ok (st, []).

(* midi1_byte_stream.cpp:291-307; the callback receives a reference to m_sysex, which the
   event records as it is when the callback is invoked *)
Definition sysex_end_callback_in (run : parser -> result) (st : parser) : result :=
  let st := with_packet st packet0 in
  if (Z.land (sx_id (m_sysex st)) 0xFF0000 =? 0) && (m_packet_byte st <? 5) then Ok (st, [])
  else
    r <- post_in run st (ESysex (m_sysex st)) ;;
    Ok (with_sysex (fst r) sysex_empty_value (m_packet_byte (fst r)), snd r).

(* midi1_byte_stream.cpp:311-326 *)
Definition sysex_continue_packet_in (run : parser -> result) (st : parser) (byte : Z) : result :=
  p <- set_byte (m_packet st) (Z.to_nat (m_packet_byte st)) byte ;;
  let pb := u8 (m_packet_byte st + 1) in
  let st := with_state st p pb (m_num_missing_bytes st) in
  if pb =? 8 then
    r <- (if m_invoke_callbacks st then
            q <- set_byte p 1 (u8 (Z.land (status p) 0xF0 + 6)) ;;
            post_in run (with_packet st q) (EPacket q)
          else Ok (st, [])) ;;
    c <- make_sysex7_continue_packet (m_group (fst r)) ;;
    Ok (with_state (fst r) c 2 (m_num_missing_bytes (fst r)), snd r)
  else Ok (st, []).

(* midi1_byte_stream.cpp:330-358 *)
Definition sysex_end_packet_in (run : parser -> result) (st : parser) : result :=
  let cur_status := u8 (Z.land (status (m_packet st)) 0xF0) in
  let cur_size := u8 (Z.land (m_packet_byte st - 2) 0x0F) in
  if (cur_status =? 0x10) && (m_packet_byte st <? 3) then Ok (with_packet st packet0, [])
  else
    p <- set_byte (m_packet st) 1
           (u8 ((if cur_status =? 0x10 then 0x00 else 0x30) + cur_size)) ;;
    r <- post_in run (with_packet st p) (EPacket p) ;;
    Ok (with_state (fst r) packet0 2 (m_num_missing_bytes (fst r)), snd r).

(* midi1_byte_stream.cpp:80-121 *)
Definition feed_plain_in (run : parser -> result) (st : parser) (byte : Z) : result :=
  if byte =? 0xF0 then sysex_start st
  else if 0xF0 <? byte then system_common_in run st byte
  else if 0x80 <=? byte then channel_voice_in run st byte
  else if negb (status (m_packet st) =? 0) && negb (m_num_missing_bytes st =? 0)
          && (m_packet_byte st <? 4) then
    p <- set_byte (m_packet st) (Z.to_nat (m_packet_byte st)) byte ;;
    let missing := u8 (m_num_missing_bytes st - 1) in
    if missing =? 0 then
      let '(missing, pb) :=
        if status p <? 0xF0 then (u8 (m_packet_byte st - 1), 2)
        else (missing, m_packet_byte st) in
      r <- post_in run (with_state st p pb missing) (EPacket p) ;;
      let st := fst r in
      Ok (if 0xF0 <=? status (m_packet st) then with_packet st packet0 else st, snd r)
    else Ok (with_state st p (u8 (m_packet_byte st + 1)) missing, [])
  else Ok (st, []).

(* midi1_byte_stream.cpp:35-122 *)
Definition feed_in (run : parser -> result) (st : parser) (byte : Z) : result :=
  if 0xF8 <=? byte then system_realtime_in run st byte
  else if type (m_packet st) =? pt_data then
    if byte <? 0x80 then
      if has_cb st then sysex_continue_callback st byte else sysex_continue_packet_in run st byte
    else if negb (byte =? 0xF7) then feed_plain_in run (with_packet st packet0) byte
    else if has_cb st then sysex_end_callback_in run st else sysex_end_packet_in run st
  else feed_plain_in run st byte.

(* A call, and for each byte fed the calls made by the callback if this byte makes the
   parser invoke one.  Every finite execution with callbacks of any kind is of this form. *)
Inductive nested_call : Type :=
| NFeed (byte : Z) (during : list nested_call)
| NEnable (on : bool)
| NSetGroup (g : Z)
| NReset.

Fixpoint nested_step (st : parser) (k : nested_call) {struct k} : result :=
  match k with
  | NFeed b during =>
      feed_in (fun st =>
        (fix go (st : parser) (ks : list nested_call) {struct ks} : result :=
           match ks with
           | [] => Ok (st, [])
           | k :: ks' =>
               r <- nested_step st k ;; r' <- go (fst r) ks' ;; Ok (fst r', snd r ++ snd r')
           end) st during) st b
  | NEnable on => Ok (enable_callbacks st on, [])
  | NSetGroup g => Ok (parser_set_group st g, [])
  | NReset => Ok (parser_reset st, [])
  end.

Fixpoint nested_calls (st : parser) (ks : list nested_call) {struct ks} : result :=
  match ks with
  | [] => Ok (st, [])
  | k :: ks' =>
      r <- nested_step st k ;; r' <- nested_calls (fst r) ks' ;; Ok (fst r', snd r ++ snd r')
  end.

(* ---- sysex7_collector, sysex8_collector ------------------------------------------------ *)

Definition result7 : Type := res (collector7 * list sysex).
Definition result8 : Type := res (collector8 * list (sysex * Z)).

(* sysex_collector.cpp:45-135 *)
Definition c7_feed_in (a : allocator) (run : collector7 -> result7) (c : collector7) (p : packet) : result7 :=
  if negb (is_sysex7_packet p) then Ok (c, [])
  else
    let st := Z.land (status p) 0xF0 in
    let opening := (st =? 0x00) || (st =? 0x10) in
    if negb opening && negb (c7_state c =? 0x20) then Ok (c7_reset a c, [])
    else
      let c := if opening && negb (c7_state c =? 0x10) then c7_reset a c else c in
      let num := sysex7_payload_size p in
      let '(cap, room) := make_room a (size (sx_data (c7_sysex c))) (c7_capacity c) (c7_max c) (Z.of_nat num) in
      if negb room then
        Ok (mkC7 (c7_sysex c) cap (c7_max c) 0x10 (c7_id_bytes c) (c7_has_cb c), [])
      else
        r <- c7_bytes p 0 num (c7_sysex c) (c7_id_bytes c) ;;
        let '(s, idr) := r in
        if (st =? 0x00) || (st =? 0x30) then
          let c := mkC7 s cap (c7_max c) (c7_state c) idr (c7_has_cb c) in
          r <- (if c7_has_cb c then r <- run c ;; Ok (fst r, s :: snd r) else Ok (c, [])) ;;
          Ok (c7_reset a (fst r), snd r)
        else Ok (mkC7 s cap (c7_max c) 0x20 idr (c7_has_cb c), []).

(* sysex_collector.cpp:158-259 *)
Definition c8_feed_in (a : allocator) (run : collector8 -> result8) (c : collector8) (p : packet) : result8 :=
  if negb (is_sysex8_packet p) then Ok (c, [])
  else
    let fmt := sysex8_format p in
    sid <- sysex8_stream_id p ;;
    let opening := (fmt =? 0) || (fmt =? 1) in
    if negb opening && negb (c8_state c =? 2) then Ok (c8_reset a c, [])
    else if negb opening && negb (sid =? c8_stream c) then Ok (c, [])
    else
      let c := if opening && negb (c8_state c =? 1) then c8_reset a c else c in
      let stream := if opening then sid else c8_stream c in
      let num := sysex8_payload_size p in
      let '(cap, room) := make_room a (size (sx_data (c8_sysex c))) (c8_capacity c) (c8_max c) (Z.of_nat num) in
      if negb room then
        Ok (mkC8 stream (c8_sysex c) cap (c8_max c) 1 (c8_id_state c) (c8_has_cb c), [])
      else
        r <- c8_bytes p 0 num (c8_sysex c) (c8_id_state c) ;;
        let '(s, ids) := r in
        if (fmt =? 0) || (fmt =? 3) then
          let c := mkC8 stream s cap (c8_max c) (c8_state c) ids (c8_has_cb c) in
          r <- (if c8_has_cb c then r <- run c ;; Ok (fst r, (s, stream) :: snd r) else Ok (c, [])) ;;
          Ok (c8_reset a (fst r), snd r)
        else Ok (mkC8 stream s cap (c8_max c) 2 ids (c8_has_cb c), []).

(* calls of a collector, with the calls of the callback during feed() *)
Inductive nested_collect : Type :=
| KNFeed (p : packet) (during : list nested_collect)
| KNReset.

Fixpoint nested7_step (a : allocator) (c : collector7) (k : nested_collect) {struct k} : result7 :=
  match k with
  | KNFeed p during =>
      c7_feed_in a (fun c =>
        (fix go (c : collector7) (ks : list nested_collect) {struct ks} : result7 :=
           match ks with
           | [] => Ok (c, [])
           | k :: ks' =>
               r <- nested7_step a c k ;; r' <- go (fst r) ks' ;; Ok (fst r', snd r ++ snd r')
           end) c during) c p
  | KNReset => Ok (c7_reset a c, [])
  end.
Definition nested7_calls (a : allocator) :=
  fix go (c : collector7) (ks : list nested_collect) {struct ks} : result7 :=
  match ks with
  | [] => Ok (c, [])
  | k :: ks' =>
      r <- nested7_step a c k ;; r' <- go (fst r) ks' ;; Ok (fst r', snd r ++ snd r')
  end.

Fixpoint nested8_step (a : allocator) (c : collector8) (k : nested_collect) {struct k} : result8 :=
  match k with
  | KNFeed p during =>
      c8_feed_in a (fun c =>
        (fix go (c : collector8) (ks : list nested_collect) {struct ks} : result8 :=
           match ks with
           | [] => Ok (c, [])
           | k :: ks' =>
               r <- nested8_step a c k ;; r' <- go (fst r) ks' ;; Ok (fst r', snd r ++ snd r')
           end) c during) c p
  | KNReset => Ok (c8_reset a c, [])
  end.
Definition nested8_calls (a : allocator) :=
  fix go (c : collector8) (ks : list nested_collect) {struct ks} : result8 :=
  match ks with
  | [] => Ok (c, [])
  | k :: ks' =>
      r <- nested8_step a c k ;; r' <- go (fst r) ks' ;; Ok (fst r', snd r ++ snd r')
  end.
