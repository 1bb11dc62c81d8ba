(* Reference semantics of a MIDI 1.0 byte stream.

   No state machine: what happens at a byte is a function of the most recent status
   byte and of the data bytes received since (real-time bytes removed).  Packets are
   described by their arithmetic layout.  Only the types packet, sysex and event are
   shared with the model. *)
From Coq Require Import ZArith List Bool.
From Verif Require Import Base Packet PacketSpec Sysex ByteStream.
Import ListNotations.
Local Open Scope Z_scope.
Local Open Scope res_scope.

(* ---- message vocabulary ------------------------------------------------------ *)

(* number of data bytes of a channel voice message *)
Definition cv_len (s : Z) : nat := if (0xC0 <=? s) && (s <? 0xE0) then 1%nat else 2%nat.

(* number of data bytes of a system common message; None: undefined or SysEx *)
Definition sc_len (s : Z) : option nat :=
  if s =? 0xF1 then Some 1%nat
  else if s =? 0xF2 then Some 2%nat
  else if s =? 0xF3 then Some 1%nat
  else if s =? 0xF6 then Some 0%nat
  else None.

Definition rt_defined (b : Z) : bool := negb ((b =? 0xF9) || (b =? 0xFD)).

(* one word message: type, group, status, up to two data bytes *)
Definition short_packet (g s : Z) (ds : list Z) : packet :=
  mkP ((if s <? 0xF0 then 2 else 1) * 268435456 + g * 16777216 + s * 65536
       + nth 0 ds 0 * 256 + nth 1 ds 0) 0 0 0.

(* SysEx7 packet: format 0 complete, 1 start, 2 continue, 3 end; up to 6 bytes *)
Definition sx7_packet (g fmt : Z) (ds : list Z) : packet :=
  mkP (be32 (3 * 16 + g) (fmt * 16 + Z.of_nat (length ds)) (nth 0 ds 0) (nth 1 ds 0))
      (be32 (nth 2 ds 0) (nth 3 ds 0) (nth 4 ds 0) (nth 5 ds 0)) 0 0.

Definition lastn {A} (n : nat) (l : list A) : list A := skipn (length l - n) l.

(* SysEx message from the bytes between F0 and F7: manufacturer id, data *)
Definition sx_decode (ds : list Z) : option sysex :=
  match ds with
  | 0 :: a :: b :: rest => Some (mkSx (a * 256 + b) rest)
  | 0 :: _ => None
  | m :: rest => Some (mkSx (m * 65536) rest)
  | [] => None
  end.

(* ---- the running context ----------------------------------------------------- *)

(* most recent status byte and the data bytes since, of a stream without real-time bytes *)
Definition ctx_step (c : option (Z * list Z)) (b : Z) : option (Z * list Z) :=
  if 0x80 <=? b then Some (b, [])
  else match c with
       | Some (s, ds) => Some (s, ds ++ [b])
       | None => None
       end.
Definition context (h : list Z) : option (Z * list Z) := fold_left ctx_step h None.

Definition is_rt (b : Z) : bool := 0xF8 <=? b.

(* ---- what is emitted at byte b after the (real-time free) history h ------------ *)

(* a data byte makes the data bytes since status s equal to ds *)
Definition on_data (cb : bool) (g s : Z) (ds : list Z) : list event :=
  let k := length ds in
  if s <? 0xF0 then
    if (k mod cv_len s =? 0)%nat then [EPacket (short_packet g s (lastn (cv_len s) ds))] else []
  else if s =? 0xF0 then
    if cb then []
    else if (k mod 6 =? 0)%nat then
      [EPacket (sx7_packet g (if (k =? 6)%nat then 1 else 2) (lastn 6 ds))]
    else []
  else match sc_len s with
       | Some n => if (k =? n)%nat then [EPacket (short_packet g s ds)] else []
       | None => []
       end.

(* F7 after F0 and data bytes ds *)
Definition on_sysex_end (cb : bool) (g : Z) (ds : list Z) : list event :=
  let k := length ds in
  if cb then
    match sx_decode ds with Some s => [ESysex s] | None => [] end
  else if (k =? 0)%nat then []
  else if (k <? 6)%nat then [EPacket (sx7_packet g 0 ds)]
  else [EPacket (sx7_packet g 3 (lastn (k mod 6) ds))].

Definition emission (cb : bool) (g : Z) (h : list Z) (b : Z) : list event :=
  if is_rt b then
    if rt_defined b then [EPacket (short_packet g b [])] else []
  else if b <? 0x80 then
    match context h with
    | Some (s, ds) => on_data cb g s (ds ++ [b])
    | None => []
    end
  else if b =? 0xF6 then [EPacket (short_packet g b [])]
  else if b =? 0xF7 then
    match context h with
    | Some (s, ds) => if s =? 0xF0 then on_sysex_end cb g ds else []
    | None => []
    end
  else [].

Definition remember (h : list Z) (b : Z) : list Z := if is_rt b then h else h ++ [b].

(* everything emitted for the stream bs after history h *)
Fixpoint outputs (cb : bool) (g : Z) (h bs : list Z) : list event :=
  match bs with
  | [] => []
  | b :: bs' => emission cb g h b ++ outputs cb g (remember h b) bs'
  end.

(* ---- legal streams ------------------------------------------------------------ *)

(* a channel voice or system common message *)
Record message : Type := mkMsg { ms_status : Z; ms_data : list Z }.

Definition valid_message (m : message) : Prop :=
  (0x80 <= ms_status m < 0xF0 /\ length (ms_data m) = cv_len (ms_status m)
   \/ sc_len (ms_status m) = Some (length (ms_data m)))
  /\ Forall is_u7 (ms_data m).

Definition is_cv (m : message) : bool := ms_status m <? 0xF0.

(* Bytes annotated with what must be emitted when the byte arrives. *)
Definition annotated := list (Z * list event).

Fixpoint annotate_data (ds : list Z) (e : event) : annotated :=
  match ds with
  | [] => []
  | [d] => [(d, [e])]
  | d :: ds' => (d, []) :: annotate_data ds' e
  end.

(* a message with its status byte / without it (running status) *)
Definition render_full (g : Z) (m : message) : annotated :=
  let e := EPacket (short_packet g (ms_status m) (ms_data m)) in
  match ms_data m with
  | [] => [(ms_status m, [e])]
  | ds => (ms_status m, []) :: annotate_data ds e
  end.
Definition render_running (g : Z) (m : message) : annotated :=
  annotate_data (ms_data m) (EPacket (short_packet g (ms_status m) (ms_data m))).

(* Rendering of a message sequence; [rs] is the current running status.  Running
   status may be used (but need not) for a channel voice message repeating it. *)
Inductive renders (g : Z) : option Z -> list message -> annotated -> Prop :=
| renders_nil rs : renders g rs [] []
| renders_full rs m ms a :
    valid_message m ->
    renders g (if is_cv m then Some (ms_status m) else None) ms a ->
    renders g rs (m :: ms) (render_full g m ++ a)
| renders_running m ms a :
    valid_message m -> is_cv m = true ->
    renders g (Some (ms_status m)) ms a ->
    renders g (Some (ms_status m)) (m :: ms) (render_running g m ++ a).

(* Real-time bytes inserted at arbitrary positions. *)
Inductive with_realtime (g : Z) : annotated -> annotated -> Prop :=
| wr_nil : with_realtime g [] []
| wr_keep x a b : with_realtime g a b -> with_realtime g (x :: a) (x :: b)
| wr_insert r a b : is_rt r = true -> r < 256 ->
    with_realtime g a b ->
    with_realtime g a ((r, if rt_defined r then [EPacket (short_packet g r [])] else []) :: b).

(* ---- SysEx7 packet sequences --------------------------------------------------- *)

(* the packets following a start packet *)
Fixpoint sx7_tail (g : Z) (chunks : list (list Z)) : list packet :=
  match chunks with
  | [] => []
  | [c] => [sx7_packet g 3 c]
  | c :: rest => sx7_packet g 2 c :: sx7_tail g rest
  end.
(* one chunk: a complete packet; several: start, continue*, end *)
Definition sx7_sequence (g : Z) (chunks : list (list Z)) : list packet :=
  match chunks with
  | [] => []
  | [c] => [sx7_packet g 0 c]
  | c :: rest => sx7_packet g 1 c :: sx7_tail g rest
  end.

(* every chunk but the last carries 6 bytes *)
Fixpoint chunked6 (chunks : list (list Z)) : Prop :=
  match chunks with
  | [] => False
  | [c] => (length c <= 6)%nat
  | c :: rest => length c = 6%nat /\ chunked6 rest
  end.

(* ---- manufacturer ids ------------------------------------------------------------ *)

(* valid manufacturer ids: one byte (upper 8 of 24 bits) or 0 and two bytes *)
Definition valid_id (id : Z) : Prop :=
  (exists m, 1 <= m < 128 /\ id = m * 65536) \/
  (exists a b, is_u7 a /\ is_u7 b /\ id = a * 256 + b).
(* as transmitted *)
Definition id_bytes (id : Z) : list Z :=
  if 65536 <=? id then [id / 65536] else [0; id / 256; id mod 256].

(* ---- well-formed output ------------------------------------------------------------ *)

Definition wf_output (g : Z) (e : event) : Prop :=
  match e with
  | EPacket p =>
      (exists m, valid_message m /\ p = short_packet g (ms_status m) (ms_data m)) \/
      (exists r, 0xF8 <= r < 256 /\ rt_defined r = true /\ p = short_packet g r []) \/
      (exists f ds, 0 <= f < 4 /\ (length ds <= 6)%nat /\ Forall is_u7 ds /\
         (f <> 3 -> ds <> []) /\ p = sx7_packet g f ds)
  | ESysex s => valid_id (sx_id s) /\ Forall is_u7 (sx_data s)
  end.

Definition is_realtime_event (e : event) : bool :=
  match e with
  | EPacket p => (16 <=? w0 p / 16777216) && (w0 p / 16777216 <? 32) && (0xF8 <=? w0 p / 65536 mod 256)
  | ESysex _ => false
  end.

(* MIDI 1 bytes of a packet sequence *)
Fixpoint stream_of_packets (ps : list packet) : res (list Z) :=
  match ps with
  | [] => Ok []
  | p :: ps' =>
      bind (to_midi1_byte_stream p) (fun b => bind (stream_of_packets ps') (fun bs => Ok (b ++ bs)))
  end.

(* ---- arbitrary sequences of calls ---------------------------------------------------

   Every byte is remembered together with the configuration in force when it was fed. *)
Record fed : Type := mkFed { f_byte : Z; f_group : Z; f_on : bool }.

Definition calls_context := option (fed * list fed).   (* last status, data since *)

Definition calls_ctx_step (c : calls_context) (x : fed) : calls_context :=
  if is_rt (f_byte x) then c
  else if 0x80 <=? f_byte x then Some (x, [])
  else match c with Some (x0, ds) => Some (x0, ds ++ [x]) | None => None end.

(* A SysEx7 packet carries the group in force when the byte before its first payload
   byte was fed; all other messages the group in force at their status byte. *)
Definition packet_group (x0 : fed) (ds : list fed) : Z :=
  if f_byte x0 =? 0xF0 then f_group (nth (6 * (length ds / 6)) (x0 :: ds) x0) else f_group x0.

Definition calls_emission (cb : bool) (c : calls_context) (x : fed) : list event :=
  let b := f_byte x in
  if negb (f_on x) then []
  else if is_rt b then
    if rt_defined b then [EPacket (short_packet (f_group x) b [])] else []
  else if b <? 0x80 then
    match c with
    | Some (x0, ds) => on_data cb (packet_group x0 ds) (f_byte x0) (map f_byte (ds ++ [x]))
    | None => []
    end
  else if b =? 0xF6 then [EPacket (short_packet (f_group x) b [])]
  else if b =? 0xF7 then
    match c with
    | Some (x0, ds) =>
        (* with a SysEx callback, only if callbacks were also enabled at F0 *)
        if (f_byte x0 =? 0xF0) && (negb cb || f_on x0)
        then on_sysex_end cb (packet_group x0 ds) (map f_byte ds) else []
    | None => []
    end
  else [].

Fixpoint bytes_outputs (cb : bool) (g : Z) (on : bool) (c : calls_context) (bs : list Z)
  : calls_context * list event :=
  match bs with
  | [] => (c, [])
  | b :: bs' =>
      let x := mkFed b g on in
      let r := bytes_outputs cb g on (calls_ctx_step c x) bs' in
      (fst r, calls_emission cb c x ++ snd r)
  end.

Fixpoint calls_outputs (cb : bool) (g : Z) (on : bool) (c : calls_context) (cs : list parser_call)
  : list event :=
  match cs with
  | [] => []
  | CFeed bs :: cs' =>
      let r := bytes_outputs cb g on c bs in snd r ++ calls_outputs cb g on (fst r) cs'
  | CEnable on' :: cs' => calls_outputs cb g on' c cs'
  | CSetGroup g' :: cs' => calls_outputs cb g' on c cs'
  | CReset :: cs' => calls_outputs cb g on None cs'
  end.

(* ---- histories and calls ----------------------------------------------------------- *)

(* parser states after a history *)
Definition after (g : Z) (cb : bool) (h : list Z) (st : parser) : Prop :=
  exists o, feed_all (new_parser g cb true) h = Ok (st, o).

Definition rt_events (g r : Z) : list event :=
  if rt_defined r then [EPacket (short_packet g r [])] else [].

Fixpoint feed_chunks (st : parser) (cs : list (list Z)) : result :=
  match cs with
  | [] => Ok (st, [])
  | c :: cs' => r <- feed_all st c ;; r' <- feed_chunks (fst r) cs' ;; Ok (fst r', snd r ++ snd r')
  end.

Definition valid_call (c : parser_call) : Prop :=
  match c with
  | CFeed bs => Forall is_u8 bs
  | CSetGroup g => 0 <= g < 16
  | CEnable _ | CReset => True
  end.

Definition stays_off (c : parser_call) : Prop := match c with CEnable on => on = false | _ => True end.

Definition not_rt (b : Z) : bool := negb (is_rt b).

Definition not_rt_event (e : event) : bool := negb (is_realtime_event e).

(* the groups a client configures *)
Definition configured (g : Z) (cs : list parser_call) (x : Z) : Prop := x = g \/ In (CSetGroup x) cs.

Definition wf_output_some (P : Z -> Prop) (e : event) : Prop := exists g, P g /\ wf_output g e.

(* parser states reached by any calls, with callbacks enabled and group g configured *)
Definition reached (g : Z) (cb : bool) (st : parser) : Prop :=
  exists g0 on0 cs o, 0 <= g0 < 16 /\ Forall valid_call cs /\
    parser_calls (new_parser g0 cb on0) cs = Ok (st, o) /\
    m_group st = g /\ m_invoke_callbacks st = true.

(* the first byte that is not real-time, if any, is a status byte but not F7 *)
Definition starts_with_status (bs : list Z) : Prop :=
  match filter not_rt bs with [] => True | b :: _ => 0x80 <= b /\ b <> 0xF7 end.

(* ---- MIDI 1 bytes of a single packet --------------------------------------------------- *)

(* number of MIDI 1 bytes of a system (type 1) or MIDI 1 channel voice (type 2) packet
   with this status byte; packets with an undefined status have no representation *)
Definition midi1_length (ty s : Z) : nat :=
  if ty =? 1 then
    if 0xF8 <=? s then if rt_defined s then 1%nat else 0%nat
    else match sc_len s with Some n => S n | None => 0%nat end
  else if ty =? 2 then
    if (0x80 <=? s) && (s <? 0xF0) then S (cv_len s) else 0%nat
  else 0%nat.

(* the packets representing one MIDI 1 message on group g *)
Definition midi1_packet (g : Z) (p : packet) : Prop :=
  (exists m, valid_message m /\ p = short_packet g (ms_status m) (ms_data m)) \/
  (exists r, 0xF8 <= r < 256 /\ rt_defined r = true /\ p = short_packet g r []).

(* after a complete system common message (or an undefined status, or F7) further data
   bytes are ignored *)
Definition complete_common (s : Z) (ds : list Z) : Prop :=
  0xF1 <= s < 0xF8 /\ Forall is_u7 ds /\ match sc_len s with Some n => length ds = n | None => True end.
