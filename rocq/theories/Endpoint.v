(* Model of inc/midi/stream_message.h (abbreviated SM.h).

   [dbg] is true in builds with assertions.  Texts are lists of bytes; a char is converted to
   uint8_t where it is stored, so negative chars are the bytes from 128 on.  A view is modelled
   by the packet it refers to; the Sender of the send functions by the list of packets passed
   to it. *)
From Coq Require Import ZArith List Bool.
From Verif Require Import Base Packet Sysex.
Import ListNotations.
Local Open Scope Z_scope.
Local Open Scope res_scope.

(* universal_packet.h:159-171 *)
Definition st_endpoint_discovery : Z := 0x00.
Definition st_endpoint_info : Z := 0x01.
Definition st_device_identity : Z := 0x02.
Definition st_endpoint_name : Z := 0x03.
Definition st_product_instance_id : Z := 0x04.
Definition st_stream_configuration_request : Z := 0x05.
Definition st_stream_configuration_notify : Z := 0x06.
Definition st_function_block_discovery : Z := 0x10.
Definition st_function_block_info : Z := 0x11.
Definition st_function_block_name : Z := 0x12.

(* SM.h:414-417 *)
Definition stream_message0 : packet := packet1 0xF0000000.
(* SM.h:419-422; the format is an enumerator, 0 to 3 *)
Definition stream_message (st format : Z) : packet :=
  packet1 (Z.lor (Z.lor 0xF0000000 (u32 (Z.shiftl format 26))) (Z.shiftl st 16)).
(* SM.h:53 *)
Definition stream_format (p : packet) : Z := Z.land (Z.shiftr (w0 p) 26) 0x03.
(* SM.h:424-427 *)
Definition set_stream_format (p : packet) (f : Z) : packet :=
  set_word p 0 (Z.lor (Z.land (w0 p) 0xF3FFFFFF) (u32 (Z.shiftl f 26))).
(* SM.h:431-434 *)
Definition is_stream_message (p : packet) : bool := type p =? pt_stream.

(* SM.h:60-74; n is the number of remaining bytes, 16 - b *)
Fixpoint payload_loop (p : packet) (b n : nat) : res (list Z) :=
  match n with
  | O => Ok []
  | S m =>
      c <- get_byte_7bit p b ;;
      if c =? 0 then Ok [] else r <- payload_loop p (S b) m ;; Ok (c :: r)
  end.
Definition payload_as_string (p : packet) (offset : nat) : res (list Z) :=
  payload_loop p offset (16 - offset).

(* ---- views ------------------------------------------------------------------------------ *)

(* SM.h:100-105 and 438-444 *)
Definition endpoint_discovery_view (dbg : bool) (p : packet) : res packet :=
  check dbg (type p =? pt_stream) ;;; check dbg (status p =? st_endpoint_discovery) ;;; Ok p.
Definition as_endpoint_discovery_view (dbg : bool) (p : packet) : res (option packet) :=
  if is_stream_message p && (status p =? st_endpoint_discovery)
  then v <- endpoint_discovery_view dbg p ;; Ok (Some v) else Ok None.
(* SM.h:107-109 *)
Definition discovery_ump_version_major (p : packet) : Z := byte3 p.
Definition discovery_ump_version_minor (p : packet) : Z := byte4 p.
Definition discovery_ump_version (p : packet) : Z := u16 (Z.land (w0 p) 0xFFFF).
(* SM.h:111 *)
Definition discovery_filter (p : packet) : Z := u8 (Z.land (w1 p) 0x1F).
(* SM.h:113-117 *)
Definition requests_info (p : packet) : bool := negb (Z.land (discovery_filter p) 0x01 =? 0).
Definition requests_device_identity (p : packet) : bool := negb (Z.land (discovery_filter p) 0x02 =? 0).
Definition requests_name (p : packet) : bool := negb (Z.land (discovery_filter p) 0x04 =? 0).
Definition requests_product_instance_id (p : packet) : bool := negb (Z.land (discovery_filter p) 0x08 =? 0).
Definition requests_stream_configuration (p : packet) : bool := negb (Z.land (discovery_filter p) 0x10 =? 0).

(* SM.h:131-136 and 446-452 *)
Definition endpoint_info_view (dbg : bool) (p : packet) : res packet :=
  check dbg (type p =? pt_stream) ;;; check dbg (status p =? st_endpoint_info) ;;; Ok p.
Definition as_endpoint_info_view (dbg : bool) (p : packet) : res (option packet) :=
  if is_stream_message p && (status p =? st_endpoint_info)
  then v <- endpoint_info_view dbg p ;; Ok (Some v) else Ok None.
(* SM.h:138-140 *)
Definition info_ump_version_major (p : packet) : Z := byte3 p.
Definition info_ump_version_minor (p : packet) : Z := byte4 p.
Definition info_ump_version (p : packet) : Z := u16 (Z.land (w0 p) 0xFFFF).
(* SM.h:142-145 *)
Definition num_function_blocks (p : packet) : res Z := b <- get_byte p 4 ;; Ok (Z.land b 0x7F).
Definition static_function_blocks (p : packet) : res bool :=
  b <- get_byte p 4 ;; Ok (negb (Z.land b 0x80 =? 0)).
Definition info_protocols (p : packet) : res Z := b <- get_byte p 6 ;; Ok (Z.land b 3).
Definition info_extensions (p : packet) : res Z := b <- get_byte p 7 ;; Ok (Z.land b 3).

(* SM.h:159-164 and 454-460 *)
Definition device_identity_view (dbg : bool) (p : packet) : res packet :=
  check dbg (type p =? pt_stream) ;;; check dbg (status p =? st_device_identity) ;;; Ok p.
Definition as_device_identity_view (dbg : bool) (p : packet) : res (option packet) :=
  if is_stream_message p && (status p =? st_device_identity)
  then v <- device_identity_view dbg p ;; Ok (Some v) else Ok None.
(* SM.h:166-173 *)
Definition stream_identity (p : packet) : device_identity :=
  mkDevId
    (Z.land (w1 p) 0x007F7F7F)
    (u16 (Z.lor (Z.land (Z.shiftr (w2 p) 24) 0x7F) (Z.land (Z.shiftr (w2 p) 9) 0x3F80)))
    (u16 (Z.lor (Z.land (Z.shiftr (w2 p) 8) 0x7F) (Z.land (u32 (Z.shiftl (w2 p) 7)) 0x3F80)))
    (Z.lor (Z.lor (Z.lor (Z.land (Z.shiftr (w3 p) 24) 0x000007F) (Z.land (Z.shiftr (w3 p) 9) 0x0003F80))
      (Z.land (u32 (Z.shiftl (w3 p) 6)) 0x1FC000)) (Z.land (u32 (Z.shiftl (w3 p) 21)) 0xFE00000)).

(* SM.h:187-192 and 462-468 *)
Definition endpoint_name_view (dbg : bool) (p : packet) : res packet :=
  check dbg (type p =? pt_stream) ;;; check dbg (status p =? st_endpoint_name) ;;; Ok p.
Definition as_endpoint_name_view (dbg : bool) (p : packet) : res (option packet) :=
  if is_stream_message p && (status p =? st_endpoint_name)
  then v <- endpoint_name_view dbg p ;; Ok (Some v) else Ok None.
(* SM.h:194-196 *)
Definition endpoint_name_format (p : packet) : Z := Z.land (Z.shiftr (w0 p) 26) 3.
Definition endpoint_name_payload (p : packet) : res (list Z) := payload_as_string p 2.

(* SM.h:210-215 and 470-476 *)
Definition product_instance_id_view (dbg : bool) (p : packet) : res packet :=
  check dbg (type p =? pt_stream) ;;; check dbg (status p =? st_product_instance_id) ;;; Ok p.
Definition as_product_instance_id_view (dbg : bool) (p : packet) : res (option packet) :=
  if is_stream_message p && (status p =? st_product_instance_id)
  then v <- product_instance_id_view dbg p ;; Ok (Some v) else Ok None.
(* SM.h:217-219 *)
Definition product_instance_id_format (p : packet) : Z := Z.land (Z.shiftr (w0 p) 26) 3.
Definition product_instance_id_payload (p : packet) : res (list Z) := payload_as_string p 2.

(* SM.h:233-239 and 478-485 *)
Definition stream_configuration_view (dbg : bool) (p : packet) : res packet :=
  check dbg (type p =? pt_stream) ;;;
  check dbg ((status p =? st_stream_configuration_request) || (status p =? st_stream_configuration_notify)) ;;; Ok p.
Definition as_stream_configuration_view (dbg : bool) (p : packet) : res (option packet) :=
  if is_stream_message p &&
     ((status p =? st_stream_configuration_request) || (status p =? st_stream_configuration_notify))
  then v <- stream_configuration_view dbg p ;; Ok (Some v) else Ok None.
(* SM.h:241-242 *)
Definition configuration_protocol (p : packet) : Z := Z.land (byte3 p) 3.
Definition configuration_extensions (p : packet) : Z := Z.land (byte4 p) 3.

(* SM.h:256-261 and 487-493 *)
Definition function_block_discovery_view (dbg : bool) (p : packet) : res packet :=
  check dbg (type p =? pt_stream) ;;; check dbg (status p =? st_function_block_discovery) ;;; Ok p.
Definition as_function_block_discovery_view (dbg : bool) (p : packet) : res (option packet) :=
  if is_stream_message p && (status p =? st_function_block_discovery)
  then v <- function_block_discovery_view dbg p ;; Ok (Some v) else Ok None.
(* SM.h:263-264 *)
Definition fb_discovery_block (p : packet) : Z := byte3 p.
Definition fb_discovery_filter (p : packet) : Z := Z.land (byte4 p) 0xF.
(* SM.h:266-270 *)
Definition requests_function_block (p : packet) (block : Z) : bool :=
  (fb_discovery_block p =? 0xFF) || (fb_discovery_block p =? block).
(* SM.h:271-272 *)
Definition fb_requests_info (p : packet) : bool := negb (Z.land (fb_discovery_filter p) 1 =? 0).
Definition fb_requests_name (p : packet) : bool := negb (Z.land (fb_discovery_filter p) 2 =? 0).

(* SM.h:284-313  struct function_block_options *)
Record fb_options := mkFbOptions {
  fo_active : bool; fo_direction : Z; fo_midi1 : Z; fo_ui_hint : Z; fo_ci_version : Z; fo_sysex8 : Z }.

(* SM.h:319-324 and 495-501 *)
Definition function_block_info_view (dbg : bool) (p : packet) : res packet :=
  check dbg (type p =? pt_stream) ;;; check dbg (status p =? st_function_block_info) ;;; Ok p.
Definition as_function_block_info_view (dbg : bool) (p : packet) : res (option packet) :=
  if is_stream_message p && (status p =? st_function_block_info)
  then v <- function_block_info_view dbg p ;; Ok (Some v) else Ok None.
(* SM.h:326-337 *)
Definition fb_active (p : packet) : bool := negb (Z.land (w0 p) 0x00008000 =? 0).
Definition fb_block (p : packet) : res Z := get_byte_7bit p 2.
Definition fb_direction (p : packet) : Z := u8 (Z.land (w0 p) 3).
Definition fb_midi1 (p : packet) : Z := Z.land (u8 (Z.shiftr (w0 p) 2)) 3.
Definition fb_ui_hint (p : packet) : Z := Z.land (u8 (Z.shiftr (w0 p) 4)) 3.
Definition fb_first_group (p : packet) : res Z := get_byte p 4.
Definition fb_num_groups (p : packet) : res Z := get_byte p 5.
Definition fb_ci_version (p : packet) : res Z := get_byte p 6.
Definition fb_max_sysex8 (p : packet) : res Z := get_byte p 7.

(* SM.h:351-356 and 503-509 *)
Definition function_block_name_view (dbg : bool) (p : packet) : res packet :=
  check dbg (type p =? pt_stream) ;;; check dbg (status p =? st_function_block_name) ;;; Ok p.
Definition as_function_block_name_view (dbg : bool) (p : packet) : res (option packet) :=
  if is_stream_message p && (status p =? st_function_block_name)
  then v <- function_block_name_view dbg p ;; Ok (Some v) else Ok None.
(* SM.h:358-361 *)
Definition fb_name_format (p : packet) : Z := Z.land (Z.shiftr (w0 p) 26) 3.
Definition fb_name_block (p : packet) : Z := Z.land (byte3 p) 0x7F.
Definition fb_name_payload (p : packet) : res (list Z) := payload_as_string p 3.

(* ---- constructors ------------------------------------------------------------------------ *)

(* SM.h:513-522 *)
Definition make_endpoint_discovery_message (filter major minor : Z) : res packet :=
  m <- set_byte (stream_message st_endpoint_discovery 0) 2 major ;;
  m <- set_byte m 3 minor ;;
  Ok (set_word m 1 filter).
(* SM.h:524-538 *)
Definition make_endpoint_info_message (num : Z) (static : bool) (protocols extensions major minor : Z) : res packet :=
  m <- set_byte (stream_message st_endpoint_info 0) 2 major ;;
  m <- set_byte m 3 minor ;;
  m <- set_byte m 4 (u8 (Z.lor (if static then 0x80 else 0x00) num)) ;;
  m <- set_byte m 6 protocols ;;
  set_byte m 7 extensions.
(* SM.h:540-549 *)
Definition make_device_identity_message (i : device_identity) : packet :=
  let m := set_word (stream_message st_device_identity 0) 1 (di_manufacturer i) in
  let m := set_word m 2
    (Z.lor (Z.lor (Z.lor (Z.land (u32 (Z.shiftl (di_family i) 24)) 0x7F000000)
       (Z.land (u32 (Z.shiftl (di_family i) 9)) 0x007F0000))
       (Z.land (u32 (Z.shiftl (di_model i) 8)) 0x00007F00))
       (Z.land (Z.shiftr (di_model i) 7) 0x0000007F)) in
  set_word m 3
    (Z.lor (Z.lor (Z.lor (Z.land (u32 (Z.shiftl (di_revision i) 24)) 0x7F000000)
       (Z.land (u32 (Z.shiftl (di_revision i) 9)) 0x007F0000))
       (Z.land (Z.shiftr (di_revision i) 6) 0x00007F00))
       (Z.land (Z.shiftr (di_revision i) 21) 0x0000007F)).

(* the loops SM.h:555-561, 570-576 and 657-663, with set_byte or set_byte_7bit *)
Fixpoint put_chars (put : packet -> nat -> Z -> res packet) (m : packet) (b : nat) (n : list Z) : res packet :=
  match n with
  | [] => Ok m
  | c :: t =>
      m' <- put m b c ;;
      if (16 <=? S b)%nat then Ok m' else put_chars put m' (S b) t
  end.
(* SM.h:551-563 *)
Definition make_endpoint_name_message (dbg : bool) (format : Z) (n : list Z) : res packet :=
  check dbg (size n <=? 14) ;;;
  put_chars set_byte (stream_message st_endpoint_name format) 2 n.
(* SM.h:565-578 *)
Definition make_product_instance_id_message (dbg : bool) (format : Z) (n : list Z) : res packet :=
  check dbg (size n <=? 14) ;;;
  check dbg (negb (format =? pf_cont)) ;;;
  put_chars set_byte_7bit (stream_message st_product_instance_id format) 2 n.
(* SM.h:582-589 and 591-598 *)
Definition make_stream_configuration_request (dbg : bool) (p e : Z) : res packet :=
  check dbg (negb (p =? 0) && (p <? 3)) ;;;
  m <- set_byte (stream_message st_stream_configuration_request 0) 2 p ;;
  set_byte m 3 e.
Definition make_stream_configuration_notification (dbg : bool) (p e : Z) : res packet :=
  check dbg (negb (p =? 0) && (p <? 3)) ;;;
  m <- set_byte (stream_message st_stream_configuration_notify 0) 2 p ;;
  set_byte m 3 e.
(* SM.h:602-609 *)
Definition make_function_block_discovery_message (dbg : bool) (block filter : Z) : res packet :=
  check dbg ((block =? 0xFF) || (block <? 32)) ;;;
  m <- set_byte (stream_message st_function_block_discovery 0) 2 block ;;
  set_byte m 3 filter.
(* SM.h:611-624 *)
Definition make_function_block_info_message (dbg : bool) (block direction first_group num_groups : Z) : res packet :=
  check dbg (block <? 32) ;;;
  check dbg ((0 <? direction) && (direction <? 4)) ;;;
  m <- set_byte (stream_message st_function_block_info 0) 2 (Z.lor 0x80 (Z.land block 0x1F)) ;;
  m <- set_byte m 3 (u8 (Z.lor (Z.shiftl (Z.land direction 0x03) 4) (Z.land direction 0x03))) ;;
  m <- set_byte m 4 (Z.land first_group 0xF) ;;
  set_byte m 5 (Z.land num_groups 0xF).
(* SM.h:626-647 *)
Definition make_function_block_info_message_options (dbg : bool) (block : Z) (o : fb_options)
    (first_group num_groups : Z) : res packet :=
  check dbg (block <? 32) ;;;
  check dbg ((0 <? fo_direction o) && (fo_direction o <? 4)) ;;;
  check dbg (fo_midi1 o <? 3) ;;;
  check dbg (fo_ui_hint o <? 4) ;;;
  check dbg ((fo_ui_hint o =? 0) || negb (Z.land (fo_direction o) (fo_ui_hint o) =? 0)) ;;;
  m <- set_byte (stream_message st_function_block_info 0) 2
         (Z.lor (if fo_active o then 0x80 else 0x00) (Z.land block 0x1F)) ;;
  m <- set_byte m 3
         (u8 (Z.lor (Z.lor
           (Z.shiftl (Z.land (if negb (fo_ui_hint o =? 0) then fo_ui_hint o else fo_direction o) 0x03) 4)
           (Z.shiftl (Z.land (fo_midi1 o) 0x03) 2)) (Z.land (fo_direction o) 0x03))) ;;
  m <- set_byte m 4 (Z.land first_group 0xF) ;;
  m <- set_byte m 5 (Z.land num_groups 0xF) ;;
  m <- set_byte m 6 (fo_ci_version o) ;;
  set_byte m 7 (fo_sysex8 o).
(* SM.h:649-665 *)
Definition make_function_block_name_message (dbg : bool) (format block : Z) (n : list Z) : res packet :=
  check dbg (size n <=? 13) ;;;
  m <- set_byte (stream_message st_function_block_name format) 2 block ;;
  put_chars set_byte m 3 n.

(* ---- senders ------------------------------------------------------------------------------- *)

(* the loops SM.h:683-687 and 726-730 with the last call; the length of the text bounds the
   number of rounds, the default is not reached *)
Fixpoint send_rest (make : Z -> list Z -> res packet) (chunk : nat) (n : nat) (name : list Z) : res (list packet) :=
  match n with
  | O => Fault AssertFail
  | S m =>
      if (chunk <? length name)%nat then
        p <- make pf_cont (firstn chunk name) ;;
        r <- send_rest make chunk m (skipn chunk name) ;;
        Ok (p :: r)
      else p <- make pf_end name ;; Ok [p]
  end.
(* SM.h:671-691 *)
Definition send_endpoint_name (dbg : bool) (name : list Z) : res (list packet) :=
  if (length name <=? 14)%nat then
    p <- make_endpoint_name_message dbg pf_complete name ;; Ok [p]
  else
    p <- make_endpoint_name_message dbg pf_start (firstn 14 name) ;;
    r <- send_rest (make_endpoint_name_message dbg) 14 (length name) (skipn 14 name) ;;
    Ok (p :: r).
(* SM.h:695-710 *)
Definition send_product_instance_id (dbg : bool) (id : list Z) : res (list packet) :=
  check dbg (size id <=? 16) ;;;
  if (length id <=? 14)%nat then
    p <- make_product_instance_id_message dbg pf_complete id ;; Ok [p]
  else
    p <- make_product_instance_id_message dbg pf_start (firstn 14 id) ;;
    q <- make_product_instance_id_message dbg pf_end (firstn 2 (skipn 14 id)) ;;
    Ok [p; q].
(* SM.h:714-734 *)
Definition send_function_block_name (dbg : bool) (block : Z) (name : list Z) : res (list packet) :=
  if (length name <=? 13)%nat then
    p <- make_function_block_name_message dbg pf_complete block name ;; Ok [p]
  else
    p <- make_function_block_name_message dbg pf_start block (firstn 13 name) ;;
    r <- send_rest (fun f => make_function_block_name_message dbg f block) 13 (length name) (skipn 13 name) ;;
    Ok (p :: r).
