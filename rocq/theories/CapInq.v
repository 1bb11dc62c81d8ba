(* Model of inc/midi/capability_inquiry.h (abbreviated CI.h) and
   src/capability_inquiry.cpp (abbreviated CI.cpp), without the header texts of property
   exchange, which are in PropEx.v.

   ci::message adds no members to sysex7 and is modelled by [sysex]; a view is modelled
   by the message it refers to.  Arguments have the C++ types uint7_t = uint8_t,
   uint14_t = uint16_t, uint28_t = muid_t = uint32_t, that is they are not limited to 7,
   14 or 28 bits.  [dbg] is true in builds with assertions.

   Accessors that return a pointer into the message are modelled together with the length
   that belongs to it (a second accessor or a documented constant) by the bytes that the
   caller may read; reading outside of the message is [Fault OutOfBounds]. *)
From Coq Require Import ZArith List Bool.
From Verif Require Import Base Packet Messages Sysex UniversalSysex.
Import ListNotations.
Local Open Scope Z_scope.
Local Open Scope res_scope.

(* the len bytes from position off on *)
Definition bytes_at (s : sysex) (off len : nat) : res (list Z) :=
  if Z.of_nat off + Z.of_nat len <=? size (sx_data s)
  then Ok (firstn len (skipn off (sx_data s)))
  else Fault OutOfBounds.

(* a && b, where b may fault and is not evaluated if a is false *)
Definition and_ (a : bool) (b : res bool) : res bool := if a then b else Ok false.

(* sx.data[i] compared with a constant *)
Definition at_is (s : sysex) (i : nat) (v : Z) : res bool :=
  b <- vec_at (sx_data s) i ;; Ok (b =? v).
Definition and_res (a b : res bool) : res bool := x <- a ;; and_ x b.

(* ---- all messages ---------------------------------------------------------------- *)

(* CI.h:95-97 *)
Definition ci_version : Z := 2.
(* CI.h:104 *)
Definition broadcast_muid : Z := 0x0FFFFFFF.

(* CI.cpp:35-47 and 62-73: the twelve header bytes *)
Definition ci_header (subtype source destination device_id : Z) : list Z :=
  [ device_id; 0x0D; subtype; ci_version;
    u8 (Z.land source 0x7F); u8 (Z.land (Z.shiftr source 7) 0x7F);
    u8 (Z.land (Z.shiftr source 14) 0x7F); u8 (Z.land (Z.shiftr source 21) 0x7F);
    u8 (Z.land destination 0x7F); u8 (Z.land (Z.shiftr destination 7) 0x7F);
    u8 (Z.land (Z.shiftr destination 14) 0x7F); u8 (Z.land (Z.shiftr destination 21) 0x7F) ].

(* CI.cpp:34-53 *)
Definition ci_message (dbg : bool) (subtype source destination device_id : Z) : res sysex :=
  check dbg (subtype <=? 127) ;;;
  check dbg (source <=? 268435455) ;;;
  check dbg (destination <=? 268435455) ;;;
  check dbg (device_id <=? 127) ;;;
  Ok (mkSx universal_non_realtime (ci_header subtype source destination device_id)).

(* CI.cpp:57-77; the reserved capacity is not observable *)
Definition make_with_payload_size (dbg : bool) (subtype source destination device_id : Z) : res sysex :=
  add_data dbg (mkSx universal_non_realtime []) (ci_header subtype source destination device_id).

(* CI.h:989-1002 *)
Definition message_version (s : sysex) : res Z := vec_at (sx_data s) 3.
Definition source_muid (s : sysex) : res Z := make_uint28 s 4.
Definition destination_muid (s : sysex) : res Z := make_uint28 s 8.

(* assignments to consecutive elements *)
Fixpoint vec_sets (l : list Z) (i : nat) (xs : list Z) : res (list Z) :=
  match xs with
  | [] => Ok l
  | x :: t => r <- vec_set l i x ;; vec_sets r (S i) t
  end.

(* CI.cpp:81-89 *)
Definition set_source_muid (dbg : bool) (s : sysex) (m : Z) : res sysex :=
  check dbg (m <=? 268435455) ;;;
  d <- vec_sets (sx_data s) 4
         [u8 (Z.land m 0x7F); u8 (Z.land (Z.shiftr m 7) 0x7F);
          u8 (Z.land (Z.shiftr m 14) 0x7F); u8 (Z.land (Z.shiftr m 21) 0x7F)] ;;
  Ok (mkSx (sx_id s) d).
(* CI.cpp:93-101 *)
Definition set_destination_muid (dbg : bool) (s : sysex) (m : Z) : res sysex :=
  check dbg (m <=? 268435455) ;;;
  d <- vec_sets (sx_data s) 8
         [u8 (Z.land m 0x7F); u8 (Z.land (Z.shiftr m 7) 0x7F);
          u8 (Z.land (Z.shiftr m 14) 0x7F); u8 (Z.land (Z.shiftr m 21) 0x7F)] ;;
  Ok (mkSx (sx_id s) d).

(* CI.h:2541-2545 and 2576-2579 *)
Definition is_capability_inquiry_message (s : sysex) : res bool :=
  and_ (sx_id s =? universal_non_realtime)
  (and_ (12 <=? size (sx_data s)) (at_is s 1 0x0D)).
Definition ci_validate : sysex -> res bool := is_capability_inquiry_message.

(* CI.h:2550-2559 with the base class constructor: the assertions of a view *)
Definition ci_view (dbg : bool) (s : sysex) : res sysex :=
  v <- message_view dbg s ;;
  (if dbg then b <- ci_validate v ;; assert_ b else Ok tt) ;;;
  Ok v.

(* CI.h:974-987  as<view>(sx): the view if the message validates *)
Definition as_view (dbg : bool) (validate : sysex -> res bool) (s : sysex) : res (option sysex) :=
  b <- validate s ;;
  if b then v <- ci_view dbg s ;; Ok (Some v) else Ok None.

(* ---- discovery (0x70, 0x71) --------------------------------------------------------- *)

(* CI.h:1023, 1294, 1301: result.data[3] = message_version_1 *)
Definition set_version_1 (s : sysex) : res sysex :=
  d <- vec_set (sx_data s) 3 1 ;; Ok (mkSx (sx_id s) d).

(* CI.h:1012-1025 *)
Definition make_discovery_message_v1 (dbg : bool) (subtype source destination : Z)
    (i : device_identity) (categories max_message_size : Z) : res sysex :=
  s <- make_with_payload_size dbg subtype source destination 0x7F ;;
  s <- add_device_identity dbg s i ;;
  s <- add_uint7 dbg s categories ;;
  s <- add_uint28 dbg s max_message_size ;;
  set_version_1 s.
(* CI.h:1027-1041 *)
Definition make_discovery_message (dbg : bool) (subtype source destination : Z)
    (i : device_identity) (categories max_message_size output_path_id : Z) : res sysex :=
  s <- make_with_payload_size dbg subtype source destination 0x7F ;;
  s <- add_device_identity dbg s i ;;
  s <- add_uint7 dbg s categories ;;
  s <- add_uint28 dbg s max_message_size ;;
  add_uint7 dbg s output_path_id.

(* CI.h:1052-1070 *)
Definition discovery_identity (s : sysex) : res device_identity := make_device_identity s 12.
Definition discovery_categories (s : sysex) : res Z := vec_at (sx_data s) 23.
Definition discovery_maximum_message_size (s : sysex) : res Z := make_uint28 s 24.
Definition discovery_output_path_id (s : sysex) : res Z :=
  v <- message_version s ;; if 2 <=? v then vec_at (sx_data s) 28 else Ok 0.

(* CI.h:1072-1077; the size is compared after data[3] has been read *)
Definition discovery_inquiry_validate (s : sysex) : res bool :=
  and_ (sx_id s =? universal_non_realtime)
  (v <- vec_at (sx_data s) 3 ;;
   and_ (28 + (if 1 <? v then 1 else 0) <=? size (sx_data s))
        (and_res (at_is s 1 0x0D) (at_is s 2 0x70))).
(* CI.h:1079-1093 *)
Definition make_discovery_inquiry_v1 dbg source i categories max_message_size :=
  make_discovery_message_v1 dbg 0x70 source broadcast_muid i categories max_message_size.
Definition make_discovery_inquiry dbg source i categories max_message_size output_path_id :=
  make_discovery_message dbg 0x70 source broadcast_muid i categories max_message_size output_path_id.

(* CI.h:1102-1105 *)
Definition discovery_function_block (s : sysex) : res Z :=
  v <- message_version s ;; if 2 <=? v then vec_at (sx_data s) 29 else Ok 0x7F.
(* CI.h:1107-1112 *)
Definition discovery_reply_validate (s : sysex) : res bool :=
  and_ (sx_id s =? universal_non_realtime)
  (v <- vec_at (sx_data s) 3 ;;
   and_ (28 + (if 1 <? v then 2 else 0) <=? size (sx_data s))
        (and_res (at_is s 1 0x0D) (at_is s 2 0x71))).
(* CI.h:1114-1133 *)
Definition make_discovery_reply_v1 dbg source destination i categories max_message_size :=
  make_discovery_message_v1 dbg 0x71 source destination i categories max_message_size.
Definition make_discovery_reply dbg source destination i categories max_message_size
    output_path_id function_block : res sysex :=
  s <- make_discovery_message dbg 0x71 source destination i categories max_message_size output_path_id ;;
  add_uint7 dbg s function_block.

(* ---- endpoint information (0x72, 0x73) ------------------------------------------------ *)

(* Most validate functions, as CI.h:1147-1152: (manufacturerID == universal_non_realtime) &&
   (data.size() >= n) && (data[1] == 0x0D) && (data[2] == subtype) *)
Definition plain_validate (n subtype : Z) (s : sysex) : res bool :=
  and_ (sx_id s =? universal_non_realtime)
  (and_ (n <=? size (sx_data s)) (and_res (at_is s 1 0x0D) (at_is s 2 subtype))).

(* as CI.h:1186-1193: (...) && (data.size() >= n) && (data.size() >= n + make_uint14(pos)) && ... *)
Definition counted_validate (n : Z) (pos : nat) (subtype : Z) (s : sysex) : res bool :=
  and_ (sx_id s =? universal_non_realtime)
  (and_ (n <=? size (sx_data s))
  (len <- make_uint14 s pos ;;
   and_ (n + len <=? size (sx_data s)) (and_res (at_is s 1 0x0D) (at_is s 2 subtype)))).

(* CI.h:1142-1160 *)
Definition endpoint_inquiry_status (s : sysex) : res Z := vec_at (sx_data s) 12.
Definition endpoint_inquiry_validate : sysex -> res bool := plain_validate 13 0x72.
Definition make_endpoint_information_inquiry (dbg : bool) (source destination status : Z) : res sysex :=
  s <- make_with_payload_size dbg 0x72 source destination 0x7F ;;
  add_uint7 dbg s status.

(* CI.h:1171-1193 *)
Definition endpoint_reply_status (s : sysex) : res Z := vec_at (sx_data s) 12.
Definition information_data_length (s : sysex) : res Z := make_uint14 s 13.
Definition information_data (s : sysex) : res (list Z) :=
  n <- information_data_length s ;; bytes_at s 15 (Z.to_nat n).
Definition endpoint_reply_validate : sysex -> res bool := counted_validate 15 13 0x73.
(* CI.h:1195-1204 *)
Definition make_endpoint_information_reply (dbg : bool) (source destination status : Z) (data : list Z)
  : res sysex :=
  s <- make_with_payload_size dbg 0x73 source destination 0x7F ;;
  s <- add_uint7 dbg s status ;;
  s <- add_uint14 dbg s (u16 (size data)) ;;
  Ok (push s data).

(* ---- ACK and NAK (0x7D, 0x7F) ------------------------------------------------------------ *)

(* CI.h:1218-1251; details() points to five bytes *)
Definition nack_transaction (s : sysex) : res Z := vec_at (sx_data s) 12.
Definition nack_status_code (s : sysex) : res Z := vec_at (sx_data s) 13.
Definition nack_status_data (s : sysex) : res Z := vec_at (sx_data s) 14.
Definition nack_details (s : sysex) : res (list Z) := bytes_at s 15 5.
Definition nack_message_length (s : sysex) : res Z := make_uint14 s 20.
Definition nack_message (s : sysex) : res (list Z) :=
  n <- nack_message_length s ;; bytes_at s 22 (Z.to_nat n).

(* CI.h:1255-1261 *)
Definition ack_validate : sysex -> res bool := counted_validate 22 20 0x7D.
(* CI.h:1283-1289 *)
Definition nak_validate (s : sysex) : res bool :=
  and_res (counted_validate 22 20 0x7F s) (v <- vec_at (sx_data s) 3 ;; Ok (2 <=? v)).

(* CI.h:1264-1279, 1305-1320: both messages have the same body.  The array parameter
   details[5] is a pointer to five readable bytes; the text is a sequence of bytes. *)
Definition make_nack_message (dbg : bool) (subtype source destination device_id
    transaction status_code status_data : Z) (details msg : list Z) : res sysex :=
  d0 <- vec_at details 0 ;; d1 <- vec_at details 1 ;; d2 <- vec_at details 2 ;;
  d3 <- vec_at details 3 ;; d4 <- vec_at details 4 ;;
  s <- make_with_payload_size dbg subtype source destination device_id ;;
  let s := push s [transaction; status_code; status_data; d0; d1; d2; d3; d4] in
  s <- add_uint14 dbg s (u16 (size msg)) ;;
  Ok (push s msg).
Definition make_ack_message dbg source destination device_id transaction status_code status_data details msg :=
  make_nack_message dbg 0x7D source destination device_id transaction status_code status_data details msg.
Definition make_nak_message dbg source destination device_id transaction status_code status_data details msg :=
  make_nack_message dbg 0x7F source destination device_id transaction status_code status_data details msg.
(* CI.h:1322-1335 *)
Definition make_nak_reply (dbg : bool) (r : sysex) (status_code status_data : Z) (details msg : list Z)
  : res sysex :=
  st <- view_subtype r ;;
  dst <- destination_muid r ;;
  src <- source_muid r ;;
  dev <- view_device_id r ;;
  make_nack_message dbg 0x7F dst src dev st status_code status_data details msg.
(* CI.h:1291-1303 *)
Definition make_nak_message_v1 (dbg : bool) (source destination device_id : Z) : res sysex :=
  s <- ci_message dbg 0x7F source destination device_id ;; set_version_1 s.
Definition make_nak_reply_v1 (dbg : bool) (r : sysex) : res sysex :=
  dst <- destination_muid r ;;
  src <- source_muid r ;;
  dev <- view_device_id r ;;
  make_nak_message_v1 dbg dst src dev.

(* ---- invalidate MUID (0x7E) --------------------------------------------------------------- *)

(* as CI.h:1344-1349: validate functions written with universal_sysex_type_of and universal_sysex_subtype_of *)
Definition typed_validate (n subtype : Z) (s : sysex) : res bool :=
  t <- universal_sysex_type_of s ;;
  and_ (t =? 0x7E0D)
  (st <- universal_sysex_subtype_of s ;;
   and_ (st =? subtype) (Ok (n <=? size (sx_data s)))).

(* CI.h:1344-1361 *)
Definition invalidate_muid_validate : sysex -> res bool := typed_validate 16 0x7E.
Definition target_muid (s : sysex) : res Z := make_uint28 s 12.
Definition make_invalidate_muid_message (dbg : bool) (source target : Z) : res sysex :=
  s <- make_with_payload_size dbg 0x7E source broadcast_muid 0x7F ;;
  add_uint28 dbg s target.

(* ---- profile configuration (0x20 - 0x2F) ---------------------------------------------------- *)

(* CI.h:357-369 struct profile_id *)
Record profile_id : Type := mkProf { pr1 : Z; pr2 : Z; pr3 : Z; pr4 : Z; pr5 : Z }.
(* the five bytes behind &p.byte1 (the struct is packed) *)
Definition profile_bytes (p : profile_id) : list Z := [pr1 p; pr2 p; pr3 p; pr4 p; pr5 p].

(* CI.h:1380-1384 operator== *)
Definition profile_id_eq (p q : profile_id) : bool :=
  (pr1 p =? pr1 q) && (pr2 p =? pr2 q) && (pr3 p =? pr3 q) && (pr4 p =? pr4 q) && (pr5 p =? pr5 q).

(* CI.h:373-380 struct profile_destination *)
Record profile_destination : Type := mkDest { pd_scope : Z; pd_channels : Z }.
(* CI.h:1388-1391 operator== *)
Definition profile_destination_eq (d e : profile_destination) : bool :=
  (pd_scope d =? pd_scope e) && (pd_channels d =? pd_channels e).

(* CI.h:1395-1404 *)
Definition profile_inquiry_validate : sysex -> res bool := typed_validate 12 0x20.
Definition make_profile_inquiry_message (dbg : bool) (source destination device_id : Z) : res sysex :=
  ci_message dbg 0x20 source destination device_id.

(* CI.cpp:105-122 *)
Definition profile_inquiry_reply_validate (s : sysex) : res bool :=
  c <- and_ (sx_id s =? universal_non_realtime)
       (and_ (16 <=? size (sx_data s)) (and_res (at_is s 1 0x0D) (at_is s 2 0x21))) ;;
  if c then
    n <- make_uint14 s 12 ;;
    let expected := 16 + n * 5 in
    if expected <=? size (sx_data s) then
      m <- make_uint14 s (Z.to_nat (expected - 2)) ;;
      Ok (expected + m * 5 <=? size (sx_data s))
    else Ok false
  else Ok false.

(* CI.h:1415-1419 *)
Definition offset_of_disabled_profiles (s : sysex) : res Z :=
  n <- make_uint14 s 12 ;; Ok (14 + n * 5).
(* CI.h:1421-1431 *)
Definition has_enabled_profiles (s : sysex) : res bool :=
  a <- vec_at (sx_data s) 12 ;; b <- vec_at (sx_data s) 13 ;;
  Ok (negb (Z.land (Z.lor a b) 0x7F =? 0)).
Definition has_disabled_profiles (s : sysex) : res bool :=
  p <- offset_of_disabled_profiles s ;;
  a <- vec_at (sx_data s) (Z.to_nat p) ;; b <- vec_at (sx_data s) (Z.to_nat p + 1) ;;
  Ok (negb (Z.land (Z.lor a b) 0x7F =? 0)).
(* CI.h:1433-1442 *)
Definition num_enabled_profiles (s : sysex) : res Z := make_uint14 s 12.
Definition num_disabled_profiles (s : sysex) : res Z :=
  p <- offset_of_disabled_profiles s ;; make_uint14 s (Z.to_nat p).

(* CI.cpp:179-184, the loop *)
Fixpoint read_profiles (s : sysex) (n : nat) (off : nat) : res (list profile_id) :=
  match n with
  | O => Ok []
  | S k =>
      a <- vec_at (sx_data s) off ;;
      b <- vec_at (sx_data s) (off + 1) ;;
      c <- vec_at (sx_data s) (off + 2) ;;
      d <- vec_at (sx_data s) (off + 3) ;;
      e <- vec_at (sx_data s) (off + 4) ;;
      r <- read_profiles s k (off + 5) ;;
      Ok (mkProf a b c d e :: r)
  end.
(* CI.cpp:169-187 *)
Definition make_profiles (dbg : bool) (s : sysex) (pos : Z) : res (list profile_id) :=
  check dbg (pos + 1 <? size (sx_data s)) ;;;
  n <- make_uint14 s (Z.to_nat pos) ;;
  check dbg (pos + 1 + n * 5 <? size (sx_data s)) ;;;
  read_profiles s (Z.to_nat n) (Z.to_nat pos + 2).
(* CI.h:1444-1452 *)
Definition enabled_profiles (dbg : bool) (s : sysex) : res (list profile_id) := make_profiles dbg s 12.
Definition disabled_profiles (dbg : bool) (s : sysex) : res (list profile_id) :=
  p <- offset_of_disabled_profiles s ;; make_profiles dbg s p.

(* CI.cpp:144-150, the lambda add_profile *)
Definition add_profile (dbg : bool) (s : sysex) (p : profile_id) : res sysex :=
  s <- add_uint7 dbg s (pr1 p) ;;
  s <- add_uint7 dbg s (pr2 p) ;;
  s <- add_uint7 dbg s (pr3 p) ;;
  s <- add_uint7 dbg s (pr4 p) ;;
  add_uint7 dbg s (pr5 p).
Fixpoint add_profiles (dbg : bool) (s : sysex) (n : nat) (l : list profile_id) : res sysex :=
  match n with
  | O => Ok s
  | S k => match l with
           | [] => Fault OutOfBounds
           | p :: t => s <- add_profile dbg s p ;; add_profiles dbg s k t
           end
  end.
(* CI.cpp:126-165; a pointer and a count, the range behind the pointer is the list *)
Definition make_profile_inquiry_reply_n (dbg : bool) (source destination : Z)
    (enabled : list profile_id) (num_enabled : Z) (disabled : list profile_id) (num_disabled : Z)
    (device_id : Z) : res sysex :=
  check dbg (num_enabled <=? 16383) ;;;
  check dbg (num_disabled <=? 16383) ;;;
  s <- make_with_payload_size dbg 0x21 source destination device_id ;;
  s <- add_uint14 dbg s num_enabled ;;
  s <- add_profiles dbg s (Z.to_nat num_enabled) enabled ;;
  s <- add_uint14 dbg s num_disabled ;;
  add_profiles dbg s (Z.to_nat num_disabled) disabled.
(* CI.h:1454-1467 *)
Definition make_profile_inquiry_reply (dbg : bool) (source destination : Z)
    (enabled disabled : list profile_id) (device_id : Z) : res sysex :=
  make_profile_inquiry_reply_n dbg source destination
    enabled (u16 (size enabled)) disabled (u16 (size disabled)) device_id.

(* CI.h:1476-1483; the same text at 1605-1612 and 1663-1670 *)
Definition view_profile (s : sysex) : res profile_id :=
  a <- vec_at (sx_data s) 12 ;; b <- vec_at (sx_data s) 13 ;; c <- vec_at (sx_data s) 14 ;;
  d <- vec_at (sx_data s) 15 ;; e <- vec_at (sx_data s) 16 ;;
  Ok (mkProf a b c d e).

(* as CI.h:1485-1490: (...) && (data.size() >= n) && (data[1] == 0x0D) && (data[2] >= lo) &&
   (data[2] <= hi) *)
Definition range_validate (n lo hi : Z) (s : sysex) : res bool :=
  and_ (sx_id s =? universal_non_realtime)
  (and_ (n <=? size (sx_data s))
  (and_res (at_is s 1 0x0D)
   (st <- vec_at (sx_data s) 2 ;; Ok ((lo <=? st) && (st <=? hi))))).
(* CI.h:1485-1490 *)
Definition profile_id_validate : sysex -> res bool := range_validate 17 0x22 0x27.
(* CI.h:1499-1514 *)
Definition view_num_channels (s : sysex) : res Z := make_uint14 s 17.
Definition view_destination (s : sysex) : res profile_destination :=
  d <- view_device_id s ;; n <- view_num_channels s ;; Ok (mkDest d n).
Definition profile_destination_validate : sysex -> res bool := range_validate 19 0x22 0x25.

(* the common part of CI.h:1518-1570 *)
Definition make_profile_message (dbg : bool) (subtype source destination : Z) (p : profile_id)
    (scope channels : Z) : res sysex :=
  s <- make_with_payload_size dbg subtype source destination scope ;;
  s <- add_data dbg s (profile_bytes p) ;;
  add_uint14 dbg s channels.
(* CI.h:1518-1528 *)
Definition make_profile_on_request dbg source destination p dest :=
  make_profile_message dbg 0x22 source destination p (pd_scope dest) (pd_channels dest).
(* CI.h:1532-1542 *)
Definition make_profile_off_request dbg source destination p dest :=
  make_profile_message dbg 0x23 source destination p (pd_scope dest) 0.
(* CI.h:1546-1556 *)
Definition make_profile_enabled_notification dbg source destination p dest :=
  make_profile_message dbg 0x24 source destination p (pd_scope dest) (pd_channels dest).
(* CI.h:1560-1570 *)
Definition make_profile_disabled_notification dbg source destination p dest :=
  make_profile_message dbg 0x25 source destination p (pd_scope dest) (pd_channels dest).
(* CI.h:1574-1595 *)
Definition make_profile_added_notification (dbg : bool) (source destination : Z) (p : profile_id)
    (device_id : Z) : res sysex :=
  s <- make_with_payload_size dbg 0x26 source destination device_id ;;
  add_data dbg s (profile_bytes p).
Definition make_profile_removed_notification (dbg : bool) (source destination : Z) (p : profile_id)
    (device_id : Z) : res sysex :=
  s <- make_with_payload_size dbg 0x27 source destination device_id ;;
  add_data dbg s (profile_bytes p).

(* CI.h:1614-1634 *)
Definition details_inquiry_target (s : sysex) : res Z := vec_at (sx_data s) 17.
Definition details_inquiry_validate : sysex -> res bool := plain_validate 18 0x28.
Definition make_profile_details_inquiry (dbg : bool) (source destination : Z) (p : profile_id)
    (target device_id : Z) : res sysex :=
  s <- make_with_payload_size dbg 0x28 source destination device_id ;;
  s <- add_data dbg s (profile_bytes p) ;;
  add_uint7 dbg s target.

(* CI.h:1636-1651 *)
Definition make_profile_details_reply (dbg : bool) (source destination : Z) (p : profile_id)
    (target : Z) (data : list Z) (device_id : Z) : res sysex :=
  s <- make_with_payload_size dbg 0x29 source destination device_id ;;
  s <- add_data dbg s (profile_bytes p) ;;
  s <- add_uint7 dbg s target ;;
  s <- add_uint14 dbg s (u16 (size data)) ;;
  Ok (push s data).
(* CI.h:1672-1693 *)
Definition details_reply_target (s : sysex) : res Z := vec_at (sx_data s) 17.
Definition target_data_length (s : sysex) : res Z := make_uint14 s 18.
Definition target_data (s : sysex) : res (list Z) :=
  n <- target_data_length s ;; bytes_at s 20 (Z.to_nat n).
Definition details_reply_validate : sysex -> res bool := counted_validate 20 18 0x29.

(* CI.h:1704-1709 *)
Definition profile_specific_data_validate (s : sysex) : res bool :=
  and_ (sx_id s =? universal_non_realtime)
  (and_ (21 <=? size (sx_data s))
  (len <- make_uint28 s 17 ;;
   and_ (21 + len <=? size (sx_data s)) (and_res (at_is s 1 0x0D) (at_is s 2 0x2F)))).
(* CI.h:1711-1724 *)
Definition specific_data_size (s : sysex) : res Z := make_uint28 s 17.
Definition specific_data (s : sysex) : res (list Z) :=
  n <- specific_data_size s ;; bytes_at s 21 (Z.to_nat n).
(* CI.cpp:191-209 *)
Definition make_profile_specific_data (dbg : bool) (source destination : Z) (p : profile_id)
    (data : list Z) (device_id : Z) : res sysex :=
  s <- make_with_payload_size dbg 0x2F source destination device_id ;;
  s <- add_data dbg s (profile_bytes p) ;;
  s <- add_uint28 dbg s (u32 (size data)) ;;
  if negb (size data =? 0) then add_data dbg s data else Ok s.
(* CI.h:1726-1731; the size is converted to uint14_t = uint16_t first *)
Definition make_profile_specific_data_vector (dbg : bool) (source destination : Z) (p : profile_id)
    (data : list Z) (device_id : Z) : res sysex :=
  make_profile_specific_data dbg source destination p
    (firstn (Z.to_nat (u16 (size data))) data) device_id.

(* ---- property exchange (0x30 - 0x3F) ---------------------------------------------------------- *)

(* CI.h:1878-1891 *)
Definition maximum_number_of_requests (s : sysex) : res Z := vec_at (sx_data s) 12.
Definition pe_version_major (s : sysex) : res Z :=
  v <- message_version s ;; if 2 <=? v then vec_at (sx_data s) 13 else Ok 0.
Definition pe_version_minor (s : sysex) : res Z :=
  v <- message_version s ;; if 2 <=? v then vec_at (sx_data s) 14 else Ok 0.
(* CI.h:1893-1900 *)
Definition pe_capabilities_validate (s : sysex) : res bool :=
  and_res (range_validate 13 0x30 0x31 s)
  (v <- vec_at (sx_data s) 3 ;; Ok ((v <? 2) || (15 <=? size (sx_data s)))).
(* CI.h:1902-1910 *)
Definition make_capabilities_message (dbg : bool) (subtype source destination max_num_requests device_id : Z)
  : res sysex :=
  s <- make_with_payload_size dbg subtype source destination device_id ;;
  add_data dbg s [max_num_requests; 0; 0].
(* CI.h:1914-1932 *)
Definition make_pe_capabilities_inquiry dbg source destination max_num_requests device_id :=
  make_capabilities_message dbg 0x30 source destination max_num_requests device_id.
Definition make_pe_capabilities_reply dbg source destination max_num_requests device_id :=
  make_capabilities_message dbg 0x31 source destination max_num_requests device_id.

(* CI.h:1824-1867 *)
Definition request_id (s : sysex) : res Z := vec_at (sx_data s) 12.
Definition header_size (s : sysex) : res Z := make_uint14 s 13.
Definition header_data (s : sysex) : res (list Z) :=
  h <- header_size s ;; bytes_at s 15 (Z.to_nat h).
Definition number_of_chunks (s : sysex) : res Z :=
  h <- header_size s ;; make_uint14 s (15 + Z.to_nat h).
Definition number_of_this_chunk (s : sysex) : res Z :=
  h <- header_size s ;; make_uint14 s (17 + Z.to_nat h).
Definition chunk_size (s : sysex) : res Z :=
  h <- header_size s ;; make_uint14 s (19 + Z.to_nat h).
Definition chunk_data (s : sysex) : res (list Z) :=
  h <- header_size s ;; c <- chunk_size s ;; bytes_at s (21 + Z.to_nat h) (Z.to_nat c).

(* CI.cpp:213-244 *)
Definition property_data_validate (s : sysex) : res bool :=
  if negb (sx_id s =? universal_non_realtime) then Ok false
  else if size (sx_data s) <? 21 then Ok false
  else
    b1 <- vec_at (sx_data s) 1 ;;
    if negb (b1 =? 0x0D) then Ok false
    else
      st <- vec_at (sx_data s) 2 ;;
      if st <? 0x34 then Ok false
      else if (st <=? 0x39) || (st =? 0x3F) then
        h <- make_uint14 s 13 ;;
        if size (sx_data s) <? 15 + h + 6 then Ok false
        else
          num_chunks <- make_uint14 s (15 + Z.to_nat h) ;;
          cur_chunk <- make_uint14 s (17 + Z.to_nat h) ;;
          chunk_bytes <- make_uint14 s (19 + Z.to_nat h) ;;
          if negb (num_chunks =? 0) && (num_chunks <? cur_chunk) then Ok false
          else if negb (h =? 0) && (1 <? cur_chunk) then Ok false
          else if negb (chunk_bytes =? 0) && (cur_chunk <? 1) then Ok false
          else Ok (21 + h + chunk_bytes <=? size (sx_data s))
      else Ok false.

(* property_exchange::header and chunk, CI.h:1741-1784: a pointer and a size.  None is the
   default constructed value (nullptr, 0); a null pointer with a non-zero size is not
   modelled. *)
Definition pe_bytes (d : option (list Z)) : list Z := match d with Some l => l | None => [] end.
Definition is_null (d : option (list Z)) : bool := match d with Some _ => false | None => true end.

(* CI.cpp:248-285 *)
Definition make_property_data_message (dbg : bool) (subtype source destination : Z)
    (header : option (list Z)) (num_chunks this_chunk : Z) (chunk : option (list Z))
    (request device_id : Z) : res sysex :=
  s <- make_with_payload_size dbg subtype source destination device_id ;;
  check dbg (negb (this_chunk =? 0) || (is_null chunk && (size (pe_bytes chunk) =? 0))) ;;;
  check dbg ((num_chunks =? 0) || (this_chunk <=? num_chunks)) ;;;
  s <- add_uint7 dbg s request ;;
  s <- add_uint14 dbg s (u16 (size (pe_bytes header))) ;;
  s <- (if negb (size (pe_bytes header) =? 0) then add_data dbg s (pe_bytes header) else Ok s) ;;
  s <- add_uint14 dbg s num_chunks ;;
  s <- add_uint14 dbg s this_chunk ;;
  s <- add_uint14 dbg s (u16 (size (pe_bytes chunk))) ;;
  if negb (size (pe_bytes chunk) =? 0) then add_data dbg s (pe_bytes chunk) else Ok s.

(* CI.h:1936-1940, 2076-2080, 2203-2207, 2336-2339 *)
Definition subtype_among (l : list Z) (s : sysex) : res bool :=
  st <- vec_at (sx_data s) 2 ;; Ok (existsb (Z.eqb st) l).
Definition get_property_data_validate (s : sysex) : res bool :=
  and_res (property_data_validate s) (subtype_among [0x34; 0x35] s).
Definition set_property_data_validate (s : sysex) : res bool :=
  and_res (property_data_validate s) (subtype_among [0x36; 0x37] s).
Definition subscription_validate (s : sysex) : res bool :=
  and_res (property_data_validate s) (subtype_among [0x38; 0x39] s).
Definition notify_validate (s : sysex) : res bool :=
  and_res (property_data_validate s) (subtype_among [0x3F] s).

(* ---- process inquiry (0x40 - 0x44) --------------------------------------------------------------- *)

(* CI.h:2391-2394 *)
Definition make_process_inquiry_capabilities_inquiry (dbg : bool) (source destination device_id : Z) :=
  ci_message dbg 0x40 source destination device_id.
(* CI.h:2403-2424 *)
Definition supported_features (s : sysex) : res Z := vec_at (sx_data s) 12.
Definition process_capabilities_reply_validate : sysex -> res bool := plain_validate 13 0x41.
Definition make_process_inquiry_capabilities_reply (dbg : bool) (source destination features device_id : Z)
  : res sysex :=
  s <- make_with_payload_size dbg 0x41 source destination device_id ;;
  add_data dbg s [features].
(* CI.h:2437-2478 *)
Definition report_inquiry_data_control (s : sysex) : res Z := vec_at (sx_data s) 12.
Definition report_inquiry_system (s : sysex) : res Z := vec_at (sx_data s) 13.
Definition report_inquiry_controller (s : sysex) : res Z := vec_at (sx_data s) 15.
Definition report_inquiry_note (s : sysex) : res Z := vec_at (sx_data s) 16.
Definition report_inquiry_validate : sysex -> res bool := plain_validate 17 0x42.
Definition make_midi_message_report_inquiry (dbg : bool) (source destination
    data_control system controller note device_id : Z) : res sysex :=
  s <- make_with_payload_size dbg 0x42 source destination device_id ;;
  add_data dbg s [data_control; system; 0; controller; note].
(* CI.h:2490-2524 *)
Definition report_reply_system (s : sysex) : res Z := vec_at (sx_data s) 12.
Definition report_reply_controller (s : sysex) : res Z := vec_at (sx_data s) 14.
Definition report_reply_note (s : sysex) : res Z := vec_at (sx_data s) 15.
Definition report_reply_validate : sysex -> res bool := plain_validate 16 0x43.
Definition make_midi_message_report_reply (dbg : bool) (source system controller note device_id : Z)
  : res sysex :=
  s <- make_with_payload_size dbg 0x43 source broadcast_muid device_id ;;
  add_data dbg s [system; 0; controller; note].
(* CI.h:2528-2531 *)
Definition make_midi_message_report_end (dbg : bool) (source device_id : Z) : res sysex :=
  ci_message dbg 0x44 source broadcast_muid device_id.
