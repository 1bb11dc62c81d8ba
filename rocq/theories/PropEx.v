(* Model of the header texts of property exchange messages and of the message constructors
   that use them: inc/midi/capability_inquiry.h:1801-1809 and 1936-2380 (abbreviated CI.h) and
   src/capability_inquiry.cpp:287-340 (abbreviated CI.cpp).

   std::string and std::string_view are lists of bytes.  Texts are written as Coq strings
   and converted by [str]. *)
From Coq Require Import ZArith List Bool Ascii String.
From Verif Require Import Base Sysex CapInq.
Import ListNotations.
Local Open Scope Z_scope.
Local Open Scope res_scope.

(* the bytes of a string literal *)
Definition str (s : string) : list Z :=
  map (fun c => Z.of_nat (nat_of_ascii c)) (list_ascii_of_string s).

(* a double quote; Coq writes it "" inside of a string *)
Definition quote : list Z := str """".

(* CI.h:608-619 struct tags; id, offset, limit and encoding are not used by the library *)
Definition tag_resource : list Z := str "resource".
Definition tag_command : list Z := str "command".
Definition tag_status : list Z := str "status".
Definition tag_message : list Z := str "message".
Definition tag_subscribeId : list Z := str "subscribeId".

(* std::to_string(int), used at CI.h:1808 and CI.cpp:329: decimal digits without leading zeros after an optional minus.
   Ten digits suffice for 32 bits. *)
Fixpoint digits (n : nat) (v : Z) (acc : list Z) : list Z :=
  match n with
  | O => acc
  | S m => if v <? 10 then 48 + v :: acc else digits m (v / 10) (48 + v mod 10 :: acc)
  end.
Definition to_string (v : Z) : list Z :=
  if v <? 0 then 45 :: digits 10 (- v) [] else digits 10 v [].

(* CI.cpp:293-298, the loop *)
Fixpoint all_digits (s : list Z) : bool :=
  match s with
  | [] => true
  | c :: t => if (c <? 48) || (57 <? c) then false else all_digits t
  end.
(* CI.cpp:290-300; s[0] of an empty string_view is out of bounds *)
Definition is_number (s : list Z) : res bool :=
  c <- vec_at s 0 ;;
  Ok (all_digits (if c =? 45 then tl s else s)).

(* CI.h:1801-1804 *)
Definition make_rjson_text (key value : list Z) : list Z :=
  str "{""" ++ key ++ str """:""" ++ value ++ str """}".
(* CI.h:1806-1809 *)
Definition make_rjson_int (key : list Z) (value : Z) : list Z :=
  str "{""" ++ key ++ str """:" ++ to_string value ++ str "}".

(* CI.cpp:309-316 and 328-335, the loop over the options *)
Fixpoint add_options (result : list Z) (options : list (list Z * list Z)) : res (list Z) :=
  match options with
  | [] => Ok result
  | (k, v) :: t =>
      n <- is_number v ;;
      add_options
        (if n : bool then result ++ str ",""" ++ k ++ str """:" ++ v
         else result ++ str ",""" ++ k ++ str """:""" ++ v ++ quote) t
  end.
(* CI.cpp:304-320 *)
Definition make_rjson_text_options (key value : list Z) (options : list (list Z * list Z)) : res (list Z) :=
  r <- add_options (str "{""" ++ key ++ str """:""" ++ value ++ quote) options ;;
  Ok (r ++ str "}").
(* CI.cpp:324-339 *)
Definition make_rjson_int_options (key : list Z) (value : Z) (options : list (list Z * list Z)) : res (list Z) :=
  r <- add_options (str "{""" ++ key ++ str """:" ++ to_string value) options ;;
  Ok (r ++ str "}").

(* ---- get property data (0x34, 0x35) -------------------------------------------------- *)

(* CI.h:1944-1960 *)
Definition make_get_property_data_inquiry (dbg : bool) (source destination : Z) (resource : list Z)
    (request device_id : Z) : res sysex :=
  make_property_data_message dbg 0x34 source destination
    (Some (make_rjson_text tag_resource resource)) 1 1 None request device_id.
(* CI.h:1962-1982 *)
Definition make_get_property_data_inquiry_options (dbg : bool) (source destination : Z) (resource : list Z)
    (options : list (list Z * list Z)) (request device_id : Z) : res sysex :=
  h <- make_rjson_text_options tag_resource resource options ;;
  make_property_data_message dbg 0x34 source destination (Some h) 1 1 None request device_id.
(* CI.h:1986-2005 and, without a header, 2056-2072 *)
Definition make_get_property_data_reply (dbg : bool) (source destination : Z) (header : option (list Z))
    (num_chunks this_chunk : Z) (chunk : option (list Z)) (request device_id : Z) : res sysex :=
  make_property_data_message dbg 0x35 source destination header num_chunks this_chunk chunk request device_id.
(* CI.h:2007-2029 *)
Definition make_get_property_data_reply_status (dbg : bool) (source destination status : Z)
    (num_chunks this_chunk : Z) (chunk : option (list Z)) (request device_id : Z) : res sysex :=
  make_property_data_message dbg 0x35 source destination
    (Some (make_rjson_int tag_status status)) num_chunks this_chunk chunk request device_id.
(* CI.h:2031-2054 *)
Definition make_get_property_data_reply_message (dbg : bool) (source destination status : Z) (msg : list Z)
    (num_chunks this_chunk : Z) (chunk : option (list Z)) (request device_id : Z) : res sysex :=
  h <- make_rjson_int_options tag_status status [(tag_message, msg)] ;;
  make_property_data_message dbg 0x35 source destination (Some h) num_chunks this_chunk chunk request device_id.

(* ---- set property data (0x36, 0x37) -------------------------------------------------- *)

(* CI.h:2084-2106 *)
Definition make_set_property_data_inquiry (dbg : bool) (source destination : Z) (resource : list Z)
    (num_chunks this_chunk : Z) (chunk : option (list Z)) (request device_id : Z) : res sysex :=
  make_property_data_message dbg 0x36 source destination
    (Some (make_rjson_text tag_resource resource)) num_chunks this_chunk chunk request device_id.
(* CI.h:2108-2131 *)
Definition make_set_property_data_inquiry_options (dbg : bool) (source destination : Z) (resource : list Z)
    (options : list (list Z * list Z)) (num_chunks this_chunk : Z) (chunk : option (list Z))
    (request device_id : Z) : res sysex :=
  h <- make_rjson_text_options tag_resource resource options ;;
  make_property_data_message dbg 0x36 source destination (Some h) num_chunks this_chunk chunk request device_id.
(* CI.h:2133-2151 *)
Definition make_set_property_data_inquiry_body (dbg : bool) (source destination : Z)
    (num_chunks this_chunk : Z) (chunk : option (list Z)) (request device_id : Z) : res sysex :=
  make_property_data_message dbg 0x36 source destination None num_chunks this_chunk chunk request device_id.
(* CI.h:2155-2171 *)
Definition make_set_property_data_reply (dbg : bool) (source destination status request device_id : Z)
  : res sysex :=
  make_property_data_message dbg 0x37 source destination
    (Some (make_rjson_int tag_status status)) 1 1 None request device_id.
(* CI.h:2173-2199 *)
Definition make_set_property_data_reply_message (dbg : bool) (source destination status : Z) (msg : list Z)
    (request device_id : Z) : res sysex :=
  h <- make_rjson_int_options tag_status status [(tag_message, msg)] ;;
  make_property_data_message dbg 0x37 source destination (Some h) 1 1 None request device_id.

(* ---- subscription (0x38, 0x39) ------------------------------------------------------- *)

(* CI.h:2211-2238; 0 chunks *)
Definition make_subscription_inquiry (dbg : bool) (source destination : Z)
    (resource command subscribeId : list Z) (request device_id : Z) : res sysex :=
  h <- make_rjson_text_options tag_resource resource [(tag_command, command); (tag_subscribeId, subscribeId)] ;;
  make_property_data_message dbg 0x38 source destination (Some h) 0 0 None request device_id.
(* CI.h:2240-2270 *)
Definition make_subscription_inquiry_chunk (dbg : bool) (source destination : Z)
    (resource command subscribeId : list Z) (num_chunks this_chunk : Z) (chunk : option (list Z))
    (request device_id : Z) : res sysex :=
  h <- make_rjson_text_options tag_resource resource [(tag_command, command); (tag_subscribeId, subscribeId)] ;;
  make_property_data_message dbg 0x38 source destination (Some h) num_chunks this_chunk chunk request device_id.
(* CI.h:2272-2290 *)
Definition make_subscription_inquiry_body (dbg : bool) (source destination : Z)
    (num_chunks this_chunk : Z) (chunk : option (list Z)) (request device_id : Z) : res sysex :=
  make_property_data_message dbg 0x38 source destination None num_chunks this_chunk chunk request device_id.
(* CI.h:2294-2310 *)
Definition make_subscription_reply (dbg : bool) (source destination status request device_id : Z) : res sysex :=
  make_property_data_message dbg 0x39 source destination
    (Some (make_rjson_int tag_status status)) 1 1 None request device_id.
(* CI.h:2312-2332 *)
Definition make_subscription_reply_message (dbg : bool) (source destination status : Z) (msg : list Z)
    (request device_id : Z) : res sysex :=
  h <- make_rjson_int_options tag_status status [(tag_message, msg)] ;;
  make_property_data_message dbg 0x39 source destination (Some h) 1 1 None request device_id.

(* ---- notify (0x3F) ------------------------------------------------------------------- *)

(* CI.h:2343-2359 *)
Definition make_notify_message (dbg : bool) (source destination status request device_id : Z) : res sysex :=
  make_property_data_message dbg 0x3F source destination
    (Some (make_rjson_int tag_status status)) 1 1 None request device_id.
(* CI.h:2361-2380 *)
Definition make_notify_message_text (dbg : bool) (source destination status : Z) (msg : list Z)
    (request device_id : Z) : res sysex :=
  h <- make_rjson_int_options tag_status status [(tag_message, msg)] ;;
  make_property_data_message dbg 0x3F source destination (Some h) 1 1 None request device_id.
