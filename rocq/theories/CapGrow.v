(* The functions of inc/midi/capability_inquiry.h (CI.h) and src/capability_inquiry.cpp (CI.cpp) that make messages with a size
   given in advance, once more, with the calls of the vector's allocator as in Growing.v.

   Not repeated: message(subtype, ...), which constructs the vector from its twelve bytes, and the overloads that make a text
   for the header first. *)
From Coq Require Import ZArith List Bool.
From Verif Require Import Base Sysex UniversalSysex Collector Growing CapInq.
Import ListNotations.
Local Open Scope Z_scope.
Local Open Scope res_scope.

Section Makers.

Variables (dbg : bool) (a : allocator) (ok : nat -> bool).

(* CI.cpp:57-77, CI.h:126-129; offset_of_data is 12 *)
Definition make_with_payload_size_m (payload subtype source destination device_id : Z) : gresult :=
  then_m (new_with_capacity a ok universal_non_realtime (12 + payload)) (fun st =>
  add_data_m dbg a ok st (ci_header subtype source destination device_id)).

(* CI.h:1023 *)
Definition set_version_1_m (st : growing) : gresult :=
  s <- set_version_1 (gr_sysex st) ;; Ok (mkG s (gr_capacity st) (gr_asked st), true).
(* CI.h:1012-1025 *)
Definition make_discovery_message_v1_m (subtype source destination : Z) (i : device_identity) (categories max_message_size : Z) : gresult :=
  then_m (make_with_payload_size_m 16 subtype source destination 0x7F) (fun st =>
  then_m (add_device_identity_m dbg a ok st i) (fun st =>
  then_m (add_uint7_m dbg a ok st categories) (fun st =>
  then_m (add_uint28_m dbg a ok st max_message_size) set_version_1_m))).
(* CI.h:1027-1041 *)
Definition make_discovery_message_m (subtype source destination : Z) (i : device_identity)
    (categories max_message_size output_path_id : Z) : gresult :=
  then_m (make_with_payload_size_m 18 subtype source destination 0x7F) (fun st =>
  then_m (add_device_identity_m dbg a ok st i) (fun st =>
  then_m (add_uint7_m dbg a ok st categories) (fun st =>
  then_m (add_uint28_m dbg a ok st max_message_size) (fun st =>
  add_uint7_m dbg a ok st output_path_id)))).
(* CI.h:1153-1160 *)
Definition make_endpoint_information_inquiry_m (source destination status : Z) : gresult :=
  then_m (make_with_payload_size_m 1 0x72 source destination 0x7F) (fun st => add_uint7_m dbg a ok st status).
(* CI.h:1195-1204 *)
Definition make_endpoint_information_reply_m (source destination status : Z) (data : list Z) : gresult :=
  then_m (make_with_payload_size_m (3 + size data) 0x73 source destination 0x7F) (fun st =>
  then_m (add_uint7_m dbg a ok st status) (fun st =>
  then_m (add_uint14_m dbg a ok st (u16 (size data))) (fun st =>
  insert_m a ok st data))).
(* CI.h:1264-1279, 1305-1335, as make_nack_message *)
Definition make_nack_message_m (subtype source destination device_id transaction status_code status_data : Z) (details msg : list Z) : gresult :=
  d0 <- vec_at details 0 ;; d1 <- vec_at details 1 ;; d2 <- vec_at details 2 ;;
  d3 <- vec_at details 3 ;; d4 <- vec_at details 4 ;;
  then_m (make_with_payload_size_m (10 + size msg) subtype source destination device_id) (fun st =>
  then_m (insert_m a ok st [transaction; status_code; status_data; d0; d1; d2; d3; d4]) (fun st =>
  then_m (add_uint14_m dbg a ok st (u16 (size msg))) (fun st =>
  insert_m a ok st msg))).
(* CI.h:1356-1361 *)
Definition make_invalidate_muid_message_m (source target : Z) : gresult :=
  then_m (make_with_payload_size_m 4 0x7E source broadcast_muid 0x7F) (fun st => add_uint28_m dbg a ok st target).

(* CI.cpp:144-150 *)
Definition add_profile_m (st : growing) (p : profile_id) : gresult :=
  then_m (add_uint7_m dbg a ok st (pr1 p)) (fun st =>
  then_m (add_uint7_m dbg a ok st (pr2 p)) (fun st =>
  then_m (add_uint7_m dbg a ok st (pr3 p)) (fun st =>
  then_m (add_uint7_m dbg a ok st (pr4 p)) (fun st =>
  add_uint7_m dbg a ok st (pr5 p))))).
Fixpoint add_profiles_m (st : growing) (n : nat) (l : list profile_id) : gresult :=
  match n with
  | O => Ok (st, true)
  | S k => match l with
           | [] => Fault OutOfBounds
           | p :: t => then_m (add_profile_m st p) (fun st => add_profiles_m st k t)
           end
  end.
(* CI.cpp:126-165; minimum_message_size is 16 *)
Definition make_profile_inquiry_reply_n_m (source destination : Z) (enabled : list profile_id) (num_enabled : Z)
    (disabled : list profile_id) (num_disabled device_id : Z) : gresult :=
  check dbg (num_enabled <=? 16383) ;;;
  check dbg (num_disabled <=? 16383) ;;;
  then_m (make_with_payload_size_m (16 + (num_enabled + num_disabled) * 5 - 12) 0x21 source destination device_id) (fun st =>
  then_m (add_uint14_m dbg a ok st num_enabled) (fun st =>
  then_m (add_profiles_m st (Z.to_nat num_enabled) enabled) (fun st =>
  then_m (add_uint14_m dbg a ok st num_disabled) (fun st =>
  add_profiles_m st (Z.to_nat num_disabled) disabled)))).
(* CI.h:1518-1570, as make_profile_message *)
Definition make_profile_message_m (subtype source destination : Z) (p : profile_id) (scope channels : Z) : gresult :=
  then_m (make_with_payload_size_m 7 subtype source destination scope) (fun st =>
  then_m (add_data_m dbg a ok st (profile_bytes p)) (fun st =>
  add_uint14_m dbg a ok st channels)).
(* CI.h:1574-1595; the subtype is 0x26 or 0x27 *)
Definition make_profile_presence_m (subtype source destination : Z) (p : profile_id) (device_id : Z) : gresult :=
  then_m (make_with_payload_size_m 5 subtype source destination device_id) (fun st => add_data_m dbg a ok st (profile_bytes p)).
(* CI.h:1622-1634 *)
Definition make_profile_details_inquiry_m (source destination : Z) (p : profile_id) (target device_id : Z) : gresult :=
  then_m (make_with_payload_size_m 6 0x28 source destination device_id) (fun st =>
  then_m (add_data_m dbg a ok st (profile_bytes p)) (fun st =>
  add_uint7_m dbg a ok st target)).
(* CI.h:1636-1651 *)
Definition make_profile_details_reply_m (source destination : Z) (p : profile_id) (target : Z) (data : list Z) (device_id : Z) : gresult :=
  then_m (make_with_payload_size_m (8 + size data) 0x29 source destination device_id) (fun st =>
  then_m (add_data_m dbg a ok st (profile_bytes p)) (fun st =>
  then_m (add_uint7_m dbg a ok st target) (fun st =>
  then_m (add_uint14_m dbg a ok st (u16 (size data))) (fun st =>
  insert_m a ok st data)))).
(* if (n) result.add_data(d, n) *)
Definition add_data_if_any_m (st : growing) (d : list Z) : gresult :=
  if negb (size d =? 0) then add_data_m dbg a ok st d else Ok (st, true).
(* CI.cpp:191-209 *)
Definition make_profile_specific_data_m (source destination : Z) (p : profile_id) (data : list Z) (device_id : Z) : gresult :=
  then_m (make_with_payload_size_m (9 + size data) 0x2F source destination device_id) (fun st =>
  then_m (add_data_m dbg a ok st (profile_bytes p)) (fun st =>
  then_m (add_uint28_m dbg a ok st (u32 (size data))) (fun st =>
  add_data_if_any_m st data))).
(* CI.h:1902-1910 *)
Definition make_capabilities_message_m (subtype source destination max_num_requests device_id : Z) : gresult :=
  then_m (make_with_payload_size_m 3 subtype source destination device_id) (fun st => add_data_m dbg a ok st [max_num_requests; 0; 0]).
(* CI.cpp:248-285 *)
Definition make_property_data_message_m (subtype source destination : Z) (header : option (list Z)) (num_chunks this_chunk : Z)
    (chunk : option (list Z)) (request device_id : Z) : gresult :=
  then_m (make_with_payload_size_m (9 + size (pe_bytes header) + size (pe_bytes chunk)) subtype source destination device_id) (fun st =>
  check dbg (negb (this_chunk =? 0) || (is_null chunk && (size (pe_bytes chunk) =? 0))) ;;;
  check dbg ((num_chunks =? 0) || (this_chunk <=? num_chunks)) ;;;
  then_m (add_uint7_m dbg a ok st request) (fun st =>
  then_m (add_uint14_m dbg a ok st (u16 (size (pe_bytes header)))) (fun st =>
  then_m (add_data_if_any_m st (pe_bytes header)) (fun st =>
  then_m (add_uint14_m dbg a ok st num_chunks) (fun st =>
  then_m (add_uint14_m dbg a ok st this_chunk) (fun st =>
  then_m (add_uint14_m dbg a ok st (u16 (size (pe_bytes chunk)))) (fun st =>
  add_data_if_any_m st (pe_bytes chunk)))))))).
(* CI.h:2414-2424 *)
Definition make_process_inquiry_capabilities_reply_m (source destination features device_id : Z) : gresult :=
  then_m (make_with_payload_size_m 1 0x41 source destination device_id) (fun st => add_data_m dbg a ok st [features]).
(* CI.h:2463-2478 *)
Definition make_midi_message_report_inquiry_m (source destination data_control system controller note device_id : Z) : gresult :=
  then_m (make_with_payload_size_m 5 0x42 source destination device_id) (fun st =>
  add_data_m dbg a ok st [data_control; system; 0; controller; note]).
(* CI.h:2511-2524 *)
Definition make_midi_message_report_reply_m (source system controller note device_id : Z) : gresult :=
  then_m (make_with_payload_size_m 5 0x43 source broadcast_muid device_id) (fun st =>
  add_data_m dbg a ok st [system; 0; controller; note]).

End Makers.
