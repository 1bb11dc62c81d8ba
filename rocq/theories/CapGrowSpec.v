(* What is expected of MIDI-CI messages that are made while memory may run out. *)
From Coq Require Import ZArith List Bool.
From Verif Require Import Base Sysex UniversalSysex Collector Growing CapInq CapGrow.
Import ListNotations.
Local Open Scope Z_scope.

(* the calls, with their arguments *)
Inductive order : Type :=
| ODiscovery1 (subtype source destination : Z) (i : device_identity) (categories max_message_size : Z)
| ODiscovery (subtype source destination : Z) (i : device_identity) (categories max_message_size output_path_id : Z)
| OEndpointInquiry (source destination status : Z)
| OEndpointReply (source destination status : Z) (data : list Z)
| ONack (subtype source destination device_id transaction status_code status_data : Z) (details msg : list Z)
| OInvalidate (source target : Z)
| OProfiles (source destination : Z) (enabled : list profile_id) (num_enabled : Z) (disabled : list profile_id) (num_disabled device_id : Z)
| OProfile (subtype source destination : Z) (p : profile_id) (scope channels : Z)
| OProfileAdded (source destination : Z) (p : profile_id) (device_id : Z)
| OProfileRemoved (source destination : Z) (p : profile_id) (device_id : Z)
| ODetailsInquiry (source destination : Z) (p : profile_id) (target device_id : Z)
| ODetailsReply (source destination : Z) (p : profile_id) (target : Z) (data : list Z) (device_id : Z)
| OSpecificData (source destination : Z) (p : profile_id) (data : list Z) (device_id : Z)
| OCapabilities (subtype source destination max_num_requests device_id : Z)
| OPropertyData (subtype source destination : Z) (header : option (list Z)) (num_chunks this_chunk : Z) (chunk : option (list Z))
    (request device_id : Z)
| OProcessReply (source destination features device_id : Z)
| OReportInquiry (source destination data_control system controller note device_id : Z)
| OReportReply (source system controller note device_id : Z).

(* the message, where memory is no concern *)
Definition made (dbg : bool) (o : order) : res sysex :=
  match o with
  | ODiscovery1 st s d i c m => make_discovery_message_v1 dbg st s d i c m
  | ODiscovery st s d i c m x => make_discovery_message dbg st s d i c m x
  | OEndpointInquiry s d x => make_endpoint_information_inquiry dbg s d x
  | OEndpointReply s d x l => make_endpoint_information_reply dbg s d x l
  | ONack st s d v t c x l m => make_nack_message dbg st s d v t c x l m
  | OInvalidate s t => make_invalidate_muid_message dbg s t
  | OProfiles s d e ne f nf v => make_profile_inquiry_reply_n dbg s d e ne f nf v
  | OProfile st s d p x c => make_profile_message dbg st s d p x c
  | OProfileAdded s d p v => make_profile_added_notification dbg s d p v
  | OProfileRemoved s d p v => make_profile_removed_notification dbg s d p v
  | ODetailsInquiry s d p t v => make_profile_details_inquiry dbg s d p t v
  | ODetailsReply s d p t l v => make_profile_details_reply dbg s d p t l v
  | OSpecificData s d p l v => make_profile_specific_data dbg s d p l v
  | OCapabilities st s d m v => make_capabilities_message dbg st s d m v
  | OPropertyData st s d h n k c r v => make_property_data_message dbg st s d h n k c r v
  | OProcessReply s d f v => make_process_inquiry_capabilities_reply dbg s d f v
  | OReportInquiry s d x y c n v => make_midi_message_report_inquiry dbg s d x y c n v
  | OReportReply s y c n v => make_midi_message_report_reply dbg s y c n v
  end.
Definition made_m (dbg : bool) (a : allocator) (ok : nat -> bool) (o : order) : gresult :=
  match o with
  | ODiscovery1 st s d i c m => make_discovery_message_v1_m dbg a ok st s d i c m
  | ODiscovery st s d i c m x => make_discovery_message_m dbg a ok st s d i c m x
  | OEndpointInquiry s d x => make_endpoint_information_inquiry_m dbg a ok s d x
  | OEndpointReply s d x l => make_endpoint_information_reply_m dbg a ok s d x l
  | ONack st s d v t c x l m => make_nack_message_m dbg a ok st s d v t c x l m
  | OInvalidate s t => make_invalidate_muid_message_m dbg a ok s t
  | OProfiles s d e ne f nf v => make_profile_inquiry_reply_n_m dbg a ok s d e ne f nf v
  | OProfile st s d p x c => make_profile_message_m dbg a ok st s d p x c
  | OProfileAdded s d p v => make_profile_presence_m dbg a ok 0x26 s d p v
  | OProfileRemoved s d p v => make_profile_presence_m dbg a ok 0x27 s d p v
  | ODetailsInquiry s d p t v => make_profile_details_inquiry_m dbg a ok s d p t v
  | ODetailsReply s d p t l v => make_profile_details_reply_m dbg a ok s d p t l v
  | OSpecificData s d p l v => make_profile_specific_data_m dbg a ok s d p l v
  | OCapabilities st s d m v => make_capabilities_message_m dbg a ok st s d m v
  | OPropertyData st s d h n k c r v => make_property_data_message_m dbg a ok st s d h n k c r v
  | OProcessReply s d f v => make_process_inquiry_capabilities_reply_m dbg a ok s d f v
  | OReportInquiry s d x y c n v => make_midi_message_report_inquiry_m dbg a ok s d x y c n v
  | OReportReply s y c n v => make_midi_message_report_reply_m dbg a ok s y c n v
  end.

(* counts are unsigned *)
Definition order_ok (o : order) : Prop := match o with OProfiles _ _ _ ne _ nf _ => 0 <= ne /\ 0 <= nf | _ => True end.

(* the bytes that are reserved but not needed *)
Definition spare (o : order) : Z := match o with ODiscovery _ _ _ _ _ _ _ | OReportReply _ _ _ _ _ => 1 | _ => 0 end.
(* Memory was asked for once: if it was provided the message is s, and what was reserved is its size and some spare bytes;
   otherwise an exception was passed on. *)
Definition asked_once (a : allocator) (ok : nat -> bool) (unused : Z) (s : sysex) (r : gresult) : Prop :=
  exists st, r = Ok (st, ok 0%nat) /\ gr_asked st = 1%nat /\
    (ok 0%nat = true -> gr_sysex st = s /\ gr_capacity st = al_reserve a 0 (size (sx_data s) + unused)).

(* a user who tries up to n times; k requests for memory so far.  The message and the number of requests. *)
Fixpoint try_again (dbg : bool) (a : allocator) (ok : nat -> bool) (o : order) (n k : nat) : option (sysex * nat) :=
  match n with
  | O => None
  | S n' =>
      match made_m dbg a (fun i => ok (k + i)%nat) o with
      | Ok (st, true) => Some (gr_sysex st, (k + gr_asked st)%nat)
      | Ok (st, false) => try_again dbg a ok o n' (k + gr_asked st)
      | Fault _ => None
      end
  end.
