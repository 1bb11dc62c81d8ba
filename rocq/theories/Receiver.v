(* A client of the library that looks at everything that arrives in every way the library offers.  This is a user's
   program, composed of the modelled functions of /repo; it has no counterpart in /repo other than README.md:110-150
   and docs/, which show its parts. *)
From Coq Require Import ZArith List Bool.
From Verif Require Import Base Packet Messages Sysex ByteStream Collector Types ChannelVoice Utility UniversalSysex
  CapInq CapSpec Endpoint EndpointSpec Flex FlexSpec DataPackets TextIO Docs.
Import ListNotations.
Local Open Scope Z_scope.
Local Open Scope res_scope.

(* calling an accessor *)
Definition touch {A} (r : res A) : res unit := r ;;; Ok tt.

(* all accessors of a MIDI-CI view of kind k, CI.h:46-970; those of universal_sysex.h:98-110 first *)
Definition read_ci (dbg : bool) (k : kind) (s : sysex) : res unit :=
  touch (view_device_id s) ;;; touch (view_type s) ;;; touch (view_subtype s) ;;;
  touch (message_version s) ;;; touch (source_muid s) ;;; touch (destination_muid s) ;;;
  match k with
  | KDiscoveryInquiry =>
      touch (discovery_identity s) ;;; touch (discovery_categories s) ;;;
      touch (discovery_maximum_message_size s) ;;; touch (discovery_output_path_id s)
  | KDiscoveryReply =>
      touch (discovery_identity s) ;;; touch (discovery_categories s) ;;;
      touch (discovery_maximum_message_size s) ;;; touch (discovery_output_path_id s) ;;;
      touch (discovery_function_block s)
  | KEndpointInquiry => touch (endpoint_inquiry_status s)
  | KEndpointReply =>
      touch (endpoint_reply_status s) ;;; touch (information_data_length s) ;;; touch (information_data s)
  | KAck | KNak =>
      touch (nack_transaction s) ;;; touch (nack_status_code s) ;;; touch (nack_status_data s) ;;;
      touch (nack_details s) ;;; touch (nack_message_length s) ;;; touch (nack_message s)
  | KInvalidateMuid => touch (target_muid s)
  | KProfileInquiry => Ok tt
  | KProfileInquiryReply =>
      touch (has_enabled_profiles s) ;;; touch (has_disabled_profiles s) ;;;
      touch (num_enabled_profiles s) ;;; touch (num_disabled_profiles s) ;;;
      touch (enabled_profiles dbg s) ;;; touch (disabled_profiles dbg s)
  | KProfileId => touch (view_profile s)
  | KProfileDestination => touch (view_profile s) ;;; touch (view_num_channels s) ;;; touch (view_destination s)
  | KDetailsInquiry => touch (view_profile s) ;;; touch (details_inquiry_target s)
  | KDetailsReply =>
      touch (view_profile s) ;;; touch (details_reply_target s) ;;;
      touch (target_data_length s) ;;; touch (target_data s)
  | KSpecificData => touch (view_profile s) ;;; touch (specific_data_size s) ;;; touch (specific_data s)
  | KPECapabilities =>
      touch (maximum_number_of_requests s) ;;; touch (pe_version_major s) ;;; touch (pe_version_minor s)
  | KPropertyData | KGetProperty | KSetProperty | KSubscription | KNotify =>
      touch (request_id s) ;;; touch (header_size s) ;;; touch (header_data s) ;;;
      touch (number_of_chunks s) ;;; touch (number_of_this_chunk s) ;;;
      touch (chunk_size s) ;;; touch (chunk_data s)
  | KProcessCapabilities => touch (supported_features s)
  | KReportInquiry =>
      touch (report_inquiry_data_control s) ;;; touch (report_inquiry_system s) ;;;
      touch (report_inquiry_controller s) ;;; touch (report_inquiry_note s)
  | KReportReply =>
      touch (report_reply_system s) ;;; touch (report_reply_controller s) ;;; touch (report_reply_note s)
  end.

Definition all_kinds : list kind :=
  [KDiscoveryInquiry; KDiscoveryReply; KEndpointInquiry; KEndpointReply; KAck; KNak; KInvalidateMuid; KProfileInquiry;
   KProfileInquiryReply; KProfileId; KProfileDestination; KDetailsInquiry; KDetailsReply; KSpecificData; KPECapabilities;
   KPropertyData; KGetProperty; KSetProperty; KSubscription; KNotify; KProcessCapabilities; KReportInquiry; KReportReply].

(* as<view>(sx) for each view class (CI.h:974-980), and all accessors of the views there are; the kinds there are *)
Fixpoint read_views (dbg : bool) (s : sysex) (ks : list kind) : res (list kind) :=
  match ks with
  | [] => Ok []
  | k :: ks' =>
      v <- as_view dbg (validate_of k) s ;;
      match v with
      | Some m => read_ci dbg k m ;;; l <- read_views dbg s ks' ;; Ok (k :: l)
      | None => read_views dbg s ks'
      end
  end.

(* what universal_sysex.h offers for any SysEx: lines 200-240, 121-128, 259-262, 275-329 *)
Definition read_universal (dbg : bool) (s : sysex) : res unit :=
  touch (universal_sysex_type_of s) ;;; touch (universal_sysex_subtype_of s) ;;; touch (universal_sysex_device_id_of s) ;;;
  u <- as_universal_sysex_view dbg s ;;
  match u with
  | Some m => touch (view_device_id m) ;;; touch (view_type m) ;;; touch (view_subtype m)
  | None => Ok tt
  end ;;;
  touch (is_identity_request s) ;;;
  r <- as_identity_reply_view dbg s ;;
  match r with
  | Some m => touch (reply_identity m)
  | None => Ok tt
  end.

(* A SysEx7 message.  A careful receiver does not offer messages of less than four data bytes to MIDI-CI views. *)
Definition read_sysex7 (careful dbg : bool) (s : sysex) : res (list kind) :=
  read_universal dbg s ;;;
  if careful && (size (sx_data s) <? 4) then Ok [] else read_views dbg s all_kinds.

(* What the receiver sees. *)
Inductive sight : Type :=
| Timestamp (status ts : Z)                  (* a utility message *)
| System (status d1 d2 position : Z)
| Voices (l : list voice_call)               (* docs/channel_voice_message.examples.cpp *)
| Translated (q : packet)                    (* to the other protocol *)
| Bytes (l : list Z)                         (* to_midi1_byte_stream *)
| Reported (k : stream_kind) (r : stream_report)
| Flexible (r : flex_report)
| Printed (text : list Z)
| Message7 (s : sysex) (ks : list kind)
| Message8 (s : sysex) (stream : Z).

Definition all_stream_kinds : list stream_kind :=
  [KDiscovery; KInfo; KIdentity; KName; KProduct; KConfiguration; KBlockDiscovery; KBlockInfo; KBlockName].

Fixpoint read_stream (dbg : bool) (p : packet) (ks : list stream_kind) : res (list sight) :=
  match ks with
  | [] => Ok []
  | k :: ks' =>
      v <- as_stream_view dbg k p ;;
      match v with
      | Some m => r <- stream_read k m ;; l <- read_stream dbg p ks' ;; Ok (Reported k r :: l)
      | None => read_stream dbg p ks'
      end
  end.

(* a MIDI 1 pitch bend packet with eight bits in the second data byte *)
Definition eight_bit_bend (p : packet) : bool :=
  (type p =? 2) && (Z.land (status p) 0xF0 =? 0xE0) && (128 <=? byte4 p).

(* One packet, the SysEx collectors apart.  A careful receiver does not hand pitch bends with eight-bit data to
   the documented handler. *)
Definition look (careful dbg : bool) (p : packet) : res (list sight) :=
  u <- (if type p =? 0 then m <- utility_view p ;; ts <- jr_get_timestamp m ;; Ok [Timestamp (status m) ts] else Ok []) ;;
  v <- (if careful && eight_bit_bend p then Ok [] else l <- processor p ;; Ok [Voices l]) ;;
  t <- to_midi2 p ;;
  b <- to_midi1_byte_stream p ;;
  s <- read_stream dbg p all_stream_kinds ;;
  f <- as_flex_data_message_view dbg p ;;
  f <- match f with Some m => r <- flex_read m ;; Ok [Flexible r] | None => Ok [] end ;;
  o <- put_packet p (mkOut [] (mkFlags BaseDec false false AdjNone true) 0 32) ;;
  Ok (u ++ match as_system_message_view p with
           | Some m => [System (status m) (system_data_byte_1 m) (system_data_byte_2 m) (get_song_position m)]
           | None => [] end
        ++ v ++ match to_midi1 p with Some q => [Translated q] | None => [] end
        ++ match t with Some q => [Translated q] | None => [] end
        ++ [Bytes b] ++ s ++ f ++ [Printed (o_text o)]).

Fixpoint read_messages7 (careful dbg : bool) (l : list sysex) : res (list sight) :=
  match l with
  | [] => Ok []
  | s :: l' => ks <- read_sysex7 careful dbg s ;; r <- read_messages7 careful dbg l' ;; Ok (Message7 s ks :: r)
  end.
(* MIDI-CI views are for SysEx7 only (sysex8 does not convert to sysex7) *)
Fixpoint read_messages8 (dbg : bool) (l : list (sysex * Z)) : res (list sight) :=
  match l with
  | [] => Ok []
  | (s, i) :: l' => read_universal dbg s ;;; r <- read_messages8 dbg l' ;; Ok (Message8 s i :: r)
  end.

(* The receiver: a collector of each kind, fed with every packet. *)
Record station : Type := mkStation { s7 : collector7; s8 : collector8 }.
Definition new_station : station := mkStation (new_collector7 true) (new_collector8 true).

(* a packet arrives, or the collectors are reset or given a limit *)
Definition station_step (a : allocator) (careful dbg : bool) (st : station) (k : collector_call) : res (station * list sight) :=
  l <- match k with KFeed p => look careful dbg p | _ => Ok [] end ;;
  r7 <- c7_call a (s7 st) k ;;
  m7 <- read_messages7 careful dbg (snd r7) ;;
  r8 <- c8_call a (s8 st) k ;;
  m8 <- read_messages8 dbg (snd r8) ;;
  Ok (mkStation (fst r7) (fst r8), l ++ m7 ++ m8).

Fixpoint station_run (a : allocator) (careful dbg : bool) (st : station) (ks : list collector_call) : res (station * list sight) :=
  match ks with
  | [] => Ok (st, [])
  | k :: ks' =>
      r <- station_step a careful dbg st k ;;
      r' <- station_run a careful dbg (fst r) ks' ;;
      Ok (fst r', snd r ++ snd r')
  end.

(* The receiver of MIDI 1 bytes: what the parser posts and the SysEx messages it reports. *)
Fixpoint listen (careful dbg : bool) (es : list event) : res (list sight) :=
  match es with
  | [] => Ok []
  | EPacket p :: es' => l <- look careful dbg p ;; r <- listen careful dbg es' ;; Ok (l ++ r)
  | ESysex s :: es' => ks <- read_sysex7 careful dbg s ;; r <- listen careful dbg es' ;; Ok (Message7 s ks :: r)
  end.
