(* Specification vocabulary for MIDI-CI messages: the byte layout of a message and the
   kinds of messages that can be told apart.  Layouts are written with base 128 digits
   ([le7], [val7]), not with the bit operations of the code. *)
From Coq Require Import ZArith List Bool.
From Verif Require Import Base Sysex UniversalSysex SysexSpec CapInq.
Import ListNotations.
Local Open Scope Z_scope.

(* A MIDI-CI message: universal non-realtime SysEx, device, 0x0D, subtype, version, source
   and destination id of 28 bits each, payload. *)
Definition ci_wire (dev subtype version src dst : Z) (payload : list Z) : sysex :=
  mkSx 0x7E0000 ([dev; 0x0D; subtype; version] ++ le7 4 src ++ le7 4 dst ++ payload).

(* What the accessors common to all messages return. *)
Definition common_fields (s : sysex) (dev subtype version src dst : Z) : Prop :=
  is_capability_inquiry_message s = Ok true /\
  universal_sysex_type_of s = Ok 0x7E0D /\ view_type s = Ok 0x7E0D /\
  view_device_id s = Ok dev /\ universal_sysex_device_id_of s = Ok dev /\
  view_subtype s = Ok subtype /\ universal_sysex_subtype_of s = Ok subtype /\
  message_version s = Ok version /\ source_muid s = Ok src /\ destination_muid s = Ok dst.

(* ---- the kinds of views --------------------------------------------------------------- *)

Inductive kind : Set :=
| KDiscoveryInquiry | KDiscoveryReply | KEndpointInquiry | KEndpointReply
| KAck | KNak | KInvalidateMuid
| KProfileInquiry | KProfileInquiryReply | KProfileId | KProfileDestination
| KDetailsInquiry | KDetailsReply | KSpecificData
| KPECapabilities | KPropertyData | KGetProperty | KSetProperty | KSubscription | KNotify
| KProcessCapabilities | KReportInquiry | KReportReply.

Definition kind_eqb (a b : kind) : bool :=
  match a, b with
  | KDiscoveryInquiry, KDiscoveryInquiry | KDiscoveryReply, KDiscoveryReply
  | KEndpointInquiry, KEndpointInquiry | KEndpointReply, KEndpointReply
  | KAck, KAck | KNak, KNak | KInvalidateMuid, KInvalidateMuid
  | KProfileInquiry, KProfileInquiry | KProfileInquiryReply, KProfileInquiryReply
  | KProfileId, KProfileId | KProfileDestination, KProfileDestination
  | KDetailsInquiry, KDetailsInquiry | KDetailsReply, KDetailsReply | KSpecificData, KSpecificData
  | KPECapabilities, KPECapabilities | KPropertyData, KPropertyData
  | KGetProperty, KGetProperty | KSetProperty, KSetProperty | KSubscription, KSubscription
  | KNotify, KNotify
  | KProcessCapabilities, KProcessCapabilities | KReportInquiry, KReportInquiry
  | KReportReply, KReportReply => true
  | _, _ => false
  end.

(* the function V::validate of each view class V *)
Definition validate_of (k : kind) : sysex -> res bool :=
  match k with
  | KDiscoveryInquiry => discovery_inquiry_validate
  | KDiscoveryReply => discovery_reply_validate
  | KEndpointInquiry => endpoint_inquiry_validate
  | KEndpointReply => endpoint_reply_validate
  | KAck => ack_validate
  | KNak => nak_validate
  | KInvalidateMuid => invalidate_muid_validate
  | KProfileInquiry => profile_inquiry_validate
  | KProfileInquiryReply => profile_inquiry_reply_validate
  | KProfileId => profile_id_validate
  | KProfileDestination => profile_destination_validate
  | KDetailsInquiry => details_inquiry_validate
  | KDetailsReply => details_reply_validate
  | KSpecificData => profile_specific_data_validate
  | KPECapabilities => pe_capabilities_validate
  | KPropertyData => property_data_validate
  | KGetProperty => get_property_data_validate
  | KSetProperty => set_property_data_validate
  | KSubscription => subscription_validate
  | KNotify => notify_validate
  | KProcessCapabilities => process_capabilities_reply_validate
  | KReportInquiry => report_inquiry_validate
  | KReportReply => report_reply_validate
  end.

(* s is accepted as a view of exactly these kinds *)
Definition accepted_as (s : sysex) (ks : list kind) : Prop :=
  forall k, validate_of k s = Ok (existsb (kind_eqb k) ks).

(* ---- what a well-formed message of each kind is ------------------------------------------ *)

Definition subtypes (k : kind) : list Z :=
  match k with
  | KDiscoveryInquiry => [0x70] | KDiscoveryReply => [0x71]
  | KEndpointInquiry => [0x72] | KEndpointReply => [0x73]
  | KAck => [0x7D] | KNak => [0x7F] | KInvalidateMuid => [0x7E]
  | KProfileInquiry => [0x20] | KProfileInquiryReply => [0x21]
  | KProfileId => [0x22; 0x23; 0x24; 0x25; 0x26; 0x27]
  | KProfileDestination => [0x22; 0x23; 0x24; 0x25]
  | KDetailsInquiry => [0x28] | KDetailsReply => [0x29] | KSpecificData => [0x2F]
  | KPECapabilities => [0x30; 0x31]
  | KPropertyData => [0x34; 0x35; 0x36; 0x37; 0x38; 0x39; 0x3F]
  | KGetProperty => [0x34; 0x35] | KSetProperty => [0x36; 0x37]
  | KSubscription => [0x38; 0x39] | KNotify => [0x3F]
  | KProcessCapabilities => [0x41] | KReportInquiry => [0x42] | KReportReply => [0x43]
  end.

(* n fixed bytes, then possibly more *)
Definition at_least (n : Z) (body : list Z) : Prop := n <= size body.

(* [fixed] bytes of which the last two are the length of a block of items of [unit]
   bytes that follows *)
Definition counted (fixed : list Z) (len : list Z) (unit : Z) (body block rest : list Z) : Prop :=
  body = fixed ++ len ++ block ++ rest /\ size block = unit * val7 len.

(* the payload of a message of kind k with the given message version; trailing bytes are
   allowed *)
Definition body_ok (k : kind) (version : Z) (body : list Z) : Prop :=
  match k with
  | KDiscoveryInquiry => at_least (if 1 <? version then 17 else 16) body
  | KDiscoveryReply => at_least (if 1 <? version then 18 else 16) body
  | KEndpointInquiry => at_least 1 body
  | KEndpointReply => exists status l0 l1 data rest, counted [status] [l0; l1] 1 body data rest
  | KAck => exists fixed l0 l1 text rest, length fixed = 8%nat /\ counted fixed [l0; l1] 1 body text rest
  | KNak => 2 <= version /\
            exists fixed l0 l1 text rest, length fixed = 8%nat /\ counted fixed [l0; l1] 1 body text rest
  | KInvalidateMuid => at_least 4 body
  | KProfileInquiry => True
  | KProfileInquiryReply =>
      exists e0 e1 d0 d1 enabled disabled rest rest',
        counted [] [e0; e1] 5 body enabled rest /\ counted [] [d0; d1] 5 rest disabled rest'
  | KProfileId => at_least 5 body
  | KProfileDestination => at_least 7 body
  | KDetailsInquiry => at_least 6 body
  | KDetailsReply => exists fixed l0 l1 data rest, length fixed = 6%nat /\ counted fixed [l0; l1] 1 body data rest
  | KSpecificData => exists fixed l0 l1 l2 l3 data rest, length fixed = 5%nat /\
                       counted fixed [l0; l1; l2; l3] 1 body data rest
  | KPECapabilities => at_least (if 1 <? version then 3 else 1) body
  | KPropertyData | KGetProperty | KSetProperty | KSubscription | KNotify =>
      exists request h0 h1 header n0 n1 t0 t1 c0 c1 chunk rest rest',
        counted [request] [h0; h1] 1 body header rest /\
        counted [n0; n1; t0; t1] [c0; c1] 1 rest chunk rest' /\
        (val7 [n0; n1] = 0 \/ val7 [t0; t1] <= val7 [n0; n1]) /\
        (val7 [h0; h1] = 0 \/ val7 [t0; t1] <= 1) /\
        (val7 [c0; c1] = 0 \/ 1 <= val7 [t0; t1])
  | KProcessCapabilities => at_least 1 body
  | KReportInquiry => at_least 5 body
  | KReportReply => at_least 4 body
  end.

Definition well_formed (k : kind) (s : sysex) : Prop :=
  exists dev subtype version src dst body,
    s = ci_wire dev subtype version src dst body /\ In subtype (subtypes k) /\ body_ok k version body.

(* the two views that look at the message version before the size *)
Definition reads_version_first (k : kind) : bool :=
  match k with KDiscoveryInquiry | KDiscoveryReply => true | _ => false end.

(* ---- what every view offers -------------------------------------------------------------- *)

(* the access stays inside of the message *)
Definition reads {A} (r : res A) : Prop := exists v, r = Ok v.

Definition common_accessors (s : sysex) : Prop :=
  reads (view_device_id s) /\ reads (view_type s) /\ reads (view_subtype s) /\
  reads (message_version s) /\ reads (source_muid s) /\ reads (destination_muid s).

Definition property_accessors (s : sysex) : Prop :=
  reads (request_id s) /\ reads (header_size s) /\ reads (header_data s) /\
  reads (number_of_chunks s) /\ reads (number_of_this_chunk s) /\
  reads (chunk_size s) /\ reads (chunk_data s).

(* the accessors of the view class of kind k, besides the common ones *)
Definition accessors (dbg : bool) (k : kind) (s : sysex) : Prop :=
  match k with
  | KDiscoveryInquiry =>
      reads (discovery_identity s) /\ reads (discovery_categories s) /\
      reads (discovery_maximum_message_size s) /\ reads (discovery_output_path_id s)
  | KDiscoveryReply =>
      reads (discovery_identity s) /\ reads (discovery_categories s) /\
      reads (discovery_maximum_message_size s) /\ reads (discovery_output_path_id s) /\
      reads (discovery_function_block s)
  | KEndpointInquiry => reads (endpoint_inquiry_status s)
  | KEndpointReply =>
      reads (endpoint_reply_status s) /\ reads (information_data_length s) /\ reads (information_data s)
  | KAck | KNak =>
      reads (nack_transaction s) /\ reads (nack_status_code s) /\ reads (nack_status_data s) /\
      reads (nack_details s) /\ reads (nack_message_length s) /\ reads (nack_message s)
  | KInvalidateMuid => reads (target_muid s)
  | KProfileInquiry => True
  | KProfileInquiryReply =>
      reads (has_enabled_profiles s) /\ reads (has_disabled_profiles s) /\
      reads (num_enabled_profiles s) /\ reads (num_disabled_profiles s) /\
      reads (enabled_profiles dbg s) /\ reads (disabled_profiles dbg s)
  | KProfileId => reads (view_profile s)
  | KProfileDestination => reads (view_profile s) /\ reads (view_num_channels s) /\ reads (view_destination s)
  | KDetailsInquiry => reads (view_profile s) /\ reads (details_inquiry_target s)
  | KDetailsReply =>
      reads (view_profile s) /\ reads (details_reply_target s) /\
      reads (target_data_length s) /\ reads (target_data s)
  | KSpecificData => reads (view_profile s) /\ reads (specific_data_size s) /\ reads (specific_data s)
  | KPECapabilities =>
      reads (maximum_number_of_requests s) /\ reads (pe_version_major s) /\ reads (pe_version_minor s)
  | KPropertyData | KGetProperty | KSetProperty | KSubscription | KNotify => property_accessors s
  | KProcessCapabilities => reads (supported_features s)
  | KReportInquiry =>
      reads (report_inquiry_data_control s) /\ reads (report_inquiry_system s) /\
      reads (report_inquiry_controller s) /\ reads (report_inquiry_note s)
  | KReportReply =>
      reads (report_reply_system s) /\ reads (report_reply_controller s) /\ reads (report_reply_note s)
  end.

(* ---- arguments ----------------------------------------------------------------------------- *)

(* a device identity with manufacturer bytes m0 m1 m2 (see identity_bytes) *)
Definition identity_in_range (i : device_identity) (m0 m1 m2 : Z) : Prop :=
  is_u7 m0 /\ is_u7 m1 /\ is_u7 m2 /\ di_manufacturer i = m0 * 65536 + m1 * 256 + m2 /\
  is_u14 (di_family i) /\ is_u14 (di_model i) /\ is_u28 (di_revision i).

Definition profile7 (p : profile_id) : Prop := all7 (profile_bytes p).
Definition profile8 (p : profile_id) : Prop := Forall is_u8 (profile_bytes p).
