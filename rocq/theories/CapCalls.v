(* All calls that construct MIDI-CI messages, as data, with the bytes each of them is
   specified to produce. *)
From Coq Require Import ZArith List Bool.
From Verif Require Import Base Sysex UniversalSysex SysexSpec CapInq CapSpec.
Import ListNotations.
Local Open Scope Z_scope.

Inductive ci_call : Type :=
| CMessage (subtype src dst dev : Z)
| CDiscoveryInquiryV1 (src : Z) (i : device_identity) (categories max_size : Z)
| CDiscoveryInquiry (src : Z) (i : device_identity) (categories max_size path : Z)
| CDiscoveryReplyV1 (src dst : Z) (i : device_identity) (categories max_size : Z)
| CDiscoveryReply (src dst : Z) (i : device_identity) (categories max_size path function_block : Z)
| CEndpointInquiry (src dst status : Z)
| CEndpointReply (src dst status : Z) (data : list Z)
| CAck (src dst dev transaction code status_data d0 d1 d2 d3 d4 : Z) (msg : list Z)
| CNak (src dst dev transaction code status_data d0 d1 d2 d3 d4 : Z) (msg : list Z)
| CNakV1 (src dst dev : Z)
| CInvalidateMuid (src target : Z)
| CProfileInquiry (src dst dev : Z)
| CProfileInquiryReply (src dst : Z) (enabled disabled : list profile_id) (dev : Z)
| CProfileOn (src dst : Z) (p : profile_id) (dest : profile_destination)
| CProfileOff (src dst : Z) (p : profile_id) (dest : profile_destination)
| CProfileEnabled (src dst : Z) (p : profile_id) (dest : profile_destination)
| CProfileDisabled (src dst : Z) (p : profile_id) (dest : profile_destination)
| CProfileAdded (src dst : Z) (p : profile_id) (dev : Z)
| CProfileRemoved (src dst : Z) (p : profile_id) (dev : Z)
| CDetailsInquiry (src dst : Z) (p : profile_id) (target dev : Z)
| CDetailsReply (src dst : Z) (p : profile_id) (target : Z) (data : list Z) (dev : Z)
| CSpecificData (src dst : Z) (p : profile_id) (data : list Z) (dev : Z)
| CPECapabilitiesInquiry (src dst max_requests dev : Z)
| CPECapabilitiesReply (src dst max_requests dev : Z)
| CPropertyData (subtype src dst : Z) (header : option (list Z)) (num_chunks this_chunk : Z)
    (chunk : option (list Z)) (request dev : Z)
| CProcessCapabilitiesInquiry (src dst dev : Z)
| CProcessCapabilitiesReply (src dst features dev : Z)
| CReportInquiry (src dst data_control system controller note dev : Z)
| CReportReply (src system controller note dev : Z)
| CReportEnd (src dev : Z).

(* the call of the library function *)
Definition build (dbg : bool) (c : ci_call) : res sysex :=
  match c with
  | CMessage st src dst dev => ci_message dbg st src dst dev
  | CDiscoveryInquiryV1 src i c m => make_discovery_inquiry_v1 dbg src i c m
  | CDiscoveryInquiry src i c m o => make_discovery_inquiry dbg src i c m o
  | CDiscoveryReplyV1 src dst i c m => make_discovery_reply_v1 dbg src dst i c m
  | CDiscoveryReply src dst i c m o f => make_discovery_reply dbg src dst i c m o f
  | CEndpointInquiry src dst st => make_endpoint_information_inquiry dbg src dst st
  | CEndpointReply src dst st d => make_endpoint_information_reply dbg src dst st d
  | CAck src dst dev t c s d0 d1 d2 d3 d4 m => make_ack_message dbg src dst dev t c s [d0; d1; d2; d3; d4] m
  | CNak src dst dev t c s d0 d1 d2 d3 d4 m => make_nak_message dbg src dst dev t c s [d0; d1; d2; d3; d4] m
  | CNakV1 src dst dev => make_nak_message_v1 dbg src dst dev
  | CInvalidateMuid src t => make_invalidate_muid_message dbg src t
  | CProfileInquiry src dst dev => make_profile_inquiry_message dbg src dst dev
  | CProfileInquiryReply src dst e d dev => make_profile_inquiry_reply dbg src dst e d dev
  | CProfileOn src dst p d => make_profile_on_request dbg src dst p d
  | CProfileOff src dst p d => make_profile_off_request dbg src dst p d
  | CProfileEnabled src dst p d => make_profile_enabled_notification dbg src dst p d
  | CProfileDisabled src dst p d => make_profile_disabled_notification dbg src dst p d
  | CProfileAdded src dst p dev => make_profile_added_notification dbg src dst p dev
  | CProfileRemoved src dst p dev => make_profile_removed_notification dbg src dst p dev
  | CDetailsInquiry src dst p t dev => make_profile_details_inquiry dbg src dst p t dev
  | CDetailsReply src dst p t d dev => make_profile_details_reply dbg src dst p t d dev
  | CSpecificData src dst p d dev => make_profile_specific_data dbg src dst p d dev
  | CPECapabilitiesInquiry src dst m dev => make_pe_capabilities_inquiry dbg src dst m dev
  | CPECapabilitiesReply src dst m dev => make_pe_capabilities_reply dbg src dst m dev
  | CPropertyData st src dst h n t c r dev => make_property_data_message dbg st src dst h n t c r dev
  | CProcessCapabilitiesInquiry src dst dev => make_process_inquiry_capabilities_inquiry dbg src dst dev
  | CProcessCapabilitiesReply src dst f dev => make_process_inquiry_capabilities_reply dbg src dst f dev
  | CReportInquiry src dst a b c d dev => make_midi_message_report_inquiry dbg src dst a b c d dev
  | CReportReply src a b c dev => make_midi_message_report_reply dbg src a b c dev
  | CReportEnd src dev => make_midi_message_report_end dbg src dev
  end.

(* ---- the specified bytes ------------------------------------------------------------------- *)

(* a device identity: three manufacturer bytes, family, model, revision *)
Definition identity_wire (i : device_identity) : list Z :=
  identity_bytes (di_manufacturer i / 65536 mod 128) (di_manufacturer i / 256 mod 128) (di_manufacturer i mod 128)
    (di_family i) (di_model i) (di_revision i).

(* a list of profiles after its length *)
Definition profiles_wire (l : list profile_id) : list Z :=
  le7 2 (size l) ++ concat (map (fun p => map (fun b => b mod 128) (profile_bytes p)) l).

Definition broadcast : Z := 0x0FFFFFFF.
Definition whole_device : Z := 0x7F.

(* device, subtype, message version, source and destination *)
Definition header_of (c : ci_call) : Z * Z * Z * Z * Z :=
  match c with
  | CMessage st src dst dev => (dev, st, 2, src, dst)
  | CDiscoveryInquiryV1 src _ _ _ => (whole_device, 0x70, 1, src, broadcast)
  | CDiscoveryInquiry src _ _ _ _ => (whole_device, 0x70, 2, src, broadcast)
  | CDiscoveryReplyV1 src dst _ _ _ => (whole_device, 0x71, 1, src, dst)
  | CDiscoveryReply src dst _ _ _ _ _ => (whole_device, 0x71, 2, src, dst)
  | CEndpointInquiry src dst _ => (whole_device, 0x72, 2, src, dst)
  | CEndpointReply src dst _ _ => (whole_device, 0x73, 2, src, dst)
  | CAck src dst dev _ _ _ _ _ _ _ _ _ => (dev, 0x7D, 2, src, dst)
  | CNak src dst dev _ _ _ _ _ _ _ _ _ => (dev, 0x7F, 2, src, dst)
  | CNakV1 src dst dev => (dev, 0x7F, 1, src, dst)
  | CInvalidateMuid src _ => (whole_device, 0x7E, 2, src, broadcast)
  | CProfileInquiry src dst dev => (dev, 0x20, 2, src, dst)
  | CProfileInquiryReply src dst _ _ dev => (dev, 0x21, 2, src, dst)
  | CProfileOn src dst _ d => (pd_scope d, 0x22, 2, src, dst)
  | CProfileOff src dst _ d => (pd_scope d, 0x23, 2, src, dst)
  | CProfileEnabled src dst _ d => (pd_scope d, 0x24, 2, src, dst)
  | CProfileDisabled src dst _ d => (pd_scope d, 0x25, 2, src, dst)
  | CProfileAdded src dst _ dev => (dev, 0x26, 2, src, dst)
  | CProfileRemoved src dst _ dev => (dev, 0x27, 2, src, dst)
  | CDetailsInquiry src dst _ _ dev => (dev, 0x28, 2, src, dst)
  | CDetailsReply src dst _ _ _ dev => (dev, 0x29, 2, src, dst)
  | CSpecificData src dst _ _ dev => (dev, 0x2F, 2, src, dst)
  | CPECapabilitiesInquiry src dst _ dev => (dev, 0x30, 2, src, dst)
  | CPECapabilitiesReply src dst _ dev => (dev, 0x31, 2, src, dst)
  | CPropertyData st src dst _ _ _ _ _ dev => (dev, st, 2, src, dst)
  | CProcessCapabilitiesInquiry src dst dev => (dev, 0x40, 2, src, dst)
  | CProcessCapabilitiesReply src dst _ dev => (dev, 0x41, 2, src, dst)
  | CReportInquiry src dst _ _ _ _ dev => (dev, 0x42, 2, src, dst)
  | CReportReply src _ _ _ dev => (dev, 0x43, 2, src, broadcast)
  | CReportEnd src dev => (dev, 0x44, 2, src, broadcast)
  end.

(* what follows the header *)
Definition payload_of (c : ci_call) : list Z :=
  match c with
  | CMessage _ _ _ _ => []
  | CDiscoveryInquiryV1 _ i c m => identity_wire i ++ le7 1 c ++ le7 4 m
  | CDiscoveryInquiry _ i c m o => identity_wire i ++ le7 1 c ++ le7 4 m ++ le7 1 o
  | CDiscoveryReplyV1 _ _ i c m => identity_wire i ++ le7 1 c ++ le7 4 m
  | CDiscoveryReply _ _ i c m o f => identity_wire i ++ le7 1 c ++ le7 4 m ++ le7 1 o ++ le7 1 f
  | CEndpointInquiry _ _ st => le7 1 st
  | CEndpointReply _ _ st d => le7 1 st ++ le7 2 (size d) ++ d
  | CAck _ _ _ t c s d0 d1 d2 d3 d4 m => [t; c; s; d0; d1; d2; d3; d4] ++ le7 2 (size m) ++ m
  | CNak _ _ _ t c s d0 d1 d2 d3 d4 m => [t; c; s; d0; d1; d2; d3; d4] ++ le7 2 (size m) ++ m
  | CNakV1 _ _ _ => []
  | CInvalidateMuid _ t => le7 4 t
  | CProfileInquiry _ _ _ => []
  | CProfileInquiryReply _ _ e d _ => profiles_wire e ++ profiles_wire d
  | CProfileOn _ _ p d => profile_bytes p ++ le7 2 (pd_channels d)
  | CProfileOff _ _ p _ => profile_bytes p ++ le7 2 0
  | CProfileEnabled _ _ p d => profile_bytes p ++ le7 2 (pd_channels d)
  | CProfileDisabled _ _ p d => profile_bytes p ++ le7 2 (pd_channels d)
  | CProfileAdded _ _ p _ => profile_bytes p
  | CProfileRemoved _ _ p _ => profile_bytes p
  | CDetailsInquiry _ _ p t _ => profile_bytes p ++ le7 1 t
  | CDetailsReply _ _ p t d _ => profile_bytes p ++ le7 1 t ++ le7 2 (size d) ++ d
  | CSpecificData _ _ p d _ => profile_bytes p ++ le7 4 (size d) ++ d
  | CPECapabilitiesInquiry _ _ m _ => [m; 0; 0]
  | CPECapabilitiesReply _ _ m _ => [m; 0; 0]
  | CPropertyData _ _ _ h n t c r _ =>
      let header := match h with Some l => l | None => [] end in
      let chunk := match c with Some l => l | None => [] end in
      le7 1 r ++ le7 2 (size header) ++ header ++ le7 2 n ++ le7 2 t ++ le7 2 (size chunk) ++ chunk
  | CProcessCapabilitiesInquiry _ _ _ => []
  | CProcessCapabilitiesReply _ _ f _ => [f]
  | CReportInquiry _ _ a b c d _ => [a; b; 0; c; d]
  | CReportReply _ a b c _ => [a; 0; b; c]
  | CReportEnd _ _ => []
  end.

Definition wire_of (c : ci_call) : sysex :=
  let '(dev, subtype, version, src, dst) := header_of c in
  ci_wire dev subtype version src dst (payload_of c).

(* ---- the arguments ----------------------------------------------------------------------------- *)

(* arguments of type uint8_t that are written unchanged *)
Definition raw_bytes (c : ci_call) : list Z :=
  match c with
  | CMessage st _ _ dev => [st; dev]
  | CDiscoveryInquiryV1 _ _ _ _ | CDiscoveryInquiry _ _ _ _ _ | CDiscoveryReplyV1 _ _ _ _ _
  | CDiscoveryReply _ _ _ _ _ _ _ | CEndpointInquiry _ _ _ | CInvalidateMuid _ _ => []
  | CEndpointReply _ _ _ d => d
  | CAck _ _ dev t c s d0 d1 d2 d3 d4 m | CNak _ _ dev t c s d0 d1 d2 d3 d4 m =>
      [dev; t; c; s; d0; d1; d2; d3; d4] ++ m
  | CNakV1 _ _ dev | CProfileInquiry _ _ dev | CProcessCapabilitiesInquiry _ _ dev | CReportEnd _ dev
  | CProfileInquiryReply _ _ _ _ dev => [dev]
  | CProfileOn _ _ p d | CProfileOff _ _ p d | CProfileEnabled _ _ p d | CProfileDisabled _ _ p d =>
      pd_scope d :: profile_bytes p
  | CProfileAdded _ _ p dev | CProfileRemoved _ _ p dev | CDetailsInquiry _ _ p _ dev => dev :: profile_bytes p
  | CDetailsReply _ _ p _ d dev | CSpecificData _ _ p d dev => dev :: profile_bytes p ++ d
  | CPECapabilitiesInquiry _ _ m dev | CPECapabilitiesReply _ _ m dev => [m; dev]
  | CPropertyData st _ _ h _ _ c _ dev =>
      [st; dev] ++ match h with Some l => l | None => [] end ++ match c with Some l => l | None => [] end
  | CProcessCapabilitiesReply _ _ f dev => [f; dev]
  | CReportInquiry _ _ a b c d dev => [a; b; c; d; dev]
  | CReportReply _ a b c dev => [a; b; c; dev]
  end.

(* arguments that are written as numbers of 7, 14 and 28 bits *)
Definition numbers7 (c : ci_call) : list Z :=
  match c with
  | CDiscoveryInquiryV1 _ _ c _ | CDiscoveryReplyV1 _ _ _ c _ => [c]
  | CDiscoveryInquiry _ _ c _ o => [c; o]
  | CDiscoveryReply _ _ _ c _ o f => [c; o; f]
  | CEndpointInquiry _ _ st | CEndpointReply _ _ st _ => [st]
  | CProfileInquiryReply _ _ e d _ => concat (map profile_bytes (e ++ d))
  | CDetailsInquiry _ _ _ t _ | CDetailsReply _ _ _ t _ _ => [t]
  | CPropertyData _ _ _ _ _ _ _ r _ => [r]
  | _ => []
  end.
Definition numbers14 (c : ci_call) : list Z :=
  match c with
  | CProfileOn _ _ _ d | CProfileEnabled _ _ _ d | CProfileDisabled _ _ _ d => [pd_channels d]
  | CPropertyData _ _ _ _ n t _ _ _ => [n; t]
  | _ => []
  end.
Definition numbers28 (c : ci_call) : list Z :=
  match c with
  | CDiscoveryInquiryV1 _ _ _ m | CDiscoveryInquiry _ _ _ m _ | CDiscoveryReplyV1 _ _ _ _ m
  | CDiscoveryReply _ _ _ _ m _ _ => [m]
  | CInvalidateMuid _ t => [t]
  | _ => []
  end.
(* source and destination *)
Definition muids (c : ci_call) : list Z :=
  match c with
  | CMessage _ src dst _ | CDiscoveryReplyV1 src dst _ _ _ | CDiscoveryReply src dst _ _ _ _ _
  | CEndpointInquiry src dst _ | CEndpointReply src dst _ _
  | CAck src dst _ _ _ _ _ _ _ _ _ _ | CNak src dst _ _ _ _ _ _ _ _ _ _ | CNakV1 src dst _
  | CProfileInquiry src dst _ | CProfileInquiryReply src dst _ _ _
  | CProfileOn src dst _ _ | CProfileOff src dst _ _ | CProfileEnabled src dst _ _ | CProfileDisabled src dst _ _
  | CProfileAdded src dst _ _ | CProfileRemoved src dst _ _ | CDetailsInquiry src dst _ _ _
  | CDetailsReply src dst _ _ _ _ | CSpecificData src dst _ _ _
  | CPECapabilitiesInquiry src dst _ _ | CPECapabilitiesReply src dst _ _ | CPropertyData _ src dst _ _ _ _ _ _
  | CProcessCapabilitiesInquiry src dst _ | CProcessCapabilitiesReply src dst _ _
  | CReportInquiry src dst _ _ _ _ _ => [src; dst]
  | CDiscoveryInquiryV1 src _ _ _ | CDiscoveryInquiry src _ _ _ _ | CInvalidateMuid src _
  | CReportReply src _ _ _ _ | CReportEnd src _ => [src]
  end.
Definition identity_of (c : ci_call) : option device_identity :=
  match c with
  | CDiscoveryInquiryV1 _ i _ _ | CDiscoveryInquiry _ i _ _ _ | CDiscoveryReplyV1 _ _ i _ _
  | CDiscoveryReply _ _ i _ _ _ _ => Some i
  | _ => None
  end.
(* sizes that are written as numbers of 14 bits *)
Definition sizes14 (c : ci_call) : list Z :=
  match c with
  | CEndpointReply _ _ _ d | CDetailsReply _ _ _ _ d _ => [size d]
  | CAck _ _ _ _ _ _ _ _ _ _ _ m | CNak _ _ _ _ _ _ _ _ _ _ _ m => [size m]
  | CProfileInquiryReply _ _ e d _ => [size e; size d]
  | CPropertyData _ _ _ h _ _ c _ _ =>
      [size match h with Some l => l | None => [] end; size match c with Some l => l | None => [] end]
  | _ => []
  end.
Definition sizes28 (c : ci_call) : list Z :=
  match c with
  | CSpecificData _ _ _ d _ => [size d]
  | _ => []
  end.
(* chunks are numbered from 1 to the number of chunks; 0 chunks mean that their number is
   not known; a message without a body may have chunk number 0 *)
Definition chunk_numbering (c : ci_call) : Prop :=
  match c with
  | CPropertyData _ _ _ _ n t c _ _ => (t <> 0 \/ c = None) /\ (n = 0 \/ t <= n)
  | _ => True
  end.

(* the code that constructs the message exists for these property exchange messages *)
Definition proper_subtype (c : ci_call) : Prop :=
  match c with
  | CPropertyData st _ _ _ _ _ _ _ _ => In st [0x34; 0x35; 0x36; 0x37; 0x38; 0x39; 0x3F]
  | _ => True
  end.

(* the number of profiles is passed on as uint16_t *)
Definition profile_counts (c : ci_call) : Prop :=
  match c with
  | CProfileInquiryReply _ _ e d _ => size e < 65536 /\ size d < 65536
  | _ => True
  end.

(* all arguments are values of their C++ type *)
Definition typed (c : ci_call) : Prop :=
  Forall is_u8 (raw_bytes c ++ numbers7 c) /\ Forall is_u16 (numbers14 c) /\
  Forall is_u32 (numbers28 c ++ muids c) /\
  match identity_of c with
  | Some i => is_u32 (di_manufacturer i) /\ is_u16 (di_family i) /\ is_u16 (di_model i) /\ is_u32 (di_revision i)
  | None => True
  end /\ profile_counts c.

Definition identity_fits (i : device_identity) : Prop := exists m0 m1 m2, identity_in_range i m0 m1 m2.

(* all arguments are as documented *)
Definition in_range (c : ci_call) : Prop :=
  all7 (raw_bytes c ++ numbers7 c) /\ Forall is_u14 (numbers14 c) /\ Forall is_u28 (numbers28 c ++ muids c) /\
  match identity_of c with Some i => identity_fits i | None => True end /\
  Forall (fun n => n < 16384) (sizes14 c) /\ Forall (fun n => n < 268435456) (sizes28 c) /\
  chunk_numbering c /\ proper_subtype c.

(* the constructor is inline message::message, which checks all its arguments *)
Definition is_plain (c : ci_call) : bool :=
  match c with
  | CMessage _ _ _ _ | CNakV1 _ _ _ | CProfileInquiry _ _ _ | CProcessCapabilitiesInquiry _ _ _ | CReportEnd _ _ => true
  | _ => false
  end.

(* what debug builds check: not the bytes written unchanged, not source and destination, and
   sizes only after conversion to 16 or 32 bits *)
Definition checked (c : ci_call) : Prop :=
  (is_plain c = true -> all7 (raw_bytes c) /\ Forall is_u28 (muids c)) /\
  all7 (numbers7 c) /\ Forall is_u14 (numbers14 c) /\ Forall is_u28 (numbers28 c) /\
  match identity_of c with Some i => identity_fits i | None => True end /\
  Forall (fun n => n mod 65536 < 16384) (sizes14 c) /\
  Forall (fun n => n mod 4294967296 < 268435456) (sizes28 c) /\
  chunk_numbering c.

(* ---- reading ----------------------------------------------------------------------------------- *)

(* the header of a property exchange message may only be in its first chunk *)
Definition header_in_first_chunk (c : ci_call) : Prop :=
  match c with
  | CPropertyData _ _ _ (Some (_ :: _)) _ t _ _ _ => t <= 1
  | _ => True
  end.

(* the kinds of views that can be made of the message *)
Definition kinds_of (c : ci_call) : list kind :=
  match c with
  | CMessage st _ _ _ => if st =? 0x20 then [KProfileInquiry] else []
  | CDiscoveryInquiryV1 _ _ _ _ | CDiscoveryInquiry _ _ _ _ _ => [KDiscoveryInquiry]
  | CDiscoveryReplyV1 _ _ _ _ _ | CDiscoveryReply _ _ _ _ _ _ _ => [KDiscoveryReply]
  | CEndpointInquiry _ _ _ => [KEndpointInquiry]
  | CEndpointReply _ _ _ _ => [KEndpointReply]
  | CAck _ _ _ _ _ _ _ _ _ _ _ _ => [KAck]
  | CNak _ _ _ _ _ _ _ _ _ _ _ _ => [KNak]
  | CNakV1 _ _ _ => []
  | CInvalidateMuid _ _ => [KInvalidateMuid]
  | CProfileInquiry _ _ _ => [KProfileInquiry]
  | CProfileInquiryReply _ _ _ _ _ => [KProfileInquiryReply]
  | CProfileOn _ _ _ _ | CProfileOff _ _ _ _ | CProfileEnabled _ _ _ _ | CProfileDisabled _ _ _ _ =>
      [KProfileId; KProfileDestination]
  | CProfileAdded _ _ _ _ | CProfileRemoved _ _ _ _ => [KProfileId]
  | CDetailsInquiry _ _ _ _ _ => [KDetailsInquiry]
  | CDetailsReply _ _ _ _ _ _ => [KDetailsReply]
  | CSpecificData _ _ _ _ _ => [KSpecificData]
  | CPECapabilitiesInquiry _ _ _ _ | CPECapabilitiesReply _ _ _ _ => [KPECapabilities]
  | CPropertyData st _ _ _ _ _ _ _ _ =>
      [KPropertyData;
       if st <=? 0x35 then KGetProperty else if st <=? 0x37 then KSetProperty
       else if st <=? 0x39 then KSubscription else KNotify]
  | CProcessCapabilitiesInquiry _ _ _ => []
  | CProcessCapabilitiesReply _ _ _ _ => [KProcessCapabilities]
  | CReportInquiry _ _ _ _ _ _ _ => [KReportInquiry]
  | CReportReply _ _ _ _ _ => [KReportReply]
  | CReportEnd _ _ => []
  end.

(* what the accessors of these views return, besides the common ones *)
Definition fields_of (dbg : bool) (c : ci_call) (s : sysex) : Prop :=
  let identity i categories max_size path :=
    discovery_identity s = Ok i /\ discovery_categories s = Ok categories /\
    discovery_maximum_message_size s = Ok max_size /\ discovery_output_path_id s = Ok path in
  let nack t code sdata details m :=
    nack_transaction s = Ok t /\ nack_status_code s = Ok code /\ nack_status_data s = Ok sdata /\
    nack_details s = Ok details /\ nack_message_length s = Ok (size m) /\ nack_message s = Ok m in
  let profile p scope channels :=
    view_profile s = Ok p /\ view_num_channels s = Ok channels /\ view_destination s = Ok (mkDest scope channels) in
  let capabilities m :=
    maximum_number_of_requests s = Ok m /\ pe_version_major s = Ok 0 /\ pe_version_minor s = Ok 0 in
  match c with
  | CDiscoveryInquiryV1 _ i c m => identity i c m 0
  | CDiscoveryInquiry _ i c m o => identity i c m o
  | CDiscoveryReplyV1 _ _ i c m => identity i c m 0 /\ discovery_function_block s = Ok 0x7F
  | CDiscoveryReply _ _ i c m o f => identity i c m o /\ discovery_function_block s = Ok f
  | CEndpointInquiry _ _ st => endpoint_inquiry_status s = Ok st
  | CEndpointReply _ _ st d =>
      endpoint_reply_status s = Ok st /\ information_data_length s = Ok (size d) /\ information_data s = Ok d
  | CAck _ _ _ t c a d0 d1 d2 d3 d4 m | CNak _ _ _ t c a d0 d1 d2 d3 d4 m => nack t c a [d0; d1; d2; d3; d4] m
  | CInvalidateMuid _ t => target_muid s = Ok t
  | CProfileInquiryReply _ _ e d _ =>
      num_enabled_profiles s = Ok (size e) /\ num_disabled_profiles s = Ok (size d) /\
      has_enabled_profiles s = Ok (negb (size e =? 0)) /\ has_disabled_profiles s = Ok (negb (size d =? 0)) /\
      enabled_profiles dbg s = Ok e /\ disabled_profiles dbg s = Ok d
  | CProfileOn _ _ p d | CProfileEnabled _ _ p d | CProfileDisabled _ _ p d => profile p (pd_scope d) (pd_channels d)
  | CProfileOff _ _ p d => profile p (pd_scope d) 0
  | CProfileAdded _ _ p _ | CProfileRemoved _ _ p _ => view_profile s = Ok p
  | CDetailsInquiry _ _ p t _ => view_profile s = Ok p /\ details_inquiry_target s = Ok t
  | CDetailsReply _ _ p t d _ =>
      view_profile s = Ok p /\ details_reply_target s = Ok t /\
      target_data_length s = Ok (size d) /\ target_data s = Ok d
  | CSpecificData _ _ p d _ =>
      view_profile s = Ok p /\ specific_data_size s = Ok (size d) /\ specific_data s = Ok d
  | CPECapabilitiesInquiry _ _ m _ | CPECapabilitiesReply _ _ m _ => capabilities m
  | CPropertyData _ _ _ h n t c r _ =>
      let header := match h with Some l => l | None => [] end in
      let chunk := match c with Some l => l | None => [] end in
      request_id s = Ok r /\ header_size s = Ok (size header) /\ header_data s = Ok header /\
      number_of_chunks s = Ok n /\ number_of_this_chunk s = Ok t /\
      chunk_size s = Ok (size chunk) /\ chunk_data s = Ok chunk
  | CProcessCapabilitiesReply _ _ f _ => supported_features s = Ok f
  | CReportInquiry _ _ a b c d _ =>
      report_inquiry_data_control s = Ok a /\ report_inquiry_system s = Ok b /\
      report_inquiry_controller s = Ok c /\ report_inquiry_note s = Ok d
  | CReportReply _ a b c _ =>
      report_reply_system s = Ok a /\ report_reply_controller s = Ok b /\ report_reply_note s = Ok c
  | CMessage _ _ _ _ | CNakV1 _ _ _ | CProfileInquiry _ _ _ | CProcessCapabilitiesInquiry _ _ _ | CReportEnd _ _ => True
  end.

(* the groups of the MIDI-CI specification *)
Definition is_profile_call (c : ci_call) : bool :=
  match c with
  | CProfileInquiry _ _ _ | CProfileInquiryReply _ _ _ _ _ | CProfileOn _ _ _ _ | CProfileOff _ _ _ _
  | CProfileEnabled _ _ _ _ | CProfileDisabled _ _ _ _ | CProfileAdded _ _ _ _ | CProfileRemoved _ _ _ _
  | CDetailsInquiry _ _ _ _ _ | CDetailsReply _ _ _ _ _ _ | CSpecificData _ _ _ _ _ => true
  | _ => false
  end.
Definition is_property_call (c : ci_call) : bool :=
  match c with
  | CPECapabilitiesInquiry _ _ _ _ | CPECapabilitiesReply _ _ _ _ | CPropertyData _ _ _ _ _ _ _ _ _ => true
  | _ => false
  end.
Definition is_process_call (c : ci_call) : bool :=
  match c with
  | CProcessCapabilitiesInquiry _ _ _ | CProcessCapabilitiesReply _ _ _ _
  | CReportInquiry _ _ _ _ _ _ _ | CReportReply _ _ _ _ _ | CReportEnd _ _ => true
  | _ => false
  end.
Definition is_management_call (c : ci_call) : bool :=
  negb (is_profile_call c) && negb (is_property_call c) && negb (is_process_call c).

(* the header fields are as passed *)
Definition header_fields (c : ci_call) (s : sysex) : Prop :=
  let '(dev, subtype, version, src, dst) := header_of c in common_fields s dev subtype version src dst.

(* the call succeeds, the message has the specified bytes and reading it gives the
   arguments back *)
Definition round_trip (dbg : bool) (c : ci_call) : Prop :=
  exists s, build dbg c = Ok s /\ s = wire_of c /\ header_fields c s /\ accepted_as s (kinds_of c) /\ fields_of dbg c s.
