(* What a received MIDI-CI message says: for each kind of message its contents, the bytes that stand for
   them, and what the accessors of the view have to return. *)
From Coq Require Import ZArith List Bool.
From Verif Require Import Base Sysex UniversalSysex SysexSpec CapInq CapSpec.
Import ListNotations.
Local Open Scope Z_scope.

Inductive report : Type :=
| RDiscovery (m0 m1 m2 family model revision categories max_size path function_block : Z)
| RStatus (status : Z)
| RInformation (status : Z) (data : list Z)
| RNack (transaction code status_data : Z) (d0 d1 d2 d3 d4 : Z) (text : list Z)
| RTarget (muid : Z)
| RNothing
| RProfiles (enabled disabled : list profile_id)
| RProfile (p : profile_id)
| RDestination (p : profile_id) (channels : Z)
| RDetails (p : profile_id) (target : Z)
| RDetailsData (p : profile_id) (target : Z) (data : list Z)
| RSpecific (p : profile_id) (data : list Z)
| RCapabilities (max_requests major minor : Z)
| RProperty (request : Z) (header : list Z) (num_chunks this_chunk : Z) (chunk : list Z)
| RFeatures (features : Z)
| RReportInquiry (data_control system reserved controller note : Z)
| RReportReply (system reserved controller note : Z).

Definition profile_list (l : list profile_id) : list Z := le7 2 (size l) ++ concat (map profile_bytes l).
(* a block of bytes after its size *)
Definition block14 (l : list Z) : list Z := le7 2 (size l) ++ l.
Definition block28 (l : list Z) : list Z := le7 4 (size l) ++ l.

(* the bytes after the header; messages of version 1 have no path, function block and version fields *)
Definition layout (k : kind) (version : Z) (r : report) : option (list Z) :=
  let since_2 l := if 2 <=? version then l else [] in
  match k, r with
  | KDiscoveryInquiry, RDiscovery m0 m1 m2 f m v c x o _ =>
      Some (identity_bytes m0 m1 m2 f m v ++ [c] ++ le7 4 x ++ since_2 [o])
  | KDiscoveryReply, RDiscovery m0 m1 m2 f m v c x o b =>
      Some (identity_bytes m0 m1 m2 f m v ++ [c] ++ le7 4 x ++ since_2 [o; b])
  | KEndpointInquiry, RStatus st => Some [st]
  | KEndpointReply, RInformation st d => Some ([st] ++ block14 d)
  | KAck, RNack t c s d0 d1 d2 d3 d4 m => Some ([t; c; s; d0; d1; d2; d3; d4] ++ block14 m)
  | KNak, RNack t c s d0 d1 d2 d3 d4 m => if 2 <=? version then Some ([t; c; s; d0; d1; d2; d3; d4] ++ block14 m) else None
  | KInvalidateMuid, RTarget t => Some (le7 4 t)
  | KProfileInquiry, RNothing => Some []
  | KProfileInquiryReply, RProfiles e d => Some (profile_list e ++ profile_list d)
  | KProfileId, RProfile p => Some (profile_bytes p)
  | KProfileDestination, RDestination p n => Some (profile_bytes p ++ le7 2 n)
  | KDetailsInquiry, RDetails p t => Some (profile_bytes p ++ [t])
  | KDetailsReply, RDetailsData p t d => Some (profile_bytes p ++ [t] ++ block14 d)
  | KSpecificData, RSpecific p d => Some (profile_bytes p ++ block28 d)
  | KPECapabilities, RCapabilities m a b => Some ([m] ++ since_2 [a; b])
  | (KPropertyData | KGetProperty | KSetProperty | KSubscription | KNotify), RProperty r h n t c =>
      Some ([r] ++ block14 h ++ le7 2 n ++ le7 2 t ++ block14 c)
  | KProcessCapabilities, RFeatures f => Some [f]
  | KReportInquiry, RReportInquiry a b x c d => Some [a; b; x; c; d]
  | KReportReply, RReportReply a x b c => Some [a; x; b; c]
  | _, _ => None
  end.

(* contents are values of their types *)
Definition report_ok (r : report) : Prop :=
  match r with
  | RDiscovery m0 m1 m2 f m v c x o b =>
      all7 [m0; m1; m2; c; o; b] /\ is_u14 f /\ is_u14 m /\ is_u28 v /\ is_u28 x
  | RStatus s => is_u7 s
  | RInformation s d => all7 (s :: d) /\ size d < 16384
  | RNack t c s d0 d1 d2 d3 d4 m => all7 ([t; c; s; d0; d1; d2; d3; d4] ++ m) /\ size m < 16384
  | RTarget t => is_u28 t
  | RNothing => True
  | RProfiles e d => Forall profile7 (e ++ d) /\ size e < 16384 /\ size d < 16384
  | RProfile p => profile7 p
  | RDestination p n => profile7 p /\ is_u14 n
  | RDetails p t => profile7 p /\ is_u7 t
  | RDetailsData p t d => profile7 p /\ all7 (t :: d) /\ size d < 16384
  | RSpecific p d => profile7 p /\ all7 d /\ size d < 268435456
  | RCapabilities m a b => all7 [m; a; b]
  | RProperty r h n t c => all7 ([r] ++ h ++ c) /\ size h < 16384 /\ size c < 16384 /\ is_u14 n /\ is_u14 t /\
      (n = 0 \/ t <= n) /\ (h = [] \/ t <= 1) /\ (c = [] \/ 1 <= t)
  | RFeatures f => is_u7 f
  | RReportInquiry a b x c d => all7 [a; b; x; c; d]
  | RReportReply a x b c => all7 [a; x; b; c]
  end.

(* the message is of kind k, says r and may have further bytes after it *)
Definition says (k : kind) (dev version src dst : Z) (r : report) (rest : list Z) (s : sysex) : Prop :=
  exists subtype body, In subtype (subtypes k) /\ layout k version r = Some body /\
    s = ci_wire dev subtype version src dst (body ++ rest) /\
    is_u7 dev /\ is_u7 version /\ is_u28 src /\ is_u28 dst /\ report_ok r /\ all7 rest.

(* what the accessors of the view return *)
Definition returns (dbg : bool) (k : kind) (dev version : Z) (r : report) (s : sysex) : Prop :=
  match k, r with
  | KDiscoveryInquiry, RDiscovery m0 m1 m2 f m v c x o _ =>
      discovery_identity s = Ok (mkDevId (m0 * 65536 + m1 * 256 + m2) f m v) /\ discovery_categories s = Ok c /\
      discovery_maximum_message_size s = Ok x /\ discovery_output_path_id s = Ok (if 2 <=? version then o else 0)
  | KDiscoveryReply, RDiscovery m0 m1 m2 f m v c x o b =>
      discovery_identity s = Ok (mkDevId (m0 * 65536 + m1 * 256 + m2) f m v) /\ discovery_categories s = Ok c /\
      discovery_maximum_message_size s = Ok x /\ discovery_output_path_id s = Ok (if 2 <=? version then o else 0) /\
      discovery_function_block s = Ok (if 2 <=? version then b else 0x7F)
  | KEndpointInquiry, RStatus st => endpoint_inquiry_status s = Ok st
  | KEndpointReply, RInformation st d =>
      endpoint_reply_status s = Ok st /\ information_data_length s = Ok (size d) /\ information_data s = Ok d
  | (KAck | KNak), RNack t c a d0 d1 d2 d3 d4 m =>
      nack_transaction s = Ok t /\ nack_status_code s = Ok c /\ nack_status_data s = Ok a /\
      nack_details s = Ok [d0; d1; d2; d3; d4] /\ nack_message_length s = Ok (size m) /\ nack_message s = Ok m
  | KInvalidateMuid, RTarget t => target_muid s = Ok t
  | KProfileInquiry, RNothing => True
  | KProfileInquiryReply, RProfiles e d =>
      num_enabled_profiles s = Ok (size e) /\ num_disabled_profiles s = Ok (size d) /\
      has_enabled_profiles s = Ok (negb (size e =? 0)) /\ has_disabled_profiles s = Ok (negb (size d =? 0)) /\
      enabled_profiles dbg s = Ok e /\ disabled_profiles dbg s = Ok d
  | KProfileId, RProfile p => view_profile s = Ok p
  | KProfileDestination, RDestination p n =>
      view_profile s = Ok p /\ view_num_channels s = Ok n /\ view_destination s = Ok (mkDest dev n)
  | KDetailsInquiry, RDetails p t => view_profile s = Ok p /\ details_inquiry_target s = Ok t
  | KDetailsReply, RDetailsData p t d =>
      view_profile s = Ok p /\ details_reply_target s = Ok t /\ target_data_length s = Ok (size d) /\ target_data s = Ok d
  | KSpecificData, RSpecific p d =>
      view_profile s = Ok p /\ specific_data_size s = Ok (size d) /\ specific_data s = Ok d
  | KPECapabilities, RCapabilities m a b =>
      maximum_number_of_requests s = Ok m /\ pe_version_major s = Ok (if 2 <=? version then a else 0) /\
      pe_version_minor s = Ok (if 2 <=? version then b else 0)
  | (KPropertyData | KGetProperty | KSetProperty | KSubscription | KNotify), RProperty r h n t c =>
      request_id s = Ok r /\ header_size s = Ok (size h) /\ header_data s = Ok h /\
      number_of_chunks s = Ok n /\ number_of_this_chunk s = Ok t /\ chunk_size s = Ok (size c) /\ chunk_data s = Ok c
  | KProcessCapabilities, RFeatures f => supported_features s = Ok f
  | KReportInquiry, RReportInquiry a b _ c d =>
      report_inquiry_data_control s = Ok a /\ report_inquiry_system s = Ok b /\
      report_inquiry_controller s = Ok c /\ report_inquiry_note s = Ok d
  | KReportReply, RReportReply a _ b c =>
      report_reply_system s = Ok a /\ report_reply_controller s = Ok b /\ report_reply_note s = Ok c
  | _, _ => False
  end.
