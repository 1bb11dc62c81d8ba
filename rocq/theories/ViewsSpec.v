(* What is expected of views whose messages are edited. *)
From Coq Require Import ZArith List Bool.
From Verif Require Import Base Sysex UniversalSysex SysexSpec CapInq CapSpec CapCalls Views.
Import ListNotations.
Local Open Scope Z_scope.

Definition empty_desk : desk := mkDesk [] [].

(* edits with values of the types of the parameters, add_data with at least one byte *)
Definition proper_edit (e : edit) : Prop :=
  match e with
  | SetDevice i => is_u7 i
  | SetSource m | SetDestination m => is_u28 m
  | Add7 v => is_u7 v
  | AddData d => d <> []
  | Add14 v => is_u14 v
  | Add28 v => is_u28 v
  | Add32 v => is_u32 v
  | AddIdentity d => (exists a b c, is_u7 a /\ is_u7 b /\ is_u7 c /\ di_manufacturer d = a * 65536 + b * 256 + c) /\
      is_u14 (di_family d) /\ is_u14 (di_model d) /\ is_u28 (di_revision d)
  | Insert _ => True
  end.
(* anything may be received; no message is replaced by another one *)
Definition proper_op (o : desk_op) : Prop :=
  match o with
  | Edit _ e => proper_edit e
  | Receive _ | View _ _ | Look _ => True
  | Assign _ _ => False
  end.

(* what a view tells after an edit of its message: the device and the ids are those of the message now, everything
   else is as before *)
Definition at_device (i : Z) (f : field) : field :=
  match f with FDestination d => FDestination (mkDest i (pd_channels d)) | _ => f end.
Definition after_edit (r : reading) (e : edit) : reading :=
  match e with
  | SetDevice i => mkReading i (rd_type r) (rd_subtype r) (rd_version r) (rd_source r) (rd_destination r)
                     (map (at_device i) (rd_fields r))
  | SetSource m => mkReading (rd_device r) (rd_type r) (rd_subtype r) (rd_version r) m (rd_destination r) (rd_fields r)
  | SetDestination m => mkReading (rd_device r) (rd_type r) (rd_subtype r) (rd_version r) (rd_source r) m (rd_fields r)
  | _ => r
  end.
(* the edits of message i *)
Fixpoint edits_of (i : nat) (l : list desk_op) : list edit :=
  match l with
  | [] => []
  | Edit j e :: l' => if Nat.eqb j i then e :: edits_of i l' else edits_of i l'
  | _ :: l' => edits_of i l'
  end.

(* what a view of a message tells that was made with the arguments of c: the arguments *)
Definition arguments_shown (c : ci_call) (k : kind) : list field :=
  match c with
  | CDiscoveryInquiryV1 _ i c m => [FIdentity i; FNumber c; FNumber m; FNumber 0]
  | CDiscoveryInquiry _ i c m o => [FIdentity i; FNumber c; FNumber m; FNumber o]
  | CDiscoveryReplyV1 _ _ i c m => [FIdentity i; FNumber c; FNumber m; FNumber 0; FNumber 0x7F]
  | CDiscoveryReply _ _ i c m o f => [FIdentity i; FNumber c; FNumber m; FNumber o; FNumber f]
  | CEndpointInquiry _ _ st => [FNumber st]
  | CEndpointReply _ _ st d => [FNumber st; FNumber (size d); FBytes d]
  | CAck _ _ _ t c a d0 d1 d2 d3 d4 m | CNak _ _ _ t c a d0 d1 d2 d3 d4 m =>
      [FNumber t; FNumber c; FNumber a; FBytes [d0; d1; d2; d3; d4]; FNumber (size m); FBytes m]
  | CInvalidateMuid _ t => [FNumber t]
  | CProfileInquiryReply _ _ e d _ =>
      [FFlag (negb (size e =? 0)); FFlag (negb (size d =? 0)); FNumber (size e); FNumber (size d); FProfiles e; FProfiles d]
  | CProfileOn _ _ p d | CProfileEnabled _ _ p d | CProfileDisabled _ _ p d =>
      match k with KProfileId => [FProfile p] | _ => [FProfile p; FNumber (pd_channels d); FDestination d] end
  | CProfileOff _ _ p d =>
      match k with KProfileId => [FProfile p] | _ => [FProfile p; FNumber 0; FDestination (mkDest (pd_scope d) 0)] end
  | CProfileAdded _ _ p _ | CProfileRemoved _ _ p _ => [FProfile p]
  | CDetailsInquiry _ _ p t _ => [FProfile p; FNumber t]
  | CDetailsReply _ _ p t d _ => [FProfile p; FNumber t; FNumber (size d); FBytes d]
  | CSpecificData _ _ p d _ => [FProfile p; FNumber (size d); FBytes d]
  | CPECapabilitiesInquiry _ _ m _ | CPECapabilitiesReply _ _ m _ => [FNumber m; FNumber 0; FNumber 0]
  | CPropertyData _ _ _ h n t c r _ =>
      let header := match h with Some l => l | None => [] end in
      let chunk := match c with Some l => l | None => [] end in
      [FNumber r; FNumber (size header); FBytes header; FNumber n; FNumber t; FNumber (size chunk); FBytes chunk]
  | CProcessCapabilitiesReply _ _ f _ => [FNumber f]
  | CReportInquiry _ _ a b c d _ => [FNumber a; FNumber b; FNumber c; FNumber d]
  | CReportReply _ a b c _ => [FNumber a; FNumber b; FNumber c]
  | CMessage _ _ _ _ | CNakV1 _ _ _ | CProfileInquiry _ _ _ | CProcessCapabilitiesInquiry _ _ _ | CReportEnd _ _ => []
  end.
Definition reading_of (c : ci_call) (k : kind) : reading :=
  let '(dev, subtype, version, src, dst) := header_of c in
  mkReading dev 0x7E0D subtype version src dst (arguments_shown c k).
