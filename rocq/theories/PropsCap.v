(* Theorems about MIDI-CI messages. *)
From Coq Require Import ZArith List Bool Lia.
From Verif Require Import Base Packet Messages Sysex ByteStream StreamSpec StreamProofs Collector CollectSpec CollectCalls Bits
  UniversalSysex SysexSpec CapInq CapSpec CapCalls CapProofs CapWire CapMake CapRead.
Import ListNotations.
Local Open Scope Z_scope.

(* proves [in_range] of constants *)
Ltac closed_range :=
  unfold in_range; cbn; unfold all7, is_u7, is_u14, is_u28;
  repeat match goal with
    | |- _ /\ _ => split
    | |- True => exact I
    | |- Forall _ _ => constructor
    | |- _ \/ False => left
    end; try lia.

(* ---- C49 -------------------------------------------------------------------------------- *)

(* Discovery, endpoint, ACK, NAK, invalidate MUID: the call succeeds in every build, the
   message has the specified bytes, exactly the views of its kind accept it, and they return
   the arguments. *)
Theorem C49_management_messages : forall dbg c,
  is_management_call c = true -> in_range c -> round_trip dbg c.
Proof. intros dbg c M R. apply round_trip_ok; trivial. destruct c; try discriminate M; exact I. Qed.
Print Assumptions C49_management_messages.
Example C49_ex : exists s, is_management_call (CDiscoveryReply 1 0x0FFFFFFF (mkDevId 0x002109 0x1730 0x23 0x01020304) 0x1C 0x200000 5 6) = true /\
  in_range (CDiscoveryReply 1 0x0FFFFFFF (mkDevId 0x002109 0x1730 0x23 0x01020304) 0x1C 0x200000 5 6) /\
  build true (CDiscoveryReply 1 0x0FFFFFFF (mkDevId 0x002109 0x1730 0x23 0x01020304) 0x1C 0x200000 5 6) = Ok s /\
  s = mkSx 0x7E0000 [0x7F; 0x0D; 0x71; 2; 1; 0; 0; 0; 0x7F; 0x7F; 0x7F; 0x7F; 0; 0x21; 9; 0x30; 0x2E; 0x23; 0; 4; 6; 8; 8; 0x1C; 0; 0; 0; 1; 5; 6].
Proof.
  eexists. split; [reflexivity|]. split; [|split; reflexivity].
  unfold in_range. cbn. unfold is_u14, is_u28. rewrite !Forall_cons_iff.
  repeat apply conj; trivial; try constructor; try lia.
  - unfold is_u7; lia.
  - repeat constructor; unfold is_u7; lia.
  - exists 0, 0x21, 9. unfold identity_in_range, is_u7, is_u14, is_u28. cbn. lia.
Qed.

(* a NAK that answers a message goes from its destination to its source and names its kind *)
Theorem C49_nak_reply : forall dbg dev st ver src dst body code status d0 d1 d2 d3 d4 msg,
  is_u28 src -> is_u28 dst -> all7 (dev :: st :: code :: status :: d0 :: d1 :: d2 :: d3 :: d4 :: msg) -> size msg < 16384 ->
  exists s, make_nak_reply dbg (ci_wire dev st ver src dst body) code status [d0; d1; d2; d3; d4] msg = Ok s /\
    common_fields s dev 0x7F 2 dst src /\ accepted_as s [KNak] /\
    nack_transaction s = Ok st /\ nack_status_code s = Ok code /\ nack_status_data s = Ok status /\
    nack_details s = Ok [d0; d1; d2; d3; d4] /\ nack_message s = Ok msg.
Proof.
  intros dbg dev st ver src dst body code status d0 d1 d2 d3 d4 msg S D A L.
  assert (R : in_range (CNak dst src dev st code status d0 d1 d2 d3 d4 msg)).
  { unfold in_range. cbn [raw_bytes numbers7 numbers14 numbers28 muids identity_of sizes14 sizes28 chunk_numbering proper_subtype].
    rewrite app_nil_r. cbn [app].
    refine (conj A (conj _ (conj _ (conj I (conj _ (conj _ (conj I I))))))); repeat (constructor; trivial). }
  destruct (round_trip_ok dbg _ R I) as (s & B & _ & H & K & F). exists s. rewrite nak_reply_eq by trivial.
  cbn [fields_of] in F. split; [exact B|]. split; [exact H|]. split; [exact K|]. tauto.
Qed.
Print Assumptions C49_nak_reply.
Theorem C49_nak_reply_v1 : forall dbg dev st ver src dst body,
  is_u28 src -> is_u28 dst -> is_u7 dev ->
  exists s, make_nak_reply_v1 dbg (ci_wire dev st ver src dst body) = Ok s /\
    common_fields s dev 0x7F 1 dst src /\ accepted_as s [].
Proof.
  intros dbg dev st ver src dst body S D A.
  assert (R : in_range (CNakV1 dst src dev)).
  { unfold in_range. cbn [raw_bytes numbers7 numbers14 numbers28 muids identity_of sizes14 sizes28 chunk_numbering proper_subtype app].
    refine (conj _ (conj _ (conj _ (conj I (conj _ (conj _ (conj I I))))))); repeat (constructor; trivial). }
  destruct (round_trip_ok dbg _ R I) as (s & B & _ & H & K & F). exists s. rewrite nak_reply_v1_eq by trivial. auto.
Qed.
Print Assumptions C49_nak_reply_v1.
Example C49_ex_reply : make_nak_reply true (ci_wire 3 0x34 2 0x1234567 0x7654321 [1; 2]) 0x11 0x22 [1; 2; 3; 4; 5] [0x4E; 0x6F] =
  Ok (mkSx 0x7E0000 ([3; 0x0D; 0x7F; 2; 0x21; 0x06; 0x15; 0x3B; 0x67; 0x0A; 0x0D; 0x09; 0x34; 0x11; 0x22; 1; 2; 3; 4; 5; 2; 0; 0x4E; 0x6F])).
Proof. reflexivity. Qed.

(* set_source_muid and set_destination_muid replace one id and leave the rest *)
Theorem C49_set_muid : forall dbg dev st ver src dst body m,
  is_u28 src -> is_u28 dst -> is_u28 m ->
  exists s1 s2, set_source_muid dbg (ci_wire dev st ver src dst body) m = Ok s1 /\
    set_destination_muid dbg (ci_wire dev st ver src dst body) m = Ok s2 /\
    common_fields s1 dev st ver m dst /\ common_fields s2 dev st ver src m /\
    skipn 12 (sx_data s1) = body /\ skipn 12 (sx_data s2) = body.
Proof.
  intros dbg dev st ver src dst body m A B C. unfold is_u28 in C.
  exists (ci_wire dev st ver m dst body), (ci_wire dev st ver src m body).
  rewrite set_source_ok, set_destination_ok by lia. repeat apply conj; try reflexivity; now apply wire_common.
Qed.
Print Assumptions C49_set_muid.
Theorem C49_set_muid_limits : forall dev st ver src dst body m, 268435456 <= m ->
  set_source_muid true (ci_wire dev st ver src dst body) m = Fault AssertFail /\
  set_destination_muid true (ci_wire dev st ver src dst body) m = Fault AssertFail.
Proof.
  intros. unfold set_source_muid, set_destination_muid, check, assert_.
  replace (m <=? 268435455) with false by (symmetry; apply Z.leb_gt; lia). auto.
Qed.
Print Assumptions C49_set_muid_limits.

(* 65536 bytes of endpoint information pass all assertions; the message announces none *)
Theorem C49_length_refuted : exists src dst st data s,
  is_u28 src /\ is_u28 dst /\ is_u7 st /\ all7 data /\
  build true (CEndpointReply src dst st data) = Ok s /\ endpoint_reply_validate s = Ok true /\
  information_data s = Ok [] /\ data <> [].
Proof.
  set (n := Z.to_nat 65536).
  assert (E : size (repeat 1 n) = 65536) by (unfold size; rewrite repeat_length; apply Z2Nat.id; lia).
  assert (A : all7 (repeat 1 n)) by (apply Forall_forall; intros x I; apply repeat_spec in I; subst; unfold is_u7; lia).
  destruct (endpoint_wraps 1 2 0 (repeat 1 n)) as (s & B & V & _ & D); trivial; try (unfold is_u28, is_u7; lia).
  exists 1, 2, 0, (repeat 1 n), s. unfold is_u28, is_u7. repeat apply conj; trivial; try lia.
  intros X. rewrite X in E. discriminate E.
Qed.
Print Assumptions C49_length_refuted.

(* ---- C50 -------------------------------------------------------------------------------- *)

Theorem C50_profile_messages : forall dbg c,
  is_profile_call c = true -> in_range c -> round_trip dbg c.
Proof. intros dbg c M R. apply round_trip_ok; trivial. destruct c; try discriminate M; exact I. Qed.
Print Assumptions C50_profile_messages.
Example C50_ex : exists s,
  in_range (CProfileInquiryReply 1 2 [mkProf 0x7E 1 2 3 4; mkProf 5 6 7 8 9] [mkProf 9 8 7 6 5] 3) /\
  build true (CProfileInquiryReply 1 2 [mkProf 0x7E 1 2 3 4; mkProf 5 6 7 8 9] [mkProf 9 8 7 6 5] 3) = Ok s /\
  s = mkSx 0x7E0000 [3; 0x0D; 0x21; 2; 1; 0; 0; 0; 2; 0; 0; 0; 2; 0; 0x7E; 1; 2; 3; 4; 5; 6; 7; 8; 9; 1; 0; 9; 8; 7; 6; 5].
Proof. eexists. split; [closed_range|split; reflexivity]. Qed.
Example C50_ex_off : exists s, build true (CProfileOff 1 2 (mkProf 0x7E 1 2 3 4) (mkDest 5 16)) = Ok s /\
  view_destination s = Ok (mkDest 5 0).
Proof. eexists. split; reflexivity. Qed.

(* the overload for vectors *)
Theorem C50_specific_data_vector : forall dbg src dst p data dev,
  size data < 65536 ->
  make_profile_specific_data_vector dbg src dst p data dev = build dbg (CSpecificData src dst p data dev).
Proof. exact vector_eq. Qed.
Print Assumptions C50_specific_data_vector.
(* ... silently drops the data of a larger vector, although it fits into 28 bits *)
Theorem C50_specific_data_vector_refuted : exists src dst p data dev s,
  in_range (CSpecificData src dst p data dev) /\
  make_profile_specific_data_vector true src dst p data dev = Ok s /\ specific_data s = Ok [] /\ data <> [].
Proof.
  set (n := Z.to_nat 65536).
  assert (E : size (repeat 1 n) = 65536) by (unfold size; rewrite repeat_length; apply Z2Nat.id; lia).
  assert (A : all7 (repeat 1 n)) by (apply Forall_forall; intros x I; apply repeat_spec in I; subst; unfold is_u7; lia).
  exists 1, 2, (mkProf 1 2 3 4 5), (repeat 1 n), 3. eexists.
  split; [|split; [rewrite vector_wraps by exact E; reflexivity|split; [reflexivity|]]].
  - unfold in_range.
    cbn [raw_bytes numbers7 numbers14 numbers28 muids identity_of sizes14 sizes28 chunk_numbering proper_subtype].
    refine (conj _ (conj _ (conj _ (conj I (conj _ (conj _ (conj I I))))))).
    + rewrite app_nil_r. unfold all7 in *. clearbody n. cbn -[repeat]. rewrite !Forall_cons_iff.
      unfold is_u7. repeat apply conj; trivial; lia.
    + constructor.
    + cbn [app]. rewrite !Forall_cons_iff. unfold is_u28. repeat apply conj; try lia. constructor.
    + constructor.
    + rewrite E. repeat constructor.
  - intros X. rewrite X in E. discriminate E.
Qed.
Print Assumptions C50_specific_data_vector_refuted.
(* 65536 profiles make a message without profiles, in all builds *)
Theorem C50_too_many_profiles_refuted : forall dbg src dst e d dev, size e = 65536 ->
  build dbg (CProfileInquiryReply src dst e d dev) = build dbg (CProfileInquiryReply src dst [] d dev).
Proof. exact profiles_wrap. Qed.
Print Assumptions C50_too_many_profiles_refuted.

(* profiles and destinations compare equal if and only if they are the same on the wire *)
Theorem C50_equality :
  (forall p q, profile_id_eq p q = true <-> profile_bytes p = profile_bytes q) /\
  (forall d e, profile_destination_eq d e = true <-> pd_scope d = pd_scope e /\ pd_channels d = pd_channels e).
Proof.
  split.
  - intros p q. unfold profile_id_eq, profile_bytes. rewrite !andb_true_iff, !Z.eqb_eq. split.
    + intros ((((-> & ->) & ->) & ->) & ->). reflexivity.
    + intros E. injection E as -> -> -> -> ->. repeat split.
  - intros d e. unfold profile_destination_eq. rewrite andb_true_iff, !Z.eqb_eq. reflexivity.
Qed.
Print Assumptions C50_equality.
Example C50_equality_ex : profile_id_eq (mkProf 1 2 3 4 5) (mkProf 1 2 3 4 6) = false /\
  profile_destination_eq (mkDest 3 1) (mkDest 3 1) = true.
Proof. split; reflexivity. Qed.

(* ---- C51 -------------------------------------------------------------------------------- *)

Theorem C51_property_messages : forall dbg c,
  is_property_call c = true -> in_range c -> header_in_first_chunk c -> round_trip dbg c.
Proof. intros. now apply round_trip_ok. Qed.
Print Assumptions C51_property_messages.
Example C51_ex : exists s,
  in_range (CPropertyData 0x36 1 2 (Some [0x7B; 0x7D]) 3 1 (Some [5; 6; 7]) 9 4) /\
  header_in_first_chunk (CPropertyData 0x36 1 2 (Some [0x7B; 0x7D]) 3 1 (Some [5; 6; 7]) 9 4) /\
  build true (CPropertyData 0x36 1 2 (Some [0x7B; 0x7D]) 3 1 (Some [5; 6; 7]) 9 4) = Ok s /\
  s = mkSx 0x7E0000 [4; 0x0D; 0x36; 2; 1; 0; 0; 0; 2; 0; 0; 0; 9; 2; 0; 0x7B; 0x7D; 3; 0; 1; 0; 3; 0; 5; 6; 7].
Proof. eexists. split; [closed_range|split; [cbn; lia|split; reflexivity]]. Qed.

(* a header in a later chunk can be made, but no view accepts the message *)
Theorem C51_late_header_not_accepted : forall dbg st src dst h n t c r dev,
  in_range (CPropertyData st src dst (Some h) n t c r dev) -> h <> [] -> 1 < t ->
  exists s, build dbg (CPropertyData st src dst (Some h) n t c r dev) = Ok s /\ accepted_as s [].
Proof. exact late_header. Qed.
Print Assumptions C51_late_header_not_accepted.
Example C51_ex_late : exists s,
  in_range (CPropertyData 0x36 1 2 (Some [0x7B; 0x7D]) 3 2 (Some [5; 6; 7]) 9 4) /\
  build true (CPropertyData 0x36 1 2 (Some [0x7B; 0x7D]) 3 2 (Some [5; 6; 7]) 9 4) = Ok s /\
  property_data_validate s = Ok false.
Proof. eexists. split; [closed_range|split; reflexivity]. Qed.

(* ---- C61 -------------------------------------------------------------------------------- *)

Theorem C61_process_inquiry_messages : forall dbg c,
  is_process_call c = true -> in_range c -> round_trip dbg c.
Proof. intros dbg c M R. apply round_trip_ok; trivial. destruct c; try discriminate M; exact I. Qed.
Print Assumptions C61_process_inquiry_messages.
Example C61_ex : exists s, in_range (CReportInquiry 1 2 0x7F 3 4 5 6) /\
  build true (CReportInquiry 1 2 0x7F 3 4 5 6) = Ok s /\
  s = mkSx 0x7E0000 [6; 0x0D; 0x42; 2; 1; 0; 0; 0; 2; 0; 0; 0; 0x7F; 3; 0; 4; 5].
Proof. eexists. split; [closed_range|split; reflexivity]. Qed.

(* ---- C52 -------------------------------------------------------------------------------- *)

(* whatever bytes the message has, no accessor of an accepted view faults *)
Theorem C52_accepted_views_are_safe : forall dbg k s,
  validate_of k s = Ok true -> common_accessors s /\ accessors dbg k s.
Proof. exact accepted_safe. Qed.
Print Assumptions C52_accepted_views_are_safe.
Example C52_ex : exists s, validate_of KPropertyData s = Ok true /\ all7 (sx_data s) /\ 26 < size (sx_data s).
Proof.
  exists (mkSx 0x7E0000 [4; 0x0D; 0x36; 2; 1; 0; 0; 0; 2; 0; 0; 0; 9; 2; 0; 0x7B; 0x7D; 3; 0; 1; 0; 3; 0; 5; 6; 7; 77]).
  repeat apply conj; [reflexivity| |reflexivity]. repeat constructor; unfold is_u7; lia.
Qed.
(* the lists of profiles are checked once more: in a debug build nothing is read outside of
   any message, validated or not *)
Theorem C52_profile_lists_are_checked : forall s,
  (enabled_profiles true s = Fault AssertFail \/ exists l, enabled_profiles true s = Ok l) /\
  (disabled_profiles true s = Fault AssertFail \/ exists l, disabled_profiles true s = Ok l).
Proof. exact profiles_checked. Qed.
Print Assumptions C52_profile_lists_are_checked.
Example C52_profile_lists_ex :
  enabled_profiles true (mkSx 0x7E0000 [1; 0x0D; 0x21; 2; 0; 0; 0; 0; 0; 0; 0; 0; 1; 0; 5; 6; 7; 8]) = Fault AssertFail /\
  enabled_profiles true (mkSx 0x7E0000 [1; 0x0D; 0x21; 2; 0; 0; 0; 0; 0; 0; 0; 0; 1; 0; 5; 6; 7; 8; 9]) = Ok [mkProf 5 6 7 8 9].
Proof. split; reflexivity. Qed.
(* without validation they do *)
Theorem C52_unvalidated_refuted : exists s, is_capability_inquiry_message s = Ok true /\
  information_data s = Fault OutOfBounds /\ view_profile s = Fault OutOfBounds.
Proof. exists (mkSx 0x7E0000 [1; 0x0D; 0x73; 2; 0; 0; 0; 0; 0; 0; 0; 0; 0; 5; 0; 9]). repeat split. Qed.
Print Assumptions C52_unvalidated_refuted.

(* ---- C53 -------------------------------------------------------------------------------- *)

Theorem C53_validation_is_safe : forall k s, reads_version_first k = false ->
  exists b, validate_of k s = Ok b.
Proof. exact validate_total. Qed.
Print Assumptions C53_validation_is_safe.
Theorem C53_discovery_faults_exactly : forall k s, reads_version_first k = true ->
  ((exists f, validate_of k s = Fault f) <-> sx_id s = 0x7E0000 /\ size (sx_data s) < 4).
Proof. exact discovery_fault. Qed.
Print Assumptions C53_discovery_faults_exactly.
Theorem C53_discovery_refuted : exists s, is_universal_sysex_message s = true /\
  discovery_inquiry_validate s = Fault OutOfBounds /\ discovery_reply_validate s = Fault OutOfBounds.
Proof. exists (mkSx 0x7E0000 [0x7F; 0x0D; 0x70]). repeat split. Qed.
Print Assumptions C53_discovery_refuted.
(* the accepted messages are exactly the well-formed ones *)
Theorem C53_accepts_exactly_well_formed : forall k s, all7 (sx_data s) ->
  (validate_of k s = Ok true <-> well_formed k s).
Proof. exact validate_iff. Qed.
Print Assumptions C53_accepts_exactly_well_formed.
Example C53_ex : exists s, all7 (sx_data s) /\ validate_of KEndpointReply s = Ok true.
Proof.
  exists (mkSx 0x7E0000 [0x7F; 0x0D; 0x73; 2; 1; 2; 3; 4; 5; 6; 7; 8; 0; 2; 0; 9; 9]).
  split; [|reflexivity]. repeat constructor; unfold is_u7; lia.
Qed.
(* as<view>(): a view exactly of accepted messages, without assertion failures *)
Theorem C53_as_view : forall dbg k s b, Forall is_u8 (sx_data s) -> validate_of k s = Ok b ->
  as_view dbg (validate_of k) s = Ok (if b then Some s else None).
Proof. exact as_view_ok. Qed.
Print Assumptions C53_as_view.

(* ---- C54 -------------------------------------------------------------------------------- *)

(* The message is 7-bit if and only if the bytes that the constructor copies unchanged are. *)
Theorem C54_seven_bit : forall dbg c s,
  typed c -> build dbg c = Ok s -> (all7 (sx_data s) <-> all7 (raw_bytes c)).
Proof.
  intros dbg c s T B. destruct dbg.
  - assert (E : s = wire_of c).
    { destruct (checked_dec c) as [X|X]; [rewrite build_eq in B by auto; congruence|rewrite build_fault in B by auto; discriminate]. }
    subst s. apply seven_bit.
  - rewrite build_eq in B by (trivial; discriminate). replace s with (wire_of c) by congruence. apply seven_bit.
Qed.
Print Assumptions C54_seven_bit.
(* so messages made from arguments in range arrive unchanged *)
Theorem C54_transport : forall dbg m a c g,
  in_range m -> std_alloc a -> reached7 a 0 c -> c7_has_cb c = true -> 0 <= g < 16 ->
  exists s ps q c1 c2, build dbg m = Ok s /\ sysex7_is_valid s = true /\
    send_sysex7 s g = Ok (ps ++ [q]) /\
    c7_calls a c (map KFeed ps) = Ok (c1, []) /\ c7_feed a c1 q = Ok (c2, [s]).
Proof.
  intros dbg m a c g R A C H G.
  assert (B : build dbg m = Ok (wire_of m)).
  { apply build_eq; [now apply in_range_typed|intros _; now apply in_range_checked]. }
  assert (S : all7 (sx_data (wire_of m))).
  { apply seven_bit. destruct R as (R & _). unfold all7 in R. apply Forall_app in R. apply R. }
  assert (I : sx_id (wire_of m) = 0x7E0000).
  { unfold wire_of. destruct (header_of m) as [[[[? ?] ?] ?] ?]. reflexivity. }
  destruct (wire_of m) as [id d] eqn:E. cbn [sx_id sx_data] in *. subst id.
  destruct (roundtrip7 a c 0x7E0000 d g) as (ps & q & c1 & c2 & P1 & P2 & P3); trivial; try lia.
  { left. exists 0x7E. lia. }
  exists (mkSx 0x7E0000 d), ps, q, c1, c2. repeat apply conj; trivial.
  unfold sysex7_is_valid. cbn [sx_id]. change (Z.land 0x7E0000 0xFF808080 =? 0) with true. cbn [andb].
  unfold is_7bit. cbn [sx_data]. apply forallb_forall. intros x X. unfold all7 in S. rewrite Forall_forall in S.
  specialize (S x X). unfold is_u7 in S. apply Z.eqb_eq. rewrite land_128. dlia.
Qed.
Print Assumptions C54_transport.
Definition plain_alloc : allocator := mkAlloc Z.max (fun _ => 0).
Example C54_ex : exists c, in_range (CNakV1 1 2 3) /\ std_alloc plain_alloc /\ reached7 plain_alloc 0 c /\ c7_has_cb c = true.
Proof.
  eexists. refine (conj _ (conj _ (conj _ _))).
  - closed_range.
  - repeat split; cbn; intros; lia.
  - exists true, [], []. split; [constructor|reflexivity].
  - reflexivity.
Qed.
(* also as MIDI 1 bytes, through a byte stream parser in any reachable state *)
Theorem C54_midi1_bytes : forall dbg m g st g',
  in_range m -> reached g true st -> 0 <= g' < 16 ->
  exists s ps bs st', build dbg m = Ok s /\ send_sysex7 s g' = Ok ps /\
    stream_of_packets ps = Ok bs /\ feed_all st bs = Ok (st', [ESysex s]).
Proof.
  intros dbg m g st g' R C G. rewrite ci_built by trivial.
  destruct (ci_wire_shape m R) as (d & E & D & _). rewrite E.
  destruct (roundtrip_bytes g st 0x7E0000 d C) with (g' := g') as (ps & bs & st' & P1 & P2 & P3); trivial; try lia.
  { left. exists 0x7E. lia. }
  exists (mkSx 0x7E0000 d), ps, bs, st'. auto.
Qed.
Print Assumptions C54_midi1_bytes.
Example C54_midi1_bytes_ex : exists st, in_range (CNakV1 1 2 3) /\ reached 5 true st.
Proof.
  eexists. split; [closed_range|]. exists 5, true, [], [].
  refine (conj _ (conj (Forall_nil _) (conj eq_refl (conj _ _)))); [lia|reflexivity..].
Qed.
(* As 8-bit SysEx, messages with a payload arrive unchanged ... *)
Theorem C54_sysex8 : forall dbg m a c i g,
  in_range m -> payload_of m <> [] ->
  std_alloc a -> reached8 a 0 c -> c8_has_cb c = true -> is_u8 i -> 0 <= g < 16 ->
  exists s ps q c1 c2, build dbg m = Ok s /\ send_sysex8 s i g = Ok (ps ++ [q]) /\
    c8_calls a c (map KFeed ps) = Ok (c1, []) /\ c8_feed a c1 q = Ok (c2, [(s, i)]).
Proof.
  intros dbg m a c i g R N A C H I G. rewrite ci_built by trivial.
  destruct (ci_wire_shape m R) as (d & E & D & L). rewrite E.
  destruct (roundtrip8 a c 0x7E0000 d i g) as (ps & q & c1 & c2 & P); trivial; try (now apply StreamProofs.Forall_u7_u8).
  - left. exists 0x7E. lia.
  - intros M. unfold miscounted8 in M. assert (size (payload_of m) = 0) by lia.
    apply N. destruct (payload_of m); [reflexivity|cbn [size length] in *; unfold size in *; cbn [length] in *; lia].
  - exists (mkSx 0x7E0000 d), ps, q, c1, c2. tauto.
Qed.
Print Assumptions C54_sysex8.
(* ... and those without lose the last byte of the destination *)
Theorem C54_sysex8_refuted : forall dbg m a c i g,
  in_range m -> payload_of m = [] ->
  std_alloc a -> reached8 a 0 c -> c8_has_cb c = true -> is_u8 i -> 0 <= g < 16 ->
  exists s ps c', build dbg m = Ok s /\ send_sysex8 s i g = Ok ps /\
    c8_calls a c (map KFeed ps) = Ok (c', [(mkSx (sx_id s) (firstn 11 (sx_data s)), i)]) /\
    size (sx_data s) = 12.
Proof.
  intros dbg m a c i g R N A C H I G. rewrite ci_built by trivial.
  destruct (ci_wire_shape m R) as (d & E & D & L). rewrite E. rewrite N in L. change (size (@nil Z)) with 0 in L.
  destruct (roundtrip8_miscounted a c 0x7E0000 d i g) as (ps & c' & P & _ & Q); trivial; try (now apply StreamProofs.Forall_u7_u8).
  - left. exists 0x7E. lia.
  - unfold miscounted8. right. left. lia.
  - exists (mkSx 0x7E0000 d), ps, c'. cbn [sx_id sx_data]. change ((0x7E0000 =? 0) || (65536 <=? 0x7E0000)) with true in Q.
    repeat apply conj; trivial.
Qed.
Print Assumptions C54_sysex8_refuted.
Example C54_sysex8_ex : exists c, in_range (CProfileInquiry 1 2 3) /\ payload_of (CProfileInquiry 1 2 3) = [] /\
  in_range (CInvalidateMuid 1 2) /\ payload_of (CInvalidateMuid 1 2) <> [] /\
  std_alloc plain_alloc /\ reached8 plain_alloc 0 c /\ c8_has_cb c = true.
Proof.
  eexists. refine (conj _ (conj _ (conj _ (conj _ (conj _ (conj _ _)))))).
  - closed_range.
  - reflexivity.
  - closed_range.
  - discriminate.
  - repeat split; cbn; intros; lia.
  - exists true, [], []. split; [constructor|reflexivity].
  - reflexivity.
Qed.
(* Even debug builds copy an out-of-range device id, profile byte, text or payload byte *)
Theorem C54_unchecked_refuted : exists c1 c2 c3 c4 s1 s2 s3 s4,
  c1 = CProfileAdded 1 2 (mkProf 1 2 3 4 5) 0x80 /\ build true c1 = Ok s1 /\ is_7bit s1 = false /\
  c2 = CProfileAdded 1 2 (mkProf 1 2 3 4 0x85) 3 /\ build true c2 = Ok s2 /\ is_7bit s2 = false /\
  c3 = CNak 1 2 3 4 5 6 1 2 3 4 5 [0xC3; 0xA4] /\ build true c3 = Ok s3 /\ is_7bit s3 = false /\
  c4 = CPropertyData 0x35 1 2 None 1 1 (Some [0xFF]) 1 2 /\ build true c4 = Ok s4 /\ is_7bit s4 = false.
Proof. do 8 eexists. repeat split; reflexivity. Qed.
Print Assumptions C54_unchecked_refuted.

(* ---- C62 -------------------------------------------------------------------------------- *)

(* what every constructor writes, and when it asserts *)
Theorem C62_release_builds : forall c, typed c -> build false c = Ok (wire_of c).
Proof. intros c T. apply build_eq; trivial. discriminate. Qed.
Print Assumptions C62_release_builds.
Theorem C62_debug_builds : forall c, typed c ->
  (checked c -> build true c = Ok (wire_of c)) /\ (~ checked c -> build true c = Fault AssertFail).
Proof. intros c T. split; intros; [apply build_eq|apply build_fault]; auto. Qed.
Print Assumptions C62_debug_builds.
Theorem C62_documented_arguments_are_checked : forall c, in_range c -> typed c /\ checked c.
Proof. intros c R. split; [now apply in_range_typed|now apply in_range_checked]. Qed.
Print Assumptions C62_documented_arguments_are_checked.
Example C62_ex : exists c, typed c /\ ~ checked c /\ build true c = Fault AssertFail /\
  build false c = Ok (mkSx 0x7E0000 [0x7F; 0x0D; 0x72; 2; 1; 0; 0; 0; 2; 0; 0; 0; 1]).
Proof.
  exists (CEndpointInquiry 1 2 0x81). repeat apply conj.
  - constructor; [unfold is_u8; lia|constructor].
  - constructor.
  - cbn. repeat constructor; unfold is_u32; lia.
  - exact I.
  - exact I.
  - intros (_ & C & _). apply Forall_inv in C. unfold is_u7 in C. lia.
  - reflexivity.
  - reflexivity.
Qed.
