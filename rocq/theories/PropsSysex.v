(* Properties C47, C48 and C60 *)
From Coq Require Import ZArith List Bool.
From Verif Require Import Base Sysex UniversalSysex SysexSpec SysexProofs SysexReading.
Import ListNotations.
Local Open Scope Z_scope.

(* ---- C47 -------------------------------------------------------------------- *)

(* [le7 n v] is the specification: n 7-bit digits whose value is v *)
Theorem C47_digits : forall n v,
  length (le7 n v) = n /\ all7 (le7 n v) /\ (0 <= v < 128 ^ Z.of_nat n -> val7 (le7 n v) = v).
Proof. exact le7_facts. Qed.
Print Assumptions C47_digits.

(* in debug and release builds alike *)
Theorem C47_round_trip : forall dbg s v,
  (is_u7 v -> exists s', add_uint7 dbg s v = Ok s' /\ s' = mkSx (sx_id s) (sx_data s ++ le7 1 v) /\
     vec_at (sx_data s') (length (sx_data s)) = Ok v) /\
  (is_u14 v -> exists s', add_uint14 dbg s v = Ok s' /\ s' = mkSx (sx_id s) (sx_data s ++ le7 2 v) /\
     make_uint14 s' (length (sx_data s)) = Ok v) /\
  (is_u28 v -> exists s', add_uint28 dbg s v = Ok s' /\ s' = mkSx (sx_id s) (sx_data s ++ le7 4 v) /\
     make_uint28 s' (length (sx_data s)) = Ok v) /\
  (is_u32 v -> exists s', add_uint32 s v = Ok s' /\ s' = mkSx (sx_id s) (sx_data s ++ le7 5 v) /\
     make_uint32 s' (length (sx_data s)) = Ok v).
Proof. exact fields_ok. Qed.
Print Assumptions C47_round_trip.

(* whatever precedes and follows the field *)
Theorem C47_read_anywhere : forall id pre v post,
  (is_u14 v -> make_uint14 (mkSx id (pre ++ le7 2 v ++ post)) (length pre) = Ok v) /\
  (is_u28 v -> make_uint28 (mkSx id (pre ++ le7 4 v ++ post)) (length pre) = Ok v) /\
  (is_u32 v -> make_uint32 (mkSx id (pre ++ le7 5 v ++ post)) (length pre) = Ok v).
Proof. exact fields_anywhere. Qed.
Print Assumptions C47_read_anywhere.

Theorem C47_device_identity : forall dbg s m0 m1 m2 f m r post,
  is_u7 m0 -> is_u7 m1 -> is_u7 m2 -> is_u14 f -> is_u14 m -> is_u28 r ->
  let i := mkDevId (m0 * 65536 + m1 * 256 + m2) f m r in
  exists s', add_device_identity dbg s i = Ok s' /\
    s' = mkSx (sx_id s) (sx_data s ++ identity_bytes m0 m1 m2 f m r) /\
    make_device_identity (mkSx (sx_id s') (sx_data s' ++ post)) (length (sx_data s)) = Ok i.
Proof. exact identity_ok. Qed.
Print Assumptions C47_device_identity.

(* values that do not fit stop a debug build and lose their upper bits in a release build *)
Theorem C47_too_large_debug : forall s v,
  (127 < v -> add_uint7 true s v = Fault AssertFail) /\
  (16383 < v -> add_uint14 true s v = Fault AssertFail) /\
  (268435455 < v -> add_uint28 true s v = Fault AssertFail).
Proof. exact debug_limits. Qed.
Print Assumptions C47_too_large_debug.

Theorem C47_too_large_release : forall s v, 0 <= v ->
  (exists s', add_uint7 false s v = Ok s' /\ s' = mkSx (sx_id s) (sx_data s ++ le7 1 v) /\
     vec_at (sx_data s') (length (sx_data s)) = Ok (v mod 128)) /\
  (exists s', add_uint14 false s v = Ok s' /\ s' = mkSx (sx_id s) (sx_data s ++ le7 2 v) /\
     make_uint14 s' (length (sx_data s)) = Ok (v mod 16384)) /\
  (exists s', add_uint28 false s v = Ok s' /\ s' = mkSx (sx_id s) (sx_data s ++ le7 4 v) /\
     make_uint28 s' (length (sx_data s)) = Ok (v mod 268435456)).
Proof. exact release_writes. Qed.
Print Assumptions C47_too_large_release.

(* reading any message of 7-bit bytes, whoever made it: the digits at the position, or an assertion
   failure if they are not all in the message *)
Theorem C47_reading : forall s n, all7 (sx_data s) ->
  let field k := firstn k (skipn n (sx_data s)) in let inside k := (n + k <=? length (sx_data s))%nat in
  make_uint14 s n = (if inside 2%nat then Ok (val7 (field 2%nat)) else Fault AssertFail) /\
  make_uint28 s n = (if inside 4%nat then Ok (val7 (field 4%nat)) else Fault AssertFail) /\
  make_uint32 s n = (if inside 5%nat then Ok (val7 (field 5%nat) mod 4294967296) else Fault AssertFail) /\
  make_device_identity s n = (if inside 11%nat
    then Ok (mkDevId (nth 0 (field 11%nat) 0 * 65536 + nth 1 (field 11%nat) 0 * 256 + nth 2 (field 11%nat) 0)
               (val7 (firstn 2 (skipn 3 (field 11%nat)))) (val7 (firstn 2 (skipn 5 (field 11%nat))))
               (val7 (firstn 4 (skipn 7 (field 11%nat)))))
    else Fault AssertFail).
Proof. exact reading. Qed.
Print Assumptions C47_reading.

Example C47_ex :
  add_uint32 (mkSx 0x002109 [1; 2]) 0xFEDCBA98 =
    Ok (mkSx 0x002109 [1; 2; 0x18; 0x75; 0x72; 0x76; 0x0F]) /\
  make_uint32 (mkSx 0x002109 [1; 2; 0x18; 0x75; 0x72; 0x76; 0x0F; 3]) 2 = Ok 0xFEDCBA98 /\
  add_device_identity true (mkSx 0x7E0000 [9]) (mkDevId 0x002109 0x1730 49 1000) =
    Ok (mkSx 0x7E0000 [9; 0; 0x21; 9; 0x30; 0x2E; 0x31; 0; 0x68; 7; 0; 0]) /\
  add_uint14 true (mkSx 1 []) 16384 = Fault AssertFail /\
  add_uint14 false (mkSx 1 []) 16385 = Ok (mkSx 1 [1; 0]).
Proof. repeat split. Qed.

(* ---- C48 -------------------------------------------------------------------- *)

(* manufacturers with a one byte id *)
Theorem C48_one_byte_manufacturer : forall dbg b f m r dev,
  1 <= b < 128 -> is_u14 f -> is_u14 m -> is_u28 r -> is_u8 dev ->
  exists s, identity_reply dbg (b * 65536) f m r dev = Ok s /\
    s = mkSx 0x7E0000 ([dev; 6; 2; b] ++ le7 2 f ++ le7 2 m ++ le7 4 r) /\
    size (sx_data s) = 12 /\
    (is_u7 dev -> all7 (sx_data s)) /\
    is_identity_reply s = Ok true /\ as_identity_reply_view dbg s = Ok (Some s) /\
    is_identity_request s = Ok false /\
    view_device_id s = Ok dev /\
    reply_identity s = Ok (mkDevId (b * 65536) f m r).
Proof. exact reply_short_ok. Qed.
Print Assumptions C48_one_byte_manufacturer.

(* manufacturers with a three byte id *)
Theorem C48_three_byte_manufacturer : forall dbg b c f m r dev,
  is_u7 b -> is_u7 c -> is_u14 f -> is_u14 m -> is_u28 r -> is_u8 dev ->
  exists s, identity_reply dbg (b * 256 + c) f m r dev = Ok s /\
    s = mkSx 0x7E0000 ([dev; 6; 2; 0; b; c] ++ le7 2 f ++ le7 2 m ++ le7 4 r) /\
    size (sx_data s) = 14 /\
    (is_u7 dev -> all7 (sx_data s)) /\
    is_identity_reply s = Ok true /\ as_identity_reply_view dbg s = Ok (Some s) /\
    is_identity_request s = Ok false /\
    view_device_id s = Ok dev /\
    reply_identity s = Ok (mkDevId (b * 256 + c) f m r).
Proof. exact reply_long_ok. Qed.
Print Assumptions C48_three_byte_manufacturer.

(* a reply made from an identity alone is addressed to everyone *)
Theorem C48_reply_of_identity : forall dbg i,
  (exists b, 1 <= b < 128 /\ di_manufacturer i = b * 65536) \/
  (exists b c, is_u7 b /\ is_u7 c /\ di_manufacturer i = b * 256 + c) ->
  is_u14 (di_family i) -> is_u14 (di_model i) -> is_u28 (di_revision i) ->
  exists s, make_identity_reply dbg i = Ok s /\
    all7 (sx_data s) /\ is_identity_reply s = Ok true /\
    view_device_id s = Ok 127 /\ reply_identity s = Ok i.
Proof. exact reply_of_identity_ok. Qed.
Print Assumptions C48_reply_of_identity.

(* accepting or rejecting a message, and reading an accepted one, never leaves it *)
Theorem C48_validation_total : forall s, exists r, is_identity_reply s = Ok r.
Proof. exact is_reply_total. Qed.
Print Assumptions C48_validation_total.

Theorem C48_accepted_exactly : forall s, wf_sysex s ->
  is_identity_reply s = Ok true <->
  sx_id s = 0x7E0000 /\
  ((exists dev b rest, sx_data s = dev :: 6 :: 2 :: b :: rest /\ b <> 0 /\ length rest = 8%nat) \/
   (exists dev rest, sx_data s = dev :: 6 :: 2 :: rest /\ length rest = 11%nat)).
Proof. exact is_reply_iff. Qed.
Print Assumptions C48_accepted_exactly.

(* the inquiry that asks for a reply, and what counts as one *)
Theorem C48_identity_request : forall dev,
  make_identity_request dev = mkSx 0x7E0000 [dev; 6; 1] /\
  is_identity_request (make_identity_request dev) = Ok true /\
  is_identity_reply (make_identity_request dev) = Ok false.
Proof. repeat split. Qed.
Print Assumptions C48_identity_request.

Theorem C48_request_accepted_exactly : forall s, wf_sysex s ->
  (exists r, is_identity_request s = Ok r) /\
  (is_identity_request s = Ok true <->
   sx_id s = 0x7E0000 /\ exists dev rest, sx_data s = dev :: 6 :: 1 :: rest).
Proof. exact is_request_iff. Qed.
Print Assumptions C48_request_accepted_exactly.

Theorem C48_reading_is_safe : forall s, wf_sysex s -> is_identity_reply s = Ok true ->
  exists i, reply_identity s = Ok i.
Proof. exact reply_identity_safe. Qed.
Print Assumptions C48_reading_is_safe.

(* a received reply is reproduced from what the view returns *)
Theorem C48_read_then_write : forall dbg s,
  wf_sysex s -> is_identity_reply s = Ok true -> all7 (sx_data s) ->
  (size (sx_data s) = 14 -> nth_error (sx_data s) 3 = Some 0) ->
  exists dev i, view_device_id s = Ok dev /\ reply_identity s = Ok i /\
    identity_reply dbg (di_manufacturer i) (di_family i) (di_model i) (di_revision i) dev = Ok s.
Proof. exact reply_reencode. Qed.
Print Assumptions C48_read_then_write.

(* The side condition is needed: 14 bytes with a one byte id are accepted as well. *)
Theorem C48_oversized_reply_refuted : exists s i,
  is_identity_reply s = Ok true /\ all7 (sx_data s) /\ reply_identity s = Ok i /\
  identity_reply true (di_manufacturer i) (di_family i) (di_model i) (di_revision i) 0x7F <> Ok s.
Proof.
  exists (mkSx 0x7E0000 [0x7F; 6; 2; 0x42; 0; 0; 0; 0; 0; 0; 0; 0; 5; 6]), (mkDevId 0x420000 0 0 0).
  split; [reflexivity|]. split; [unfold all7; all7_tac|]. split; [reflexivity|discriminate].
Qed.
Print Assumptions C48_oversized_reply_refuted.

(* An id that is neither of the two kinds is accepted and altered, in both builds. *)
Theorem C48_mixed_manufacturer_refuted : exists m, Z.land m 0xFF808080 = 0 /\
  forall dbg, exists s i, identity_reply dbg m 0 0 0 0x7F = Ok s /\ reply_identity s = Ok i /\
    di_manufacturer i <> m.
Proof.
  exists 0x420001. split; [reflexivity|]. intros dbg.
  exists (mkSx 0x7E0000 [0x7F; 6; 2; 0x42; 0; 0; 0; 0; 0; 0; 0; 0]), (mkDevId 0x420000 0 0 0).
  split; [now destruct dbg|]. split; [reflexivity|discriminate].
Qed.
Print Assumptions C48_mixed_manufacturer_refuted.

(* The device id is written unchecked, so the result need not be 7-bit, in both builds. *)
Theorem C48_device_id_refuted : forall dbg, exists s,
  identity_reply dbg 0x420000 0 0 0 0x80 = Ok s /\ is_7bit s = false.
Proof.
  intros dbg. exists (mkSx 0x7E0000 [0x80; 6; 2; 0x42; 0; 0; 0; 0; 0; 0; 0; 0]).
  split; [now destruct dbg|reflexivity].
Qed.
Print Assumptions C48_device_id_refuted.

Example C48_ex :
  make_identity_reply true (mkDevId 0x002109 0x1730 49 1000) =
    Ok (mkSx 0x7E0000 [0x7F; 6; 2; 0; 0x21; 9; 0x30; 0x2E; 0x31; 0; 0x68; 7; 0; 0]) /\
  make_identity_reply true (mkDevId 0x420000 1 2 3) =
    Ok (mkSx 0x7E0000 [0x7F; 6; 2; 0x42; 1; 0; 2; 0; 3; 0; 0; 0]) /\
  is_identity_request (make_identity_request 0x7F) = Ok true /\
  is_identity_reply (make_identity_request 0x7F) = Ok false /\
  is_identity_reply (mkSx 0x7E0000 []) = Ok false.
Proof. repeat split. Qed.

(* ---- C60 -------------------------------------------------------------------- *)

Theorem C60_total : forall s, exists t st d,
  universal_sysex_type_of s = Ok t /\ universal_sysex_subtype_of s = Ok st /\
  universal_sysex_device_id_of s = Ok d.
Proof. exact classify_total. Qed.
Print Assumptions C60_total.

Theorem C60_universal_messages : forall dbg s dev b rest, is_u8 b ->
  s = mkSx 0x7E0000 (dev :: b :: rest) \/ s = mkSx 0x7F0000 (dev :: b :: rest) ->
  is_universal_sysex_message s = true /\ message_view dbg s = Ok s /\
  universal_sysex_type_of s = Ok (sx_id s / 256 + b) /\ view_type s = Ok (sx_id s / 256 + b) /\
  message_type s = Ok (sx_id s / 256 + b) /\
  universal_sysex_device_id_of s = Ok dev /\ view_device_id s = Ok dev /\ message_device_id s = Ok dev /\
  let st := match rest with c :: _ => c | [] => 0 end in
  universal_sysex_subtype_of s = Ok st /\ view_subtype s = Ok st /\ message_subtype s = Ok st.
Proof. exact classify_universal. Qed.
Print Assumptions C60_universal_messages.

Theorem C60_other_messages : forall s,
  (sx_id s <> 0x7E0000 /\ sx_id s <> 0x7F0000) \/ size (sx_data s) < 2 ->
  is_universal_sysex_message s = false /\ universal_sysex_type_of s = Ok 0 /\
  universal_sysex_subtype_of s = Ok 0 /\ universal_sysex_device_id_of s = Ok 255.
Proof. exact classify_other. Qed.
Print Assumptions C60_other_messages.

Theorem C60_set_device_id : forall dbg s i, is_u7 i -> sx_data s <> [] ->
  exists s', set_device_id dbg s i = Ok s' /\ sx_id s' = sx_id s /\
    message_device_id s' = Ok i /\ length (sx_data s') = length (sx_data s) /\
    forall n, n <> O -> nth_error (sx_data s') n = nth_error (sx_data s) n.
Proof. exact set_device_id_ok. Qed.
Print Assumptions C60_set_device_id.

(* the view of any SysEx as a universal one exists exactly when it is one, and then
   its accessors answer *)
Theorem C60_view : forall dbg s,
  ((sx_id s = 0x7E0000 \/ sx_id s = 0x7F0000) /\ (2 <= length (sx_data s))%nat /\
   as_universal_sysex_view dbg s = Ok (Some s) /\
   exists d t st, view_device_id s = Ok d /\ view_type s = Ok t /\ view_subtype s = Ok st) \/
  (((sx_id s <> 0x7E0000 /\ sx_id s <> 0x7F0000) \/ (length (sx_data s) < 2)%nat) /\
   as_universal_sysex_view dbg s = Ok None).
Proof. exact universal_view_ok. Qed.
Print Assumptions C60_view.

(* the data_size of a view does not count the id, the total size of the message does *)
Theorem C60_data_size : forall s, is_universal_sysex_message s = true -> view_data_size s = total_data_size s - 1 /\ 2 <= view_data_size s.
Proof. exact view_data_size_ok. Qed.
Print Assumptions C60_data_size.
Example C60_data_size_ex : is_universal_sysex_message (mkSx 0x7E0000 [0x7F; 6; 1]) = true /\ view_data_size (mkSx 0x7E0000 [0x7F; 6; 1]) = 3.
Proof. split; reflexivity. Qed.

(* messages too short for the fields: the accessors say so *)
Theorem C60_short_messages : forall id d,
  (message_device_id (mkSx id []) = Ok 255 /\ message_type (mkSx id []) = Ok 0 /\ message_subtype (mkSx id []) = Ok 0) /\
  (message_device_id (mkSx id [d]) = Ok d /\ message_type (mkSx id [d]) = Ok 0 /\ message_subtype (mkSx id [d]) = Ok 0).
Proof. repeat split. Qed.
Print Assumptions C60_short_messages.

(* a device id cannot be set where there is none; ids above 127 assert, or lose their top bit *)
Theorem C60_set_device_id_limits : forall s i,
  (sx_data s = [] -> set_device_id true s i = Fault AssertFail /\ set_device_id false s i = Fault OutOfBounds) /\
  (128 <= i < 256 -> set_device_id true s i = Fault AssertFail /\ set_device_id false s i = set_device_id false s (i - 128)).
Proof. exact set_device_id_limits. Qed.
Print Assumptions C60_set_device_id_limits.

Example C60_ex :
  universal_sysex_type_of (mkSx 0x7F0000 [0x10; 4; 1; 2; 3]) = Ok 0x7F04 /\
  universal_sysex_subtype_of (mkSx 0x7F0000 [0x10; 4; 1; 2; 3]) = Ok 1 /\
  universal_sysex_type_of (mkSx 0x002109 [0x10; 4; 1; 2; 3]) = Ok 0 /\
  set_device_id true (mkSx 0x7F0000 [0x10; 4; 1]) 3 = Ok (mkSx 0x7F0000 [3; 4; 1]).
Proof. repeat split. Qed.
