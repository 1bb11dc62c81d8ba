(* Lemmas about the functions that make MIDI-CI messages: bytes written, assertions. *)
From Coq Require Import ZArith List Bool Lia.
From Verif Require Import Base Bits Packet Messages Sysex UniversalSysex SysexSpec SysexProofs CapInq CapSpec CapProofs CapWire CapCalls.
Import ListNotations.
Local Open Scope Z_scope.
Local Open Scope res_scope.

Lemma le7_2_mod n : le7 2 (n mod 65536) = le7 2 n.
Proof. rewrite !le7_2. f_equal; [|f_equal]; dlia. Qed.
Lemma le7_4_mod n : le7 4 (n mod 4294967296) = le7 4 n.
Proof. rewrite !le7_4. f_equal; [|f_equal; [|f_equal; [|f_equal]]]; dlia. Qed.

Section Steps.
  Variables (dbg : bool) (dev st ver src dst : Z).
  Let W p := ci_wire dev st ver src dst p.

  Lemma wire_push p q : mkSx (sx_id (W p)) (sx_data (W p) ++ q) = W (p ++ q).
  Proof. unfold W. rewrite !wire_hdr. cbn [sx_id sx_data]. now rewrite app_assoc. Qed.
  Lemma w_push p q : push (W p) q = W (p ++ q).
  Proof. apply wire_push. Qed.
  Lemma w7 p v : 0 <= v -> (dbg = true -> v < 128) -> add_uint7 dbg (W p) v = Ok (W (p ++ le7 1 v)).
  Proof. intros. rewrite add7_eq by trivial. now rewrite wire_push. Qed.
  Lemma w14 p v : 0 <= v -> (dbg = true -> v < 16384) -> add_uint14 dbg (W p) v = Ok (W (p ++ le7 2 v)).
  Proof. intros. rewrite add14_eq by trivial. now rewrite wire_push. Qed.
  Lemma w28 p v : 0 <= v -> (dbg = true -> v < 268435456) -> add_uint28 dbg (W p) v = Ok (W (p ++ le7 4 v)).
  Proof. intros. rewrite add28_eq by trivial. now rewrite wire_push. Qed.
  Lemma w14_size {A} p (l : list A) : (dbg = true -> size l mod 65536 < 16384) ->
    add_uint14 dbg (W p) (u16 (size l)) = Ok (W (p ++ le7 2 (size l))).
  Proof. intros. rewrite w14; [unfold u16; now rewrite le7_2_mod| |trivial]. unfold u16. apply Z.mod_pos_bound. lia. Qed.
  Lemma w28_size {A} p (l : list A) : (dbg = true -> size l mod 4294967296 < 268435456) ->
    add_uint28 dbg (W p) (u32 (size l)) = Ok (W (p ++ le7 4 (size l))).
  Proof. intros. rewrite w28; [unfold u32; now rewrite le7_4_mod| |trivial]. unfold u32. apply Z.mod_pos_bound. lia. Qed.
  Lemma w_data p d : d <> [] -> add_data dbg (W p) d = Ok (W (p ++ d)).
  Proof.
    intros H. unfold add_data. rewrite check_true; [cbn [bind]; now rewrite w_push|].
    destruct d; [contradiction|]. rewrite size_cons. pose proof (size_pos d). apply negb_true_iff, Z.eqb_neq. lia.
  Qed.
  Lemma w_data_opt p d : (if negb (size d =? 0) then add_data dbg (W p) d else Ok (W p)) = Ok (W (p ++ d)).
  Proof.
    destruct d as [|x d]; [cbn; now rewrite app_nil_r|].
    replace (size (x :: d) =? 0) with false; [apply w_data; discriminate|].
    symmetry. apply Z.eqb_neq. rewrite size_cons. pose proof (size_pos d). lia.
  Qed.

  Lemma manu_digits v : u8 (Z.land (Z.shiftr v 16) 127) = v / 65536 mod 128 /\
    u8 (Z.land (Z.shiftr v 8) 127) = v / 256 mod 128 /\ u8 (Z.land v 127) = v mod 128.
  Proof. repeat apply conj; [apply (digit 16); lia|apply (digit 8); lia|apply digit0]. Qed.
  Lemma mask_C000 v : is_u16 v -> (Z.land v 0xC000 =? 0) = (v <=? 16383).
  Proof.
    intros H. change 0xC000 with (Z.shiftl (Z.ones 2) 14). rewrite land_field by lia. unfold is_u16 in H.
    destruct (Z.leb_spec v 16383); [apply Z.eqb_eq|apply Z.eqb_neq]; pow2_simpl; dlia.
  Qed.
  Lemma mask_F v : is_u32 v -> (Z.land v 0xF0000000 =? 0) = (v <=? 268435455).
  Proof.
    intros H. change 0xF0000000 with (Z.shiftl (Z.ones 4) 28). rewrite land_field by lia. unfold is_u32 in H.
    destruct (Z.leb_spec v 268435455); [apply Z.eqb_eq|apply Z.eqb_neq]; pow2_simpl; dlia.
  Qed.
  Lemma mask_manu v : is_u32 v -> Z.land v 0xFF808080 = 0 ->
    exists a b c, is_u7 a /\ is_u7 b /\ is_u7 c /\ v = a * 65536 + b * 256 + c.
  Proof.
    intros H E.
    replace 0xFF808080 with (Z.lor (Z.shiftl (Z.ones 9) 23) (Z.lor (Z.shiftl (Z.ones 1) 15) (Z.shiftl (Z.ones 1) 7))) in E by reflexivity.
    rewrite !Z.land_lor_distr_r in E. apply Z.lor_eq_0_iff in E. destruct E as [E1 E].
    apply Z.lor_eq_0_iff in E. destruct E as [E2 E3].
    rewrite land_field in E1, E2, E3 by lia. unfold is_u32 in H.
    change (2 ^ 23) with 8388608 in *. change (2 ^ 15) with 32768 in *. change (2 ^ 7) with 128 in *.
    change (2 ^ 9) with 512 in *. change (2 ^ 1) with 2 in *.
    exists (v / 65536), (v / 256 mod 256), (v mod 256). unfold is_u7. repeat apply conj; dlia.
  Qed.

  Lemma w_id p i : is_u32 (di_manufacturer i) -> is_u16 (di_family i) -> is_u16 (di_model i) -> is_u32 (di_revision i) ->
    (dbg = true -> identity_fits i) -> add_device_identity dbg (W p) i = Ok (W (p ++ identity_wire i)).
  Proof.
    intros A B C D F. destruct i as [m f o r]. cbn [di_manufacturer di_family di_model di_revision] in *.
    unfold is_u16, is_u32 in *.
    unfold add_device_identity. cbn [di_manufacturer di_family di_model di_revision].
    assert (K : dbg = true -> (Z.land m 0xFF808080 =? 0) = true /\ f < 16384 /\ o < 16384 /\ r < 268435456).
    { intros X. destruct (F X) as (m0 & m1 & m2 & P0 & P1 & P2 & E & Pf & Po & Pr). cbn in *. subst m.
      rewrite manu_mask by trivial. unfold is_u14, is_u28 in *. repeat apply conj; trivial; lia. }
    rewrite mask_C000, mask_C000, mask_F by trivial.
    assert (K1 : check dbg (Z.land m 0xFF808080 =? 0) = Ok tt) by (destruct dbg; [rewrite (proj1 (K eq_refl)); reflexivity|reflexivity]).
    assert (K2 : check dbg (f <=? 16383) = Ok tt) by (destruct dbg; [apply check_true, Z.leb_le; specialize (K eq_refl); lia|reflexivity]).
    assert (K3 : check dbg (o <=? 16383) = Ok tt) by (destruct dbg; [apply check_true, Z.leb_le; specialize (K eq_refl); lia|reflexivity]).
    assert (K4 : check dbg (r <=? 268435455) = Ok tt) by (destruct dbg; [apply check_true, Z.leb_le; specialize (K eq_refl); lia|reflexivity]).
    rewrite K1, K2, K3, K4. cbn [bind]. destruct (manu_digits m) as (-> & -> & ->).
    rewrite !w_push, w14 by (trivial; try lia; intros X; specialize (K X); lia). cbn [bind].
    rewrite w14 by (trivial; try lia; intros X; specialize (K X); lia). cbn [bind].
    rewrite w28 by (trivial; try lia; intros X; specialize (K X); lia).
    unfold identity_wire, identity_bytes. cbn [di_manufacturer di_family di_model di_revision]. now rewrite <- !app_assoc.
  Qed.

  Lemma w_profile p q : Forall (fun b => 0 <= b) (profile_bytes q) -> (dbg = true -> all7 (profile_bytes q)) ->
    add_profile dbg (W p) q = Ok (W (p ++ map (fun b => b mod 128) (profile_bytes q))).
  Proof.
    intros A B. destruct q as [a b c d e]. unfold profile_bytes in *. cbn [pr1 pr2 pr3 pr4 pr5] in *.
    unfold add_profile. cbn [pr1 pr2 pr3 pr4 pr5].
    pose proof (Forall_inv A); apply Forall_inv_tail in A. pose proof (Forall_inv A); apply Forall_inv_tail in A.
    pose proof (Forall_inv A); apply Forall_inv_tail in A. pose proof (Forall_inv A); apply Forall_inv_tail in A.
    pose proof (Forall_inv A).
    assert (K : dbg = true -> a < 128 /\ b < 128 /\ c < 128 /\ d < 128 /\ e < 128).
    { intros X. specialize (B X). unfold all7 in B. rewrite !Forall_cons_iff in B. unfold is_u7 in B. lia. }
    do 4 (rewrite w7 by (try assumption; intros X; specialize (K X); lia); cbn [bind]).
    rewrite w7 by (try assumption; intros X; specialize (K X); lia). now rewrite <- !app_assoc.
  Qed.
  Lemma w_profiles l p : Forall (fun b => 0 <= b) (concat (map profile_bytes l)) -> (dbg = true -> all7 (concat (map profile_bytes l))) ->
    add_profiles dbg (W p) (length l) l = Ok (W (p ++ concat (map (fun p => map (fun b => b mod 128) (profile_bytes p)) l))).
  Proof.
    revert p. induction l as [|q l IH]; intros p A B; [cbn; now rewrite app_nil_r|].
    cbn [map concat length add_profiles] in *. rewrite w_profile.
    - cbn [bind]. rewrite IH, <- app_assoc; trivial.
      + now apply Forall_app in A.
      + intros X. specialize (B X). now apply Forall_app in B.
    - now apply Forall_app in A.
    - intros X. specialize (B X). now apply Forall_app in B.
  Qed.
End Steps.

Lemma hdr_eq st src dst dev : mkSx universal_non_realtime (ci_header st src dst dev) = ci_wire dev st 2 src dst [].
Proof. unfold ci_wire, ci_header. rewrite !le7_4, (digit0 src), (digit0 dst), !digit by lia. reflexivity. Qed.
Lemma make_eq dbg st src dst dev : make_with_payload_size dbg st src dst dev = Ok (ci_wire dev st 2 src dst []).
Proof.
  unfold make_with_payload_size, add_data. rewrite check_true by reflexivity. cbn [bind].
  unfold push. cbn [sx_id sx_data app]. now rewrite hdr_eq.
Qed.
Lemma message_eq dbg st src dst dev : (dbg = true -> is_u7 st /\ is_u7 dev /\ is_u28 src /\ is_u28 dst) ->
  ci_message dbg st src dst dev = Ok (ci_wire dev st 2 src dst []).
Proof.
  intros H. unfold ci_message. rewrite hdr_eq. destruct dbg; [|reflexivity].
  destruct (H eq_refl) as (A & B & C & D). unfold is_u7, is_u28 in *.
  rewrite !check_true by (apply Z.leb_le; lia). reflexivity.
Qed.
Lemma v1_eq dev st ver src dst p : set_version_1 (ci_wire dev st ver src dst p) = Ok (ci_wire dev st 1 src dst p).
Proof. reflexivity. Qed.

(* ---- the bytes of every message ------------------------------------------------------------- *)

Lemma u8_pos l : Forall is_u8 l -> Forall (fun b => 0 <= b) l.
Proof. apply Forall_impl. unfold is_u8. lia. Qed.

Ltac facts H :=
  unfold all7 in H; cbn [app concat map] in H; rewrite ?Forall_cons_iff, ?Forall_app in H.

Ltac side K :=
  first [assumption | discriminate | lia
    | let X := fresh "X" in intros X; specialize (K X); decompose [and] K; first [assumption | lia]].
Ltac steps K :=
  rewrite ?make_eq; cbn [bind];
  repeat (first [rewrite w_id by (unfold is_u16, is_u32; side K) | rewrite w7 by (side K) | rewrite w14_size by (side K)
                | rewrite w28_size by (side K) | rewrite w14 by (side K) | rewrite w28 by (side K)
                | rewrite w_data by (side K) | rewrite w_data_opt | rewrite w_push | rewrite v1_eq]; cbn [bind]);
  cbn [app]; rewrite <- ?app_assoc; try reflexivity.

Lemma build_eq dbg c : typed c -> (dbg = true -> checked c) -> build dbg c = Ok (wire_of c).
Proof.
  intros (T8 & T16 & T32 & TI & TC) K.
  destruct c; cbn [build wire_of header_of payload_of];
    cbn [raw_bytes numbers7 numbers14 numbers28 muids identity_of profile_counts app] in *;
    unfold checked in K; cbn [is_plain raw_bytes numbers7 numbers14 numbers28 muids identity_of sizes14 sizes28 chunk_numbering] in K;
    unfold all7 in K; rewrite ?Forall_cons_iff, ?Forall_app in *; rewrite ?Forall_cons_iff, ?Forall_app in *; unfold is_u7, is_u8, is_u14, is_u16, is_u28, is_u32 in *.
  - apply message_eq. unfold is_u7, is_u28. intros X. specialize (K X). intuition lia.
  - unfold make_discovery_inquiry_v1, make_discovery_message_v1. steps K.
  - unfold make_discovery_inquiry, make_discovery_message. steps K.
  - unfold make_discovery_reply_v1, make_discovery_message_v1. steps K.
  - unfold make_discovery_reply, make_discovery_message. steps K.
  - unfold make_endpoint_information_inquiry. steps K.
  - unfold make_endpoint_information_reply. steps K.
  - unfold make_ack_message, make_nack_message. cbn [vec_at nth_error bind]. steps K.
  - unfold make_nak_message, make_nack_message. cbn [vec_at nth_error bind]. steps K.
  - unfold make_nak_message_v1. rewrite message_eq; [reflexivity|]. unfold is_u7, is_u28. intros X. specialize (K X). intuition lia.
  - unfold make_invalidate_muid_message. steps K.
  - apply message_eq. unfold is_u7, is_u28. intros X. specialize (K X). intuition lia.
  - unfold make_profile_inquiry_reply, make_profile_inquiry_reply_n.
    assert (C1 : check dbg (u16 (size enabled) <=? 16383) = Ok tt).
    { destruct dbg; [apply check_true, Z.leb_le; specialize (K eq_refl); unfold u16; lia|reflexivity]. }
    assert (C2 : check dbg (u16 (size disabled) <=? 16383) = Ok tt).
    { destruct dbg; [apply check_true, Z.leb_le; specialize (K eq_refl); unfold u16; lia|reflexivity]. }
    rewrite C1, C2. cbn [bind]. rewrite map_app, concat_app, ?Forall_app in *.
    assert (N1 : Z.to_nat (u16 (size enabled)) = length enabled).
    { unfold u16. rewrite Z.mod_small by (pose proof (size_pos enabled); lia). apply Nat2Z.id. }
    assert (N2 : Z.to_nat (u16 (size disabled)) = length disabled).
    { unfold u16. rewrite Z.mod_small by (pose proof (size_pos disabled); lia). apply Nat2Z.id. }
    rewrite N1, N2, make_eq. cbn [bind]. rewrite w14_size by (side K). cbn [bind].
    destruct T8 as (_ & T1 & T2).
    rewrite w_profiles; [|apply u8_pos, T1|intros X; apply (K X)]. cbn [bind].
    rewrite w14_size by (side K). cbn [bind].
    rewrite w_profiles; [|apply u8_pos, T2|intros X; apply (K X)]. cbn [app]. unfold profiles_wire. now rewrite <- !app_assoc.
  - unfold make_profile_on_request, make_profile_message. steps K.
  - unfold make_profile_off_request, make_profile_message. steps K.
  - unfold make_profile_enabled_notification, make_profile_message. steps K.
  - unfold make_profile_disabled_notification, make_profile_message. steps K.
  - unfold make_profile_added_notification. steps K.
  - unfold make_profile_removed_notification. steps K.
  - unfold make_profile_details_inquiry. steps K.
  - unfold make_profile_details_reply. steps K.
  - unfold make_profile_specific_data. steps K.
  - unfold make_pe_capabilities_inquiry, make_capabilities_message. steps K.
  - unfold make_pe_capabilities_reply, make_capabilities_message. steps K.
  - unfold make_property_data_message. rewrite make_eq. cbn [bind].
    assert (C1 : check dbg (negb (this_chunk =? 0) || is_null chunk && (size (pe_bytes chunk) =? 0)) = Ok tt).
    { destruct dbg; [|reflexivity]. apply check_true. specialize (K eq_refl).
      destruct (Z.eqb_spec this_chunk 0); cbn [negb orb]; trivial.
      destruct chunk; [exfalso; intuition congruence|reflexivity]. }
    assert (C2 : check dbg ((num_chunks =? 0) || (this_chunk <=? num_chunks)) = Ok tt).
    { destruct dbg; [|reflexivity]. apply check_true. specialize (K eq_refl).
      destruct (Z.eqb_spec num_chunks 0); cbn [orb]; trivial. apply Z.leb_le. intuition. }
    rewrite C1, C2. cbn [bind]. fold (pe_bytes header) (pe_bytes chunk) in *. steps K.
  - apply message_eq. unfold is_u7, is_u28. intros X. specialize (K X). intuition lia.
  - unfold make_process_inquiry_capabilities_reply. steps K.
  - unfold make_midi_message_report_inquiry. steps K.
  - unfold make_midi_message_report_reply. steps K.
  - unfold make_midi_message_report_end, broadcast_muid, broadcast. apply message_eq. unfold is_u7, is_u28. intros X. specialize (K X). intuition lia.
Qed.

(* ---- assertions ------------------------------------------------------------------------------ *)

Section Faults.
  Variables (dev st ver src dst : Z).
  Let W p := ci_wire dev st ver src dst p.

  Lemma f7 p v : 0 <= v -> 0 <= v < 128 \/ add_uint7 true (W p) v = Fault AssertFail.
  Proof. intros H. destruct (Z_lt_dec v 128); [left; lia|right]. unfold add_uint7, check, assert_. now replace (v <=? 127) with false by lia. Qed.
  Lemma f14 p v : 0 <= v -> 0 <= v < 16384 \/ add_uint14 true (W p) v = Fault AssertFail.
  Proof. intros H. destruct (Z_lt_dec v 16384); [left; lia|right]. unfold add_uint14, check, assert_. now replace (v <=? 16383) with false by lia. Qed.
  Lemma f28 p v : 0 <= v -> 0 <= v < 268435456 \/ add_uint28 true (W p) v = Fault AssertFail.
  Proof. intros H. destruct (Z_lt_dec v 268435456); [left; lia|right]. unfold add_uint28, check, assert_. now replace (v <=? 268435455) with false by lia. Qed.
  Lemma f14_size {A} p (l : list A) : size l mod 65536 < 16384 \/ add_uint14 true (W p) (u16 (size l)) = Fault AssertFail.
  Proof. destruct (f14 p (u16 (size l))) as [H|H]; [unfold u16; apply Z.mod_pos_bound; lia|left; unfold u16 in H; lia|now right]. Qed.
  Lemma f28_size {A} p (l : list A) : size l mod 4294967296 < 268435456 \/ add_uint28 true (W p) (u32 (size l)) = Fault AssertFail.
  Proof. destruct (f28 p (u32 (size l))) as [H|H]; [unfold u32; apply Z.mod_pos_bound; lia|left; unfold u32 in H; lia|now right]. Qed.

  Lemma f_id p i : is_u32 (di_manufacturer i) -> is_u16 (di_family i) -> is_u16 (di_model i) -> is_u32 (di_revision i) ->
    identity_fits i \/ add_device_identity true (W p) i = Fault AssertFail.
  Proof.
    intros A B C D. destruct i as [m f o r]. cbn [di_manufacturer di_family di_model di_revision] in *.
    unfold add_device_identity. cbn [di_manufacturer di_family di_model di_revision].
    rewrite mask_C000, mask_C000, mask_F by trivial. unfold is_u16, is_u32 in *. unfold check, assert_.
    destruct (Z.eqb_spec (Z.land m 0xFF808080) 0) as [M|M]; [|now right]. cbn [bind].
    destruct (Z.leb_spec f 16383); [|now right]. destruct (Z.leb_spec o 16383); [|now right].
    destruct (Z.leb_spec r 268435455); [|now right]. left.
    apply mask_manu in M; [|exact A]. destruct M as (a & b & c & Ha & Hb & Hc & E). exists a, b, c.
    unfold identity_in_range, is_u7, is_u14, is_u28 in *. cbn [di_manufacturer di_family di_model di_revision]. repeat apply conj; trivial; lia.
  Qed.

  Lemma f_profile p q : Forall (fun b => 0 <= b) (profile_bytes q) ->
    all7 (profile_bytes q) \/ add_profile true (W p) q = Fault AssertFail.
  Proof.
    intros A. destruct q as [a b c d e]. unfold profile_bytes in *. cbn [pr1 pr2 pr3 pr4 pr5] in *.
    rewrite !Forall_cons_iff in A. destruct A as (Aa & Ab & Ac & Ad & Ae & _).
    unfold add_profile. cbn [pr1 pr2 pr3 pr4 pr5].
    destruct (f7 p a Aa) as [H|H]; [|right; now rewrite H]. unfold W. rewrite w7 by lia. cbn [bind].
    match goal with |- context [add_uint7 true (ci_wire _ _ _ _ _ ?p) b] => destruct (f7 p b Ab) as [H0|H0]; [|right; unfold W in H0; now rewrite H0] end.
    rewrite w7 by lia. cbn [bind].
    match goal with |- context [add_uint7 true (ci_wire _ _ _ _ _ ?p) c] => destruct (f7 p c Ac) as [H1|H1]; [|right; unfold W in H1; now rewrite H1] end.
    rewrite w7 by lia. cbn [bind].
    match goal with |- context [add_uint7 true (ci_wire _ _ _ _ _ ?p) d] => destruct (f7 p d Ad) as [H2|H2]; [|right; unfold W in H2; now rewrite H2] end.
    rewrite w7 by lia. cbn [bind].
    match goal with |- context [add_uint7 true (ci_wire _ _ _ _ _ ?p) e] => destruct (f7 p e Ae) as [H3|H3]; [|right; unfold W in H3; now rewrite H3] end.
    left. unfold all7, is_u7. rewrite !Forall_cons_iff. auto 10.
  Qed.
  Lemma f_profiles l p : Forall (fun b => 0 <= b) (concat (map profile_bytes l)) ->
    all7 (concat (map profile_bytes l)) \/ add_profiles true (W p) (length l) l = Fault AssertFail.
  Proof.
    revert p. induction l as [|q l IH]; intros p A; [left; constructor|].
    cbn [map concat length add_profiles] in *. apply Forall_app in A. destruct A as [A1 A2].
    destruct (f_profile p q A1) as [H|H]; [|right; now rewrite H].
    unfold W. rewrite w_profile by auto. cbn [bind].
    match goal with |- context [add_profiles true (ci_wire _ _ _ _ _ ?p) _ _] => destruct (IH p A2) as [H0|H0] end.
    - left. now apply all7_app.
    - right. exact H0.
  Qed.
End Faults.

Lemma message_fault st src dst dev : 0 <= st -> 0 <= src -> 0 <= dst -> 0 <= dev ->
  (is_u7 st /\ is_u7 dev /\ is_u28 src /\ is_u28 dst) \/ ci_message true st src dst dev = Fault AssertFail.
Proof.
  intros A B C D. unfold ci_message, check, assert_.
  destruct (Z.leb_spec st 127); [|now right]. destruct (Z.leb_spec src 268435455); [|now right].
  destruct (Z.leb_spec dst 268435455); [|now right]. destruct (Z.leb_spec dev 127); [|now right].
  left. unfold is_u7, is_u28. lia.
Qed.

Ltac fstep :=
  cbn [bind];
  match goal with
  | |- context [add_device_identity true (ci_wire ?d ?s ?v ?a ?b ?p) ?x] =>
      let H := fresh "F" in destruct (f_id d s v a b p x) as [H|H]; [unfold is_u16, is_u32; lia ..| |now rewrite H];
      rewrite w_id by (unfold is_u16, is_u32; trivial; lia)
  | |- context [add_uint14 true (ci_wire ?d ?s ?v ?a ?b ?p) (u16 (size ?x))] =>
      let H := fresh "F" in destruct (f14_size d s v a b p x) as [H|H]; [|now rewrite H]; rewrite w14_size by trivial
  | |- context [add_uint28 true (ci_wire ?d ?s ?v ?a ?b ?p) (u32 (size ?x))] =>
      let H := fresh "F" in destruct (f28_size d s v a b p x) as [H|H]; [|now rewrite H]; rewrite w28_size by trivial
  | |- context [add_uint7 true (ci_wire ?d ?s ?v ?a ?b ?p) ?x] =>
      let H := fresh "F" in destruct (f7 d s v a b p x) as [H|H]; [lia| |now rewrite H]; rewrite w7 by lia
  | |- context [add_uint14 true (ci_wire ?d ?s ?v ?a ?b ?p) ?x] =>
      let H := fresh "F" in destruct (f14 d s v a b p x) as [H|H]; [lia| |now rewrite H]; rewrite w14 by lia
  | |- context [add_uint28 true (ci_wire ?d ?s ?v ?a ?b ?p) ?x] =>
      let H := fresh "F" in destruct (f28 d s v a b p x) as [H|H]; [lia| |now rewrite H]; rewrite w28 by lia
  | |- context [add_data true (ci_wire _ _ _ _ _ _) _] => first [rewrite w_data_opt | rewrite w_data by discriminate]
  | |- context [push (ci_wire _ _ _ _ _ _) _] => rewrite w_push
  end.
Ltac finish N := exfalso; apply N; repeat apply conj; try discriminate; trivial;
  intros; rewrite ?Forall_cons_iff, ?Forall_app in *; rewrite ?Forall_cons_iff, ?Forall_app in *; repeat apply conj; trivial; try discriminate; try lia; try tauto; try constructor.
Ltac plainf N := match goal with |- context [ci_message true ?a ?b ?c ?d] => destruct (message_fault a b c d) as [H|H];
  [lia..| |rewrite H; reflexivity]; unfold is_u7, is_u28 in H; finish N end.

Lemma build_fault c : typed c -> ~ checked c -> build true c = Fault AssertFail.
Proof.
  intros (T8 & T16 & T32 & TI & TC) N.
  destruct c; cbn [build];
    cbn [raw_bytes numbers7 numbers14 numbers28 muids identity_of profile_counts app] in *;
    unfold checked in N; cbn [is_plain raw_bytes numbers7 numbers14 numbers28 muids identity_of sizes14 sizes28 chunk_numbering] in N;
    unfold all7 in N; do 2 rewrite ?Forall_cons_iff, ?Forall_app in T8;
    do 2 rewrite ?Forall_cons_iff, ?Forall_app in T16;
    do 2 rewrite ?Forall_cons_iff, ?Forall_app in T32;
    unfold is_u7, is_u8, is_u14, is_u16, is_u28, is_u32 in *.
  - plainf N.
  - unfold make_discovery_inquiry_v1, make_discovery_message_v1. rewrite ?make_eq. repeat fstep. finish N.
  - unfold make_discovery_inquiry, make_discovery_message. rewrite ?make_eq. repeat fstep. finish N.
  - unfold make_discovery_reply_v1, make_discovery_message_v1. rewrite ?make_eq. repeat fstep. finish N.
  - unfold make_discovery_reply, make_discovery_message. rewrite ?make_eq. repeat fstep. finish N.
  - unfold make_endpoint_information_inquiry. rewrite ?make_eq. repeat fstep. finish N.
  - unfold make_endpoint_information_reply. rewrite ?make_eq. repeat fstep. finish N.
  - unfold make_ack_message, make_nack_message. cbn [vec_at nth_error bind]. rewrite ?make_eq. repeat fstep. finish N.
  - unfold make_nak_message, make_nack_message. cbn [vec_at nth_error bind]. rewrite ?make_eq. repeat fstep. finish N.
  - unfold make_nak_message_v1. plainf N.
  - unfold make_invalidate_muid_message. rewrite ?make_eq. repeat fstep. finish N.
  - unfold make_profile_inquiry_message. plainf N.
  - unfold make_profile_inquiry_reply, make_profile_inquiry_reply_n. rewrite map_app, concat_app, ?Forall_app in *.
    assert (N1 : Z.to_nat (u16 (size enabled)) = length enabled).
    { unfold u16. rewrite Z.mod_small by (pose proof (size_pos enabled); lia). apply Nat2Z.id. }
    assert (N2 : Z.to_nat (u16 (size disabled)) = length disabled).
    { unfold u16. rewrite Z.mod_small by (pose proof (size_pos disabled); lia). apply Nat2Z.id. }
    destruct T8 as (T0 & T1 & T2).
    unfold check, assert_. destruct (Z.leb_spec (u16 (size enabled)) 16383) as [L1|L1]; [|reflexivity].
    destruct (Z.leb_spec (u16 (size disabled)) 16383) as [L2|L2]; [|reflexivity].
    rewrite N1, N2, make_eq. unfold u16 in L1, L2. cbn [bind]. rewrite w14_size by (intros; lia). cbn [bind].
    match goal with |- context [add_profiles true (ci_wire ?d ?s ?v ?a ?b ?p) _ enabled] =>
      destruct (f_profiles d s v a b enabled p (u8_pos _ T1)) as [H|H]; [|now rewrite H] end.
    rewrite w_profiles by (try assumption; try (apply u8_pos; assumption); intros; assumption). cbn [bind].
    rewrite w14_size by (intros; lia). cbn [bind].
    match goal with |- context [add_profiles true (ci_wire ?d ?s ?v ?a ?b ?p) _ disabled] =>
      destruct (f_profiles d s v a b disabled p (u8_pos _ T2)) as [H0|H0]; [|now rewrite H0] end.
    finish N.
  - unfold make_profile_on_request, make_profile_message. rewrite ?make_eq. repeat fstep. finish N.
  - unfold make_profile_off_request, make_profile_message. rewrite ?make_eq. repeat fstep. finish N.
  - unfold make_profile_enabled_notification, make_profile_message. rewrite ?make_eq. repeat fstep. finish N.
  - unfold make_profile_disabled_notification, make_profile_message. rewrite ?make_eq. repeat fstep. finish N.
  - unfold make_profile_added_notification. rewrite ?make_eq. repeat fstep. finish N.
  - unfold make_profile_removed_notification. rewrite ?make_eq. repeat fstep. finish N.
  - unfold make_profile_details_inquiry. rewrite ?make_eq. repeat fstep. finish N.
  - unfold make_profile_details_reply. rewrite ?make_eq. repeat fstep. finish N.
  - unfold make_profile_specific_data. rewrite ?make_eq. repeat fstep. finish N.
  - unfold make_pe_capabilities_inquiry, make_capabilities_message. rewrite ?make_eq. repeat fstep. finish N.
  - unfold make_pe_capabilities_reply, make_capabilities_message. rewrite ?make_eq. repeat fstep. finish N.
  - unfold make_property_data_message. rewrite make_eq. fold (pe_bytes header) (pe_bytes chunk) in *. cbn [bind].
    unfold check at 1, assert_. destruct (negb (this_chunk =? 0) || is_null chunk && (size (pe_bytes chunk) =? 0)) eqn:E1; [|reflexivity].
    unfold check at 1, assert_. cbn [bind]. destruct ((num_chunks =? 0) || (this_chunk <=? num_chunks)) eqn:E2; [|reflexivity].
    assert (Q1 : this_chunk <> 0 \/ chunk = None).
    { destruct (Z.eqb_spec this_chunk 0); [|now left]. right. destruct chunk; [discriminate|trivial]. }
    assert (Q2 : num_chunks = 0 \/ this_chunk <= num_chunks).
    { apply orb_true_iff in E2. rewrite Z.eqb_eq, Z.leb_le in E2. exact E2. }
    repeat fstep. finish N.
  - unfold make_process_inquiry_capabilities_inquiry. plainf N.
  - unfold make_process_inquiry_capabilities_reply. rewrite ?make_eq. repeat fstep. finish N.
  - unfold make_midi_message_report_inquiry. rewrite ?make_eq. repeat fstep. finish N.
  - unfold make_midi_message_report_reply. rewrite ?make_eq. repeat fstep. finish N.
  - unfold make_midi_message_report_end, broadcast_muid. plainf N.
Qed.

Definition decided (P : Prop) := {P} + {~ P}.
Lemma dec_and P Q : decided P -> decided Q -> decided (P /\ Q).
Proof. unfold decided. tauto. Qed.
Lemma dec_or P Q : decided P -> decided Q -> decided (P \/ Q).
Proof. unfold decided. tauto. Qed.
Lemma dec_imp P Q : decided P -> decided Q -> decided (P -> Q).
Proof. unfold decided. tauto. Qed.
Lemma dec_range a b x : decided (a <= x < b).
Proof. unfold decided. destruct (Z_le_dec a x), (Z_lt_dec x b); [left|right..]; lia. Qed.
Lemma dec_forall {A} (P : A -> Prop) l : (forall x, decided (P x)) -> decided (Forall P l).
Proof. intros D. now apply Forall_dec. Qed.

Lemma identity_fits_dec i : decided (identity_fits i).
Proof.
  unfold identity_fits, identity_in_range.
  set (m := di_manufacturer i).
  destruct (dec_range 0 128 (m / 65536)) as [A|A];
    [|right; intros (m0 & m1 & m2 & H); unfold is_u7 in H; apply A;
      replace (m / 65536) with m0 by (destruct H as (H0 & H1 & H2 & H3 & _); fold m in H3; dlia); tauto].
  destruct (dec_range 0 128 (m / 256 mod 256)) as [B|B];
    [|right; intros (m0 & m1 & m2 & H); unfold is_u7 in H; apply B;
      replace (m / 256 mod 256) with m1 by (destruct H as (H0 & H1 & H2 & H3 & _); fold m in H3; dlia); tauto].
  destruct (dec_range 0 128 (m mod 256)) as [C|C];
    [|right; intros (m0 & m1 & m2 & H); unfold is_u7 in H; apply C;
      replace (m mod 256) with m2 by (destruct H as (H0 & H1 & H2 & H3 & _); fold m in H3; dlia); tauto].
  destruct (dec_and _ _ (dec_range 0 16384 (di_family i)) (dec_and _ _ (dec_range 0 16384 (di_model i)) (dec_range 0 268435456 (di_revision i)))) as [D|D].
  - left. exists (m / 65536), (m / 256 mod 256), (m mod 256). unfold is_u7, is_u14, is_u28.
    repeat apply conj; try tauto. dlia.
  - right. intros (m0 & m1 & m2 & H). apply D. unfold is_u14, is_u28 in H. tauto.
Qed.

Lemma checked_dec c : decided (checked c).
Proof.
  unfold checked.
  apply dec_and; [apply dec_imp; [apply bool_dec|apply dec_and; apply dec_forall; intros; apply dec_range]|].
  do 3 (apply dec_and; [apply dec_forall; intros; apply dec_range|]).
  apply dec_and; [destruct (identity_of c); [apply identity_fits_dec|now left]|].
  do 2 (apply dec_and; [apply dec_forall; intros; apply Z_lt_dec|]).
  destruct c; try (now left). cbn [chunk_numbering].
  match goal with |- decided ((?t <> 0 \/ ?c = None) /\ (?n = 0 \/ _ <= _)) =>
    apply dec_and; apply dec_or; unfold decided;
    [destruct (Z.eq_dec t 0); [right; lia|now left]|destruct c; [now right|now left]|apply Z.eq_dec|apply Z_le_dec] end.
Qed.
