(* Lemmas about reading received MIDI-CI messages. *)
From Coq Require Import ZArith List Bool Lia.
From Verif Require Import Base Bits Packet Messages Sysex UniversalSysex SysexSpec SysexProofs CapInq CapSpec CapProofs CapWire CapCalls CapMake CapRead CapReport.
Import ListNotations.
Local Open Scope Z_scope.
Local Open Scope res_scope.

Lemma le7_val7 l : all7 l -> le7 (length l) (val7 l) = l.
Proof.
  induction 1 as [|x l X A IH]; [reflexivity|]. cbn [length le7 val7]. unfold is_u7 in X.
  replace ((x + 128 * val7 l) mod 128) with x by dlia. replace ((x + 128 * val7 l) / 128) with (val7 l) by dlia. now rewrite IH.
Qed.
Lemma val7_bound l : all7 l -> 0 <= val7 l < 128 ^ Z.of_nat (length l).
Proof.
  induction 1 as [|x l X A IH]; [cbn; lia|]. cbn [length val7]. unfold is_u7 in X.
  replace (Z.of_nat (S (length l))) with (Z.of_nat (length l) + 1) by lia. rewrite Z.pow_add_r by lia. lia.
Qed.
Lemma le2_val a b : is_u7 a -> is_u7 b -> le7 2 (val7 [a; b]) = [a; b] /\ is_u14 (val7 [a; b]).
Proof.
  intros A B. split; [apply (le7_val7 [a; b]); repeat (apply Forall_cons; [assumption|]); apply Forall_nil|].
  apply (val7_bound [a; b]). repeat (apply Forall_cons; [assumption|]); apply Forall_nil.
Qed.
Lemma le4_val a b c d : is_u7 a -> is_u7 b -> is_u7 c -> is_u7 d ->
  le7 4 (val7 [a; b; c; d]) = [a; b; c; d] /\ is_u28 (val7 [a; b; c; d]).
Proof.
  intros A B C D. split; [apply (le7_val7 [a; b; c; d]); repeat (apply Forall_cons; [assumption|]); apply Forall_nil|].
  apply (val7_bound [a; b; c; d]). repeat (apply Forall_cons; [assumption|]); apply Forall_nil.
Qed.

Lemma shape28 s st : sx_id s = 0x7E0000 -> 12 <= size (sx_data s) ->
  vec_at (sx_data s) 1 = Ok 0x0D -> vec_at (sx_data s) 2 = Ok st -> all7 (sx_data s) ->
  exists dev ver src dst body, s = ci_wire dev st ver src dst body /\ all7 body /\ is_u7 dev /\ is_u7 ver /\ is_u28 src /\ is_u28 dst.
Proof.
  intros I L A B S. destruct s as [id d]. cbn [sx_id sx_data] in *. subst id.
  do 12 (destruct d as [|? d]; [exfalso; repeat rewrite size_cons in L; rewrite size_nil in L; lia|]).
  cbn in A, B. injection A as ->. injection B as ->. unfold all7 in S. rewrite !Forall_cons_iff in S.
  destruct S as (S0 & _ & _ & S3 & S4 & S5 & S6 & S7 & S8 & S9 & S10 & S11 & S).
  destruct (le4_val z3 z4 z5 z6) as [E1 B1]; [assumption..|]. destruct (le4_val z7 z8 z9 z10) as [E2 B2]; [assumption..|].
  exists z, z2, (val7 [z3; z4; z5; z6]), (val7 [z7; z8; z9; z10]), d.
  repeat split; try assumption; try apply S0; try apply S3; try apply B1; try apply B2. unfold ci_wire. now rewrite E1, E2.
Qed.

Lemma wire_inj dev st ver src dst body dev' st' ver' src' dst' body' :
  ci_wire dev st ver src dst body = ci_wire dev' st' ver' src' dst' body' ->
  dev = dev' /\ st = st' /\ ver = ver' /\ body = body'.
Proof. unfold ci_wire. cbn [le7 app]. intros E. injection E. intros. subst. auto. Qed.

Lemma some_inj {A} (x y : A) : Some x = Some y -> x = y.
Proof. congruence. Qed.

(* ---- from the contents to what is read ---------------------------------------------------------- *)

Lemma size_u14 {A} (l : list A) : size l < 16384 -> is_u14 (size l).
Proof. intros H. unfold is_u14. pose proof (size_pos l). lia. Qed.
Lemma size_u28 {A} (l : list A) : size l < 268435456 -> is_u28 (size l).
Proof. intros H. unfold is_u28. pose proof (size_pos l). lia. Qed.

Section Returns.
  Variables dev st ver src dst : Z.
  Notation wire := (ci_wire dev st ver src dst).

  Lemma read_block14 pre d rest n : n = (12 + length pre)%nat -> size d < 16384 ->
    make_uint14 (wire (pre ++ block14 d ++ rest)) n = Ok (size d) /\
    bytes_at (wire (pre ++ block14 d ++ rest)) (n + 2) (Z.to_nat (size d)) = Ok d.
  Proof.
    intros -> L. unfold block14. rewrite <- app_assoc. split.
    - apply wire14_le; [reflexivity|now apply size_u14].
    - rewrite app_assoc. apply wire_bytes; [rewrite app_length, le7_length; lia|unfold size; lia].
  Qed.
  Lemma read_block28 pre d rest n : n = (12 + length pre)%nat -> size d < 268435456 ->
    make_uint28 (wire (pre ++ block28 d ++ rest)) n = Ok (size d) /\
    bytes_at (wire (pre ++ block28 d ++ rest)) (n + 4) (Z.to_nat (size d)) = Ok d.
  Proof.
    intros -> L. unfold block28. rewrite <- app_assoc. split.
    - apply wire28_le; [reflexivity|now apply size_u28].
    - rewrite app_assoc. apply wire_bytes; [rewrite app_length, le7_length; lia|unfold size; lia].
  Qed.

  Lemma concat_size5 l : size (concat (map profile_bytes l)) = 5 * size l.
  Proof. induction l as [|p l IH]; [reflexivity|]. cbn [map concat]. rewrite size_app', IH, size_cons. unfold profile_bytes. autorewrite with sizes. lia. Qed.

  Lemma read_discovery m0 m1 m2 f m v c x rest : all7 [m0; m1; m2; c] -> is_u14 f -> is_u14 m -> is_u28 v -> is_u28 x ->
    discovery_identity (wire (identity_bytes m0 m1 m2 f m v ++ [c] ++ le7 4 x ++ rest)) = Ok (mkDevId (m0 * 65536 + m1 * 256 + m2) f m v) /\
    discovery_categories (wire (identity_bytes m0 m1 m2 f m v ++ [c] ++ le7 4 x ++ rest)) = Ok c /\
    discovery_maximum_message_size (wire (identity_bytes m0 m1 m2 f m v ++ [c] ++ le7 4 x ++ rest)) = Ok x.
  Proof.
    unfold all7. rewrite !Forall_cons_iff. intros (A & B & C & _) F M V X. repeat apply conj.
    - unfold discovery_identity.
      apply (wire_identity dev st ver src dst (mkDevId (m0 * 65536 + m1 * 256 + m2) f m v) m0 m1 m2).
      unfold identity_in_range. cbn [di_manufacturer di_family di_model di_revision]. auto 10.
    - reflexivity.
    - unfold discovery_maximum_message_size.
      apply (wire28_le dev st ver src dst (identity_bytes m0 m1 m2 f m v ++ [c])); [reflexivity|exact X].
  Qed.
  Lemma read_path m0 m1 m2 f m v c x o rest : discovery_output_path_id
    (wire (identity_bytes m0 m1 m2 f m v ++ [c] ++ le7 4 x ++ (if 2 <=? ver then o :: rest else rest))) = Ok (if 2 <=? ver then o else 0).
  Proof.
    unfold discovery_output_path_id, message_version. change (vec_at _ 3) with (Ok ver). cbn [bind].
    destruct (2 <=? ver); reflexivity.
  Qed.

  Lemma read_profile p rest : view_profile (wire (profile_bytes p ++ rest)) = Ok p.
  Proof. destruct p; reflexivity. Qed.
  Lemma at17 p x rest : vec_at (sx_data (wire (profile_bytes p ++ x :: rest))) 17 = Ok x.
  Proof. destruct p; reflexivity. Qed.

  Lemma read_profile_lists dbg e d rest : size e < 16384 -> size d < 16384 ->
    returns dbg KProfileInquiryReply dev ver (RProfiles e d) (wire (profile_list e ++ profile_list d ++ rest)).
  Proof.
    intros LE LD. cbn [returns]. unfold profile_list. rewrite <- !app_assoc.
    set (E := concat (map profile_bytes e)). set (D := concat (map profile_bytes d)).
    assert (SE : size E = 5 * size e) by apply concat_size5.
    pose proof (size_u14 e LE) as NE. pose proof (size_u14 d LD) as ND. pose proof (size_pos e).
    assert (A : make_uint14 (wire (le7 2 (size e) ++ E ++ le7 2 (size d) ++ D ++ rest)) 12 = Ok (size e)).
    { apply (wire14_le dev st ver src dst []); trivial. }
    assert (B : make_uint14 (wire (le7 2 (size e) ++ E ++ le7 2 (size d) ++ D ++ rest)) (Z.to_nat (14 + size e * 5)) = Ok (size d)).
    { rewrite app_assoc. apply wire14_le; trivial. rewrite app_length, le7_length. unfold size in SE |- *. lia. }
    unfold num_enabled_profiles, num_disabled_profiles, disabled_profiles, enabled_profiles, has_disabled_profiles, has_enabled_profiles,
      offset_of_disabled_profiles. rewrite A. cbn [bind]. rewrite B. cbn [bind].
    repeat apply conj; trivial.
    - rewrite <- (has_profiles (size e)) by trivial. rewrite le7_2. reflexivity.
    - replace (Z.to_nat (14 + size e * 5)) with (12 + length (le7 2 (size e) ++ E))%nat
        by (rewrite app_length, le7_length; unfold size in SE |- *; lia).
      rewrite app_assoc. rewrite (le7_2 (size d)). cbn [app].
      rewrite (wire_at _ _ _ _ _ (le7 2 (size e) ++ E)) by reflexivity. cbn [bind].
      change (size d mod 128 :: size d / 128 mod 128 :: D ++ rest) with ([size d mod 128] ++ size d / 128 mod 128 :: D ++ rest).
      rewrite app_assoc. rewrite wire_at by (rewrite (app_length _ [_]); cbn [length]; lia). cbn [bind].
      now rewrite has_profiles.
    - apply (make_profiles_ok dbg dev st ver src dst []); [reflexivity|lia].
    - rewrite app_assoc. apply make_profiles_ok; [|lia].
      rewrite size_app', SE. unfold size at 2. rewrite le7_length. lia.
  Qed.

  Lemma read_property r h n t c rest : size h < 16384 -> size c < 16384 -> is_u14 n -> is_u14 t ->
    let s := wire ([r] ++ block14 h ++ le7 2 n ++ le7 2 t ++ block14 c ++ rest) in
    request_id s = Ok r /\ header_size s = Ok (size h) /\ header_data s = Ok h /\
    number_of_chunks s = Ok n /\ number_of_this_chunk s = Ok t /\ chunk_size s = Ok (size c) /\ chunk_data s = Ok c.
  Proof.
    intros LH LC N T s.
    destruct (read_block14 [r] h (le7 2 n ++ le7 2 t ++ block14 c ++ rest) 13 eq_refl LH) as [A B].
    change (wire ([r] ++ block14 h ++ le7 2 n ++ le7 2 t ++ block14 c ++ rest)) with s in A, B.
    assert (Lh : Z.to_nat (size h) = length h) by (unfold size; lia).
    assert (L14 : length (block14 h) = (2 + length h)%nat) by (unfold block14; rewrite app_length, le7_length; reflexivity).
    unfold request_id, header_data, number_of_chunks, number_of_this_chunk, chunk_data, chunk_size, header_size.
    rewrite A. cbn [bind]. rewrite Lh.
    assert (C : make_uint14 s (19 + length h) = Ok (size c) /\ bytes_at s (19 + length h + 2) (Z.to_nat (size c)) = Ok c).
    { unfold s.
      replace ([r] ++ block14 h ++ le7 2 n ++ le7 2 t ++ block14 c ++ rest) with (([r] ++ block14 h ++ le7 2 n ++ le7 2 t) ++ block14 c ++ rest)
        by (rewrite <- !app_assoc; reflexivity).
      apply read_block14; [|exact LC]. rewrite !app_length, !le7_length, L14. cbn [length]. lia. }
    destruct C as [C1 C2]. rewrite C1. cbn [bind]. repeat apply conj; trivial.
    - rewrite <- Lh. exact B.
    - unfold s.
      replace ([r] ++ block14 h ++ le7 2 n ++ le7 2 t ++ block14 c ++ rest) with (([r] ++ block14 h) ++ le7 2 n ++ le7 2 t ++ block14 c ++ rest)
        by (rewrite <- !app_assoc; reflexivity).
      apply wire14_le; [|exact N]. rewrite !app_length, L14. cbn [length]. lia.
    - unfold s.
      replace ([r] ++ block14 h ++ le7 2 n ++ le7 2 t ++ block14 c ++ rest) with (([r] ++ block14 h ++ le7 2 n) ++ le7 2 t ++ block14 c ++ rest)
        by (rewrite <- !app_assoc; reflexivity).
      apply wire14_le; [|exact T]. rewrite !app_length, le7_length, L14. cbn [length]. lia.
    - replace (21 + length h)%nat with (19 + length h + 2)%nat by lia. exact C2.
  Qed.

  Lemma read_nack t c a d0 d1 d2 d3 d4 m rest : size m < 16384 ->
    let s := wire ([t; c; a; d0; d1; d2; d3; d4] ++ block14 m ++ rest) in
    nack_transaction s = Ok t /\ nack_status_code s = Ok c /\ nack_status_data s = Ok a /\
    nack_details s = Ok [d0; d1; d2; d3; d4] /\ nack_message_length s = Ok (size m) /\ nack_message s = Ok m.
  Proof.
    intros L s. destruct (read_block14 [t; c; a; d0; d1; d2; d3; d4] m rest 20 eq_refl L) as [A B].
    unfold nack_message, nack_message_length. unfold s. rewrite A. cbn [bind]. repeat apply conj; trivial.
    apply (wire_bytes dev st ver src dst [t; c; a] [d0; d1; d2; d3; d4]); reflexivity.
  Qed.

  Lemma returns_ok dbg k r body rest : layout k ver r = Some body -> report_ok r ->
    returns dbg k dev ver r (wire (body ++ rest)).
  Proof.
    intros L R.
    destruct k, r; try discriminate L; cbn [layout] in L; cbn [report_ok] in R;
      try (apply some_inj in L; subst body); try (cbn [returns]; repeat apply conj; reflexivity).
    - (* discovery inquiry *) cbn [returns]. unfold all7 in R. rewrite !Forall_cons_iff in R. rewrite <- !app_assoc.
      edestruct read_discovery as (A & B & C); [..|split; [exact A|split; [exact B|split; [exact C|]]]]; try tauto.
      { unfold all7. rewrite !Forall_cons_iff. tauto. }
      replace ((if 2 <=? ver then [path] else []) ++ rest) with (if 2 <=? ver then path :: rest else rest) by now destruct (2 <=? ver).
      apply read_path.
    - (* discovery reply *) cbn [returns]. unfold all7 in R. rewrite !Forall_cons_iff in R. rewrite <- !app_assoc.
      edestruct read_discovery as (A & B & C); [..|split; [exact A|split; [exact B|split; [exact C|]]]]; try tauto.
      { unfold all7. rewrite !Forall_cons_iff. tauto. }
      split.
      + replace ((if 2 <=? ver then [path; function_block] else []) ++ rest)
          with (if 2 <=? ver then path :: (function_block :: rest) else rest) by now destruct (2 <=? ver).
        unfold discovery_output_path_id, message_version. change (vec_at _ 3) with (Ok ver). cbn [bind]. destruct (2 <=? ver); reflexivity.
      + unfold discovery_function_block, message_version. change (vec_at _ 3) with (Ok ver). cbn [bind].
        destruct (2 <=? ver); reflexivity.
    - (* endpoint reply *) cbn [returns]. rewrite <- app_assoc. destruct (read_block14 [status] data rest 13 eq_refl) as [A B]; [tauto|].
      unfold information_data, information_data_length. rewrite A. cbn [bind]. repeat apply conj; trivial.
    - (* ack *) cbn [returns]. rewrite <- app_assoc. apply read_nack. tauto.
    - (* nak *) destruct (2 <=? ver); [|discriminate L]. apply some_inj in L. subst body. cbn [returns]. rewrite <- app_assoc. apply read_nack. tauto.
    - (* invalidate *) cbn [returns]. apply (wire28_le dev st ver src dst []); [reflexivity|exact R].
    - rewrite <- app_assoc. apply read_profile_lists; tauto.
    - cbn [returns]. apply read_profile.
    - cbn [returns]. rewrite <- app_assoc.
      assert (E : make_uint14 (wire (profile_bytes p ++ le7 2 channels ++ rest)) 17 = Ok channels).
      { apply wire14_le; [reflexivity|tauto]. }
      unfold view_destination, view_num_channels. rewrite E. repeat apply conj; trivial; [apply read_profile].
    - cbn [returns]. rewrite <- app_assoc. split; [apply read_profile|apply at17].
    - cbn [returns]. rewrite <- !app_assoc.
      assert (X : make_uint14 (wire (profile_bytes p ++ [target] ++ block14 data ++ rest)) 18 = Ok (size data) /\
                  bytes_at (wire (profile_bytes p ++ [target] ++ block14 data ++ rest)) 20 (Z.to_nat (size data)) = Ok data).
      { rewrite app_assoc. apply (read_block14 (profile_bytes p ++ [target]) data rest 18); [reflexivity|tauto]. }
      destruct X as [A B]. unfold target_data, target_data_length. rewrite A. cbn [bind].
      repeat apply conj; trivial; apply read_profile || apply at17.
    - cbn [returns]. rewrite <- !app_assoc. destruct (read_block28 (profile_bytes p) data rest 17 eq_refl) as [A B]; [tauto|].
      unfold specific_data, specific_data_size. rewrite A. cbn [bind]. repeat apply conj; trivial; apply read_profile.
    - (* capabilities *) cbn [returns]. unfold maximum_number_of_requests, pe_version_major, pe_version_minor, message_version.
      change (vec_at (sx_data _) 3) with (Ok ver). cbn [bind]. destruct (2 <=? ver); repeat apply conj; reflexivity.
    - cbn [returns]. rewrite <- !app_assoc. apply read_property; tauto.
    - cbn [returns]. rewrite <- !app_assoc. apply read_property; tauto.
    - cbn [returns]. rewrite <- !app_assoc. apply read_property; tauto.
    - cbn [returns]. rewrite <- !app_assoc. apply read_property; tauto.
    - cbn [returns]. rewrite <- !app_assoc. apply read_property; tauto.
  Qed.
End Returns.

(* ---- from the bytes to the contents ------------------------------------------------------------- *)

Definition said (k : kind) (ver : Z) (body : list Z) : Prop :=
  exists r lay rest, layout k ver r = Some lay /\ body = lay ++ rest /\ report_ok r /\ all7 rest.

Ltac split7 A := unfold all7 in A; repeat rewrite Forall_app in A; rewrite ?Forall_cons_iff in A.
Tactic Notation "heads" hyp(body) hyp(L) integer(n) := do n (destruct body as [|? body]; [exfalso; autorewrite with sizes in L; lia|]).

Lemma block14_of a b d : is_u7 a -> is_u7 b -> size d = 1 * val7 [a; b] -> block14 d = a :: b :: d /\ size d < 16384.
Proof.
  intros A B S. destruct (le2_val a b A B) as [E U]. unfold is_u14 in U. split; [|lia].
  unfold block14. replace (size d) with (val7 [a; b]) by lia. rewrite E. reflexivity.
Qed.
Lemma block28_of a b c e d : is_u7 a -> is_u7 b -> is_u7 c -> is_u7 e -> size d = 1 * val7 [a; b; c; e] ->
  block28 d = a :: b :: c :: e :: d /\ size d < 268435456.
Proof.
  intros A B C D S. destruct (le4_val a b c e A B C D) as [E U]. unfold is_u28 in U. split; [|lia].
  unfold block28. replace (size d) with (val7 [a; b; c; e]) by lia. rewrite E. reflexivity.
Qed.
Lemma profiles_of n : forall d, all7 d -> size d = 5 * Z.of_nat n ->
  exists l, d = concat (map profile_bytes l) /\ size l = Z.of_nat n /\ Forall profile7 l.
Proof.
  induction n as [|n IH]; intros d A S.
  - exists []. destruct d; [|autorewrite with sizes in S; pose proof (size_pos d); lia]. repeat split. constructor.
  - heads d S 5. split7 A. destruct A as (A0 & A1 & A2 & A3 & A4 & A).
    destruct (IH d A) as (l & -> & L & P). { autorewrite with sizes in S. lia. }
    exists (mkProf z z0 z1 z2 z3 :: l). split; [reflexivity|]. split; [autorewrite with sizes; lia|].
    constructor; trivial. unfold profile7, profile_bytes. cbn [pr1 pr2 pr3 pr4 pr5].
    repeat (apply Forall_cons; [assumption|]). apply Forall_nil.
Qed.
Lemma profile_list_of a b d : is_u7 a -> is_u7 b -> all7 d -> size d = 5 * val7 [a; b] ->
  exists l, a :: b :: d = profile_list l /\ size l < 16384 /\ Forall profile7 l.
Proof.
  intros A B D S. destruct (le2_val a b A B) as [E U]. unfold is_u14 in U.
  destruct (profiles_of (Z.to_nat (val7 [a; b])) d D) as (l & -> & L & P); [lia|].
  exists l. unfold profile_list. replace (size l) with (val7 [a; b]) by lia. rewrite E. repeat split; trivial. lia.
Qed.
Lemma version_cmp v : (1 <? v) = (2 <=? v).
Proof. apply Bool.eq_iff_eq_true. rewrite Z.ltb_lt, Z.leb_le. lia. Qed.

Ltac u7s := repeat (apply Forall_cons; [assumption|]); try apply Forall_nil; try assumption.

Lemma body_says k ver body : all7 body -> body_ok k ver body -> said k ver body.
Proof.
  intros A H. unfold said.
  destruct k; cbn [body_ok] in H; unfold at_least in H; rewrite ?version_cmp in H.
  - (* discovery inquiry *)
    assert (L : 16 <= size body) by (destruct (2 <=? ver); lia).
    heads body L 16. split7 A. decompose [and] A. clear A.
    destruct (le2_val z2 z3) as [E1 B1]; trivial. destruct (le2_val z4 z5) as [E2 B2]; trivial.
    destruct (le4_val z6 z7 z8 z9) as [E3 B3]; trivial. destruct (le4_val z11 z12 z13 z14) as [E4 B4]; trivial.
    destruct (2 <=? ver) eqn:V.
    + heads body H 1.
      match goal with X : Forall is_u7 (_ :: _) |- _ => rewrite Forall_cons_iff in X; destruct X end.
      exists (RDiscovery z z0 z1 (val7 [z2; z3]) (val7 [z4; z5]) (val7 [z6; z7; z8; z9]) z10 (val7 [z11; z12; z13; z14]) z15 0).
      eexists _, body. cbn [layout]. rewrite V. split; [reflexivity|]. unfold identity_bytes. rewrite E1, E2, E3, E4.
      split; [reflexivity|]. cbn [report_ok]. split; trivial. repeat apply conj; trivial; try apply B1; try apply B2; try apply B3; try apply B4.
      u7s. apply Forall_cons; [unfold is_u7; lia|apply Forall_nil].
    + exists (RDiscovery z z0 z1 (val7 [z2; z3]) (val7 [z4; z5]) (val7 [z6; z7; z8; z9]) z10 (val7 [z11; z12; z13; z14]) 0 0).
      eexists _, body. cbn [layout]. rewrite V. split; [reflexivity|]. unfold identity_bytes. rewrite E1, E2, E3, E4.
      split; [reflexivity|]. cbn [report_ok]. split; trivial. repeat apply conj; trivial; try apply B1; try apply B2; try apply B3; try apply B4.
      u7s. repeat (apply Forall_cons; [unfold is_u7; lia|]); apply Forall_nil.
  - (* discovery reply *)
    assert (L : 16 <= size body) by (destruct (2 <=? ver); lia).
    heads body L 16. split7 A. decompose [and] A. clear A.
    destruct (le2_val z2 z3) as [E1 B1]; trivial. destruct (le2_val z4 z5) as [E2 B2]; trivial.
    destruct (le4_val z6 z7 z8 z9) as [E3 B3]; trivial. destruct (le4_val z11 z12 z13 z14) as [E4 B4]; trivial.
    destruct (2 <=? ver) eqn:V.
    + heads body H 2.
      match goal with X : Forall is_u7 (_ :: _) |- _ => rewrite !Forall_cons_iff in X; destruct X as (? & ? & ?) end.
      exists (RDiscovery z z0 z1 (val7 [z2; z3]) (val7 [z4; z5]) (val7 [z6; z7; z8; z9]) z10 (val7 [z11; z12; z13; z14]) z15 z16).
      eexists _, body. cbn [layout]. rewrite V. split; [reflexivity|]. unfold identity_bytes. rewrite E1, E2, E3, E4.
      split; [reflexivity|]. cbn [report_ok]. split; trivial. repeat apply conj; trivial; try apply B1; try apply B2; try apply B3; try apply B4.
      u7s.
    + exists (RDiscovery z z0 z1 (val7 [z2; z3]) (val7 [z4; z5]) (val7 [z6; z7; z8; z9]) z10 (val7 [z11; z12; z13; z14]) 0 0).
      eexists _, body. cbn [layout]. rewrite V. split; [reflexivity|]. unfold identity_bytes. rewrite E1, E2, E3, E4.
      split; [reflexivity|]. cbn [report_ok]. split; trivial. repeat apply conj; trivial; try apply B1; try apply B2; try apply B3; try apply B4.
      u7s. repeat (apply Forall_cons; [unfold is_u7; lia|]); apply Forall_nil.
  - heads body H 1. split7 A. exists (RStatus z), [z], body. cbn [layout report_ok app]. tauto.
  - destruct H as (st & l0 & l1 & d & rest & -> & S). split7 A. decompose [and] A. clear A.
    destruct (block14_of l0 l1 d) as [E L]; trivial.
    exists (RInformation st d). eexists _, rest. split; [reflexivity|]. rewrite E. cbn [report_ok]. repeat apply conj; trivial. u7s.
  - destruct H as (f & l0 & l1 & d & rest & F & -> & S).
    do 8 (destruct f as [|? f]; [discriminate F|]). destruct f; [|discriminate F]. split7 A. decompose [and] A. clear A.
    destruct (block14_of l0 l1 d) as [E L]; trivial.
    exists (RNack z z0 z1 z2 z3 z4 z5 z6 d). eexists _, rest. split; [reflexivity|]. rewrite E. cbn [report_ok]. repeat apply conj; trivial. u7s.
  - destruct H as (V & f & l0 & l1 & d & rest & F & -> & S).
    do 8 (destruct f as [|? f]; [discriminate F|]). destruct f; [|discriminate F]. split7 A. decompose [and] A. clear A.
    destruct (block14_of l0 l1 d) as [E L]; trivial.
    exists (RNack z z0 z1 z2 z3 z4 z5 z6 d). eexists _, rest. cbn [layout]. apply Z.leb_le in V. rewrite V.
    split; [reflexivity|]. rewrite E. cbn [report_ok]. repeat apply conj; trivial. u7s.
  - heads body H 4. split7 A. decompose [and] A. clear A. destruct (le4_val z z0 z1 z2) as [E B]; trivial.
    exists (RTarget (val7 [z; z0; z1; z2])). eexists _, body. split; [reflexivity|]. rewrite E. cbn [report_ok]. auto.
  - exists RNothing, [], body. cbn. auto.
  - destruct H as (e0 & e1 & d0 & d1 & en & di & rest & rest' & [-> SE] & [-> SD]).
    split7 A. decompose [and] A. clear A.
    destruct (profile_list_of e0 e1 en) as (l1 & E1 & L1 & P1); trivial.
    destruct (profile_list_of d0 d1 di) as (l2 & E2 & L2 & P2); trivial.
    exists (RProfiles l1 l2). eexists _, rest'. split; [reflexivity|]. rewrite <- E1, <- E2. cbn [app report_ok].
    rewrite <- app_assoc. cbn [app]. repeat apply conj; trivial. now apply Forall_app.
  - heads body H 5. split7 A. decompose [and] A. clear A.
    exists (RProfile (mkProf z z0 z1 z2 z3)). eexists _, body. split; [reflexivity|]. split; [reflexivity|]. split; trivial.
    cbn [report_ok]. unfold profile7, profile_bytes. cbn [pr1 pr2 pr3 pr4 pr5]. u7s.
  - heads body H 7. split7 A. decompose [and] A. clear A. destruct (le2_val z4 z5) as [E B]; trivial.
    exists (RDestination (mkProf z z0 z1 z2 z3) (val7 [z4; z5])). eexists _, body. split; [reflexivity|]. rewrite E.
    split; [reflexivity|]. split; trivial.
    cbn [report_ok]. split; [|exact B]. unfold profile7, profile_bytes. cbn [pr1 pr2 pr3 pr4 pr5]. u7s.
  - heads body H 6. split7 A. decompose [and] A. clear A.
    exists (RDetails (mkProf z z0 z1 z2 z3) z4). eexists _, body. split; [reflexivity|].
    split; [reflexivity|]. split; trivial.
    cbn [report_ok]. split; trivial. unfold profile7, profile_bytes. cbn [pr1 pr2 pr3 pr4 pr5]. u7s.
  - destruct H as (f & l0 & l1 & d & rest & F & -> & S).
    do 6 (destruct f as [|? f]; [discriminate F|]). destruct f; [|discriminate F]. split7 A. decompose [and] A. clear A.
    destruct (block14_of l0 l1 d) as [E L]; trivial.
    exists (RDetailsData (mkProf z z0 z1 z2 z3) z4 d). eexists _, rest. split; [reflexivity|]. rewrite E.
    split; [reflexivity|]. split; trivial. cbn [report_ok]. repeat apply conj; trivial.
    + unfold profile7, profile_bytes. cbn [pr1 pr2 pr3 pr4 pr5]. u7s.
    + u7s.
  - destruct H as (f & l0 & l1 & l2 & l3 & d & rest & F & -> & S).
    do 5 (destruct f as [|? f]; [discriminate F|]). destruct f; [|discriminate F]. split7 A. decompose [and] A. clear A.
    destruct (block28_of l0 l1 l2 l3 d) as [E L]; trivial.
    exists (RSpecific (mkProf z z0 z1 z2 z3) d). eexists _, rest. split; [reflexivity|]. rewrite E.
    split; [reflexivity|]. split; trivial. cbn [report_ok]. repeat apply conj; trivial.
    unfold profile7, profile_bytes. cbn [pr1 pr2 pr3 pr4 pr5]. u7s.
  - assert (L : 1 <= size body) by (destruct (2 <=? ver); lia). heads body L 1. split7 A. destruct A as [A0 A].
    destruct (2 <=? ver) eqn:V.
    + heads body H 2. rewrite !Forall_cons_iff in A. exists (RCapabilities z z0 z1). eexists _, body. cbn [layout]. rewrite V.
      split; [reflexivity|]. split; [reflexivity|]. split; [|tauto]. cbn [report_ok]. decompose [and] A. u7s.
    + exists (RCapabilities z 0 0). eexists _, body. cbn [layout]. rewrite V.
      split; [reflexivity|]. split; [reflexivity|]. split; [|tauto]. cbn [report_ok]. u7s.
      repeat (apply Forall_cons; [unfold is_u7; lia|]); apply Forall_nil.
  - shelve.
  - shelve.
  - shelve.
  - shelve.
  - shelve.
  - heads body H 1. split7 A. exists (RFeatures z), [z], body. cbn [layout report_ok app]. tauto.
  - heads body H 5. split7 A. decompose [and] A. exists (RReportInquiry z z0 z1 z2 z3). eexists _, body.
    split; [reflexivity|]. split; [reflexivity|]. split; [|tauto]. cbn [report_ok]. u7s.
  - heads body H 4. split7 A. decompose [and] A. exists (RReportReply z z0 z1 z2). eexists _, body.
    split; [reflexivity|]. split; [reflexivity|]. split; [|tauto]. cbn [report_ok]. u7s.
  Unshelve.
  all: destruct H as (rq & h0 & h1 & h & n0 & n1 & t0 & t1 & c0 & c1 & c & rest & rest' & [-> SH] & [-> SC] & C1 & C2 & C3);
    split7 A; decompose [and] A; clear A;
    destruct (block14_of h0 h1 h) as [E1 L1]; trivial; destruct (block14_of c0 c1 c) as [E2 L2]; trivial;
    destruct (le2_val n0 n1) as [E3 B3]; trivial; destruct (le2_val t0 t1) as [E4 B4]; trivial;
    exists (RProperty rq h (val7 [n0; n1]) (val7 [t0; t1]) c); eexists _, rest'; (split; [reflexivity|]);
    rewrite E1, E2, E3, E4; (split; [cbn [app]; rewrite <- app_assoc; reflexivity|]); (split; [|assumption]);
    cbn [report_ok]; repeat apply conj; trivial; try apply B3; try apply B4.
  all: try (u7s; apply Forall_app; split; assumption).
  all: try (destruct C2 as [C2|C2]; [left; rewrite C2 in SH; destruct h; [reflexivity|autorewrite with sizes in SH; pose proof (size_pos h); lia]|right; exact C2]).
  all: try (destruct C3 as [C3|C3]; [left; rewrite C3 in SC; destruct c; [reflexivity|autorewrite with sizes in SC; pose proof (size_pos c); lia]|right; exact C3]).
Qed.

Lemma layout_all7 k ver r lay : layout k ver r = Some lay -> report_ok r -> all7 lay.
Proof.
  intros L R. assert (P : forall l, Forall profile7 l -> all7 (concat (map profile_bytes l))).
  { induction 1 as [|p l X A IH]; [constructor|]. cbn [map concat]. apply all7_app_iff. now split. }
  destruct k, r; try discriminate L; cbn [layout] in L; cbn [report_ok] in R; unfold block14, block28, profile_list, identity_bytes in L;
    try (destruct (2 <=? ver); [|discriminate L]);
    apply some_inj in L; subst lay; unfold all7 in *; try (destruct (2 <=? ver));
    rewrite ?Forall_app, ?Forall_cons_iff in R; pose proof le7_all7 as X; unfold all7 in X; unfold profile7, all7 in R;
    repeat match goal with
           | |- Forall _ (_ ++ _) => apply Forall_app; split
           | |- Forall _ (_ :: _) => apply Forall_cons
           | |- Forall _ [] => apply Forall_nil
           end; try apply X; try apply P; try tauto.
Qed.

Lemma counted14_exact fixed d rest : size d < 16384 ->
  exists l0 l1, counted fixed [l0; l1] 1 (fixed ++ block14 d ++ rest) d rest /\ val7 [l0; l1] = size d.
Proof.
  intros H. pose proof (size_u14 d H) as U. exists (size d mod 128), (size d / 128 mod 128).
  assert (V : val7 [size d mod 128; size d / 128 mod 128] = size d) by (rewrite <- le7_2; now apply val7_2).
  split; trivial. split; [unfold block14; rewrite le7_2; reflexivity|lia].
Qed.
Lemma counted28_exact fixed d rest : size d < 268435456 ->
  exists l0 l1 l2 l3, counted fixed [l0; l1; l2; l3] 1 (fixed ++ block28 d ++ rest) d rest.
Proof.
  intros H. pose proof (size_u28 d H) as U.
  assert (V : val7 (le7 4 (size d)) = size d) by now apply val7_4.
  unfold block28. destruct (le7 4 (size d)) as [|a [|b [|c [|e [|? ?]]]]] eqn:E; try discriminate E.
  exists a, b, c, e. split; [reflexivity|lia].
Qed.
Lemma counted_profiles l rest : size l < 16384 ->
  exists l0 l1, counted [] [l0; l1] 5 (profile_list l ++ rest) (concat (map profile_bytes l)) rest.
Proof.
  intros H. pose proof (size_u14 l H) as U. exists (size l mod 128), (size l / 128 mod 128).
  assert (V : val7 [size l mod 128; size l / 128 mod 128] = size l) by (rewrite <- le7_2; now apply val7_2).
  split; [unfold profile_list; rewrite le7_2, <- app_assoc; reflexivity|rewrite concat_size5; lia].
Qed.

Lemma layout_ok k ver r lay rest : layout k ver r = Some lay -> report_ok r -> body_ok k ver (lay ++ rest).
Proof.
  intros L R. assert (Z : forall A (l : list A), 0 <= size l) by (intros; apply size_pos).
  destruct k, r; try discriminate L; cbn [layout] in L; cbn [report_ok] in R; cbn [body_ok]; rewrite ?version_cmp;
    try (unfold at_least, identity_bytes, profile_bytes in *; apply some_inj in L; subst lay;
         pose proof (Z _ rest); destruct (2 <=? ver); repeat rewrite ?size_app', ?size_cons, ?size_nil;
         unfold size at 1; rewrite ?le7_length; autorewrite with sizes; cbn [length le7]; autorewrite with sizes; lia).
  - apply some_inj in L. subst lay. destruct (counted14_exact [status] data rest) as (a & b & C & _); [tauto|].
    rewrite <- app_assoc. eauto 6.
  - apply some_inj in L. subst lay. edestruct (counted14_exact [transaction; code; status_data; d0; d1; d2; d3; d4] text rest) as (a & b & C & _); [tauto|].
    rewrite <- app_assoc. eexists _, a, b, text, rest. split; [|exact C]. reflexivity.
  - destruct (2 <=? ver) eqn:V; [|discriminate L]. apply Z.leb_le in V. split; trivial.
    apply some_inj in L. subst lay. edestruct (counted14_exact [transaction; code; status_data; d0; d1; d2; d3; d4] text rest) as (a & b & C & _); [tauto|].
    rewrite <- app_assoc. eexists _, a, b, text, rest. split; [|exact C]. reflexivity.
  - trivial.
  - apply some_inj in L. subst lay. rewrite <- app_assoc.
    destruct (counted_profiles enabled (profile_list disabled ++ rest)) as (a & b & C); [tauto|].
    destruct (counted_profiles disabled rest) as (c & d & D); [tauto|]. eauto 12.
  - apply some_inj in L. subst lay.
    destruct (counted14_exact (profile_bytes p ++ [target]) data rest) as (a & b & C & _); [tauto|].
    exists (profile_bytes p ++ [target]), a, b, data, rest. split; [reflexivity|]. rewrite <- !app_assoc in C |- *. exact C.
  - apply some_inj in L. subst lay.
    destruct (counted28_exact (profile_bytes p) data rest) as (a & b & c & d & C); [tauto|].
    exists (profile_bytes p), a, b, c, d, data, rest. split; [reflexivity|]. rewrite <- !app_assoc. exact C.
  - shelve.
  - shelve.
  - shelve.
  - shelve.
  - shelve.
  Unshelve.
  all: apply some_inj in L; subst lay; destruct R as (_ & LH & LC & N & T & C1 & C2 & C3);
    destruct (counted14_exact [request] header (le7 2 num_chunks ++ le7 2 this_chunk ++ block14 chunk ++ rest) LH) as (h0 & h1 & H & VH);
    destruct (counted14_exact (le7 2 num_chunks ++ le7 2 this_chunk) chunk rest LC) as (c0 & c1 & C & VC);
    pose proof (val7_2 _ N) as VN; pose proof (val7_2 _ T) as VT; rewrite <- !app_assoc in C; rewrite !le7_2 in *;
    eexists _, h0, h1, header, _, _, _, _, c0, c1, chunk, _, rest; rewrite <- !app_assoc; (split; [exact H|]); (split; [exact C|]);
    rewrite VN, VT, VH, VC;
    (split; [exact C1|]); (split; [destruct C2 as [->|C2]; [left; reflexivity|right; exact C2]|
                                   destruct C3 as [->|C3]; [left; reflexivity|right; exact C3]]).
Qed.

(* ---- together --------------------------------------------------------------------------------- *)

Lemma says_accepted k dev ver src dst r rest s : says k dev ver src dst r rest s ->
  all7 (sx_data s) /\ validate_of k s = Ok true.
Proof.
  intros (st & lay & I & L & -> & D & V & S & T & R & A). pose proof (layout_all7 _ _ _ _ L R) as AL.
  assert (AB : all7 (lay ++ rest)) by now apply all7_app_iff.
  split; [|apply validate_wire; trivial; split; trivial; now apply layout_ok with r].
  unfold ci_wire. cbn [sx_data]. unfold all7 in *. rewrite !Forall_app. pose proof le7_all7 as X. unfold all7 in X.
  repeat match goal with |- _ /\ _ => split end; trivial.
  apply Forall_cons; trivial. apply Forall_cons; [unfold is_u7; lia|]. apply Forall_cons; [|apply Forall_cons; trivial; apply Forall_nil].
  destruct k; cbn [subtypes In] in I; unfold is_u7; lia.
Qed.
Lemma accepted_says k s : all7 (sx_data s) -> validate_of k s = Ok true ->
  exists dev ver src dst r rest, says k dev ver src dst r rest s.
Proof.
  intros A7 H. destruct (accepted_subtype k s H (Forall_impl _ u7_is_u8 A7)) as (I & L & E1 & st & E2).
  destruct (shape28 s st I L E1 E2 A7) as (dev & ver & src & dst & body & -> & B & D & V & S & T).
  apply validate_wire in H; trivial. destruct H as [H1 H2].
  destruct (body_says k ver body B H2) as (r & lay & rest & LA & -> & R & A).
  exists dev, ver, src, dst, r, rest. exists st, lay. repeat split; trivial; apply D || apply V || apply S || apply T.
Qed.
Lemma says_common k dev ver src dst r rest s : says k dev ver src dst r rest s ->
  exists st, In st (subtypes k) /\ common_fields s dev st ver src dst.
Proof.
  intros (st & lay & I & L & -> & D & V & S & T & R & A). exists st. split; trivial. now apply wire_common.
Qed.
Lemma says_returns dbg k dev ver src dst r rest s : says k dev ver src dst r rest s -> returns dbg k dev ver r s.
Proof. intros (st & lay & I & L & -> & D & V & S & T & R & A). now apply returns_ok. Qed.

Lemma says_unique k dev ver src dst r rest dev' ver' src' dst' r' rest' s :
  says k dev ver src dst r rest s -> says k dev' ver' src' dst' r' rest' s ->
  dev' = dev /\ ver' = ver /\ src' = src /\ dst' = dst /\ layout k ver r' = layout k ver r /\ rest' = rest.
Proof.
  intros Q Q'.
  destruct (says_common _ _ _ _ _ _ _ _ Q) as (st & _ & C), (says_common _ _ _ _ _ _ _ _ Q') as (st' & _ & C').
  unfold common_fields in C, C'. decompose [and] C. decompose [and] C'. clear C C'.
  assert (dev' = dev) as -> by congruence. assert (ver' = ver) as -> by congruence.
  assert (src' = src) as -> by congruence. assert (dst' = dst) as -> by congruence. repeat (split; [reflexivity|]).
  pose proof (says_returns true _ _ _ _ _ _ _ _ Q) as X. pose proof (says_returns true _ _ _ _ _ _ _ _ Q') as Y.
  destruct Q as (st1 & lay & _ & L & E & _ & _ & _ & _ & R & _), Q' as (st1' & lay' & _ & L' & E' & _ & _ & _ & _ & R' & _).
  rewrite E' in E. apply wire_inj in E. destruct E as (_ & _ & _ & E).
  assert (S : length lay' = length lay -> layout k ver r' = layout k ver r /\ rest' = rest).
  { intros HL. destruct (app_inj_1 lay' rest' lay rest HL E) as [-> ->]. now rewrite L, L'. }
  clear E E'. destruct k, r; try discriminate L; destruct r'; try discriminate L'; cbn [returns] in X, Y;
    cbn [layout] in L, L'; try (destruct (2 <=? ver); try discriminate L; try discriminate L');
    apply some_inj in L; apply some_inj in L'; subst lay lay'; apply S;
    unfold identity_bytes, profile_bytes, block14, block28, profile_list; repeat rewrite ?app_length, ?le7_length; try reflexivity;
    cbn [length]; try lia.
  all: repeat match goal with H : _ /\ _ |- _ => destruct H end.
  all: try (assert (data0 = data) as -> by congruence; lia).
  all: try (assert (text0 = text) as -> by congruence; lia).
  all: try (assert (enabled0 = enabled) as -> by congruence; assert (disabled0 = disabled) as -> by congruence; lia).
  all: assert (header0 = header) as -> by congruence; assert (chunk0 = chunk) as -> by congruence; lia.
Qed.
