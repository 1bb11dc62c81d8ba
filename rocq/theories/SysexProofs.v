(* Lemmas about 7-bit fields of SysEx messages and universal SysEx messages. *)
From Coq Require Import ZArith List Bool Lia Btauto.
From Verif Require Import Base Bits Packet Messages Sysex UniversalSysex SysexSpec.
Import ListNotations.
Local Open Scope Z_scope.
Local Open Scope res_scope.

Lemma size_app' {A} (a b : list A) : size (a ++ b) = size a + size b.
Proof. unfold size. rewrite app_length. lia. Qed.
Lemma size_cons {A} (x : A) l : size (x :: l) = 1 + size l.
Proof. unfold size. cbn [length]. lia. Qed.
Lemma size_nil {A} : size (@nil A) = 0.
Proof. reflexivity. Qed.
Lemma size_pos {A} (l : list A) : 0 <= size l.
Proof. unfold size. lia. Qed.
#[global] Hint Rewrite @size_app' @size_cons @size_nil : sizes.

Lemma vec_at_app {A} (pre l : list A) k : vec_at (pre ++ l) (length pre + k) = vec_at l k.
Proof. unfold vec_at. rewrite nth_error_app2 by lia. now replace (length pre + k - length pre)%nat with k by lia. Qed.
Lemma vec_at_app0 {A} (pre l : list A) : vec_at (pre ++ l) (length pre) = vec_at l 0.
Proof. rewrite <- (vec_at_app pre l 0). f_equal. lia. Qed.

Lemma vec_at_some {A} (l : list A) i : (i < length l)%nat -> exists x, vec_at l i = Ok x /\ In x l.
Proof.
  intros H. unfold vec_at. destruct (nth_error l i) as [x|] eqn:E.
  - exists x. split; trivial. eapply nth_error_In; eauto.
  - apply nth_error_None in E. lia.
Qed.

Ltac all7_tac := unfold all7;
  repeat first [apply Forall_nil | apply Forall_cons; [unfold is_u7 in *; lia|]].

(* ---- digits ------------------------------------------------------------------ *)

Lemma le7_length n v : length (le7 n v) = n.
Proof. revert v. induction n; intros; cbn [le7 length]; auto. Qed.
Lemma le7_all7 n v : all7 (le7 n v).
Proof.
  revert v. induction n; intros; cbn [le7]; constructor.
  - unfold is_u7. apply Z.mod_pos_bound. lia.
  - apply IHn.
Qed.
Lemma val7_le7 n v : 0 <= v < 128 ^ Z.of_nat n -> val7 (le7 n v) = v.
Proof.
  revert v. induction n; intros v H; cbn [le7 val7].
  - change (128 ^ Z.of_nat 0) with 1 in H. lia.
  - rewrite Nat2Z.inj_succ, Z.pow_succ_r in H by lia. rewrite IHn.
    + pose proof (Z.div_mod v 128). lia.
    + split; [apply Z.div_pos; lia|apply Z.div_lt_upper_bound; lia].
Qed.

Lemma digit0 v : u8 (Z.land v 127) = v mod 128.
Proof. rewrite land_127. unfold u8. apply Z.mod_small. pose proof (Z.mod_pos_bound v 128). lia. Qed.
Lemma digit k v : 0 <= k -> u8 (Z.land (Z.shiftr v k) 127) = v / 2 ^ k mod 128.
Proof. intros. rewrite digit0, shiftr_div by trivial. reflexivity. Qed.

Lemma le7_2 v : le7 2 v = [v mod 128; v / 128 mod 128].
Proof. reflexivity. Qed.
Lemma le7_4 v : le7 4 v = [v mod 128; v / 128 mod 128; v / 16384 mod 128; v / 2097152 mod 128].
Proof. cbn [le7]. rewrite !Z.div_div by lia. reflexivity. Qed.
Lemma le7_5 v : le7 5 v = [v mod 128; v / 128 mod 128; v / 16384 mod 128; v / 2097152 mod 128;
                           v / 268435456 mod 128].
Proof. cbn [le7]. rewrite !Z.div_div by lia. reflexivity. Qed.

Lemma add7_eq dbg s v : 0 <= v -> (dbg = true -> v < 128) ->
  add_uint7 dbg s v = Ok (mkSx (sx_id s) (sx_data s ++ [v mod 128])).
Proof.
  intros H D. unfold add_uint7, push. rewrite digit0.
  destruct dbg; cbn [check]; trivial. unfold assert_.
  destruct (Z.leb_spec v 127); [reflexivity|]. specialize (D eq_refl). lia.
Qed.
Lemma add14_eq dbg s v : 0 <= v -> (dbg = true -> v < 16384) ->
  add_uint14 dbg s v = Ok (mkSx (sx_id s) (sx_data s ++ le7 2 v)).
Proof.
  intros H D. unfold add_uint14, push. rewrite le7_2, digit0, digit by lia.
  destruct dbg; cbn [check]; trivial. unfold assert_.
  destruct (Z.leb_spec v 16383); [reflexivity|]. specialize (D eq_refl). lia.
Qed.
Lemma add28_eq dbg s v : 0 <= v -> (dbg = true -> v < 268435456) ->
  add_uint28 dbg s v = Ok (mkSx (sx_id s) (sx_data s ++ le7 4 v)).
Proof.
  intros H D. unfold add_uint28, push. rewrite le7_4, digit0, !digit by lia.
  destruct dbg; cbn [check]; trivial. unfold assert_.
  destruct (Z.leb_spec v 268435455); [reflexivity|]. specialize (D eq_refl). lia.
Qed.
Lemma add32_eq s v : is_u32 v ->
  add_uint32 s v = Ok (mkSx (sx_id s) (sx_data s ++ le7 5 v)).
Proof.
  intros H. unfold add_uint32, push. rewrite le7_5, digit0, !digit by lia.
  do 2 f_equal. f_equal. do 4 f_equal. f_equal.
  unfold u8. rewrite land_15, shiftr_div by lia. unfold is_u32 in H. pow2_simpl.
  rewrite (Z.mod_small (_ mod 16)) by dlia.
  rewrite !Z.mod_small by dlia. reflexivity.
Qed.

(* ---- reading ------------------------------------------------------------------- *)

Lemma make14_at id pre a b post :
  make_uint14 (mkSx id (pre ++ a :: b :: post)) (length pre) = Ok (u16 (Z.lor a (Z.shiftl b 7))).
Proof.
  unfold make_uint14, assert_. cbn [sx_data].
  replace (Z.of_nat (length pre) + 1 <? size (pre ++ a :: b :: post)) with true.
  2:{ symmetry. apply Z.ltb_lt. autorewrite with sizes. pose proof (size_pos post). unfold size at 1. lia. }
  cbn [bind]. rewrite vec_at_app, vec_at_app0. reflexivity.
Qed.
Lemma make28_at id pre a b c d post :
  make_uint28 (mkSx id (pre ++ a :: b :: c :: d :: post)) (length pre) =
  Ok (u32 (Z.lor (Z.lor (Z.lor a (Z.shiftl b 7)) (Z.shiftl c 14)) (Z.shiftl d 21))).
Proof.
  unfold make_uint28, assert_. cbn [sx_data].
  replace (Z.of_nat (length pre) + 3 <? _) with true.
  2:{ symmetry. apply Z.ltb_lt. autorewrite with sizes. pose proof (size_pos post). unfold size at 1. lia. }
  cbn [bind]. rewrite !vec_at_app, vec_at_app0. reflexivity.
Qed.
Lemma make32_at id pre a b c d e post :
  make_uint32 (mkSx id (pre ++ a :: b :: c :: d :: e :: post)) (length pre) =
  Ok (u32 (Z.lor (Z.lor (Z.lor (Z.lor a (Z.shiftl b 7)) (Z.shiftl c 14)) (Z.shiftl d 21))
                 (Z.shiftl (Z.land e 0x0F) 28))).
Proof.
  unfold make_uint32, assert_. cbn [sx_data].
  replace (Z.of_nat (length pre) + 4 <? _) with true.
  2:{ symmetry. apply Z.ltb_lt. autorewrite with sizes. pose proof (size_pos post). unfold size at 1. lia. }
  cbn [bind]. rewrite !vec_at_app, vec_at_app0. reflexivity.
Qed.

Lemma nth_error_lt {A} (l : list A) n a : nth_error l n = Some a -> (n < length l)%nat.
Proof. intros H. apply nth_error_Some. congruence. Qed.
Lemma make14_nth s n a b : nth_error (sx_data s) n = Some a -> nth_error (sx_data s) (n + 1) = Some b ->
  make_uint14 s n = Ok (u16 (Z.lor a (Z.shiftl b 7))).
Proof.
  intros A B. unfold make_uint14, assert_. pose proof (nth_error_lt _ _ _ B).
  replace (Z.of_nat n + 1 <? _) with true by (symmetry; apply Z.ltb_lt; unfold size; lia).
  cbn [bind]. unfold vec_at. now rewrite A, B.
Qed.
Lemma make28_nth s n a b c d :
  nth_error (sx_data s) n = Some a -> nth_error (sx_data s) (n + 1) = Some b ->
  nth_error (sx_data s) (n + 2) = Some c -> nth_error (sx_data s) (n + 3) = Some d ->
  make_uint28 s n = Ok (u32 (Z.lor (Z.lor (Z.lor a (Z.shiftl b 7)) (Z.shiftl c 14)) (Z.shiftl d 21))).
Proof.
  intros A B C D. unfold make_uint28, assert_. pose proof (nth_error_lt _ _ _ D).
  replace (Z.of_nat n + 3 <? _) with true by (symmetry; apply Z.ltb_lt; unfold size; lia).
  cbn [bind]. unfold vec_at. now rewrite A, B, C, D.
Qed.

(* joining 7-bit digits *)
Lemma join2 a b : is_u7 a -> is_u7 b -> u16 (Z.lor a (Z.shiftl b 7)) = a + 128 * b.
Proof. unfold is_u7, u16. intros. rewrite shiftl_mul by lia. rewrite (lor_add_r 7) by (pow2_simpl; dlia). pow2_simpl. rewrite Z.mod_small; lia. Qed.
Lemma join4 a b c d : is_u7 a -> is_u7 b -> is_u7 c -> is_u7 d ->
  u32 (Z.lor (Z.lor (Z.lor a (Z.shiftl b 7)) (Z.shiftl c 14)) (Z.shiftl d 21)) =
  a + 128 * b + 16384 * c + 2097152 * d.
Proof.
  unfold is_u7, u32. intros. rewrite !shiftl_mul by lia. pow2_simpl.
  rewrite (lor_add_r 7 a) by (pow2_simpl; dlia).
  rewrite (lor_add_r 14 (a + b * 128)) by (pow2_simpl; dlia).
  rewrite (lor_add_r 21) by (pow2_simpl; dlia). rewrite Z.mod_small; lia.
Qed.
Lemma join5 a b c d e : is_u7 a -> is_u7 b -> is_u7 c -> is_u7 d -> 0 <= e < 16 ->
  u32 (Z.lor (Z.lor (Z.lor (Z.lor a (Z.shiftl b 7)) (Z.shiftl c 14)) (Z.shiftl d 21))
             (Z.shiftl (Z.land e 0x0F) 28)) =
  a + 128 * b + 16384 * c + 2097152 * d + 268435456 * e.
Proof.
  unfold is_u7, u32. intros. rewrite land_15, !shiftl_mul by lia. rewrite (Z.mod_small e) by lia.
  pow2_simpl.
  rewrite (lor_add_r 7 a) by (pow2_simpl; dlia).
  rewrite (lor_add_r 14 (a + b * 128)) by (pow2_simpl; dlia).
  rewrite (lor_add_r 21 (a + b * 128 + c * 16384)) by (pow2_simpl; dlia).
  rewrite (lor_add_r 28) by (pow2_simpl; dlia).
  rewrite Z.mod_small; lia.
Qed.

Lemma make14_le7 id pre v post : 0 <= v ->
  make_uint14 (mkSx id (pre ++ le7 2 v ++ post)) (length pre) = Ok (v mod 16384).
Proof.
  intros H. rewrite le7_2. cbn [app]. rewrite make14_at.
  assert (is_u7 (v mod 128)) by (unfold is_u7; dlia).
  assert (is_u7 (v / 128 mod 128)) by (unfold is_u7; dlia).
  rewrite join2 by trivial. f_equal. dlia.
Qed.
Lemma make28_le7 id pre v post : 0 <= v ->
  make_uint28 (mkSx id (pre ++ le7 4 v ++ post)) (length pre) = Ok (v mod 268435456).
Proof.
  intros H. rewrite le7_4. cbn [app]. rewrite make28_at.
  rewrite join4 by (unfold is_u7; apply Z.mod_pos_bound; lia). f_equal. dlia.
Qed.
Lemma make32_le7 id pre v post : is_u32 v ->
  make_uint32 (mkSx id (pre ++ le7 5 v ++ post)) (length pre) = Ok v.
Proof.
  intros H. unfold is_u32 in H. rewrite le7_5. cbn [app]. rewrite make32_at.
  rewrite join5; try (unfold is_u7; apply Z.mod_pos_bound; lia). 2: dlia. f_equal. dlia.
Qed.

(* ---- device identities ------------------------------------------------------------ *)

Lemma land_zero_field k m x : 0 <= k -> 0 <= m -> x / 2 ^ k mod 2 ^ m = 0 ->
  Z.land x (Z.shiftl (Z.ones m) k) = 0.
Proof. intros Hk Hm H. rewrite land_field by trivial. rewrite H. reflexivity. Qed.

Lemma manu_mask m0 m1 m2 : is_u7 m0 -> is_u7 m1 -> is_u7 m2 ->
  Z.land (m0 * 65536 + m1 * 256 + m2) 0xFF808080 = 0.
Proof.
  unfold is_u7. intros H0 H1 H2.
  change 0xFF808080 with (Z.lor (Z.shiftl (Z.ones 9) 23)
                           (Z.lor (Z.shiftl (Z.ones 1) 15) (Z.shiftl (Z.ones 1) 7))).
  rewrite !Z.land_lor_distr_r.
  rewrite !land_zero_field; try lia; try reflexivity; pow2_simpl; dlia.
Qed.
Lemma u14_mask v : is_u14 v -> Z.land v 0xC000 = 0.
Proof.
  unfold is_u14. intros H. change 0xC000 with (Z.shiftl (Z.ones 2) 14).
  apply land_zero_field; pow2_simpl; dlia.
Qed.
Lemma u28_mask v : is_u28 v -> Z.land v 0xF0000000 = 0.
Proof.
  unfold is_u28. intros H. change 0xF0000000 with (Z.shiftl (Z.ones 4) 28).
  apply land_zero_field; pow2_simpl; dlia.
Qed.

Lemma check_true dbg c : c = true -> check dbg c = Ok tt.
Proof. intros ->. now destruct dbg. Qed.

Lemma manu_digit0 m0 m1 m2 : is_u7 m0 -> is_u7 m1 -> is_u7 m2 ->
  u8 (Z.land (m0 * 65536 + m1 * 256 + m2) 127) = m2.
Proof. unfold is_u7. intros. rewrite digit0. dlia. Qed.
Lemma manu_digit1 m0 m1 m2 : is_u7 m0 -> is_u7 m1 -> is_u7 m2 ->
  u8 (Z.land (Z.shiftr (m0 * 65536 + m1 * 256 + m2) 8) 127) = m1.
Proof. unfold is_u7. intros. rewrite digit by lia. pow2_simpl. dlia. Qed.
Lemma manu_digit2 m0 m1 m2 : is_u7 m0 -> is_u7 m1 -> is_u7 m2 ->
  u8 (Z.land (Z.shiftr (m0 * 65536 + m1 * 256 + m2) 16) 127) = m0.
Proof. unfold is_u7. intros. rewrite digit by lia. pow2_simpl. dlia. Qed.

Lemma add_identity_eq dbg s m0 m1 m2 f m r :
  is_u7 m0 -> is_u7 m1 -> is_u7 m2 -> is_u14 f -> is_u14 m -> is_u28 r ->
  add_device_identity dbg s (mkDevId (m0 * 65536 + m1 * 256 + m2) f m r) =
  Ok (mkSx (sx_id s) (sx_data s ++ identity_bytes m0 m1 m2 f m r)).
Proof.
  intros H0 H1 H2 Hf Hm Hr. unfold add_device_identity.
  cbn [di_manufacturer di_family di_model di_revision].
  rewrite manu_mask, u14_mask, u14_mask, u28_mask by trivial.
  rewrite !check_true by reflexivity. cbn [bind].
  rewrite manu_digit0, manu_digit1, manu_digit2 by trivial.
  unfold is_u14, is_u28 in *.
  rewrite add14_eq by lia. cbn [bind]. rewrite add14_eq by lia. cbn [bind].
  rewrite add28_eq by lia. unfold push, identity_bytes. cbn [sx_id sx_data].
  now rewrite <- !app_assoc.
Qed.

Lemma make_identity_at id pre m0 m1 m2 f m r post :
  is_u7 m0 -> is_u7 m1 -> is_u7 m2 -> is_u14 f -> is_u14 m -> is_u28 r ->
  make_device_identity (mkSx id (pre ++ identity_bytes m0 m1 m2 f m r ++ post)) (length pre) =
  Ok (mkDevId (m0 * 65536 + m1 * 256 + m2) f m r).
Proof.
  intros H0 H1 H2 Hf Hm Hr. unfold make_device_identity, assert_, identity_bytes. cbn [sx_data].
  replace (Z.of_nat (length pre) + 10 <? _) with true.
  2:{ symmetry. apply Z.ltb_lt. rewrite le7_4, !le7_2. cbn [app]. autorewrite with sizes.
      pose proof (size_pos post). unfold size at 1. lia. }
  cbn [bind]. rewrite <- !app_assoc. cbn [app].
  rewrite !vec_at_app, vec_at_app0. cbn [vec_at nth_error bind].
  replace (pre ++ m0 :: m1 :: m2 :: le7 2 f ++ le7 2 m ++ le7 4 r ++ post)
    with ((pre ++ [m0; m1; m2]) ++ le7 2 f ++ (le7 2 m ++ le7 4 r ++ post)) at 1
    by now rewrite <- !app_assoc.
  replace (length pre + 3)%nat with (length (pre ++ [m0; m1; m2])) by (rewrite app_length; cbn; lia).
  unfold is_u14, is_u28 in *.
  rewrite make14_le7 by lia. cbn [bind].
  replace (pre ++ m0 :: m1 :: m2 :: le7 2 f ++ le7 2 m ++ le7 4 r ++ post)
    with ((pre ++ [m0; m1; m2] ++ le7 2 f) ++ le7 2 m ++ (le7 4 r ++ post)) at 1
    by now rewrite <- !app_assoc.
  replace (length pre + 5)%nat with (length (pre ++ [m0; m1; m2] ++ le7 2 f))
    by (rewrite !app_length, le7_length; cbn; lia).
  rewrite make14_le7 by lia. cbn [bind].
  replace (pre ++ m0 :: m1 :: m2 :: le7 2 f ++ le7 2 m ++ le7 4 r ++ post)
    with ((pre ++ [m0; m1; m2] ++ le7 2 f ++ le7 2 m) ++ le7 4 r ++ post) at 1
    by now rewrite <- !app_assoc.
  replace (length pre + 7)%nat with (length (pre ++ [m0; m1; m2] ++ le7 2 f ++ le7 2 m))
    by (rewrite !app_length, !le7_length; cbn; lia).
  rewrite make28_le7 by lia. cbn [bind].
  rewrite !Z.mod_small by lia. do 2 f_equal.
  unfold is_u7 in *. unfold u32. rewrite !shiftl_mul by lia. pow2_simpl.
  rewrite (lor_add 16 (m0 * 65536)) by (pow2_simpl; dlia).
  rewrite (lor_add 8) by (pow2_simpl; dlia). apply Z.mod_small. lia.
Qed.

Lemma identity_bytes_length m0 m1 m2 f m r : length (identity_bytes m0 m1 m2 f m r) = 11%nat.
Proof. unfold identity_bytes. rewrite !app_length, !le7_length. reflexivity. Qed.

Lemma all7_app a b : all7 a -> all7 b -> all7 (a ++ b).
Proof. intros. now apply Forall_app. Qed.

Lemma identity_bytes_all7 m0 m1 m2 f m r : is_u7 m0 -> is_u7 m1 -> is_u7 m2 ->
  all7 (identity_bytes m0 m1 m2 f m r).
Proof.
  intros. unfold identity_bytes. repeat apply all7_app; try apply le7_all7.
  all7_tac.
Qed.

Lemma is_7bit_all7 s : wf_sysex s -> (is_7bit s = true <-> all7 (sx_data s)).
Proof.
  intros [_ W]. unfold is_7bit, all7. rewrite forallb_forall, Forall_forall.
  rewrite Forall_forall in W. split; intros H x I; specialize (H x I); specialize (W x I);
    unfold is_u8, is_u7 in *.
  - apply Z.eqb_eq in H. rewrite land_128 in H. dlia.
  - apply Z.eqb_eq. rewrite land_128. dlia.
Qed.

(* ---- universal SysEx ------------------------------------------------------------------ *)

Lemma reply_eq_short dbg b f m r dev : 1 <= b < 128 -> is_u14 f -> is_u14 m -> is_u28 r ->
  identity_reply dbg (b * 65536) f m r dev =
  Ok (mkSx 0x7E0000 ([dev; 6; 2; b] ++ le7 2 f ++ le7 2 m ++ le7 4 r)).
Proof.
  intros Hb Hf Hm Hr. unfold identity_reply, push. cbn [sx_id sx_data app].
  replace (b * 65536 <? 0x10000) with false by (symmetry; apply Z.ltb_ge; lia).
  replace (u8 (Z.land (Z.shiftr (b * 65536) 16) 0x7F)) with b
    by (rewrite digit by lia; pow2_simpl; dlia).
  unfold is_u14, is_u28 in *. cbn [sx_id sx_data app].
  rewrite add14_eq by lia. cbn [bind]. rewrite add14_eq by lia. cbn [bind].
  rewrite add28_eq by lia. cbn [sx_id sx_data app]. reflexivity.
Qed.

Lemma reply_eq_long dbg b c f m r dev : is_u7 b -> is_u7 c -> is_u14 f -> is_u14 m -> is_u28 r ->
  identity_reply dbg (b * 256 + c) f m r dev =
  Ok (mkSx 0x7E0000 ([dev; 6; 2; 0; b; c] ++ le7 2 f ++ le7 2 m ++ le7 4 r)).
Proof.
  unfold is_u7. intros Hb Hc Hf Hm Hr. unfold identity_reply, push. cbn [sx_id sx_data app].
  replace (b * 256 + c <? 0x10000) with true by (symmetry; apply Z.ltb_lt; lia).
  replace (u8 (Z.land (Z.shiftr (b * 256 + c) 8) 0x7F)) with b
    by (rewrite digit by lia; pow2_simpl; dlia).
  replace (u8 (Z.land (b * 256 + c) 0x7F)) with c by (rewrite digit0; dlia).
  unfold is_u14, is_u28 in *. cbn [sx_id sx_data app].
  rewrite add14_eq by lia. cbn [bind]. rewrite add14_eq by lia. cbn [bind].
  rewrite add28_eq by lia. cbn [sx_id sx_data app]. reflexivity.
Qed.

(* reading the fields of a reply from a concrete list *)
Lemma identity_short b f0 f1 m0 m1 r0 r1 r2 r3 dev post : b <> 0 -> 0 <= b < 256 ->
  is_u7 f0 -> is_u7 f1 -> is_u7 m0 -> is_u7 m1 -> is_u7 r0 -> is_u7 r1 -> is_u7 r2 -> is_u7 r3 ->
  reply_identity (mkSx 0x7E0000 (dev :: 6 :: 2 :: b :: f0 :: f1 :: m0 :: m1 :: r0 :: r1 :: r2 :: r3 :: post)) =
  Ok (mkDevId (b * 65536) (f0 + 128 * f1) (m0 + 128 * m1) (r0 + 128 * r1 + 16384 * r2 + 2097152 * r3)).
Proof.
  intros Hb0 Hb F0 F1 M0 M1 R0 R1 R2 R3. unfold reply_identity. cbn [sx_data vec_at nth_error bind].
  replace (b =? 0) with false by (symmetry; now apply Z.eqb_neq). cbn [negb bind].
  erewrite make14_nth by reflexivity. cbn [bind].
  erewrite make14_nth by reflexivity. cbn [bind].
  erewrite make28_nth by reflexivity. cbn [bind].
  rewrite !join2, join4 by trivial. do 2 f_equal. unfold u32. rewrite shiftl_mul by lia. pow2_simpl.
  apply Z.mod_small. lia.
Qed.
Lemma identity_long b c f0 f1 m0 m1 r0 r1 r2 r3 dev post : is_u7 b -> is_u7 c ->
  is_u7 f0 -> is_u7 f1 -> is_u7 m0 -> is_u7 m1 -> is_u7 r0 -> is_u7 r1 -> is_u7 r2 -> is_u7 r3 ->
  reply_identity (mkSx 0x7E0000 (dev :: 6 :: 2 :: 0 :: b :: c :: f0 :: f1 :: m0 :: m1 :: r0 :: r1 :: r2 :: r3 :: post)) =
  Ok (mkDevId (b * 256 + c) (f0 + 128 * f1) (m0 + 128 * m1) (r0 + 128 * r1 + 16384 * r2 + 2097152 * r3)).
Proof.
  intros Hb Hc F0 F1 M0 M1 R0 R1 R2 R3. unfold reply_identity. cbn [sx_data vec_at nth_error bind].
  change (0 =? 0) with true. cbn [negb bind].
  erewrite make14_nth by reflexivity. cbn [bind].
  erewrite make14_nth by reflexivity. cbn [bind].
  erewrite make28_nth by reflexivity. cbn [bind].
  rewrite !join2, join4 by trivial. do 2 f_equal. unfold u32, is_u7 in *. rewrite shiftl_mul by lia. pow2_simpl.
  rewrite (lor_add 8) by (pow2_simpl; dlia). apply Z.mod_small. lia.
Qed.

Lemma le7_2_bounds v : is_u14 v ->
  exists a b, le7 2 v = [a; b] /\ is_u7 a /\ is_u7 b /\ a + 128 * b = v.
Proof.
  unfold is_u14, is_u7. intros. exists (v mod 128), (v / 128 mod 128). rewrite le7_2.
  repeat split; try (apply Z.mod_pos_bound; lia). dlia.
Qed.
Lemma le7_4_bounds v : is_u28 v ->
  exists a b c d, le7 4 v = [a; b; c; d] /\ is_u7 a /\ is_u7 b /\ is_u7 c /\ is_u7 d /\
                  a + 128 * b + 16384 * c + 2097152 * d = v.
Proof.
  unfold is_u28, is_u7. intros. exists (v mod 128), (v / 128 mod 128), (v / 16384 mod 128), (v / 2097152 mod 128).
  rewrite le7_4. repeat split; try (apply Z.mod_pos_bound; lia). dlia.
Qed.

Lemma reply_short_ok dbg b f m r dev : 1 <= b < 128 -> is_u14 f -> is_u14 m -> is_u28 r -> is_u8 dev ->
  exists s, identity_reply dbg (b * 65536) f m r dev = Ok s /\
    s = mkSx 0x7E0000 ([dev; 6; 2; b] ++ le7 2 f ++ le7 2 m ++ le7 4 r) /\
    size (sx_data s) = 12 /\
    (is_u7 dev -> all7 (sx_data s)) /\
    is_identity_reply s = Ok true /\ as_identity_reply_view dbg s = Ok (Some s) /\
    is_identity_request s = Ok false /\
    view_device_id s = Ok dev /\
    reply_identity s = Ok (mkDevId (b * 65536) f m r).
Proof.
  intros Hb Hf Hm Hr Hd. eexists. split; [now apply reply_eq_short|].
  destruct (le7_2_bounds f Hf) as (f0 & f1 & Ef & F0 & F1 & <-).
  destruct (le7_2_bounds m Hm) as (m0 & m1 & Em & M0 & M1 & <-).
  destruct (le7_4_bounds r Hr) as (r0 & r1 & r2 & r3 & Er & R0 & R1 & R2 & R3 & <-).
  rewrite Ef, Em, Er. cbn [app].
  split; [reflexivity|]. split; [reflexivity|]. split.
  { intros. unfold all7. cbn [sx_data]. all7_tac. }
  assert (V : is_identity_reply (mkSx 0x7E0000 [dev; 6; 2; b; f0; f1; m0; m1; r0; r1; r2; r3]) = Ok true).
  { unfold is_identity_reply, universal_sysex_type_of, universal_sysex_subtype_of. cbn.
    replace (b =? 0) with false by (symmetry; apply Z.eqb_neq; lia). reflexivity. }
  split; [exact V|]. split.
  { unfold as_identity_reply_view, identity_reply_validate. rewrite V. cbn [bind].
    unfold message_view. rewrite !check_true by reflexivity. reflexivity. }
  split; [reflexivity|]. split; [reflexivity|].
  apply identity_short; trivial; lia.
Qed.
Lemma reply_long_ok dbg b c f m r dev : is_u7 b -> is_u7 c -> is_u14 f -> is_u14 m -> is_u28 r -> is_u8 dev ->
  exists s, identity_reply dbg (b * 256 + c) f m r dev = Ok s /\
    s = mkSx 0x7E0000 ([dev; 6; 2; 0; b; c] ++ le7 2 f ++ le7 2 m ++ le7 4 r) /\
    size (sx_data s) = 14 /\
    (is_u7 dev -> all7 (sx_data s)) /\
    is_identity_reply s = Ok true /\ as_identity_reply_view dbg s = Ok (Some s) /\
    is_identity_request s = Ok false /\
    view_device_id s = Ok dev /\
    reply_identity s = Ok (mkDevId (b * 256 + c) f m r).
Proof.
  intros Hb Hc Hf Hm Hr Hd. eexists. split; [now apply reply_eq_long|].
  destruct (le7_2_bounds f Hf) as (f0 & f1 & Ef & F0 & F1 & <-).
  destruct (le7_2_bounds m Hm) as (m0 & m1 & Em & M0 & M1 & <-).
  destruct (le7_4_bounds r Hr) as (r0 & r1 & r2 & r3 & Er & R0 & R1 & R2 & R3 & <-).
  rewrite Ef, Em, Er. cbn [app].
  split; [reflexivity|]. split; [reflexivity|]. split.
  { intros. unfold all7. cbn [sx_data]. all7_tac. }
  assert (V : is_identity_reply (mkSx 0x7E0000 [dev; 6; 2; 0; b; c; f0; f1; m0; m1; r0; r1; r2; r3]) = Ok true)
    by reflexivity.
  split; [exact V|]. split.
  { unfold as_identity_reply_view, identity_reply_validate. rewrite V. cbn [bind].
    unfold message_view. rewrite !check_true by reflexivity. reflexivity. }
  split; [reflexivity|]. split; [reflexivity|].
  apply identity_long; trivial.
Qed.

(* what the classification functions read *)
Lemma type_of_eq s : universal_sysex_type_of s =
  Ok (match sx_data s with
      | _ :: b :: _ => if (sx_id s =? 0x7F0000) || (sx_id s =? 0x7E0000)
                       then u16 (Z.lor (Z.shiftr (sx_id s) 8) b) else 0
      | _ => 0
      end).
Proof.
  unfold universal_sysex_type_of, is_universal_sysex_message, universal_realtime, universal_non_realtime.
  destruct (sx_data s) as [|a [|b l]]; try (rewrite andb_false_r; reflexivity).
  replace (2 <=? size (a :: b :: l)) with true
    by (symmetry; apply Z.leb_le; autorewrite with sizes; pose proof (size_pos l); lia).
  rewrite andb_true_r. now destruct (_ || _).
Qed.
Lemma subtype_of_eq s : universal_sysex_subtype_of s =
  Ok (match sx_data s with
      | _ :: _ :: c :: _ => if (sx_id s =? 0x7F0000) || (sx_id s =? 0x7E0000) then c else 0
      | _ => 0
      end).
Proof.
  unfold universal_sysex_subtype_of, is_universal_sysex_message, universal_realtime, universal_non_realtime.
  destruct (sx_data s) as [|a [|b [|c l]]]; try (rewrite andb_false_r; reflexivity).
  replace (2 <=? size (a :: b :: c :: l)) with true
    by (symmetry; apply Z.leb_le; autorewrite with sizes; pose proof (size_pos l); lia).
  replace (2 <? size (a :: b :: c :: l)) with true
    by (symmetry; apply Z.ltb_lt; autorewrite with sizes; pose proof (size_pos l); lia).
  rewrite !andb_true_r. now destruct (_ || _).
Qed.
Lemma device_of_eq s : universal_sysex_device_id_of s =
  Ok (match sx_data s with
      | a :: _ :: _ => if (sx_id s =? 0x7F0000) || (sx_id s =? 0x7E0000) then a else 255
      | _ => 255
      end).
Proof.
  unfold universal_sysex_device_id_of, is_universal_sysex_message, universal_realtime, universal_non_realtime.
  destruct (sx_data s) as [|a [|b l]]; try (rewrite andb_false_r; reflexivity).
  replace (2 <=? size (a :: b :: l)) with true
    by (symmetry; apply Z.leb_le; autorewrite with sizes; pose proof (size_pos l); lia).
  rewrite andb_true_r. now destruct (_ || _).
Qed.

Lemma type_7E b : is_u8 b -> u16 (Z.lor (Z.shiftr 0x7E0000 8) b) = 0x7E00 + b.
Proof.
  unfold is_u8, u16. intros. change (Z.shiftr 0x7E0000 8) with 0x7E00.
  rewrite (lor_add 8) by (pow2_simpl; dlia). apply Z.mod_small. lia.
Qed.
Lemma type_7F b : is_u8 b -> u16 (Z.lor (Z.shiftr 0x7F0000 8) b) = 0x7F00 + b.
Proof.
  unfold is_u8, u16. intros. change (Z.shiftr 0x7F0000 8) with 0x7F00.
  rewrite (lor_add 8) by (pow2_simpl; dlia). apply Z.mod_small. lia.
Qed.

(* exactly the messages accepted as identity replies *)
Lemma is_reply_total s : exists r, is_identity_reply s = Ok r.
Proof.
  unfold is_identity_reply. rewrite type_of_eq, subtype_of_eq. cbn [bind].
  destruct (_ =? 0x7E06); [|eauto]. destruct (_ =? 2); [|eauto].
  destruct (Z.eqb_spec (size (sx_data s)) 12) as [E|E]; [|eauto].
  unfold size in E. destruct (vec_at_some (sx_data s) 3) as (x & -> & _); [lia|]. cbn [bind]. eauto.
Qed.

Lemma is_reply_iff s : wf_sysex s ->
  is_identity_reply s = Ok true <->
  sx_id s = 0x7E0000 /\
  ((exists dev b rest, sx_data s = dev :: 6 :: 2 :: b :: rest /\ b <> 0 /\ length rest = 8%nat) \/
   (exists dev rest, sx_data s = dev :: 6 :: 2 :: rest /\ length rest = 11%nat)).
Proof.
  intros [_ W]. unfold is_identity_reply. rewrite type_of_eq, subtype_of_eq. cbn [bind].
  split.
  - destruct (sx_data s) as [|a [|b [|c l]]]; try discriminate.
    { destruct (_ || _); [|discriminate]. destruct (_ =? 0x7E06); discriminate. }
    destruct (Z.eqb_spec (sx_id s) 0x7F0000) as [E|E].
    { rewrite E. cbn [orb]. assert (Wb : is_u8 b) by exact (Forall_inv (Forall_inv_tail W)).
      rewrite type_7F by trivial. unfold is_u8 in Wb.
      destruct (Z.eqb_spec (0x7F00 + b) 0x7E06); [lia|discriminate]. }
    destruct (Z.eqb_spec (sx_id s) 0x7E0000) as [E'|E']; cbn [orb]; [|discriminate].
    rewrite E'. assert (Wb : is_u8 b) by exact (Forall_inv (Forall_inv_tail W)). rewrite type_7E by trivial.
    destruct (Z.eqb_spec (0x7E00 + b) 0x7E06) as [Eb|]; [|discriminate].
    destruct (Z.eqb_spec c 2) as [->|]; [|discriminate].
    assert (b = 6) by lia. subst b.
    intros H. split; [trivial|].
    destruct (Z.eqb_spec (size (a :: 6 :: 2 :: l)) 12) as [S12|S12].
    + destruct l as [|d l]; [discriminate|]. left. exists a, d, l. split; [trivial|].
      cbn [vec_at nth_error bind] in H. rewrite S12 in H.
      destruct (Z.eqb_spec d 0); [discriminate|]. split; [trivial|]. unfold size in S12. cbn [length] in S12. lia.
    + right. exists a, l. split; [trivial|].
      destruct (Z.eqb_spec (size (a :: 6 :: 2 :: l)) 14) as [S14|]; [|discriminate].
      unfold size in S14. cbn [length] in S14. lia.
  - intros [-> [(dev & b & rest & -> & Hb & L)|(dev & rest & -> & L)]].
    + change ((0x7E0000 =? 0x7F0000) || _) with true. cbn [u16]. change (_ =? 0x7E06) with true. change (2 =? 2) with true.
      unfold size. cbn [length]. rewrite L. cbn -[Z.eqb]. change (Z.of_nat 12 =? 12) with true. cbn [bind].
      destruct (Z.eqb_spec b 0); [contradiction|reflexivity].
    + change ((0x7E0000 =? 0x7F0000) || _) with true. change (_ =? 0x7E06) with true. change (2 =? 2) with true.
      unfold size. cbn [length]. rewrite L. reflexivity.
Qed.

(* an accepted message is read without leaving it *)
Lemma is_request_iff s : wf_sysex s ->
  (exists r, is_identity_request s = Ok r) /\
  (is_identity_request s = Ok true <->
   sx_id s = 0x7E0000 /\ exists dev rest, sx_data s = dev :: 6 :: 1 :: rest).
Proof.
  intros [_ W]. unfold is_identity_request. rewrite type_of_eq, subtype_of_eq. cbn [bind].
  split; [destruct (_ =? 0x7E06); eauto|].
  split.
  - destruct (sx_data s) as [|a [|b [|c l]]]; try discriminate.
    { destruct (_ || _); [|discriminate]. destruct (_ =? 0x7E06); discriminate. }
    destruct (Z.eqb_spec (sx_id s) 0x7F0000) as [E|E].
    { rewrite E. cbn [orb]. assert (Wb : is_u8 b) by exact (Forall_inv (Forall_inv_tail W)).
      rewrite type_7F by trivial. unfold is_u8 in Wb.
      destruct (Z.eqb_spec (0x7F00 + b) 0x7E06); [lia|discriminate]. }
    destruct (Z.eqb_spec (sx_id s) 0x7E0000) as [E'|E']; cbn [orb]; [|discriminate].
    rewrite E'. assert (Wb : is_u8 b) by exact (Forall_inv (Forall_inv_tail W)). rewrite type_7E by trivial.
    destruct (Z.eqb_spec (0x7E00 + b) 0x7E06) as [Eb|]; [|discriminate].
    destruct (Z.eqb_spec c 1) as [->|]; [|discriminate].
    assert (b = 6) by lia. subst b. intros _. split; [trivial|]. now exists a, l.
  - intros [-> (dev & rest & ->)]. reflexivity.
Qed.

Lemma reply_identity_safe s : wf_sysex s -> is_identity_reply s = Ok true -> exists i, reply_identity s = Ok i.
Proof.
  intros W H. apply is_reply_iff in H; trivial.
  destruct H as [Hid [(dev & b & rest & D & Hb & L)|(dev & rest & D & L)]]; destruct s as [id d]; cbn [sx_id sx_data] in *; subst id d.
  - do 8 (destruct rest as [|? rest]; [discriminate|]). destruct rest; [|discriminate].
    unfold reply_identity. cbn [sx_data vec_at nth_error bind].
    destruct (Z.eqb_spec b 0); [contradiction|]. cbn [negb bind]. 
    erewrite make14_nth by reflexivity. cbn [bind].
    erewrite make14_nth by reflexivity. cbn [bind].
    erewrite make28_nth by reflexivity. cbn [bind]. eauto.
  - do 11 (destruct rest as [|? rest]; [discriminate|]). destruct rest; [|discriminate].
    unfold reply_identity. cbn [sx_data vec_at nth_error bind].
    destruct (Z.eqb_spec z 0); cbn [negb bind].
    + erewrite make14_nth by reflexivity. cbn [bind].
      erewrite make14_nth by reflexivity. cbn [bind].
      erewrite make28_nth by reflexivity. cbn [bind]. eauto.
    + erewrite make14_nth by reflexivity. cbn [bind].
      erewrite make14_nth by reflexivity. cbn [bind].
      erewrite make28_nth by reflexivity. cbn [bind]. eauto.
Qed.

Lemma le7_2_of a b : is_u7 a -> is_u7 b -> le7 2 (a + 128 * b) = [a; b].
Proof. unfold is_u7. intros. rewrite le7_2. f_equal; [dlia|f_equal; dlia]. Qed.
Lemma le7_4_of a b c d : is_u7 a -> is_u7 b -> is_u7 c -> is_u7 d ->
  le7 4 (a + 128 * b + 16384 * c + 2097152 * d) = [a; b; c; d].
Proof. unfold is_u7. intros. rewrite le7_4. f_equal; [dlia|f_equal; [dlia|f_equal; [dlia|f_equal; dlia]]]. Qed.

Ltac all7_inv H :=
  repeat match type of H with
  | Forall _ (_ :: _) => let h := fresh "U" in pose proof (Forall_inv H) as h; apply Forall_inv_tail in H
  end.

(* reading and writing again gives the message back, except that a 14 byte message with a
   one byte manufacturer has two bytes that no field covers *)
Lemma reply_reencode dbg s : wf_sysex s -> is_identity_reply s = Ok true -> all7 (sx_data s) ->
  (size (sx_data s) = 14 -> nth_error (sx_data s) 3 = Some 0) ->
  exists dev i, view_device_id s = Ok dev /\ reply_identity s = Ok i /\
    identity_reply dbg (di_manufacturer i) (di_family i) (di_model i) (di_revision i) dev = Ok s.
Proof.
  intros W H A N. apply is_reply_iff in H; trivial.
  destruct H as [Hid [(dev & b & rest & D & Hb & L)|(dev & rest & D & L)]]; destruct s as [id d];
    cbn [sx_id sx_data] in *; subst id d.
  - do 8 (destruct rest as [|? rest]; [discriminate|]). destruct rest; [|discriminate].
    unfold all7 in A. all7_inv A. exists dev. eexists. split; [reflexivity|]. split.
    { apply identity_short; trivial. unfold is_u7 in *. lia. }
    cbn [di_manufacturer di_family di_model di_revision]. rewrite reply_eq_short; unfold is_u7, is_u14, is_u28 in *; try lia.
    rewrite !le7_2_of, le7_4_of by trivial. reflexivity.
  - do 11 (destruct rest as [|? rest]; [discriminate|]). destruct rest; [|discriminate].
    specialize (N eq_refl). cbn [nth_error] in N. apply (f_equal (fun o => match o with Some x => x | None => 1 end)) in N.
    subst z. unfold all7 in A. all7_inv A. exists dev. eexists. split; [reflexivity|]. split.
    { apply identity_long; trivial. }
    cbn [di_manufacturer di_family di_model di_revision]. rewrite reply_eq_long; unfold is_u14, is_u28 in *; trivial; try (unfold is_u7 in *; lia).
    rewrite !le7_2_of, le7_4_of by trivial. reflexivity.
Qed.

Lemma set_device_id_ok dbg s i : is_u7 i -> sx_data s <> [] ->
  exists s', set_device_id dbg s i = Ok s' /\ sx_id s' = sx_id s /\
    message_device_id s' = Ok i /\ length (sx_data s') = length (sx_data s) /\
    forall n, n <> O -> nth_error (sx_data s') n = nth_error (sx_data s) n.
Proof.
  intros Hi Hs. unfold set_device_id. destruct (sx_data s) as [|a l]; [contradiction|].
  unfold is_u7 in Hi. rewrite !check_true by (trivial; apply Z.ltb_lt; lia). cbn [bind vec_set].
  replace (u8 (Z.land i 0x7F)) with i by (rewrite digit0; dlia).
  eexists. split; [reflexivity|]. repeat split. intros [|n] Hn; [contradiction|reflexivity].
Qed.

Lemma debug_limits s v :
  (127 < v -> add_uint7 true s v = Fault AssertFail) /\
  (16383 < v -> add_uint14 true s v = Fault AssertFail) /\
  (268435455 < v -> add_uint28 true s v = Fault AssertFail).
Proof.
  unfold add_uint7, add_uint14, add_uint28, check, assert_. repeat split; intros H.
  - now destruct (Z.leb_spec v 127); [lia|].
  - now destruct (Z.leb_spec v 16383); [lia|].
  - now destruct (Z.leb_spec v 268435455); [lia|].
Qed.

Lemma fields_ok dbg s v :
  (is_u7 v -> exists s', add_uint7 dbg s v = Ok s' /\ s' = mkSx (sx_id s) (sx_data s ++ le7 1 v) /\
     vec_at (sx_data s') (length (sx_data s)) = Ok v) /\
  (is_u14 v -> exists s', add_uint14 dbg s v = Ok s' /\ s' = mkSx (sx_id s) (sx_data s ++ le7 2 v) /\
     make_uint14 s' (length (sx_data s)) = Ok v) /\
  (is_u28 v -> exists s', add_uint28 dbg s v = Ok s' /\ s' = mkSx (sx_id s) (sx_data s ++ le7 4 v) /\
     make_uint28 s' (length (sx_data s)) = Ok v) /\
  (is_u32 v -> exists s', add_uint32 s v = Ok s' /\ s' = mkSx (sx_id s) (sx_data s ++ le7 5 v) /\
     make_uint32 s' (length (sx_data s)) = Ok v).
Proof.
  unfold is_u7, is_u14, is_u28. split; [|split; [|split]]; intros H; eexists.
  - split; [apply add7_eq; lia|]. split; [reflexivity|]. cbn [sx_data]. rewrite vec_at_app0.
    cbn [vec_at nth_error]. f_equal. apply Z.mod_small. lia.
  - split; [apply add14_eq; lia|]. split; [reflexivity|].
    rewrite <- (app_nil_r (le7 2 v)). rewrite make14_le7 by lia. f_equal. apply Z.mod_small. lia.
  - split; [apply add28_eq; lia|]. split; [reflexivity|].
    rewrite <- (app_nil_r (le7 4 v)). rewrite make28_le7 by lia. f_equal. apply Z.mod_small. lia.
  - split; [now apply add32_eq|]. split; [reflexivity|].
    rewrite <- (app_nil_r (le7 5 v)). now rewrite make32_le7.
Qed.

Lemma fields_anywhere id pre v post :
  (is_u14 v -> make_uint14 (mkSx id (pre ++ le7 2 v ++ post)) (length pre) = Ok v) /\
  (is_u28 v -> make_uint28 (mkSx id (pre ++ le7 4 v ++ post)) (length pre) = Ok v) /\
  (is_u32 v -> make_uint32 (mkSx id (pre ++ le7 5 v ++ post)) (length pre) = Ok v).
Proof.
  unfold is_u14, is_u28. split; [|split]; intros H.
  - rewrite make14_le7 by lia. f_equal. apply Z.mod_small. lia.
  - rewrite make28_le7 by lia. f_equal. apply Z.mod_small. lia.
  - now apply make32_le7.
Qed.

Lemma le7_facts n v :
  length (le7 n v) = n /\ all7 (le7 n v) /\ (0 <= v < 128 ^ Z.of_nat n -> val7 (le7 n v) = v).
Proof. split; [apply le7_length|split; [apply le7_all7|apply val7_le7]]. Qed.

Lemma release_truncates s v : 0 <= v ->
  (exists s', add_uint14 false s v = Ok s' /\ s' = mkSx (sx_id s) (sx_data s ++ le7 2 v) /\
     make_uint14 s' (length (sx_data s)) = Ok (v mod 16384)) /\
  (exists s', add_uint28 false s v = Ok s' /\ s' = mkSx (sx_id s) (sx_data s ++ le7 4 v) /\
     make_uint28 s' (length (sx_data s)) = Ok (v mod 268435456)).
Proof.
  intros H. split; eexists.
  - split; [apply add14_eq; trivial; discriminate|]. split; [reflexivity|].
    rewrite <- (app_nil_r (le7 2 v)). now rewrite make14_le7.
  - split; [apply add28_eq; trivial; discriminate|]. split; [reflexivity|].
    rewrite <- (app_nil_r (le7 4 v)). now rewrite make28_le7.
Qed.

Lemma out_of_message s n : (length (sx_data s) <= n + 1)%nat -> make_uint14 s n = Fault AssertFail.
Proof.
  intros H. unfold make_uint14, assert_.
  replace (Z.of_nat n + 1 <? _) with false by (symmetry; apply Z.ltb_ge; unfold size; lia). reflexivity.
Qed.

Lemma identity_ok dbg s m0 m1 m2 f m r post :
  is_u7 m0 -> is_u7 m1 -> is_u7 m2 -> is_u14 f -> is_u14 m -> is_u28 r ->
  let i := mkDevId (m0 * 65536 + m1 * 256 + m2) f m r in
  exists s', add_device_identity dbg s i = Ok s' /\
    s' = mkSx (sx_id s) (sx_data s ++ identity_bytes m0 m1 m2 f m r) /\
    make_device_identity (mkSx (sx_id s') (sx_data s' ++ post)) (length (sx_data s)) = Ok i.
Proof.
  intros H0 H1 H2 Hf Hm Hr i. eexists. split; [now apply add_identity_eq|]. split; [reflexivity|].
  cbn [sx_data sx_id]. rewrite <- app_assoc. now apply make_identity_at.
Qed.

Lemma classify_total s : exists t st d,
  universal_sysex_type_of s = Ok t /\ universal_sysex_subtype_of s = Ok st /\
  universal_sysex_device_id_of s = Ok d.
Proof.
  rewrite type_of_eq, subtype_of_eq, device_of_eq. eauto 8.
Qed.

Lemma classify_universal dbg s dev b rest : is_u8 b ->
  s = mkSx 0x7E0000 (dev :: b :: rest) \/ s = mkSx 0x7F0000 (dev :: b :: rest) ->
  is_universal_sysex_message s = true /\ message_view dbg s = Ok s /\
  universal_sysex_type_of s = Ok (sx_id s / 256 + b) /\ view_type s = Ok (sx_id s / 256 + b) /\
  message_type s = Ok (sx_id s / 256 + b) /\
  universal_sysex_device_id_of s = Ok dev /\ view_device_id s = Ok dev /\ message_device_id s = Ok dev /\
  let st := match rest with c :: _ => c | [] => 0 end in
  universal_sysex_subtype_of s = Ok st /\ view_subtype s = Ok st /\ message_subtype s = Ok st.
Proof.
  intros Hb H. pose proof (size_pos rest) as P.
  rewrite type_of_eq, subtype_of_eq, device_of_eq.
  unfold is_universal_sysex_message, message_view, view_type, message_type, view_subtype, message_subtype.
  destruct H as [-> | ->]; cbn [sx_id sx_data].
  - replace (2 <=? size (dev :: b :: rest)) with true
      by (symmetry; apply Z.leb_le; autorewrite with sizes; lia).
    replace (size (dev :: b :: rest) <? 2) with false
      by (symmetry; apply Z.ltb_ge; autorewrite with sizes; lia).
    change ((0x7E0000 =? 0x7F0000) || (0x7E0000 =? 0x7E0000)) with true.
    cbn [vec_at nth_error bind]. rewrite type_7E by trivial.
    split; [reflexivity|]. split; [now rewrite !check_true by reflexivity|].
    change (0x7E0000 / 256) with 0x7E00.
    do 6 (split; [reflexivity|]). destruct rest as [|c rest]; [cbn; auto|].
    replace (2 <? size (dev :: b :: c :: rest)) with true; [cbn; auto|].
    symmetry. apply Z.ltb_lt. autorewrite with sizes in *. pose proof (size_pos rest). lia.
  - replace (2 <=? size (dev :: b :: rest)) with true
      by (symmetry; apply Z.leb_le; autorewrite with sizes; lia).
    replace (size (dev :: b :: rest) <? 2) with false
      by (symmetry; apply Z.ltb_ge; autorewrite with sizes; lia).
    change ((0x7F0000 =? 0x7F0000) || (0x7F0000 =? 0x7E0000)) with true.
    cbn [vec_at nth_error bind]. rewrite type_7F by trivial.
    split; [reflexivity|]. split; [now rewrite !check_true by reflexivity|].
    change (0x7F0000 / 256) with 0x7F00.
    do 6 (split; [reflexivity|]). destruct rest as [|c rest]; [cbn; auto|].
    replace (2 <? size (dev :: b :: c :: rest)) with true; [cbn; auto|].
    symmetry. apply Z.ltb_lt. autorewrite with sizes in *. pose proof (size_pos rest). lia.
Qed.

Lemma classify_other s :
  (sx_id s <> 0x7E0000 /\ sx_id s <> 0x7F0000) \/ size (sx_data s) < 2 ->
  is_universal_sysex_message s = false /\ universal_sysex_type_of s = Ok 0 /\
  universal_sysex_subtype_of s = Ok 0 /\ universal_sysex_device_id_of s = Ok 255.
Proof.
  intros H. rewrite type_of_eq, subtype_of_eq, device_of_eq.
  unfold is_universal_sysex_message, universal_realtime, universal_non_realtime. destruct H as [[A B]|C].
  - apply Z.eqb_neq in A, B. rewrite A, B. cbn [orb andb].
    destruct (sx_data s) as [|? [|? [|? ?]]]; auto.
  - destruct (sx_data s) as [|a [|b l]]; [rewrite andb_false_r; auto|rewrite andb_false_r; auto|].
    autorewrite with sizes in C. pose proof (size_pos l). lia.
Qed.

Lemma set_device_id_limits : forall s i,
  (sx_data s = [] -> set_device_id true s i = Fault AssertFail /\ set_device_id false s i = Fault OutOfBounds) /\
  (128 <= i < 256 -> set_device_id true s i = Fault AssertFail /\ set_device_id false s i = set_device_id false s (i - 128)).
Proof.
  intros s i. split.
  - intros E. unfold set_device_id. rewrite E. split; reflexivity.
  - intros I. unfold set_device_id. replace (i <? 128) with false by (symmetry; apply Z.ltb_ge; lia).
    replace (Z.land (i - 128) 0x7F) with (Z.land i 0x7F).
    + split; [now destruct (sx_data s)|reflexivity].
    + rewrite !land_127. replace i with (i - 128 + 1 * 128) at 1 by lia. apply Z.mod_add. lia.
Qed.

Lemma universal_view_ok dbg s :
  ((sx_id s = 0x7E0000 \/ sx_id s = 0x7F0000) /\ (2 <= length (sx_data s))%nat /\
   as_universal_sysex_view dbg s = Ok (Some s) /\
   exists d t st, view_device_id s = Ok d /\ view_type s = Ok t /\ view_subtype s = Ok st) \/
  (((sx_id s <> 0x7E0000 /\ sx_id s <> 0x7F0000) \/ (length (sx_data s) < 2)%nat) /\
   as_universal_sysex_view dbg s = Ok None).
Proof.
  unfold as_universal_sysex_view, is_universal_sysex_message, message_view, universal_realtime, universal_non_realtime, size.
  destruct (Nat.le_gt_cases 2 (length (sx_data s))) as [L|L].
  - replace (2 <=? Z.of_nat (length (sx_data s))) with true by (symmetry; apply Z.leb_le; lia).
    destruct (Z.eqb_spec (sx_id s) 0x7F0000) as [E|E]; [|destruct (Z.eqb_spec (sx_id s) 0x7E0000) as [E'|E']].
    1,2: left; split; [tauto|]; split; [trivial|]; split; [now destruct dbg|];
      destruct (sx_data s) as [|a [|b l]] eqn:D; [cbn in L; lia|cbn in L; lia|];
      exists a; eexists; exists (match l with c :: _ => c | [] => 0 end);
      unfold view_device_id, view_type, view_subtype; rewrite D; split; [reflexivity|]; split; [reflexivity|].
    1,2: unfold size; destruct l as [|c l]; [reflexivity|]; replace (2 <? _) with true; [reflexivity|];
      symmetry; apply Z.ltb_lt; cbn [length]; lia.
    right. split; [tauto|]. reflexivity.
  - right. split; [tauto|]. replace (2 <=? Z.of_nat (length (sx_data s))) with false by (symmetry; apply Z.leb_gt; lia).
    rewrite andb_false_r. reflexivity.
Qed.

Lemma reply_of_identity_ok : forall dbg i,
  (exists b, 1 <= b < 128 /\ di_manufacturer i = b * 65536) \/
  (exists b c, is_u7 b /\ is_u7 c /\ di_manufacturer i = b * 256 + c) ->
  is_u14 (di_family i) -> is_u14 (di_model i) -> is_u28 (di_revision i) ->
  exists s, make_identity_reply dbg i = Ok s /\
    all7 (sx_data s) /\ is_identity_reply s = Ok true /\
    view_device_id s = Ok 127 /\ reply_identity s = Ok i.
Proof.
  intros dbg [mf f m r]. cbn [di_manufacturer di_family di_model di_revision]. intros H F M R.
  unfold make_identity_reply. cbn [di_manufacturer di_family di_model di_revision].
  destruct H as [(b & B & ->) | (b & c & B & C & ->)].
  - destruct (reply_short_ok dbg b f m r 127 B F M R ltac:(unfold is_u8; lia)) as (s & E & _ & _ & A & I & _ & _ & V & Y).
    exists s. repeat split; auto. apply A. unfold is_u7. lia.
  - destruct (reply_long_ok dbg b c f m r 127 B C F M R ltac:(unfold is_u8; lia)) as (s & E & _ & _ & A & I & _ & _ & V & Y).
    exists s. repeat split; auto. apply A. unfold is_u7. lia.
Qed.

Lemma view_data_size_ok s : is_universal_sysex_message s = true -> view_data_size s = total_data_size s - 1 /\ 2 <= view_data_size s.
Proof.
  unfold is_universal_sysex_message, view_data_size, total_data_size. rewrite andb_true_iff, orb_true_iff, !Z.eqb_eq.
  intros [[->| ->] L]; cbn [Z.eqb negb]; (split; [vm_compute (negb _); cbn match; lia|lia]).
Qed.
