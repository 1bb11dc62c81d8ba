(* Lemmas about the conversions through float and about pitch bends. *)
From Coq Require Import ZArith Reals Lra Lia Bool Psatz.
From Flocq Require Import Core IEEE754.BinarySingleNaN.
From Verif Require Import Base Types Floats FloatSpec FloatLemmas FloatProofs FloatPitch.
Local Open Scope R_scope.

Lemma rabs_tri a b c : Rabs (a - c) <= Rabs (a - b) + Rabs (b - c).
Proof. replace (a - c) with ((a - b) + (b - c)) by lra. apply Rabs_triang. Qed.

(* ---- 0..1 through float --------------------------------------------------------------------------------- *)

Lemma to_double_unit n v : (2 <= n <= 32)%Z -> (0 <= v < 2 ^ n)%Z -> 0 <= B2R (to_double_0_1 n v) <= 1.
Proof.
  intros N V. destruct (to_double_char n N v V) as (F & E). rewrite E. destruct (C_real n N) as (CB & NR). pose proof (N_C n N) as NC.
  assert (V0 : 0 <= IZR v <= IZR (2 ^ n) - 1) by (rewrite <- (minus_IZR _ 1); split; [apply (IZR_le 0)|apply IZR_le]; lia).
  destruct (Z.leb_spec v (2 ^ (n - 1))).
  - apply div_bounds; lra.
  - pose proof (div_bounds (IZR v) (IZR (2 ^ n) - 1) 1 ltac:(lra) ltac:(lra)) as D.
    split; [apply (rnd_lower 53 1024); [apply (fmt_int 53 1024 0); lia|lra]|apply (rnd_upper 53 1024); [apply (fmt_int 53 1024 1); lia|lra]].
Qed.

Lemma to_float_char n v : (2 <= n <= 32)%Z -> (0 <= v < 2 ^ n)%Z ->
  is_finite (to_float_0_1 n v) = true /\ B2R (to_float_0_1 n v) = rnd32 (B2R (to_double_0_1 n v)) /\ 0 <= B2R (to_float_0_1 n v) <= 1.
Proof.
  intros N V. destruct (to_double_char n N v V) as (F & _). pose proof (to_double_unit n v N V) as U.
  destruct (narrow_ok (to_double_0_1 n v) 0 F) as (A & B); [lia| |].
  { change (bpow radix2 0) with 1. apply Rabs_le. lra. }
  fold (to_float_0_1 n v) in A, B. split; [exact A|]. split; [exact B|]. rewrite B.
  split; [apply (rnd_lower 24 128); [apply (fmt_int 24 128 0); lia|lra]|apply (rnd_upper 24 128); [apply (fmt_int 24 128 1); lia|lra]].
Qed.

Lemma from_float_uv n f : (2 <= n <= 32)%Z -> is_finite f = true -> from_float_0_1 n f = Ok (uv n (B2R f)).
Proof.
  intros N F. unfold from_float_0_1. destruct (widen_ok f F) as (A & B). rewrite from_double_uv by assumption. now rewrite B.
Qed.

Lemma velocity_float_round_trip v : (0 <= v < 65536)%Z -> velocity_of_float (velocity_as_float v) = Ok v.
Proof.
  intros V. unfold velocity_of_float, velocity_as_float. destruct (to_float_char 16 v ltac:(lia) V) as (F & E & U).
  rewrite from_float_uv by (lia || assumption). f_equal. rewrite E.
  destruct (to_double_char 16 ltac:(lia) v V) as (_ & D). rewrite D.
  change (2 ^ (16 - 1))%Z with 32768%Z in *. change (IZR (2 ^ 16)) with 65536.
  destruct (Z.leb_spec v 32768) as [L|L].
  - rewrite rnd_id.
    + apply (uv_exact 16); change (2 ^ (16 - 1))%Z with 32768%Z; lia.
    + replace (IZR v / 65536) with (IZR v * bpow radix2 (-16)) by (change (bpow radix2 (-16)) with (/ 65536); reflexivity).
      apply (fmt_scaled 24 128); lia.
  - destruct (Z.eq_dec v 65535) as [->|NE].
    + pose proof (max_one 16 ltac:(lia)) as M. change (IZR (2 ^ 16 - 1)) with 65535 in M. change (IZR (2 ^ 16)) with 65536 in M. rewrite M.
      rewrite rnd_id by (apply (fmt_int 24 128 1); lia). apply uv_one.
    + destruct (quotient_error 16 ltac:(lia) v) as (Q & _); [change (2 ^ (16 - 1))%Z with 32768%Z; change (2 ^ 16)%Z with 65536%Z; lia|].
      change (IZR (2 ^ 16)) with 65536 in Q. set (x := rnd64 _) in *. change (bpow radix2 (-21)) with (/ 2097152) in Q.
      apply Rabs_le_inv in Q. assert (VR : 32769 <= IZR v <= 65534) by (split; apply IZR_le; lia).
      assert (AE : Rabs (rnd32 x - x) <= bpow radix2 (0 - 24 - 1)).
      { apply (rnd_abs_error 24 128); [lia|]. change (bpow radix2 0) with 1. apply Rabs_lt. lra. }
      change (bpow radix2 (0 - 24 - 1)) with (/ 33554432) in AE. apply Rabs_le_inv in AE.
      assert (X0 : / 2 < rnd32 x) by lra.
      assert (X1 : rnd32 x < 1) by lra.
      replace v with (2 ^ (16 - 1) + (v - 32768))%Z by (change (2 ^ (16 - 1))%Z with 32768%Z; lia).
      apply uv_upper; [lia|change (2 ^ (16 - 1))%Z with 32768%Z; lia|lra|].
      change (IZR (2 ^ 16)) with 65536. change (IZR (2 ^ (16 - 1))) with 32768. rewrite minus_IZR. apply Rabs_le. lra.
Qed.

(* the ideal value of the double *)
Lemma to_double_error v : (0 <= v < 4294967296)%Z -> Rabs (B2R (to_double_0_1 32 v) * 4294967295 - IZR v) <= / 2 + / 4.
Proof.
  intros V. destruct (to_double_char 32 ltac:(lia) v V) as (_ & D). rewrite D.
  change (2 ^ (32 - 1))%Z with 2147483648%Z in *. change (IZR (2 ^ 32)) with 4294967296.
  destruct (Z.leb_spec v 2147483648) as [L|L].
  - assert (0 <= IZR v <= 2147483648) by (split; apply IZR_le; lia). apply Rabs_le. lra.
  - destruct (Z.eq_dec v 4294967295) as [->|NE].
    + pose proof (max_one 32 ltac:(lia)) as M. change (IZR (2 ^ 32 - 1)) with 4294967295 in M. change (IZR (2 ^ 32)) with 4294967296 in M. rewrite M.
      apply Rabs_le. lra.
    + destruct (quotient_error 32 ltac:(lia) v) as (Q & _); [change (2 ^ (32 - 1))%Z with 2147483648%Z; change (2 ^ 32)%Z with 4294967296%Z; lia|].
      change (IZR (2 ^ 32)) with 4294967296 in Q. set (x := rnd64 _) in *. change (bpow radix2 (-21)) with (/ 2097152) in Q.
      apply Rabs_le_inv in Q. apply Rabs_le. lra.
Qed.

Lemma controller_float_round_trip v : (0 <= v < 4294967296)%Z ->
  exists w, controller_of_float (controller_as_float v) = Ok w /\ (Z.abs (w - v) <= 129)%Z.
Proof.
  intros V. unfold controller_of_float, controller_as_float. destruct (to_float_char 32 v ltac:(lia) V) as (F & E & U).
  exists (uv 32 (B2R (to_float_0_1 32 v))). split; [apply from_float_uv; [lia|assumption]|].
  pose proof (uv_error 32 ltac:(lia) _ U) as UE. pose proof (to_double_error v V) as DE. pose proof (to_double_unit 32 v ltac:(lia) V) as DU.
  rewrite E in UE |- *. change (IZR (2 ^ 32)) with 4294967296 in UE. set (x := B2R (to_double_0_1 32 v)) in *.
  assert (AE : Rabs (rnd32 x - x) <= / 33554432).
  { destruct (Req_dec x 1) as [->|NX].
    - rewrite rnd_id by (apply (fmt_int 24 128 1); lia). apply Rabs_le. lra.
    - apply (rnd_abs_error 24 128 x 0); [lia|]. change (bpow radix2 0) with 1. apply Rabs_lt. lra. }
  apply Rabs_le_inv in UE. apply Rabs_le_inv in DE. apply Rabs_le_inv in AE.
  set (w := uv 32 (rnd32 x)) in *.
  assert (w < v + 130)%Z by (apply lt_IZR; rewrite plus_IZR; lra).
  assert (v - 130 < w)%Z by (apply lt_IZR; rewrite minus_IZR; lra). lia.
Qed.

(* ---- pitch bend ------------------------------------------------------------------------------------------- *)

(* the quotient, exact below the centre *)
Lemma bend_as_double v : (0 <= v < 4294967296)%Z ->
  is_finite (pitch_bend_as_double v) = true /\
  B2R (pitch_bend_as_double v) =
    if (v <=? 2147483648)%Z then (IZR v - 2147483648) / 2147483648 else rnd64 ((IZR v - 2147483648) / 2147483647).
Proof.
  intros V. unfold pitch_bend_as_double. assert (VR : 0 <= IZR v <= 4294967295) by (split; apply IZR_le; lia).
  destruct (Z.leb_spec 2147483648 v) as [L|L].
  - unfold u32. rewrite Z.mod_small by lia. int64 (v - 2147483648)%Z F1 V1. int64 2147483647%Z F2 V2. rewrite minus_IZR in V1.
    apply IZR_le in L as LR.
    destruct (div_ok 53 1024 (f64_of_int (v - 2147483648)) (f64_of_int 2147483647) 33 F1) as (F & E); [rewrite V2; lra|lia| |].
    { rewrite V1, V2, pow_33. apply Rabs_le. lra. }
    split; [exact F|]. unfold d_div. rewrite E, V1, V2.
    destruct (Z.leb_spec v 2147483648) as [M|M]; [|reflexivity]. replace v with 2147483648%Z by lia.
    replace (2147483648 - 2147483648) with 0 by lra. unfold Rdiv. rewrite !Rmult_0_l. apply round_0. apply valid_rnd_N.
  - unfold u32. rewrite Z.mod_small by lia. int64 (2147483648 - v)%Z F1 V1. int64 2147483648%Z F2 V2. rewrite minus_IZR in V1.
    destruct (opp_ok (f64_of_int 2147483648) F2) as (F3 & V3). rewrite V2 in V3. apply IZR_lt in L as LR.
    destruct (div_ok 53 1024 (f64_of_int (2147483648 - v)) (Bopp (f64_of_int 2147483648)) 33 F1) as (F & E); [rewrite V3; lra|lia| |].
    { rewrite V1, V3, pow_33. replace ((2147483648 - IZR v) / - (2147483648)) with ((IZR v - 2147483648) / 2147483648) by field. apply Rabs_le. lra. }
    split; [exact F|]. unfold d_div. rewrite E, V1, V3. destruct (Z.leb_spec v 2147483648); [|lia].
    replace ((2147483648 - IZR v) / - (2147483648)) with ((IZR v - 2147483648) / 2147483648) by field.
    apply rnd_id. replace ((IZR v - 2147483648) / 2147483648) with (IZR (v - 2147483648) * bpow radix2 (-31))
      by (rewrite minus_IZR; change (bpow radix2 (-31)) with (/ 2147483648); reflexivity).
    apply (fmt_scaled 53 1024); lia.
Qed.

(* (d + 1) / 2 *)
Lemma bend_unit d : is_finite d = true -> Rabs (B2R d) <= 4294967296 ->
  let x := d_div (d_plus d (f64_of_int 1)) (f64_of_int 2) in is_finite x = true /\ B2R x = rnd64 (rnd64 (B2R d + 1) / 2).
Proof.
  intros F B. apply Rabs_le_inv in B. int64 1%Z F1 V1. int64 2%Z F2 V2.
  destruct (plus_ok 53 1024 d (f64_of_int 1) 33 F F1) as (FP & VP); [lia| |].
  { rewrite V1, pow_33. apply Rabs_le. lra. }
  rewrite V1 in VP.
  assert (RB : Rabs (rnd64 (B2R d + 1)) <= bpow radix2 33) by (apply (rnd_abs 53 1024); [lia|rewrite pow_33; apply Rabs_le; lra]).
  rewrite pow_33 in RB. apply Rabs_le_inv in RB.
  destruct (div_ok 53 1024 (d_plus d (f64_of_int 1)) (f64_of_int 2) 33 FP) as (FD & VD); [rewrite V2; lra|lia| |].
  { unfold d_plus. rewrite VP, V2, pow_33. apply Rabs_le. lra. }
  split; [exact FD|]. unfold d_div. rewrite VD. unfold d_plus. now rewrite VP, V2.
Qed.

Lemma half_exact x : fmt64 x -> 1 <= x <= 2 -> fmt64 (x / 2).
Proof.
  intros F X. apply (FLT_format_generic radix2 (-1074) 53) in F. destruct F as [f F1 F2 F3].
  destruct (Z.eq_dec (Fexp f) (-1074)) as [E|E].
  - exfalso. rewrite F1 in X. unfold F2R in X. rewrite E in X. cbn [Fnum] in X.
    assert (IZR (Fnum f) < IZR (2 ^ 53)) by (apply IZR_lt; change (radix2 ^ 53)%Z with (2 ^ 53)%Z in F2; lia).
    assert (0 < bpow radix2 (-1074)) by apply bpow_gt_0.
    assert (bpow radix2 (-1074) <= bpow radix2 (-54)) by (apply bpow_le; lia).
    change (bpow radix2 (-54)) with (/ 18014398509481984) in H1. change (IZR (2 ^ 53)) with 9007199254740992 in H. nra.
  - replace (x / 2) with (IZR (Fnum f) * bpow radix2 (Fexp f - 1)).
    + apply (fmt_scaled 53 1024); [exact F2|lia].
    + rewrite F1. unfold F2R, Zminus. rewrite bpow_plus. change (bpow radix2 (- (1))) with (/ 2). unfold Rdiv. ring.
Qed.

(* a bend above the centre: k steps *)
Lemma bend_upper k : (0 < k < 2147483647)%Z ->
  let x := rnd64 (rnd64 (rnd64 (IZR k / 2147483647) + 1) / 2) in
  / 2 < x < 1 /\ Rabs ((x - / 2) * 4294967295 - (IZR k + IZR k / 4294967294)) <= / 1300000.
Proof.
  intros K x. assert (KR : 1 <= IZR k <= 2147483646) by (split; apply IZR_le; lia).
  assert (QE : IZR k / 2147483647 * 2147483647 = IZR k) by (field).
  set (q := IZR k / 2147483647) in *.
  assert (Q : / 2147483648 <= q <= 1 - / 2147483648) by lra.
  assert (E1 : Rabs (rnd64 q - q) <= / 18014398509481984).
  { apply (rnd_abs_error 53 1024 q 0); [lia|]. change (bpow radix2 0) with 1. apply Rabs_lt. lra. }
  assert (B1 : / 2147483648 <= rnd64 q <= 1 - / 2147483648).
  { split.
    - apply (rnd_lower 53 1024); [apply (fmt_pow 53 1024 (-31)); lia|lra].
    - apply (rnd_upper 53 1024); [|lra]. replace (1 - / 2147483648) with (IZR (2 ^ 31 - 1) * bpow radix2 (-31))
        by (change (bpow radix2 (-31)) with (/ 2147483648); change (IZR (2 ^ 31 - 1)) with 2147483647; lra).
      apply (fmt_scaled 53 1024); lia. }
  set (q1 := rnd64 q) in *.
  assert (E2 : Rabs (rnd64 (q1 + 1) - (q1 + 1)) <= / 9007199254740992).
  { apply (rnd_abs_error 53 1024 (q1 + 1) 1); [lia|]. change (bpow radix2 1) with 2. apply Rabs_lt. lra. }
  assert (B2 : 1 + / 2147483648 <= rnd64 (q1 + 1) <= 2 - / 2147483648).
  { split.
    - apply (rnd_lower 53 1024); [|lra]. replace (1 + / 2147483648) with (IZR (2 ^ 31 + 1) * bpow radix2 (-31))
        by (change (bpow radix2 (-31)) with (/ 2147483648); change (IZR (2 ^ 31 + 1)) with 2147483649; lra).
      apply (fmt_scaled 53 1024); lia.
    - apply (rnd_upper 53 1024); [|lra]. replace (2 - / 2147483648) with (IZR (2 ^ 32 - 1) * bpow radix2 (-31))
        by (change (bpow radix2 (-31)) with (/ 2147483648); change (IZR (2 ^ 32 - 1)) with 4294967295; lra).
      apply (fmt_scaled 53 1024); lia. }
  assert (X : x = rnd64 (q1 + 1) / 2).
  { unfold x. apply rnd_id. apply half_exact; [|lra]. apply generic_format_round; [apply fexp_valid; apply prec_53|apply valid_rnd_N]. }
  set (q2 := rnd64 (q1 + 1)) in *. rewrite X. apply Rabs_le_inv in E1. apply Rabs_le_inv in E2.
  split; [lra|]. apply Rabs_le. lra.
Qed.

Lemma bend_value k x : (0 < k < 2147483647)%Z -> / 2 < x < 1 ->
  Rabs ((x - / 2) * 4294967295 - (IZR k + IZR k / 4294967294)) <= / 1300000 ->
  (uv 32 x = 2147483648 + k \/ uv 32 x = 2147483648 + k - 1)%Z /\ (4096 <= k -> uv 32 x = 2147483648 + k)%Z.
Proof.
  intros K X E. apply Rabs_le_inv in E. assert (KR : 1 <= IZR k <= 2147483646) by (split; apply IZR_le; lia).
  unfold uv. change (IZR (2 ^ 32)) with 4294967296. change (2 ^ (32 - 1))%Z with 2147483648%Z.
  rewrite !Rle_bool_false by lra. replace (4294967296 - 1) with 4294967295 by lra.
  set (y := (x - / 2) * 4294967295) in *.
  assert (A : IZR (k - 1) <= rnd64 y).
  { apply (rnd_lower 53 1024); [apply (fmt_int 53 1024); lia|]. rewrite minus_IZR. lra. }
  assert (B : rnd64 y <= IZR (4 * k + 3) * bpow radix2 (-2)).
  { apply (rnd_upper 53 1024); [apply (fmt_scaled 53 1024); lia|]. rewrite plus_IZR, mult_IZR. change (bpow radix2 (-2)) with (/ 4). lra. }
  rewrite plus_IZR, mult_IZR in B. change (bpow radix2 (-2)) with (/ 4) in B.
  split.
  - assert (k - 1 <= Zfloor (rnd64 y))%Z by now apply Zfloor_lub.
    assert (Zfloor (rnd64 y) < k + 1)%Z by (apply lt_IZR; eapply Rle_lt_trans; [apply Zfloor_lb|]; rewrite plus_IZR; lra). lia.
  - intros K2. apply IZR_le in K2. f_equal. apply Zfloor_imp. rewrite plus_IZR. split; [|lra].
    apply (rnd_lower 53 1024); [apply (fmt_int 53 1024); lia|]. lra.
Qed.

Lemma bend_double_round_trip v : (0 <= v < 4294967296)%Z ->
  exists w, pitch_bend_of_double (pitch_bend_as_double v) = Ok w /\ (w = v \/ w = v - 1)%Z /\
    (v <= 2147483648 \/ 2147483648 + 4096 <= v -> w = v)%Z.
Proof.
  intros V. destruct (bend_as_double v V) as (F & E). assert (VR : 0 <= IZR v <= 4294967295) by (split; apply IZR_le; lia).
  assert (DB : Rabs (B2R (pitch_bend_as_double v)) <= 4294967296).
  { rewrite E. destruct (Z.leb_spec v 2147483648) as [L|L]; [apply Rabs_le; lra|]. apply IZR_lt in L.
    change 4294967296 with (bpow radix2 32). apply (rnd_abs 53 1024); [lia|]. change (bpow radix2 32) with 4294967296. apply Rabs_le. lra. }
  destruct (bend_unit _ F DB) as (FU & VU). unfold pitch_bend_of_double. rewrite from_double_uv by (lia || assumption). rewrite VU, E.
  eexists. split; [reflexivity|].
  destruct (Z.leb_spec v 2147483648) as [L|L].
  - assert (R : rnd64 (rnd64 ((IZR v - 2147483648) / 2147483648 + 1) / 2) = IZR v / 4294967296).
    { replace ((IZR v - 2147483648) / 2147483648 + 1) with (IZR v * bpow radix2 (-31)) by (change (bpow radix2 (-31)) with (/ 2147483648); lra).
      rewrite (rnd_id 53 1024 (IZR v * bpow radix2 (-31))) by (apply (fmt_scaled 53 1024); lia).
      replace (IZR v * bpow radix2 (-31) / 2) with (IZR v * bpow radix2 (-32)) by (change (bpow radix2 (-31)) with (/ 2147483648); change (bpow radix2 (-32)) with (/ 4294967296); lra).
      rewrite rnd_id by (apply (fmt_scaled 53 1024); lia). reflexivity. }
    rewrite R. pose proof (uv_exact 32 ltac:(lia) v) as U. change (2 ^ (32 - 1))%Z with 2147483648%Z in U. change (IZR (2 ^ 32)) with 4294967296 in U.
    rewrite U by lia. lia.
  - destruct (Z.eq_dec v 4294967295) as [->|NE].
    + replace ((4294967295 - 2147483648) / 2147483647) with 1 by lra.
      rewrite (rnd_id 53 1024 1) by (apply (fmt_int 53 1024 1); lia). replace (1 + 1) with 2 by lra.
      rewrite (rnd_id 53 1024 2) by (apply (fmt_int 53 1024 2); lia). replace (2 / 2) with 1 by lra.
      rewrite (rnd_id 53 1024 1) by (apply (fmt_int 53 1024 1); lia). rewrite uv_one. lia.
    + pose proof (bend_upper (v - 2147483648) ltac:(lia)) as (X & Q). rewrite minus_IZR in X, Q.
      rewrite <- (minus_IZR v 2147483648) in Q at 3. rewrite <- minus_IZR in Q.
      destruct (bend_value (v - 2147483648) _ ltac:(lia) X) as (A & B); [rewrite minus_IZR in Q |- *; exact Q|]. lia.
Qed.

(* ---- pitch bend through float ------------------------------------------------------------------------------- *)

Lemma bend_unit_float f : is_finite f = true -> Rabs (B2R f) <= 4294967296 ->
  let x := f_div (f_plus f (f32_of_int 1)) (f32_of_int 2) in is_finite x = true /\ B2R x = rnd32 (rnd32 (B2R f + 1) / 2).
Proof.
  intros F B. apply Rabs_le_inv in B. int32 1%Z F1 V1. int32 2%Z F2 V2.
  destruct (plus_ok 24 128 f (f32_of_int 1) 33 F F1) as (FP & VP); [lia| |].
  { rewrite V1, pow_33. apply Rabs_le. lra. }
  rewrite V1 in VP.
  assert (RB : Rabs (rnd32 (B2R f + 1)) <= bpow radix2 33) by (apply (rnd_abs 24 128); [lia|rewrite pow_33; apply Rabs_le; lra]).
  rewrite pow_33 in RB. apply Rabs_le_inv in RB.
  destruct (div_ok 24 128 (f_plus f (f32_of_int 1)) (f32_of_int 2) 33 FP) as (FD & VD); [rewrite V2; lra|lia| |].
  { unfold f_plus. rewrite VP, V2, pow_33. apply Rabs_le. lra. }
  split; [exact FD|]. unfold f_div. rewrite VD. unfold f_plus. now rewrite VP, V2.
Qed.

Lemma half_exact_32 x : fmt32 x -> 1 <= x <= 2 -> fmt32 (x / 2).
Proof.
  intros F X. apply (FLT_format_generic radix2 (-149) 24) in F. destruct F as [f F1 F2 F3].
  destruct (Z.eq_dec (Fexp f) (-149)) as [E|E].
  - exfalso. rewrite F1 in X. unfold F2R in X. rewrite E in X. cbn [Fnum] in X.
    assert (IZR (Fnum f) < IZR (2 ^ 24)) by (apply IZR_lt; change (radix2 ^ 24)%Z with (2 ^ 24)%Z in F2; lia).
    assert (0 < bpow radix2 (-149)) by apply bpow_gt_0.
    assert (bpow radix2 (-149) <= bpow radix2 (-25)) by (apply bpow_le; lia).
    change (bpow radix2 (-25)) with (/ 33554432) in H1. change (IZR (2 ^ 24)) with 16777216 in H. nra.
  - replace (x / 2) with (IZR (Fnum f) * bpow radix2 (Fexp f - 1)).
    + apply (fmt_scaled 24 128); [exact F2|lia].
    + rewrite F1. unfold F2R, Zminus. rewrite bpow_plus. change (bpow radix2 (- (1))) with (/ 2). unfold Rdiv. ring.
Qed.

Lemma rnd32_near x e : (-125 <= e)%Z -> Rabs x <= bpow radix2 e -> Rabs (rnd32 x - x) <= bpow radix2 (e - 24 - 1).
Proof.
  intros E X. destruct (Rle_lt_or_eq_dec _ _ X) as [L|Q]; [now apply (rnd_abs_error 24 128)|].
  rewrite rnd_id.
  - replace (x - x) with 0 by lra. rewrite Rabs_R0. apply bpow_ge_0.
  - assert (P : fmt32 (bpow radix2 e)) by (apply (fmt_pow 24 128); lia).
    destruct (Rle_or_lt 0 x) as [S|S].
    + rewrite Rabs_pos_eq in Q by assumption. now rewrite Q.
    + rewrite Rabs_left in Q by assumption. replace x with (- bpow radix2 e) by lra. now apply generic_format_opp.
Qed.

Lemma bend_float_round_trip v : (0 <= v < 4294967296)%Z ->
  exists w, pitch_bend_of_float (pitch_bend_as_float v) = Ok w /\ (Z.abs (w - v) <= 194)%Z.
Proof.
  intros V. destruct (bend_as_double v V) as (F & E). assert (VR : 0 <= IZR v <= 4294967295) by (split; apply IZR_le; lia).
  set (y := B2R (pitch_bend_as_double v)) in *.
  (* the ideal quotient *)
  assert (Y : -1 <= y <= 1 /\ ((v <= 2147483648)%Z -> y <= 0) /\ ((2147483648 < v)%Z -> 0 <= y) /\
              Rabs ((y + 1) / 2 * 4294967295 - IZR v) <= / 2 + / 4).
  { rewrite E. destruct (Z.leb_spec v 2147483648) as [L|L].
    - apply IZR_le in L as LR. split; [lra|]. split; [lra|]. split; [lia|]. apply Rabs_le. lra.
    - apply IZR_lt in L as LR. set (q := (IZR v - 2147483648) / 2147483647).
      assert (Q : 0 <= q <= 1) by (unfold q; lra).
      assert (B : 0 <= rnd64 q <= 1).
      { split; [apply (rnd_lower 53 1024); [apply (fmt_int 53 1024 0); lia|lra]|apply (rnd_upper 53 1024); [apply (fmt_int 53 1024 1); lia|lra]]. }
      assert (R : Rabs (rnd64 q - q) <= / 9007199254740992).
      { apply (rnd_abs_error 53 1024 q 1); [lia|]. change (bpow radix2 1) with 2. apply Rabs_lt. lra. }
      apply Rabs_le_inv in R. split; [lra|]. split; [lia|]. split; [lra|]. apply Rabs_le. unfold q in R |- *. lra. }
  destruct Y as (Y & Y0 & Y1 & YE).
  destruct (narrow_ok (pitch_bend_as_double v) 0 F) as (FN & VN); [lia|change (bpow radix2 0) with 1; apply Rabs_le; fold y; lra|].
  fold (pitch_bend_as_float v) in FN, VN. fold y in VN.
  assert (XE : Rabs (rnd32 y - y) <= / 33554432).
  { apply (rnd32_near y 0); [lia|]. change (bpow radix2 0) with 1. apply Rabs_le. lra. }
  assert (XB : -1 <= rnd32 y <= 1).
  { split; [apply (rnd_lower 24 128); [apply (fmt_int 24 128 (-1)); lia|lra]|apply (rnd_upper 24 128); [apply (fmt_int 24 128 1); lia|lra]]. }
  destruct (bend_unit_float (pitch_bend_as_float v) FN) as (FU & VU); [rewrite VN; apply Rabs_le; lra|].
  rewrite VN in VU. set (x := rnd32 y) in *.
  unfold pitch_bend_of_float. rewrite from_float_uv by (lia || assumption). eexists. split; [reflexivity|]. rewrite VU.
  (* the error of (x + 1) / 2 *)
  assert (U : 0 <= rnd32 (rnd32 (x + 1) / 2) <= 1 /\ Rabs (rnd32 (rnd32 (x + 1) / 2) - (x + 1) / 2) <= / 33554432).
  { destruct (Z_le_gt_dec v 2147483648) as [L|L].
    - specialize (Y0 L).
      assert (X0 : x <= 0) by (apply (rnd_upper 24 128); [apply (fmt_int 24 128 0); lia|lra]).
      assert (WE : Rabs (rnd32 (x + 1) - (x + 1)) <= / 33554432).
      { apply (rnd32_near (x + 1) 0); [lia|]. change (bpow radix2 0) with 1. apply Rabs_le. lra. }
      assert (WB : 0 <= rnd32 (x + 1) <= 1).
      { split; [apply (rnd_lower 24 128); [apply (fmt_int 24 128 0); lia|lra]|apply (rnd_upper 24 128); [apply (fmt_int 24 128 1); lia|lra]]. }
      set (w := rnd32 (x + 1)) in *.
      assert (UE : Rabs (rnd32 (w / 2) - w / 2) <= / 67108864).
      { apply (rnd32_near (w / 2) (-1)); [lia|]. change (bpow radix2 (-1)) with (/ 2). apply Rabs_le. lra. }
      split.
      + split; [apply (rnd_lower 24 128); [apply (fmt_int 24 128 0); lia|lra]|apply (rnd_upper 24 128); [apply (fmt_int 24 128 1); lia|lra]].
      + apply Rabs_le_inv in WE. apply Rabs_le_inv in UE. apply Rabs_le. lra.
    - specialize (Y1 ltac:(lia)).
      assert (X0 : 0 <= x) by (apply (rnd_lower 24 128); [apply (fmt_int 24 128 0); lia|lra]).
      assert (WE : Rabs (rnd32 (x + 1) - (x + 1)) <= / 16777216).
      { apply (rnd32_near (x + 1) 1); [lia|]. change (bpow radix2 1) with 2. apply Rabs_le. lra. }
      assert (WB : 1 <= rnd32 (x + 1) <= 2).
      { split; [apply (rnd_lower 24 128); [apply (fmt_int 24 128 1); lia|lra]|apply (rnd_upper 24 128); [apply (fmt_int 24 128 2); lia|lra]]. }
      assert (HE : rnd32 (rnd32 (x + 1) / 2) = rnd32 (x + 1) / 2).
      { apply rnd_id. apply half_exact_32; [|lra]. apply generic_format_round; [apply fexp_valid; apply prec_24|apply valid_rnd_N]. }
      rewrite HE. set (w := rnd32 (x + 1)) in *. apply Rabs_le_inv in WE. split; [lra|]. apply Rabs_le. lra. }
  destruct U as (UB & UE). set (u := rnd32 (rnd32 (x + 1) / 2)) in *.
  pose proof (uv_error 32 ltac:(lia) u UB) as VE. change (IZR (2 ^ 32)) with 4294967296 in VE.
  apply Rabs_le_inv in UE. apply Rabs_le_inv in VE. apply Rabs_le_inv in XE. apply Rabs_le_inv in YE.
  set (w := uv 32 u) in *.
  assert (w < v + 195)%Z by (apply lt_IZR; rewrite plus_IZR; lra).
  assert (v - 195 < w)%Z by (apply lt_IZR; rewrite minus_IZR; lra). lia.
Qed.
