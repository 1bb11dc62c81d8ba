(* Lemmas about the floating point conversions of pitches. *)
From Coq Require Import ZArith Reals Lra Lia Bool Psatz.
From Flocq Require Import Core IEEE754.BinarySingleNaN.
From Verif Require Import Base Types Floats FloatSpec FloatLemmas FloatProofs.
Local Open Scope R_scope.

Ltac int32 z F V := destruct (f32_of_int_ok z) as (F & V); [lia|].

Lemma fixed_low n k x : (0 <= n)%Z -> (0 <= k)%Z -> x <= 0 -> fixed_point n k x = 0%Z.
Proof.
  intros N K X. unfold fixed_point. assert (0 < 2 ^ n)%Z by (apply Z.pow_pos_nonneg; lia).
  assert (0 < IZR (2 ^ k)) by (apply (IZR_lt 0); apply Z.pow_pos_nonneg; lia).
  assert (Zfloor (x * IZR (2 ^ k) + / 2) <= 0)%Z; [|lia].
  apply Z.lt_succ_r. apply lt_IZR. eapply Rle_lt_trans; [apply Zfloor_lb|]. change (IZR (Z.succ 0)) with 1. nra.
Qed.

Lemma fixed_high n k x : n = (k + 7)%Z -> (0 <= k)%Z -> 128 <= x -> fixed_point n k x = (2 ^ n - 1)%Z.
Proof.
  intros -> K X. unfold fixed_point. rewrite Z.pow_add_r by lia. change (2 ^ 7)%Z with 128%Z.
  assert (P : (0 < 2 ^ k)%Z) by (apply Z.pow_pos_nonneg; lia).
  assert (P' : 0 < IZR (2 ^ k)) by now apply (IZR_lt 0).
  assert (2 ^ k * 128 <= Zfloor (x * IZR (2 ^ k) + / 2))%Z; [|lia].
  apply Zfloor_lub. rewrite mult_IZR. nra.
Qed.

Lemma fixed_mid n k x : n = (k + 7)%Z -> (0 <= k)%Z -> 0 <= x < 128 -> let r := Zfloor (x * IZR (2 ^ k) + / 2) in
  (0 <= r <= 2 ^ n)%Z /\ fixed_point n k x = if (r <? 2 ^ n)%Z then r else (2 ^ n - 1)%Z.
Proof.
  intros -> K X r. assert (P' : 1 <= IZR (2 ^ k)).
  { apply IZR_le. assert (0 < 2 ^ k)%Z by (apply Z.pow_pos_nonneg; lia). lia. }
  assert (R : (0 <= r <= 2 ^ (k + 7))%Z).
  { split; [apply Zfloor_lub; nra|]. apply Z.lt_succ_r. apply lt_IZR. eapply Rle_lt_trans; [apply Zfloor_lb|].
    rewrite succ_IZR, Z.pow_add_r, mult_IZR by lia. change (IZR (2 ^ 7)) with 128. nra. }
  split; [exact R|]. unfold fixed_point. fold r. destruct (Z.ltb_spec r (2 ^ (k + 7))); lia.
Qed.

Lemma int_bounds z (x : R) : x = IZR z -> IZR z <= x < IZR z + 1.
Proof. lra. Qed.

Lemma pitch_7_25_double d : is_finite d = true -> pitch_7_25_of_double d = Ok (fixed_point 32 25 (B2R d)).
Proof.
  intros F. unfold pitch_7_25_of_double. int64 0%Z F0 V0. int64 128%Z F1 V1. int64 4294967296%Z F2 V2.
  destruct (f32_pow 25 ltac:(lia)) as (FK & VK). destruct (widen_ok _ FK) as (FS & VS). rewrite VK in VS.
  change (Z.shiftl 1 25) with (2 ^ 25)%Z. rewrite !le_ok by assumption. rewrite V0, V1.
  destruct (Rle_bool_spec (B2R d) 0) as [X|X]; [now rewrite fixed_low by (lia || lra)|].
  destruct (Rle_bool_spec 128 (B2R d)) as [Y|Y]; [now rewrite (fixed_high 32 25) by (lia || lra)|].
  destruct (scaled_round 53 1024 d (widen (f32_of_int (2 ^ 25))) 25 F FS ltac:(lia) VS ltac:(lra)) as (FR & VR).
  fold (d_mult d (widen (f32_of_int (2 ^ 25)))) in FR, VR. fold (d_round (d_mult d (widen (f32_of_int (2 ^ 25))))) in FR, VR.
  set (r := d_round _) in *. destruct (fixed_mid 32 25 (B2R d) ltac:(lia) ltac:(lia) ltac:(lra)) as (RB & ->).
  set (z := Zfloor _) in *. rewrite (lt_ok 53 1024) by assumption. rewrite VR, V2.
  change (2 ^ 32)%Z with 4294967296%Z in *.
  destruct (Rlt_bool_spec (IZR z) 4294967296) as [L|L].
  - apply lt_IZR in L. rewrite (proj2 (Z.ltb_lt _ _) L). apply (unsigned_ok 53 1024); [exact FR|now apply int_bounds|change (2 ^ 32)%Z with 4294967296%Z; lia].
  - apply le_IZR in L. rewrite (proj2 (Z.ltb_ge _ _) L). reflexivity.
Qed.

Lemma pitch_7_25_float f : is_finite f = true -> pitch_7_25_of_float f = Ok (fixed_point 32 25 (B2R f)).
Proof.
  intros F. unfold pitch_7_25_of_float. int32 0%Z F0 V0. int32 128%Z F1 V1. int64 4294967296%Z F2 V2.
  destruct (f32_pow 25 ltac:(lia)) as (FK & VK).
  change (Z.shiftl 1 25) with (2 ^ 25)%Z. rewrite !le_ok by assumption. rewrite V0, V1.
  destruct (Rle_bool_spec (B2R f) 0) as [X|X]; [now rewrite fixed_low by (lia || lra)|].
  destruct (Rle_bool_spec 128 (B2R f)) as [Y|Y]; [now rewrite (fixed_high 32 25) by (lia || lra)|].
  destruct (scaled_round 24 128 f (f32_of_int (2 ^ 25)) 25 F FK ltac:(lia) VK ltac:(lra)) as (FR & VR).
  fold (f_mult f (f32_of_int (2 ^ 25))) in FR, VR. fold (f_round (f_mult f (f32_of_int (2 ^ 25)))) in FR, VR.
  set (r := f_round _) in *. destruct (fixed_mid 32 25 (B2R f) ltac:(lia) ltac:(lia) ltac:(lra)) as (RB & ->).
  set (z := Zfloor _) in *. destruct (widen_ok r FR) as (FW & VW). rewrite (lt_ok 53 1024) by assumption. rewrite VW, VR, V2.
  change (2 ^ 32)%Z with 4294967296%Z in *.
  destruct (Rlt_bool_spec (IZR z) 4294967296) as [L|L].
  - apply lt_IZR in L. rewrite (proj2 (Z.ltb_lt _ _) L). apply (unsigned_ok 24 128); [exact FR|now apply int_bounds|change (2 ^ 32)%Z with 4294967296%Z; lia].
  - apply le_IZR in L. rewrite (proj2 (Z.ltb_ge _ _) L). reflexivity.
Qed.

Lemma pitch_7_9_double d : is_finite d = true -> pitch_7_9_of_double d = Ok (fixed_point 16 9 (B2R d)).
Proof.
  intros F. unfold pitch_7_9_of_double. int64 0%Z F0 V0. int64 128%Z F1 V1. int64 65536%Z F2 V2. int64 (2 ^ 9)%Z FK VK.
  change (Z.shiftl 1 9) with (2 ^ 9)%Z. rewrite !le_ok by assumption. rewrite V0, V1.
  destruct (Rle_bool_spec (B2R d) 0) as [X|X]; [now rewrite fixed_low by (lia || lra)|].
  destruct (Rle_bool_spec 128 (B2R d)) as [Y|Y]; [now rewrite (fixed_high 16 9) by (lia || lra)|].
  destruct (scaled_round 53 1024 d (f64_of_int (2 ^ 9)) 9 F FK ltac:(lia) VK ltac:(lra)) as (FR & VR).
  fold (d_mult d (f64_of_int (2 ^ 9))) in FR, VR. fold (d_round (d_mult d (f64_of_int (2 ^ 9)))) in FR, VR.
  set (r := d_round _) in *. destruct (fixed_mid 16 9 (B2R d) ltac:(lia) ltac:(lia) ltac:(lra)) as (RB & ->).
  set (z := Zfloor _) in *. rewrite (lt_ok 53 1024) by assumption. rewrite VR, V2.
  change (2 ^ 16)%Z with 65536%Z in *.
  destruct (Rlt_bool_spec (IZR z) 65536) as [L|L].
  - apply lt_IZR in L. rewrite (proj2 (Z.ltb_lt _ _) L). apply (unsigned_ok 53 1024); [exact FR|now apply int_bounds|change (2 ^ 16)%Z with 65536%Z; lia].
  - apply le_IZR in L. rewrite (proj2 (Z.ltb_ge _ _) L). reflexivity.
Qed.

Lemma pitch_7_9_float f : is_finite f = true -> pitch_7_9_of_float f = Ok (fixed_point 16 9 (B2R f)).
Proof.
  intros F. unfold pitch_7_9_of_float. int32 0%Z F0 V0. int32 128%Z F1 V1. int32 65536%Z F2 V2. int32 (2 ^ 9)%Z FK VK.
  change (Z.shiftl 1 9) with (2 ^ 9)%Z. rewrite !le_ok by assumption. rewrite V0, V1.
  destruct (Rle_bool_spec (B2R f) 0) as [X|X]; [now rewrite fixed_low by (lia || lra)|].
  destruct (Rle_bool_spec 128 (B2R f)) as [Y|Y]; [now rewrite (fixed_high 16 9) by (lia || lra)|].
  destruct (scaled_round 24 128 f (f32_of_int (2 ^ 9)) 9 F FK ltac:(lia) VK ltac:(lra)) as (FR & VR).
  fold (f_mult f (f32_of_int (2 ^ 9))) in FR, VR. fold (f_round (f_mult f (f32_of_int (2 ^ 9)))) in FR, VR.
  set (r := f_round _) in *. destruct (fixed_mid 16 9 (B2R f) ltac:(lia) ltac:(lia) ltac:(lra)) as (RB & ->).
  set (z := Zfloor _) in *. rewrite (lt_ok 24 128) by assumption. rewrite VR, V2.
  change (2 ^ 16)%Z with 65536%Z in *.
  destruct (Rlt_bool_spec (IZR z) 65536) as [L|L].
  - apply lt_IZR in L. rewrite (proj2 (Z.ltb_lt _ _) L). apply (unsigned_ok 24 128); [exact FR|now apply int_bounds|change (2 ^ 16)%Z with 65536%Z; lia].
  - apply le_IZR in L. rewrite (proj2 (Z.ltb_ge _ _) L). reflexivity.
Qed.

(* a fixed point number comes back *)
Lemma fixed_exact n k v : (0 <= k)%Z -> (0 <= v < 2 ^ n)%Z -> fixed_point n k (IZR v / IZR (2 ^ k)) = v.
Proof.
  intros K V. unfold fixed_point. assert (0 < IZR (2 ^ k)) by (apply (IZR_lt 0); apply Z.pow_pos_nonneg; lia).
  replace (IZR v / IZR (2 ^ k) * IZR (2 ^ k)) with (IZR v) by (field; lra).
  replace (Zfloor (IZR v + / 2)) with v; [lia|]. symmetry. apply Zfloor_imp. rewrite plus_IZR. lra.
Qed.

Lemma fixed_near n k x v e : (0 <= k)%Z -> (0 <= v < 2 ^ n)%Z -> (0 <= e)%Z -> Rabs (x * IZR (2 ^ k) - IZR v) <= IZR e ->
  (Z.abs (fixed_point n k x - v) <= e)%Z.
Proof.
  intros K V E H. apply Rabs_le_inv in H. unfold fixed_point. set (z := Zfloor _).
  assert (Z.abs (z - v) <= e)%Z; [|lia].
  pose proof (Zfloor_lb (x * IZR (2 ^ k) + / 2)) as L. pose proof (Zfloor_ub (x * IZR (2 ^ k) + / 2)) as U. fold z in L, U.
  assert (z < v + e + 1)%Z by (apply lt_IZR; rewrite !plus_IZR; lra).
  assert (v - e - 1 < z)%Z by (apply lt_IZR; rewrite !minus_IZR; lra). lia.
Qed.

Lemma fixed_mono n k x y : (0 <= k)%Z -> x <= y -> (fixed_point n k x <= fixed_point n k y)%Z.
Proof.
  intros K L. unfold fixed_point. assert (0 < IZR (2 ^ k)) by (apply (IZR_lt 0); apply Z.pow_pos_nonneg; lia).
  assert (Zfloor (x * IZR (2 ^ k) + / 2) <= Zfloor (y * IZR (2 ^ k) + / 2))%Z by (apply Zfloor_le; nra). lia.
Qed.

(* ---- as float, as double -------------------------------------------------------------------------------- *)

Lemma pitch_7_9_as_double_ok v : (0 <= v < 65536)%Z ->
  is_finite (pitch_7_9_as_double v) = true /\ B2R (pitch_7_9_as_double v) = IZR v / 512.
Proof.
  intros V. int64 v F V'. int64 512%Z F2 V2. assert (0 <= IZR v <= 65536) by (split; apply IZR_le; lia).
  destruct (div_ok 53 1024 (f64_of_int v) (f64_of_int 512) 33 F) as (FD & VD); [rewrite V2; lra|lia| |].
  { rewrite V', V2, pow_33. apply Rabs_le. lra. }
  split; [exact FD|]. unfold pitch_7_9_as_double, d_div. change (Z.shiftl 1 9) with 512%Z. rewrite VD, V', V2.
  apply rnd_id. replace (IZR v / 512) with (IZR v * bpow radix2 (-9)) by (change (bpow radix2 (-9)) with (/ 512); reflexivity).
  apply (fmt_scaled 53 1024); lia.
Qed.
Lemma pitch_7_9_as_float_ok v : (0 <= v < 65536)%Z ->
  is_finite (pitch_7_9_as_float v) = true /\ B2R (pitch_7_9_as_float v) = IZR v / 512.
Proof.
  intros V. int32 v F V'. int32 512%Z F2 V2. assert (0 <= IZR v <= 65536) by (split; apply IZR_le; lia).
  destruct (div_ok 24 128 (f32_of_int v) (f32_of_int 512) 33 F) as (FD & VD); [rewrite V2; lra|lia| |].
  { rewrite V', V2, pow_33. apply Rabs_le. lra. }
  split; [exact FD|]. unfold pitch_7_9_as_float, f_div. change (Z.shiftl 1 9) with 512%Z. rewrite VD, V', V2.
  apply rnd_id. replace (IZR v / 512) with (IZR v * bpow radix2 (-9)) by (change (bpow radix2 (-9)) with (/ 512); reflexivity).
  apply (fmt_scaled 24 128); lia.
Qed.
Lemma pitch_7_25_as_double_ok v : (0 <= v < 4294967296)%Z ->
  is_finite (pitch_7_25_as_double v) = true /\ B2R (pitch_7_25_as_double v) = IZR v / 33554432.
Proof.
  intros V. int64 v F V'. int64 33554432%Z F2 V2. assert (0 <= IZR v <= 4294967296) by (split; apply IZR_le; lia).
  destruct (div_ok 53 1024 (f64_of_int v) (f64_of_int 33554432) 33 F) as (FD & VD); [rewrite V2; lra|lia| |].
  { rewrite V', V2, pow_33. apply Rabs_le. lra. }
  split; [exact FD|]. unfold pitch_7_25_as_double, d_div. change (Z.shiftl 1 25) with 33554432%Z. rewrite VD, V', V2.
  apply rnd_id. replace (IZR v / 33554432) with (IZR v * bpow radix2 (-25)) by (change (bpow radix2 (-25)) with (/ 33554432); reflexivity).
  apply (fmt_scaled 53 1024); lia.
Qed.
Lemma pitch_7_25_as_float_ok v : (0 <= v < 4294967296)%Z ->
  is_finite (pitch_7_25_as_float v) = true /\ Rabs (B2R (pitch_7_25_as_float v) * 33554432 - IZR v) <= 128 /\
  0 <= B2R (pitch_7_25_as_float v) <= 128.
Proof.
  intros V. destruct (pitch_7_25_as_double_ok v V) as (F & E). assert (B : 0 <= IZR v < 4294967296) by (split; [apply IZR_le|apply IZR_lt]; lia).
  destruct (narrow_ok (pitch_7_25_as_double v) 7 F) as (FN & VN); [lia| |].
  { rewrite E. change (bpow radix2 7) with 128. apply Rabs_le. lra. }
  fold (pitch_7_25_as_float v) in FN, VN. split; [exact FN|]. rewrite VN, E.
  assert (AE : Rabs (rnd32 (IZR v / 33554432) - IZR v / 33554432) <= bpow radix2 (7 - 24 - 1)).
  { apply (rnd_abs_error 24 128); [lia|]. change (bpow radix2 7) with 128. apply Rabs_lt. lra. }
  change (bpow radix2 (7 - 24 - 1)) with (/ 262144) in AE. apply Rabs_le_inv in AE. split.
  - apply Rabs_le. lra.
  - split; [apply (rnd_lower 24 128); [apply (fmt_int 24 128 0); lia|lra]|apply (rnd_upper 24 128); [apply (fmt_int 24 128 128); lia|lra]].
Qed.

(* ---- increments ------------------------------------------------------------------------------------------ *)

Lemma opp_ok {p e} (d : binary_float p e) : is_finite d = true -> is_finite (Bopp d) = true /\ B2R (Bopp d) = - B2R d.
Proof. intros F. split; [now rewrite is_finite_Bopp|apply B2R_Bopp]. Qed.

Lemma fixed_range n k x : (0 <= n)%Z -> (0 <= fixed_point n k x < 2 ^ n)%Z.
Proof. intros N. unfold fixed_point. assert (0 < 2 ^ n)%Z by (apply Z.pow_pos_nonneg; lia). lia. Qed.

Lemma pitch_add_double_ok v d : is_finite d = true -> (0 <= v < 4294967296)%Z ->
  pitch_add_double v d = Ok (clip (v + if Rle_bool 0 (B2R d) then fixed_point 32 25 (B2R d) else - fixed_point 32 25 (- B2R d))).
Proof.
  intros F V. unfold pitch_add_double. int64 0%Z F0 V0. rewrite le_ok by assumption. rewrite V0.
  destruct (Rle_bool 0 (B2R d)).
  - rewrite pitch_7_25_double by assumption. cbn [bind]. pose proof (fixed_range 32 25 (B2R d) ltac:(lia)). change (2 ^ 32)%Z with 4294967296%Z in H.
    f_equal. unfold clip. destruct (Z.ltb_spec 4294967295 (v + fixed_point 32 25 (B2R d))); lia.
  - destruct (opp_ok d F) as (FO & VO). rewrite pitch_7_25_double by assumption. rewrite VO. cbn [bind].
    pose proof (fixed_range 32 25 (- B2R d) ltac:(lia)). change (2 ^ 32)%Z with 4294967296%Z in H.
    f_equal. unfold clip. destruct (Z.ltb_spec (v - fixed_point 32 25 (- B2R d)) 0); lia.
Qed.

Lemma increment_mid x : 0 <= x < 64 -> let z := Zfloor (x * IZR (2 ^ 25) + / 2) in
  (0 <= z <= 2147483648)%Z /\ fixed_point 32 25 x = z.
Proof.
  intros X z. change (IZR (2 ^ 25)) with 33554432 in z.
  assert (B : (0 <= z <= 2147483648)%Z).
  { split; [apply Zfloor_lub; lra|]. apply Z.lt_succ_r. apply lt_IZR. eapply Rle_lt_trans; [apply Zfloor_lb|]. change (IZR (Z.succ 2147483648)) with 2147483649. lra. }
  split; [exact B|]. unfold fixed_point. change (IZR (2 ^ 25)) with 33554432. fold z. change (2 ^ 32)%Z with 4294967296%Z. lia.
Qed.

Lemma pitch_increment_double d : is_finite d = true -> ~ near_minus_64 (B2R d) ->
  pitch_increment_of_double d = Ok (signed_fixed_point 32 25 (B2R d)).
Proof.
  intros F NM. unfold pitch_increment_of_double. int64 64%Z F1 V1. int64 (-64)%Z F2 V2. int64 0%Z F3 V3.
  rewrite !le_ok by assumption. rewrite V1, V2, V3. set (x := B2R d) in *.
  unfold signed_fixed_point. change (2 ^ (32 - 1))%Z with 2147483648%Z. unfold int32_max, int32_min.
  destruct (Rle_bool_spec 64 x) as [A|A].
  { destruct (Rle_bool_spec 0 x); [|lra]. f_equal. assert (2147483648 <= Zfloor (x * IZR (2 ^ 25) + / 2))%Z; [|lia].
    apply Zfloor_lub. change (IZR (2 ^ 25)) with 33554432. lra. }
  destruct (Rle_bool_spec x (-64)) as [B|B].
  { destruct (Rle_bool_spec 0 x); [lra|]. f_equal. assert (2147483648 <= Zfloor (- x * IZR (2 ^ 25) + / 2))%Z; [|lia].
    apply Zfloor_lub. change (IZR (2 ^ 25)) with 33554432. lra. }
  destruct (Rle_bool_spec 0 x) as [D|D].
  - rewrite pitch_7_25_double by assumption. fold x. destruct (increment_mid x ltac:(lra)) as (R & ->). cbn [bind].
    set (z := Zfloor _) in *. destruct (Z.leb_spec z 2147483647); f_equal; lia.
  - destruct (opp_ok d F) as (FO & VO). rewrite pitch_7_25_double by assumption. rewrite VO. fold x.
    destruct (increment_mid (- x) ltac:(lra)) as (R & ->). cbn [bind]. set (z := Zfloor _) in *.
    assert (ZN : (z < 2147483648)%Z).
    { apply lt_IZR. eapply Rle_lt_trans; [apply Zfloor_lb|]. change (IZR (2 ^ 25)) with 33554432. unfold near_minus_64 in NM.
      destruct (Rlt_or_le (- x * 33554432 + / 2) 2147483648); [assumption|]. destruct NM. lra. }
    unfold int32_of_uint32, negate_int32. rewrite (proj2 (Z.ltb_lt _ _) ZN).
    replace (z =? -2147483648)%Z with false by (symmetry; apply Z.eqb_neq; lia). f_equal. lia.
Qed.

Lemma pitch_increment_double_near d : is_finite d = true -> near_minus_64 (B2R d) ->
  pitch_increment_of_double d = Fault SignedOverflow.
Proof.
  intros F (N1 & N2). unfold pitch_increment_of_double. int64 64%Z F1 V1. int64 (-64)%Z F2 V2. int64 0%Z F3 V3.
  rewrite !le_ok by assumption. rewrite V1, V2, V3. set (x := B2R d) in *.
  rewrite !Rle_bool_false by lra. destruct (opp_ok d F) as (FO & VO). rewrite pitch_7_25_double by assumption. rewrite VO. fold x.
  destruct (increment_mid (- x) ltac:(lra)) as (R & ->). cbn [bind].
  assert (2147483648 <= Zfloor (- x * IZR (2 ^ 25) + / 2))%Z by (apply Zfloor_lub; change (IZR (2 ^ 25)) with 33554432; lra).
  replace (Zfloor (- x * IZR (2 ^ 25) + / 2)) with 2147483648%Z by lia. reflexivity.
Qed.

(* no float is that close to 64 *)
Lemma float_below_64 x : fmt32 x -> x < 64 -> x <= 64 - / 262144.
Proof.
  intros F L. set (b := 64 - / 262144).
  destruct (Rle_or_lt x b) as [H|H]; [exact H|].
  (* between b and 64 the spacing is 2^-18 *)
  assert (G : 32 <= x < 64) by (unfold b in H; lra).
  assert (M : mag radix2 x = 6%Z :> Z).
  { apply mag_unique_pos. change (bpow radix2 (6 - 1)) with 32. change (bpow radix2 6) with 64. exact G. }
  unfold generic_format, F2R, scaled_mantissa, cexp in F. cbn [Fnum Fexp] in F. rewrite M in F.
  change (SpecFloat.fexp 24 128 6) with (-18)%Z in F. change (bpow radix2 (- (-18))) with 262144 in F.
  change (bpow radix2 (-18)) with (/ 262144) in F. set (m := Ztrunc (x * 262144)) in F.
  assert ((16777215 < m)%Z /\ (m < 16777216)%Z); [|lia].
  unfold b in H. split; apply lt_IZR; lra.
Qed.

Lemma pitch_increment_float f : is_finite f = true -> pitch_increment_of_float f = Ok (signed_fixed_point 32 25 (B2R f)).
Proof.
  intros F. unfold pitch_increment_of_float. int32 64%Z F1 V1. int32 (-64)%Z F2 V2. int32 0%Z F3 V3.
  rewrite !le_ok by assumption. rewrite V1, V2, V3. pose proof (fmt_B2R 24 128 f) as FX. set (x := B2R f) in *.
  unfold signed_fixed_point. change (2 ^ (32 - 1))%Z with 2147483648%Z. unfold int32_max, int32_min.
  destruct (Rle_bool_spec 64 x) as [A|A].
  { destruct (Rle_bool_spec 0 x); [|lra]. f_equal. assert (2147483648 <= Zfloor (x * IZR (2 ^ 25) + / 2))%Z; [|lia].
    apply Zfloor_lub. change (IZR (2 ^ 25)) with 33554432. lra. }
  destruct (Rle_bool_spec x (-64)) as [B|B].
  { destruct (Rle_bool_spec 0 x); [lra|]. f_equal. assert (2147483648 <= Zfloor (- x * IZR (2 ^ 25) + / 2))%Z; [|lia].
    apply Zfloor_lub. change (IZR (2 ^ 25)) with 33554432. lra. }
  assert (ZB : forall y, fmt32 y -> 0 <= y < 64 -> (Zfloor (y * IZR (2 ^ 25) + / 2) < 2147483648)%Z).
  { intros y FY Y. apply lt_IZR. eapply Rle_lt_trans; [apply Zfloor_lb|]. change (IZR (2 ^ 25)) with 33554432.
    pose proof (float_below_64 y FY). lra. }
  destruct (Rle_bool_spec 0 x) as [D|D].
  - rewrite pitch_7_25_float by assumption. fold x. destruct (increment_mid x ltac:(lra)) as (R & ->). cbn [bind].
    specialize (ZB x FX ltac:(lra)). set (z := Zfloor _) in *. unfold int32_of_uint32. rewrite (proj2 (Z.ltb_lt _ _) ZB). f_equal. lia.
  - destruct (opp_ok f F) as (FO & VO). rewrite pitch_7_25_float by assumption. rewrite VO. fold x.
    destruct (increment_mid (- x) ltac:(lra)) as (R & ->). cbn [bind].
    specialize (ZB (- x) ltac:(now apply generic_format_opp) ltac:(lra)). set (z := Zfloor _) in *.
    unfold int32_of_uint32, negate_int32. rewrite (proj2 (Z.ltb_lt _ _) ZB).
    replace (z =? -2147483648)%Z with false by (symmetry; apply Z.eqb_neq; lia). f_equal. lia.
Qed.
