(* Lemmas about the floating point conversions. *)
From Coq Require Import ZArith Reals Lra Lia Bool Psatz.
From Flocq Require Import Core IEEE754.BinarySingleNaN Relative Sterbenz.
From Verif Require Import Base Types Floats FloatSpec FloatLemmas.
Local Open Scope R_scope.

Lemma pow_33 : bpow radix2 33 = 8589934592. Proof. rewrite pow2_IZR by lia. reflexivity. Qed.

Ltac int64 z F V := destruct (f64_of_int_ok z) as (F & V); [lia|].

Lemma div_bounds a b c : 0 < b -> 0 <= a <= c * b -> 0 <= a / b <= c.
Proof. intros B A. assert (E : a / b * b = a) by (field; lra). nra. Qed.

Lemma half_ok : is_finite d_half = true /\ B2R d_half = / 2.
Proof.
  int64 1%Z F1 V1. int64 2%Z F2 V2.
  destruct (div_ok 53 1024 (f64_of_int 1) (f64_of_int 2) 33 F1) as (F & V).
  - rewrite V2. lra.
  - lia.
  - rewrite V1, V2, pow_33. apply Rabs_le. lra.
  - split; [exact F|]. unfold d_half, d_div. rewrite V, V1, V2. replace (1 / 2) with (bpow radix2 (-1)) by (cbn; lra).
    rewrite rnd_id; [cbn; lra|]. apply (fmt_pow 53 1024). lia.
Qed.

Lemma minus_half x : fmt64 x -> / 2 <= x <= 1 -> fmt64 (x - / 2).
Proof.
  intros F H. change (SpecFloat.fexp 53 1024) with (FLT_exp (-1074) 53) in *. apply sterbenz.
  - apply FLT_exp_valid. reflexivity.
  - apply FLT_exp_monotone.
  - exact F.
  - apply (fmt_pow 53 1024 (-1)). lia.
  - lra.
Qed.

(* ---- 0..1 ------------------------------------------------------------------------------------------- *)

Section Unit.
Variable n : Z.
Hypothesis Hn : (2 <= n <= 32)%Z.
Notation N := (IZR (2 ^ n)).
Notation C := (IZR (2 ^ (n - 1))).

Lemma N_C : (2 ^ n = 2 * 2 ^ (n - 1))%Z.
Proof. replace n with (Z.succ (n - 1)) at 1 by lia. apply Z.pow_succ_r. lia. Qed.
Lemma C_range : (2 <= 2 ^ (n - 1) <= 2147483648)%Z.
Proof. split; [change 2%Z with (2 ^ 1)%Z at 1|change 2147483648%Z with (2 ^ 31)%Z]; apply Z.pow_le_mono_r; lia. Qed.
Lemma C_real : 2 <= C <= 2147483648 /\ N = 2 * C.
Proof. pose proof C_range as [A B]. split; [split; now apply IZR_le|]. rewrite N_C. now rewrite mult_IZR. Qed.
Lemma center_C : (Z.shiftr (2 ^ n - 1) 1 + 1 = 2 ^ (n - 1))%Z.
Proof. rewrite Z.shiftr_div_pow2 by lia. change (2 ^ 1)%Z with 2%Z. pose proof N_C. Z.div_mod_to_equations. lia. Qed.

Lemma from_double_char f : is_finite f = true -> let x := B2R f in
  from_double_0_1 n f = Ok
    (if Rle_bool x 0 then 0
     else if Rle_bool 1 x then 2 ^ n - 1
     else if Rle_bool x (/ 2) then Zfloor (x * N)
     else 2 ^ (n - 1) + Zfloor (rnd64 ((x - / 2) * (N - 1))))%Z.
Proof.
  intros F x. unfold from_double_0_1. pose proof C_range as CR. pose proof N_C as NC. destruct C_real as [CB NR].
  int64 0%Z F0 V0. int64 1%Z F1 V1. destruct half_ok as (FH & VH). int64 (2 ^ n - 1)%Z FM VM. rewrite minus_IZR in VM.
  rewrite !le_ok by assumption. rewrite V0, V1, VH. fold x.
  destruct (Rle_bool_spec x 0) as [X0|X0]; [reflexivity|].
  destruct (Rle_bool_spec 1 x) as [X1|X1]; [reflexivity|].
  pose proof (fmt_B2R 53 1024 f) as FX. fold x in FX.
  destruct (Rle_bool_spec x (/ 2)) as [XH|XH].
  - destruct (plus_ok 53 1024 (f64_of_int (2 ^ n - 1)) (f64_of_int 1) 33 FM F1) as (FS & VS); [lia| |].
    { rewrite VM, V1, pow_33. apply Rabs_le. lra. }
    assert (SC : B2R (d_plus (f64_of_int (2 ^ n - 1)) (f64_of_int 1)) = N).
    { unfold d_plus. rewrite VS, VM, V1. replace (N - 1 + 1) with N by lra. apply rnd_id. apply (fmt_int_le 53 1024); lia. }
    destruct (mult_ok 53 1024 f (d_plus (f64_of_int (2 ^ n - 1)) (f64_of_int 1)) 33 F FS) as (FP & VP); [lia| |].
    { rewrite SC, pow_33. fold x. apply Rabs_le. nra. }
    rewrite SC in VP. fold x in VP. rewrite rnd_id in VP.
    2: { rewrite <- pow2_IZR by lia. apply (fmt_shift 53 1024); [lia|exact FX]. }
    apply (unsigned_ok 53 1024); [exact FP| |].
    + unfold d_mult. rewrite VP. pose proof (Zfloor_lb (x * N)). pose proof (Zfloor_ub (x * N)). lra.
    + split; [apply Zfloor_lub; nra|]. apply lt_IZR. eapply Rle_lt_trans; [apply Zfloor_lb|]. nra.
  - destruct (minus_ok 53 1024 f d_half 33 F FH) as (FS & VS); [lia| |].
    { rewrite VH, pow_33. fold x. apply Rabs_le. lra. }
    rewrite VH in VS. fold x in VS. rewrite rnd_id in VS by (apply minus_half; [exact FX|lra]).
    destruct (mult_ok 53 1024 (d_minus f d_half) (f64_of_int (2 ^ n - 1)) 33 FS FM) as (FP & VP); [lia| |].
    { unfold d_minus. rewrite VS, VM, pow_33. apply Rabs_le. nra. }
    unfold d_minus in VP at 2. rewrite VS, VM in VP. set (y := (x - / 2) * (N - 1)) in *.
    assert (Y : 0 <= y <= C - / 2) by (unfold y; nra).
    assert (RY : 0 <= rnd64 y <= C - / 2).
    { split; [apply (rnd_lower 53 1024); [|lra]; apply (fmt_int_le 53 1024 0); lia|]. apply (rnd_upper 53 1024); [|lra].
      replace (C - / 2) with (IZR (2 ^ n - 1) * bpow radix2 (-1)) by (rewrite minus_IZR; cbn; lra).
      apply (fmt_scaled 53 1024); lia. }
    set (t := Zfloor (rnd64 y)).
    assert (T : (0 <= t < 2 ^ (n - 1))%Z).
    { split; [apply Zfloor_lub; lra|]. apply lt_IZR. eapply Rle_lt_trans; [apply Zfloor_lb|]. lra. }
    rewrite (unsigned_ok 53 1024 _ n t); [|exact FP| |lia].
    + cbn [bind]. f_equal. rewrite center_C. apply Z.mod_small. lia.
    + unfold d_mult. rewrite VP. pose proof (Zfloor_lb (rnd64 y)). pose proof (Zfloor_ub (rnd64 y)). unfold t. lra.
Qed.

(* the value of a real number, as the code computes it *)
Definition uv (x : R) : Z :=
  (if Rle_bool x 0 then 0
   else if Rle_bool 1 x then 2 ^ n - 1
   else if Rle_bool x (/ 2) then Zfloor (x * N)
   else 2 ^ (n - 1) + Zfloor (rnd64 ((x - / 2) * (N - 1))))%Z.

Lemma from_double_uv f : is_finite f = true -> from_double_0_1 n f = Ok (uv (B2R f)).
Proof. exact (from_double_char f). Qed.

Lemma upper_bounds x : / 2 <= x <= 1 -> (0 <= Zfloor (rnd64 ((x - / 2) * (N - 1))) < 2 ^ (n - 1))%Z.
Proof.
  intros X. pose proof C_range as CR. pose proof N_C as NC. destruct C_real as [CB NR].
  set (y := (x - / 2) * (N - 1)).
  assert (Y : 0 <= y <= C - / 2) by (unfold y; nra).
  assert (RY : 0 <= rnd64 y <= C - / 2).
  { split; [apply (rnd_lower 53 1024); [|lra]; apply (fmt_int_le 53 1024 0); lia|]. apply (rnd_upper 53 1024); [|lra].
    replace (C - / 2) with (IZR (2 ^ n - 1) * bpow radix2 (-1)) by (rewrite minus_IZR; cbn; lra).
    apply (fmt_scaled 53 1024); lia. }
  split; [apply Zfloor_lub; lra|]. apply lt_IZR. eapply Rle_lt_trans; [apply Zfloor_lb|]. lra.
Qed.

Lemma lower_bounds x : 0 <= x <= / 2 -> (0 <= Zfloor (x * N) <= 2 ^ (n - 1))%Z.
Proof.
  intros X. destruct C_real as [CB NR]. split; [apply Zfloor_lub; nra|].
  apply le_IZR. eapply Rle_trans; [apply Zfloor_lb|]. nra.
Qed.

Lemma uv_range x : (0 <= uv x < 2 ^ n)%Z.
Proof.
  pose proof C_range as CR. pose proof N_C as NC. unfold uv.
  destruct (Rle_bool_spec x 0); [lia|]. destruct (Rle_bool_spec 1 x); [lia|]. destruct (Rle_bool_spec x (/ 2)).
  - pose proof (lower_bounds x). lia || (specialize (H2 ltac:(lra)); lia).
  - pose proof (upper_bounds x ltac:(lra)). lia.
Qed.

Lemma uv_mono x y : x <= y -> (uv x <= uv y)%Z.
Proof.
  intros L. pose proof C_range as CR. pose proof N_C as NC. destruct C_real as [CB NR].
  pose proof (uv_range x) as RX. pose proof (uv_range y) as RY. revert RX RY. unfold uv.
  destruct (Rle_bool_spec x 0); [lia|].
  destruct (Rle_bool_spec y 0); [lra|].
  destruct (Rle_bool_spec 1 y); [lia|].
  destruct (Rle_bool_spec 1 x); [lra|].
  destruct (Rle_bool_spec x (/ 2)); destruct (Rle_bool_spec y (/ 2)); intros RX RY.
  - apply Zfloor_le. nra.
  - pose proof (lower_bounds x ltac:(lra)). pose proof (upper_bounds y ltac:(lra)). lia.
  - lra.
  - apply Zplus_le_compat_l. apply Zfloor_le. apply (rnd_le 53 1024). nra.
Qed.

Lemma rnd_quarter y : 0 <= y <= 4294967296 -> Rabs (rnd64 y - y) <= / 4.
Proof.
  intros Y. set (j := Zfloor (4 * y)). pose proof (Zfloor_lb (4 * y)). pose proof (Zfloor_ub (4 * y)). fold j in H, H0.
  assert (J : (0 <= j <= 17179869184)%Z).
  { split; [apply Zfloor_lub; lra|]. apply le_IZR. eapply Rle_trans; [apply Zfloor_lb|]. lra. }
  assert (A : IZR j * bpow radix2 (-2) <= rnd64 y).
  { apply (rnd_lower 53 1024); [apply (fmt_scaled 53 1024); lia|]. cbn. lra. }
  assert (B : rnd64 y <= IZR (j + 1) * bpow radix2 (-2)).
  { apply (rnd_upper 53 1024); [apply (fmt_scaled 53 1024); lia|]. rewrite plus_IZR. cbn. lra. }
  rewrite plus_IZR in B. cbn in A, B. apply Rabs_le. lra.
Qed.

(* the value is within one of the ideal one *)
Lemma uv_error x : 0 <= x <= 1 -> Rabs (IZR (uv x) - x * (N - 1)) <= 1.
Proof.
  intros X. pose proof C_range as CR. pose proof N_C as NC. destruct C_real as [CB NR]. unfold uv.
  destruct (Rle_bool_spec x 0). { replace x with 0 by lra. apply Rabs_le. lra. }
  destruct (Rle_bool_spec 1 x). { replace x with 1 by lra. rewrite minus_IZR. apply Rabs_le. lra. }
  destruct (Rle_bool_spec x (/ 2)).
  - pose proof (Zfloor_lb (x * N)). pose proof (Zfloor_ub (x * N)). apply Rabs_le. lra.
  - set (y := (x - / 2) * (N - 1)).
    assert (Y : 0 <= y <= 4294967296) by (unfold y; nra).
    pose proof (rnd_quarter y Y) as Q. apply Rabs_le_inv in Q.
    pose proof (Zfloor_lb (rnd64 y)). pose proof (Zfloor_ub (rnd64 y)).
    rewrite plus_IZR. assert (YE : x * (N - 1) = y + C - / 2) by (unfold y; rewrite NR; field).
    apply Rabs_le. lra.
Qed.

Lemma uv_upper x k : (0 <= k < 2 ^ (n - 1))%Z -> / 2 < x < 1 -> Rabs (x * (N - 1) - (C + IZR k)) <= / 4 ->
  uv x = (2 ^ (n - 1) + k)%Z.
Proof.
  intros K X E. pose proof C_range as CR. pose proof N_C as NC. destruct C_real as [CB NR]. unfold uv.
  destruct (Rle_bool_spec x 0); [lra|]. destruct (Rle_bool_spec 1 x); [lra|]. destruct (Rle_bool_spec x (/ 2)); [lra|].
  f_equal. apply Rabs_le_inv in E. set (y := (x - / 2) * (N - 1)).
  assert (YE : x * (N - 1) = y + C - / 2) by (unfold y; rewrite NR; field).
  assert (A : IZR (4 * k + 1) * bpow radix2 (-2) <= rnd64 y).
  { apply (rnd_lower 53 1024); [apply (fmt_scaled 53 1024); lia|]. rewrite plus_IZR, mult_IZR. cbn. lra. }
  assert (B : rnd64 y <= IZR (4 * k + 3) * bpow radix2 (-2)).
  { apply (rnd_upper 53 1024); [apply (fmt_scaled 53 1024); lia|]. rewrite plus_IZR, mult_IZR. cbn. lra. }
  rewrite plus_IZR, mult_IZR in A, B. cbn in A, B. apply Zfloor_imp. rewrite plus_IZR. lra.
Qed.

Lemma uv_exact v : (0 <= v <= 2 ^ (n - 1))%Z -> uv (IZR v / N) = v.
Proof.
  intros V. destruct C_real as [CB NR]. pose proof C_range as CR. pose proof N_C as NC.
  assert (V0 : 0 <= IZR v <= C) by (split; [apply (IZR_le 0)|apply IZR_le]; lia).
  assert (E : IZR v / N * N = IZR v) by (field; lra).
  assert (Q : 0 <= IZR v / N <= / 2) by nra.
  unfold uv. destruct (Rle_bool_spec (IZR v / N) 0).
  - assert (IZR v = 0) by nra. symmetry. now apply eq_IZR.
  - destruct (Rle_bool_spec 1 (IZR v / N)); [lra|]. destruct (Rle_bool_spec (IZR v / N) (/ 2)); [|lra].
    rewrite E. apply Zfloor_IZR.
Qed.

(* ---- to double *)

Lemma to_double_char v : (0 <= v < 2 ^ n)%Z ->
  is_finite (to_double_0_1 n v) = true /\
  B2R (to_double_0_1 n v) = if (v <=? 2 ^ (n - 1))%Z then IZR v / N else rnd64 (IZR v / (N - 1)).
Proof.
  intros V. pose proof C_range as CR. pose proof N_C as NC. destruct C_real as [CB NR].
  unfold to_double_0_1. rewrite center_C. int64 v Fv Vv. int64 2%Z F2 V2. int64 (2 ^ (n - 1))%Z FC VC. int64 (2 ^ n - 1)%Z FM VM.
  rewrite minus_IZR in VM. assert (V0 : 0 <= IZR v <= N) by (split; [apply (IZR_le 0)|apply IZR_le]; lia).
  destruct (Z.leb_spec v (2 ^ (n - 1))) as [L|L].
  - apply IZR_le in L.
    assert (Q : 0 <= IZR v / C <= 1) by (apply div_bounds; lra).
    destruct (div_ok 53 1024 (f64_of_int v) (f64_of_int (2 ^ (n - 1))) 33 Fv) as (F3 & V3); [rewrite VC; lra|lia| |].
    { rewrite Vv, VC, pow_33. apply Rabs_le. lra. }
    rewrite Vv, VC in V3. rewrite rnd_id in V3.
    2: { replace (IZR v / C) with (IZR v * bpow radix2 (- (n - 1))).
         apply (fmt_scaled 53 1024); lia. rewrite bpow_opp, pow2_IZR by lia. reflexivity. }
    destruct (div_ok 53 1024 (d_div (f64_of_int v) (f64_of_int (2 ^ (n - 1)))) (f64_of_int 2) 33 F3) as (F4 & V4); [rewrite V2; lra|lia| |].
    { unfold d_div. rewrite V3, V2, pow_33. apply Rabs_le. lra. }
    split; [exact F4|]. unfold d_div at 1. rewrite V4. unfold d_div. rewrite V3, V2.
    replace (IZR v / C / 2) with (IZR v / N) by (rewrite NR; field; lra). apply rnd_id.
    replace (IZR v / N) with (IZR v * bpow radix2 (- n)).
    apply (fmt_scaled 53 1024); lia. rewrite bpow_opp, pow2_IZR by lia. reflexivity.
  - destruct (div_ok 53 1024 (f64_of_int v) (f64_of_int (2 ^ n - 1)) 33 Fv) as (F3 & V3); [rewrite VM; lra|lia| |].
    { rewrite Vv, VM, pow_33. apply Rabs_le. assert (0 <= IZR v / (N - 1) <= 2) by (apply div_bounds; lra). lra. }
    split; [exact F3|]. unfold d_div. rewrite V3, Vv, VM. reflexivity.
Qed.

(* the error of the division *)
Lemma quotient_error v : (2 ^ (n - 1) < v < 2 ^ n - 1)%Z -> let x := rnd64 (IZR v / (N - 1)) in
  Rabs (x * (N - 1) - IZR v) <= bpow radix2 (- 21) /\ / 2 + bpow radix2 (- 34) <= x <= 1 - bpow radix2 (- 33).
Proof.
  intros V x. pose proof C_range as CR. pose proof N_C as NC. destruct C_real as [CB NR].
  assert (VR : C + 1 <= IZR v <= N - 2) by (rewrite <- plus_IZR; rewrite <- (minus_IZR (2 ^ n) 2); split; apply IZR_le; lia).
  assert (QE : IZR v / (N - 1) * (N - 1) = IZR v) by (field; lra).
  set (q := IZR v / (N - 1)) in *.
  assert (P33 : bpow radix2 (-33) = / 8589934592) by reflexivity.
  assert (P34 : bpow radix2 (-34) = / 17179869184) by reflexivity.
  assert (P21 : bpow radix2 (-21) = / 2097152) by reflexivity.
  assert (P53 : bpow radix2 (-53) = / 9007199254740992) by reflexivity.
  assert (Q : / 2 + / 17179869184 <= q <= 1 - / 8589934592) by nra.
  split.
  - assert (E : Rabs (x - q) <= bpow radix2 (-53) * Rabs q).
    { apply (rnd_error 53 1024). rewrite Rabs_pos_eq by lra. apply Rle_trans with (bpow radix2 (-1)); [apply bpow_le; lia|cbn; lra]. }
    rewrite (Rabs_pos_eq q) in E by lra. rewrite P53 in E. rewrite P21. apply Rabs_le_inv in E. apply Rabs_le. nra.
  - rewrite P33, P34. split.
    + apply (rnd_lower 53 1024); [|lra]. replace (/ 2 + / 17179869184) with (IZR (2 ^ 33 + 1) * bpow radix2 (-34)) by (rewrite P34; simpl IZR; lra).
      apply (fmt_scaled 53 1024); lia.
    + apply (rnd_upper 53 1024); [|lra]. replace (1 - / 8589934592) with (IZR (2 ^ 33 - 1) * bpow radix2 (-33)) by (rewrite P33; simpl IZR; lra).
      apply (fmt_scaled 53 1024); lia.
Qed.

Lemma uv_one : uv 1 = (2 ^ n - 1)%Z.
Proof. unfold uv. destruct (Rle_bool_spec 1 0); [lra|]. destruct (Rle_bool_spec 1 1); [reflexivity|lra]. Qed.

Lemma max_one : rnd64 (IZR (2 ^ n - 1) / (N - 1)) = 1.
Proof.
  destruct C_real as [CB NR]. rewrite minus_IZR. replace ((N - 1) / (N - 1)) with 1 by (field; lra).
  apply rnd_id. apply (fmt_int 53 1024 1). lia.
Qed.

Lemma double_round_trip v : (0 <= v < 2 ^ n)%Z -> from_double_0_1 n (to_double_0_1 n v) = Ok v.
Proof.
  intros V. destruct (to_double_char v V) as (F & E). rewrite from_double_uv by exact F. rewrite E. f_equal.
  pose proof C_range as CR. pose proof N_C as NC. destruct C_real as [CB NR].
  destruct (Z.leb_spec v (2 ^ (n - 1))) as [L|L]; [apply uv_exact; lia|].
  destruct (Z.eq_dec v (2 ^ n - 1)) as [->|NE]; [rewrite max_one; apply uv_one|].
  destruct (quotient_error v ltac:(lia)) as (Q & X0 & X1).
  replace v with (2 ^ (n - 1) + (v - 2 ^ (n - 1)))%Z at 2 by lia.
  assert (0 < bpow radix2 (-34) /\ 0 < bpow radix2 (-33)) by (split; apply bpow_gt_0).
  apply uv_upper; [lia|lra|]. rewrite minus_IZR.
  replace (C + (IZR v - C)) with (IZR v) by lra. eapply Rle_trans; [exact Q|].
  change (bpow radix2 (-21)) with (/ 2097152). lra.
Qed.
End Unit.
