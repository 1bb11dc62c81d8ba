(* General lemmas about the IEEE operations of Floats.v, on top of Flocq. *)
From Coq Require Import ZArith Reals Lra Lia Bool Psatz.
From Flocq Require Import Core IEEE754.BinarySingleNaN Relative Sterbenz.
From Verif Require Import Base Types Floats.
Local Open Scope R_scope.

Lemma pow2_IZR e : (0 <= e)%Z -> bpow radix2 e = IZR (2 ^ e).
Proof. intros E. rewrite <- IZR_Zpower by assumption. reflexivity. Qed.

Class Big_format (prec emax : Z) : Prop := big_format : (3 <= prec)%Z /\ (34 <= emax)%Z.
Global Instance big_24 : Big_format 24 128. Proof. split; lia. Qed.
Global Instance big_53 : Big_format 53 1024. Proof. split; lia. Qed.

Section Format.
Variables prec emax : Z.
Context {Hp : Prec_gt_0 prec} {Hm : Prec_lt_emax prec emax}.
Context {Hb : Big_format prec emax}.
Local Definition Hprec : (3 <= prec)%Z := proj1 Hb.
Local Definition Hemax : (34 <= emax)%Z := proj2 Hb.
Ltac zlia := pose proof Hprec; pose proof Hemax; unfold Prec_gt_0, Prec_lt_emax in *; lia.

Notation rnd := (round radix2 (SpecFloat.fexp prec emax) ZnearestE).
Notation fmt := (generic_format radix2 (SpecFloat.fexp prec emax)).

Local Instance fexp_valid : Valid_exp (SpecFloat.fexp prec emax) := FLT_exp_valid (3 - emax - prec) prec.

Lemma fmt_scaled m e : (Z.abs m < 2 ^ prec)%Z -> (3 - emax - prec <= e)%Z -> fmt (IZR m * bpow radix2 e).
Proof.
  intros M E. change (SpecFloat.fexp prec emax) with (FLT_exp (3 - emax - prec) prec).
  apply generic_format_FLT. exists (Float radix2 m e); [reflexivity|exact M|exact E].
Qed.

Lemma fmt_int m : (Z.abs m < 2 ^ prec)%Z -> fmt (IZR m).
Proof. intros M. replace (IZR m) with (IZR m * bpow radix2 0) by (cbn; lra). apply fmt_scaled; [exact M|]. zlia. Qed.

Lemma fmt_pow e : (3 - emax - prec <= e)%Z -> fmt (bpow radix2 e).
Proof.
  intros E. replace (bpow radix2 e) with (IZR 1 * bpow radix2 e) by lra. apply fmt_scaled; [|exact E].
  change (Z.abs 1) with (2 ^ 0)%Z. apply Z.pow_lt_mono_r; zlia.
Qed.

(* integers up to and including 2^prec *)
Lemma fmt_int_le m : (Z.abs m <= 2 ^ prec)%Z -> fmt (IZR m).
Proof.
  intros M. assert (H : (Z.abs m < 2 ^ prec \/ m = 2 ^ prec \/ m = - 2 ^ prec)%Z) by zlia.
  destruct H as [H|[->| ->]]; [now apply fmt_int| |].
  - rewrite <- pow2_IZR by zlia. apply fmt_pow. zlia.
  - rewrite opp_IZR. apply generic_format_opp. rewrite <- pow2_IZR by zlia. apply fmt_pow. zlia.
Qed.

(* scaling up stays in the format *)
Lemma fmt_shift x k : (0 <= k)%Z -> fmt x -> fmt (x * bpow radix2 k).
Proof.
  intros K F. apply (FLT_format_generic radix2 (3 - emax - prec) prec) in F. destruct F as [f F1 F2 F3].
  apply (generic_format_FLT radix2 (3 - emax - prec) prec). exists (Float radix2 (Fnum f) (Fexp f + k)); cbn [Fnum Fexp]; [|exact F2|zlia].
  rewrite F1. unfold F2R. cbn [Fnum Fexp]. rewrite bpow_plus. ring.
Qed.

Lemma fmt_B2R (x : binary_float prec emax) : fmt (B2R x).
Proof. apply generic_format_B2R. Qed.

Lemma rnd_id x : fmt x -> rnd x = x.
Proof. intros F. apply round_generic; [apply valid_rnd_N|exact F]. Qed.

Lemma rnd_le x y : x <= y -> rnd x <= rnd y.
Proof. apply round_le; [apply fexp_valid|apply valid_rnd_N]. Qed.
Lemma rnd_lower l x : fmt l -> l <= x -> l <= rnd x.
Proof. intros F H. rewrite <- (rnd_id l F). now apply rnd_le. Qed.
Lemma rnd_upper l x : fmt l -> x <= l -> rnd x <= l.
Proof. intros F H. rewrite <- (rnd_id l F). now apply rnd_le. Qed.

Lemma rnd_abs x e : (0 <= e)%Z -> Rabs x <= bpow radix2 e -> Rabs (rnd x) <= bpow radix2 e.
Proof.
  intros E H. apply Rabs_le_inv in H. apply Rabs_le. split.
  - apply rnd_lower; [|lra]. apply generic_format_opp, fmt_pow. zlia.
  - apply rnd_upper; [|lra]. apply fmt_pow. zlia.
Qed.

(* relative error *)
Lemma rnd_error x : bpow radix2 (2 - emax) <= Rabs x -> Rabs (rnd x - x) <= bpow radix2 (- prec) * Rabs x.
Proof.
  intros H. change (SpecFloat.fexp prec emax) with (FLT_exp (3 - emax - prec) prec).
  eapply Rle_trans; [apply (relative_error_N_FLT radix2 (3 - emax - prec) prec Hp)|].
  - replace (3 - emax - prec + prec - 1)%Z with (2 - emax)%Z by zlia. exact H.
  - rewrite bpow_plus. change (bpow radix2 1) with 2. lra.
Qed.

Lemma ulp_FLT_0' : ulp radix2 (SpecFloat.fexp prec emax) 0 = bpow radix2 (3 - emax - prec).
Proof. apply (ulp_FLT_0 radix2 (3 - emax - prec) prec). Qed.

(* absolute error *)
Lemma rnd_abs_error x e : (3 - emax <= e)%Z -> Rabs x < bpow radix2 e -> Rabs (rnd x - x) <= bpow radix2 (e - prec - 1).
Proof.
  intros E H. eapply Rle_trans; [apply error_le_half_ulp; apply fexp_valid|].
  destruct (Req_dec x 0) as [->|X].
  - rewrite ulp_FLT_0'. replace (e - prec - 1)%Z with (-1 + (e - prec))%Z by zlia. rewrite bpow_plus.
    change (bpow radix2 (-1)) with (/ 2). apply Rmult_le_compat_l; [lra|]. apply bpow_le. zlia.
  - rewrite ulp_neq_0 by exact X. replace (e - prec - 1)%Z with (-1 + (e - prec))%Z by zlia. rewrite bpow_plus.
    change (bpow radix2 (-1)) with (/ 2). apply Rmult_le_compat_l; [lra|]. apply bpow_le.
    unfold cexp, SpecFloat.fexp, SpecFloat.emin. pose proof (mag_le_bpow radix2 x e X H). zlia.
Qed.

Lemma no_overflow x e : (0 <= e < emax)%Z -> Rabs x <= bpow radix2 e -> Rlt_bool (Rabs (rnd x)) (bpow radix2 emax) = true.
Proof.
  intros E H. apply Rlt_bool_true. eapply Rle_lt_trans; [apply (rnd_abs x e); [zlia|exact H]|]. apply bpow_lt. zlia.
Qed.

(* the operations, when the result is at most 2^e *)
Lemma mult_ok (x y : binary_float prec emax) e : is_finite x = true -> is_finite y = true -> (0 <= e < emax)%Z ->
  Rabs (B2R x * B2R y) <= bpow radix2 e ->
  is_finite (Bmult mode_NE x y) = true /\ B2R (Bmult mode_NE x y) = rnd (B2R x * B2R y).
Proof.
  intros X Y E H. pose proof (Bmult_correct prec emax Hp Hm mode_NE x y) as C. cbn [round_mode] in C.
  rewrite (no_overflow _ e E H) in C. destruct C as (-> & -> & _). now rewrite X, Y.
Qed.
Lemma div_ok (x y : binary_float prec emax) e : is_finite x = true -> B2R y <> 0 -> (0 <= e < emax)%Z ->
  Rabs (B2R x / B2R y) <= bpow radix2 e ->
  is_finite (Bdiv mode_NE x y) = true /\ B2R (Bdiv mode_NE x y) = rnd (B2R x / B2R y).
Proof.
  intros X Y E H. pose proof (Bdiv_correct prec emax Hp Hm mode_NE x y Y) as C. cbn [round_mode] in C.
  rewrite (no_overflow _ e E H) in C. destruct C as (-> & -> & _). now rewrite X.
Qed.
Lemma plus_ok (x y : binary_float prec emax) e : is_finite x = true -> is_finite y = true -> (0 <= e < emax)%Z ->
  Rabs (B2R x + B2R y) <= bpow radix2 e ->
  is_finite (Bplus mode_NE x y) = true /\ B2R (Bplus mode_NE x y) = rnd (B2R x + B2R y).
Proof.
  intros X Y E H. pose proof (Bplus_correct prec emax Hp Hm mode_NE x y X Y) as C. cbn [round_mode] in C.
  rewrite (no_overflow _ e E H) in C. destruct C as (-> & -> & _). easy.
Qed.
Lemma minus_ok (x y : binary_float prec emax) e : is_finite x = true -> is_finite y = true -> (0 <= e < emax)%Z ->
  Rabs (B2R x - B2R y) <= bpow radix2 e ->
  is_finite (Bminus mode_NE x y) = true /\ B2R (Bminus mode_NE x y) = rnd (B2R x - B2R y).
Proof.
  intros X Y E H. pose proof (Bminus_correct prec emax Hp Hm mode_NE x y X Y) as C. cbn [round_mode] in C.
  rewrite (no_overflow _ e E H) in C. destruct C as (-> & -> & _). easy.
Qed.

Lemma normalize_ok m k s e : (0 <= e < emax)%Z -> Rabs (IZR m * bpow radix2 k) <= bpow radix2 e ->
  is_finite (binary_normalize prec emax Hp Hm mode_NE m k s) = true /\
  B2R (binary_normalize prec emax Hp Hm mode_NE m k s) = rnd (IZR m * bpow radix2 k).
Proof.
  intros E H. pose proof (binary_normalize_correct prec emax Hp Hm mode_NE m k s) as C. cbn [round_mode] in C.
  change (F2R (Float radix2 m k)) with (IZR m * bpow radix2 k) in C.
  cbv zeta in C. rewrite (no_overflow _ e E H) in C. destruct C as (-> & -> & _). easy.
Qed.

(* integers of at most prec bits *)
Lemma of_int_ok z : (Z.abs z <= 2 ^ prec)%Z -> (Z.abs z <= 2 ^ 33)%Z ->
  is_finite (binary_normalize prec emax Hp Hm mode_NE z 0 false) = true /\
  B2R (binary_normalize prec emax Hp Hm mode_NE z 0 false) = IZR z.
Proof.
  intros Z1 Z2. destruct (normalize_ok z 0 false 33) as [A B]; [zlia| |].
  - change (bpow radix2 0) with 1. rewrite Rmult_1_r, <- abs_IZR, pow2_IZR by zlia. now apply IZR_le.
  - split; [exact A|]. rewrite B. change (bpow radix2 0) with 1. rewrite Rmult_1_r. apply rnd_id. now apply fmt_int_le.
Qed.

Lemma le_ok (x y : binary_float prec emax) : is_finite x = true -> is_finite y = true -> Bleb x y = Rle_bool (B2R x) (B2R y).
Proof. apply Bleb_correct. Qed.
Lemma lt_ok (x y : binary_float prec emax) : is_finite x = true -> is_finite y = true -> Bltb x y = Rlt_bool (B2R x) (B2R y).
Proof. apply Bltb_correct. Qed.

Lemma fix_round rd {V : Valid_rnd rd} x : round radix2 (FIX_exp 0) rd x = IZR (rd x).
Proof. unfold round, F2R, scaled_mantissa, cexp, FIX_exp. cbn [Fnum Fexp bpow Z.opp]. now rewrite !Rmult_1_r. Qed.

Lemma trunc_ok (x : binary_float prec emax) : Btrunc x = Ztrunc (B2R x).
Proof. apply eq_IZR. rewrite Btrunc_correct by assumption. now rewrite fix_round by apply valid_rnd_ZR. Qed.

Lemma unsigned_ok (x : binary_float prec emax) n v : is_finite x = true -> IZR v <= B2R x < IZR v + 1 -> (0 <= v < 2 ^ n)%Z ->
  to_unsigned n x = Ok v.
Proof.
  intros F (L & U) V. unfold to_unsigned. rewrite F, trunc_ok.
  assert (T : Ztrunc (B2R x) = v).
  { rewrite Ztrunc_floor; [|apply IZR_le in V as V0 || idtac; apply Rle_trans with (2 := L); apply (IZR_le 0); zlia].
    apply Zfloor_imp. rewrite plus_IZR. lra. }
  rewrite T. replace (0 <=? v)%Z with true by (symmetry; apply Z.leb_le; zlia).
  replace (v <? 2 ^ n)%Z with true by (symmetry; apply Z.ltb_lt; zlia). reflexivity.
Qed.

(* std::round of a value that is not negative *)
Lemma round_ok (x : binary_float prec emax) : is_finite x = true -> 0 <= B2R x ->
  is_finite (Bnearbyint mode_NA x) = true /\ B2R (Bnearbyint mode_NA x) = IZR (Zfloor (B2R x + / 2)).
Proof.
  intros F X. destruct (Bnearbyint_correct prec emax Hm mode_NA x) as (A & B & _).
  split; [now rewrite B|]. rewrite A. cbn [round_mode]. rewrite fix_round by apply valid_rnd_N. f_equal.
  unfold ZnearestA, Znearest. set (y := B2R x) in *.
  pose proof (Zfloor_lb y). pose proof (Zfloor_ub y).
  assert (P : (0 <= Zfloor y)%Z) by (apply Zfloor_lub; exact X).
  destruct (Rcompare_spec (y - IZR (Zfloor y)) (/ 2)) as [C|C|C].
  - symmetry. apply Zfloor_imp. rewrite plus_IZR. lra.
  - replace (0 <=? Zfloor y)%Z with true by (symmetry; apply Z.leb_le; zlia).
    rewrite Zceil_floor_neq by lra. symmetry. apply Zfloor_imp. rewrite !plus_IZR. lra.
  - rewrite Zceil_floor_neq by lra. symmetry. apply Zfloor_imp. rewrite !plus_IZR. lra.
Qed.

(* std::round(f * 2^k) *)
Lemma scaled_round (f s : binary_float prec emax) k : is_finite f = true -> is_finite s = true -> (0 <= k <= 25)%Z ->
  B2R s = IZR (2 ^ k) -> 0 < B2R f < 128 ->
  let r := Bnearbyint mode_NA (Bmult mode_NE f s) in
  is_finite r = true /\ B2R r = IZR (Zfloor (B2R f * IZR (2 ^ k) + / 2)).
Proof.
  intros F S K V X r.
  assert (P : 1 <= IZR (2 ^ k) <= 33554432).
  { split; apply IZR_le; [change 1%Z with (2 ^ 0)%Z|change 33554432%Z with (2 ^ 25)%Z]; apply Z.pow_le_mono_r; zlia. }
  destruct (mult_ok f s 32 F S) as (FM & VM); [zlia| |].
  { rewrite V, pow2_IZR by zlia. apply Rabs_le. change (IZR (2 ^ 32)) with 4294967296. nra. }
  rewrite V in VM. rewrite rnd_id in VM.
  2: { rewrite <- pow2_IZR by zlia. apply fmt_shift; [zlia|apply fmt_B2R]. }
  destruct (round_ok (Bmult mode_NE f s) FM) as (FR & VR); [rewrite VM; nra|].
  split; [exact FR|]. unfold r. now rewrite VR, VM.
Qed.
End Format.

(* ---- conversions between the formats ------------------------------------------------------------------- *)

Notation rnd32 := (round radix2 (SpecFloat.fexp 24 128) ZnearestE).
Notation rnd64 := (round radix2 (SpecFloat.fexp 53 1024) ZnearestE).
Notation fmt32 := (generic_format radix2 (SpecFloat.fexp 24 128)).
Notation fmt64 := (generic_format radix2 (SpecFloat.fexp 53 1024)).

Lemma cond_IZR s m e : IZR (cond_Zopp s (Zpos m)) * bpow radix2 e = F2R (Float radix2 (cond_Zopp s (Zpos m)) e).
Proof. reflexivity. Qed.

Lemma fmt_32_64 x : fmt32 x -> fmt64 x.
Proof.
  intros F. apply (FLT_format_generic radix2 (-149) 24) in F. destruct F as [f F1 F2 F3].
  apply (generic_format_FLT radix2 (-1074) 53). exists f; [exact F1| |lia].
  eapply Z.lt_trans; [exact F2|]. reflexivity.
Qed.

Lemma widen_ok f : is_finite f = true -> is_finite (widen f) = true /\ B2R (widen f) = B2R f.
Proof.
  intros F. pose proof (fmt_32_64 _ (fmt_B2R 24 128 f)) as G. pose proof (abs_B2R_lt_emax 24 128 f) as A.
  destruct f as [s|s| |s m e H]; try discriminate; [split; reflexivity|].
  cbn [B2R widen] in *.
  assert (B : Rabs (IZR (cond_Zopp s (Z.pos m)) * bpow radix2 e) <= bpow radix2 128).
  { rewrite cond_IZR. now apply Rlt_le. }
  destruct (normalize_ok 53 1024 (cond_Zopp s (Zpos m)) e s 128 ltac:(lia) B) as (N & V).
  split; [exact N|]. rewrite V. apply rnd_id. exact G.
Qed.

Lemma narrow_ok d e : is_finite d = true -> (0 <= e < 128)%Z -> Rabs (B2R d) <= bpow radix2 e ->
  is_finite (narrow d) = true /\ B2R (narrow d) = rnd32 (B2R d).
Proof.
  intros F E B. destruct d as [s|s| |s m k H]; try discriminate.
  - split; [reflexivity|]. cbn. symmetry. apply round_0. apply valid_rnd_N.
  - cbn [B2R narrow] in *. apply (normalize_ok 24 128 (cond_Zopp s (Zpos m)) k s e E). exact B.
Qed.

Lemma f64_of_int_ok z : (Z.abs z <= 2 ^ 33)%Z -> is_finite (f64_of_int z) = true /\ B2R (f64_of_int z) = IZR z.
Proof. intros H. apply (of_int_ok 53 1024); lia. Qed.
Lemma f32_of_int_ok z : (Z.abs z <= 2 ^ 24)%Z -> is_finite (f32_of_int z) = true /\ B2R (f32_of_int z) = IZR z.
Proof. intros H. apply (of_int_ok 24 128); lia. Qed.
Lemma f32_pow k : (0 <= k <= 33)%Z -> is_finite (f32_of_int (2 ^ k)) = true /\ B2R (f32_of_int (2 ^ k)) = IZR (2 ^ k).
Proof.
  intros K. destruct (normalize_ok 24 128 (2 ^ k) 0 false 33) as [A B]; [lia| |].
  - change (bpow radix2 0) with 1. rewrite Rmult_1_r, <- abs_IZR, pow2_IZR by lia. apply IZR_le. rewrite Z.abs_eq by (apply Z.pow_nonneg; lia).
    apply Z.pow_le_mono_r; lia.
  - split; [exact A|]. unfold f32_of_int. rewrite B. change (bpow radix2 0) with 1. rewrite Rmult_1_r. apply rnd_id.
    rewrite <- pow2_IZR by lia. apply (fmt_pow 24 128); lia.
Qed.
