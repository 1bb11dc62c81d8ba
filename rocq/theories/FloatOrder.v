(* Lemmas about order, clamping and end points of the floating point conversions, for all floats. *)
From Coq Require Import ZArith Reals Lra Lia Bool Psatz.
From Flocq Require Import Core IEEE754.BinarySingleNaN.
From Verif Require Import Base Types Floats FloatSpec FloatLemmas FloatProofs FloatPitch FloatBend.
Local Open Scope R_scope.

(* a function of doubles (or floats) computed by a monotone function of reals, with values for the infinities *)
Definition computed {p e} (g : binary_float p e -> res Z) (h : R -> Z) (lo hi : Z) : Prop :=
  (forall f, is_finite f = true -> g f = Ok (h (B2R f))) /\
  g (B754_infinity true) = Ok lo /\ g (B754_infinity false) = Ok hi /\
  (forall x, lo <= h x <= hi)%Z /\ (forall x y, x <= y -> (h x <= h y)%Z).

Lemma computed_total {p e} (g : binary_float p e -> res Z) h lo hi : computed g h lo hi ->
  forall f, is_nan f = false -> exists v, g f = Ok v /\ (lo <= v <= hi)%Z.
Proof.
  intros (A & B & C & D & E) f N. destruct f as [s|s| |s m k H]; try discriminate.
  - eexists. split; [now apply A|apply D].
  - destruct s; [exists lo|exists hi]; (split; [assumption|]); pose proof (D 0); lia.
  - eexists. split; [now apply A|apply D].
Qed.

Lemma infinite_le_false {p e} (g : binary_float p e) : Bleb (B754_infinity false) g = true -> g = B754_infinity false.
Proof. destruct g as [[]|[]| |[] m k H]; cbn; congruence. Qed.
Lemma le_infinite_true {p e} (g : binary_float p e) : Bleb g (B754_infinity true) = true -> g = B754_infinity true.
Proof. destruct g as [[]|[]| |[] m k H]; cbn; congruence. Qed.

Lemma computed_mono {p e} (g : binary_float p e -> res Z) h lo hi : computed g h lo hi ->
  forall a b, Bleb a b = true -> exists v w, g a = Ok v /\ g b = Ok w /\ (v <= w)%Z.
Proof.
  intros Cg a b L. pose proof Cg as (A & B & C & D & E).
  assert (NA : is_nan a = false) by (destruct a; try reflexivity; discriminate).
  assert (NB : is_nan b = false) by (destruct b; try reflexivity; destruct a as [[]|[]| |[] ? ? ?]; discriminate).
  destruct (computed_total g h lo hi Cg a NA) as (v & V & VR). destruct (computed_total g h lo hi Cg b NB) as (w & W & WR).
  exists v, w. split; [exact V|]. split; [exact W|].
  destruct (is_finite a) eqn:FA.
  - destruct (is_finite b) eqn:FB.
    + rewrite Bleb_correct in L by assumption. rewrite A in V by assumption. rewrite A in W by assumption. injection V as <-. injection W as <-.
      apply E. destruct (Rle_bool_spec (B2R a) (B2R b)); [assumption|discriminate].
    + destruct b as [s|s| |s m k H]; try discriminate. destruct s.
      * apply le_infinite_true in L. subst a. discriminate.
      * rewrite C in W. injection W as <-. lia.
  - destruct a as [s|s| |s m k H]; try discriminate. destruct s.
    + rewrite B in V. injection V as <-. lia.
    + apply infinite_le_false in L. subst b. rewrite V in W. injection W as <-. lia.
Qed.

Lemma bind_double_inf n s : from_double_0_1 n (B754_infinity s) = Ok (if s then 0 else 2 ^ n - 1)%Z.
Proof. destruct s; reflexivity. Qed.

Lemma uv_computed n : (2 <= n <= 32)%Z -> computed (from_double_0_1 n) (uv n) 0 (2 ^ n - 1).
Proof.
  intros N. split; [|split; [|split; [|split]]].
  - intros f F. now apply from_double_uv.
  - apply (bind_double_inf n true).
  - apply (bind_double_inf n false).
  - intros x. pose proof (uv_range n N x). lia.
  - intros x y. now apply uv_mono.
Qed.
Lemma uv_computed_float n : (2 <= n <= 32)%Z -> computed (from_float_0_1 n) (uv n) 0 (2 ^ n - 1).
Proof.
  intros N. split; [|split; [|split; [|split]]].
  - intros f F. now apply from_float_uv.
  - apply (bind_double_inf n true).
  - apply (bind_double_inf n false).
  - intros x. pose proof (uv_range n N x). lia.
  - intros x y. now apply uv_mono.
Qed.

Lemma uv_low n x : (2 <= n <= 32)%Z -> x <= 0 -> uv n x = 0%Z.
Proof. intros N X. unfold uv. now rewrite Rle_bool_true. Qed.
Lemma uv_high n x : (2 <= n <= 32)%Z -> 1 <= x -> uv n x = (2 ^ n - 1)%Z.
Proof. intros N X. unfold uv. now rewrite Rle_bool_false, Rle_bool_true by lra. Qed.

(* ---- pitch bend ------------------------------------------------------------------------------------------- *)

Section Bend.
Variables prec emax : Z.
Context {Hp : Prec_gt_0 prec} {Hm : Prec_lt_emax prec emax} {Hb : Big_format prec emax}.
Hypothesis Hgap : (2 <= emax - prec)%Z.
Notation rnd := (round radix2 (SpecFloat.fexp prec emax) ZnearestE).

(* adding 1 does not overflow *)
Lemma plus_one_bound (d : binary_float prec emax) : Rabs (rnd (B2R d + 1)) < bpow radix2 emax.
Proof.
  pose proof (abs_B2R_le_emax_minus_prec prec emax Hp d) as B. pose proof (fmt_B2R prec emax d) as F.
  destruct (round_N_pt radix2 (SpecFloat.fexp prec emax) (fun x => negb (Z.even x)) (B2R d + 1)) as (_ & N).
  specialize (N _ F). replace (B2R d - (B2R d + 1)) with (Ropp 1) in N by lra. rewrite Rabs_Ropp, Rabs_R1 in N.
  assert (G : 4 <= bpow radix2 (emax - prec)) by (change 4 with (bpow radix2 2); apply bpow_le; exact Hgap).
  apply Rabs_le_inv in B. apply Rabs_le_inv in N. apply Rabs_lt. unfold ZnearestE in *. lra.
Qed.

Lemma bend_unit_all (d one two : binary_float prec emax) : is_finite d = true ->
  is_finite one = true -> B2R one = 1 -> B2R two = 2 ->
  let x := Bdiv mode_NE (Bplus mode_NE d one) two in is_finite x = true /\ B2R x = rnd (rnd (B2R d + 1) / 2).
Proof.
  intros F F1 V1 V2. pose proof (plus_one_bound d) as PB.
  pose proof (Bplus_correct prec emax Hp Hm mode_NE d one F F1) as C. cbn [round_mode] in C. rewrite V1 in C.
  rewrite Rlt_bool_true in C by exact PB. destruct C as (VP & FP & _).
  pose proof (Bdiv_correct prec emax Hp Hm mode_NE (Bplus mode_NE d one) two) as C. cbn [round_mode] in C. rewrite V2, VP in C.
  specialize (C ltac:(lra)). rewrite Rlt_bool_true in C.
  - destruct C as (VD & FD & _). split; [now rewrite FD|exact VD].
  - eapply Rle_lt_trans; [|exact PB].
    assert (G : generic_format radix2 (SpecFloat.fexp prec emax) (rnd (B2R d + 1))).
    { apply generic_format_round; [apply fexp_valid; exact Hp|apply valid_rnd_N]. }
    set (w := rnd (B2R d + 1)) in *.
    apply abs_round_le_generic; [apply fexp_valid; exact Hp|apply valid_rnd_N|now apply generic_format_abs|].
    unfold Rdiv. rewrite Rabs_mult. rewrite (Rabs_pos_eq (/ 2)) by lra. pose proof (Rabs_pos w). lra.
Qed.

Lemma bend_real_mono x y : x <= y -> rnd (rnd (x + 1) / 2) <= rnd (rnd (y + 1) / 2).
Proof. intros L. apply (rnd_le prec emax). assert (rnd (x + 1) <= rnd (y + 1)) by (apply (rnd_le prec emax); lra). lra. Qed.

Lemma bend_real_low x : x <= -1 -> rnd (rnd (x + 1) / 2) <= 0.
Proof.
  intros L. assert (rnd (x + 1) <= 0) by (apply (rnd_upper prec emax); [apply generic_format_0|lra]).
  apply (rnd_upper prec emax); [apply generic_format_0|lra].
Qed.
Lemma bend_real_high x : 1 <= x -> 1 <= rnd (rnd (x + 1) / 2).
Proof.
  destruct Hb as [H3 H34].
  assert (P : (2 ^ 3 <= 2 ^ prec)%Z) by (apply Z.pow_le_mono_r; lia). change (2 ^ 3)%Z with 8%Z in P.
  intros L. assert (2 <= rnd (x + 1)) by (apply (rnd_lower prec emax); [apply (fmt_int prec emax 2); lia|lra]).
  apply (rnd_lower prec emax); [apply (fmt_int prec emax 1); lia|lra].
Qed.
(* accurate to a quarter of 2^-32 or so *)
Lemma bend_real_error x : -1 <= x <= 1 -> 0 <= rnd (rnd (x + 1) / 2) <= 1 /\
  Rabs (rnd (rnd (x + 1) / 2) - (x + 1) / 2) <= bpow radix2 (1 - prec).
Proof.
  destruct Hb as [H3 H34].
  assert (P : (2 ^ 3 <= 2 ^ prec)%Z) by (apply Z.pow_le_mono_r; lia). change (2 ^ 3)%Z with 8%Z in P.
  intros X.
  assert (W : 0 <= rnd (x + 1) <= 2).
  { split; [apply (rnd_lower prec emax); [apply generic_format_0|lra]|apply (rnd_upper prec emax); [apply (fmt_int prec emax 2); lia|lra]]. }
  assert (E1 : Rabs (rnd (x + 1) - (x + 1)) <= bpow radix2 (2 - prec - 1)).
  { apply (rnd_abs_error prec emax); [unfold Prec_lt_emax in Hm; lia|]. change (bpow radix2 2) with 4. apply Rabs_lt. lra. }
  set (w := rnd (x + 1)) in *.
  assert (E2 : Rabs (rnd (w / 2) - w / 2) <= bpow radix2 (1 - prec - 1)).
  { apply (rnd_abs_error prec emax); [unfold Prec_lt_emax in Hm; lia|]. change (bpow radix2 1) with 2. apply Rabs_lt. lra. }
  split.
  - split; [apply (rnd_lower prec emax); [apply generic_format_0|lra]|apply (rnd_upper prec emax); [apply (fmt_int prec emax 1); lia|lra]].
  - replace (2 - prec - 1)%Z with (1 - prec)%Z in E1 by lia. replace (1 - prec)%Z with (1 - prec - 1 + 1)%Z in E1 |- * by lia.
    rewrite bpow_plus in E1 |- *. change (bpow radix2 1) with 2 in *. apply Rabs_le_inv in E1. apply Rabs_le_inv in E2. apply Rabs_le. lra.
Qed.
End Bend.

Lemma bend_computed : computed pitch_bend_of_double (fun x => uv 32 (rnd64 (rnd64 (x + 1) / 2))) 0 4294967295.
Proof.
  int64 1%Z F1 V1. int64 2%Z F2 V2. split; [|split; [|split; [|split]]].
  - intros f F. unfold pitch_bend_of_double. destruct (bend_unit_all 53 1024 ltac:(lia) f _ (f64_of_int 2) F F1 V1 V2) as (A & B).
    fold (d_plus f (f64_of_int 1)) in A, B. fold (d_div (d_plus f (f64_of_int 1)) (f64_of_int 2)) in A, B.
    rewrite from_double_uv by (lia || assumption). now rewrite B.
  - reflexivity.
  - reflexivity.
  - intros x. pose proof (uv_range 32 ltac:(lia) (rnd64 (rnd64 (x + 1) / 2))). change (2 ^ 32)%Z with 4294967296%Z in H. lia.
  - intros x y L. apply uv_mono; [lia|]. now apply (bend_real_mono 53 1024).
Qed.
Lemma bend_computed_float : computed pitch_bend_of_float (fun x => uv 32 (rnd32 (rnd32 (x + 1) / 2))) 0 4294967295.
Proof.
  int32 1%Z F1 V1. int32 2%Z F2 V2. split; [|split; [|split; [|split]]].
  - intros f F. unfold pitch_bend_of_float. destruct (bend_unit_all 24 128 ltac:(lia) f _ (f32_of_int 2) F F1 V1 V2) as (A & B).
    fold (f_plus f (f32_of_int 1)) in A, B. fold (f_div (f_plus f (f32_of_int 1)) (f32_of_int 2)) in A, B.
    rewrite from_float_uv by (lia || assumption). now rewrite B.
  - reflexivity.
  - reflexivity.
  - intros x. pose proof (uv_range 32 ltac:(lia) (rnd32 (rnd32 (x + 1) / 2))). change (2 ^ 32)%Z with 4294967296%Z in H. lia.
  - intros x y L. apply uv_mono; [lia|]. now apply (bend_real_mono 24 128).
Qed.

(* ---- pitches -------------------------------------------------------------------------------------------------- *)

Lemma fixed_computed n k : (0 <= n)%Z -> (0 <= k)%Z -> (forall x, 0 <= fixed_point n k x <= 2 ^ n - 1)%Z.
Proof. intros N K x. pose proof (fixed_range n k x N). lia. Qed.

Lemma p725_computed : computed pitch_7_25_of_double (fixed_point 32 25) 0 4294967295.
Proof.
  split; [exact pitch_7_25_double|]. split; [reflexivity|]. split; [reflexivity|]. split.
  - apply (fixed_computed 32 25); lia.
  - intros x y. apply fixed_mono. lia.
Qed.
Lemma p725_computed_float : computed pitch_7_25_of_float (fixed_point 32 25) 0 4294967295.
Proof.
  split; [exact pitch_7_25_float|]. split; [reflexivity|]. split; [reflexivity|]. split.
  - apply (fixed_computed 32 25); lia.
  - intros x y. apply fixed_mono. lia.
Qed.
Lemma p79_computed : computed pitch_7_9_of_double (fixed_point 16 9) 0 65535.
Proof.
  split; [exact pitch_7_9_double|]. split; [reflexivity|]. split; [reflexivity|]. split.
  - apply (fixed_computed 16 9); lia.
  - intros x y. apply fixed_mono. lia.
Qed.
Lemma p79_computed_float : computed pitch_7_9_of_float (fixed_point 16 9) 0 65535.
Proof.
  split; [exact pitch_7_9_float|]. split; [reflexivity|]. split; [reflexivity|]. split.
  - apply (fixed_computed 16 9); lia.
  - intros x y. apply fixed_mono. lia.
Qed.

(* ---- the specification's predicates ------------------------------------------------------------------------------ *)

Lemma computed_scales {p e} (g : binary_float p e -> res Z) h lo hi max err : computed g h 0 max ->
  (forall x, x <= lo -> h x = 0%Z) -> (forall x, hi <= x -> h x = max) ->
  (forall x, lo <= x <= hi -> Rabs (IZR (h x) - (x - lo) / (hi - lo) * IZR max) <= err) -> scales g lo hi max err.
Proof.
  intros C L H E f N. destruct (computed_total g h 0 max C f N) as (v & V & R). exists v. split; [exact V|]. split; [exact R|].
  destruct C as (A & B & D & _). split; [|split].
  - intros F. rewrite A in V by exact F. injection V as <-. split; [apply L|]. split; [apply H|apply E].
  - intros ->. rewrite B in V. now injection V as <-.
  - intros ->. rewrite D in V. now injection V as <-.
Qed.

Lemma unit_scales n : (2 <= n <= 32)%Z -> scales (from_double_0_1 n) 0 1 (2 ^ n - 1) 1.
Proof.
  intros N. apply (computed_scales _ (uv n)); [now apply uv_computed|intros x; now apply uv_low|intros x; now apply uv_high|].
  intros x X. pose proof (uv_error n N x X) as E. rewrite minus_IZR. replace ((x - 0) / (1 - 0)) with x by field. exact E.
Qed.
Lemma unit_scales_float n : (2 <= n <= 32)%Z -> scales (from_float_0_1 n) 0 1 (2 ^ n - 1) 1.
Proof.
  intros N. apply (computed_scales _ (uv n)); [now apply uv_computed_float|intros x; now apply uv_low|intros x; now apply uv_high|].
  intros x X. pose proof (uv_error n N x X) as E. rewrite minus_IZR. replace ((x - 0) / (1 - 0)) with x by field. exact E.
Qed.

Lemma bend_error x y d e : Rabs (IZR (uv 32 y) - y * (IZR (2 ^ 32) - 1)) <= 1 -> Rabs (y - (x + 1) / 2) <= d -> 4294967295 * d + 1 <= e ->
  Rabs (IZR (uv 32 y) - (x - -1) / (1 - -1) * IZR 4294967295) <= e.
Proof.
  intros A B D. change (IZR (2 ^ 32)) with 4294967296 in A. apply Rabs_le_inv in A. apply Rabs_le_inv in B.
  replace ((x - -1) / (1 - -1)) with ((x + 1) / 2) by field. apply Rabs_le. lra.
Qed.
Lemma bend_scales : scales pitch_bend_of_double (-1) 1 4294967295 (1 + / 1000000).
Proof.
  apply (computed_scales _ _ _ _ _ _ bend_computed).
  - intros x X. apply uv_low; [lia|]. now apply (bend_real_low 53 1024).
  - intros x X. apply (uv_high 32); [lia|]. now apply (bend_real_high 53 1024).
  - intros x X. destruct (bend_real_error 53 1024 x X) as (R & E). apply (bend_error x _ (bpow radix2 (1 - 53))); [|exact E|].
    + now apply uv_error; [lia|].
    + change (bpow radix2 (1 - 53)) with (/ 4503599627370496). lra.
Qed.
Lemma bend_scales_float : scales pitch_bend_of_float (-1) 1 4294967295 513.
Proof.
  apply (computed_scales _ _ _ _ _ _ bend_computed_float).
  - intros x X. apply uv_low; [lia|]. now apply (bend_real_low 24 128).
  - intros x X. apply (uv_high 32); [lia|]. now apply (bend_real_high 24 128).
  - intros x X. destruct (bend_real_error 24 128 x X) as (R & E). apply (bend_error x _ (bpow radix2 (1 - 24))); [|exact E|].
    + now apply uv_error; [lia|].
    + change (bpow radix2 (1 - 24)) with (/ 8388608). lra.
Qed.

Lemma computed_increasing {p e} (g : binary_float p e -> res Z) h lo hi : computed g h lo hi -> increasing g.
Proof. intros C a b. now apply (computed_mono g h lo hi). Qed.

(* a function with an increasing left inverse ascends strictly *)
Lemma inverse_ascending {p e} (g : binary_float p e -> res Z) f max : increasing g ->
  (forall v, (0 <= v <= max)%Z -> is_finite (f v) = true /\ g (f v) = Ok v) -> strictly_ascending f max.
Proof.
  intros I R v w V W. destruct (R v ltac:(lia)) as (FV & GV). destruct (R w ltac:(lia)) as (FW & GW).
  destruct (Rlt_or_le (B2R (f v)) (B2R (f w))) as [L|L]; [exact L|exfalso].
  destruct (I (f w) (f v)) as (a & b & A & B & C).
  - rewrite Bleb_correct by assumption. now apply Rle_bool_true.
  - rewrite GW in A. rewrite GV in B. injection A as <-. injection B as <-. lia.
Qed.

Lemma unit_char n v : (2 <= n <= 32)%Z -> (0 <= v < 2 ^ n)%Z -> is_finite (to_double_0_1 n v) = true /\
  0 <= unipolar (2 ^ (n - 1)) (2 ^ n - 1) v <= 1 /\
  B2R (to_double_0_1 n v) = rnd64 (unipolar (2 ^ (n - 1)) (2 ^ n - 1) v) /\
  (v <= 2 ^ (n - 1) -> B2R (to_double_0_1 n v) = unipolar (2 ^ (n - 1)) (2 ^ n - 1) v)%Z.
Proof.
  intros N V. destruct (to_double_char n N v V) as (F & E). destruct (C_real n N) as (CB & NR).
  split; [exact F|]. unfold unipolar. destruct (Z.leb_spec v (2 ^ (n - 1))) as [L|L].
  - assert (Q : IZR v / (2 * IZR (2 ^ (n - 1))) = B2R (to_double_0_1 n v)) by (rewrite E, NR; reflexivity).
    split; [|split].
    + rewrite Q. now apply to_double_unit.
    + rewrite Q. symmetry. apply (rnd_id 53 1024). apply (fmt_B2R 53 1024).
    + intros _. now symmetry.
  - assert (VR : 0 <= IZR v <= IZR (2 ^ n - 1)) by (split; apply IZR_le; lia). rewrite minus_IZR in VR |- *.
    split; [|split; [exact E|lia]]. apply div_bounds; lra.
Qed.

Lemma unit_points n v : (2 <= n <= 32)%Z -> (v = 0 \/ v = 2 ^ (n - 1) \/ v = 2 ^ n - 1)%Z ->
  unipolar (2 ^ (n - 1)) (2 ^ n - 1) v = if (v =? 0)%Z then 0 else if (v =? 2 ^ (n - 1))%Z then / 2 else 1.
Proof.
  intros N P. destruct (C_real n N) as (CB & NR). pose proof (C_range n N) as CR. pose proof (N_C n N) as NC. unfold unipolar.
  destruct (Z.eqb_spec v 0) as [->|].
  - replace (0 <=? 2 ^ (n - 1))%Z with true by (symmetry; apply Z.leb_le; lia). unfold Rdiv. apply Rmult_0_l.
  - destruct (Z.eqb_spec v (2 ^ (n - 1))) as [->|].
    + rewrite Z.leb_refl. field. lra.
    + assert (v = 2 ^ n - 1)%Z as -> by tauto. replace (2 ^ n - 1 <=? 2 ^ (n - 1))%Z with false by (symmetry; apply Z.leb_gt; lia).
      rewrite minus_IZR. field. lra.
Qed.

Lemma fmt_unit_points p e {Hp : Prec_gt_0 p} {Hm : Prec_lt_emax p e} {Hb : Big_format p e} (b c : bool) :
  generic_format radix2 (SpecFloat.fexp p e) (if b then 0 else if c then / 2 else 1).
Proof.
  pose proof Hb as [B1 B2]. destruct b; [apply generic_format_0|]. destruct c.
  - change (/ 2) with (bpow radix2 (-1)). apply (fmt_pow p e). lia.
  - change 1 with (bpow radix2 0). apply (fmt_pow p e). lia.
Qed.

Lemma unit_denotes n : (2 <= n <= 32)%Z ->
  denotes (to_double_0_1 n) (unipolar (2 ^ (n - 1)) (2 ^ n - 1)) (2 ^ (n - 1)) (2 ^ n - 1) (/ 9007199254740992).
Proof.
  intros N. pose proof (C_range n N) as CR. pose proof (N_C n N) as NC. split.
  - intros v V. destruct (unit_char n v N ltac:(lia)) as (F & U & E & _). split; [exact F|]. rewrite E.
    eapply Rle_trans; [apply (rnd_abs_error 53 1024 _ 1); [lia|]|].
    + change (bpow radix2 1) with 2. apply Rabs_lt. lra.
    + change (bpow radix2 (1 - 53 - 1)) with (/ 9007199254740992). lra.
  - intros v V. destruct (unit_char n v N ltac:(lia)) as (F & U & E & _). rewrite E. apply (rnd_id 53 1024).
    rewrite unit_points by assumption. apply (fmt_unit_points 53 1024).
Qed.
Lemma unit_denotes_float n : (2 <= n <= 32)%Z ->
  denotes (to_float_0_1 n) (unipolar (2 ^ (n - 1)) (2 ^ n - 1)) (2 ^ (n - 1)) (2 ^ n - 1) (/ 16000000).
Proof.
  intros N. pose proof (C_range n N) as CR. pose proof (N_C n N) as NC. destruct (unit_denotes n N) as (D1 & D2). split.
  - intros v V. destruct (to_float_char n v N ltac:(lia)) as (F & E & U). split; [exact F|]. rewrite E.
    destruct (D1 v V) as (FD & ED). set (x := B2R (to_double_0_1 n v)) in *.
    assert (UX : 0 <= x <= 1) by (apply to_double_unit; lia).
    assert (E1 : Rabs (rnd32 x - x) <= bpow radix2 (1 - 24 - 1)).
    { apply (rnd_abs_error 24 128); [lia|]. change (bpow radix2 1) with 2. apply Rabs_lt. lra. }
    change (bpow radix2 (1 - 24 - 1)) with (/ 16777216) in E1. eapply Rle_trans; [apply (rabs_tri _ x)|]. lra.
  - intros v V. destruct (to_float_char n v N ltac:(lia)) as (F & E & U). rewrite E, D2 by assumption. apply (rnd_id 24 128).
    rewrite unit_points by assumption. apply (fmt_unit_points 24 128).
Qed.

Lemma unit_ascending n : (2 <= n <= 32)%Z -> strictly_ascending (to_double_0_1 n) (2 ^ n - 1).
Proof.
  intros N. apply (inverse_ascending (from_double_0_1 n)); [eapply computed_increasing; now apply uv_computed|].
  intros v V. split; [now apply to_double_char; [|lia]|]. apply double_round_trip; [exact N|lia].
Qed.
Lemma unit_ascending_float n : (2 <= n <= 32)%Z -> ascending (to_float_0_1 n) (2 ^ n - 1).
Proof.
  intros N v w V W. destruct (to_float_char n v N ltac:(lia)) as (_ & -> & _). destruct (to_float_char n w N ltac:(lia)) as (_ & -> & _).
  apply (rnd_le 24 128). destruct (Z.eq_dec v w) as [->|]; [lra|]. left. apply (unit_ascending n N); lia.
Qed.

Lemma bend_bipolar v : (0 <= v <= 4294967295)%Z -> is_finite (pitch_bend_as_double v) = true /\
  -1 <= bipolar 2147483648 4294967295 v <= 1 /\ B2R (pitch_bend_as_double v) = rnd64 (bipolar 2147483648 4294967295 v).
Proof.
  intros V. destruct (bend_as_double v ltac:(lia)) as (F & E). split; [exact F|]. unfold bipolar.
  change (4294967295 - 2147483648)%Z with 2147483647%Z. assert (VR : 0 <= IZR v <= 4294967295) by (split; apply IZR_le; lia).
  destruct (Z.leb_spec v 2147483648) as [L|L].
  - assert (VL : IZR v <= 2147483648) by (apply IZR_le; lia). split; [lra|].
    rewrite <- E. symmetry. apply (rnd_id 53 1024). apply (fmt_B2R 53 1024).
  - assert (VL : 2147483649 <= IZR v) by (apply IZR_le; lia). split; [lra|exact E].
Qed.

Lemma bend_points v : (v = 0 \/ v = 2147483648 \/ v = 4294967295)%Z ->
  bipolar 2147483648 4294967295 v = if (v =? 0)%Z then -1 else if (v =? 2147483648)%Z then 0 else 1.
Proof. intros [-> | [-> | ->]]; unfold bipolar; cbn [Z.leb Z.compare Pos.compare Pos.compare_cont Z.eqb Pos.eqb]; try (change (4294967295 - 2147483648)%Z with 2147483647%Z); lra. Qed.

Lemma fmt_bend_points p e {Hp : Prec_gt_0 p} {Hm : Prec_lt_emax p e} {Hb : Big_format p e} (b c : bool) :
  generic_format radix2 (SpecFloat.fexp p e) (if b then -1 else if c then 0 else 1).
Proof.
  pose proof Hb as [B1 B2]. assert (G : generic_format radix2 (SpecFloat.fexp p e) 1).
  { change 1 with (bpow radix2 0). apply (fmt_pow p e). lia. }
  destruct b; [apply (generic_format_opp _ _ 1); exact G|]. destruct c; [apply generic_format_0|exact G].
Qed.

Lemma bend_denotes : denotes pitch_bend_as_double (bipolar 2147483648 4294967295) 2147483648 4294967295 (/ 9007199254740992).
Proof.
  split.
  - intros v V. destruct (bend_bipolar v V) as (F & U & E). split; [exact F|]. rewrite E.
    eapply Rle_trans; [apply (rnd_abs_error 53 1024 _ 1); [lia|]|].
    + change (bpow radix2 1) with 2. apply Rabs_lt. lra.
    + change (bpow radix2 (1 - 53 - 1)) with (/ 9007199254740992). lra.
  - intros v V. destruct (bend_bipolar v ltac:(lia)) as (F & U & E). rewrite E. apply (rnd_id 53 1024).
    rewrite bend_points by assumption. apply (fmt_bend_points 53 1024).
Qed.
Lemma bend_double_unit v : (0 <= v <= 4294967295)%Z -> -1 <= B2R (pitch_bend_as_double v) <= 1.
Proof.
  intros V. destruct (bend_bipolar v V) as (F & U & E). rewrite E. split.
  - apply (rnd_lower 53 1024); [apply (fmt_bend_points 53 1024 true true)|apply U].
  - apply (rnd_upper 53 1024); [apply (fmt_bend_points 53 1024 false false)|apply U].
Qed.
Lemma bend_float_char v : (0 <= v <= 4294967295)%Z ->
  is_finite (pitch_bend_as_float v) = true /\ B2R (pitch_bend_as_float v) = rnd32 (B2R (pitch_bend_as_double v)).
Proof.
  intros V. destruct (bend_bipolar v V) as (F & _). pose proof (bend_double_unit v V) as U.
  destruct (narrow_ok (pitch_bend_as_double v) 0 F) as (A & B); [lia| |].
  - change (bpow radix2 0) with 1. now apply Rabs_le.
  - split; assumption.
Qed.
Lemma bend_denotes_float : denotes pitch_bend_as_float (bipolar 2147483648 4294967295) 2147483648 4294967295 (/ 16000000).
Proof.
  destruct bend_denotes as (D1 & D2). split.
  - intros v V. destruct (bend_float_char v V) as (F & E). split; [exact F|]. rewrite E.
    destruct (D1 v V) as (FD & ED). pose proof (bend_double_unit v V) as UX. set (x := B2R (pitch_bend_as_double v)) in *.
    assert (E1 : Rabs (rnd32 x - x) <= bpow radix2 (1 - 24 - 1)).
    { apply (rnd_abs_error 24 128); [lia|]. change (bpow radix2 1) with 2. apply Rabs_lt. lra. }
    change (bpow radix2 (1 - 24 - 1)) with (/ 16777216) in E1. eapply Rle_trans; [apply (rabs_tri _ x)|]. lra.
  - intros v V. destruct (bend_float_char v ltac:(lia)) as (F & E). rewrite E, D2 by assumption. apply (rnd_id 24 128).
    rewrite bend_points by assumption. apply (fmt_bend_points 24 128).
Qed.
Lemma bend_ascending : strictly_ascending pitch_bend_as_double 4294967295.
Proof.
  intros v w V W. destruct bend_denotes as (D & _). destruct (D v ltac:(lia)) as (_ & A). destruct (D w ltac:(lia)) as (_ & B).
  assert (G : bipolar 2147483648 4294967295 v + / 2147483648 <= bipolar 2147483648 4294967295 w).
  { unfold bipolar. change (4294967295 - 2147483648)%Z with 2147483647%Z.
    assert (VW : IZR v + 1 <= IZR w) by (rewrite <- plus_IZR; apply IZR_le; lia).
    destruct (Z.leb_spec v 2147483648) as [L1|L1]; destruct (Z.leb_spec w 2147483648) as [L2|L2];
      try (apply IZR_le in L1); try (apply IZR_le in L2); try (apply IZR_lt in L1); try (apply IZR_lt in L2); try lra. }
  apply Rabs_le_inv in A. apply Rabs_le_inv in B. lra.
Qed.
Lemma bend_ascending_float : ascending pitch_bend_as_float 4294967295.
Proof.
  intros v w V W. destruct (bend_float_char v ltac:(lia)) as (_ & ->). destruct (bend_float_char w ltac:(lia)) as (_ & ->).
  apply (rnd_le 24 128). destruct (Z.eq_dec v w) as [->|]; [lra|]. left. apply bend_ascending; lia.
Qed.

Lemma pitch_7_25_float_round_trip v : (0 <= v < 4294967296)%Z ->
  exists w, pitch_7_25_of_float (pitch_7_25_as_float v) = Ok w /\ (Z.abs (w - v) <= 128)%Z.
Proof.
  intros V. destruct (pitch_7_25_as_float_ok v V) as (F & E & _). rewrite pitch_7_25_float by exact F.
  eexists. split; [reflexivity|]. apply (fixed_near 32 25); [lia|exact V|lia|exact E].
Qed.

(* ---- increments and sums of numbers that are not finite ----------------------------------------------------------- *)

Lemma signed_mono x y : x <= y -> (signed_fixed_point 32 25 x <= signed_fixed_point 32 25 y)%Z.
Proof.
  intros L. unfold signed_fixed_point. change (IZR (2 ^ 25)) with 33554432.
  destruct (Rle_bool_spec 0 x); destruct (Rle_bool_spec 0 y); try lra.
  - assert (Zfloor (x * 33554432 + / 2) <= Zfloor (y * 33554432 + / 2))%Z by (apply Zfloor_le; lra). lia.
  - assert (0 <= Zfloor (y * 33554432 + / 2))%Z by (apply Zfloor_lub; lra).
    assert (0 <= Zfloor (- x * 33554432 + / 2))%Z by (apply Zfloor_lub; lra). lia.
  - assert (Zfloor (- y * 33554432 + / 2) <= Zfloor (- x * 33554432 + / 2))%Z by (apply Zfloor_le; lra). lia.
Qed.

(* ---- documented ranges ------------------------------------------------------------------------------------ *)

Lemma pitch_7_9_range v : (0 <= v < 65536)%Z -> 0 <= B2R (pitch_7_9_as_double v) < 128 /\ 0 <= B2R (pitch_7_9_as_float v) < 128.
Proof.
  intros V. destruct (pitch_7_9_as_double_ok v V) as (_ & E). destruct (pitch_7_9_as_float_ok v V) as (_ & E').
  assert (B : 0 <= IZR v < 65536) by (split; [apply IZR_le|apply IZR_lt]; lia). rewrite E, E'. lra.
Qed.

Lemma pitch_7_25_range v : (0 <= v < 4294967296)%Z -> 0 <= B2R (pitch_7_25_as_double v) < 128 /\
  ((v < 4294967168)%Z -> 0 <= B2R (pitch_7_25_as_float v) < 128).
Proof.
  intros V. destruct (pitch_7_25_as_double_ok v V) as (_ & E). destruct (pitch_7_25_as_float_ok v V) as (_ & A & L & _).
  assert (B : 0 <= IZR v < 4294967296) by (split; [apply IZR_le|apply IZR_lt]; lia). split; [rewrite E; lra|].
  intros U. apply IZR_lt in U. apply Rabs_le_inv in A. lra.
Qed.

Lemma pitch_7_25_reaches_128 : B2R (pitch_7_25_as_float 4294967168) = 128.
Proof.
  rewrite <- SF2R_B2SF. replace (B2SF (pitch_7_25_as_float 4294967168)) with (SpecFloat.S754_finite false 8388608 (-16)) by now vm_compute.
  unfold SF2R, F2R. cbn. lra.
Qed.
