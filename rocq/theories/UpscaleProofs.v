(* The generic upscaler computes the binary expansion of low / (2^(x-1) - 1) *)
From Coq Require Import ZArith List Bool Lia.
From Verif Require Import Base Bits Types TypesSpec TypesProofs VoiceSpec.
Import ListNotations.
Local Open Scope Z_scope.

(* low * 2^e for any sign of e *)
Definition scaled (low e : Z) : Z := if 0 <=? e then low * 2 ^ e else low / 2 ^ (- e).
Definition expansion (low r s : Z) : Z := low * 2 ^ s / (2 ^ r - 1).

Lemma pow2_pos e : 0 <= e -> 0 < 2 ^ e.
Proof. intros. apply Z.pow_pos_nonneg; lia. Qed.

Lemma expansion_small low r s : 0 <= s < r -> 0 <= low < 2 ^ r - 1 -> expansion low r s = scaled low (s - r).
Proof.
  intros S L. unfold expansion, scaled. replace (0 <=? s - r) with false by (symmetry; apply Z.leb_gt; lia).
  replace (- (s - r)) with (r - s) by lia.
  pose proof (pow2_pos s ltac:(lia)). pose proof (pow2_pos (r - s) ltac:(lia)).
  assert (PR : 2 ^ r = 2 ^ s * 2 ^ (r - s)) by (rewrite <- Z.pow_add_r by lia; f_equal; lia).
  pose proof (Z.div_mod low (2 ^ (r - s)) ltac:(lia)) as D. pose proof (Z.mod_pos_bound low (2 ^ (r - s)) ltac:(lia)) as M.
  set (a := low / 2 ^ (r - s)) in *. set (b := low mod 2 ^ (r - s)) in *.
  assert (A : 0 <= a < 2 ^ s).
  { split; [apply Z.div_pos; lia|]. apply Z.div_lt_upper_bound; [lia|]. lia. }
  symmetry. apply Z.div_unique with (a + b * 2 ^ s); [|rewrite D at 1; rewrite PR; ring].
  left. split; [nia|]. destruct (Z.eq_dec b (2 ^ (r - s) - 1)) as [B|B].
  - assert (a <> 2 ^ s - 1). { intros X. rewrite X, B in D. nia. } nia.
  - nia.
Qed.

Lemma expansion_step low r s : 1 < r -> r <= s -> 0 <= low -> expansion low r s = low * 2 ^ (s - r) + expansion low r (s - r).
Proof.
  intros R S L. unfold expansion. assert (2 ^ 2 <= 2 ^ r) by (apply Z.pow_le_mono_r; lia).
  replace (2 ^ s) with (2 ^ (s - r) * 2 ^ r) by (rewrite <- Z.pow_add_r by lia; f_equal; lia).
  replace (low * (2 ^ (s - r) * 2 ^ r)) with (low * 2 ^ (s - r) + (low * 2 ^ (s - r)) * (2 ^ r - 1)) by ring.
  rewrite Z.div_add by lia. ring.
Qed.

Lemma scaled_shift low e r : 0 <= low -> 0 <= r -> Z.shiftr (scaled low e) r = scaled low (e - r).
Proof.
  intros L R. rewrite shiftr_div by lia. unfold scaled. pose proof (pow2_pos r R).
  destruct (Z.leb_spec 0 e); destruct (Z.leb_spec 0 (e - r)); try lia.
  - replace (2 ^ e) with (2 ^ (e - r) * 2 ^ r) by (rewrite <- Z.pow_add_r by lia; f_equal; lia).
    rewrite Z.mul_assoc, Z.div_mul by lia. reflexivity.
  - replace (2 ^ r) with (2 ^ e * 2 ^ (r - e)) by (rewrite <- Z.pow_add_r by lia; f_equal; lia).
    pose proof (pow2_pos e ltac:(lia)). pose proof (pow2_pos (r - e) ltac:(lia)).
    rewrite <- Z.div_div by lia. rewrite Z.div_mul by lia. do 2 f_equal. lia.
  - rewrite Z.div_div; [|pose proof (pow2_pos (- e)); lia|lia]. rewrite <- Z.pow_add_r by lia. do 2 f_equal. lia.
Qed.

Lemma scaled_bound low r s : 0 <= low < 2 ^ r -> 0 <= r -> 0 <= s -> 0 <= scaled low (s - r) < 2 ^ s.
Proof.
  intros L R S. unfold scaled. destruct (Z.leb_spec 0 (s - r)).
  - pose proof (pow2_pos (s - r) ltac:(lia)).
    replace (2 ^ s) with (2 ^ r * 2 ^ (s - r)) by (rewrite <- Z.pow_add_r by lia; f_equal; lia). nia.
  - pose proof (pow2_pos (- (s - r)) ltac:(lia)). split; [apply Z.div_pos; lia|].
    apply Z.div_lt_upper_bound; [lia|]. rewrite <- Z.pow_add_r by lia.
    replace (- (s - r) + s) with r by lia. lia.
Qed.

Lemma repeat_loop_exact fuel : forall r low s a,
  1 < r -> 0 <= s -> 0 <= low < 2 ^ r - 1 -> a mod 2 ^ s = 0 -> 0 <= a -> scaled low (s - r) < 2 ^ Z.of_nat fuel ->
  repeat_loop fuel r a (scaled low (s - r)) = Some (a + expansion low r s).
Proof.
  induction fuel as [|fuel IH]; intros r low s a R S L A A0 F; cbn [repeat_loop];
    pose proof (scaled_bound low r s ltac:(lia) ltac:(lia) S) as B.
  - change (2 ^ Z.of_nat 0) with 1 in F. assert (E : scaled low (s - r) = 0) by lia. rewrite E. cbn [Z.eqb].
    f_equal. destruct (Z_lt_ge_dec s r) as [C|C].
    + rewrite expansion_small by lia. lia.
    + assert (low = 0).
      { unfold scaled in E. replace (0 <=? s - r) with true in E by (symmetry; apply Z.leb_le; lia).
        pose proof (pow2_pos (s - r) ltac:(lia)). nia. }
      subst low. unfold expansion. rewrite Z.mul_0_l, Z.div_0_l by lia. lia.
  - destruct (Z.eqb_spec (scaled low (s - r)) 0) as [E|E].
    + f_equal. destruct (Z_lt_ge_dec s r) as [C|C].
      * rewrite expansion_small by lia. lia.
      * assert (low = 0).
        { unfold scaled in E. replace (0 <=? s - r) with true in E by (symmetry; apply Z.leb_le; lia).
          pose proof (pow2_pos (s - r) ltac:(lia)). nia. }
        subst low. unfold expansion. rewrite Z.mul_0_l, Z.div_0_l by lia. lia.
    + rewrite (lor_add s) by (try lia; assumption). rewrite scaled_shift by lia.
      destruct (Z_lt_ge_dec s r) as [C|C].
      * rewrite expansion_small by lia.
        assert (Z0 : scaled low (s - r - r) = 0).
        { rewrite <- scaled_shift by lia. rewrite shiftr_div by lia. apply Z.div_small.
          pose proof (Z.pow_le_mono_r 2 s r). lia. }
        rewrite Z0. destruct fuel; reflexivity.
      * rewrite expansion_step by lia.
        assert (SC : scaled low (s - r) = low * 2 ^ (s - r)).
        { unfold scaled. now replace (0 <=? s - r) with true by (symmetry; apply Z.leb_le; lia). }
        rewrite SC. rewrite IH; try lia.
        -- f_equal. ring.
        -- pose proof (pow2_pos (s - r) ltac:(lia)). rewrite Z.mod_add by lia.
           pose proof (pow2_pos s ltac:(lia)).
           replace (2 ^ s) with (2 ^ (s - r) * 2 ^ r) in A by (rewrite <- Z.pow_add_r by lia; f_equal; lia).
           apply Z.mod_divide in A; [|lia]. destruct A as [k A]. rewrite A, Z.mul_assoc, (Z.mul_comm k), <- Z.mul_assoc, Z.mul_comm.
           apply Z.mod_mul. lia.
        -- rewrite <- scaled_shift by lia. rewrite shiftr_div by lia.
           rewrite Nat2Z.inj_succ, Z.pow_succ_r in F by lia.
           apply Z.le_lt_trans with (scaled low (s - r) / 2).
           ++ apply Z.div_le_compat_l; [lia|]. split; [lia|]. change 2 with (2 ^ 1) at 1. apply Z.pow_le_mono_r; lia.
           ++ apply Z.div_lt_upper_bound; lia.
Qed.

Lemma generic_exact v x y : 2 <= x -> x < y -> y <= 32 -> 0 <= v < 2 ^ x ->
  upsample_x_to_ybit v x y = Ok (Some (min_center_max x y v)).
Proof.
  intros Hx Hxy Hy Hv.
  assert (P : 2 ^ x = 2 * 2 ^ (x - 1)) by (rewrite <- Z.pow_succ_r by lia; f_equal; lia).
  pose proof (pow2_pos (x - 1) ltac:(lia)). pose proof (pow2_pos (y - x) ltac:(lia)).
  assert (RET : forall r, generic x y v = Some r -> upsample_x_to_ybit v x y = Ok (Some r)).
  { intros r E. unfold generic in E. destruct (upsample_x_to_ybit v x y) as [o|]; [|discriminate]. cbn [returned] in E. congruence. }
  unfold min_center_max. destruct (Z.leb_spec v (2 ^ (x - 1))) as [C|C].
  { apply RET, generic_low; lia. }
  assert (LOW : v mod 2 ^ (x - 1) = v - 2 ^ (x - 1)).
  { symmetry. apply Z.mod_unique with 1; lia. }
  rewrite LOW. destruct (Z.eqb_spec (v - 2 ^ (x - 1)) (2 ^ (x - 1) - 1)) as [M|M].
  { assert (v = 2 ^ x - 1) by lia. subst v. apply RET. rewrite generic_max by lia. f_equal.
    replace (2 ^ x - 1 + 1) with (2 ^ x) by lia. now rewrite <- pow_split by lia. }
  destruct (Z.eq_dec x 2) as [->|X2].
  { change (2 ^ (2 - 1)) with 2 in *. change (2 ^ 2) with 4 in *. lia. }
  unfold upsample_x_to_ybit.
  replace ((1 <? x) && (y <=? 32) && (x <? y)) with true.
  2:{ symmetry. rewrite !andb_true_iff. repeat split; [apply Z.ltb_lt|apply Z.leb_le|apply Z.ltb_lt]; lia. }
  cbn [assert_ bind]. rewrite Z.shiftl_1_l. replace (v <=? 2 ^ (x - 1)) with false by (symmetry; apply Z.leb_gt; lia).
  unfold u8. rewrite (Z.mod_small (y - x)), (Z.mod_small (x - 1)) by lia.
  assert (W : 2 ^ y <= 2 ^ 32) by (apply Z.pow_le_mono_r; lia). change (2 ^ 32) with 4294967296 in W.
  assert (PY := pow_split x y ltac:(lia) ltac:(lia)).
  assert (Hr : u32 (Z.shiftl v (y - x)) = v * 2 ^ (y - x)).
  { rewrite shiftl_mul by lia. unfold u32. apply Z.mod_small. nia. }
  rewrite Hr. rewrite Z.shiftl_1_l. 
  replace (2 ^ (x - 1) - 1) with (Z.ones (x - 1)) by (rewrite Z.ones_equiv; lia).
  rewrite Z.land_ones, LOW by lia. rewrite Z.ones_equiv. set (low := v - 2 ^ (x - 1)) in *.
  set (rv := if x - 1 <? y - x then _ else _).
  assert (RV : rv = scaled low (y - x - (x - 1))).
  { pose proof (scaled_bound low (x - 1) (y - x) ltac:(lia) ltac:(lia) ltac:(lia)) as B. unfold scaled in *. unfold rv.
    assert (BY : 2 ^ (y - x) <= 2 ^ y) by (apply Z.pow_le_mono_r; lia).
    destruct (Z.ltb_spec (x - 1) (y - x)); destruct (Z.leb_spec 0 (y - x - (x - 1))); try lia.
    - rewrite shiftl_mul by lia. unfold u32. rewrite Z.mod_small; [reflexivity|lia].
    - replace (y - x - (x - 1)) with 0 by lia. replace (x - 1 - (y - x)) with 0 by lia. cbn. lia.
    - rewrite shiftr_div by lia. do 2 f_equal. lia. }
  rewrite RV. rewrite repeat_loop_exact; try lia; [reflexivity|apply Z.mod_mul; lia|].
  pose proof (scaled_bound low (x - 1) (y - x) ltac:(lia) ltac:(lia) ltac:(lia)).
  apply Z.lt_le_trans with (2 ^ (y - x)); [lia|]. apply Z.pow_le_mono_r; lia.
Qed.

Lemma dedicated_exact :
  (forall v, is_u7 v -> upsample_7_to_16bit v = min_center_max 7 16 v) /\
  (forall v, is_u7 v -> upsample_7_to_32bit v = min_center_max 7 32 v) /\
  (forall v, is_u14 v -> upsample_14_to_32bit v = Ok (min_center_max 14 32 v)).
Proof.
  split; [|split]; intros v V.
  - pose proof (agree_7_16 v V) as A. rewrite generic_exact in A by (unfold is_u7 in V; cbn; lia). congruence.
  - pose proof (agree_7_32 v V) as A. rewrite generic_exact in A by (unfold is_u7 in V; cbn; lia). congruence.
  - destruct (agree_14_32 v V) as (r & E & A). rewrite generic_exact in A by (unfold is_u14 in V; cbn; lia). congruence.
Qed.
