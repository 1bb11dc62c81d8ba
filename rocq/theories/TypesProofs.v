(* Proofs about value scaling and saturating arithmetic. *)
From Coq Require Import ZArith List Bool Lia.
From Verif Require Import Base Bits Types TypesSpec.
Import ListNotations.
Local Open Scope Z_scope.

(* ---- the generic upscaler --------------------------------------------------- *)

Lemma repeat_loop_spec fuel : forall rb v s t rv,
  1 <= rb -> 0 <= s -> 0 <= t < 2 ^ s -> 0 <= rv < 2 ^ s -> rv < 2 ^ Z.of_nat fuel ->
  exists t', repeat_loop fuel rb (v * 2 ^ s + t) rv = Some (v * 2 ^ s + t') /\ 0 <= t' < 2 ^ s.
Proof.
  induction fuel as [|fuel IH]; intros rb v s t rv Hrb Hs Ht Hrv Hf;
    cbn [repeat_loop].
  - change (2 ^ Z.of_nat 0) with 1 in Hf.
    replace rv with 0 by lia. cbn [Z.eqb]. eauto.
  - destruct (Z.eqb_spec rv 0) as [E|E]; [eauto|].
    assert (Hlor : Z.lor (v * 2 ^ s + t) rv = v * 2 ^ s + Z.lor t rv).
    { rewrite <- (lor_add s (v * 2 ^ s) t).
      - rewrite <- Z.lor_assoc. rewrite (lor_add s); [reflexivity|lia| |].
        + apply Z.mod_mul. apply Z.pow_nonzero; lia.
        + apply lor_bound; lia.
      - lia.
      - apply Z.mod_mul. apply Z.pow_nonzero; lia.
      - lia. }
    rewrite Hlor.
    apply IH; try assumption.
    + apply lor_bound; lia.
    + rewrite shiftr_div by lia. pose proof (Z.pow_pos_nonneg 2 rb).
      split; [apply Z.div_pos; lia|].
      apply Z.le_lt_trans with rv; [apply Z.div_le_upper_bound; nia|lia].
    + rewrite shiftr_div by lia. rewrite Nat2Z.inj_succ, Z.pow_succ_r in Hf by lia.
      apply Z.le_lt_trans with (rv / 2).
      * apply Z.div_le_compat_l; [lia|]. split; [lia|].
        change 2 with (2 ^ 1) at 1. apply Z.pow_le_mono_r; lia.
      * apply Z.div_lt_upper_bound; lia.
Qed.

Lemma upsample_form v x y : 2 <= x -> x < y -> y <= 32 -> 0 <= v < 2 ^ x ->
  exists t, upsample_x_to_ybit v x y = Ok (Some (v * 2 ^ (y - x) + t)) /\ 0 <= t < 2 ^ (y - x).
Proof.
  intros Hx Hxy Hy Hv. unfold upsample_x_to_ybit.
  replace ((1 <? x) && (y <=? 32) && (x <? y)) with true.
  2:{ symmetry. rewrite !andb_true_iff. repeat split; [apply Z.ltb_lt|apply Z.leb_le|apply Z.ltb_lt]; lia. }
  cbn [assert_ bind].
  unfold u8. rewrite (Z.mod_small (y - x)), (Z.mod_small (x - 1)) by lia.
  assert (Hr : u32 (Z.shiftl v (y - x)) = v * 2 ^ (y - x)).
  { rewrite shiftl_mul by lia. unfold u32. apply Z.mod_small. split.
    - apply Z.mul_nonneg_nonneg; [lia|apply Z.pow_nonneg; lia].
    - apply Z.lt_le_trans with (2 ^ x * 2 ^ (y - x)).
      + apply Z.mul_lt_mono_pos_r; [apply Z.pow_pos_nonneg; lia|lia].
      + rewrite <- Z.pow_add_r by lia. change 4294967296 with (2 ^ 32).
        apply Z.pow_le_mono_r; lia. }
  rewrite Hr.
  assert (0 < 2 ^ (y - x)) by (apply Z.pow_pos_nonneg; lia).
  destruct (v <=? Z.shiftl 1 (x - 1)).
  - exists 0. split; [f_equal; f_equal; ring|lia].
  - set (rv := Z.land v (Z.shiftl 1 (x - 1) - 1)).
    assert (Hrv : 0 <= rv < 2 ^ (x - 1)).
    { unfold rv. rewrite Z.shiftl_1_l.
      replace (2 ^ (x - 1) - 1) with (Z.ones (x - 1)) by (rewrite Z.ones_equiv; lia).
      rewrite Z.land_ones by lia. apply Z.mod_pos_bound. apply Z.pow_pos_nonneg; lia. }
    set (rv1 := if x - 1 <? y - x then _ else _).
    assert (H1 : 0 <= rv1 < 2 ^ (y - x)).
    { unfold rv1. destruct (Z.ltb_spec (x - 1) (y - x)).
      - rewrite shiftl_mul by lia.
        assert (Hb : 0 <= rv * 2 ^ (y - x - (x - 1)) < 2 ^ (y - x)).
        { assert (0 < 2 ^ (y - x - (x - 1))) by (apply Z.pow_pos_nonneg; lia).
          replace (2 ^ (y - x)) with (2 ^ (x - 1) * 2 ^ (y - x - (x - 1))).
          2:{ rewrite <- Z.pow_add_r by lia. f_equal; lia. }
          nia. }
        unfold u32. rewrite Z.mod_small; [exact Hb|].
        split; [lia|]. apply Z.lt_le_trans with (2 ^ (y - x)); [lia|].
        change 4294967296 with (2 ^ 32). apply Z.pow_le_mono_r; lia.
      - rewrite shiftr_div by lia. split.
        + apply Z.div_pos; [lia|apply Z.pow_pos_nonneg; lia].
        + apply Z.div_lt_upper_bound; [apply Z.pow_pos_nonneg; lia|].
          rewrite <- Z.pow_add_r by lia.
          replace (x - 1 - (y - x) + (y - x)) with (x - 1) by lia. lia. }
    clearbody rv1. clear rv Hrv Hr.
    destruct (repeat_loop_spec 33 (x - 1) v (y - x) 0 rv1) as (t & Et & Ht); try lia.
    + apply Z.lt_le_trans with (2 ^ (y - x)); [lia|]. apply Z.pow_le_mono_r; lia.
    + rewrite Z.add_0_r in Et. exists t. rewrite Et. auto.
Qed.

Definition generic (x y v : Z) : option Z :=
  returned (upsample_x_to_ybit v x y).

Lemma generic_form v x y : 2 <= x -> x < y -> y <= 32 -> 0 <= v < 2 ^ x ->
  exists t, generic x y v = Some (v * 2 ^ (y - x) + t) /\ 0 <= t < 2 ^ (y - x).
Proof.
  intros. destruct (upsample_form v x y) as (t & E & Ht); try assumption.
  exists t. unfold generic. now rewrite E.
Qed.

Lemma pow_split x y : 0 <= x -> x <= y -> 2 ^ y = 2 ^ x * 2 ^ (y - x).
Proof. intros. rewrite <- Z.pow_add_r by lia. f_equal; lia. Qed.

Definition option_Z_eqb (a : option Z) (b : Z) : bool :=
  match a with Some r => r =? b | None => false end.

Definition max_table : bool :=
  forallb (fun x => forallb (fun y => implb (x <? y)
    (option_Z_eqb (generic x y (2 ^ x - 1)) (2 ^ y - 1))) (zrange 31 2)) (zrange 31 2).

Lemma max_table_true : max_table = true.
Proof. vm_compute. reflexivity. Qed.

Lemma generic_max x y : 2 <= x -> x < y -> y <= 32 ->
  generic x y (2 ^ x - 1) = Some (2 ^ y - 1).
Proof.
  intros Hx Hxy Hy. pose proof max_table_true as H. unfold max_table in H.
  rewrite forallb_forall in H. specialize (H x (in_zrange 31 2 x ltac:(lia))).
  cbv beta in H. rewrite forallb_forall in H. specialize (H y (in_zrange 31 2 y ltac:(lia))).
  cbv beta in H. replace (x <? y) with true in H by (symmetry; apply Z.ltb_lt; lia).
  cbn [implb] in H. destruct (generic x y (2 ^ x - 1)) as [r|]; [|discriminate].
  cbn [option_Z_eqb] in H. apply Z.eqb_eq in H. now subst.
Qed.

Lemma generic_low v x y : 2 <= x -> x < y -> y <= 32 -> 0 <= v <= 2 ^ (x - 1) ->
  generic x y v = Some (v * 2 ^ (y - x)).
Proof.
  intros Hx Hxy Hy Hv. unfold generic, upsample_x_to_ybit.
  replace ((1 <? x) && (y <=? 32) && (x <? y)) with true.
  2:{ symmetry. rewrite !andb_true_iff. repeat split; [apply Z.ltb_lt|apply Z.leb_le|apply Z.ltb_lt]; lia. }
  cbn [assert_ bind]. rewrite Z.shiftl_1_l.
  replace (v <=? 2 ^ (x - 1)) with true by (symmetry; apply Z.leb_le; lia).
  unfold u8. rewrite (Z.mod_small (y - x)) by lia. rewrite shiftl_mul by lia.
  cbn [returned]. f_equal. unfold u32. apply Z.mod_small.
  assert (0 < 2 ^ (y - x)) by (apply Z.pow_pos_nonneg; lia).
  split; [nia|]. apply Z.lt_le_trans with (2 ^ x * 2 ^ (y - x)).
  - apply Z.mul_lt_mono_pos_r; [lia|]. replace x with (Z.succ (x - 1)) at 1 by lia.
    rewrite Z.pow_succ_r by lia. assert (0 < 2 ^ (x - 1)) by (apply Z.pow_pos_nonneg; lia). lia.
  - rewrite <- pow_split by lia. change 4294967296 with (2 ^ 32). apply Z.pow_le_mono_r; lia.
Qed.

Lemma generic_upscaler x y : 2 <= x -> x < y -> y <= 32 -> upscaler x y (generic x y).
Proof.
  intros Hx Hxy Hy.
  assert (P : 0 < 2 ^ (y - x)) by (apply Z.pow_pos_nonneg; lia).
  assert (Px : 0 < 2 ^ (x - 1)) by (apply Z.pow_pos_nonneg; lia).
  constructor.
  - intros v Hv. destruct (generic_form v x y) as (t & E & Ht); try assumption.
    eexists. split; [exact E|]. rewrite (pow_split x y) by lia. nia.
  - intros v r Hv E. destruct (generic_form v x y) as (t & E' & Ht); try assumption.
    rewrite E in E'. assert (r = v * 2 ^ (y - x) + t) by congruence. subst r.
    rewrite Z.add_comm, Z.div_add by lia. rewrite Z.div_small by lia. lia.
  - rewrite generic_low by lia. reflexivity.
  - rewrite generic_low by lia. f_equal. rewrite <- Z.pow_add_r by lia. f_equal; lia.
  - apply generic_max; assumption.
  - intros v w r s Hv Hw Hvw E F.
    destruct (generic_form v x y) as (t & E' & Ht); try assumption.
    destruct (generic_form w x y) as (u & F' & Hu); try assumption.
    rewrite E in E'. rewrite F in F'.
    assert (r = v * 2 ^ (y - x) + t) by congruence.
    assert (s = w * 2 ^ (y - x) + u) by congruence. nia.
Qed.

(* ---- the dedicated upscalers -------------------------------------------------------- *)

Lemma generic_7_16 v : 0 <= v < 128 -> generic 7 16 v = Some (upsample_7_to_16bit v).
Proof.
  intros H.
  assert (forall v, 0 <= v < 0 + Z.of_nat 128 -> option_Z_eqb (generic 7 16 v) (upsample_7_to_16bit v) = true)
    by (by_sweep 128%nat 0).
  specialize (H0 v ltac:(lia)). destruct (generic 7 16 v); [|discriminate].
  apply Z.eqb_eq in H0. congruence.
Qed.

Lemma generic_7_32 v : 0 <= v < 128 -> generic 7 32 v = Some (upsample_7_to_32bit v).
Proof.
  intros H.
  assert (forall v, 0 <= v < 0 + Z.of_nat 128 -> option_Z_eqb (generic 7 32 v) (upsample_7_to_32bit v) = true)
    by (by_sweep 128%nat 0).
  specialize (H0 v ltac:(lia)). destruct (generic 7 32 v); [|discriminate].
  apply Z.eqb_eq in H0. congruence.
Qed.

Definition agree_14 (v : Z) : bool :=
  match generic 14 32 v, upsample_14_to_32bit v with
  | Some a, Ok b => a =? b
  | _, _ => false
  end.

Lemma generic_14_32 v : 0 <= v < 16384 -> generic 14 32 v = value (upsample_14_to_32bit v).
Proof.
  intros H.
  assert (S : forall v, 0 <= v < 0 + Z.of_nat (Z.to_nat 16384) -> agree_14 v = true)
    by (by_sweep (Z.to_nat 16384) 0).
  rewrite Z2Nat.id in S by lia. specialize (S v ltac:(lia)). unfold agree_14 in S.
  destruct (generic 14 32 v), (upsample_14_to_32bit v); try discriminate.
  apply Z.eqb_eq in S. subst. reflexivity.
Qed.

Lemma upscaler_ext x y f g : 1 <= x -> upscaler x y f ->
  (forall v, 0 <= v < 2 ^ x -> f v = g v) -> upscaler x y g.
Proof.
  intros Hx U E.
  assert (P : 0 < 2 ^ (x - 1)) by (apply Z.pow_pos_nonneg; lia).
  assert (P2 : 2 ^ x = 2 * 2 ^ (x - 1)) by (rewrite <- Z.pow_succ_r by lia; f_equal; lia).
  constructor.
  - intros v Hv. rewrite <- E by lia. now apply (up_defined _ _ _ U).
  - intros v r Hv. rewrite <- E by lia. now apply (up_lossless _ _ _ U).
  - rewrite <- E by lia. apply (up_min _ _ _ U).
  - rewrite <- E by lia. apply (up_centre _ _ _ U).
  - rewrite <- E by lia. apply (up_max _ _ _ U).
  - intros v w r s Hv Hw. rewrite <- !E by lia. now apply (up_mono _ _ _ U).
Qed.

Lemma upscaler_7_16 : upscaler 7 16 (fun v => Some (upsample_7_to_16bit v)).
Proof.
  apply upscaler_ext with (generic 7 16); [lia|apply generic_upscaler; lia|].
  change (2 ^ 7) with 128. exact generic_7_16.
Qed.

Lemma upscaler_7_32 : upscaler 7 32 (fun v => Some (upsample_7_to_32bit v)).
Proof.
  apply upscaler_ext with (generic 7 32); [lia|apply generic_upscaler; lia|].
  change (2 ^ 7) with 128. exact generic_7_32.
Qed.

Lemma upscaler_14_32 : upscaler 14 32 (fun v => value (upsample_14_to_32bit v)).
Proof.
  apply upscaler_ext with (generic 14 32); [lia|apply generic_upscaler; lia|].
  change (2 ^ 14) with 16384. exact generic_14_32.
Qed.

Lemma down_up_7_16 v : is_u7 v -> downsample_16_to_7bit (upsample_7_to_16bit v) = v.
Proof.
  intros H. unfold is_u7 in H.
  pose proof (up_lossless _ _ _ upscaler_7_16 v _ ltac:(change (2 ^ 7) with 128; lia) eq_refl) as L.
  unfold downsample_16_to_7bit. rewrite shiftr_div by lia. change (16 - 7) with 9 in L.
  rewrite L. unfold u8. apply Z.mod_small. lia.
Qed.

Lemma down_up_7_32 v : is_u7 v -> downsample_32_to_7bit (upsample_7_to_32bit v) = v.
Proof.
  intros H. unfold is_u7 in H.
  pose proof (up_lossless _ _ _ upscaler_7_32 v _ ltac:(change (2 ^ 7) with 128; lia) eq_refl) as L.
  unfold downsample_32_to_7bit. rewrite shiftr_div by lia. change (32 - 7) with 25 in L.
  rewrite L. unfold u8. apply Z.mod_small. lia.
Qed.

Lemma down_up_14_32 v : is_u14 v ->
  exists r, upsample_14_to_32bit v = Ok r /\ is_u32 r /\ downsample_32_to_14bit r = v.
Proof.
  intros H. unfold is_u14 in H.
  assert (B : 0 <= v < 2 ^ 14) by (change (2 ^ 14) with 16384; lia).
  destruct (up_defined _ _ _ upscaler_14_32 v B) as (r & E & Hr).
  pose proof (up_lossless _ _ _ upscaler_14_32 v r B E) as L.
  destruct (upsample_14_to_32bit v) as [q|]; [|discriminate].
  assert (q = r) by (cbn [value] in E; congruence). subst q.
  exists r. split; [reflexivity|]. split; [exact Hr|].
  unfold downsample_32_to_14bit. rewrite shiftr_div by lia. change (32 - 14) with 18 in L.
  rewrite L. unfold u16. apply Z.mod_small. lia.
Qed.

(* downscaling is the left inverse on the whole target range and is monotone *)
Lemma downsample_16_mono a b : is_u16 a -> is_u16 b -> a <= b ->
  downsample_16_to_7bit a <= downsample_16_to_7bit b.
Proof. unfold downsample_16_to_7bit, is_u16, u8. intros. rewrite !shiftr_div by lia. pow2_simpl. dlia. Qed.

(* ---- saturating arithmetic -------------------------------------------------------------- *)

Lemma s64_ok x : -9223372036854775808 <= x <= 9223372036854775807 -> s64 x = Ok x.
Proof.
  intros H. unfold s64. replace (_ && _) with true; [reflexivity|].
  symmetry. apply andb_true_iff. split; apply Z.leb_le; lia.
Qed.

Lemma s32_id x : is_s32 x -> s32 x = x.
Proof.
  unfold is_s32, s32. intros H. destruct (Z_lt_le_dec x 0).
  - replace (x mod 4294967296) with (x + 4294967296).
    + destruct (Z.ltb_spec (x + 4294967296) 2147483648); lia.
    + apply Z.mod_unique with (-1); lia.
  - rewrite Z.mod_small by lia. destruct (Z.ltb_spec x 2147483648); lia.
Qed.

Lemma u32_id x : is_u32 x -> u32 x = x.
Proof. unfold is_u32, u32. intros. apply Z.mod_small; lia. Qed.

Lemma clamp_saturated v lo hi : lo <= hi -> saturated v lo hi (clamp v lo hi).
Proof.
  intros H. unfold saturated, clamp.
  destruct (Z.ltb_spec v lo); [lia|]. destruct (Z.ltb_spec hi v); lia.
Qed.

Lemma clamp_range v lo hi : lo <= hi -> lo <= clamp v lo hi <= hi.
Proof. intros H. destruct (clamp_saturated v lo hi H); lia. Qed.

Lemma pitch_add_ok p i : is_u32 p -> is_s32 i ->
  exists r, pitch_add p i = Ok r /\ saturated (p + i) 0 4294967295 r.
Proof.
  unfold is_u32, is_s32. intros Hp Hi. unfold pitch_add.
  rewrite s64_ok by lia. cbn [bind]. eexists; split; [reflexivity|].
  unfold uint32_max. rewrite u32_id.
  - apply clamp_saturated. lia.
  - pose proof (clamp_range (p + i) 0 4294967295). unfold is_u32. lia.
Qed.

Lemma increment_add_ok a b : is_s32 a -> is_s32 b ->
  exists r, increment_add a b = Ok r /\ saturated (a + b) (-2147483648) 2147483647 r.
Proof.
  unfold is_s32. intros Ha Hb. unfold increment_add.
  rewrite s64_ok by lia. cbn [bind]. eexists; split; [reflexivity|].
  unfold int32_min, int32_max. rewrite s32_id.
  - apply clamp_saturated. lia.
  - pose proof (clamp_range (a + b) (-2147483648) 2147483647). unfold is_s32. lia.
Qed.

Lemma saturated_mono s s' lo hi r r' : lo <= hi -> saturated s lo hi r -> saturated s' lo hi r' ->
  s <= s' -> r <= r'.
Proof. unfold saturated. lia. Qed.

Lemma controller_add_ok c i : is_u32 c -> is_s32 i ->
  exists r, controller_add c i = Ok r /\ saturated (c + i) 0 4294967295 r.
Proof.
  unfold is_u32, is_s32. intros Hp Hi. unfold controller_add.
  rewrite s64_ok by lia. cbn [bind]. eexists; split; [reflexivity|].
  unfold saturated, uint32_max. destruct (Z.leb_spec (c + i) 0); [lia|].
  destruct (Z.ltb_spec 4294967295 (c + i)); [lia|]. rewrite u32_id; [lia|unfold is_u32; lia].
Qed.

(* ---- pitch bend times sensitivity ---------------------------------------------------------- *)

Lemma quot_towards_zero n d : 0 < d -> towards_zero n d (Z.quot n d).
Proof.
  intros Hd. split; intros Hn.
  - rewrite Z.quot_div_nonneg by lia. pose proof (Z.div_mod n d ltac:(lia)).
    pose proof (Z.mod_pos_bound n d Hd). pose proof (Z.div_pos n d). split; [lia|]. nia.
  - replace n with (- - n) at 1 2 3 by lia. rewrite Z.quot_opp_l by lia.
    rewrite Z.quot_div_nonneg by lia. pose proof (Z.div_mod (- n) d ltac:(lia)).
    pose proof (Z.mod_pos_bound (- n) d Hd). pose proof (Z.div_pos (- n) d). split; [lia|]. nia.
Qed.

Lemma towards_zero_unique n d q q' : 0 < d -> towards_zero n d q -> towards_zero n d q' -> q = q'.
Proof.
  unfold towards_zero. intros Hd [A B] [A' B']. destruct (Z_le_gt_dec 0 n).
  - specialize (A ltac:(lia)); specialize (A' ltac:(lia)). nia.
  - specialize (B ltac:(lia)); specialize (B' ltac:(lia)). nia.
Qed.

Lemma bend_product_ok pb sens : is_u32 pb -> is_u32 sens ->
  exists q r, bend_times_sensitivity pb sens = Ok r /\
    towards_zero ((pb - 2147483648) * sens) 2147483648 q /\
    saturated q (-2147483648) 2147483647 r /\ Z.abs q <= sens.
Proof.
  unfold is_u32. intros Hp Hs. unfold bend_times_sensitivity.
  rewrite s64_ok by lia. cbn [bind].
  destruct (Z.eqb_spec (pb - 2147483648) 0) as [E|E].
  - exists 0, 0. rewrite E. split; [reflexivity|]. unfold towards_zero, saturated. lia.
  - rewrite s64_ok by nia. cbn [bind].
    pose proof (quot_towards_zero ((pb - 2147483648) * sens) 2147483648 ltac:(lia)) as T.
    set (q := Z.quot _ _) in *. clearbody q.
    assert (A : Z.abs q <= sens).
    { destruct T as [T1 T2]. destruct (Z_le_gt_dec 0 ((pb - 2147483648) * sens)) as [G|G].
      - destruct (T1 G). assert ((pb - 2147483648) * sens <= sens * 2147483648) by nia. nia.
      - destruct (T2 ltac:(lia)). assert (- (sens * 2147483648) <= (pb - 2147483648) * sens) by nia. nia. }
    rewrite s64_ok by lia. cbn [bind]. exists q. eexists. split; [reflexivity|].
    split; [exact T|]. split; [|exact A].
    unfold int32_min, int32_max. rewrite s32_id; [apply clamp_saturated; lia|].
    pose proof (clamp_range q (-2147483648) 2147483647). unfold is_s32. lia.
Qed.

Lemma towards_zero_mono d n n' q q' : 0 < d ->
  towards_zero n d q -> towards_zero n' d q' -> n <= n' -> q <= q'.
Proof.
  unfold towards_zero. intros Hd [A B] [A' B'] H.
  destruct (Z_le_gt_dec 0 n).
  - specialize (A ltac:(lia)); specialize (A' ltac:(lia)). nia.
  - specialize (B ltac:(lia)). destruct (Z_le_gt_dec 0 n').
    + specialize (A' ltac:(lia)). lia.
    + specialize (B' ltac:(lia)). nia.
Qed.

Lemma bend_product_mono pb pb' sens r r' : is_u32 pb -> is_u32 pb' -> is_u32 sens -> pb <= pb' ->
  bend_times_sensitivity pb sens = Ok r -> bend_times_sensitivity pb' sens = Ok r' -> r <= r'.
Proof.
  intros Hp Hp' Hs H E E'.
  destruct (bend_product_ok pb sens Hp Hs) as (q & x & F & T & S & _).
  destruct (bend_product_ok pb' sens Hp' Hs) as (q' & x' & F' & T' & S' & _).
  rewrite E in F. rewrite E' in F'.
  assert (x = r) by congruence. assert (x' = r') by congruence. subst x x'.
  apply (saturated_mono q q' (-2147483648) 2147483647); try assumption; [lia|].
  apply (towards_zero_mono 2147483648 _ _ _ _ ltac:(lia) T T').
  unfold is_u32 in *. nia.
Qed.

Lemma bend_product_mirror d sens q : 0 <= d <= 2147483647 -> is_u32 sens ->
  towards_zero ((2147483648 + d - 2147483648) * sens) 2147483648 q ->
  exists r r', bend_times_sensitivity (2147483648 + d) sens = Ok r /\
    bend_times_sensitivity (2147483648 - d) sens = Ok r' /\
    saturated q (-2147483648) 2147483647 r /\ saturated (- q) (-2147483648) 2147483647 r'.
Proof.
  intros Hd Hs T.
  destruct (bend_product_ok (2147483648 + d) sens ltac:(unfold is_u32; lia) Hs) as (q1 & r & E & T1 & S & _).
  destruct (bend_product_ok (2147483648 - d) sens ltac:(unfold is_u32; lia) Hs) as (q2 & r' & E' & T2 & S' & _).
  assert (q1 = q) by (eapply towards_zero_unique; [|exact T1|exact T]; lia). subst q1.
  assert (T3 : towards_zero ((2147483648 - d - 2147483648) * sens) 2147483648 (- q)).
  { unfold towards_zero in T |- *. unfold is_u32 in Hs. destruct T as [A B].
    assert (P : 0 <= (2147483648 + d - 2147483648) * sens) by nia. specialize (A P).
    split; intros G.
    - assert ((2147483648 + d - 2147483648) * sens = 0) by nia. lia.
    - split; [lia|]. nia. }
  assert (q2 = - q) by (eapply towards_zero_unique; [|exact T2|exact T3]; lia). subst q2.
  eauto 8.
Qed.

(* ---- note numbers and pitches --------------------------------------------------------------- *)

Lemma note_pitch_7_9 n : is_u7 n -> is_u16 (pitch_7_9_of_note n) /\
  pitch_7_9_of_note n = 512 * n /\ pitch_7_9_note_nr (pitch_7_9_of_note n) = n.
Proof.
  unfold is_u7, is_u16, pitch_7_9_note_nr, pitch_7_9_of_note, u16, u8. intros.
  rewrite shiftl_mul, shiftr_div by lia. pow2_simpl. dlia.
Qed.

Lemma note_pitch_7_25 n : is_u7 n -> exists p, pitch_7_25_of_note n = Ok p /\ is_u32 p /\
  p = 33554432 * n /\ pitch_7_25_note_nr p = n.
Proof.
  unfold is_u7, is_u32, pitch_7_25_note_nr, pitch_7_25_of_note, shl_int, u8. intros.
  rewrite shiftl_mul by lia. pow2_simpl.
  replace (_ && _) with true by (symmetry; apply andb_true_iff; split;
    [apply Z.leb_le|apply Z.ltb_lt]; lia).
  eexists. split; [reflexivity|]. rewrite shiftr_div by lia. pow2_simpl. dlia.
Qed.

Lemma pitch_7_9_widened p : is_u16 p -> is_u32 (pitch_7_25_of_7_9 p) /\
  pitch_7_25_of_7_9 p = 65536 * p /\
  pitch_7_25_note_nr (pitch_7_25_of_7_9 p) = pitch_7_9_note_nr p.
Proof.
  unfold is_u16, is_u32, pitch_7_25_of_7_9, pitch_7_25_note_nr, pitch_7_9_note_nr, u32, u8.
  intros. rewrite shiftl_mul, !shiftr_div by lia. pow2_simpl. dlia.
Qed.

Lemma note_overflow n : 128 <= n <= 255 -> pitch_7_25_of_note n = Fault ShiftOverflow.
Proof.
  unfold pitch_7_25_of_note, shl_int. intros. rewrite shiftl_mul by lia. pow2_simpl.
  replace (_ && _) with false; [reflexivity|]. symmetry. apply andb_false_iff. right.
  apply Z.ltb_ge. lia.
Qed.

Lemma upsample_generic_ok x y v : 2 <= x -> x < y -> y <= 32 -> 0 <= v < 2 ^ x ->
  exists r, upsample_x_to_ybit v x y = Ok (Some r) /\ 0 <= r < 2 ^ y /\ Z.shiftr r (y - x) = v.
Proof.
  intros Hx Hxy Hy Hv. destruct (upsample_form v x y) as (t & E & Ht); try assumption.
  eexists. split; [exact E|].
  assert (P : 0 < 2 ^ (y - x)) by (apply Z.pow_pos_nonneg; lia). split.
  - rewrite (pow_split x y) by lia. nia.
  - rewrite shiftr_div by lia. rewrite Z.add_comm, Z.div_add by lia. rewrite Z.div_small by lia. lia.
Qed.

Lemma upsample_generic_refused x y v : ~ (2 <= x /\ x < y /\ y <= 32) ->
  upsample_x_to_ybit v x y = Fault AssertFail.
Proof.
  intros H. unfold upsample_x_to_ybit.
  replace ((1 <? x) && (y <=? 32) && (x <? y)) with false; [reflexivity|].
  symmetry. apply not_true_is_false. rewrite !andb_true_iff, !Z.ltb_lt, Z.leb_le. lia.
Qed.

Lemma agree_7_16 v : is_u7 v -> upsample_x_to_ybit v 7 16 = Ok (Some (upsample_7_to_16bit v)).
Proof.
  intros H. pose proof (generic_7_16 v H) as E. unfold generic in E.
  destruct (upsample_x_to_ybit v 7 16); [|discriminate]. cbn [returned] in E. now rewrite E.
Qed.
Lemma agree_7_32 v : is_u7 v -> upsample_x_to_ybit v 7 32 = Ok (Some (upsample_7_to_32bit v)).
Proof.
  intros H. pose proof (generic_7_32 v H) as E. unfold generic in E.
  destruct (upsample_x_to_ybit v 7 32); [|discriminate]. cbn [returned] in E. now rewrite E.
Qed.
Lemma agree_14_32 v : is_u14 v -> exists r,
  upsample_14_to_32bit v = Ok r /\ upsample_x_to_ybit v 14 32 = Ok (Some r).
Proof.
  intros H. pose proof (generic_14_32 v H) as E. unfold generic in E.
  destruct (down_up_14_32 v H) as (r & F & _). rewrite F in E |- *. exists r. split; [reflexivity|].
  destruct (upsample_x_to_ybit v 14 32); [|discriminate]. cbn [returned value] in E. now rewrite E.
Qed.

Lemma pitch_add_mono p p' i i' r r' : is_u32 p -> is_u32 p' -> is_s32 i -> is_s32 i' ->
  p <= p' -> i <= i' -> pitch_add p i = Ok r -> pitch_add p' i' = Ok r' -> r <= r'.
Proof.
  intros Hp Hp' Hi Hi' L L' E E'.
  destruct (pitch_add_ok p i Hp Hi) as (x & F & S). destruct (pitch_add_ok p' i' Hp' Hi') as (x' & F' & S').
  rewrite E in F. rewrite E' in F'. assert (x = r) by congruence. assert (x' = r') by congruence. subst.
  eapply saturated_mono; [|exact S|exact S'|]; lia.
Qed.

Lemma increment_add_mono p p' i i' r r' : is_s32 p -> is_s32 p' -> is_s32 i -> is_s32 i' ->
  p <= p' -> i <= i' -> increment_add p i = Ok r -> increment_add p' i' = Ok r' -> r <= r'.
Proof.
  intros Hp Hp' Hi Hi' L L' E E'.
  destruct (increment_add_ok p i Hp Hi) as (x & F & S).
  destruct (increment_add_ok p' i' Hp' Hi') as (x' & F' & S').
  rewrite E in F. rewrite E' in F'. assert (x = r) by congruence. assert (x' = r') by congruence. subst.
  eapply saturated_mono; [|exact S|exact S'|]; lia.
Qed.

Lemma bend_bounded pb sens r : is_u32 pb -> is_u32 sens ->
  bend_times_sensitivity pb sens = Ok r -> is_s32 r /\ Z.abs r <= sens.
Proof.
  intros Hp Hs E. destruct (bend_product_ok pb sens Hp Hs) as (q & x & F & _ & S & A).
  rewrite E in F. assert (x = r) by congruence. subst x.
  unfold is_s32, saturated, is_u32 in *. lia.
Qed.

Lemma bend_exact pb sens : is_u32 pb -> is_u32 sens ->
  exists q r, bend_times_sensitivity pb sens = Ok r /\ sensitivity_times_bend sens pb = Ok r /\
    towards_zero ((pb - 2147483648) * sens) 2147483648 q /\ saturated q (-2147483648) 2147483647 r.
Proof.
  intros Hp Hs. destruct (bend_product_ok pb sens Hp Hs) as (q & r & E & T & S & _).
  exists q, r. auto.
Qed.

Lemma values_survive v :
  (is_u7 v -> velocity_as_uint7 (velocity_of_uint7 v) = v /\ controller_as_uint7 (controller_of_uint7 v) = v) /\
  (is_u14 v -> exists c b, controller_of_uint14 v = Ok c /\ is_u32 c /\ controller_as_uint14 c = v /\
                           pitch_bend_of_uint14 v = Ok b /\ is_u32 b /\ pitch_bend_as_uint14 b = v).
Proof.
  split; intros H.
  - split; [now apply down_up_7_16|now apply down_up_7_32].
  - destruct (down_up_14_32 v H) as (r & E & R & D). exists r, r. repeat split; trivial; apply R.
Qed.
Lemma read_truncated w :
  (is_u32 w -> controller_as_uint14 w = w / 2 ^ 18 /\ controller_as_uint7 w = w / 2 ^ 25 /\ pitch_bend_as_uint14 w = w / 2 ^ 18) /\
  (is_u16 w -> velocity_as_uint7 w = w / 2 ^ 9).
Proof.
  unfold controller_as_uint14, controller_as_uint7, pitch_bend_as_uint14, velocity_as_uint7,
    downsample_32_to_14bit, downsample_32_to_7bit, downsample_16_to_7bit.
  split; intros H; rewrite ?Z.shiftr_div_pow2 by lia; unfold is_u32, is_u16, u16, u8 in *.
  - repeat split; pow2_simpl; apply Z.mod_small; dlia.
  - pow2_simpl. apply Z.mod_small. dlia.
Qed.
