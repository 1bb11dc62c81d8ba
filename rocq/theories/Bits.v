(* Lemmas and tactics about bit operations.  Nothing here mentions the model. *)
From Coq Require Import ZArith List Bool Lia ZifyBool ZifyNat.
From Verif Require Import Base.
Import ListNotations.
Local Open Scope Z_scope.

Ltac dlia := Z.div_mod_to_equations; lia.

(* ---- arithmetic reading of the bit operators ------------------------------ *)

Lemma shiftr_div k x : 0 <= k -> Z.shiftr x k = x / 2 ^ k.
Proof. intros; now apply Z.shiftr_div_pow2. Qed.
Lemma shiftl_mul k x : 0 <= k -> Z.shiftl x k = x * 2 ^ k.
Proof. intros; now apply Z.shiftl_mul_pow2. Qed.

Lemma land_1 x : Z.land x 1 = x mod 2.
Proof. change 1 with (Z.ones 1). now rewrite Z.land_ones by lia. Qed.
Lemma land_3 x : Z.land x 3 = x mod 4.
Proof. change 3 with (Z.ones 2). now rewrite Z.land_ones by lia. Qed.
Lemma land_15 x : Z.land x 15 = x mod 16.
Proof. change 15 with (Z.ones 4). now rewrite Z.land_ones by lia. Qed.
Lemma land_31 x : Z.land x 31 = x mod 32.
Proof. change 31 with (Z.ones 5). now rewrite Z.land_ones by lia. Qed.
Lemma land_63 x : Z.land x 63 = x mod 64.
Proof. change 63 with (Z.ones 6). now rewrite Z.land_ones by lia. Qed.
Lemma land_127 x : Z.land x 127 = x mod 128.
Proof. change 127 with (Z.ones 7). now rewrite Z.land_ones by lia. Qed.
Lemma land_255 x : Z.land x 255 = x mod 256.
Proof. change 255 with (Z.ones 8). now rewrite Z.land_ones by lia. Qed.
Lemma land_65535 x : Z.land x 65535 = x mod 65536.
Proof. change 65535 with (Z.ones 16). now rewrite Z.land_ones by lia. Qed.
Lemma land_16383 x : Z.land x 16383 = x mod 16384.
Proof. change 16383 with (Z.ones 14). now rewrite Z.land_ones by lia. Qed.
Lemma land_24 x : Z.land x 16777215 = x mod 16777216.
Proof. change 16777215 with (Z.ones 24). now rewrite Z.land_ones by lia. Qed.
Lemma land_28 x : Z.land x 268435455 = x mod 268435456.
Proof. change 268435455 with (Z.ones 28). now rewrite Z.land_ones by lia. Qed.

(* a mask 2^k * (2^m - 1) *)
Lemma land_field k m x :
  0 <= k -> 0 <= m -> Z.land x (Z.shiftl (Z.ones m) k) = (x / 2 ^ k mod 2 ^ m) * 2 ^ k.
Proof.
  intros Hk Hm.
  rewrite <- (Z.shiftl_mul_pow2 _ k), <- (Z.shiftr_div_pow2 x k), <- Z.land_ones by lia.
  apply Z.bits_inj'; intros n Hn.
  rewrite Z.land_spec, !Z.shiftl_spec by lia.
  destruct (Z.lt_ge_cases n k).
  - now rewrite !(Z.testbit_neg_r _ (n - k)), andb_false_r by lia.
  - rewrite Z.land_spec, Z.shiftr_spec by lia. now replace (n - k + k) with n by lia.
Qed.

Lemma land_240 x : Z.land x 240 = (x / 16 mod 16) * 16.
Proof. change 240 with (Z.shiftl (Z.ones 4) 4). now rewrite land_field by lia. Qed.
Lemma land_128 x : Z.land x 128 = (x / 128 mod 2) * 128.
Proof. change 128 with (Z.shiftl (Z.ones 1) 7) at 1. now rewrite land_field by lia. Qed.

(* disjoint or is addition *)
Lemma lor_add k a b :
  0 <= k -> a mod 2 ^ k = 0 -> 0 <= b < 2 ^ k -> Z.lor a b = a + b.
Proof.
  intros Hk Ha Hb.
  rewrite <- Z.lxor_lor, <- Z.add_nocarry_lxor; trivial.
  all: apply Z.bits_inj'; intros n Hn; rewrite Z.land_spec, Z.bits_0;
    destruct (Z.lt_ge_cases n k);
    [ replace (Z.testbit a n) with false; [reflexivity|];
      symmetry; rewrite <- (Z.mod_pow2_bits_low a k n) by lia; rewrite Ha; apply Z.bits_0
    | replace (Z.testbit b n) with false; [apply andb_false_r|];
      symmetry; rewrite <- (Z.mod_small b (2 ^ k)) by lia; apply Z.mod_pow2_bits_high; lia ].
Qed.
Lemma lor_add_r k a b :
  0 <= k -> b mod 2 ^ k = 0 -> 0 <= a < 2 ^ k -> Z.lor a b = a + b.
Proof. intros; rewrite Z.lor_comm, (lor_add k); lia. Qed.

(* clearing a field *)
Lemma land_clear k m x w :
  0 <= k -> 0 <= m -> k + m <= w -> 0 <= x < 2 ^ w ->
  Z.land x (Z.lxor (Z.ones w) (Z.shiftl (Z.ones m) k)) = x - (x / 2 ^ k mod 2 ^ m) * 2 ^ k.
Proof.
  intros Hk Hm Hw Hx.
  rewrite <- land_field by lia.
  set (M := Z.shiftl (Z.ones m) k).
  assert (E : Z.land x (Z.lxor (Z.ones w) M) = Z.ldiff x M).
  { apply Z.bits_inj'; intros n Hn.
    rewrite Z.ldiff_spec, Z.land_spec, Z.lxor_spec.
    destruct (Z.lt_ge_cases n w).
    - rewrite Z.ones_spec_low by lia. now rewrite xorb_true_l.
    - replace (Z.testbit x n) with false; [reflexivity|].
      symmetry; rewrite <- (Z.mod_small x (2 ^ w)) by lia. apply Z.mod_pow2_bits_high; lia. }
  rewrite E. rewrite (Z.sub_nocarry_ldiff x (Z.land x M)).
  - apply Z.bits_inj'; intros n Hn. rewrite !Z.ldiff_spec, Z.land_spec.
    now destruct (Z.testbit x n), (Z.testbit M n).
  - apply Z.bits_inj'; intros n Hn. rewrite Z.ldiff_spec, Z.land_spec, Z.bits_0.
    now destruct (Z.testbit x n), (Z.testbit M n).
Qed.

Lemma ldiff_bound x a : 0 <= x -> 0 <= Z.land x a.
Proof. intros; apply Z.land_nonneg; lia. Qed.

(* bounds *)
Lemma lor_bound k a b : 0 <= k -> 0 <= a < 2 ^ k -> 0 <= b < 2 ^ k -> 0 <= Z.lor a b < 2 ^ k.
Proof.
  intros Hk Ha Hb. split; [apply Z.lor_nonneg; lia|].
  destruct (Z.eq_dec (Z.lor a b) 0) as [E|E]; [rewrite E; lia|].
  assert (0 <= Z.lor a b) by (apply Z.lor_nonneg; lia).
  apply Z.log2_lt_pow2; [lia|]. rewrite Z.log2_lor by lia.
  assert (La : a = 0 \/ Z.log2 a < k).
  { destruct (Z.eq_dec a 0); [now left|right]. apply Z.log2_lt_pow2; lia. }
  assert (Lb : b = 0 \/ Z.log2 b < k).
  { destruct (Z.eq_dec b 0); [now left|right]. apply Z.log2_lt_pow2; lia. }
  pose proof (Z.log2_nonneg a); pose proof (Z.log2_nonneg b).
  destruct La as [La|La], Lb as [Lb|Lb]; try lia; subst; rewrite ?Z.lor_0_l in *; try lia;
    change (Z.log2 0) with 0 in *; lia.
Qed.

Lemma land_bound_l a b : 0 <= a -> 0 <= Z.land a b <= a.
Proof.
  intros Ha. split; [apply Z.land_nonneg; lia|].
  assert (H2 : Z.ldiff (Z.land a b) a = 0).
  { apply Z.bits_inj'; intros n Hn. rewrite Z.ldiff_spec, Z.land_spec, Z.bits_0.
    now destruct (Z.testbit a n), (Z.testbit b n). }
  pose proof (Z.sub_nocarry_ldiff a (Z.land a b) H2).
  assert (0 <= Z.ldiff a (Z.land a b)) by (apply Z.ldiff_nonneg; lia).
  lia.
Qed.

(* ---- finite sweeps --------------------------------------------------------- *)

Fixpoint zrange (n : nat) (from : Z) : list Z :=
  match n with
  | O => []
  | S m => from :: zrange m (from + 1)
  end.

Lemma in_zrange n from x : from <= x < from + Z.of_nat n -> In x (zrange n from).
Proof.
  revert from; induction n; intros from H; [lia|].
  simpl. destruct (Z.eq_dec from x); [now left|right]. apply IHn. lia.
Qed.

Lemma sweep (f : Z -> bool) n from :
  forallb f (zrange n from) = true ->
  forall x, from <= x < from + Z.of_nat n -> f x = true.
Proof. intros H x Hx. rewrite forallb_forall in H. apply H, in_zrange, Hx. Qed.

Ltac by_sweep n from :=
  match goal with
  | |- forall x, _ -> @?F x = true => refine (sweep F n from _); vm_compute; reflexivity
  end.

(* ---- normalisation of bit operators to arithmetic -------------------------- *)

Global Hint Rewrite land_1 land_3 land_15 land_31 land_63 land_127 land_255 land_65535
  land_16383 land_24 land_28 land_240 land_128 : bits.
Global Hint Rewrite shiftr_div shiftl_mul using lia : bits.

Ltac pow2_simpl :=
  repeat match goal with
  | |- context[2 ^ ?k] => let v := eval compute in (2 ^ k) in
      lazymatch v with Zpos _ => change (2 ^ k) with v | 0 => change (2 ^ k) with v end
  end.

Lemma lor0_r x : Z.lor x 0 = x. Proof. apply Z.lor_0_r. Qed.

(* turn [Z.lor a b] into [a + b] when the operands occupy disjoint bit ranges;
   innermost first *)
Ltac lor_try a b k :=
  first [ rewrite (lor_add k a b) by (pow2_simpl; dlia)
        | rewrite (lor_add_r k a b) by (pow2_simpl; dlia) ].
Ltac no_lor t := lazymatch t with context[Z.lor] => fail | _ => idtac end.
Ltac lor_step :=
  match goal with
  | |- context[Z.lor ?a ?b] =>
      no_lor a; no_lor b;
      first [ rewrite (Z.lor_0_r a) | rewrite (Z.lor_0_l b)
            | lor_try a b 4 | lor_try a b 8 | lor_try a b 16 | lor_try a b 24 | lor_try a b 28
            | lor_try a b 7 | lor_try a b 14 | lor_try a b 21 | lor_try a b 20 | lor_try a b 12
            | lor_try a b 6 | lor_try a b 5 | lor_try a b 2 | lor_try a b 1 | lor_try a b 18
            | lor_try a b 25 | lor_try a b 26 | lor_try a b 27 | lor_try a b 10 | lor_try a b 9
            | lor_try a b 3 ]
  end.
Ltac bitnorm := autorewrite with bits; pow2_simpl; repeat (lor_step; pow2_simpl).
Ltac bitlia := bitnorm; dlia.
