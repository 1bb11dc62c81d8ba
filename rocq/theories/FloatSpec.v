(* Specification vocabulary for the floating point conversions: real numbers instead of floats. *)
From Coq Require Import ZArith Reals.
From Flocq Require Import Core IEEE754.BinarySingleNaN.
From Verif Require Import Base.
Local Open Scope Z_scope.

(* a real number in fixed point with k fractional bits, to the nearest (halves upwards) of the numbers
   that fit into n bits *)
Definition fixed_point (n k : Z) (x : R) : Z :=
  Z.max 0 (Z.min (2 ^ n - 1) (Zfloor (x * IZR (2 ^ k) + / 2))).
(* the same with sign, n bits in two's complement; halves away from zero *)
Definition signed_fixed_point (n k : Z) (x : R) : Z :=
  Z.max (- 2 ^ (n - 1)) (Z.min (2 ^ (n - 1) - 1)
    (if Rle_bool 0 x then Zfloor (x * IZR (2 ^ k) + / 2) else - Zfloor (- x * IZR (2 ^ k) + / 2))).
(* what fits into 32 bits *)
Definition clip (x : Z) : Z := Z.max 0 (Z.min 4294967295 x).

Local Open Scope R_scope.

(* above -64, but nearer to it than to the next higher number with 25 fractional bits *)
Definition near_minus_64 (x : R) : Prop := -64 < x /\ x * 33554432 <= -2147483648 + / 2.

(* g turns every float that is a number into an integer from 0 to max: lo and everything below into 0,
   hi and everything above into max, what is between them proportionally with an error of at most err *)
Definition scales {p e} (g : binary_float p e -> res Z) (lo hi : R) (max : Z) (err : R) : Prop :=
  forall f, is_nan f = false -> exists v, g f = Ok v /\ (0 <= v <= max)%Z /\
    (is_finite f = true ->
      (B2R f <= lo -> v = 0%Z) /\ (hi <= B2R f -> v = max) /\
      (lo <= B2R f <= hi -> Rabs (IZR v - (B2R f - lo) / (hi - lo) * IZR max) <= err)) /\
    (f = B754_infinity true -> v = 0%Z) /\ (f = B754_infinity false -> v = max).
(* the greater the float, the greater the integer *)
Definition increasing {p e} (g : binary_float p e -> res Z) : Prop :=
  forall a b, Bleb a b = true -> exists v w, g a = Ok v /\ g b = Ok w /\ (v <= w)%Z.

(* g turns the integers from 0 to max into floats that are h with an error of at most err, exactly h for
   0, the centre and max *)
Definition denotes {p e} (g : Z -> binary_float p e) (h : Z -> R) (center max : Z) (err : R) : Prop :=
  (forall v, (0 <= v <= max)%Z -> is_finite (g v) = true /\ Rabs (B2R (g v) - h v) <= err) /\
  (forall v, v = 0%Z \/ v = center \/ v = max -> B2R (g v) = h v).
(* the greater the integer, the greater the float *)
Definition ascending {p e} (g : Z -> binary_float p e) (max : Z) : Prop :=
  forall v w, (0 <= v <= w)%Z -> (w <= max)%Z -> B2R (g v) <= B2R (g w).
Definition strictly_ascending {p e} (g : Z -> binary_float p e) (max : Z) : Prop :=
  forall v w, (0 <= v < w)%Z -> (w <= max)%Z -> B2R (g v) < B2R (g w).

(* 0 to the centre is 0 to 1/2, the centre to max is 1/2 to 1 *)
Definition unipolar (center max v : Z) : R :=
  if (v <=? center)%Z then IZR v / (2 * IZR center) else IZR v / IZR max.
(* 0 to the centre is -1 to 0, the centre to max is 0 to 1 *)
Definition bipolar (center max v : Z) : R :=
  if (v <=? center)%Z then (IZR v - IZR center) / IZR center else (IZR v - IZR center) / IZR (max - center).
