(* What value scaling and saturating arithmetic are supposed to compute. *)
From Coq Require Import ZArith.
From Verif Require Import Base.
Local Open Scope Z_scope.

(* [f] scales [x] bit values to [y] bit values: nothing is lost, the minimum, the
   centre and the maximum are kept and the order is strict. *)
Record upscaler (x y : Z) (f : Z -> option Z) : Prop := {
  up_defined : forall v, 0 <= v < 2 ^ x -> exists r, f v = Some r /\ 0 <= r < 2 ^ y;
  up_lossless : forall v r, 0 <= v < 2 ^ x -> f v = Some r -> r / 2 ^ (y - x) = v;
  up_min : f 0 = Some 0;
  up_centre : f (2 ^ (x - 1)) = Some (2 ^ (y - 1));
  up_max : f (2 ^ x - 1) = Some (2 ^ y - 1);
  up_mono : forall v w r s, 0 <= v < 2 ^ x -> 0 <= w < 2 ^ x -> v < w ->
              f v = Some r -> f w = Some s -> r < s }.

(* the outcome of a computation that returns a value *)
Definition value {A} (r : res A) : option A :=
  match r with Ok a => Some a | Fault _ => None end.

(* [r] is [s] limited to the interval [lo, hi] *)
Definition saturated (s lo hi r : Z) : Prop :=
  (s < lo /\ r = lo) \/ (lo <= s <= hi /\ r = s) \/ (hi < s /\ r = hi).

(* n / d rounded towards zero, for d > 0: the quotient q with the sign of n such
   that |n| = |q| d + rest, rest < d *)
Definition towards_zero (n d q : Z) : Prop :=
  (0 <= n -> 0 <= q /\ q * d <= n < (q + 1) * d) /\
  (n <= 0 -> q <= 0 /\ (q - 1) * d < n <= q * d).

(* the outcome of a computation with a loop: [Ok None] would mean that the loop
   did not come to an end *)
Definition returned {A} (r : res (option A)) : option A :=
  match r with Ok o => o | Fault _ => None end.
