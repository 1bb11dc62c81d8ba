(* Model of the floating point conversions, inc/midi/types.h.

   float and double are IEEE 754 binary32 and binary64 (Flocq's binary_float), arithmetic rounds to
   nearest even and each operation is evaluated in the type of its operands (FLT_EVAL_METHOD 0, no
   -ffast-math).  A conversion to an integer type whose truncated value the type does not have, or of
   a NaN, is undefined: Fault FloatCast. *)
From Coq Require Import ZArith Bool.
From Flocq Require Import Core IEEE754.BinarySingleNaN.
From Verif Require Import Base Types.
Local Open Scope Z_scope.

Global Instance prec_24 : Prec_gt_0 24 := eq_refl.
Global Instance prec_53 : Prec_gt_0 53 := eq_refl.
Global Instance emax_128 : Prec_lt_emax 24 128 := eq_refl.
Global Instance emax_1024 : Prec_lt_emax 53 1024 := eq_refl.
Definition f32 : Set := binary_float 24 128.
Definition f64 : Set := binary_float 53 1024.

(* ---- conversions between types ------------------------------------------------------------------ *)

(* integer to float or double *)
Definition f32_of_int (z : Z) : f32 := binary_normalize 24 128 prec_24 emax_128 mode_NE z 0 false.
Definition f64_of_int (z : Z) : f64 := binary_normalize 53 1024 prec_53 emax_1024 mode_NE z 0 false.
(* float to double *)
Definition widen (f : f32) : f64 :=
  match f with
  | B754_zero s => B754_zero s
  | B754_infinity s => B754_infinity s
  | B754_nan => B754_nan
  | B754_finite s m e _ => binary_normalize 53 1024 prec_53 emax_1024 mode_NE (cond_Zopp s (Zpos m)) e s
  end.
(* double to float *)
Definition narrow (d : f64) : f32 :=
  match d with
  | B754_zero s => B754_zero s
  | B754_infinity s => B754_infinity s
  | B754_nan => B754_nan
  | B754_finite s m e _ => binary_normalize 24 128 prec_24 emax_128 mode_NE (cond_Zopp s (Zpos m)) e s
  end.
(* float or double to an unsigned integer type of n bits *)
Definition to_unsigned {prec emax} (n : Z) (x : binary_float prec emax) : res Z :=
  if is_finite x && (0 <=? Btrunc x) && (Btrunc x <? 2 ^ n) then Ok (Btrunc x) else Fault FloatCast.
(* int32_t to uint32_t is exact modulo 2^32, as is the inverse *)
Definition int32_of_uint32 (v : Z) : Z := if v <? 2147483648 then v else v - 4294967296.

(* ---- arithmetic ----------------------------------------------------------------------------------- *)

Definition d_plus : f64 -> f64 -> f64 := Bplus mode_NE.
Definition d_minus : f64 -> f64 -> f64 := Bminus mode_NE.
Definition d_mult : f64 -> f64 -> f64 := Bmult mode_NE.
Definition d_div : f64 -> f64 -> f64 := Bdiv mode_NE.
Definition f_plus : f32 -> f32 -> f32 := Bplus mode_NE.
Definition f_mult : f32 -> f32 -> f32 := Bmult mode_NE.
Definition f_div : f32 -> f32 -> f32 := Bdiv mode_NE.
(* std::round: to the nearest integer, halfway cases away from zero *)
Definition f_round : f32 -> f32 := Bnearbyint mode_NA.
Definition d_round : f64 -> f64 := Bnearbyint mode_NA.
(* 0.5 *)
Definition d_half : f64 := d_div (f64_of_int 1) (f64_of_int 2).

(* ---- 0..1 ------------------------------------------------------------------------------------------- *)

(* types.h:520-542 with T of n bits (16 or 32) and F = double.  mid + static_cast<T>(d) is reduced
   modulo 2^n by the conversion to T. *)
Definition from_double_0_1 (n : Z) (f : f64) : res Z :=
  let max := 2 ^ n - 1 in
  if Bleb f (f64_of_int 0) then Ok 0
  else if Bleb (f64_of_int 1) f then Ok max
  else if Bleb f d_half then
    let scale := d_plus (f64_of_int max) (f64_of_int 1) in
    to_unsigned n (d_mult f scale)
  else
    let mid := Z.shiftr max 1 + 1 in
    let scale := f64_of_int max in
    bind (to_unsigned n (d_mult (d_minus f d_half) scale)) (fun t => Ok ((mid + t) mod 2 ^ n)).
(* F = float: the arithmetic is the same, as its other operand is a double.  The comparisons are
   between floats, here between the doubles they are exactly equal to. *)
Definition from_float_0_1 (n : Z) (f : f32) : res Z := from_double_0_1 n (widen f).

(* types.h:545-555, F = double and F = float *)
Definition to_double_0_1 (n : Z) (value : Z) : f64 :=
  let max := 2 ^ n - 1 in
  let center := Z.shiftr max 1 + 1 in
  if value <=? center then d_div (d_div (f64_of_int value) (f64_of_int center)) (f64_of_int 2)
  else d_div (f64_of_int value) (f64_of_int max).
Definition to_float_0_1 (n : Z) (value : Z) : f32 := narrow (to_double_0_1 n value).

(* types.h:561-579 *)
Definition velocity_of_float (f : f32) : res Z := from_float_0_1 16 f.
Definition velocity_of_double (d : f64) : res Z := from_double_0_1 16 d.
Definition velocity_as_float (value : Z) : f32 := to_float_0_1 16 value.
Definition velocity_as_double (value : Z) : f64 := to_double_0_1 16 value.

(* types.h:834-852 *)
Definition controller_of_float (f : f32) : res Z := from_float_0_1 32 f.
Definition controller_of_double (d : f64) : res Z := from_double_0_1 32 d.
Definition controller_as_float (value : Z) : f32 := to_float_0_1 32 value.
Definition controller_as_double (value : Z) : f64 := to_double_0_1 32 value.

(* ---- pitch bend --------------------------------------------------------------------------------------- *)

(* types.h:583-586, 588-591 *)
Definition pitch_bend_of_float (f : f32) : res Z :=
  from_float_0_1 32 (f_div (f_plus f (f32_of_int 1)) (f32_of_int 2)).
Definition pitch_bend_of_double (d : f64) : res Z :=
  from_double_0_1 32 (d_div (d_plus d (f64_of_int 1)) (f64_of_int 2)).
(* types.h:598-604 *)
Definition pitch_bend_as_double (value : Z) : f64 :=
  if 0x80000000 <=? value then d_div (f64_of_int (u32 (value - 0x80000000))) (f64_of_int 0x7FFFFFFF)
  else d_div (f64_of_int (u32 (0x80000000 - value))) (Bopp (f64_of_int 0x80000000)).
(* types.h:593-596 *)
Definition pitch_bend_as_float (value : Z) : f32 := narrow (pitch_bend_as_double value).

(* ---- pitches ------------------------------------------------------------------------------------------- *)

(* types.h:669-685, 687-703 *)
Definition pitch_7_9_of_float (f : f32) : res Z :=
  if Bleb f (f32_of_int 0) then Ok 0
  else if Bleb (f32_of_int 128) f then Ok 0xFFFF
  else
    let result := f_round (f_mult f (f32_of_int (Z.shiftl 1 9))) in
    if Bltb result (f32_of_int 0x10000) then to_unsigned 16 result else Ok 0xFFFF.
Definition pitch_7_9_of_double (d : f64) : res Z :=
  if Bleb d (f64_of_int 0) then Ok 0
  else if Bleb (f64_of_int 128) d then Ok 0xFFFF
  else
    let result := d_round (d_mult d (f64_of_int (Z.shiftl 1 9))) in
    if Bltb result (f64_of_int 0x10000) then to_unsigned 16 result else Ok 0xFFFF.
(* types.h:705-715 *)
Definition pitch_7_9_as_float (value : Z) : f32 := f_div (f32_of_int value) (f32_of_int (Z.shiftl 1 9)).
Definition pitch_7_9_as_double (value : Z) : f64 := d_div (f64_of_int value) (f64_of_int (Z.shiftl 1 9)).

(* types.h:719-735; the comparison is between doubles *)
Definition pitch_7_25_of_float (f : f32) : res Z :=
  if Bleb f (f32_of_int 0) then Ok 0
  else if Bleb (f32_of_int 128) f then Ok 0xFFFFFFFF
  else
    let result := f_round (f_mult f (f32_of_int (Z.shiftl 1 25))) in
    if Bltb (widen result) (f64_of_int 4294967296) then to_unsigned 32 result else Ok 0xFFFFFFFF.
(* types.h:739-755; the factor is converted from float to double *)
Definition pitch_7_25_of_double (d : f64) : res Z :=
  if Bleb d (f64_of_int 0) then Ok 0
  else if Bleb (f64_of_int 128) d then Ok 0xFFFFFFFF
  else
    let result := d_round (d_mult d (widen (f32_of_int (Z.shiftl 1 25)))) in
    if Bltb result (f64_of_int 4294967296) then to_unsigned 32 result else Ok 0xFFFFFFFF.
(* types.h:757-766 *)
Definition pitch_7_25_as_double (value : Z) : f64 := d_div (f64_of_int value) (f64_of_int (Z.shiftl 1 25)).
Definition pitch_7_25_as_float (value : Z) : f32 := narrow (pitch_7_25_as_double value).

(* types.h:786-806 and 781-784; value plus and minus the increment stay within int64_t *)
Definition pitch_add_double (value : Z) (detune : f64) : res Z :=
  if Bleb (f64_of_int 0) detune then
    bind (pitch_7_25_of_double detune) (fun inc =>
    let r := value + inc in
    Ok (if 0xFFFFFFFF <? r then 0xFFFFFFFF else r))
  else
    bind (pitch_7_25_of_double (Bopp detune)) (fun dec =>
    let r := value - dec in
    Ok (if r <? 0 then 0 else r)).
Definition pitch_add_float (value : Z) (detune : f32) : res Z := pitch_add_double value (widen detune).

(* negation of an int32_t *)
Definition negate_int32 (v : Z) : res Z := if v =? -2147483648 then Fault SignedOverflow else Ok (- v).
(* types.h:608-626 *)
Definition pitch_increment_of_float (f : f32) : res Z :=
  if Bleb (f32_of_int 64) f then Ok int32_max
  else if Bleb f (f32_of_int (-64)) then Ok int32_min
  else if Bleb (f32_of_int 0) f then
    bind (pitch_7_25_of_float f) (fun v => Ok (int32_of_uint32 v))
  else
    bind (pitch_7_25_of_float (Bopp f)) (fun v => negate_int32 (int32_of_uint32 v)).
(* types.h:628-650 *)
Definition pitch_increment_of_double (d : f64) : res Z :=
  if Bleb (f64_of_int 64) d then Ok int32_max
  else if Bleb d (f64_of_int (-64)) then Ok int32_min
  else if Bleb (f64_of_int 0) d then
    bind (pitch_7_25_of_double d) (fun result => Ok (if result <=? int32_max then result else int32_max))
  else
    bind (pitch_7_25_of_double (Bopp d)) (fun v => negate_int32 (int32_of_uint32 v)).
