(* C11, C63, C64, C65: conversions from and to floating point numbers. *)
From Coq Require Import ZArith Reals Lra Lia Bool.
From Flocq Require Import Core IEEE754.BinarySingleNaN.
From Verif Require Import Base Types Floats FloatSpec FloatLemmas FloatProofs FloatPitch FloatBend FloatOrder.
Local Open Scope Z_scope.

(* ---- C11: there and back ------------------------------------------------------------------------------ *)

Theorem C11_velocity v : is_u16 v ->
  velocity_of_double (velocity_as_double v) = Ok v /\ velocity_of_float (velocity_as_float v) = Ok v.
Proof. intros V. split; [now apply (double_round_trip 16); [lia|]|now apply velocity_float_round_trip]. Qed.
Print Assumptions C11_velocity.
Example C11_velocity_example : is_u16 40001 /\ velocity_of_float (velocity_as_float 40001) = Ok 40001.
Proof. split; [unfold is_u16; lia|]. now vm_compute. Qed.

Theorem C11_controller_value v : is_u32 v ->
  controller_of_double (controller_as_double v) = Ok v /\
  exists w, controller_of_float (controller_as_float v) = Ok w /\ Z.abs (w - v) <= 129.
Proof. intros V. split; [now apply (double_round_trip 32); [lia|]|now apply controller_float_round_trip]. Qed.
Print Assumptions C11_controller_value.
Example C11_controller_value_example : is_u32 0xDEADBEEF /\ controller_of_double (controller_as_double 0xDEADBEEF) = Ok 0xDEADBEEF.
Proof. split; [unfold is_u32; lia|]. now vm_compute. Qed.

Theorem C11_pitch_7_9 v : is_u16 v ->
  pitch_7_9_of_double (pitch_7_9_as_double v) = Ok v /\ pitch_7_9_of_float (pitch_7_9_as_float v) = Ok v.
Proof.
  intros V. destruct (pitch_7_9_as_double_ok v V) as (F & E). destruct (pitch_7_9_as_float_ok v V) as (F' & E').
  rewrite pitch_7_9_double, pitch_7_9_float, E, E' by assumption. split; f_equal; now apply (fixed_exact 16 9).
Qed.
Print Assumptions C11_pitch_7_9.
Example C11_pitch_7_9_example : is_u16 0x7F81 /\ pitch_7_9_of_float (pitch_7_9_as_float 0x7F81) = Ok 0x7F81.
Proof. split; [unfold is_u16; lia|]. now vm_compute. Qed.

Theorem C11_pitch_7_25 v : is_u32 v ->
  pitch_7_25_of_double (pitch_7_25_as_double v) = Ok v /\
  exists w, pitch_7_25_of_float (pitch_7_25_as_float v) = Ok w /\ Z.abs (w - v) <= 128.
Proof.
  intros V. split; [|now apply pitch_7_25_float_round_trip]. destruct (pitch_7_25_as_double_ok v V) as (F & E).
  rewrite pitch_7_25_double, E by assumption. f_equal. now apply (fixed_exact 32 25).
Qed.
Print Assumptions C11_pitch_7_25.
Example C11_pitch_7_25_example : is_u32 0xFFFFFFFF /\ pitch_7_25_of_double (pitch_7_25_as_double 0xFFFFFFFF) = Ok 0xFFFFFFFF.
Proof. split; [unfold is_u32; lia|]. now vm_compute. Qed.

(* a pitch bend comes back as it was or one lower; only the first 4095 values above the centre can be affected *)
Theorem C11_pitch_bend v : is_u32 v ->
  (exists w, pitch_bend_of_double (pitch_bend_as_double v) = Ok w /\ (w = v \/ w = v - 1) /\
    (v <= 2147483648 \/ 2147483648 + 4096 <= v -> w = v)) /\
  exists w, pitch_bend_of_float (pitch_bend_as_float v) = Ok w /\ Z.abs (w - v) <= 194.
Proof. intros V. split; [now apply bend_double_round_trip|now apply bend_float_round_trip]. Qed.
Print Assumptions C11_pitch_bend.
Example C11_pitch_bend_example : is_u32 0x80001000 /\ pitch_bend_of_double (pitch_bend_as_double 0x80001000) = Ok 0x80001000.
Proof. split; [unfold is_u32; lia|]. now vm_compute. Qed.

(* the smallest bend above the centre becomes the centre *)
Theorem C11_pitch_bend_refuted : exists v, is_u32 v /\ pitch_bend_of_double (pitch_bend_as_double v) = Ok 0x80000000 /\ v <> 0x80000000.
Proof. exists 0x80000001. split; [unfold is_u32; lia|]. split; [now vm_compute|lia]. Qed.
Print Assumptions C11_pitch_bend_refuted.

(* float is too short for 32 bit values *)
Theorem C11_float_32_refuted : exists v, is_u32 v /\
  controller_of_float (controller_as_float v) <> Ok v /\ pitch_7_25_of_float (pitch_7_25_as_float v) <> Ok v /\
  pitch_bend_of_float (pitch_bend_as_float v) <> Ok v.
Proof. exists 0xC0000001. split; [unfold is_u32; lia|]. split; [|split]; now vm_compute. Qed.
Print Assumptions C11_float_32_refuted.

(* ---- C63: what the floating point numbers mean ---------------------------------------------------------- *)

Theorem C63_velocity_from :
  scales velocity_of_double 0 1 65535 1 /\ increasing velocity_of_double /\
  scales velocity_of_float 0 1 65535 1 /\ increasing velocity_of_float.
Proof.
  split; [apply (unit_scales 16); lia|]. split; [eapply computed_increasing, (uv_computed 16); lia|].
  split; [apply (unit_scales_float 16); lia|]. eapply computed_increasing, (uv_computed_float 16); lia.
Qed.
Print Assumptions C63_velocity_from.

Theorem C63_controller_from :
  scales controller_of_double 0 1 4294967295 1 /\ increasing controller_of_double /\
  scales controller_of_float 0 1 4294967295 1 /\ increasing controller_of_float.
Proof.
  split; [apply (unit_scales 32); lia|]. split; [eapply computed_increasing, (uv_computed 32); lia|].
  split; [apply (unit_scales_float 32); lia|]. eapply computed_increasing, (uv_computed_float 32); lia.
Qed.
Print Assumptions C63_controller_from.

Theorem C63_pitch_bend_from :
  scales pitch_bend_of_double (-1) 1 4294967295 (1 + / 1000000) /\ increasing pitch_bend_of_double /\
  scales pitch_bend_of_float (-1) 1 4294967295 513 /\ increasing pitch_bend_of_float.
Proof.
  split; [apply bend_scales|]. split; [eapply computed_increasing, bend_computed|].
  split; [apply bend_scales_float|]. eapply computed_increasing, bend_computed_float.
Qed.
Print Assumptions C63_pitch_bend_from.
Example C63_from_example :
  is_nan (d_div (f64_of_int 1) (f64_of_int 3)) = false /\ velocity_of_double (d_div (f64_of_int 1) (f64_of_int 3)) = Ok 21845 /\
  Bleb (d_div (f64_of_int 1) (f64_of_int 3)) d_half = true /\ controller_of_double d_half = Ok 0x80000000 /\
  pitch_bend_of_double (Bopp d_half) = Ok 0x40000000 /\ pitch_bend_of_float (B754_infinity true) = Ok 0.
Proof. repeat split; now vm_compute. Qed.

Theorem C63_velocity_to :
  denotes velocity_as_double (unipolar 32768 65535) 32768 65535 (/ 9007199254740992) /\ strictly_ascending velocity_as_double 65535 /\
  denotes velocity_as_float (unipolar 32768 65535) 32768 65535 (/ 16000000) /\ strictly_ascending velocity_as_float 65535.
Proof.
  split; [apply (unit_denotes 16); lia|]. split; [apply (unit_ascending 16); lia|]. split; [apply (unit_denotes_float 16); lia|].
  apply (inverse_ascending velocity_of_float); [eapply computed_increasing, (uv_computed_float 16); lia|].
  intros v V. split; [apply (to_float_char 16); [lia|change (2 ^ 16) with 65536; lia]|]. apply velocity_float_round_trip. lia.
Qed.
Print Assumptions C63_velocity_to.

Theorem C63_controller_to :
  denotes controller_as_double (unipolar 2147483648 4294967295) 2147483648 4294967295 (/ 9007199254740992) /\
  strictly_ascending controller_as_double 4294967295 /\
  denotes controller_as_float (unipolar 2147483648 4294967295) 2147483648 4294967295 (/ 16000000) /\
  ascending controller_as_float 4294967295.
Proof.
  split; [apply (unit_denotes 32); lia|]. split; [apply (unit_ascending 32); lia|]. split; [apply (unit_denotes_float 32); lia|].
  apply (unit_ascending_float 32); lia.
Qed.
Print Assumptions C63_controller_to.

Theorem C63_pitch_bend_to :
  denotes pitch_bend_as_double (bipolar 2147483648 4294967295) 2147483648 4294967295 (/ 9007199254740992) /\
  strictly_ascending pitch_bend_as_double 4294967295 /\
  denotes pitch_bend_as_float (bipolar 2147483648 4294967295) 2147483648 4294967295 (/ 16000000) /\
  ascending pitch_bend_as_float 4294967295.
Proof.
  split; [apply bend_denotes|]. split; [apply bend_ascending|]. split; [apply bend_denotes_float|]. apply bend_ascending_float.
Qed.
Print Assumptions C63_pitch_bend_to.
Example C63_to_example : (unipolar 32768 65535 16384 = / 4)%R /\ (bipolar 2147483648 4294967295 1073741824 = - / 2)%R /\
  velocity_as_double 32768 = d_half /\ pitch_bend_as_float 4294967295 = f32_of_int 1.
Proof.
  split; [|split; [|split]].
  - unfold unipolar. replace (16384 <=? 32768) with true by reflexivity. lra.
  - unfold bipolar. replace (1073741824 <=? 2147483648) with true by reflexivity. lra.
  - apply B2R_Bsign_inj; reflexivity.
  - apply B2R_Bsign_inj; reflexivity.
Qed.

(* a NaN is converted to an integer: undefined *)
Theorem C63_nan_refuted :
  velocity_of_double B754_nan = Fault FloatCast /\ velocity_of_float B754_nan = Fault FloatCast /\
  controller_of_double B754_nan = Fault FloatCast /\ controller_of_float B754_nan = Fault FloatCast /\
  pitch_bend_of_double B754_nan = Fault FloatCast /\ pitch_bend_of_float B754_nan = Fault FloatCast.
Proof. repeat split; now vm_compute. Qed.
Print Assumptions C63_nan_refuted.

(* ---- C64: pitches are fixed point numbers ------------------------------------------------------------------ *)

Theorem C64_pitch_from_double d :
  pitch_7_9_of_double d = Ok (if is_finite d then fixed_point 16 9 (B2R d) else if is_nan d then 65535 else if Bsign d then 0 else 65535) /\
  pitch_7_25_of_double d =
    Ok (if is_finite d then fixed_point 32 25 (B2R d) else if is_nan d then 4294967295 else if Bsign d then 0 else 4294967295).
Proof.
  destruct d as [s|[]| |s m e H]; try (split; reflexivity).
  - now rewrite pitch_7_9_double, pitch_7_25_double.
  - now rewrite pitch_7_9_double, pitch_7_25_double.
Qed.
Print Assumptions C64_pitch_from_double.

Theorem C64_pitch_from_float f :
  pitch_7_9_of_float f = Ok (if is_finite f then fixed_point 16 9 (B2R f) else if is_nan f then 65535 else if Bsign f then 0 else 65535) /\
  pitch_7_25_of_float f =
    Ok (if is_finite f then fixed_point 32 25 (B2R f) else if is_nan f then 4294967295 else if Bsign f then 0 else 4294967295).
Proof.
  destruct f as [s|[]| |s m e H]; try (split; reflexivity).
  - now rewrite pitch_7_9_float, pitch_7_25_float.
  - now rewrite pitch_7_9_float, pitch_7_25_float.
Qed.
Print Assumptions C64_pitch_from_float.

(* in the other direction they are exact, but for 7.25 as float *)
Theorem C64_pitch_to :
  (forall v, is_u16 v -> is_finite (pitch_7_9_as_double v) = true /\ B2R (pitch_7_9_as_double v) = (IZR v / 512)%R /\
    is_finite (pitch_7_9_as_float v) = true /\ B2R (pitch_7_9_as_float v) = (IZR v / 512)%R) /\
  (forall v, is_u32 v -> is_finite (pitch_7_25_as_double v) = true /\ B2R (pitch_7_25_as_double v) = (IZR v / 33554432)%R /\
    is_finite (pitch_7_25_as_float v) = true /\ (Rabs (B2R (pitch_7_25_as_float v) * 33554432 - IZR v) <= 128)%R).
Proof.
  split; intros v V.
  - destruct (pitch_7_9_as_double_ok v V). destruct (pitch_7_9_as_float_ok v V). repeat split; assumption.
  - destruct (pitch_7_25_as_double_ok v V). destruct (pitch_7_25_as_float_ok v V) as (? & ? & ?). repeat split; assumption.
Qed.
Print Assumptions C64_pitch_to.
Example C64_example : pitch_7_25_of_double (d_div (f64_of_int 121) (f64_of_int 2)) = Ok 2030043136 /\
  pitch_7_25_of_double (d_div (f64_of_int 121) (f64_of_int 2)) = Ok (Z.shiftl 60 25 + Z.shiftl 1 24) /\
  pitch_7_9_of_float (f32_of_int 127) = Ok (Z.shiftl 127 9).
Proof. repeat split; now vm_compute. Qed.

(* docs/types.md: the numbers are in [0, 128) *)
Theorem C64_pitch_range :
  (forall v, is_u16 v -> (0 <= B2R (pitch_7_9_as_double v) < 128)%R /\ (0 <= B2R (pitch_7_9_as_float v) < 128)%R) /\
  (forall v, is_u32 v -> (0 <= B2R (pitch_7_25_as_double v) < 128)%R /\
    (v < 4294967168 -> (0 <= B2R (pitch_7_25_as_float v) < 128)%R)).
Proof. exact (conj pitch_7_9_range pitch_7_25_range). Qed.
Print Assumptions C64_pitch_range.
(* but not for the highest 7.25 pitches as float *)
Theorem C64_pitch_range_refuted : exists v, is_u32 v /\ B2R (pitch_7_25_as_float v) = 128%R.
Proof. exists 4294967168. split; [unfold is_u32; lia|]. exact pitch_7_25_reaches_128. Qed.
Print Assumptions C64_pitch_range_refuted.
Example C64_pitch_range_example : is_u32 4294967167 /\ 4294967167 < 4294967168 /\ is_u16 65535.
Proof. unfold is_u32, is_u16. lia. Qed.

(* ---- C65: increments and detuning ----------------------------------------------------------------------------- *)

Theorem C65_increment_from_float f : is_finite f = true -> pitch_increment_of_float f = Ok (signed_fixed_point 32 25 (B2R f)).
Proof. apply pitch_increment_float. Qed.
Print Assumptions C65_increment_from_float.

(* from a double the same, but for an overflow if the number is just above -64 *)
Theorem C65_increment_from_double d : is_finite d = true ->
  (~ near_minus_64 (B2R d) -> pitch_increment_of_double d = Ok (signed_fixed_point 32 25 (B2R d))) /\
  (near_minus_64 (B2R d) -> pitch_increment_of_double d = Fault SignedOverflow).
Proof. intros F. split; intros N; [now apply pitch_increment_double|now apply pitch_increment_double_near]. Qed.
Print Assumptions C65_increment_from_double.
Example C65_increment_example :
  pitch_increment_of_double (d_div (f64_of_int (-25)) (f64_of_int 2)) = Ok (-419430400) /\ -419430400 = -25 * 2 ^ 24 /\
  pitch_increment_of_float (f32_of_int 64) = Ok 2147483647.
Proof. repeat split; now vm_compute. Qed.

Theorem C65_increment_overflow_refuted : exists d, is_finite d = true /\ pitch_increment_of_double d = Fault SignedOverflow.
Proof. exists (d_plus (f64_of_int (-64)) (d_div (f64_of_int 1) (f64_of_int 134217728))). split; now vm_compute. Qed.
Print Assumptions C65_increment_overflow_refuted.

(* infinities are the extreme increments, not a number is 1 *)
Theorem C65_increment_not_finite :
  pitch_increment_of_double (B754_infinity false) = Ok 2147483647 /\ pitch_increment_of_double (B754_infinity true) = Ok (-2147483648) /\
  pitch_increment_of_float (B754_infinity false) = Ok 2147483647 /\ pitch_increment_of_float (B754_infinity true) = Ok (-2147483648) /\
  pitch_increment_of_double B754_nan = Ok 1 /\ pitch_increment_of_float B754_nan = Ok 1.
Proof. repeat split; now vm_compute. Qed.
Print Assumptions C65_increment_not_finite.

(* pitch plus detune is the exact sum of the pitch and the rounded detune, limited to what a pitch can be *)
Theorem C65_detune v : is_u32 v ->
  (forall d, is_finite d = true -> pitch_add_double v d =
    Ok (clip (v + if Rle_bool 0 (B2R d) then fixed_point 32 25 (B2R d) else - fixed_point 32 25 (- B2R d)))) /\
  (forall f, is_finite f = true -> pitch_add_float v f =
    Ok (clip (v + if Rle_bool 0 (B2R f) then fixed_point 32 25 (B2R f) else - fixed_point 32 25 (- B2R f)))).
Proof.
  intros V. split; intros d F; [now apply pitch_add_double_ok|].
  unfold pitch_add_float. destruct (widen_ok d F) as (A & B). rewrite pitch_add_double_ok by assumption. now rewrite B.
Qed.
Print Assumptions C65_detune.
Example C65_detune_example : pitch_add_double (Z.shiftl 60 25) (Bopp d_half) = Ok (Z.shiftl 59 25 + Z.shiftl 1 24) /\
  pitch_add_double (Z.shiftl 127 25) (f64_of_int 2) = Ok 4294967295.
Proof. split; now vm_compute. Qed.
