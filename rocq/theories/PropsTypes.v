(* Properties C05 to C10, C56 *)
From Coq Require Import ZArith List Bool Lia.
From Verif Require Import Base Types TypesSpec TypesProofs.
Import ListNotations.
Local Open Scope Z_scope.

(* ---- C05 -------------------------------------------------------------------- *)

Theorem C05_velocity_7_bit_survives : forall v, is_u7 v ->
  downsample_16_to_7bit (upsample_7_to_16bit v) = v.
Proof. exact down_up_7_16. Qed.
Print Assumptions C05_velocity_7_bit_survives.

Theorem C05_controller_7_bit_survives : forall v, is_u7 v ->
  downsample_32_to_7bit (upsample_7_to_32bit v) = v.
Proof. exact down_up_7_32. Qed.
Print Assumptions C05_controller_7_bit_survives.

Theorem C05_14_bit_survives : forall v, is_u14 v ->
  exists r, upsample_14_to_32bit v = Ok r /\ is_u32 r /\ downsample_32_to_14bit r = v.
Proof. exact down_up_14_32. Qed.
Print Assumptions C05_14_bit_survives.

(* the same in terms of the value types: what is put into a velocity, controller value or pitch bend with fewer bits is what
   is read from it with as many *)
Theorem C05_values : forall v,
  (is_u7 v -> velocity_as_uint7 (velocity_of_uint7 v) = v /\ controller_as_uint7 (controller_of_uint7 v) = v) /\
  (is_u14 v -> exists c b, controller_of_uint14 v = Ok c /\ is_u32 c /\ controller_as_uint14 c = v /\
                           pitch_bend_of_uint14 v = Ok b /\ is_u32 b /\ pitch_bend_as_uint14 b = v).
Proof. exact values_survive. Qed.
Print Assumptions C05_values.
Example C05_values_ex : is_u14 10000 /\ controller_of_uint14 10000 = Ok 0x9C40E207 /\ controller_as_uint14 0x9C40E207 = 10000.
Proof. repeat split; vm_compute; congruence. Qed.

(* reading with fewer bits yields the highest ones *)
Theorem C05_read_truncated : forall w,
  (is_u32 w -> controller_as_uint14 w = w / 2 ^ 18 /\ controller_as_uint7 w = w / 2 ^ 25 /\ pitch_bend_as_uint14 w = w / 2 ^ 18) /\
  (is_u16 w -> velocity_as_uint7 w = w / 2 ^ 9).
Proof. exact read_truncated. Qed.
Print Assumptions C05_read_truncated.
Example C05_read_truncated_ex : controller_as_uint14 0x9C40FFFF = 10000 /\ controller_as_uint7 0x9C40FFFF = 78 /\ velocity_as_uint7 0xFFFF = 127.
Proof. repeat split; reflexivity. Qed.

(* the loop ends, the result fits and nothing is lost, for every pair of widths *)
Theorem C05_generic_survives : forall x y v, 2 <= x -> x < y -> y <= 32 -> 0 <= v < 2 ^ x ->
  exists r, upsample_x_to_ybit v x y = Ok (Some r) /\ 0 <= r < 2 ^ y /\ Z.shiftr r (y - x) = v.
Proof. exact upsample_generic_ok. Qed.
Print Assumptions C05_generic_survives.

(* any other pair of widths is refused by the assertion *)
Theorem C05_generic_refuses_other_widths : forall x y v, ~ (2 <= x /\ x < y /\ y <= 32) ->
  upsample_x_to_ybit v x y = Fault AssertFail.
Proof. exact upsample_generic_refused. Qed.
Print Assumptions C05_generic_refuses_other_widths.

Example C05_ex :
  upsample_7_to_16bit 100 = 0xC924 /\ downsample_16_to_7bit 0xC924 = 100 /\
  upsample_14_to_32bit 10000 = Ok 0x9C40E207 /\ upsample_x_to_ybit 200 8 12 = Ok (Some 0xC89) /\
  upsample_x_to_ybit 200 12 8 = Fault AssertFail.
Proof. repeat split; vm_compute; reflexivity. Qed.

(* ---- C06 -------------------------------------------------------------------- *)

Theorem C06_7_to_16 : upscaler 7 16 (fun v => Some (upsample_7_to_16bit v)).
Proof. exact upscaler_7_16. Qed.
Print Assumptions C06_7_to_16.

Theorem C06_7_to_32 : upscaler 7 32 (fun v => Some (upsample_7_to_32bit v)).
Proof. exact upscaler_7_32. Qed.
Print Assumptions C06_7_to_32.

Theorem C06_14_to_32 : upscaler 14 32 (fun v => value (upsample_14_to_32bit v)).
Proof. exact upscaler_14_32. Qed.
Print Assumptions C06_14_to_32.

Theorem C06_generic : forall x y, 2 <= x -> x < y -> y <= 32 ->
  upscaler x y (fun v => returned (upsample_x_to_ybit v x y)).
Proof. exact generic_upscaler. Qed.
Print Assumptions C06_generic.

Example C06_ex : returned (upsample_x_to_ybit 127 7 32) = Some 0xFFFFFFFF /\
  returned (upsample_x_to_ybit 64 7 32) = Some 0x80000000 /\
  returned (upsample_x_to_ybit 3 2 5) = Some 31.
Proof. repeat split; vm_compute; reflexivity. Qed.

(* ---- C07 -------------------------------------------------------------------- *)

Theorem C07_generic_is_7_to_16 : forall v, is_u7 v ->
  upsample_x_to_ybit v 7 16 = Ok (Some (upsample_7_to_16bit v)).
Proof. exact agree_7_16. Qed.
Print Assumptions C07_generic_is_7_to_16.

Theorem C07_generic_is_7_to_32 : forall v, is_u7 v ->
  upsample_x_to_ybit v 7 32 = Ok (Some (upsample_7_to_32bit v)).
Proof. exact agree_7_32. Qed.
Print Assumptions C07_generic_is_7_to_32.

Theorem C07_generic_is_14_to_32 : forall v, is_u14 v -> exists r,
  upsample_14_to_32bit v = Ok r /\ upsample_x_to_ybit v 14 32 = Ok (Some r).
Proof. exact agree_14_32. Qed.
Print Assumptions C07_generic_is_14_to_32.

Example C07_ex : is_u7 99 /\ upsample_x_to_ybit 99 7 16 = Ok (Some 0xC71C) /\
  upsample_7_to_16bit 99 = 0xC71C.
Proof. repeat split; vm_compute; congruence. Qed.

(* ---- C08 -------------------------------------------------------------------- *)

(* never a fault, and the exact sum limited to the range *)
Theorem C08_pitch_plus_increment : forall p i, is_u32 p -> is_s32 i ->
  exists r, pitch_add p i = Ok r /\ saturated (p + i) 0 4294967295 r.
Proof. exact pitch_add_ok. Qed.
Print Assumptions C08_pitch_plus_increment.

Theorem C08_pitch_plus_assign : forall p i, is_u32 p -> is_s32 i ->
  exists r, pitch_add_assign p i = Ok r /\ saturated (p + i) 0 4294967295 r.
Proof. exact pitch_add_ok. Qed.
Print Assumptions C08_pitch_plus_assign.

Theorem C08_increment_plus_increment : forall a b, is_s32 a -> is_s32 b ->
  exists r, increment_add a b = Ok r /\ saturated (a + b) (-2147483648) 2147483647 r.
Proof. exact increment_add_ok. Qed.
Print Assumptions C08_increment_plus_increment.

Theorem C08_increment_plus_assign : forall a b, is_s32 a -> is_s32 b ->
  exists r, increment_add_assign a b = Ok r /\ saturated (a + b) (-2147483648) 2147483647 r.
Proof. exact increment_add_ok. Qed.
Print Assumptions C08_increment_plus_assign.

Theorem C08_pitch_monotone : forall p p' i i' r r',
  is_u32 p -> is_u32 p' -> is_s32 i -> is_s32 i' -> p <= p' -> i <= i' ->
  pitch_add p i = Ok r -> pitch_add p' i' = Ok r' -> r <= r'.
Proof. exact pitch_add_mono. Qed.
Print Assumptions C08_pitch_monotone.

Theorem C08_increment_monotone : forall p p' i i' r r',
  is_s32 p -> is_s32 p' -> is_s32 i -> is_s32 i' -> p <= p' -> i <= i' ->
  increment_add p i = Ok r -> increment_add p' i' = Ok r' -> r <= r'.
Proof. exact increment_add_mono. Qed.
Print Assumptions C08_increment_monotone.

Example C08_ex :
  pitch_add 4294967290 10 = Ok 4294967295 /\ pitch_add 10 (-2147483648) = Ok 0 /\
  pitch_add 1000 (-10) = Ok 990 /\
  increment_add 2147483647 1 = Ok 2147483647 /\ increment_add (-2147483648) (-1) = Ok (-2147483648) /\
  increment_add (-7) 3 = Ok (-4).
Proof. repeat split; vm_compute; reflexivity. Qed.

(* ---- C09 -------------------------------------------------------------------- *)

Theorem C09_controller_plus_increment : forall c i, is_u32 c -> is_s32 i ->
  exists r, controller_add c i = Ok r /\ saturated (c + i) 0 4294967295 r.
Proof. exact controller_add_ok. Qed.
Print Assumptions C09_controller_plus_increment.

Theorem C09_controller_plus_assign : forall c i, is_u32 c -> is_s32 i ->
  exists r, controller_add_assign c i = Ok r /\ saturated (c + i) 0 4294967295 r.
Proof. exact controller_add_ok. Qed.
Print Assumptions C09_controller_plus_assign.

Example C09_ex :
  controller_add 4294967290 10 = Ok 4294967295 /\ controller_add 10 (-11) = Ok 0 /\
  controller_add 10 (-3) = Ok 7.
Proof. repeat split; vm_compute; reflexivity. Qed.

(* ---- C10 -------------------------------------------------------------------- *)

(* no 64 bit overflow (no fault), exact quotient rounded towards zero, saturated *)
Theorem C10_product_exact : forall pb sens, is_u32 pb -> is_u32 sens ->
  exists q r, bend_times_sensitivity pb sens = Ok r /\ sensitivity_times_bend sens pb = Ok r /\
    towards_zero ((pb - 2147483648) * sens) 2147483648 q /\ saturated q (-2147483648) 2147483647 r.
Proof. exact bend_exact. Qed.
Print Assumptions C10_product_exact.

Theorem C10_product_bounded_by_sensitivity : forall pb sens r, is_u32 pb -> is_u32 sens ->
  bend_times_sensitivity pb sens = Ok r -> is_s32 r /\ Z.abs r <= sens.
Proof. exact bend_bounded. Qed.
Print Assumptions C10_product_bounded_by_sensitivity.

Theorem C10_product_monotone : forall pb pb' sens r r',
  is_u32 pb -> is_u32 pb' -> is_u32 sens -> pb <= pb' ->
  bend_times_sensitivity pb sens = Ok r -> bend_times_sensitivity pb' sens = Ok r' -> r <= r'.
Proof. exact bend_product_mono. Qed.
Print Assumptions C10_product_monotone.

(* d above and d below the centre give q and -q before saturation *)
Theorem C10_product_mirrored : forall d sens q, 0 <= d <= 2147483647 -> is_u32 sens ->
  towards_zero ((2147483648 + d - 2147483648) * sens) 2147483648 q ->
  exists r r', bend_times_sensitivity (2147483648 + d) sens = Ok r /\
    bend_times_sensitivity (2147483648 - d) sens = Ok r' /\
    saturated q (-2147483648) 2147483647 r /\ saturated (- q) (-2147483648) 2147483647 r'.
Proof. exact bend_product_mirror. Qed.
Print Assumptions C10_product_mirrored.

Theorem C10_centre_is_zero : forall sens, bend_times_sensitivity pitch_bend_reset sens = Ok 0.
Proof. reflexivity. Qed.
Print Assumptions C10_centre_is_zero.

Example C10_ex :
  bend_times_sensitivity 4294967295 67108864 = Ok 67108863 /\
  bend_times_sensitivity 0 67108864 = Ok (-67108864) /\
  bend_times_sensitivity 0 4294967295 = Ok (-2147483648) /\
  bend_times_sensitivity 4294967295 4294967295 = Ok 2147483647 /\
  towards_zero ((2147483648 + 3 - 2147483648) * 1073741824) 2147483648 1.
Proof.
  split; [|split; [|split; [|split]]]; try (vm_compute; reflexivity).
  unfold towards_zero. lia. Qed.

(* ---- C56 -------------------------------------------------------------------- *)

Theorem C56_note_to_pitch_7_9_and_back : forall n, is_u7 n -> is_u16 (pitch_7_9_of_note n) /\
  pitch_7_9_of_note n = 512 * n /\ pitch_7_9_note_nr (pitch_7_9_of_note n) = n.
Proof. exact note_pitch_7_9. Qed.
Print Assumptions C56_note_to_pitch_7_9_and_back.

Theorem C56_note_to_pitch_7_25_and_back : forall n, is_u7 n ->
  exists p, pitch_7_25_of_note n = Ok p /\ is_u32 p /\
  p = 33554432 * n /\ pitch_7_25_note_nr p = n.
Proof. exact note_pitch_7_25. Qed.
Print Assumptions C56_note_to_pitch_7_25_and_back.

Theorem C56_widening_keeps_the_pitch : forall p, is_u16 p -> is_u32 (pitch_7_25_of_7_9 p) /\
  pitch_7_25_of_7_9 p = 65536 * p /\
  pitch_7_25_note_nr (pitch_7_25_of_7_9 p) = pitch_7_9_note_nr p.
Proof. exact pitch_7_9_widened. Qed.
Print Assumptions C56_widening_keeps_the_pitch.

(* note numbers of 128 and more shift out of range *)
Theorem C56_larger_notes_refuted : forall n, 128 <= n <= 255 ->
  pitch_7_25_of_note n = Fault ShiftOverflow.
Proof. exact note_overflow. Qed.
Print Assumptions C56_larger_notes_refuted.

Theorem C56_default_sensitivity : exists p, pitch_bend_sensitivity_default = Ok p /\
  pitch_7_25_note_nr p = 2 /\ p mod 33554432 = 0.
Proof. exists 67108864. repeat split; vm_compute; reflexivity. Qed.
Print Assumptions C56_default_sensitivity.

Example C56_ex : is_u7 60 /\ pitch_7_9_of_note 60 = 0x7800 /\ pitch_7_25_of_note 60 = Ok 0x78000000 /\
  pitch_7_25_of_7_9 0x7812 = 0x78120000.
Proof. repeat split; vm_compute; congruence. Qed.
