(* Model of the integer part of /repo/inc/midi/types.h: value scaling, pitch,
   pitch increment, pitch bend and controller arithmetic.  The classes wrap a
   single integer, which is the model's value.  Conversions from and to floating
   point are in Floats.v. *)
From Coq Require Import ZArith List Bool.
From Verif Require Import Base.
Import ListNotations.
Local Open Scope Z_scope.
Local Open Scope res_scope.

(* ---- signed 64 bit intermediates ------------------------------------------- *)

(* the value of a signed 64 bit expression, overflow is undefined behaviour *)
Definition s64 (x : Z) : res Z :=
  if (-9223372036854775808 <=? x) && (x <=? 9223372036854775807)
  then Ok x else Fault SignedOverflow.

(* std::clamp(v, lo, hi), used at types.h:654 *)
Definition clamp (v lo hi : Z) : Z := if v <? lo then lo else if hi <? v then hi else v.

(* a << k on an int operand, converted to uint32_t: undefined unless the result
   is representable in unsigned int (C++14 and later) *)
Definition shl_int (a k : Z) : res Z :=
  let r := Z.shiftl a k in
  if (0 <=? r) && (r <? 4294967296) then Ok r else Fault ShiftOverflow.

(* ---- downscaling ------------------------------------------------------------- *)

(* types.h:256-259 *)
Definition downsample_16_to_7bit (v : Z) : Z := u8 (Z.shiftr v 9).
(* types.h:260-263 *)
Definition downsample_32_to_7bit (v : Z) : Z := u8 (Z.shiftr v 25).
(* types.h:264-267 *)
Definition downsample_32_to_14bit (v : Z) : Z := u16 (Z.shiftr v 18).

(* ---- upscaling ----------------------------------------------------------------- *)

(* types.h:438-448; argument type uint8_t *)
Definition upsample_7_to_16bit (v : Z) : Z :=
  let result := u16 (Z.shiftl v 9) in
  if 64 <? v then
    let bits := Z.land v 63 in
    u16 (Z.lor result (Z.lor (Z.shiftl bits 3) (Z.shiftr bits 3)))
  else result.

(* types.h:452-463; argument type uint8_t *)
Definition upsample_7_to_32bit (v : Z) : Z :=
  let result := u32 (Z.shiftl v 25) in
  if 64 <? v then
    let bits := Z.land v 63 in
    let bits := Z.lor bits (u32 (Z.shiftl bits 6)) in
    Z.lor result (Z.lor (Z.lor (u32 (Z.shiftl bits 13)) (u32 (Z.shiftl bits 1)))
                        (Z.shiftr bits 11))
  else result.

(* types.h:467-478; argument type uint16_t, promoted to int before the shift *)
Definition upsample_14_to_32bit (v : Z) : res Z :=
  result <- shl_int v 18 ;;
  Ok (if 8192 <? v then
        let bits := Z.land v 8191 in
        Z.lor result (Z.lor (Z.shiftl bits 5) (Z.shiftr bits 8))
      else result).

(* types.h:509-513: the loop "while (repeat_value != 0)".  The first argument
   bounds the number of iterations, [None] means the bound was too small; 33 is
   proved to be enough for every 32 bit start value. *)
Fixpoint repeat_loop (fuel : nat) (repeat_bits result repeat_value : Z) : option Z :=
  if repeat_value =? 0 then Some result else
  match fuel with
  | O => None
  | S fuel =>
      repeat_loop fuel repeat_bits (Z.lor result repeat_value)
                  (Z.shiftr repeat_value repeat_bits)
  end.

(* types.h:482-515; v has type uint32_t, x and y uint8_t *)
Definition upsample_x_to_ybit (v x y : Z) : res (option Z) :=
  assert_ ((1 <? x) && (y <=? 32) && (x <? y)) ;;;
  let scale_bits := u8 (y - x) in
  let x_center := Z.shiftl 1 (x - 1) in
  let result := u32 (Z.shiftl v scale_bits) in
  if v <=? x_center then Ok (Some result) else
  let repeat_bits := u8 (x - 1) in
  let repeat_mask := Z.shiftl 1 repeat_bits - 1 in
  let repeat_value := Z.land v repeat_mask in
  let repeat_value :=
    if repeat_bits <? scale_bits
    then u32 (Z.shiftl repeat_value (scale_bits - repeat_bits))
    else Z.shiftr repeat_value (repeat_bits - scale_bits) in
  Ok (repeat_loop 33 repeat_bits result repeat_value).

(* ---- value classes ----------------------------------------------------------------- *)

(* types.h:273-276, 277-280 *)
Definition velocity_of_uint7 (v : Z) : Z := upsample_7_to_16bit v.
Definition velocity_as_uint7 (value : Z) : Z := downsample_16_to_7bit value.

(* types.h:294-297, 298-301, 302-305 *)
Definition pitch_bend_of_uint14 (v : Z) : res Z := upsample_14_to_32bit v.
Definition pitch_bend_as_uint14 (value : Z) : Z := downsample_32_to_14bit value.
Definition pitch_bend_reset : Z := 2147483648.

(* types.h:332-335, 336-339: n << 9 is converted to uint16_t *)
Definition pitch_7_9_of_note (n : Z) : Z := u16 (Z.shiftl n 9).
Definition pitch_7_9_note_nr (value : Z) : Z := u8 (Z.shiftr value 9).

(* types.h:353-356: n << 25 on int *)
Definition pitch_7_25_of_note (n : Z) : res Z := shl_int n 25.
(* types.h:357-360, 768-772 *)
Definition pitch_7_25_of_7_9 (p : Z) : Z := u32 (Z.shiftl p 16).
(* types.h:366-369 *)
Definition pitch_7_25_note_nr (value : Z) : Z := u8 (Z.shiftr value 25).
(* types.h:379-382 *)
Definition pitch_bend_sensitivity_default : res Z := pitch_7_25_of_note 2.

(* types.h:406-409, 410-413, 419-422, 423-426 *)
Definition controller_of_uint14 (v : Z) : res Z := upsample_14_to_32bit v.
Definition controller_of_uint7 (v : Z) : Z := upsample_7_to_32bit v.
Definition controller_as_uint14 (value : Z) : Z := downsample_32_to_14bit value.
Definition controller_as_uint7 (value : Z) : Z := downsample_32_to_7bit value.

(* ---- arithmetic ---------------------------------------------------------------------- *)

(* std::numeric_limits, used at types.h:612-654 *)
Definition int32_min : Z := -2147483648.
Definition int32_max : Z := 2147483647.
Definition uint32_max : Z := 4294967295.

(* types.h:659-665: pitch_increment + pitch_increment *)
Definition increment_add (value inc : Z) : res Z :=
  sum <- s64 (value + inc) ;;
  Ok (s32 (clamp sum int32_min int32_max)).

(* types.h:652-657: pitch_increment += pitch_increment, the new value *)
Definition increment_add_assign (value inc : Z) : res Z :=
  sum <- s64 (value + inc) ;;
  Ok (s32 (clamp sum int32_min int32_max)).

(* types.h:774-779: pitch_7_25 + pitch_increment *)
Definition pitch_add (value inc : Z) : res Z :=
  sum <- s64 (value + inc) ;;
  Ok (u32 (clamp sum 0 uint32_max)).

(* types.h:810-814: pitch_7_25 += pitch_increment, the new value *)
Definition pitch_add_assign (value inc : Z) : res Z :=
  sum <- s64 (value + inc) ;;
  Ok (u32 (clamp sum 0 uint32_max)).

(* types.h:818-830: pitch_bend * pitch_bend_sensitivity *)
Definition bend_times_sensitivity (pb sens : Z) : res Z :=
  result <- s64 (pb - 2147483648) ;;
  if result =? 0 then Ok 0 else
  result <- s64 (result * sens) ;;
  result <- s64 (Z.quot result 2147483648) ;;
  Ok (s32 (clamp result int32_min int32_max)).

(* types.h:384-387 *)
Definition sensitivity_times_bend (sens pb : Z) : res Z := bend_times_sensitivity pb sens.

(* types.h:854-865: controller_value + controller_increment *)
Definition controller_add (value inc : Z) : res Z :=
  r <- s64 (value + inc) ;;
  Ok (if r <=? 0 then 0 else if uint32_max <? r then uint32_max else u32 r).

(* types.h:867-870: controller_value += controller_increment, the new value *)
Definition controller_add_assign (value inc : Z) : res Z := controller_add value inc.
