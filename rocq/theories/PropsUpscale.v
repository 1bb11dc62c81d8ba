(* C06, exact values *)
From Coq Require Import ZArith List Bool.
From Verif Require Import Base Types TypesProofs VoiceSpec UpscaleProofs.
Import ListNotations.
Local Open Scope Z_scope.

(* the generic upscaler computes the min-center-max scaling of the MIDI 2 specification, for every pair of
   widths and every value *)
Theorem C06_generic_exact : forall v x y, 2 <= x -> x < y -> y <= 32 -> 0 <= v < 2 ^ x ->
  upsample_x_to_ybit v x y = Ok (Some (min_center_max x y v)).
Proof. exact generic_exact. Qed.
Print Assumptions C06_generic_exact.

(* and so do the dedicated ones *)
Theorem C06_dedicated_exact :
  (forall v, is_u7 v -> upsample_7_to_16bit v = min_center_max 7 16 v) /\
  (forall v, is_u7 v -> upsample_7_to_32bit v = min_center_max 7 32 v) /\
  (forall v, is_u14 v -> upsample_14_to_32bit v = Ok (min_center_max 14 32 v)).
Proof. exact dedicated_exact. Qed.
Print Assumptions C06_dedicated_exact.

Example C06_exact_ex : upsample_x_to_ybit 200 8 12 = Ok (Some 0xC89) /\ min_center_max 8 12 200 = 0xC89 /\
  min_center_max 2 32 3 = 0xFFFFFFFF /\ min_center_max 3 32 5 = 0xAAAAAAAA /\ upsample_x_to_ybit 5 3 32 = Ok (Some 0xAAAAAAAA).
Proof. repeat split; vm_compute; reflexivity. Qed.
