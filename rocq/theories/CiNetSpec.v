(* What is claimed of discovery among MIDI-CI devices *)
From Coq Require Import ZArith List Bool.
From Verif Require Import Base Sysex UniversalSysex SysexSpec CapSpec CapCalls CiNet.
Import ListNotations.
Local Open Scope Z_scope.

Definition device_ok (d : ci_device) : Prop :=
  0 <= cd_muid d < 0x0FFFFFFF /\ identity_fits (cd_identity d) /\ is_u7 (cd_categories d) /\ is_u28 (cd_max_size d) /\
  is_u7 (cd_path d) /\ is_u7 (cd_block d).

(* 28 bits at a position, least significant seven first *)
Definition muid_at (i : nat) (s : sysex) : Z := val7 (firstn 4 (skipn i (sx_data s))).
(* the message says something of device [m]: a discovery message from it, or that its id is invalid *)
Definition concerns (m : Z) (s : sysex) : bool :=
  let b i := nth i (sx_data s) 0 in
  (sx_id s =? 0x7E0000) && (b 1%nat =? 0x0D) &&
  (((b 2%nat =? 0x70) || (b 2%nat =? 0x71)) && (muid_at 4 s =? m) || (b 2%nat =? 0x7E) && (muid_at 12 s =? m)).
(* the message asks device [d] who it is: an inquiry of sufficient size from another device, to [d] or to everybody *)
Definition asks (d : ci_device) (s : sysex) : bool :=
  let b i := nth i (sx_data s) 0 in
  (sx_id s =? 0x7E0000) && (b 1%nat =? 0x0D) && (b 2%nat =? 0x70) &&
  (28 + (if 1 <? b 3%nat then 1 else 0) <=? size (sx_data s)) &&
  negb (muid_at 4 s =? cd_muid d) && ((muid_at 8 s =? cd_muid d) || (muid_at 8 s =? 0x0FFFFFFF)).
(* the inquiry, the reply and the farewell of a device, as messages *)
Definition inquiry_of (d : ci_device) : sysex :=
  wire_of (CDiscoveryInquiry (cd_muid d) (cd_identity d) (cd_categories d) (cd_max_size d) (cd_path d)).
Definition answer_of (d : ci_device) (asker : Z) : sysex :=
  wire_of (CDiscoveryReply (cd_muid d) asker (cd_identity d) (cd_categories d) (cd_max_size d) (cd_path d) (cd_block d)).
Definition farewell_of (d : ci_device) : sysex := wire_of (CInvalidateMuid (cd_muid d) (cd_muid d)).
