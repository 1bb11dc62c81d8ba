(* What is claimed of profiles *)
From Coq Require Import ZArith List Bool.
From Verif Require Import Base Sysex UniversalSysex SysexSpec CapInq CapSpec CapCalls CiNetSpec Profiles.
Import ListNotations.
Local Open Scope Z_scope.

Definition profile_ok (p : profile_id) : Prop := Forall is_u7 (profile_bytes p).
(* what a device may have: each profile once, and not more of one channel, group or function block than can be reported *)
Definition profiles_ok (st : list prof_entry) : Prop :=
  Forall (fun e => is_u7 (pe_dev e) /\ profile_ok (pe_id e)) st /\
  NoDup (map (fun e => (pe_dev e, pe_id e)) st) /\
  forall dev, size (of_dev dev st) <= 16383.
Definition input_ok (i : dev_input) : Prop :=
  match i with
  | InMessage s => Forall is_u7 (sx_data s)
  | InAdd dev p | InRemove dev p => is_u7 dev /\ profile_ok p
  end.
Definition muid_ok (m : Z) : Prop := 0 <= m < 0x0FFFFFFF.
(* a capability inquiry message of device [m] *)
Definition from (m : Z) (s : sysex) : bool :=
  (sx_id s =? 0x7E0000) && (12 <=? size (sx_data s)) && (nth 1 (sx_data s) 0 =? 0x0D) && (muid_at 4 s =? m).
