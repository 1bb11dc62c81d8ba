(* C78: a received MIDI-CI message that a view accepts reads as its bytes say. *)
From Coq Require Import ZArith List Bool Lia.
From Verif Require Import Base Sysex UniversalSysex SysexSpec SysexProofs CapInq CapSpec CapProofs CapReport CapReportProofs.
Import ListNotations.
Local Open Scope Z_scope.

(* a view accepts a message of 7 bit bytes iff it has contents of that kind, and then the accessors return
   the header and the contents *)
Theorem C78_accepted_iff_readable dbg k s : all7 (sx_data s) ->
  (validate_of k s = Ok true <->
   exists dev version src dst r rest, says k dev version src dst r rest s /\
     (exists subtype, In subtype (subtypes k) /\ common_fields s dev subtype version src dst) /\
     returns dbg k dev version r s).
Proof.
  intros A. split.
  - intros H. destruct (accepted_says k s A H) as (dev & ver & src & dst & r & rest & Q).
    exists dev, ver, src, dst, r, rest. split; trivial. split; [exact (says_common _ _ _ _ _ _ _ _ Q)|exact (says_returns dbg _ _ _ _ _ _ _ _ Q)].
  - intros (dev & ver & src & dst & r & rest & Q & _). apply (says_accepted _ _ _ _ _ _ _ _ Q).
Qed.
Print Assumptions C78_accepted_iff_readable.

(* whatever follows the contents: the view accepts and the accessors do not look at it *)
Theorem C78_read dbg k dev version src dst r rest s : says k dev version src dst r rest s ->
  validate_of k s = Ok true /\ (exists subtype, In subtype (subtypes k) /\ common_fields s dev subtype version src dst) /\
  returns dbg k dev version r s.
Proof.
  intros Q. split; [apply (says_accepted _ _ _ _ _ _ _ _ Q)|].
  split; [exact (says_common _ _ _ _ _ _ _ _ Q)|exact (says_returns dbg _ _ _ _ _ _ _ _ Q)].
Qed.
Print Assumptions C78_read.

(* there is one way to read a message *)
Theorem C78_unambiguous k dev version src dst r rest dev' version' src' dst' r' rest' s :
  says k dev version src dst r rest s -> says k dev' version' src' dst' r' rest' s ->
  dev' = dev /\ version' = version /\ src' = src /\ dst' = dst /\ layout k version r' = layout k version r /\ rest' = rest.
Proof. exact (says_unique k dev version src dst r rest dev' version' src' dst' r' rest' s). Qed.
Print Assumptions C78_unambiguous.

(* a reply with one enabled and two disabled profiles and three bytes after it *)
Definition reply_example : sysex :=
  ci_wire 0x7F 0x21 2 1234567 7654321
    ([1; 0] ++ [0x7E; 1; 2; 3; 4] ++ [2; 0] ++ [0x7E; 5; 6; 7; 8] ++ [0; 1; 2; 3; 4] ++ [9; 9; 9]).
Example reply_example_says :
  all7 (sx_data reply_example) /\
  says KProfileInquiryReply 0x7F 2 1234567 7654321
    (RProfiles [mkProf 0x7E 1 2 3 4] [mkProf 0x7E 5 6 7 8; mkProf 0 1 2 3 4]) [9; 9; 9] reply_example.
Proof.
  split; [repeat constructor; unfold is_u7; lia|].
  eexists 0x21, _. split; [now left|]. split; [reflexivity|]. split; [reflexivity|].
  repeat split; try (unfold is_u7, is_u28; lia); try (repeat constructor; cbn; lia).
Qed.
Example reply_example_read : disabled_profiles true reply_example = Ok [mkProf 0x7E 5 6 7 8; mkProf 0 1 2 3 4].
Proof. vm_compute. reflexivity. Qed.

(* the bytes of a property exchange message *)
Example property_example_says :
  says KGetProperty 0x7F 2 1 2 (RProperty 5 [0x7B; 0x7D] 1 1 []) []
    (ci_wire 0x7F 0x34 2 1 2 [5; 2; 0; 0x7B; 0x7D; 1; 0; 1; 0; 0; 0]).
Proof.
  eexists 0x34, _. split; [now left|]. split; [reflexivity|]. split; [reflexivity|].
  repeat split; try (unfold is_u7, is_u28; lia); try (repeat constructor; cbn; lia); cbn; auto; right; lia.
Qed.

(* Not with bytes above 0x7F: a reply with 128 enabled profiles by the low byte of the count alone, of which
   the same view says that it has none. *)
Definition reply_8bit : sysex := ci_wire 0x7F 0x21 2 1 2 ([0x80; 0] ++ repeat 1 640 ++ [0; 0]).
Theorem C78_eight_bits_refuted : exists s, Forall is_u8 (sx_data s) /\
  validate_of KProfileInquiryReply s = Ok true /\
  num_enabled_profiles s = Ok 128 /\ has_enabled_profiles s = Ok false /\
  (exists l, enabled_profiles true s = Ok l /\ length l = 128%nat).
Proof.
  exists reply_8bit. split; [|vm_compute; repeat split; eexists; split; reflexivity].
  unfold reply_8bit, ci_wire. cbn [sx_data]. repeat rewrite Forall_app. repeat split.
  all: try (apply Forall_forall; intros x H; apply repeat_spec in H; subst x; unfold is_u8; lia).
  all: cbn; repeat constructor; unfold is_u8; lia.
Qed.
Print Assumptions C78_eight_bits_refuted.
