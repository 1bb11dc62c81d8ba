(* C67: a MIDI 2 message that passes through MIDI 1 comes back rounded. *)
From Coq Require Import ZArith List Bool Lia.
From Verif Require Import Base Packet PacketSpec Types ChannelVoice VoiceSpec VoiceChecks VoiceTranslate VoiceReturnSpec VoiceReturn.
Import ListNotations.
Local Open Scope Z_scope.

(* what comes back: the same message with its value rounded *)
Theorem C67_there_and_back : forall g ch m q, address g ch -> m2_ok m -> attribute_7bit m ->
  to_midi1 (layout2 g ch m) = Some q ->
  exists m', to_midi2 q = Ok (Some (layout2 g ch m')) /\ m2_ok m' /\ comes_back m m' /\
    to_midi1 (layout2 g ch m') = Some q.
Proof. exact there_and_back. Qed.
Print Assumptions C67_there_and_back.
Example C67_there_and_back_ex :
  let m := ControlChange2 7 0xABCDEF01 in let m' := ControlChange2 7 0xAAAAAAAA in
  address 3 5 /\ m2_ok m /\ attribute_7bit m /\ to_midi1 (layout2 3 5 m) = Some (mkP 0x23B50755 0 0 0) /\
  to_midi2 (mkP 0x23B50755 0 0 0) = Ok (Some (layout2 3 5 m')) /\ rounded 7 32 0xABCDEF01 0xAAAAAAAA.
Proof. cbv zeta. unfold rounded. vm_compute. repeat split; try congruence. intros [H | [H | H]]; discriminate. Qed.

(* any packet at all that has a translation: the way back exists, keeps message type, group, status and channel, and a
   second pass changes nothing *)
Theorem C67_second_pass : forall p q, wf_packet p -> to_midi1 p = Some q ->
  exists r, to_midi2 q = Ok (Some r) /\ to_midi1 r = Some q /\ w0 r / 65536 = w0 p / 65536.
Proof. exact second_pass. Qed.
Print Assumptions C67_second_pass.
Example C67_second_pass_ex :
  let p := mkP 0x4F93BC00 0x00FF1234 5 6 in wf_packet p /\ to_midi1 p = Some (mkP 0x2F933C01 0 0 0) /\
  to_midi2 (mkP 0x2F933C01 0 0 0) = Ok (Some (mkP 0x4F933C00 0x02000000 0 0)).
Proof. cbv zeta. vm_compute. repeat split; congruence. Qed.

(* greater values never become smaller ones *)
Theorem C67_order_kept : forall g ch a b, address g ch -> m2_ok a -> m2_ok b -> attribute_7bit a -> attribute_7bit b ->
  not_above a b ->
  forall p q, to_midi1 (layout2 g ch a) = Some p -> to_midi1 (layout2 g ch b) = Some q ->
  exists x y, p = layout1 g ch x /\ q = layout1 g ch y /\ m1_ok x /\ m1_ok y /\ not_above1 x y.
Proof. exact order_kept. Qed.
Print Assumptions C67_order_kept.
Example C67_order_ex :
  let a := PitchBend2 0x7FFFFFFF in let b := PitchBend2 0x80000000 in
  address 0 1 /\ m2_ok a /\ m2_ok b /\ attribute_7bit a /\ not_above a b /\
  to_midi1 (layout2 0 1 a) = Some (layout1 0 1 (PitchBend1 8191)) /\
  to_midi1 (layout2 0 1 b) = Some (layout1 0 1 (PitchBend1 8192)).
Proof. cbv zeta. vm_compute. repeat split; congruence. Qed.
